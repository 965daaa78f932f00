(** A concrete instance of [CapConfig] satisfying every law of [CapLaws]: the real bn254 moduli, the group of
    integers modulo the embedded curve's order as "curve", and simple polynomial functions as hashes.  It shows
    that the laws are consistent and is the setting of the non-vacuity examples and of the counterexamples.  It
    is not a model of the cryptography. *)
From Verif Require Import Base Config.

(** Orders of the bn254 scalar field and of the prime subgroup of ed_on_bn254. *)
Definition bn_p : Z := 21888242871839275222246405745257275088548364400416034343698204186575808495617.
Definition bn_l : Z := 2736030358979909402780800718157159386076813972158567259200215660948447373041.

#[local] Instance toy_field : FieldCfg.
Proof. refine {| modulus := bn_p; sub_order := bn_l |}; reflexivity. Defined.

Definition tp := zmod bn_l.
Definition tpz (z : Z) : tp := @sz toy_field z.

(** arbitrary odd multipliers for the toy hashes *)
Definition k1 : Z := 1000003.
Definition k2 : Z := 998244353.
Definition k3 : Z := 123456789123456789.
Definition horner (b : Z) (l : list F) : Z := fold_left (fun acc (x : F) => (acc * b + zv x + 7) mod bn_p) l 0.

Definition toy_sig_hash (m : list F) : Z := horner k2 m.

#[local] Instance toy (oc : bool) : CapConfig := {|
  cap_field := toy_field;
  overflow_checks := oc;
  point := tp;
  point_eqb := zeqb;
  pt_id := tpz 0;
  pt_gen := tpz 1;
  pt_mul := fun a P => tpz (a * zv P);
  pt_xy := fun P => (fz (zv P), f1);
  pt_of_xy := fun c => if zeqb (snd c) f1 && (zv (fst c) <? bn_l) then Some (tpz (zv (fst c))) else None;
  cmul := fun a c => (fz ((a * zv (fst c)) mod bn_l), snd c);
  rescue3 := fun a b c => fz (k1 * zv a + k2 * zv b + k3 * zv c + 17);
  rescue_sponge1 := fun a => fz (k2 * zv a + 3);
  prf_eval := fun k l => fz (k3 * zv k + horner k1 l + 5);
  commit := fun l r => fz (horner k3 l + k1 * zv r);
  keccak_f := fun b => fz (k2 * from_le b + 11 + k3 * Z.of_nat (length b));
  hash_to_f := fun b => fz (k1 * from_le b + 13 + k3 * Z.of_nat (length b));
  keystream := fun c i => fz (k1 * zv (fst c) + k2 * zv (snd c) + k3 * Z.of_nat i);
  rand_viewer_pk := fun r => tpz (k1 * zv r + 19);
  sig_sign := fun sk m => (sz (zv sk + toy_sig_hash m), tpz (toy_sig_hash m));
  sig_ok := fun pk m s => zeqb (snd s) (tpz (toy_sig_hash m)) && zeqb (fst s) (tpz (zv pk + zv (snd s)));
  csig_ok := fun pk m s =>
    zeqb (snd pk) f1 && zeqb (snd (snd s)) f1 && zeqb (fst (snd s)) (fz (zv (tpz (toy_sig_hash m)))) &&
    zeqb (fst s) (fz (zv (tpz (zv (fst pk) + zv (fst (snd s))))));
  enc_key := Z; enc_key_eqb := Z.eqb; enc_key_default := 0;
  dec_key := Z; enc_of_dec := fun d => d; dec_key_default := 0;
  aead_ctxt := (Z * bytes * bytes)%type;
  aead_rand := unit;
  aead_encrypt := fun k _ m l => Some (k, m, l);
  aead_decrypt := fun d c l => let '(k, m, l') := c in
    if (k =? d) && (length l =? length l')%nat && forallb (fun ab => zeqb (fst ab) (snd ab)) (combine l l')
    then Some m else None
|}.

Lemma bn_l_lt_p : bn_l < bn_p. Proof. reflexivity. Qed.
Lemma tp_fz_zv (P : tp) : zv (@fz toy_field (zv P)) = zv P.
Proof. apply (@fz_small toy_field). pose proof (zv_range P). pose proof bn_l_lt_p. change (@modulus toy_field) with bn_p. lia. Qed.
Lemma tpz_zv (P : tp) : tpz (zv P) = P.
Proof. apply zred_zv. Qed.
Lemma zv_tpz z : zv (tpz z) = z mod bn_l.
Proof. reflexivity. Qed.
Lemma fz_inj_tp (P Q : tp) : @fz toy_field (zv P) = @fz toy_field (zv Q) -> P = Q.
Proof. intros H. apply zmod_ext. rewrite <- (tp_fz_zv P), <- (tp_fz_zv Q), H. reflexivity. Qed.

Lemma zeqb_fz_tp (P Q : tp) : zeqb (@fz toy_field (zv P)) (@fz toy_field (zv Q)) = zeqb P Q.
Proof.
  destruct (zeqb P Q) eqn:E.
  - apply zeqb_spec in E; subst; apply zeqb_refl.
  - destruct (zeqb (fz (zv P)) (fz (zv Q))) eqn:E2; [|reflexivity].
    apply zeqb_spec, fz_inj_tp in E2; subst. rewrite zeqb_refl in E; discriminate.
Qed.

Lemma bytes_refl_aux (l : bytes) : forallb (fun ab => zeqb (fst ab) (snd ab)) (combine l l) = true.
Proof. induction l; cbn; [reflexivity|]. rewrite zeqb_refl; exact IHl. Qed.

Lemma toy_laws oc : CapLaws (toy oc).
Proof.
  constructor.
  - intros P Q; apply zeqb_spec.
  - reflexivity.
  - intros P. cbn [pt_of_xy pt_xy toy fst snd]. rewrite zeqb_refl. cbn [andb]. rewrite tp_fz_zv.
    pose proof (zv_range P). destruct (Z.ltb_spec (zv P) bn_l); [|lia]. apply (f_equal Some), tpz_zv.
  - intros [x y] P H. cbn [pt_of_xy toy fst snd] in H.
    match type of H with (if ?b then _ else _) = _ => destruct b eqn:E end; [|discriminate H].
    apply andb_true_iff in E. destruct E as [Ey Hx]. apply zeqb_spec in Ey; subst. apply Z.ltb_lt in Hx.
    injection H as <-. cbn [pt_xy toy]. f_equal. apply zmod_ext.
    rewrite tp_fz_zv, zv_tpz, Z.mod_small; [reflexivity|split; [apply zv_range|exact Hx]].
  - reflexivity.
  - intros a b P. cbn [pt_mul toy]. apply zmod_ext. rewrite !zv_tpz, Zmult_mod_idemp_r. f_equal; lia.
  - intros a. cbn [pt_mul pt_id toy]. apply zmod_ext. rewrite !zv_tpz, Z.mod_0_l, Z.mul_0_r by discriminate. reflexivity.
  - intros a b. cbn [pt_mul pt_gen toy]. change (@sub_order cap_field) with bn_l. 
    assert (H : forall x, x * zv (tpz 1) = x) by (intros x; rewrite zv_tpz, Z.mod_1_l by reflexivity; lia).
    rewrite !H. split; [intros E; apply (f_equal zv) in E; exact E|intros E; apply zmod_ext; exact E].
  - intros P. reflexivity.
  - intros P. exists (zv P). cbn [pt_mul pt_gen toy]. apply zmod_ext. rewrite !zv_tpz, Z.mod_1_l, Z.mul_1_r by reflexivity.
    symmetry. apply Z.mod_small, zv_range.
  - intros k P. cbn [cmul pt_xy pt_mul toy fst snd]. f_equal. rewrite tp_fz_zv. reflexivity.
  - intros sk m. cbn [sig_ok sig_sign pt_mul pt_gen toy fst snd]. rewrite zeqb_refl. cbn [andb]. apply zeqb_spec, zmod_ext.
    change (zv (sz (zv sk + toy_sig_hash m))) with ((zv sk + toy_sig_hash m) mod bn_l).
    rewrite !zv_tpz. rewrite (Z.mod_1_l bn_l), Z.mul_1_r by reflexivity.
    rewrite <- Zplus_mod. reflexivity.
  - intros pk m s R. cbn [csig_ok sig_ok toy pt_xy fst snd]. unfold fr_to_fq.
    rewrite !zeqb_refl. cbn [andb]. rewrite zeqb_fz_tp. rewrite !tp_fz_zv.
    f_equal. apply (zeqb_fz_tp s).
  - intros; apply Z.eqb_eq.
  - reflexivity.
  - intros d r m l c [= <-]. cbn. rewrite Z.eqb_refl, Nat.eqb_refl, bytes_refl_aux. reflexivity.
Qed.
