(** Configuration: the Rust trait [CapConfig] (src/config.rs 25-69) and the cryptographic primitives that the code
    takes from external crates (arkworks 0.3, jellyfish rev bcd92b2, sha3, sha2, crypto_box).

    External operations are fields of the class [CapConfig]; what is assumed about them is the record [CapLaws].
    Neither is an axiom: every theorem that uses them is quantified over all instances, and Toy.v builds one. *)
From Verif Require Import Base.

(** ** Constants (src/constants.rs 16-46) *)
Definition ATTRS_LEN : nat := 8.
Definition ASSET_TRACING_MAP_LEN : nat := 4.
Definition VIEWABLE_DATA_LEN : nat := 12.
Definition MAX_TIMESTAMP_LEN : nat := 20.
Definition AMOUNT_LEN : nat := 127.
(** b"DOMESTIC_ASSET" and b"FOREIGN_ASSET" in ASCII. *)
Definition DOM_SEP_DOMESTIC_ASSET : bytes :=
  map b8 [68; 79; 77; 69; 83; 84; 73; 67; 95; 65; 83; 83; 69; 84].
Definition DOM_SEP_FOREIGN_ASSET : bytes :=
  map b8 [70; 79; 82; 69; 73; 71; 78; 95; 65; 83; 83; 69; 84].

(** ** The two prime fields (src/config.rs 44-48)

    [modulus] is the order of [C::ScalarField] (the circuit field), [sub_order] the order of
    [C::EmbeddedCurveScalarField].  The bounds hold for the three configurations of src/config.rs
    (bn254, bls12_377, bls12_381): their moduli have 254, 253 and 255 bits.  Primality is not used. *)
Class FieldCfg := {
  modulus : Z;
  modulus_lb : 2 ^ 252 < modulus;
  modulus_ub : modulus < 2 ^ 255;
  sub_order : Z;
  sub_order_lb : 2 < sub_order;
  sub_order_ub : sub_order < modulus
}.

Section Field.
  Context {FC : FieldCfg}.

  Lemma modulus_pos : 0 < modulus.
  Proof. pose proof modulus_lb. lia. Qed.
  Lemma sub_order_pos : 0 < sub_order.
  Proof. pose proof sub_order_lb. lia. Qed.

  (** [C::ScalarField] *)
  Definition F := zmod modulus.
  (** [C::EmbeddedCurveScalarField] *)
  Definition Fj := zmod sub_order.

  Definition fz (z : Z) : F := zred modulus modulus_pos z.
  Definition sz (z : Z) : Fj := zred sub_order sub_order_pos z.
  Definition f0 : F := fz 0.
  Definition f1 : F := fz 1.
  Definition fadd (a b : F) : F := fz (zv a + zv b).
  Definition fsub (a b : F) : F := fz (zv a - zv b).
  Definition fmul (a b : F) : F := fz (zv a * zv b).
  Definition fneg (a : F) : F := fz (- zv a).
  Definition fbool (b : bool) : F := if b then f1 else f0.
  Definition fsum (l : list F) : F := fold_right fadd f0 l.

  (** [jf_utils::fr_to_fq]: reads an embedded-curve scalar as a circuit-field element of the same integer value. *)
  Definition fr_to_fq (s : Fj) : F := fz (zv s).

  (** Number of bits of the embedded scalar field ([EmbeddedCurveScalarField::size_in_bits()]). *)
  Definition scalar_bits : Z := Z.log2 sub_order + 1.

  (** [C::ScalarField::from(x)] for unsigned machine integers *)
  Definition f_of_u64 (x : u64) : F := fz (zv x).
  Definition f_of_u128 (x : u128) : F := fz (zv x).

  (** [into_repr().to_bytes_le()]: 32 little-endian bytes (src/config.rs 51-52 SCALAR_REPR_BYTE_LEN = 32). *)
  Definition SCALAR_REPR_BYTE_LEN : nat := 32.
  (** src/config.rs 56-57: CAPACITY/8 - 1 = 30 for 253, 252 and 254 bits of capacity. *)
  Definition PER_ATTR_BYTE_CAPACITY : nat := 30.
  Definition f_to_bytes_le (x : F) : bytes := le_bytes SCALAR_REPR_BYTE_LEN (zv x).
  (** [from_le_bytes_mod_order] *)
  Definition f_from_le_bytes_mod_order (b : bytes) : F := fz (from_le b).

  (** src/config.rs 62-68 *)
  Definition native_asset_code : F := fz 1.
  Definition dummy_asset_code : F := fz 2.

  Lemma zv_fz z : zv (fz z) = z mod modulus.
  Proof. reflexivity. Qed.
  Lemma fz_small z : 0 <= z < modulus -> zv (fz z) = z.
  Proof. apply zred_small. Qed.
  Lemma fz_zv (a : F) : fz (zv a) = a.
  Proof. apply zred_zv. Qed.
  Lemma zv_f0 : zv f0 = 0.
  Proof. apply fz_small; pose proof modulus_lb; lia. Qed.
  Lemma zv_f1 : zv f1 = 1.
  Proof. apply fz_small; pose proof modulus_lb; lia. Qed.
  Lemma f0_neq_f1 : f0 <> f1.
  Proof. intros H; apply (f_equal zv) in H; rewrite zv_f0, zv_f1 in H; discriminate. Qed.
  Lemma native_neq_dummy : native_asset_code <> dummy_asset_code.
  Proof.
    intros H; apply (f_equal zv) in H. unfold native_asset_code, dummy_asset_code in H.
    rewrite !fz_small in H by (pose proof modulus_lb; lia). discriminate.
  Qed.
  Lemma u64_lt_modulus (x : u64) : 0 <= zv x < modulus.
  Proof. pose proof (zv_range x); pose proof modulus_lb. assert (u64_mod < 2 ^ 252) by reflexivity. lia. Qed.
  Lemma u128_lt_modulus (x : u128) : 0 <= zv x < modulus.
  Proof. pose proof (zv_range x); pose proof modulus_lb. assert (u128_mod < 2 ^ 252) by reflexivity. lia. Qed.
  Lemma zv_f_of_u64 (x : u64) : zv (f_of_u64 x) = zv x.
  Proof. apply fz_small, u64_lt_modulus. Qed.
  Lemma zv_f_of_u128 (x : u128) : zv (f_of_u128 x) = zv x.
  Proof. apply fz_small, u128_lt_modulus. Qed.
  Lemma zv_fr_to_fq (s : Fj) : zv (fr_to_fq s) = zv s.
  Proof. apply fz_small; pose proof (zv_range s); pose proof sub_order_ub; lia. Qed.
  Lemma f_of_u64_inj x y : f_of_u64 x = f_of_u64 y -> x = y.
  Proof. intros H; apply zmod_ext; rewrite <- !zv_f_of_u64, H; reflexivity. Qed.
  Lemma f_of_u128_inj x y : f_of_u128 x = f_of_u128 y -> x = y.
  Proof. intros H; apply zmod_ext; rewrite <- !zv_f_of_u128, H; reflexivity. Qed.
  Lemma fr_to_fq_inj x y : fr_to_fq x = fr_to_fq y -> x = y.
  Proof. intros H; apply zmod_ext; rewrite <- !zv_fr_to_fq, H; reflexivity. Qed.
  Lemma fbool_inj a b : fbool a = fbool b -> a = b.
  Proof. destruct a, b; cbn; intros H; auto; exfalso; [apply f0_neq_f1; auto|apply f0_neq_f1; auto]. Qed.
  Lemma sub_order_bits : sub_order < 2 ^ scalar_bits.
  Proof. unfold scalar_bits. pose proof (Z.log2_spec sub_order sub_order_pos). rewrite Z.add_1_r. lia. Qed.

  (** Ring facts used for balances. *)
  Lemma fadd_comm a b : fadd a b = fadd b a.
  Proof. unfold fadd; f_equal; lia. Qed.
  Lemma fadd_assoc a b c : fadd a (fadd b c) = fadd (fadd a b) c.
  Proof.
    apply zmod_ext; unfold fadd; rewrite !zv_fz.
    rewrite Zplus_mod_idemp_r, Zplus_mod_idemp_l; f_equal; lia.
  Qed.
  Lemma fadd_0_l a : fadd f0 a = a.
  Proof. unfold fadd; rewrite zv_f0; apply fz_zv. Qed.
  Lemma fadd_0_r a : fadd a f0 = a.
  Proof. rewrite fadd_comm; apply fadd_0_l. Qed.
  Lemma fmul_0_l a : fmul f0 a = f0.
  Proof. unfold fmul; rewrite zv_f0; reflexivity. Qed.
  Lemma fmul_1_l a : fmul f1 a = a.
  Proof. unfold fmul; rewrite zv_f1, Z.mul_1_l; apply fz_zv. Qed.
  Lemma fsub_diag a : fsub a a = f0.
  Proof. unfold fsub; rewrite Z.sub_diag; reflexivity. Qed.
  Lemma fsub_eq0 a b : fsub a b = f0 <-> a = b.
  Proof.
    split; [|intros ->; apply fsub_diag].
    intros H; apply (f_equal zv) in H; unfold fsub in H; rewrite zv_fz, zv_f0 in H.
    apply zmod_ext. pose proof (zv_range a); pose proof (zv_range b).
    apply Z.mod_divide in H; [|pose proof modulus_pos; lia]. destruct H as [k Hk].
    assert (k = 0) by nia. lia.
  Qed.
  Lemma zv_fsum l : zv (fsum l) = fold_right Z.add 0 (map zv l) mod modulus.
  Proof.
    induction l as [|x xs IH]; cbn [fsum fold_right map].
    - rewrite zv_f0, Z.mod_0_l; [reflexivity|pose proof modulus_pos; lia].
    - change (fold_right fadd f0 xs) with (fsum xs). unfold fadd. rewrite zv_fz, IH, Zplus_mod_idemp_r; reflexivity.
  Qed.
End Field.

(** Coordinates of a point of the embedded (twisted Edwards) curve, as circuit-field elements. *)
Definition xy {FC : FieldCfg} : Type := (F * F)%type.

(** ** External primitives *)
Class CapConfig := {
  cap_field :> FieldCfg;

  (** Cargo profile: [true] = overflow checks (debug: panic), [false] = release (wrap).  Cargo.toml sets no
      [overflow-checks], so both occur. *)
  overflow_checks : bool;

  (** Prime-order subgroup of the embedded curve ([GroupProjective<C::EmbeddedCurveParam>] values compared as
      affine points; arkworks' deserializer checks the subgroup). *)
  point : Type;
  point_eqb : point -> point -> bool;
  pt_id : point;                      (* GroupProjective::default() *)
  pt_gen : point;                     (* prime_subgroup_generator() *)
  pt_mul : Z -> point -> point;       (* Group::mul *)
  pt_xy : point -> xy;                (* into_affine() coordinates *)
  pt_of_xy : xy -> option point;      (* GroupAffine::new + is_on_curve + is_in_correct_subgroup *)
  (** scalar multiplication as computed by the circuit gadgets on any pair of coordinates, on the curve or not *)
  cmul : Z -> xy -> xy;

  (** hashes *)
  rescue3 : F -> F -> F -> F;         (* RescuePermutation::hash_3_to_1 = one-block rescue sponge *)
  rescue_sponge1 : F -> F;            (* Permutation::sponge_with_padding(&[x], 1)[0] *)
  prf_eval : F -> list F -> F;        (* jf_primitives::prf::PRF *)
  commit : list F -> F -> F;          (* jf_primitives RescueCommitment *)
  keccak_f : bytes -> F;              (* Keccak256 then from_le_bytes_mod_order *)
  hash_to_f : bytes -> F;             (* jf_utils::hash_to_field *)

  (** key stream of the hybrid ElGamal encryption: shared point coordinates, position *)
  keystream : xy -> nat -> F;
  (** Sha512/ChaCha-derived random viewer key of src/structs.rs 1408-1412 *)
  rand_viewer_pk : Fj -> point;

  (** Schnorr signatures (s, R) over lists of field elements *)
  sig_sign : Fj -> list F -> Fj * point;
  sig_ok : point -> list F -> Fj * point -> bool;
  csig_ok : xy -> list F -> F * xy -> bool;     (* the circuit gadget, on any coordinates *)

  (** authenticated encryption (jf_primitives::aead) *)
  enc_key : Type;
  enc_key_eqb : enc_key -> enc_key -> bool;
  enc_key_default : enc_key;
  dec_key : Type;
  enc_of_dec : dec_key -> enc_key;
  dec_key_default : dec_key;
  aead_ctxt : Type;
  aead_rand : Type;
  aead_encrypt : enc_key -> aead_rand -> bytes -> bytes -> option aead_ctxt;
  aead_decrypt : dec_key -> aead_ctxt -> bytes -> option bytes
}.

(** What is assumed about the external primitives. *)
Record CapLaws {C : CapConfig} : Prop := {
  point_eqb_spec : forall P Q, point_eqb P Q = true <-> P = Q;
  (** the neutral element of a twisted Edwards curve has coordinates (0,1); (0,0) is not on it *)
  pt_xy_id : pt_xy pt_id = (f0, f1);
  pt_of_xy_xy : forall P, pt_of_xy (pt_xy P) = Some P;
  pt_xy_of_xy : forall c P, pt_of_xy c = Some P -> pt_xy P = c;
  pt_of_xy_00 : pt_of_xy (f0, f0) = None;
  (** group laws *)
  pt_mul_mul : forall a b P, pt_mul a (pt_mul b P) = pt_mul (a * b) P;
  pt_mul_id : forall a, pt_mul a pt_id = pt_id;
  pt_mul_gen : forall a b, pt_mul a pt_gen = pt_mul b pt_gen <-> a mod sub_order = b mod sub_order;
  pt_mul_0 : forall P, pt_mul 0 P = pt_id;
  pt_gen_spans : forall P, exists k, P = pt_mul k pt_gen;
  cmul_xy : forall k P, cmul k (pt_xy P) = pt_xy (pt_mul k P);
  (** signatures *)
  sig_correct : forall sk m, sig_ok (pt_mul (zv sk) pt_gen) m (sig_sign sk m) = true;
  csig_agrees : forall pk m s R, csig_ok (pt_xy pk) m (fr_to_fq s, pt_xy R) = sig_ok pk m (s, R);
  (** authenticated encryption *)
  enc_key_eqb_spec : forall k k', enc_key_eqb k k' = true <-> k = k';
  enc_default : enc_of_dec dec_key_default = enc_key_default;
  aead_correct : forall d r m l c, aead_encrypt (enc_of_dec d) r m l = Some c -> aead_decrypt d c l = Some m
}.
Arguments CapLaws C : clear implicits.

Section Derived.
  Context {C : CapConfig}.

  (** jf_primitives::elgamal deterministic hybrid encryption: ephemeral key r*G, shared key r*pk, each message
      element masked by the key stream derived from the shared key. *)
  Definition mask (shared : xy) (msg : list F) : list F :=
    map (fun im => fadd (snd im) (keystream shared (fst im))) (combine (seq 0 (length msg)) msg).
  Definition unmask (shared : xy) (ct : list F) : list F :=
    map (fun im => fsub (snd im) (keystream shared (fst im))) (combine (seq 0 (length ct)) ct).
  Definition elgamal_encrypt (pk : point) (r : Fj) (msg : list F) : point * list F :=
    (pt_mul (zv r) pt_gen, mask (pt_xy (pt_mul (zv r) pk)) msg).
  Definition elgamal_decrypt (sk : Fj) (ct : point * list F) : list F :=
    unmask (pt_xy (pt_mul (zv sk) (fst ct))) (snd ct).
  (** the encryption gadget on circuit values *)
  Definition celgamal_encrypt (pk : xy) (r : F) (msg : list F) : xy * list F :=
    (pt_xy (pt_mul (zv r) pt_gen), mask (cmul (zv r) pk) msg).

  Definition xy_eqb (a b : xy) : bool := zeqb (fst a) (fst b) && zeqb (snd a) (snd b).
  Lemma xy_eqb_spec (a b : xy) : xy_eqb a b = true <-> a = b.
  Proof.
    unfold xy_eqb. rewrite andb_true_iff, !zeqb_spec. destruct a, b; cbn. split; [intros [-> ->]; auto|intros [= -> ->]; auto].
  Qed.

  Lemma mask_length s m : length (mask s m) = length m.
  Proof. unfold mask. rewrite map_length, combine_length, seq_length. lia. Qed.
  Lemma unmask_length s m : length (unmask s m) = length m.
  Proof. unfold unmask. rewrite map_length, combine_length, seq_length. lia. Qed.

  Lemma fsub_fadd a b : fsub (fadd a b) b = a.
  Proof.
    apply zmod_ext; unfold fsub, fadd; rewrite !zv_fz, Zminus_mod_idemp_l.
    replace (zv a + zv b - zv b) with (zv a) by lia. apply Z.mod_small, zv_range.
  Qed.

  Lemma unmask_mask s m : unmask s (mask s m) = m.
  Proof.
    unfold unmask; rewrite mask_length; unfold mask.
    generalize 0%nat as i; induction m as [|x m IH]; intros i; cbn; [reflexivity|].
    rewrite IH. f_equal. apply fsub_fadd.
  Qed.

  Context (L : CapLaws C).

  Lemma pt_mul_comm a b P : pt_mul a (pt_mul b P) = pt_mul b (pt_mul a P).
  Proof. rewrite !(pt_mul_mul L), Z.mul_comm; reflexivity. Qed.

  Lemma elgamal_correct sk r m : elgamal_decrypt sk (elgamal_encrypt (pt_mul (zv sk) pt_gen) r m) = m.
  Proof.
    unfold elgamal_decrypt, elgamal_encrypt; cbn [fst snd]. rewrite (pt_mul_comm (zv r)). apply unmask_mask.
  Qed.

  Lemma pt_xy_inj P Q : pt_xy P = pt_xy Q -> P = Q.
  Proof. intros H. assert (E : Some P = Some Q) by (rewrite <- !(pt_of_xy_xy L), H; reflexivity). congruence. Qed.

  Lemma point_eqb_refl P : point_eqb P P = true.
  Proof. apply (point_eqb_spec L); reflexivity. Qed.

  Lemma point_eqb_neq P Q : point_eqb P Q = false <-> P <> Q.
  Proof.
    split; intros H.
    - intros E; apply (point_eqb_spec L) in E; congruence.
    - destruct (point_eqb P Q) eqn:E; [|reflexivity]. apply (point_eqb_spec L) in E; contradiction.
  Qed.
End Derived.
