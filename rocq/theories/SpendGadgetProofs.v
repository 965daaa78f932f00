(** Specifications of the gadgets of src/circuit/gadgets.rs: balance, spending and masking. *)
From Verif Require Import Base Config Structs Keys Utils Memo Plonk Witness Circuits Relation CircuitLogic GadgetProofs StructGadgetProofs.

Section Gadgets.
  Context {C : CapConfig}.
  Notation T := (fun _ => True) (only parsing).
  Notation V1 rho x := (fun y : var => rho y = x) (only parsing).

  (** ** prove_spend *)
  Lemma g_address sk rho : gspec (derive_user_address sk) rho (scalar_ok (rho sk) = true)
     (fun p => vpt rho p = pt_xy (pt_mul (zv (rho sk)) pt_gen)) (fun p => vpt rho p = pt_xy (pt_mul (zv (rho sk)) pt_gen)).
  Proof. exact (g_fix sk rho). Qed.
  Hint Resolve g_address : gspec.

  Definition spender_key (sp : Spender) (r : RoV) : xy := match sp with SUser => ro_owner r | SFreezer => po_freezer (ro_pol r) end.
  Definition other_key (sp : Spender) (r : RoV) : xy := match sp with SUser => po_freezer (ro_pol r) | SFreezer => ro_owner r end.
  Definition spend_out (rho : env) (r : RoVar) (acc : AccVar) (sk : var) (sp : Spender) (nr : var * var) : Prop :=
    rho (fst nr) = nullifier_of (spending_key (rho sk) (other_key sp (vro rho r))) (pl_uid (vacc rho acc)) (commitment_of (vro rho r)) /\
    rho (snd nr) = root_from (vacc rho acc) (commitment_of (vro rho r)).
  Lemma extm_spend r acc sk sp : extm (prove_spend r acc sk sp).
  Proof. unfold prove_spend. destruct sp; gext. Qed.
  Lemma g_spend r acc sk sp rho : consts rho ->
    gspec (prove_spend r acc sk sp) rho (owns (rho sk) (spender_key sp (vro rho r)))
      (spend_out rho r acc sk sp) (spend_out rho r acc sk sp).
  Proof.
    intros Hc. split; [apply extm_spend|]. unfold prove_spend, owns, spend_out.
    destruct sp; cbn [spender_key other_key].
    - split.
      + repeat sstep. sret. cbn [fst snd]. conjs.
        * exact H.
        * rewrite <- H0. symmetry. exact H1.
        * rewrite H8, H6, H4. reflexivity.
        * rewrite H10, H4. reflexivity.
      + intros [HE1 HE2]. repeat cstep; auto; [rewrite H; symmetry; exact HE2|]. cret. cbn [fst snd]. conjs.
        * rewrite H3, H2, H1. reflexivity.
        * rewrite H4, H1. reflexivity.
    - split.
      + repeat sstep. sret. cbn [fst snd]. conjs.
        * exact H.
        * rewrite <- H0. symmetry. exact H1.
        * rewrite H8, H6, H4. reflexivity.
        * rewrite H10, H4. reflexivity.
      + intros [HE1 HE2]. repeat cstep; auto; [rewrite H; symmetry; exact HE2|]. cret. cbn [fst snd]. conjs.
        * rewrite H3, H2, H1. reflexivity.
        * rewrite H4, H1. reflexivity.
  Qed.

  (** ** preserve_balance *)
  Lemma fadd_fsub_0 a b c d : fadd (fsub a b) (fsub c d) = f0 <-> fadd a c = fadd b d.
  Proof.
    rewrite <- (fsub_eq0 (fadd a c)). assert (H : fadd (fsub a b) (fsub c d) = fsub (fadd a c) (fadd b d)).
    { apply zmod_ext. unfold fadd, fsub. rewrite !zv_fz.
      rewrite Zplus_mod_idemp_l, Zplus_mod_idemp_r, Zminus_mod_idemp_l, Zminus_mod_idemp_r. f_equal; lia. }
    rewrite H. tauto.
  Qed.
  Lemma fadd_fmul_neg a x : fadd (fmul (fneg f1) x) a = fsub a x.
  Proof.
    apply zmod_ext. unfold fadd, fmul, fneg, fsub. rewrite !zv_fz, zv_f1.
    rewrite Zmult_mod_idemp_l, Zplus_mod_idemp_l. f_equal; lia.
  Qed.
  Lemma fadd_fsub_r a b c : fadd a (fsub b c) = fsub (fadd a b) c.
  Proof.
    apply zmod_ext. unfold fadd, fsub. rewrite !zv_fz, Zplus_mod_idemp_r, Zminus_mod_idemp_l. f_equal; lia.
  Qed.
  Lemma fsub_fsub a b c : fsub (fsub a b) c = fsub a (fadd b c).
  Proof.
    apply zmod_ext. unfold fadd, fsub. rewrite !zv_fz, Zminus_mod_idemp_l, Zminus_mod_idemp_r. f_equal; lia.
  Qed.
  Lemma lc_native i o fee : f_lc (combine [f1; fneg f1; fneg f1; f1] [i; o; fee; f0]) = fsub i (fadd o fee).
  Proof.
    unfold f_lc. cbn [combine map fst snd fsum fold_right]. rewrite fadd_0_r, !fmul_1_l.
    rewrite (fadd_fmul_neg f0 fee), fadd_fmul_neg, fadd_fsub_r, fadd_fsub_r, fadd_0_r, fsub_fsub, (fadd_comm fee). reflexivity.
  Qed.

  Definition balance_rel (native asset fee : F) (ins outs : list F) : Prop :=
    if zeqb native asset
    then fadd (tail_sum ins) (hd f0 ins) = fadd (tail_sum outs) (fadd (hd f0 outs) fee)
    else tail_sum ins = tail_sum outs /\ hd f0 ins = fadd (hd f0 outs) fee.
  Lemma extm_sum_or_zero l : extm (match l with [] => ret zero_var | _ => sum l end).
  Proof. destruct l; gext. Qed.
  Lemma g_sum_or_zero l rho : consts rho ->
    gspec (match l with [] => ret zero_var | _ => sum l end) rho True (V1 rho (fsum (map rho l))) (V1 rho (fsum (map rho l))).
  Proof.
    intros [Hz _]. destruct l; [|apply g_sum]. gstart; [sret|intros _; cret]; cbn; auto.
  Qed.
  Lemma extm_balance n a f ins outs : extm (preserve_balance n a f ins outs).
  Proof. unfold preserve_balance. destruct ins; [gext|]. destruct outs; [gext|]. gext. Qed.
  Lemma g_balance native asset fee ins outs rho : consts rho ->
    gspec (preserve_balance native asset fee ins outs) rho
      (balance_rel (rho native) (rho asset) (rho fee) (map rho ins) (map rho outs))
      (V1 rho (tail_sum (map rho ins))) (V1 rho (tail_sum (map rho ins))).
  Proof.
    intros Hc. split; [apply extm_balance|]. unfold preserve_balance.
    destruct ins as [|i0 ins]; [split; [apply snd_fail|intros; apply cmp_fail]|].
    destruct outs as [|o0 outs]; [split; [apply snd_fail|intros; apply cmp_fail]|].
    unfold balance_rel, tail_sum. cbn [map hd tl].
    split.
    - apply snd_bind; [gext|]. eapply gspec_snd; [apply g_sum_or_zero; auto|]. intros ? ? ?.
      apply snd_bind; [gext|]. eapply gspec_snd; [apply g_sum_or_zero; auto|]. intros ? ? ?.
      repeat sstep. sret.
      destruct Hc as [Hz _]. cbn [map] in H6. rewrite Hz in *. rewrite lc_native in H6.
      rewrite H8, H6, H4, H0, H2 in *. split; [|reflexivity].
      destruct (zeqb (rho native) (rho asset)) eqn:E; cbn [fbool] in *.
      + rewrite !fmul_1_l in H9. apply fadd_fsub_0 in H9. exact H9.
      + rewrite fmul_0_l in H11, H13. symmetry in H11, H13. apply -> fsub_eq0 in H11. apply -> fsub_eq0 in H13. auto.
    - intros HE.
      apply cmp_bind; [gext|]. eapply gspec_cmp; [apply g_sum_or_zero; auto|auto|]. intros ? ?.
      apply cmp_bind; [gext|]. eapply gspec_cmp; [apply g_sum_or_zero; auto|auto|]. intros ? ?.
      destruct Hc as [Hz _].
      cstep. cstep. cstep. cbn [map] in H2. rewrite Hz in *. rewrite lc_native in H2.
      rewrite H, H0 in H1.
      destruct (zeqb (rho native) (rho asset)) eqn:E; cbn [fbool] in *.
      + repeat cstep; rewrite ?Hz, ?H1, ?H2, ?H3, ?fmul_1_l; auto.
        * apply fadd_fsub_0; auto.
        * cret; auto.
      + destruct HE as [HE1 HE2].
        repeat cstep; rewrite ?Hz, ?H1, ?H2, ?H3, ?fmul_1_l, ?fmul_0_l, ?fadd_0_l; auto.
        * rewrite HE1. symmetry. apply fsub_diag.
        * rewrite HE2. symmetry. apply fsub_diag.
        * cret; auto.
  Qed.

  (** ** hadamard_product *)
  Definition fmul2 (l k : list F) : list F := map (fun bv => fmul (fst bv) (snd bv)) (combine l k).
  Lemma map_combine_fmul (rho : env) : forall bits vals : list var,
    map (fun bv => fmul (rho (fst bv)) (rho (snd bv))) (combine bits vals) = fmul2 (map rho bits) (map rho vals).
  Proof.
    unfold fmul2. induction bits as [|b bits IH]; intros [|v vals]; cbn; auto. rewrite IH. auto.
  Qed.
  Lemma extm_hadamard b v : extm (hadamard_product b v).
  Proof. unfold hadamard_product. destruct (negb _); gext. Qed.
  Lemma Forall2_rho_map {A} (rho : env) (g : A -> F) (l : list A) vs : Forall2 (fun x v => rho v = g x) l vs -> map rho vs = map g l.
  Proof. induction 1; cbn; congruence. Qed.
  Lemma g_hadamard bits vals rho :
    gspec (hadamard_product bits vals) rho True
      (fun vs => map rho vs = fmul2 (map rho bits) (map rho vals)) (fun vs => map rho vs = fmul2 (map rho bits) (map rho vals)).
  Proof.
    split; [apply extm_hadamard|]. unfold hadamard_product. destruct (negb _); [split; [apply snd_fail|intros; apply cmp_fail]|].
    assert (G : gspec (mmap (fun bv => mul (fst bv) (snd bv)) (combine bits vals)) rho (Forall (fun _ => True) (combine bits vals))
                  (fun ys => Forall2 (fun bv y => rho y = fmul (rho (fst bv)) (rho (snd bv))) (combine bits vals) ys)
                  (fun ys => Forall2 (fun bv y => rho y = fmul (rho (fst bv)) (rho (snd bv))) (combine bits vals) ys)).
    { apply (gspec_map (fun bv => mul (fst bv) (snd bv)) rho (fun _ => True)). intros [b v]; cbn. apply g_mul. }
    split.
    - eapply gspec_snd; [exact G|]. cbv beta. intros vs _ H. split; auto. rewrite <- map_combine_fmul.
      apply (Forall2_rho_map rho (fun bv => fmul (rho (fst bv)) (rho (snd bv)))) in H. exact H.
    - intros _. eapply gspec_cmp; [exact G|apply Forall_forall; auto|]. cbv beta. intros vs H. rewrite <- map_combine_fmul.
      apply (Forall2_rho_map rho (fun bv => fmul (rho (fst bv)) (rho (snd bv)))) in H. exact H.
  Qed.
End Gadgets.
Global Hint Resolve g_address g_spend g_balance g_hadamard : gspec.
Global Hint Resolve extm_spend extm_balance extm_hadamard : gext.
