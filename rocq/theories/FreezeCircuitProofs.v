(** The freeze circuit establishes exactly [freeze_relation]. *)
From Verif Require Import Base Config Structs Keys Utils Memo Plonk Witness Circuits Relation CircuitLogic GadgetProofs
  StructGadgetProofs SpendGadgetProofs TransferCircuitProofs.

Section Vals.
  Context {C : CapConfig}.
  (** line up the frozen records with their places, freezer secrets and outputs *)
  Fixpoint pair_up (ins : list RoV) (pls : list PlaceV) (sks : list F) (outs : list RoV) : list PairV :=
    match ins, pls, sks, outs with
    | i :: ins', a :: pls', k :: sks', o :: outs' => mkPairV i a k o :: pair_up ins' pls' sks' outs'
    | _, _, _, _ => []
    end.
  (** first records for the fee, the rest in pairs; the lists of a built circuit are not empty *)
  Definition ro_none : RoV := mkRoV f0 f0 no_key (mkPolV no_key no_key no_key f0 f0) f0 f0.
  Definition freeze_of_lists (ins : list RoV) (pls : list PlaceV) (sk : F) (sks : list F) (outs : list RoV) : FreezeV :=
    mkFreezeV (hd ro_none ins) (hd (mkPlaceV f0 []) pls) sk (hd ro_none outs) (pair_up (tl ins) (tl pls) sks (tl outs)).
  Definition vfreeze (rho : env) (w : FWitnessVar) : FreezeV :=
    freeze_of_lists (map (vro rho) (fwv_inputs w)) (map (vacc rho) (fwv_accs w)) (rho (fwv_fee_sk w)) (map rho (fwv_keys w))
                    (map (vro rho) (fwv_outputs w)).
  Definition vfpub (rho : env) (p : FPubVar) : FreezePubV :=
    mkFreezePubV (rho (fpv_root p)) (rho (fpv_native p)) (rho (fpv_fee p)) (map rho (fpv_nullifiers p)) (map rho (fpv_commitments p)).
  Definition freeze_value (w : FreezeWitness) : FreezeV :=
    freeze_of_lists (map ro_value (fw_inputs w)) (map place_value (fw_accs w)) (fr_to_fq (addr_sk (fw_fee_kp w)))
                    (map fr_to_fq (fw_keys w)) (map ro_value (fw_outputs w)).
  Definition freeze_pub_value (p : FreezePublicInput) : FreezePubV :=
    mkFreezePubV (fp_root p) (fp_native p) (f_of_u128 (fp_fee p)) (fp_nullifiers p) (fp_commitments p).
End Vals.

Section Proofs.
  Context {C : CapConfig}.
  Notation T := (fun _ => True) (only parsing).
  Notation V1 rho x := (fun y : var => rho y = x) (only parsing).

  Definition pair_same (a b : RoV) : Prop :=
    fadd (ro_flag a) (ro_flag b) = f1 /\ ro_amount a = ro_amount b /\ ro_owner a = ro_owner b /\
    ro_code a = ro_code b /\ ro_pol a = ro_pol b.
  Lemma extm_pair_step a b : extm (freeze_pair_step a b).
  Proof. unfold freeze_pair_step; gext. Qed.
  Lemma g_pair_step a b rho : consts rho -> gspec (freeze_pair_step a b) rho (pair_same (vro rho a) (vro rho b)) T T.
  Proof.
    intros [_ Ho]. unfold freeze_pair_step, pair_same. gstart.
    - sx v1 E1 Q1. sx v2 E2 Q2. sx v3 E3 Q3. sx v4 E4 Q4. sp v5 E5 Q5. cbn. rewrite Ho in E1. conjs; auto.
    - intros (E1 & E2 & E3 & E4 & E5). cbn in *. rewrite <- Ho in E1. cx v1 Q1; auto. cx v2 Q2; auto. cx v3 Q3; auto. cx v4 Q4; auto. cp v5 Q5; auto.
  Qed.
  Lemma extm_fout_step a b : extm (freeze_output_step a b).
  Proof. unfold freeze_output_step; gext. Qed.
  Lemma g_fout_step a b rho : gspec (freeze_output_step a b) rho (rho b = commitment_of (vro rho a)) T T.
  Proof.
    unfold freeze_output_step. gstart.
    - sx v1 E1 Q1. sp v2 E2 Q2. split; [|auto]. congruence.
    - intros E1. cx v1 Q1. cp v2 Q2; [|auto]. congruence.
  Qed.
  Definition finput_ok (root : F) (i : RoV) (pl : PlaceV) (sk nl : F) : Prop :=
    (po_freezer (ro_pol i) = no_key -> is_dummy_code (ro_code i)) /\
    owns sk (po_freezer (ro_pol i)) /\
    (~ is_dummy_code (ro_code i) -> root_from pl (commitment_of i) = root) /\
    nl = nullifier_of (spending_key sk (ro_owner i)) (pl_uid pl) (commitment_of i).
  Lemma extm_finput_step p ri acc sk nl : extm (freeze_input_step p ri acc sk nl).
  Proof. unfold freeze_input_step; gext. Qed.
  Lemma or_gate_r (rho : env) a b x y : rho a = fbool x -> rho b = fbool y ->
    (zeqb (f_or (rho a) (rho b)) f1 = true <-> (y = false -> x = true)).
  Proof. intros -> ->. rewrite f_or_bool, zeqb_fbool_1. destruct x, y; cbn; split; auto; intros H; try discriminate; apply H; auto. Qed.
  Lemma g_finput_step p ri acc sk nl rho : consts rho ->
    gspec (freeze_input_step p ri acc sk nl) rho (finput_ok (rho (fpv_root p)) (vro rho ri) (vacc rho acc) (rho sk) (rho nl)) T T.
  Proof.
    intros Hc. split; [apply extm_finput_step|]. unfold freeze_input_step, finput_ok. split.
    - sx v1 E1 Q1. sx v2 E2 Q2. sx v3 E3 Q3. sx v4 E4 Q4. rewrite Q1 in Q2.
      apply snd_bind; [gext|]. eapply gspec_snd; [apply g_spend; auto|]. intros [vnl vroot] E5 [Q5 Q5'].
      sx v6 E6 Q6. sx v7 E7 Q7. sp v8 E8 Q8. cbn [fst snd] in *.
      rewrite (or_gate_n rho v2 v3 _ _ Q2 Q3) in E4. rewrite (or_gate_r rho v6 v3 _ _ Q6 Q3) in E7.
      split; [|auto]. conjs.
      + intros H. apply zeqb_spec. apply E4. apply xy_eqb_spec. exact H.
      + exact E5.
      + intros H. apply zeqb_false in H. apply E7 in H. apply zeqb_spec in H. rewrite <- Q5'. exact H.
      + rewrite <- E8. exact Q5.
    - intros (I1 & I2 & I3 & I4). cx v1 Q1. cx v2 Q2. cx v3 Q3. rewrite Q1 in Q2. cx v4 Q4.
      { apply (or_gate_n rho v2 v3 _ _ Q2 Q3). intros H. apply xy_eqb_spec in H. apply zeqb_spec. apply I1; exact H. }
      apply cmp_bind; [gext|]. eapply gspec_cmp; [apply g_spend; auto|exact I2|]. intros [vnl vroot] [Q5 Q5']. cbn [fst snd] in *.
      cx v6 Q6. cx v7 Q7.
      { apply (or_gate_r rho v6 v3 _ _ Q6 Q3). intros H. apply zeqb_false in H. apply zeqb_spec. rewrite Q5'. apply I3; exact H. }
      cp v8 Q8; [|auto]. rewrite Q5. symmetry. exact I4.
  Qed.

  Lemma extm_freeze_constraints w p : extm (freeze_constraints w p).
  Proof.
    assert (X1 := extm_pair_step). assert (X2 := extm_fout_step). assert (X3 := extm_finput_step).
    unfold freeze_constraints. destruct (fwv_inputs w); [gext|]. destruct (fwv_outputs w); [gext|].
    repeat (apply extm_bind; [gext|intros]). destruct (fwv_accs w); [gext|].
    apply extm_bind; [gext|]. intros [? ?]. repeat (apply extm_bind; [gext|intros]). destruct (fpv_nullifiers p); gext.
  Qed.

  Lemma Forall_combine2 {A B} (P : A -> B -> Prop) l k : length l = length k ->
    (Forall (fun x => P (fst x) (snd x)) (combine l k) <-> Forall2 P l k).
  Proof.
    revert k. induction l as [|a l IH]; intros [|b k] H; cbn in *; try discriminate; [split; constructor|].
    injection H as H. split; intros HF; inversion HF; subst; constructor; auto; apply IH; auto.
  Qed.
  Definition flags_bool (l : list RoV) : Prop := Forall (fun r => is_bool (ro_flag r) = true) l.
  Lemma pairs_equiv (p : FreezePubV) : forall ins pls sks outs nls rcs,
    length pls = length ins -> length sks = length ins -> length outs = length ins -> length nls = length ins -> length rcs = length ins ->
    flags_bool ins -> flags_bool outs ->
    (Forall2 pair_same ins outs /\ Forall2 (fun o rc => rc = commitment_of o) outs rcs /\
     Forall (fun x => finput_ok (fq_root p) (fst (fst x)) (snd (fst x)) (fst (snd x)) (snd (snd x)))
            (combine (combine ins pls) (combine sks nls))
     <-> Forall3 (pair_ok p) (pair_up ins pls sks outs) nls rcs).
  Proof.
    induction ins as [|i ins IH]; intros [|a pls] [|k sks] [|o outs] [|n nls] [|c rcs] H1 H2 H3 H4 H5 B1 B2; try discriminate.
    - cbn. split; [constructor|]. intros _. conjs; constructor.
    - cbn [pair_up combine]. inversion B1; subst. inversion B2; subst.
      assert (IH' := IH pls sks outs nls rcs ltac:(cbn in *; lia) ltac:(cbn in *; lia) ltac:(cbn in *; lia) ltac:(cbn in *; lia) ltac:(cbn in *; lia) ltac:(auto) ltac:(auto)).
      split.
      + intros (F1 & F2 & F3). inversion F1; subst. inversion F2; subst. inversion F3; subst. constructor; [|apply IH'; auto].
        cbn [fst snd] in *.
        match goal with H : pair_same _ _ |- _ => destruct H as (P1 & P2 & P3 & P4 & P5) end.
        match goal with H : finput_ok _ _ _ _ _ |- _ => destruct H as (Q1 & Q2 & Q3 & Q4) end.
        constructor; cbn; auto.
      + intros HF. inversion HF as [|? ? ? ? ? ? HP HR]; subst. apply IH' in HR. destruct HR as (F1 & F2 & F3).
        destruct HP as [P1 P2 P3 P4 P5 P6 P7 P8]. cbn in *. destruct P3 as (? & ? & ? & ?).
        conjs; constructor; auto; cbn [fst snd]; repeat split; auto; apply P6.
  Qed.

  Lemma combine_map2 {A B A' B'} (f : A -> A') (g : B -> B') l : forall k,
    combine (map f l) (map g k) = map (fun x => (f (fst x), g (snd x))) (combine l k).
  Proof. induction l as [|a l IH]; intros [|b k]; cbn; auto. rewrite IH; auto. Qed.

  Lemma g_freeze_constraints w p rho : consts rho ->
    length (fwv_outputs w) = length (fwv_inputs w) -> length (fwv_accs w) = length (fwv_inputs w) ->
    S (length (fwv_keys w)) = length (fwv_inputs w) -> length (fpv_nullifiers p) = length (fwv_inputs w) ->
    length (fpv_commitments p) = length (fwv_inputs w) ->
    flags_bool (map (vro rho) (fwv_inputs w)) -> flags_bool (map (vro rho) (fwv_outputs w)) ->
    gspec (freeze_constraints w p) rho (freeze_relation (vfpub rho p) (vfreeze rho w)) T T.
  Proof.
    intros Hc L1 L2 L3 L4 L5 B1 B2. split; [apply extm_freeze_constraints|]. unfold freeze_constraints.
    assert (X1 := extm_pair_step). assert (X2 := extm_fout_step). assert (X3 := extm_finput_step).
    destruct (fwv_inputs w) as [|i0 irest] eqn:Ei; [discriminate L3|].
    destruct (fwv_outputs w) as [|o0 orest] eqn:Eo; [discriminate L1|].
    destruct (fwv_accs w) as [|a0 arest] eqn:Ea; [discriminate L2|].
    destruct (fpv_nullifiers p) as [|n0 nrest] eqn:En; [discriminate L4|].
    destruct (fpv_commitments p) as [|c0 crest] eqn:Ec; [discriminate L5|].
    cbn [length] in *. injection L1 as L1. injection L2 as L2. injection L3 as L3. injection L4 as L4. injection L5 as L5.
    assert (G1 : gspec (mfor (combine irest orest) (fun x => freeze_pair_step (fst x) (snd x))) rho
                  (Forall2 pair_same (map (vro rho) irest) (map (vro rho) orest)) T T).
    { eapply gspec_conseq; [apply (gspec_for _ rho (fun x => pair_same (vro rho (fst x)) (vro rho (snd x)))); intros; apply g_pair_step; auto|..]; auto.
      rewrite <- Forall_combine2 by (rewrite !map_length; lia). rewrite combine_map2, Forall_map. reflexivity. }
    assert (G2 : gspec (mfor (combine (o0 :: orest) (c0 :: crest)) (fun x => freeze_output_step (fst x) (snd x))) rho
                  (rho c0 = commitment_of (vro rho o0) /\ Forall2 (fun o rc => rc = commitment_of o) (map (vro rho) orest) (map rho crest)) T T).
    { eapply gspec_conseq; [apply (gspec_for _ rho (fun x => rho (snd x) = commitment_of (vro rho (fst x)))); intros; apply g_fout_step; auto|..]; auto.
      rewrite <- Forall_combine2 by (rewrite !map_length; lia). rewrite combine_map2, Forall_map. cbn [combine fst snd].
      split; [intros H; inversion H; subst; auto|intros [? ?]; constructor; auto]. }
    assert (G3 : gspec (mfor (combine (combine irest arest) (combine (fwv_keys w) nrest))
                   (fun x => freeze_input_step p (fst (fst x)) (snd (fst x)) (fst (snd x)) (snd (snd x)))) rho
                  (Forall (fun x => finput_ok (rho (fpv_root p)) (fst (fst x)) (snd (fst x)) (fst (snd x)) (snd (snd x)))
                     (combine (combine (map (vro rho) irest) (map (vacc rho) arest)) (combine (map rho (fwv_keys w)) (map rho nrest)))) T T).
    { eapply gspec_conseq; [apply (gspec_for _ rho (fun x => finput_ok (rho (fpv_root p)) (vro rho (fst (fst x))) (vacc rho (snd (fst x))) (rho (fst (snd x))) (rho (snd (snd x)))));
        intros; apply g_finput_step; auto|..]; auto.
      rewrite !combine_map2, Forall_map. reflexivity. }
    assert (Y1 := gspec_ext _ _ _ _ _ G1). assert (Y2 := gspec_ext _ _ _ _ _ G2). assert (Y3 := gspec_ext _ _ _ _ _ G3).
    inversion B1 as [|? ? B1' B1'']; subst. inversion B2 as [|? ? B2' B2'']; subst.
    assert (PE := pairs_equiv (vfpub rho p) (map (vro rho) irest) (map (vacc rho) arest) (map rho (fwv_keys w)) (map (vro rho) orest) (map rho nrest) (map rho crest)
       ltac:(rewrite !map_length; lia) ltac:(rewrite !map_length; lia) ltac:(rewrite !map_length; lia) ltac:(rewrite !map_length; lia) ltac:(rewrite !map_length; lia) B1'' B2'').
    clear L1 L2 L3 L4 L5 B1 B2 B1' B2' B1'' B2''.
    unfold vfreeze, freeze_of_lists. rewrite Ei, Eo, Ea. cbn [map hd tl].
    set (rest1 := mfor (combine irest orest) _) in *. set (rest2 := mfor (combine (o0 :: orest) _) _) in *.
    set (rest3 := mfor (combine (combine _ _) _) _) in *.
    assert (XX : forall nl root, extm (run enforce_equal root (fpv_root p); (run enforce_equal nl n0; (run rest1; run rest2; rest3)))).
    { intros. repeat (apply extm_bind; [gext|intros]). auto. }
    split.
    - sx v1 E1 Q1. sx v2 E2 Q2. sx v3 E3 Q3. sx v4 E4 Q4. sx v5 E5 Q5. sx v6 E6 Q6. sx v7 E7 Q7.
      apply snd_bind; [intros [? ?]; apply XX|]. eapply gspec_snd; [apply g_spend; auto|]. intros [vnl vroot] E8 [Q8 Q8']. cbn [fst snd] in *.
      sx v9 E9 Q9. sx v10 E10 Q10.
      apply snd_bind; [gext|]. eapply gspec_snd; [exact G1|]. intros _ E11 _.
      apply snd_bind; [gext|]. eapply gspec_snd; [exact G2|]. intros _ [E12 E12'] _.
      eapply gspec_snd; [exact G3|]. intros _ E13 _. split; [|auto].
      constructor; cbn [fv_fee_ro fv_place fv_sk fv_chg fv_pairs]; auto.
      + exact (eq_trans (eq_sym Q8') E9).
      + unfold vfpub; cbn [fq_nullifiers]. rewrite En. cbn [map hd_error]. f_equal. rewrite <- E10. symmetry. exact Q8.
      + unfold vfpub; cbn [fq_commitments]. rewrite Ec. cbn [map hd_error]. f_equal. symmetry. exact E12.
      + unfold vfpub at 2 3. cbn [fq_nullifiers fq_commitments]. rewrite En, Ec. cbn [map tl]. apply PE. auto.
    - intros [[I1 I1'] [I2 I2'] [I3 I3'] I4 I5 I6 I7 I8 I9].
      cbn [fv_fee_ro fv_place fv_sk fv_chg fv_pairs] in *.
      cx v1 Q1; auto. cx v2 Q2; auto. cx v3 Q3; auto. cx v4 Q4; auto. cx v5 Q5; auto. cx v6 Q6; auto. cx v7 Q7; auto.
      apply cmp_bind; [intros [? ?]; apply XX|]. eapply gspec_cmp; [apply g_spend; auto|exact I5|]. intros [vnl vroot] [Q8 Q8']. cbn [fst snd] in *.
      cx v9 Q9. { rewrite Q8'. exact I6. }
      unfold vfpub in I7, I8; cbn [fq_nullifiers fq_commitments] in I7, I8. rewrite En in I7. rewrite Ec in I8. cbn [map hd_error] in I7, I8.
      cx v10 Q10. { rewrite Q8. assert (HH := f_equal (fun o => match o with Some x => x | None => f0 end) I7). exact HH. }
      unfold vfpub in I9 at 2 3. cbn [fq_nullifiers fq_commitments] in I9. rewrite En, Ec in I9. cbn [map tl] in I9. apply PE in I9.
      destruct I9 as (I9 & I10 & I11).
      apply cmp_bind; [gext|]. eapply gspec_cmp; [exact G1|exact I9|]. intros _ _.
      apply cmp_bind; [gext|]. eapply gspec_cmp; [exact G2| |].
      { split; [|exact I10]. assert (HH := f_equal (fun o => match o with Some x => x | None => f0 end) I8). symmetry. exact HH. }
      intros _ _. eapply gspec_cmp; [exact G3|exact I11|]. auto.
  Qed.

  (** ** Allocation *)
  Lemma extm_fwitness w : extm (freeze_witness_var_new w).
  Proof. unfold freeze_witness_var_new; gext. Qed.
  Lemma g_keymap l rho : gspec (mmap (fun k : FreezerKeyPair => create_variable (fr_to_fq k)) l) rho True T (fun vs => map rho vs = map fr_to_fq l).
  Proof.
    eapply gspec_conseq; [apply (g_allocmap (fun k : FreezerKeyPair => create_variable (fr_to_fq k)) (fun rho (v : var) => rho v) (fun k : FreezerKeyPair => fr_to_fq k) (fun _ _ => True)); intros; apply gspec_create|..]; try tauto; auto.
  Qed.
  Lemma g_romap l rho : gspec (mmap ro_var_new l) rho True (fun vs => flags_bool (map (vro rho) vs)) (fun vs => map (vro rho) vs = map ro_value l).
  Proof.
    eapply gspec_conseq; [apply (g_allocmap ro_var_new vro ro_value (fun rho v => is_bool (ro_flag (vro rho v)) = true)); intros; apply g_ro_new|..]; try tauto; auto.
    intros vs _ H. unfold flags_bool. rewrite Forall_map. exact H.
  Qed.
  Lemma g_accmap l rho : gspec (mmap acc_var_new l) rho True T (fun vs => map (vacc rho) vs = map place_value l).
  Proof.
    eapply gspec_conseq; [apply (g_allocmap acc_var_new vacc place_value (fun _ _ => True)); intros; apply g_acc_new|..]; try tauto; auto.
  Qed.
  Definition fvals (rho : env) (w : FreezeWitness) (v : FWitnessVar) : Prop :=
    map (vro rho) (fwv_inputs v) = map ro_value (fw_inputs w) /\ map (vro rho) (fwv_outputs v) = map ro_value (fw_outputs w) /\
    vfreeze rho v = freeze_value w.
  Lemma g_fwitness w rho : gspec (freeze_witness_var_new w) rho True
    (fun v => flags_bool (map (vro rho) (fwv_inputs v)) /\ flags_bool (map (vro rho) (fwv_outputs v))) (fvals rho w).
  Proof.
    unfold freeze_witness_var_new. gstart.
    - apply snd_bind; [gext|]. eapply gspec_snd; [apply g_romap|]. intros v1 _ Q1.
      apply snd_bind; [gext|]. eapply gspec_snd; [apply g_accmap|]. intros v2 _ _.
      apply snd_bind; [gext|]. eapply gspec_snd; [apply g_romap|]. intros v3 _ Q3.
      sx v4 E4 Q4. apply snd_bind; [gext|]. eapply gspec_snd; [apply g_keymap|]. intros v5 _ _. sret. cbn. auto.
    - intros _. apply cmp_bind; [gext|]. eapply gspec_cmp; [apply g_romap|auto|]. intros v1 Q1.
      apply cmp_bind; [gext|]. eapply gspec_cmp; [apply g_accmap|auto|]. intros v2 Q2.
      apply cmp_bind; [gext|]. eapply gspec_cmp; [apply g_romap|auto|]. intros v3 Q3.
      cx v4 Q4. apply cmp_bind; [gext|]. eapply gspec_cmp; [apply g_keymap|auto|]. intros v5 Q5. cret. unfold fvals. cbn.
      conjs; auto. unfold vfreeze, freeze_value; cbn. congruence.
  Qed.
  Lemma extm_fpub p : extm (freeze_pub_var_new p).
  Proof. unfold freeze_pub_var_new; gext. Qed.
  Lemma g_fpub p rho : gspec (freeze_pub_var_new p) rho True T (fun v => vfpub rho v = freeze_pub_value p).
  Proof.
    unfold freeze_pub_var_new. gstart.
    - intros s a s' _ _; auto.
    - intros _. cx v1 Q1. cx v2 Q2. cx v3 Q3. cx v4 Q4. cx v5 Q5. cret. unfold vfpub, freeze_pub_value; cbn. congruence.
  Qed.
  Lemma fwitness_lengths w s v s' : freeze_witness_var_new w s = Ok (v, s') ->
    length (fwv_inputs v) = length (fw_inputs w) /\ length (fwv_outputs v) = length (fw_outputs w) /\
    length (fwv_accs v) = length (fw_accs w) /\ length (fwv_keys v) = length (fw_keys w).
  Proof.
    unfold freeze_witness_var_new. intros H. repeat (apply mbind_ok in H; destruct H as (? & ? & ? & H)).
    injection H as <- <-. cbn. conjs; eapply mmap_length; eassumption.
  Qed.
  Lemma fpub_lengths p s v s' : freeze_pub_var_new p s = Ok (v, s') ->
    length (fpv_nullifiers v) = length (fp_nullifiers p) /\ length (fpv_commitments v) = length (fp_commitments p).
  Proof.
    unfold freeze_pub_var_new. intros H. repeat (apply mbind_ok in H; destruct H as (? & ? & ? & H)).
    injection H as <- <-. cbn. conjs; eapply mmap_length; eassumption.
  Qed.

  (** ** The circuit *)
  Lemma freeze_build_inv w p s wv pv s' : freeze_build_unchecked w p s = Ok ((wv, pv), s') ->
    exists s1 s2, freeze_witness_var_new w s = Ok (wv, s1) /\ freeze_pub_var_new p s1 = Ok (pv, s2) /\
                  freeze_constraints wv pv s2 = Ok (tt, s').
  Proof.
    unfold freeze_build_unchecked. intros H. apply mbind_ok in H. destruct H as (wv' & s1 & H1 & H). apply mbind_ok in H. destruct H as (pv' & s2 & H2 & H).
    apply mbind_ok in H. destruct H as ([] & s3 & H3 & H). injection H as <- <- <-. eauto.
  Qed.
  (** all lists of a freeze instance line up *)
  Definition freeze_lengths (w : FreezeWitness) (p : FreezePublicInput) : Prop :=
    length (fw_outputs w) = length (fw_inputs w) /\ length (fw_accs w) = length (fw_inputs w) /\
    S (length (fw_keys w)) = length (fw_inputs w) /\ length (fp_nullifiers p) = length (fw_inputs w) /\
    length (fp_commitments p) = length (fw_inputs w).
  Lemma freeze_build_sound w p wv pv s rho : freeze_lengths w p ->
    freeze_build_unchecked w p new_circuit = Ok ((wv, pv), s) -> sat rho s -> freeze_relation (vfpub rho pv) (vfreeze rho wv).
  Proof.
    intros (L1 & L2 & L3 & L4 & L5) H Hs. apply freeze_build_inv in H. destruct H as (s1 & s2 & H1 & H2 & H3).
    destruct (fwitness_lengths _ _ _ _ H1) as (M1 & M2 & M3 & M4). destruct (fpub_lengths _ _ _ _ H2) as (M5 & M6).
    assert (Hs2 : sat rho s2) by (eapply ext_sat; [eapply extm_freeze_constraints; eauto|auto]).
    assert (Hs1 : sat rho s1) by (eapply ext_sat; [eapply extm_fpub; eauto|auto]).
    assert (Hc : consts rho). { apply new_circuit_consts. eapply ext_sat; [eapply extm_fwitness; eauto|exact Hs1]. }
    destruct (g_fwitness w rho) as (_ & G1 & _). destruct (G1 _ _ _ H1 Hs1) as (_ & B1 & B2).
    eapply (g_freeze_constraints wv pv rho Hc); eauto; congruence.
  Qed.
  Lemma flags_bool_api l : flags_bool (map ro_value l).
  Proof. unfold flags_bool. rewrite Forall_map. apply Forall_forall. intros r _. cbn. apply is_bool_fbool. Qed.
  Lemma freeze_build_complete w p wv pv s : freeze_lengths w p ->
    freeze_build_unchecked w p new_circuit = Ok ((wv, pv), s) ->
    freeze_relation (freeze_pub_value p) (freeze_value w) -> sat (env_of (wit s)) s.
  Proof.
    intros (L1 & L2 & L3 & L4 & L5) H HR. set (rho := env_of (wit s)).
    assert (Ha : agr rho s) by (intros v x Hv; unfold rho, env_of; apply nth_error_nth; exact Hv).
    apply freeze_build_inv in H. destruct H as (s1 & s2 & H1 & H2 & H3).
    destruct (fwitness_lengths _ _ _ _ H1) as (M1 & M2 & M3 & M4). destruct (fpub_lengths _ _ _ _ H2) as (M5 & M6).
    assert (Ha2 : agr rho s2) by (eapply ext_agr; [eapply extm_freeze_constraints; eauto|auto]).
    assert (Ha1 : agr rho s1) by (eapply ext_agr; [eapply extm_fpub; eauto|auto]).
    assert (Ha0 : agr rho new_circuit) by (eapply ext_agr; [eapply extm_fwitness; eauto|auto]).
    destruct (new_circuit_agr rho Ha0) as [Hc Hs0].
    destruct (g_fwitness w rho) as (_ & _ & G1). destruct (G1 I _ _ _ H1 Ha1 Hs0) as [Hs1 (V0 & V0' & V1)].
    destruct (g_fpub p rho) as (_ & _ & G2). destruct (G2 I _ _ _ H2 Ha2 Hs1) as [Hs2 V2].
    destruct (g_freeze_constraints wv pv rho Hc) as (_ & _ & G3); try congruence.
    { rewrite V0. apply flags_bool_api. } { rewrite V0'. apply flags_bool_api. }
    rewrite V1, V2 in G3. destruct (G3 HR _ _ _ H3 Ha Hs2); auto.
  Qed.
End Proofs.
