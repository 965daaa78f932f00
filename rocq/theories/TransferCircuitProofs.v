(** The transfer circuit establishes exactly [transfer_relation]. *)
From Verif Require Import Base Config Structs Keys Utils Memo Plonk Witness Circuits Relation CircuitLogic GadgetProofs
  StructGadgetProofs SpendGadgetProofs.

Tactic Notation "sx" ident(v) ident(E) ident(Q) :=
  apply snd_bind; [gext|eapply gspec_snd; [solve [eauto 2 with gspec]|cbv beta; intros v E Q]].
Tactic Notation "sp" ident(v) ident(E) ident(Q) := eapply gspec_snd; [solve [eauto 2 with gspec]|cbv beta; intros v E Q].
Tactic Notation "cx" ident(v) ident(Q) :=
  apply cmp_bind; [gext|eapply gspec_cmp; [solve [eauto 2 with gspec]|try exact I|cbv beta; intros v Q]].
Tactic Notation "cp" ident(v) ident(Q) := eapply gspec_cmp; [solve [eauto 2 with gspec]|try exact I|cbv beta; intros v Q].

Section Vals.
  Context {C : CapConfig}.
  Variable rho : env.
  Definition vtransfer (w : TWitnessVar) : TransferV :=
    mkTransferV (rho (twv_code w)) (vpol rho (twv_policy w)) (map (vin rho) (twv_inputs w)) (map (vro rho) (twv_outputs w))
                (rho (twv_rand w)).
  Definition vtpub (p : TPubVar) : TransferPubV :=
    mkTransferPubV (rho (tpv_root p)) (rho (tpv_native p)) (rho (tpv_valid_until p)) (rho (tpv_fee p))
                   (map rho (tpv_nullifiers p)) (map rho (tpv_commitments p)) (vmemo rho (tpv_memo p)).
End Vals.
Section ApiVals.
  Context {C : CapConfig}.
  Definition transfer_value (w : TransferWitness) : TransferV :=
    mkTransferV (code (tw_asset_def w)) (pol_value (policy (tw_asset_def w))) (map input_value (tw_inputs w))
                (map ro_value (tw_outputs w)) (fr_to_fq (tw_rand w)).
  Definition transfer_pub_value (p : TransferPublicInput) : TransferPubV :=
    mkTransferPubV (tp_root p) (tp_native p) (f_of_u64 (tp_valid_until p)) (f_of_u128 (tp_fee p))
                   (tp_nullifiers p) (tp_commitments p) (memo_value (tp_memo p)).
End ApiVals.

Section Proofs.
  Context {C : CapConfig}.
  Notation T := (fun _ => True) (only parsing).
  Notation V1 rho x := (fun y : var => rho y = x) (only parsing).

  (** ** Inputs *)
  Lemma or_gate_l (rho : env) a b x y : rho a = fbool x -> rho b = fbool y ->
    (zeqb (f_or (rho a) (rho b)) f1 = true <-> (x = false -> y = true)).
  Proof. intros -> ->. rewrite f_or_bool, zeqb_fbool_1. destruct x, y; cbn; split; auto; intros H; try discriminate; apply H; auto. Qed.
  Lemma or_gate_n (rho : env) a b x y : rho a = f_not (fbool x) -> rho b = fbool y ->
    (zeqb (f_or (rho a) (rho b)) f1 = true <-> (x = true -> y = true)).
  Proof. intros -> ->. rewrite f_not_bool, f_or_bool, zeqb_fbool_1. destruct x, y; cbn; split; auto; intros H; try discriminate; apply H; auto. Qed.

  Definition input_policy_part (w : TWitnessVar) (p : TPubVar) (first : bool) (ro : RoVar) (is_dummy not_dummy : var) : M unit :=
    if first then
      run enforce_equal (rv_code ro) (tpv_native p);
      enforce_dummy_policy (rv_policy ro)
    else
      do dummy_policy <- is_dummy_policy (rv_policy ro);
      run logic_or_gate not_dummy dummy_policy;
      do equal_policy <- check_equal_policy (rv_policy ro) (twv_policy w);
      logic_or_gate is_dummy equal_policy.
  Lemma extm_input_policy w p first ro a b : extm (input_policy_part w p first ro a b).
  Proof. unfold input_policy_part. destruct first; gext. Qed.
  Lemma g_input_policy w p first ro is_dummy not_dummy d rho : consts rho ->
    rho is_dummy = fbool d -> rho not_dummy = f_not (fbool d) ->
    gspec (input_policy_part w p first ro is_dummy not_dummy) rho
      (if first then rho (rv_code ro) = rho (tpv_native p) /\ policy_empty (vpol rho (rv_policy ro))
       else (d = true -> policy_empty_weak (vpol rho (rv_policy ro))) /\
            (d = false -> vpol rho (rv_policy ro) = vpol rho (twv_policy w))) T T.
  Proof.
    intros Hc Hd Hn. split; [apply extm_input_policy|]. unfold input_policy_part. destruct first; split.
    - sx v1 E1 Q1. sp v2 E2 Q2. auto.
    - intros [E1 E2]. cx v1 H1; auto. cp v2 H2; auto.
    - sx v1 E1 Q1. sx v2 E2 Q2. sx v3 E3 Q3. sp v4 E4 Q4.
      rewrite (or_gate_n rho not_dummy v1 _ _ Hn Q1) in E2. rewrite (or_gate_l rho is_dummy v3 _ _ Hd Q3) in E4.
      rewrite policy_empty_weakb_spec in E2. rewrite pol_eqb_spec in E4. auto.
    - intros [E1 E2]. cx v1 Q1; auto. cx v2 Q2.
      { apply (or_gate_n rho not_dummy v1 _ _ Hn Q1). rewrite policy_empty_weakb_spec. auto. }
      cx v3 Q3; auto. cp v4 Q4; auto.
      apply (or_gate_l rho is_dummy v3 _ _ Hd Q3). rewrite pol_eqb_spec. auto.
  Qed.

  Lemma extm_input_step w p first i nl : extm (transfer_input_step w p first i nl).
  Proof. unfold transfer_input_step. destruct first; gext. Qed.
  Lemma g_input_step w p first i nl rho : consts rho ->
    gspec (transfer_input_step w p first i nl) rho
      (input_ok (vtransfer rho w) (vtpub rho p) first (vin rho i) (rho nl)) T T.
  Proof.
    intros Hc. split; [apply extm_input_step|]. unfold transfer_input_step. cbn zeta.
    assert (XP : forall a b, extm (input_policy_part w p first (iv_ro i) a b)) by (intros; apply extm_input_policy).
    assert (HD : forall d, zeqb (rho (rv_code (iv_ro i))) dummy_asset_code = d ->
                 (d = true <-> is_dummy_code (ro_code (in_ro (vin rho i)))) /\ (d = false <-> ~ is_dummy_code (ro_code (in_ro (vin rho i))))).
    { intros d Hd. unfold is_dummy_code. cbn. rewrite <- Hd. split; [apply zeqb_spec|apply zeqb_false]. }
    split.
    - sx v1 E1 Q1. sx v2 E2 Q2. sx v3 E3 Q3. sx v4 E4 Q4. sx v5 E5 Q5.
      rewrite Q2 in Q4.
      apply snd_bind; [gext|]. eapply gspec_snd; [eapply (g_input_policy w p first (iv_ro i) v2 v4); eauto|]. intros v6 E6 Q6.
      apply snd_bind; [gext|]. eapply gspec_snd; [apply g_spend; auto|]. intros [vnl vroot] E7 [Q7 Q7'].
      sx v8 E8 Q8. sx v9 E9 Q9. sx v10 E10 Q10. sx v11 E11 Q11. sx v12 E12 Q12. sp v13 E13 Q13.
      rewrite (or_gate_n rho v4 v3 _ _ Q4 Q3) in E5.
      rewrite (or_gate_l rho v2 v9 _ _ Q2 Q9) in E10.
      destruct Q12 as [Q12 Q12'].
      rewrite (or_gate_l rho v11 v12 _ _ Q11 Q12') in E13.
      destruct (HD _ eq_refl) as [HD1 HD2]. cbn [ro_code vro] in *.
      split; [|auto]. constructor.
      + exact E1.
      + intros H. apply HD1 in H. apply E5 in H. apply zeqb_spec in H. exact H.
      + destruct first; [exact E6|]. destruct E6 as [E6 E6']. split; intros H; [apply E6, HD1|apply E6', HD2]; exact H.
      + exact E7.
      + rewrite <- E8. exact Q7.
      + intros H. apply HD2 in H. apply E10 in H. apply zeqb_spec in H. exact (eq_trans (eq_sym Q7') H).
      + exact Q12.
      + exact (proj1 E12).
      + exact (proj2 E12).
      + intros H. apply xy_eqb_false in H. apply E13 in H. exact H.
    - intros [I1 I2 I3 I4 I5 I6 I7 I8 I9 I10]. destruct (HD _ eq_refl) as [HD1 HD2].
      cx v1 Q1; auto. cx v2 Q2; auto. cx v3 Q3; auto. cx v4 Q4; auto. rewrite Q2 in Q4. cx v5 Q5.
      { apply (or_gate_n rho v4 v3 _ _ Q4 Q3). intros H. apply HD1 in H. apply zeqb_spec. apply I2; exact H. }
      apply cmp_bind; [gext|]. eapply gspec_cmp; [eapply (g_input_policy w p first (iv_ro i) v2 v4); eauto| |].
      { destruct first; [exact I3|]. destruct I3 as [I3 I3']. split; intros H; [apply I3, HD1|apply I3', HD2]; exact H. }
      intros v6 Q6.
      apply cmp_bind; [gext|]. eapply gspec_cmp; [apply g_spend; auto| |].
      { exact I4. }
      intros [vnl vroot] [Q7 Q7']. cbn [fst snd] in *.
      cx v8 Q8. { rewrite I5. exact Q7. }
      cx v9 Q9; auto. cx v10 Q10.
      { apply (or_gate_l rho v2 v9 _ _ Q2 Q9). intros H. apply HD2 in H. apply zeqb_spec. rewrite Q7'. apply I6; exact H. }
      cx v11 Q11; auto. cx v12 Q12. { split; [exact I8|exact I9]. }
      cp v13 Q13; auto.
      apply (or_gate_l rho v11 v12 _ _ Q11 Q12). intros H. apply xy_eqb_false in H. apply I10; exact H.
  Qed.

  (** ** Outputs *)
  Lemma extm_output_step w p first o rc : extm (transfer_output_step w p first o rc).
  Proof. unfold transfer_output_step. destruct first; gext. Qed.
  Lemma g_output_step w p first o rc rho : consts rho ->
    gspec (transfer_output_step w p first o rc) rho
      (output_ok (vtransfer rho w) (vtpub rho p) first (vro rho o) (rho rc)) T T.
  Proof.
    intros Hc. split; [apply extm_output_step|]. unfold transfer_output_step.
    set (part := if first then run enforce_equal (rv_code o) (tpv_native p); enforce_dummy_policy (rv_policy o)
                 else run enforce_equal (rv_code o) (twv_code w); enforce_equal_policy (rv_policy o) (twv_policy w)).
    assert (GP : gspec part rho
       (if first then rho (rv_code o) = rho (tpv_native p) /\ policy_empty (vpol rho (rv_policy o))
        else rho (rv_code o) = rho (twv_code w) /\ vpol rho (rv_policy o) = vpol rho (twv_policy w)) T T).
    { unfold part. split; [destruct first; gext|]. destruct first; split.
      - sx v1 E1 Q1. sp v2 E2 Q2. auto.
      - intros [E1 E2]. cx v1 Q1; auto. cp v2 Q2; auto.
      - sx v1 E1 Q1. sp v2 E2 Q2. auto.
      - intros [E1 E2]. cx v1 Q1; auto. cp v2 Q2; auto. }
    assert (XP : extm part) by (eapply gspec_ext; eauto). clearbody part.
    split.
    - sx v1 E1 Q1. apply snd_bind; [gext|]. eapply gspec_snd; [exact GP|]. intros v2 E2 Q2.
      sx v3 E3 Q3. sx v4 E4 Q4. sp v5 E5 Q5. split; [|auto]. constructor.
      + exact E1.
      + exact E2.
      + rewrite <- E4. exact Q3.
      + exact E5.
    - intros [I1 I2 I3 I4]. cx v1 Q1; auto. apply cmp_bind; [gext|]. eapply gspec_cmp; [exact GP|exact I2|]. intros v2 Q2.
      cx v3 Q3; auto. cx v4 Q4. { rewrite Q3. symmetry. exact I3. } cp v5 Q5; auto.
  Qed.

  (** ** Loops *)
  Lemma g_loop_first {A B D} (f : bool -> A * B -> M unit) (va : A -> D) (vb : B -> F) (P : bool -> D -> F -> Prop) rho l k :
    length l = length k ->
    (forall first x y, gspec (f first (x, y)) rho (P first (va x) (vb y)) T T) ->
    gspec (loop_first f (combine l k)) rho (Forall2_first P (map va l) (map vb k)) T T.
  Proof.
    intros HL Hf. destruct l as [|x l], k as [|y k]; try discriminate; cbn [combine loop_first map Forall2_first].
    - gstart; [sret|intros _; cret]; auto.
    - assert (G : gspec (mfor (combine l k) (f false)) rho (Forall2 (P false) (map va l) (map vb k)) T T).
      { eapply gspec_conseq; [apply (gspec_for (f false) rho (fun xy => P false (va (fst xy)) (vb (snd xy)))); intros [? ?] _; apply Hf|..]; auto.
        cbn in HL. injection HL as HL. revert k HL. induction l as [|a l IH]; intros [|b k] HL; try discriminate HL; cbn.
        - split; constructor.
        - injection HL as HL. split; intros H; inversion H; subst; constructor; auto; apply IH; auto. }
      assert (X : extm (mfor (combine l k) (f false))) by (eapply gspec_ext; eauto).
      assert (X0 : extm (f true (x, y))) by (eapply gspec_ext; eauto).
      split; [apply extm_bind; auto|]. split.
      + apply snd_bind; [auto|]. eapply gspec_snd; [apply Hf|]. intros _ E1 _. eapply gspec_snd; [exact G|]. auto.
      + intros [E1 E2]. apply cmp_bind; [auto|]. eapply gspec_cmp; [apply Hf|exact E1|]. intros _ _. eapply gspec_cmp; [exact G|exact E2|auto].
  Qed.
  Lemma extm_loop_first {A} (f : bool -> A -> M unit) l : (forall b x, extm (f b x)) -> extm (loop_first f l).
  Proof. intros H. destruct l; cbn; [apply extm_ret|]. apply extm_bind; auto. intros; apply extm_for; auto. Qed.

  (** ** Viewing memo *)
  Lemma reveal_bits (m : F) : rev (f_bits VIEWABLE_DATA_LEN m) = map (fun i => fbool (reveal_bit m i)) (seq 0 VIEWABLE_DATA_LEN).
  Proof. reflexivity. Qed.
  Lemma fmul2_shown (g : nat -> bool) : forall ks vs,
    fmul2 (map (fun k => fbool (g k)) ks) vs = map (fun ka => shown (g (fst ka)) (snd ka)) (combine ks vs).
  Proof.
    unfold fmul2. induction ks as [|k ks IH]; intros [|v vs]; cbn; auto. rewrite fmul_bool, IH. reflexivity.
  Qed.
  Lemma fmul2_pairs (rho : env) : forall attrs bits : list var,
    fmul2 (map rho (map snd (combine attrs bits))) (map rho (map fst (combine attrs bits))) = fmul2 (map rho bits) (map rho attrs).
  Proof.
    unfold fmul2. induction attrs as [|a attrs IH]; intros [|b bits]; cbn; auto. rewrite IH. reflexivity.
  Qed.
  Lemma fmul2_app a b c d : length a = length c -> fmul2 (a ++ b) (c ++ d) = fmul2 a c ++ fmul2 b d.
  Proof.
    unfold fmul2. revert c. induction a as [|x a IH]; intros [|y c] H; cbn in *; try discriminate; auto. rewrite IH by lia. reflexivity.
  Qed.
  Lemma extm_memo_in reveal i : extm (memo_input_message reveal i).
  Proof. unfold memo_input_message. destruct reveal as [|? [|? [|? [|? ?]]]]; gext. Qed.
  Lemma extm_memo_out reveal r : extm (memo_output_message reveal r).
  Proof. unfold memo_output_message. destruct reveal as [|? [|? [|? [|? ?]]]]; gext. Qed.
  Section WithReveal.
    Variables (rho : env) (reveal : list var) (m : F).
    Hypothesis HR : map rho reveal = map (fun i => fbool (reveal_bit m i)) (seq 0 VIEWABLE_DATA_LEN).
    Lemma g_memo_in i : consts rho ->
      gspec (memo_input_message reveal i) rho True
        (fun vs => map rho vs = memo_of_input m (vin rho i)) (fun vs => map rho vs = memo_of_input m (vin rho i)).
    Proof.
      intros Hc. split; [apply extm_memo_in|].
      destruct reveal as [|b0 [|b1 [|b2 [|b3 bs]]]]; try discriminate HR.
      cbn [map seq VIEWABLE_DATA_LEN] in HR.
      pose proof (f_equal (hd f0) HR) as R0. pose proof (f_equal (fun l => hd f0 (tl (tl l))) HR) as R2.
      pose proof (f_equal (fun l => hd f0 (tl (tl (tl l)))) HR) as R3. pose proof (f_equal (fun l => tl (tl (tl (tl l)))) HR) as R4.
      cbn [hd tl] in R0, R2, R3, R4.
      assert (KEY : forall dm ax ay act vs,
        rho dm = fbool (zeqb (ro_code (in_ro (vin rho i))) dummy_asset_code) ->
        rho ax = f_sel (rho dm) (rho (px (rv_owner (iv_ro i)))) (rho (px neutral_point_variable)) ->
        rho ay = f_sel (rho dm) (rho (py (rv_owner (iv_ro i)))) (rho (py neutral_point_variable)) ->
        rho act = f_or (rho dm) (rho b0) ->
        map rho vs = fmul2 (map rho ([act; act; b2; b3] ++ map snd (combine (cv_attrs (iv_cred i)) bs)))
                       (map rho ([ax; ay; rv_amount (iv_ro i); rv_blind (iv_ro i)] ++ map fst (combine (cv_attrs (iv_cred i)) bs))) ->
        map rho vs = memo_of_input m (vin rho i)).
      { intros dm ax ay act vs Hd Hax Hay Hact Hvs. rewrite Hvs, !map_app, fmul2_app by reflexivity. unfold memo_of_input.
        rewrite app_assoc. f_equal.
        - unfold fmul2. cbn [map combine fst snd]. rewrite Hact, Hax, Hay, Hd, R0, R2, R3, f_or_bool, !f_sel_bool, !fmul_bool.
          destruct Hc as [Hz Ho]. change (px neutral_point_variable) with zero_var. change (py neutral_point_variable) with one_var.
          rewrite Hz, Ho. destruct (zeqb _ dummy_asset_code); cbn [orb]; reflexivity.
        - rewrite fmul2_pairs.
          change (map rho bs = map (fun k => fbool (reveal_bit m (4 + k))) (seq 0 ATTRS_LEN)) in R4. rewrite R4.
          apply (fmul2_shown (fun k => reveal_bit m (4 + k))). }
      unfold memo_input_message. cbn zeta. split.
      - sx v1 E1 Q1. sx v2 E2 Q2. sx v3 E3 Q3. sx v4 E4 Q4. sp v5 E5 Q5. split; auto. eapply KEY; eauto.
      - intros _. cx v1 Q1; auto. cx v2 Q2; auto. cx v3 Q3; auto. cx v4 Q4; auto. cp v5 Q5; auto. eapply KEY; eauto.
    Qed.
    Lemma g_memo_out r :
      gspec (memo_output_message reveal r) rho True
        (fun vs => map rho vs = memo_of_output m (vro rho r)) (fun vs => map rho vs = memo_of_output m (vro rho r)).
    Proof.
      split; [apply extm_memo_out|].
      destruct reveal as [|b0 [|b1 [|b2 [|b3 bs]]]]; try discriminate HR.
      cbn [map seq VIEWABLE_DATA_LEN] in HR.
      pose proof (f_equal (hd f0) HR) as R0. pose proof (f_equal (fun l => hd f0 (tl l)) HR) as R1. pose proof (f_equal (fun l => hd f0 (tl (tl l))) HR) as R2.
      pose proof (f_equal (fun l => hd f0 (tl (tl (tl l)))) HR) as R3.
      cbn [hd tl] in R0, R1, R2, R3.
      assert (KEY : fmul2 (map rho [b0; b1; b2; b3]) (map rho [px (rv_owner r); py (rv_owner r); rv_amount r; rv_blind r]) = memo_of_output m (vro rho r)).
      { unfold fmul2. cbn [map combine fst snd]. rewrite R0, R1, R2, R3, !fmul_bool. reflexivity. }
      unfold memo_output_message. rewrite <- KEY. apply g_hadamard.
    Qed.
  End WithReveal.

  Lemma Forall2_concat_map {A D} (rho : env) (v : A -> D) (g : D -> list F) l vss :
    Forall2 (fun x vs => map rho vs = g (v x)) l vss -> map rho (concat vss) = concat (map g (map v l)).
  Proof. induction 1; cbn; [auto|]. rewrite map_app. congruence. Qed.
  Lemma tl_skipn {A} (l : list A) : skipn 1 l = tl l.
  Proof. destruct l; reflexivity. Qed.
  Lemma tl_map {A B} (f : A -> B) l : tl (map f l) = map f (tl l).
  Proof. destruct l; reflexivity. Qed.

  Definition transfer_memo_okb (t : TransferV) (memo : MemoV) : bool :=
    memo_eqb memo (celgamal_encrypt (po_viewer (tv_pol t)) (tv_rand t) (transfer_message t)).
  Lemma extm_viewing w p : extm (transfer_is_correct_viewing_memo w p).
  Proof.
    unfold transfer_is_correct_viewing_memo. cbn zeta.
    repeat (apply extm_bind; [first [apply extm_map; intros; first [apply extm_memo_in|apply extm_memo_out] |gext]|intros]). gext.
  Qed.
  Lemma g_derive pk msg r rho :
    gspec (memo_var_derive pk msg r) rho (scalar_ok (rho r) = true)
      (fun m => vmemo rho m = celgamal_encrypt (vpt rho pk) (rho r) (map rho msg))
      (fun m => vmemo rho m = celgamal_encrypt (vpt rho pk) (rho r) (map rho msg)).
  Proof. exact (g_elgamal pk msg r rho). Qed.
  Lemma g_viewing w p rho : consts rho ->
    gspec (transfer_is_correct_viewing_memo w p) rho
      (in_range VIEWABLE_DATA_LEN (po_map (tv_pol (vtransfer rho w))) = true /\ scalar_ok (tv_rand (vtransfer rho w)) = true)
      (V1 rho (fbool (transfer_memo_okb (vtransfer rho w) (tq_memo (vtpub rho p)))))
      (V1 rho (fbool (transfer_memo_okb (vtransfer rho w) (tq_memo (vtpub rho p))))).
  Proof.
    intros Hc. split; [apply extm_viewing|]. unfold transfer_is_correct_viewing_memo. cbn zeta.
    assert (KEY : forall bits ins outs,
       map rho bits = f_bits VIEWABLE_DATA_LEN (rho (pv_map (twv_policy w))) ->
       Forall2 (fun x vs => map rho vs = memo_of_input (rho (pv_map (twv_policy w))) (vin rho x)) (skipn 1 (twv_inputs w)) ins ->
       Forall2 (fun x vs => map rho vs = memo_of_output (rho (pv_map (twv_policy w))) (vro rho x)) (skipn 1 (twv_outputs w)) outs ->
       map rho (twv_code w :: concat ins ++ concat outs) = transfer_message (vtransfer rho w)).
    { intros bits ins outs _ Hi Ho. apply Forall2_concat_map in Hi, Ho. cbn [map]. rewrite map_app, Hi, Ho.
      unfold transfer_message. cbn [tv_code tv_pol tv_ins tv_outs vtransfer vpol po_map]. rewrite !tl_skipn, !tl_map. reflexivity. }
    assert (X1 : forall bits, extm (do ins <- mmap (memo_input_message (rev bits)) (skipn 1 (twv_inputs w));
       do outs <- mmap (memo_output_message (rev bits)) (skipn 1 (twv_outputs w));
       do derived <- memo_var_derive (pv_viewer (twv_policy w)) (twv_code w :: concat ins ++ concat outs) (twv_rand w);
       memo_var_check_equal (tpv_memo p) derived)).
    { intros. repeat (apply extm_bind; [first [apply extm_map; intros; first [apply extm_memo_in|apply extm_memo_out] |gext]|intros]). gext. }
    assert (X2 : forall bits ins, extm (do outs <- mmap (memo_output_message (rev bits)) (skipn 1 (twv_outputs w));
       do derived <- memo_var_derive (pv_viewer (twv_policy w)) (twv_code w :: concat ins ++ concat outs) (twv_rand w);
       memo_var_check_equal (tpv_memo p) derived)).
    { intros. repeat (apply extm_bind; [first [apply extm_map; intros; first [apply extm_memo_in|apply extm_memo_out] |gext]|intros]). gext. }
    assert (RV : forall bits, map rho bits = f_bits VIEWABLE_DATA_LEN (rho (pv_map (twv_policy w))) ->
        map rho (rev bits) = map (fun i => fbool (reveal_bit (rho (pv_map (twv_policy w))) i)) (seq 0 VIEWABLE_DATA_LEN)).
    { intros bits H. rewrite map_rev, H. apply reveal_bits. }
    split.
    - apply snd_bind; [apply X1|]. sp bits E1 Q1. pose proof (RV _ Q1) as R.
      apply snd_bind; [intros; apply X2|].
      eapply gspec_snd; [apply (gspec_map _ rho (fun _ => True)); intros; apply g_memo_in; eauto|]. intros ins _ Q2.
      apply snd_bind; [gext|].
      eapply gspec_snd; [apply (gspec_map _ rho (fun _ => True)); intros; apply g_memo_out; eauto|]. intros outs _ Q3.
      apply snd_bind; [gext|]. eapply gspec_snd; [apply g_derive|]. intros d E4 Q4. sp v E5 Q5.
      split; [auto|]. rewrite Q5. unfold transfer_memo_okb. rewrite Q4, (KEY _ _ _ Q1 Q2 Q3). reflexivity.
    - intros [E1 E4]. apply cmp_bind; [apply X1|]. cp bits Q1; auto. pose proof (RV _ Q1) as R.
      apply cmp_bind; [intros; apply X2|].
      eapply gspec_cmp; [apply (gspec_map _ rho (fun _ => True)); intros; apply g_memo_in; eauto|apply Forall_forall; auto|]. intros ins Q2.
      apply cmp_bind; [gext|].
      eapply gspec_cmp; [apply (gspec_map _ rho (fun _ => True)); intros; apply g_memo_out; eauto|apply Forall_forall; auto|]. intros outs Q3.
      apply cmp_bind; [gext|]. eapply gspec_cmp; [apply g_derive|exact E4|]. intros d Q4. cp v Q5; auto.
      rewrite Q5. unfold transfer_memo_okb. rewrite Q4, (KEY _ _ _ Q1 Q2 Q3). reflexivity.
  Qed.

  (** ** All constraints *)
  Lemma extm_constraints w p : extm (transfer_constraints w p).
  Proof.
    unfold transfer_constraints.
    apply extm_bind; [apply extm_loop_first; intros; apply extm_input_step|intros].
    apply extm_bind; [apply extm_loop_first; intros; apply extm_output_step|intros].
    repeat (apply extm_bind; [first [apply extm_viewing|gext]|intros]). gext.
  Qed.
  Lemma g_constraints w p rho : consts rho ->
    length (twv_inputs w) = length (tpv_nullifiers p) -> length (twv_outputs w) = length (tpv_commitments p) ->
    gspec (transfer_constraints w p) rho (transfer_relation (vtpub rho p) (vtransfer rho w)) T T.
  Proof.
    intros Hc HL1 HL2. split; [apply extm_constraints|]. unfold transfer_constraints.
    assert (G1 : gspec (loop_first (fun first x => transfer_input_step w p first (fst x) (snd x)) (combine (twv_inputs w) (tpv_nullifiers p)))
                  rho (Forall2_first (input_ok (vtransfer rho w) (vtpub rho p)) (map (vin rho) (twv_inputs w)) (map rho (tpv_nullifiers p))) T T).
    { apply g_loop_first; [exact HL1|]. intros. apply g_input_step; auto. }
    assert (G2 : gspec (loop_first (fun first x => transfer_output_step w p first (fst x) (snd x)) (combine (twv_outputs w) (tpv_commitments p)))
                  rho (Forall2_first (output_ok (vtransfer rho w) (vtpub rho p)) (map (vro rho) (twv_outputs w)) (map rho (tpv_commitments p))) T T).
    { apply g_loop_first; [exact HL2|]. intros. apply g_output_step; auto. }
    assert (X2 := gspec_ext _ _ _ _ _ G2).
    assert (X3 := extm_viewing w p).
    assert (MI : map rho (map (fun i => rv_amount (iv_ro i)) (twv_inputs w)) = map (fun i => ro_amount (in_ro i)) (map (vin rho) (twv_inputs w)))
      by (rewrite !map_map; reflexivity).
    assert (MO : map rho (map rv_amount (twv_outputs w)) = map ro_amount (map (vro rho) (twv_outputs w)))
      by (rewrite !map_map; reflexivity).
    split.
    - apply snd_bind; [gext|]. eapply gspec_snd; [exact G1|]. intros _ E1 _.
      apply snd_bind; [gext|]. eapply gspec_snd; [exact G2|]. intros _ E2 _.
      apply snd_bind; [gext|]. eapply gspec_snd; [apply g_balance; auto|]. intros amt E3 Q3.
      sx diff E4 Q4. sx under E5 Q5. sx dv E6 Q6. sx nm E7 Q7.
      apply snd_bind; [gext|]. eapply gspec_snd; [apply g_viewing; auto|]. intros corr E8 Q8. sp v9 E9 Q9.
      split; [|auto]. rewrite MI in E3, Q3. rewrite MO in E3. constructor.
      + exact E1.
      + exact E2.
      + exact E3.
      + exact (proj1 E8).
      + exact (proj2 E8).
      + destruct Q5 as [Q5 Q5']. apply is_bool_spec in Q5. destruct Q5 as [u Hu]. rewrite Hu, Q6, f_or_bool in Q7.
        rewrite Q7, Q8, f_or_bool, zeqb_fbool_1 in E9. rewrite !orb_true_iff in E9. destruct E9 as [[Hu'|Hd]|Hm].
        * left. unfold under_limit. rewrite Hu' in Hu. rewrite Q4, Q3 in Q5'. apply Q5' in Hu. exact Hu.
        * right; left. apply xy_eqb_spec in Hd. exact Hd.
        * right; right. apply memo_eqb_spec in Hm. exact Hm.
    - intros [I1 I2 I3 I4 I5 I6].
      apply cmp_bind; [gext|]. eapply gspec_cmp; [exact G1|exact I1|]. intros _ _.
      apply cmp_bind; [gext|]. eapply gspec_cmp; [exact G2|exact I2|]. intros _ _.
      apply cmp_bind; [gext|]. eapply gspec_cmp; [apply g_balance; auto| |].
      { rewrite MI, MO. exact I3. }
      intros amt Q3. rewrite MI in Q3.
      cx diff Q4; auto. cx under Q5; auto. cx dv Q6; auto. cx nm Q7; auto.
      apply cmp_bind; [gext|]. eapply gspec_cmp; [apply g_viewing; auto|split; [exact I4|exact I5]|]. intros corr Q8.
      cp v9 Q9; auto. rewrite Q7, Q5, Q6, Q8, !f_or_bool, zeqb_fbool_1, !orb_true_iff.
      destruct I6 as [H|[H|H]].
      + left; left. rewrite Q4, Q3. exact H.
      + left; right. apply xy_eqb_spec. exact H.
      + right. apply memo_eqb_spec. exact H.
  Qed.

  (** ** Allocation *)
  Lemma g_input_new s rho : gspec (input_var_new s) rho True T (fun v => vin rho v = input_value s).
  Proof.
    unfold input_var_new. gstart.
    - repeat sstep. sret; auto.
    - intros _. repeat cstep. cret. unfold vin, input_value; cbn. congruence.
  Qed.
  Lemma extm_input_new s : extm (input_var_new s).
  Proof. unfold input_var_new; gext. Qed.
  Lemma mmap_length {A B} (f : A -> M B) l : forall s ys s', mmap f l s = Ok (ys, s') -> length ys = length l.
  Proof.
    induction l as [|x l IH]; cbn; intros s ys s' H; [injection H as <- <-; auto|].
    apply mbind_ok in H. destruct H as (y & s1 & _ & H). apply mbind_ok in H. destruct H as (ys' & s2 & H1 & H2).
    injection H2 as <- <-. cbn. f_equal. eapply IH; eauto.
  Qed.
  Lemma extm_twitness w : extm (transfer_witness_var_new w).
  Proof.
    unfold transfer_witness_var_new.
    repeat (apply extm_bind; [first [apply extm_map; intros; apply extm_input_new|gext]|intros]). gext.
  Qed.
  Lemma g_twitness w rho : gspec (transfer_witness_var_new w) rho True T (fun v => vtransfer rho v = transfer_value w).
  Proof.
    split; [apply extm_twitness|]. split; [intros s a s' _ _; auto|]. intros _.
    unfold transfer_witness_var_new. assert (X := extm_input_new).
    cx v1 Q1. cx v2 Q2. apply cmp_bind; [gext|].
    eapply gspec_cmp; [apply (g_allocmap input_var_new vin input_value (fun _ _ => True)); intros; apply g_input_new|auto|]. intros v3 Q3.
    apply cmp_bind; [gext|].
    eapply gspec_cmp; [apply (g_allocmap ro_var_new vro ro_value (fun rho v => is_bool (ro_flag (vro rho v)) = true)); intros; apply g_ro_new|auto|]. intros v4 Q4.
    cx v5 Q5. cret. unfold vtransfer, transfer_value; cbn. congruence.
  Qed.
  Lemma extm_tpub p : extm (transfer_pub_var_new p).
  Proof. unfold transfer_pub_var_new; gext. Qed.
  Lemma g_tpub p rho : gspec (transfer_pub_var_new p) rho True T (fun v => vtpub rho v = transfer_pub_value p).
  Proof.
    split; [apply extm_tpub|]. split; [intros s a s' _ _; auto|]. intros _. unfold transfer_pub_var_new.
    cx v1 Q1. cx v2 Q2. cx v3 Q3. cx v4 Q4. cx v5 Q5. cx v6 Q6. cx v7 Q7. cx v8 Q8. cret.
    unfold vtpub, transfer_pub_value; cbn. congruence.
  Qed.
  Lemma twitness_lengths w s v s' : transfer_witness_var_new w s = Ok (v, s') ->
    length (twv_inputs v) = length (tw_inputs w) /\ length (twv_outputs v) = length (tw_outputs w).
  Proof.
    unfold transfer_witness_var_new. intros H. repeat (apply mbind_ok in H; destruct H as (? & ? & ? & H)).
    injection H as <- <-. cbn. split; eapply mmap_length; eauto.
  Qed.
  Lemma tpub_lengths p s v s' : transfer_pub_var_new p s = Ok (v, s') ->
    length (tpv_nullifiers v) = length (tp_nullifiers p) /\ length (tpv_commitments v) = length (tp_commitments p) /\
    length (snd (tpv_memo v)) = length (vm_data (tp_memo p)).
  Proof.
    unfold transfer_pub_var_new. intros H. repeat (apply mbind_ok in H; destruct H as (? & ? & ? & H)).
    match goal with E : memo_var_new _ _ = _ |- _ => unfold memo_var_new in E; repeat (apply mbind_ok in E; destruct E as (? & ? & ? & E));
      injection E as <- <- end.
    injection H as <- <-. cbn. conjs; eapply mmap_length; eassumption.
  Qed.

  (** ** The circuit *)
  Lemma transfer_build_inv w p s wv pv s' : transfer_build w p s = Ok ((wv, pv), s') ->
    exists s1 s2, transfer_witness_var_new w s = Ok (wv, s1) /\ transfer_pub_var_new p s1 = Ok (pv, s2) /\
                  transfer_constraints wv pv s2 = Ok (tt, s').
  Proof.
    unfold transfer_build. destruct (_ =? 0)%nat; [discriminate|]. destruct (_ =? 0)%nat; [discriminate|].
    intros H. apply mbind_ok in H. destruct H as (wv' & s1 & H1 & H). apply mbind_ok in H. destruct H as (pv' & s2 & H2 & H).
    apply mbind_ok in H. destruct H as ([] & s3 & H3 & H). injection H as <- <- <-. eauto.
  Qed.
  Lemma transfer_build_sound w p wv pv s rho :
    length (tw_inputs w) = length (tp_nullifiers p) -> length (tw_outputs w) = length (tp_commitments p) ->
    transfer_build w p new_circuit = Ok ((wv, pv), s) -> sat rho s ->
    transfer_relation (vtpub rho pv) (vtransfer rho wv).
  Proof.
    intros HL1 HL2 H Hs. apply transfer_build_inv in H. destruct H as (s1 & s2 & H1 & H2 & H3).
    destruct (twitness_lengths _ _ _ _ H1) as [L1 L2]. destruct (tpub_lengths _ _ _ _ H2) as (L3 & L4 & _).
    assert (Hc : consts rho).
    { apply new_circuit_consts. eapply ext_sat; [|exact Hs].
      eapply ext_trans; [eapply extm_twitness; eauto|]. eapply ext_trans; [eapply extm_tpub; eauto|]. eapply extm_constraints; eauto. }
    eapply (g_constraints wv pv rho Hc); eauto; congruence.
  Qed.
  Lemma transfer_build_complete w p wv pv s :
    length (tw_inputs w) = length (tp_nullifiers p) -> length (tw_outputs w) = length (tp_commitments p) ->
    transfer_build w p new_circuit = Ok ((wv, pv), s) ->
    transfer_relation (transfer_pub_value p) (transfer_value w) ->
    sat (env_of (wit s)) s.
  Proof.
    intros HL1 HL2 H HR. set (rho := env_of (wit s)).
    assert (Ha : agr rho s) by (intros v x Hv; unfold rho, env_of; apply nth_error_nth; exact Hv).
    apply transfer_build_inv in H. destruct H as (s1 & s2 & H1 & H2 & H3).
    destruct (twitness_lengths _ _ _ _ H1) as [L1 L2]. destruct (tpub_lengths _ _ _ _ H2) as (L3 & L4 & _).
    assert (Ha2 : agr rho s2) by (eapply ext_agr; [eapply extm_constraints; eauto|auto]).
    assert (Ha1 : agr rho s1) by (eapply ext_agr; [eapply extm_tpub; eauto|auto]).
    assert (Ha0 : agr rho new_circuit) by (eapply ext_agr; [eapply extm_twitness; eauto|auto]).
    destruct (new_circuit_agr rho Ha0) as [Hc Hs0].
    destruct (g_twitness w rho) as (_ & _ & G1). destruct (G1 I _ _ _ H1 Ha1 Hs0) as [Hs1 V1].
    destruct (g_tpub p rho) as (_ & _ & G2). destruct (G2 I _ _ _ H2 Ha2 Hs1) as [Hs2 V2].
    destruct (g_constraints wv pv rho Hc ltac:(congruence) ltac:(congruence)) as (_ & _ & G3).
    rewrite V1, V2 in G3. destruct (G3 HR _ _ _ H3 Ha Hs2); auto.
  Qed.
End Proofs.
