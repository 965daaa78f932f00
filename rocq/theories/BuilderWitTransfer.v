(** The witnesses of the transfer builders: what a satisfied circuit says of the builder, and builders that satisfy it. *)
From Verif Require Import Base Config Structs Keys Utils Memo Plonk Witness Circuits Relation CircuitLogic CodecProofs PolicyProofs
  UtilsProofs MemoProofs GadgetProofs StructGadgetProofs SpendGadgetProofs TransferCircuitProofs CircuitShape CircuitTheorems Snark Notes NoteProofs
  NoteGen NoteGen2 NoteFacts Security NoteLive NoteLive2 NoteThms Serde Ledger Wallet WalletProofs WalletPay WalletPay2 Builder BuilderSpec BuilderLive
  BuilderTxns BuilderWit BuilderWitProofs.

Section WitTransfer.
  Context {C : CapConfig} {S : Snark C} {K : @RoCodec C} {E : MemoSer C} (L : CapLaws C).

  Lemma code_dec (a b : F) : a = b \/ a <> b.
  Proof. destruct (zeqb_reflect a b); auto. Qed.
  Lemma cred_signed_verify c (now : u64) : cred_signed (cred_value c) -> zv now <= zv (cr_expiry c) -> cred_verify c now = Ok tt.
  Proof.
    unfold cred_signed, cred_message. cbn [cred_value cr_v_creator cr_v_expiry cr_v_addr cr_v_attrs cr_v_sig]. rewrite (csig_agrees L).
    intros H1 H2. unfold cred_verify, cred_is_expired. destruct (Z.ltb_spec (zv (cr_expiry c)) (zv now)); [lia|].
    destruct (cr_cred c) as [sg R]. unfold cred_msg. cbn [fst snd app] in H1. cbn [app]. rewrite H1. reflexivity.
  Qed.

  Section Says.
    Variables (enc : Fj) (b : TransferBuilder) (vu : u64) (w : TransferWitness) (p : TransferPublicInput).
    Hypothesis HW : tb_build_witness enc b = Ok w.
    Hypothesis HP : transfer_from_witness w vu = Ok p.
    Hypothesis HR : transfer_relation (transfer_pub_value p) (transfer_value w).

    Lemma tw_lens : length (tb_ins b) = tb_num_in b /\ length (tb_accs b) = tb_num_in b /\ length (tb_kps b) = tb_num_in b /\ length (tb_creds b) = tb_num_in b.
    Proof. unfold tb_build_witness in HW. apply bind_ok in HW. destruct HW as ([] & HL & _). apply len_check_ok. exact HL. Qed.
    Lemma tw_new : transfer_new_unchecked enc (tb_inputs b (tb_creds b)) (tb_chg b :: tb_outs b) = Ok w.
    Proof. unfold tb_build_witness in HW. apply bind_ok in HW. destruct HW as ([] & _ & H). apply unwrap_inv. exact H. Qed.
    Lemma tw_parts : tw_outputs w = tb_chg b :: tb_outs b /\ map is_ro (tw_inputs w) = tb_ins b.
    Proof.
      destruct tw_lens as (L1 & L2 & L3 & L4). destruct (new_unchecked_inv L _ _ _ _ tw_new) as (_ & Wo & _ & Wi). split; [exact Wo|].
      apply map_inputs in Wi. destruct Wi as [Wi _]. rewrite Wi. apply tb_inputs_ros; assumption.
    Qed.
    Lemma tw_secret i r : nth_error (tb_ins b) i = Some r ->
      exists x s, nth_error (tb_ins b) i = Some (ti_ro x) /\ nth_error (tb_accs b) i = Some (ti_acc x) /\ nth_error (tb_kps b) i = Some (ti_kp x) /\
        nth_error (tb_creds b) i = Some (ti_cred x) /\ In s (tw_inputs w) /\ is_kp s = ti_kp x /\ is_ro s = ti_ro x /\ is_acc s = ti_acc x /\
        (cred_pk (policy (asset_def (ti_ro x))) <> pt_id -> ti_cred x = Some (is_cred s)).
    Proof.
      intros Hr. destruct tw_lens as (L1 & L2 & L3 & L4).
      assert (HI : (i < tb_num_in b)%nat) by (rewrite <- L1; apply nth_error_Some; congruence).
      assert (HA : forall A (l : list A), length l = tb_num_in b -> exists x, nth_error l i = Some x).
      { intros A l El. destruct (nth_error l i) eqn:En; [eauto|]. apply nth_error_None in En. lia. }
      destruct (HA _ _ L2) as (a & Ha). destruct (HA _ _ L3) as (k & Hk). destruct (HA _ _ L4) as (c & Hc).
      assert (HX : nth_error (tb_inputs b (tb_creds b)) i = Some (mkTIn r a k c)) by (apply tb_inputs_nth; cbn; auto).
      destruct (new_unchecked_inv L _ _ _ _ tw_new) as (_ & _ & _ & Wi).
      destruct (Forall2_In_l _ _ _ _ Wi (nth_error_In _ _ HX)) as (s & Hs & K1 & K2 & K3 & _ & K5).
      exists (mkTIn r a k c), s. cbn in *. conjs; auto.
    Qed.
    Lemma tw_ok s : In s (tw_inputs w) -> exists f nl, input_ok (transfer_value w) (transfer_pub_value p) f (input_value s) nl.
    Proof.
      intros Hs. pose proof (tr_inputs _ _ HR) as H. cbn [tv_ins transfer_value tq_nullifiers transfer_pub_value] in H.
      destruct (Forall2_first_In _ _ _ _ H (in_map input_value _ _ Hs)) as (f & nl & _ & Hok). eauto.
    Qed.
    Lemma tw_out o : In o (tw_outputs w) -> exists f rc, output_ok (transfer_value w) (transfer_pub_value p) f (ro_value o) rc.
    Proof.
      intros Hs. pose proof (tr_outputs _ _ HR) as H. cbn [tv_outs transfer_value tq_commitments transfer_pub_value] in H.
      destruct (Forall2_first_In _ _ _ _ H (in_map ro_value _ _ Hs)) as (f & nl & _ & Hok). eauto.
    Qed.
    Lemma tw_dummy s : In s (tw_inputs w) -> code (asset_def (is_ro s)) = dummy_asset_code -> zv (amount (is_ro s)) = 0.
    Proof.
      intros Hs Hd. destruct (tw_ok s Hs) as (f & nl & Hok). pose proof (io_dummy_amount _ _ _ _ _ Hok) as H.
      cbn [input_value in_ro ro_code ro_value ro_amount] in H. specialize (H Hd). apply (f_equal zv) in H. rewrite zv_f_of_u128, zv_f0 in H. exact H.
    Qed.
    Lemma tw_public : tp_valid_until p = vu /\ tp_native p = code (asset_def (tb_chg b)) /\
      amt_sum (tb_ins b) = amt_sum (tb_chg b :: tb_outs b) + zv (tp_fee p) /\ amt_sum (tb_ins b) < 2 ^ 128.
    Proof.
      destruct tw_parts as [Wo Wr]. pose proof tw_dummy as HD.
      pose proof HP as HP'. unfold transfer_from_witness in HP'. apply bind_ok in HP'. destruct HP' as (s0 & H0 & HP').
      apply bind_ok in HP'. destruct HP' as (o0 & H1 & HP'). rewrite Wo in H1. cbn [hd_error ok_or] in H1. injection H1 as <-.
      apply bind_ok in HP'. destruct HP' as (si & H2 & HP'). apply ok_or_ok in H2. apply safe_sum_some in H2.
      apply bind_ok in HP'. destruct HP' as (so & H3 & HP'). apply ok_or_ok in H3. apply safe_sum_some in H3.
      apply bind_ok in HP'. destruct HP' as (fee & H4 & HP'). apply bind_ok in HP'. destruct HP' as (memo & H5 & HP'). injection HP' as <-.
      cbn [tp_valid_until tp_native tp_fee]. split; [reflexivity|]. split; [reflexivity|].
      assert (E1 : amt_sum (tb_ins b) = zv si).
      { rewrite <- H2, <- Wr. rewrite map_map. rewrite <- (amt_sum_non_dummy L (map is_ro (tw_inputs w))).
        - unfold amt_sum, non_dummy. rewrite <- (filter_map_comm is_ro (fun r => negb (is_dummy_def (asset_def r)))), !map_map. reflexivity.
        - intros r Hr Hd. apply in_map_iff in Hr. destruct Hr as (s & <- & Hs). apply HD; auto. rewrite Hd. reflexivity. }
      assert (E2 : amt_sum (tb_chg b :: tb_outs b) = zv so).
      { rewrite <- H3, Wo. unfold amt_sum. rewrite map_map. reflexivity. }
      rewrite E1, E2. pose proof (amount_range si). pose proof (amount_range so). destruct (Z.leb_spec (zv so) (zv si)); [|discriminate]. injection H4 as <-.
      rewrite zv_w128_small by lia. lia.
    Qed.

    Lemma says : transfer_says b vu (tp_root p) (tp_native p) (tp_fee p) (tw_asset_def w).
    Proof.
      destruct tw_parts as [Wo Wr]. destruct tw_public as (PV & PN & PB & PS).
      pose proof (tr_inputs _ _ HR) as HI. pose proof (tr_outputs _ _ HR) as HO. pose proof (tr_balanced _ _ HR) as HB.
      cbn [tv_ins tv_outs transfer_value tq_nullifiers tq_commitments transfer_pub_value] in HI, HO.
      constructor.
      - intros r Hr. apply flag_zero. apply in_app_or in Hr. destruct Hr as [Hr|Hr].
        + rewrite <- Wr in Hr. apply in_map_iff in Hr. destruct Hr as (s & <- & Hs). destruct (tw_ok s Hs) as (f & nl & Hok). exact (io_unfrozen _ _ _ _ _ Hok).
        + rewrite <- Wo in Hr. destruct (tw_out r Hr) as (f & rc & Hok). exact (oo_unfrozen _ _ _ _ _ Hok).
      - intros r Hr. split.
        + rewrite <- Wr in Hr. destruct (tw_inputs w) as [|s0 srest]; [discriminate|]. cbn in Hr. injection Hr as <-.
          cbn [map] in HI. destruct (tp_nullifiers p) as [|nl nls]; [destruct HI|]. destruct HI as [HI _].
          destruct (io_policy _ _ _ _ _ HI) as [G1 G2]. cbn [input_value in_ro ro_value ro_code ro_pol transfer_pub_value tq_native] in G1, G2.
          apply (policy_empty_default L) in G2. destruct (asset_def (is_ro s0)) as [c q]. cbn in *. congruence.
        + rewrite Wo in HO. cbn [map] in HO. destruct (tp_commitments p) as [|rc rcs]; [destruct HO|]. destruct HO as [HO _].
          destruct (oo_asset _ _ _ _ _ HO) as [G1 G2]. cbn [ro_value ro_code ro_pol transfer_pub_value tq_native] in G1, G2.
          apply (policy_empty_default L) in G2. destruct (asset_def (tb_chg b)) as [c q]. cbn in *. congruence.
      - intros r Hr. rewrite <- Wr in Hr. pose proof tw_dummy as HD. destruct (tw_inputs w) as [|s0 srest]; [destruct Hr|]. cbn [map skipn] in Hr.
        apply in_map_iff in Hr. destruct Hr as (s & <- & Hs).
        cbn [map] in HI. destruct (tp_nullifiers p) as [|nl nls]; [destruct HI|]. destruct HI as [_ HI].
        destruct (Forall2_In_l _ _ _ _ HI (in_map input_value _ _ Hs)) as (nl' & _ & Hok).
        destruct (io_policy _ _ _ _ _ Hok) as [G1 G2]. cbn [input_value in_ro ro_value ro_code ro_pol transfer_value tv_pol] in G1, G2. unfold is_dummy_code in *.
        destruct (code_dec (code (asset_def (is_ro s))) dummy_asset_code) as [Ec|Ec]; [left|right].
        + split; [|apply HD; [right; exact Hs|exact Ec]]. apply (policy_weak_dummy L); auto.
        + split; [exact Ec|]. apply (pol_value_inj L). auto.
      - intros o Ho. rewrite Wo in HO. cbn [map] in HO. destruct (tp_commitments p) as [|rc rcs]; [destruct HO|]. destruct HO as [_ HO].
        destruct (Forall2_In_l _ _ _ _ HO (in_map ro_value _ _ Ho)) as (rc' & _ & Hok). destruct (oo_asset _ _ _ _ _ Hok) as [G1 G2].
        cbn [ro_value ro_code ro_pol transfer_value tv_pol tv_code] in G1, G2. apply (pol_value_inj L) in G2.
        destruct (asset_def o) as [c q], (tw_asset_def w) as [c' q']. cbn in *. congruence.
      - intros o Ho. rewrite <- Wo in Ho. destruct (tw_out o Ho) as (f & rc & Hok). apply in_range_amount. exact (oo_range _ _ _ _ _ Hok).
      - intros i r k Hr Hk. destruct (tw_secret i r Hr) as (x & s & H1 & H2 & H3 & H4 & Hs & K1 & K2 & K3 & K4).
        destruct (tw_ok s Hs) as (f & nl & Hok). pose proof (io_owner _ _ _ _ _ Hok) as HOw. cbn [ro_owner in_ro in_sk input_value ro_value] in HOw.
        apply (owns_iff L) in HOw. rewrite K1, K2 in HOw. assert (r = ti_ro x) as -> by congruence. assert (k = ti_kp x) as -> by congruence. exact HOw.
      - intros i r a Hr Ha Hd. destruct (tw_secret i r Hr) as (x & s & H1 & H2 & H3 & H4 & Hs & K1 & K2 & K3 & K4).
        destruct (tw_ok s Hs) as (f & nl & Hok). pose proof (io_member _ _ _ _ _ Hok) as HM. cbn [in_place in_ro input_value] in HM.
        rewrite commitment_of_ro_value, K2, K3 in HM. assert (r = ti_ro x) as -> by congruence. assert (a = ti_acc x) as -> by congruence.
        apply HM. exact Hd.
      - intros i r Hr Hc. destruct (tw_secret i r Hr) as (x & s & H1 & H2 & H3 & H4 & Hs & K1 & K2 & K3 & K4).
        assert (r = ti_ro x) as -> by congruence. exists (is_cred s). rewrite H4, (K4 Hc). split; [reflexivity|].
        destruct (tw_ok s Hs) as (f & nl & Hok). pose proof (io_cred_time _ _ _ _ _ Hok) as TM. pose proof (io_cred _ _ _ _ _ Hok) as SG.
        cbn [input_value in_ro in_cred ro_value ro_pol pol_value po_cred] in TM, SG. rewrite K2 in SG.
        assert (SG' : cred_signed (cred_value (is_cred s))) by (apply SG; intros G; apply Hc, (is_no_key L), G).
        assert (TT : zv vu <= zv (cr_expiry (is_cred s)) < zv vu + 2 ^ 20).
        { unfold in_range in TM. apply Z.ltb_lt in TM. unfold fsub in TM. rewrite zv_fz in TM.
          cbn [cred_value cr_v_expiry transfer_pub_value tq_valid_until] in TM. rewrite PV, !zv_f_of_u64 in TM.
          assert (V : 0 <= zv vu < 2 ^ 64) by apply (zv_range vu). assert (X : 0 <= zv (cr_expiry (is_cred s)) < 2 ^ 64) by apply (zv_range (cr_expiry (is_cred s))).
          pose proof big_modulus as BM. change (2 ^ Z.of_nat MAX_TIMESTAMP_LEN) with (2 ^ 20) in TM. assert (2 ^ 64 + 2 ^ 20 < 2 ^ 200) by reflexivity.
          destruct (Z.le_gt_cases (zv vu) (zv (cr_expiry (is_cred s)))) as [G|G].
          - rewrite Z.mod_small in TM by lia. lia.
          - exfalso. rewrite <- (Z_mod_plus_full _ 1), Z.mul_1_l, Z.mod_small in TM by lia. lia. }
        split; [apply cred_signed_verify; [exact SG'|lia]|lia].
      - rewrite !total_amt. rewrite PB, amt_sum_cons. reflexivity.
      - intros Hn. rewrite !total_amt. unfold balanced in HB. cbn [transfer_pub_value transfer_value tq_native tv_code] in HB.
        destruct (zeqb_reflect (tp_native p) (code (tw_asset_def w))) as [G|_]; [congruence|]. destruct HB as [HB _].
        unfold transfer_in, transfer_out, tail_sum in HB. cbn [transfer_value tv_ins tv_outs] in HB. rewrite !map_map in HB. rewrite Wo in HB.
        assert (EI : map (fun x => ro_amount (in_ro (input_value x))) (tw_inputs w) = map (fun r => f_of_u128 (amount r)) (tb_ins b)).
        { rewrite <- Wr, map_map. reflexivity. }
        rewrite EI in HB. change (map (fun x => ro_amount (ro_value x)) (tb_chg b :: tb_outs b)) with (map (fun r => f_of_u128 (amount r)) (tb_chg b :: tb_outs b)) in HB.
        pose proof big_modulus as BM. assert (2 ^ 128 < 2 ^ 200) by reflexivity.
        rewrite amt_sum_cons in PB. pose proof (amt_sum_nonneg (tb_outs b)). pose proof (amount_range (amount (tb_chg b))). pose proof (amount_range (tp_fee p)).
        apply (f_equal zv) in HB. cbn [map tl] in HB.
        assert (ES : amt_sum (skipn 1 (tb_ins b)) <= amt_sum (tb_ins b)).
        { destruct (tb_ins b) as [|r l]; cbn [skipn]; [lia|]. rewrite amt_sum_cons. pose proof (amount_range (amount r)). lia. }
        assert (EM : tl (map (fun r => f_of_u128 (amount r)) (tb_ins b)) = map (fun r => f_of_u128 (amount r)) (skipn 1 (tb_ins b))) by (destruct (tb_ins b); reflexivity).
        rewrite EM in HB. rewrite !fsum_amounts in HB by lia. exact HB.
    Qed.
  End Says.

  Theorem transfer_builder_says enc b vu w p s : tb_build_witness enc b = Ok w -> transfer_from_witness w vu = Ok p -> transfer_circuit w p = Ok s ->
    check_circuit_satisfiability s (transfer_to_scalars p) = true ->
    transfer_says b vu (tp_root p) (tp_native p) (tp_fee p) (tw_asset_def w).
  Proof.
    intros HW HP HS HC. apply (says enc); auto. apply (transfer_honest _ _ _ (proj1 (transfer_from_witness_lengths L _ _ _ HP)) HS). exact HC.
  Qed.

  (** ** Builders that satisfy the circuit *)
  Lemma transferable_sat g n_in n_out depth pk vk root vu inputs outputs fee d enc :
    transfer_preprocess g n_in n_out depth = Ok (pk, vk) -> length inputs = n_in -> length outputs = n_out ->
    transferable depth root vu inputs outputs fee d ->
    exists w p s, transfer_new_unchecked enc inputs outputs = Ok w /\ transfer_from_witness w vu = Ok p /\ transfer_circuit w p = Ok s /\
      check_circuit_satisfiability s (transfer_to_scalars p) = true /\ tp_root p = root /\ tp_native p = native_asset_code /\ tp_fee p = fee /\
      tw_asset_def w = d.
  Proof.
    intros HPre Li Lo Q. destruct (q_witness L _ _ _ _ _ _ _ Q enc) as (w & W).
    destruct (w_public L _ _ _ _ _ _ _ Q _ _ W) as (p & Hp & HM & HP).
    pose proof (p_relation L _ _ _ _ _ _ _ Q _ _ W p HP HM) as HR.
    apply transfer_preprocess_keys in HPre. destruct HPre as (s0 & Hb & Hk & E1 & E2 & E3 & _).
    destruct (new_unchecked_inv L _ _ _ _ W) as (_ & Wo & _ & Wi).
    assert (HS : map input_shape (tw_inputs w) = repeat (depth, ATTRS_LEN) n_in).
    { rewrite <- Li, (Forall2_len _ _ _ Wi).
      assert (HF : forall x, In x (tw_inputs w) -> input_shape x = (depth, ATTRS_LEN)).
      { intros x Hx. destruct (NoteLive.w_cred L _ _ _ _ _ _ _ Q _ _ W x Hx) as (C1 & _). destruct (w_secret L _ _ _ _ W x Hx) as (i & Hi & _ & _ & K3).
        unfold input_shape. rewrite C1, K3, (sp_path _ _ _ _ (tq_spendable _ _ _ _ _ _ _ Q i Hi)). reflexivity. }
      revert HF. generalize (tw_inputs w) as l. induction l as [|x l IH]; intros HF; [reflexivity|]. cbn [map length repeat].
      rewrite HF by (left; auto). f_equal. apply IH. intros; apply HF; right; auto. }
    destruct (transfer_honest_circuit L _ _ _ _ _ _ _ Hb Hp HS) as (s & Hs & Hsim); [congruence|].
    exists w, p, s. split; [exact W|]. split; [exact Hp|]. split; [exact Hs|]. split.
    { eapply transfer_honest; [apply (transfer_from_witness_lengths L _ _ _ Hp)|exact Hs|exact HR]. }
    rewrite HP. cbn [tp_root tp_native tp_fee]. conjs; auto. apply (w_def L _ _ _ _ _ _ _ Q _ _ W).
  Qed.

  Definition fee_left (b : TransferBuilder) : Amount := w128 (total (firstn 1 (tb_ins b)) - zv (amount (tb_chg b))).
  Lemma non_native_transferable b root vu d : non_native_ready b root vu d ->
    transferable (tb_depth b) root vu (tb_inputs b (tb_creds b)) (tb_chg b :: tb_outs b) (fee_left b) d.
  Proof.
    intros Q. pose proof (nr_ready _ _ _ _ Q) as R. destruct (nr_def _ _ _ _ Q) as (nn & Hnn & Hd).
    assert (Dd : tb_def b = d) by (unfold tb_def; rewrite Hnn; exact Hd).
    destruct (nr_code _ _ _ _ Q) as [Cn Cd].
    assert (Ddm : d <> asset_def_dummy) by (intros ->; apply Cd; reflexivity).
    destruct (rd_ins _ _ R) as [Li0 Li]. pose proof (rd_accs _ _ R) as La. pose proof (rd_kps _ _ R) as Lk. pose proof (rd_creds _ _ R) as Lc.
    destruct (rd_outs _ _ R) as [Ho0 Lo].
    set (inputs := tb_inputs b (tb_creds b)).
    assert (Lin : length inputs = tb_num_in b) by (apply tb_inputs_length; assumption).
    assert (ROS : map ti_ro inputs = tb_ins b) by (apply tb_inputs_ros; assumption).
    assert (NUL : map (fun i => user_nullify (ti_kp i) (freezer_pk (policy (asset_def (ti_ro i)))) (acc_uid (ti_acc i)) (derive_record_commitment (ti_ro i))) inputs = tb_nullifiers b)
      by (apply tb_inputs_nullifiers; assumption).
    destruct (nr_some _ _ _ _ Q) as (r1 & Hr1 & Er1).
    destruct inputs as [|i0 irest] eqn:EI; [rewrite <- ROS in Hr1; destruct Hr1|].
    assert (N0 : nth_error (tb_inputs b (tb_creds b)) 0 = Some i0) by (fold inputs; rewrite EI; reflexivity).
    apply tb_inputs_nth in N0. destruct N0 as (N1 & N2 & N3 & N4).
    destruct (rd_first _ _ R _ N1) as [F1 F2]. destruct (rd_chg _ _ R) as [Ch1 Ch2].
    pose proof (nr_fee _ _ _ _ Q _ N1) as Hfee.
    set (fee := w128 (zv (amount (ti_ro i0)) - zv (amount (tb_chg b)))).
    assert (Efee : zv fee = zv (amount (ti_ro i0)) - zv (amount (tb_chg b))).
    { apply zv_w128_small. pose proof (amount_range (amount (ti_ro i0))). pose proof (amount_range (amount (tb_chg b))). lia. }
    assert (Hsp : forall x, In x inputs -> cred_pk (policy (asset_def (ti_ro x))) <> pt_id -> exists i, nth_error (tb_ins b) (Datatypes.S i) = Some (ti_ro x) /\
              asset_def (ti_ro x) = d /\ nth_error (tb_creds b) (Datatypes.S i) = Some (ti_cred x)).
    { intros x Hx Hc. apply In_nth_error in Hx. destruct Hx as (i & Hx). unfold inputs in Hx. apply tb_inputs_nth in Hx. destruct Hx as (H1 & _ & _ & H4).
      destruct i as [|i]; [exfalso; apply Hc; rewrite (proj1 (rd_first _ _ R _ H1)); reflexivity|]. exists i. split; [exact H1|]. split; [|exact H4].
      destruct (rd_rest _ _ R (ti_ro x)) as [G|[G _]].
      - destruct (tb_ins b) as [|r0 l]; [discriminate|]. cbn [skipn nth_error] in *. apply (nth_error_In _ i); exact H1.
      - rewrite G. exact Dd.
      - exfalso. apply Hc. rewrite G. reflexivity. }
    assert (CR : forall i x, nth_error (tb_inputs b (tb_creds b)) i = Some x -> cred_pk (policy (asset_def (ti_ro x))) <> pt_id ->
              exists c, ti_cred x = Some c /\ good_cred vu c).
    { intros i x Hx Hc. destruct (Hsp x) as (j & J1 & J2 & J3); [apply (nth_error_In _ i); exact Hx|exact Hc|].
      rewrite J2 in Hc. destruct (nr_creds _ _ _ _ Q Hc j (ti_ro x)) as (c & G1 & G2); [destruct (tb_ins b) as [|r0 l]; [discriminate|exact J1]|exact J2|].
      exists c. split; [congruence|exact G2]. }
    pose proof (good_input (tb_depth b) root vu b (tb_creds b) R eq_refl (eq_ind_r (fun x => x <> asset_def_dummy) Ddm Dd) CR) as SP.
    fold inputs in SP. rewrite EI in SP.
    assert (INS : tb_ins b = ti_ro i0 :: map ti_ro irest) by (symmetry; exact ROS).
    assert (SKIP : skipn 1 (tb_ins b) = map ti_ro irest) by (rewrite INS; reflexivity).
    pose proof (rd_rest _ _ R) as RR. rewrite SKIP, Dd in RR. rewrite SKIP in Hr1.
    destruct (dummies_worthless L d (map ti_ro irest) Ddm RR) as [W1 W2].
    pose proof (nr_balance _ _ _ _ Q) as BAL. rewrite SKIP, !total_amt in BAL.
    pose proof (nr_amounts _ _ _ _ Q) as AM. rewrite total_amt in AM.
    assert (HQ : transferable (tb_depth b) root vu (i0 :: irest) (tb_chg b :: tb_outs b) fee d).
    { constructor.
      - exists i0, irest, (tb_chg b), (tb_outs b). split; [reflexivity|]. split; [reflexivity|]. split; [exact F1|]. split; [exact Ch1|]. split; [|split; [|split]].
        + apply transferred_def; [exact Ddm| |exists r1; auto]. intros o Ho. destruct (RR o Ho) as [G|[G _]]; auto.
        + intros i Hi. destruct (RR (ti_ro i)) as [G|[G _]]; [apply in_map; exact Hi|right; exact G|left; exact G].
        + intros o Ho. rewrite <- Dd. exact (proj1 (rd_out_defs _ _ R o Ho)).
        + intros G. destruct (nr_viewer _ _ _ _ Q G) as [G1 G2]. split; [exact G1|]. rewrite SKIP, total_amt in G2. exact G2.
      - split; [exact Cd|]. split; [intros G; contradiction|exact (nr_keys _ _ _ _ Q)].
      - exact SP.
      - intros o [<-|Ho]; [exact Ch2|exact (proj2 (rd_out_defs _ _ R o Ho))].
      - exact (nr_expiry _ _ _ _ Q).
      - intros c. cbn [map]. unfold non_dummy. cbn [filter].
        assert (Hnd0 : is_dummy_def (asset_def (ti_ro i0)) = false) by (apply (fee_input_non_dummy L); exact F1). rewrite Hnd0. cbn [negb].
        rewrite !code_sum_cons. fold (non_dummy (map ti_ro irest)). rewrite F1, Ch1. change (code asset_def_native) with native_asset_code.
        assert (OUT : forall o, In o (tb_outs b) -> code (asset_def o) = code d) by (intros o Ho; rewrite (proj1 (rd_out_defs _ _ R o Ho)), Dd; reflexivity).
        destruct (zeqb_reflect native_asset_code c) as [<-|Hc].
        + rewrite !code_sum_none; [lia| |].
          * intros o Ho. rewrite (OUT o Ho). exact Cn.
          * intros o Ho. rewrite (W1 o Ho). exact Cn.
        + destruct (zeqb_reflect (code d) c) as [<-|Hc'].
          * rewrite code_sum_all by (intros o Ho; rewrite (W1 o Ho); reflexivity). rewrite code_sum_all by exact OUT. lia.
          * rewrite !code_sum_none; [lia| |].
            -- intros o Ho. rewrite (OUT o Ho). exact Hc'.
            -- intros o Ho. rewrite (W1 o Ho). exact Hc'.
      - cbn [map]. rewrite <- INS. exact AM.
      - rewrite NUL. exact (nr_distinct _ _ _ _ Q). }

    assert (EF : fee_left b = fee) by (unfold fee_left, fee; rewrite INS; cbn [firstn total fold_right]; f_equal; lia).
    rewrite EF. exact HQ.
  Qed.

  Lemma native_transferable b root vu : native_balanced b root vu ->
    transferable (tb_depth b) root vu (tb_inputs b (tb_creds b)) (tb_chg b :: tb_outs b)
      (w128 (total (tb_ins b) - zv (amount (tb_chg b)) - total (tb_outs b))) asset_def_native.
  Proof.
    intros Q. pose proof (nb_ready _ _ _ Q) as R. pose proof (nb_def _ _ _ Q) as Hnn.
    assert (Dd : tb_def b = asset_def_native) by (unfold tb_def; rewrite Hnn; reflexivity).
    assert (Ddm : asset_def_native <> asset_def_dummy) by (intros G; apply (f_equal code) in G; exact (native_neq_dummy G)).
    destruct (rd_ins _ _ R) as [Li0 Li]. pose proof (rd_accs _ _ R) as La. pose proof (rd_kps _ _ R) as Lk. pose proof (rd_creds _ _ R) as Lc.
    destruct (rd_outs _ _ R) as [Ho0 Lo].
    set (inputs := tb_inputs b (tb_creds b)).
    assert (Lin : length inputs = tb_num_in b) by (apply tb_inputs_length; assumption).
    assert (ROS : map ti_ro inputs = tb_ins b) by (apply tb_inputs_ros; assumption).
    assert (NUL : map (fun i => user_nullify (ti_kp i) (freezer_pk (policy (asset_def (ti_ro i)))) (acc_uid (ti_acc i)) (derive_record_commitment (ti_ro i))) inputs = tb_nullifiers b)
      by (apply tb_inputs_nullifiers; assumption).
    destruct inputs as [|i0 irest] eqn:EI; [destruct Li0; symmetry; exact ROS|].
    assert (N0 : nth_error (tb_inputs b (tb_creds b)) 0 = Some i0) by (fold inputs; rewrite EI; reflexivity).
    apply tb_inputs_nth in N0. destruct N0 as (N1 & N2 & N3 & N4).
    destruct (rd_first _ _ R _ N1) as [F1 F2]. destruct (rd_chg _ _ R) as [Ch1 Ch2].
    assert (INS : tb_ins b = ti_ro i0 :: map ti_ro irest) by (symmetry; exact ROS).
    assert (SKIP : skipn 1 (tb_ins b) = map ti_ro irest) by (rewrite INS; reflexivity).
    pose proof (rd_rest _ _ R) as RR. rewrite SKIP, Dd in RR.
    destruct (dummies_worthless L asset_def_native (map ti_ro irest) Ddm RR) as [W1 W2].
    pose proof (nb_balance _ _ _ Q) as BAL. rewrite !total_amt in BAL.
    pose proof (nb_amounts _ _ _ Q) as AM. rewrite total_amt, INS, amt_sum_cons in AM. rewrite INS, amt_sum_cons in BAL.
    pose proof (amount_range (amount (ti_ro i0))) as AR0. pose proof (amount_range (amount (tb_chg b))) as AR1.
    pose proof (amt_sum_nonneg (tb_outs b)) as AO.
    pose proof (amt_sum_nonneg (map ti_ro irest)) as AI.
    set (fee := w128 (total (tb_ins b) - zv (amount (tb_chg b)) - total (tb_outs b))).
    assert (Efee : zv fee = zv (amount (ti_ro i0)) + amt_sum (map ti_ro irest) - zv (amount (tb_chg b)) - amt_sum (tb_outs b)).
    { unfold fee. rewrite !total_amt, INS, amt_sum_cons. apply zv_w128_small. lia. }
    assert (NAT : forall x, In x inputs -> cred_pk (policy (asset_def (ti_ro x))) = pt_id).
    { intros x Hx. assert (Hr : In (ti_ro x) (tb_ins b)) by (rewrite <- ROS; rewrite <- EI; apply in_map; exact Hx).
      rewrite INS in Hr. destruct Hr as [<-|Hr]; [rewrite F1; reflexivity|]. destruct (RR _ Hr) as [G|[G _]]; rewrite G; reflexivity. }
    assert (SP : forall x, In x inputs -> spendable (tb_depth b) root vu x).
    { apply (good_input (tb_depth b) root vu b (tb_creds b) R eq_refl); [rewrite Dd; exact Ddm|].
      intros i x Hx Hc. exfalso. apply Hc, NAT. apply (nth_error_In _ i). exact Hx. }
    rewrite EI in SP.
    assert (HQ : transferable (tb_depth b) root vu (i0 :: irest) (tb_chg b :: tb_outs b) fee asset_def_native).
    { constructor.
      - exists i0, irest, (tb_chg b), (tb_outs b). split; [reflexivity|]. split; [reflexivity|]. split; [exact F1|]. split; [exact Ch1|]. split; [|split; [|split]].
        + apply (transferred_iff L). unfold xfr_def. destruct (find _ (map ti_ro irest)) as [ro|] eqn:Ef; [|reflexivity].
          apply find_some in Ef. destruct Ef as [Ef1 Ef2]. destruct (RR ro Ef1) as [G|[G _]]; [symmetry; exact G|].
          rewrite G in Ef2. assert (asset_def_eqb asset_def_dummy asset_def_dummy = true) as T by (apply (asset_def_eqb_spec L); reflexivity).
          rewrite T in Ef2. discriminate.
        + intros i Hi. destruct (RR (ti_ro i)) as [G|[G _]]; [apply in_map; exact Hi|right; exact G|left; exact G].
        + intros o Ho. rewrite <- Dd. exact (proj1 (rd_out_defs _ _ R o Ho)).
        + intros G. destruct G. reflexivity.
      - split; [exact native_neq_dummy|]. split; [reflexivity|]. intros G. destruct G. reflexivity.
      - exact SP.
      - intros o [<-|Ho]; [exact Ch2|exact (proj2 (rd_out_defs _ _ R o Ho))].
      - exact (nb_expiry _ _ _ Q).
      - intros c. cbn [map]. unfold non_dummy. cbn [filter].
        assert (Hnd0 : is_dummy_def (asset_def (ti_ro i0)) = false) by (apply (fee_input_non_dummy L); exact F1). rewrite Hnd0. cbn [negb].
        rewrite !code_sum_cons. fold (non_dummy (map ti_ro irest)). rewrite F1, Ch1. change (code asset_def_native) with native_asset_code.
        assert (OUT : forall o, In o (tb_outs b) -> code (asset_def o) = native_asset_code) by (intros o Ho; rewrite (proj1 (rd_out_defs _ _ R o Ho)), Dd; reflexivity).
        destruct (zeqb_reflect native_asset_code c) as [<-|Hc].
        + rewrite code_sum_all by (intros o Ho; rewrite (W1 o Ho); reflexivity). rewrite code_sum_all by exact OUT. lia.
        + rewrite !code_sum_none; [lia| |].
          * intros o Ho. rewrite (OUT o Ho). exact Hc.
          * intros o Ho. rewrite (W1 o Ho). exact Hc.
      - cbn [map]. rewrite amt_sum_cons. exact AM.
      - rewrite NUL. exact (nb_distinct _ _ _ Q). }

    exact HQ.
  Qed.

  Lemma tb_witness_ok enc b root : tb_ready b root -> forall w,
    transfer_new_unchecked enc (tb_inputs b (tb_creds b)) (tb_chg b :: tb_outs b) = Ok w -> tb_build_witness enc b = Ok w.
  Proof.
    intros R w W. unfold tb_build_witness, len_check. destruct (rd_ins _ _ R) as [_ L1].
    rewrite L1, (rd_accs _ _ R), (rd_kps _ _ R), (rd_creds _ _ R), Nat.eqb_refl. cbn [andb bind]. rewrite W. reflexivity.
  Qed.
  Lemma tb_ready_lengths b root : tb_ready b root -> length (tb_inputs b (tb_creds b)) = tb_num_in b /\ length (tb_chg b :: tb_outs b) = tb_num_out b.
  Proof.
    intros R. destruct (rd_ins _ _ R) as [_ L1]. destruct (rd_outs _ _ R) as [_ L2]. split.
    - apply tb_inputs_length; try apply R; exact L1.
    - cbn [length]. lia.
  Qed.
  Theorem non_native_satisfies g pk vk b root vu d enc :
    transfer_preprocess g (tb_num_in b) (tb_num_out b) (tb_depth b) = Ok (pk, vk) -> non_native_ready b root vu d ->
    exists w p s, tb_build_witness enc b = Ok w /\ transfer_from_witness w vu = Ok p /\ transfer_circuit w p = Ok s /\
      check_circuit_satisfiability s (transfer_to_scalars p) = true /\ tp_root p = root /\ tp_native p = native_asset_code /\ tw_asset_def w = d.
  Proof.
    intros HP Q. pose proof (nr_ready _ _ _ _ Q) as R. destruct (tb_ready_lengths b root R) as [L1 L2].
    destruct (transferable_sat g _ _ _ pk vk _ _ _ _ _ _ enc HP L1 L2 (non_native_transferable b root vu d Q)) as (w & p & s & H1 & H2 & H3 & H4 & H5 & H6 & H7 & H8).
    exists w, p, s. conjs; auto. exact (tb_witness_ok enc b root R w H1).
  Qed.
  Theorem native_satisfies g pk vk b root vu enc :
    transfer_preprocess g (tb_num_in b) (tb_num_out b) (tb_depth b) = Ok (pk, vk) -> native_balanced b root vu ->
    exists w p s, tb_build_witness enc b = Ok w /\ transfer_from_witness w vu = Ok p /\ transfer_circuit w p = Ok s /\
      check_circuit_satisfiability s (transfer_to_scalars p) = true /\ tp_root p = root /\ tp_native p = native_asset_code /\ tw_asset_def w = asset_def_native.
  Proof.
    intros HP Q. pose proof (nb_ready _ _ _ Q) as R. destruct (tb_ready_lengths b root R) as [L1 L2].
    destruct (transferable_sat g _ _ _ pk vk _ _ _ _ _ _ enc HP L1 L2 (native_transferable b root vu Q)) as (w & p & s & H1 & H2 & H3 & H4 & H5 & H6 & H7 & H8).
    exists w, p, s. conjs; auto. exact (tb_witness_ok enc b root R w H1).
  Qed.
End WitTransfer.
