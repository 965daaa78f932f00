(** A transfer builder that is ready builds a note, and the note verifies. *)
From Verif Require Import Base Config Structs Keys Utils Memo Plonk Witness Circuits Relation CodecProofs PolicyProofs UtilsProofs Snark
  Notes NoteProofs NoteGen NoteLive NoteLive2 NoteThms NoteFacts Serde Ledger Wallet WalletProofs WalletPay WalletPay2 Builder BuilderSpec.

Section BuilderLive.
  Context {C : CapConfig} {S : Snark C} {K : @RoCodec C} {E : MemoSer C} (L : CapLaws C) (SL : SnarkLaws S).

  Lemma total_amt l : total l = amt_sum l.
  Proof. induction l as [|r l IH]; [reflexivity|]. rewrite amt_sum_cons, <- IH. reflexivity. Qed.
  Lemma nth_combine {A B} : forall (l : list A) (m : list B) i x,
    nth_error (combine l m) i = Some x <-> nth_error l i = Some (fst x) /\ nth_error m i = Some (snd x).
  Proof.
    induction l as [|a l IH]; intros m i [x y]; cbn [combine fst snd].
    - destruct i; split; [discriminate|intros [G _]; discriminate|discriminate|intros [G _]; discriminate].
    - destruct m as [|b m]; [split; [destruct i; discriminate|intros [_ G]; destruct i; discriminate]|].
      destruct i as [|i]; cbn [nth_error]; [split; [intros G; injection G as -> ->; auto|intros [G1 G2]; injection G1 as ->; injection G2 as ->; reflexivity]|].
      exact (IH m i (x, y)).
  Qed.
  Lemma tb_inputs_nth b creds i x : nth_error (tb_inputs b creds) i = Some x <->
    nth_error (tb_ins b) i = Some (ti_ro x) /\ nth_error (tb_accs b) i = Some (ti_acc x) /\ nth_error (tb_kps b) i = Some (ti_kp x) /\
    nth_error creds i = Some (ti_cred x).
  Proof.
    unfold tb_inputs. rewrite nth_error_map. destruct (nth_error _ i) as [[[[r a] k] c]|] eqn:G; cbn [option_map fst snd].
    - apply nth_combine in G. cbn [fst snd] in G. destruct G as [G G4]. apply nth_combine in G. cbn [fst snd] in G. destruct G as [G G3].
      apply nth_combine in G. cbn [fst snd] in G. destruct G as [G1 G2]. rewrite G1, G2, G3, G4. split.
      + intros H. injection H as <-. auto.
      + intros (H1 & H2 & H3 & H4). destruct x as [r' a' k' c']. cbn in *. congruence.
    - split; [discriminate|]. intros (H1 & H2 & H3 & H4).
      assert (G' : nth_error (combine (combine (combine (tb_ins b) (tb_accs b)) (tb_kps b)) creds) i = Some (ti_ro x, ti_acc x, ti_kp x, ti_cred x)).
      { apply nth_combine. cbn [fst snd]. split; [|exact H4]. apply nth_combine. cbn [fst snd]. split; [|exact H3]. apply nth_combine. auto. }
      congruence.
  Qed.
  Lemma tb_inputs_length b creds : length (tb_ins b) = tb_num_in b -> length (tb_accs b) = tb_num_in b -> length (tb_kps b) = tb_num_in b ->
    length creds = tb_num_in b -> length (tb_inputs b creds) = tb_num_in b.
  Proof. intros H1 H2 H3 H4. unfold tb_inputs. rewrite map_length, !combine_length. lia. Qed.
  Lemma map_ro_combine : forall (l : list RecordOpening) (a : list AccMemberWitness) (k : list UserKeyPair) (c : list (option ExpirableCredential)),
    length a = length l -> length k = length l -> length c = length l ->
    map (fun x => ti_ro (mkTIn (fst (fst (fst x))) (snd (fst (fst x))) (snd (fst x)) (snd x))) (combine (combine (combine l a) k) c) = l.
  Proof.
    induction l as [|r l IH]; intros [|a1 a] [|k1 k] [|c1 c] H1 H2 H3; try discriminate; [reflexivity|].
    cbn [combine map fst snd ti_ro]. cbn [length] in *. f_equal. apply (IH a k c); lia.
  Qed.
  Lemma tb_inputs_ros b creds : length (tb_ins b) = tb_num_in b -> length (tb_accs b) = tb_num_in b -> length (tb_kps b) = tb_num_in b ->
    length creds = tb_num_in b -> map ti_ro (tb_inputs b creds) = tb_ins b.
  Proof. intros H1 H2 H3 H4. unfold tb_inputs. rewrite map_map. apply map_ro_combine; congruence. Qed.
  Lemma nullify_combine : forall (l : list RecordOpening) (a : list AccMemberWitness) (k : list UserKeyPair) (c : list (option ExpirableCredential)),
    length c = length (combine (combine l a) k) ->
    map (fun i => user_nullify (ti_kp i) (freezer_pk (policy (asset_def (ti_ro i)))) (acc_uid (ti_acc i)) (derive_record_commitment (ti_ro i)))
        (map (fun x => mkTIn (fst (fst (fst x))) (snd (fst (fst x))) (snd (fst x)) (snd x)) (combine (combine (combine l a) k) c)) =
    map (fun x => user_nullify (snd x) (freezer_pk (policy (asset_def (fst (fst x))))) (acc_uid (snd (fst x)))
                               (derive_record_commitment (fst (fst x)))) (combine (combine l a) k).
  Proof.
    intros l a k. induction (combine (combine l a) k) as [|[[r1 a1] k1] m IH]; intros [|c1 c] H; try discriminate; [reflexivity|].
    cbn [combine map fst snd ti_ro ti_kp ti_acc]. f_equal. apply IH. cbn [length] in H. lia.
  Qed.
  Lemma tb_inputs_nullifiers b creds : length (tb_ins b) = tb_num_in b -> length (tb_accs b) = tb_num_in b -> length (tb_kps b) = tb_num_in b ->
    length creds = tb_num_in b ->
    map (fun i => user_nullify (ti_kp i) (freezer_pk (policy (asset_def (ti_ro i)))) (acc_uid (ti_acc i)) (derive_record_commitment (ti_ro i)))
        (tb_inputs b creds) = tb_nullifiers b.
  Proof. intros H1 H2 H3 H4. unfold tb_inputs, tb_nullifiers. apply nullify_combine. rewrite !combine_length. lia. Qed.

  Lemma dummies_worthless (d : AssetDefinition) l : d <> asset_def_dummy ->
    (forall r, In r l -> asset_def r = d \/ (asset_def r = asset_def_dummy /\ zv (amount r) = 0)) ->
    (forall r, In r (non_dummy l) -> asset_def r = d) /\ amt_sum (non_dummy l) = amt_sum l.
  Proof.
    intros Dd. unfold non_dummy. induction l as [|r l IH]; intros H; [split; [intros r []|reflexivity]|].
    destruct IH as [I1 I2]; [intros x Hx; apply H; right; exact Hx|]. cbn [filter].
    destruct (is_dummy_def (asset_def r)) eqn:Ed; cbn [negb].
    - apply (asset_def_eqb_spec L) in Ed. destruct (H r (or_introl eq_refl)) as [G|[_ G]]; [congruence|].
      split; [exact I1|]. rewrite amt_sum_cons, I2. lia.
    - split; [|rewrite !amt_sum_cons, I2; reflexivity]. intros x [<-|Hx]; [|apply I1, Hx].
      destruct (H r (or_introl eq_refl)) as [G|[G _]]; [exact G|]. rewrite G in Ed. unfold is_dummy_def in Ed.
      assert (asset_def_eqb asset_def_dummy asset_def_dummy = true) by (apply (asset_def_eqb_spec L); reflexivity). congruence.
  Qed.

  Lemma good_input depth root vu b (creds : list (option ExpirableCredential)) : tb_ready b root -> tb_depth b = depth -> (tb_def b <> asset_def_dummy) ->
    (forall i x, nth_error (tb_inputs b creds) i = Some x -> cred_pk (policy (asset_def (ti_ro x))) <> pt_id ->
       exists c, ti_cred x = Some c /\ good_cred vu c) ->
    forall x, In x (tb_inputs b creds) -> spendable depth root vu x.
  Proof.
    intros R Hd Dd HCr x Hx. apply In_nth_error in Hx. destruct Hx as (i & Hx). pose proof (HCr i x Hx) as HC'.
    apply tb_inputs_nth in Hx. destruct Hx as (H1 & H2 & H3 & H4).
    destruct (rd_member _ _ R i _ _ H1 H2) as (M1 & M2 & M3). pose proof (rd_owner _ _ R i _ _ H1 H3) as O.
    assert (Hin : In (ti_ro x) (tb_ins b)) by (apply (nth_error_In _ i); exact H1).
    constructor.
    - rewrite M1. exact Hd.
    - rewrite O. reflexivity.
    - intros _. exact O.
    - intros G. destruct i as [|i].
      + destruct (rd_first _ _ R _ H1) as [N _]. exfalso. rewrite N in G. apply (f_equal code) in G. exact (native_neq_dummy G).
      + destruct (rd_rest _ _ R (ti_ro x)) as [Q|[_ Q]]; [|congruence|exact Q].
        destruct (tb_ins b) as [|r0 l]; [destruct Hin|]. cbn [skipn]. cbn [nth_error] in H1. apply (nth_error_In _ i). exact H1.
    - apply (rd_unfrozen _ _ R). exact Hin.
    - intros _. split; [exact M2|exact M3].
    - intros G. destruct (HC' G) as (c & G1 & G2 & G3 & G4). exists c. auto.
  Qed.

  Lemma balance_split l c : code_sum c l = code_sum c (firstn 1 l) + code_sum c (skipn 1 l).
  Proof. rewrite <- code_sum_app, firstn_skipn. reflexivity. Qed.

  Theorem non_native_builds g pk vk b root vu d r extra (ts : u64) :
    transfer_preprocess g (tb_num_in b) (tb_num_out b) (tb_depth b) = Ok (pk, vk) ->
    non_native_ready b root vu d -> can_encrypt (br_enc r) (tb_outs b) -> zv ts <= zv vu ->
    exists n memos sg, tb_build_note r pk vu extra b = Ok (n, memos, sg) /\ transfer_verify n vk root ts = Ok tt /\
      verify_receiver_memos_signature (TxTransfer n) memos sg = Ok tt /\
      payment_memos (br_enc r) 0 (tb_outs b) = Ok memos /\
      tn_nullifiers n = tb_nullifiers b /\ tn_commitments n = map derive_record_commitment (tb_chg b :: tb_outs b) /\
      ta_valid_until (tn_aux n) = vu /\ ta_extra (tn_aux n) = extra /\
      forall in0, nth_error (tb_ins b) 0 = Some in0 -> zv (ta_fee (tn_aux n)) = zv (amount in0) - zv (amount (tb_chg b)).
  Proof.
    intros HP Q Henc Hts. pose proof (nr_ready _ _ _ _ Q) as R. destruct (nr_def _ _ _ _ Q) as (nn & Hnn & Hd).
    assert (Dd : tb_def b = d) by (unfold tb_def; rewrite Hnn; exact Hd).
    destruct (nr_code _ _ _ _ Q) as [Cn Cd].
    assert (Ddm : d <> asset_def_dummy) by (intros ->; apply Cd; reflexivity).
    destruct (rd_ins _ _ R) as [Li0 Li]. pose proof (rd_accs _ _ R) as La. pose proof (rd_kps _ _ R) as Lk. pose proof (rd_creds _ _ R) as Lc.
    destruct (rd_outs _ _ R) as [Ho0 Lo].
    set (inputs := tb_inputs b (tb_creds b)).
    assert (Lin : length inputs = tb_num_in b) by (apply tb_inputs_length; assumption).
    assert (ROS : map ti_ro inputs = tb_ins b) by (apply tb_inputs_ros; assumption).
    assert (NUL : map (fun i => user_nullify (ti_kp i) (freezer_pk (policy (asset_def (ti_ro i)))) (acc_uid (ti_acc i)) (derive_record_commitment (ti_ro i))) inputs = tb_nullifiers b)
      by (apply tb_inputs_nullifiers; assumption).
    destruct (nr_some _ _ _ _ Q) as (r1 & Hr1 & Er1).
    destruct inputs as [|i0 irest] eqn:EI; [rewrite <- ROS in Hr1; destruct Hr1|].
    assert (N0 : nth_error (tb_inputs b (tb_creds b)) 0 = Some i0) by (fold inputs; rewrite EI; reflexivity).
    apply tb_inputs_nth in N0. destruct N0 as (N1 & N2 & N3 & N4).
    destruct (rd_first _ _ R _ N1) as [F1 F2]. destruct (rd_chg _ _ R) as [Ch1 Ch2].
    pose proof (nr_fee _ _ _ _ Q _ N1) as Hfee.
    set (fee := w128 (zv (amount (ti_ro i0)) - zv (amount (tb_chg b)))).
    assert (Efee : zv fee = zv (amount (ti_ro i0)) - zv (amount (tb_chg b))).
    { apply zv_w128_small. pose proof (amount_range (amount (ti_ro i0))). pose proof (amount_range (amount (tb_chg b))). lia. }
    set (fi := mkFeeInput (ti_ro i0) (ti_acc i0) (ti_kp i0)).
    set (info := mkFeeInfo fi fee (tb_chg b)).
    assert (Hsp : forall x, In x inputs -> cred_pk (policy (asset_def (ti_ro x))) <> pt_id -> exists i, nth_error (tb_ins b) (Datatypes.S i) = Some (ti_ro x) /\
              asset_def (ti_ro x) = d /\ nth_error (tb_creds b) (Datatypes.S i) = Some (ti_cred x)).
    { intros x Hx Hc. apply In_nth_error in Hx. destruct Hx as (i & Hx). unfold inputs in Hx. apply tb_inputs_nth in Hx. destruct Hx as (H1 & _ & _ & H4).
      destruct i as [|i]; [exfalso; apply Hc; rewrite (proj1 (rd_first _ _ R _ H1)); reflexivity|]. exists i. split; [exact H1|]. split; [|exact H4].
      destruct (rd_rest _ _ R (ti_ro x)) as [G|[G _]].
      - destruct (tb_ins b) as [|r0 l]; [discriminate|]. cbn [skipn nth_error] in *. apply (nth_error_In _ i); exact H1.
      - rewrite G. exact Dd.
      - exfalso. apply Hc. rewrite G. reflexivity. }
    assert (CR : forall i x, nth_error (tb_inputs b (tb_creds b)) i = Some x -> cred_pk (policy (asset_def (ti_ro x))) <> pt_id ->
              exists c, ti_cred x = Some c /\ good_cred vu c).
    { intros i x Hx Hc. destruct (Hsp x) as (j & J1 & J2 & J3); [apply (nth_error_In _ i); exact Hx|exact Hc|].
      rewrite J2 in Hc. destruct (nr_creds _ _ _ _ Q Hc j (ti_ro x)) as (c & G1 & G2); [destruct (tb_ins b) as [|r0 l]; [discriminate|exact J1]|exact J2|].
      exists c. split; [congruence|exact G2]. }
    pose proof (good_input (tb_depth b) root vu b (tb_creds b) R eq_refl (eq_ind_r (fun x => x <> asset_def_dummy) Ddm Dd) CR) as SP.
    fold inputs in SP. rewrite EI in SP.
    assert (INS : tb_ins b = ti_ro i0 :: map ti_ro irest) by (symmetry; exact ROS).
    assert (SKIP : skipn 1 (tb_ins b) = map ti_ro irest) by (rewrite INS; reflexivity).
    pose proof (rd_rest _ _ R) as RR. rewrite SKIP, Dd in RR. rewrite SKIP in Hr1.
    destruct (dummies_worthless d (map ti_ro irest) Ddm RR) as [W1 W2].
    pose proof (nr_balance _ _ _ _ Q) as BAL. rewrite SKIP, !total_amt in BAL.
    pose proof (nr_amounts _ _ _ _ Q) as AM. rewrite total_amt in AM.
    assert (HQ : transferable (tb_depth b) root vu (i0 :: irest) (tb_chg b :: tb_outs b) fee d).
    { constructor.
      - exists i0, irest, (tb_chg b), (tb_outs b). split; [reflexivity|]. split; [reflexivity|]. split; [exact F1|]. split; [exact Ch1|]. split; [|split; [|split]].
        + apply transferred_def; [exact Ddm| |exists r1; auto]. intros o Ho. destruct (RR o Ho) as [G|[G _]]; auto.
        + intros i Hi. destruct (RR (ti_ro i)) as [G|[G _]]; [apply in_map; exact Hi|right; exact G|left; exact G].
        + intros o Ho. rewrite <- Dd. exact (proj1 (rd_out_defs _ _ R o Ho)).
        + intros G. destruct (nr_viewer _ _ _ _ Q G) as [G1 G2]. split; [exact G1|]. rewrite SKIP, total_amt in G2. exact G2.
      - split; [exact Cd|]. split; [intros G; contradiction|exact (nr_keys _ _ _ _ Q)].
      - exact SP.
      - intros o [<-|Ho]; [exact Ch2|exact (proj2 (rd_out_defs _ _ R o Ho))].
      - exact (nr_expiry _ _ _ _ Q).
      - intros c. cbn [map]. unfold non_dummy. cbn [filter].
        assert (Hnd0 : is_dummy_def (asset_def (ti_ro i0)) = false) by (apply (fee_input_non_dummy L); exact F1). rewrite Hnd0. cbn [negb].
        rewrite !code_sum_cons. fold (non_dummy (map ti_ro irest)). rewrite F1, Ch1. change (code asset_def_native) with native_asset_code.
        assert (OUT : forall o, In o (tb_outs b) -> code (asset_def o) = code d) by (intros o Ho; rewrite (proj1 (rd_out_defs _ _ R o Ho)), Dd; reflexivity).
        destruct (zeqb_reflect native_asset_code c) as [<-|Hc].
        + rewrite !code_sum_none; [lia| |].
          * intros o Ho. rewrite (OUT o Ho). exact Cn.
          * intros o Ho. rewrite (W1 o Ho). exact Cn.
        + destruct (zeqb_reflect (code d) c) as [<-|Hc'].
          * rewrite code_sum_all by (intros o Ho; rewrite (W1 o Ho); reflexivity). rewrite code_sum_all by exact OUT. lia.
          * rewrite !code_sum_none; [lia| |].
            -- intros o Ho. rewrite (OUT o Ho). exact Hc'.
            -- intros o Ho. rewrite (W1 o Ho). exact Hc'.
      - cbn [map]. rewrite <- INS. exact AM.
      - rewrite NUL. exact (nr_distinct _ _ _ _ Q). }
    assert (PY : payable (tb_depth b) info).
    { destruct (rd_member _ _ R 0%nat _ _ N1 N2) as (M1 & M2 & M3).
      constructor; cbn [info fi fee_input fi_acc fi_ro fi_kp fee_chg_ro fee_amount]; auto.
      - exact (rd_owner _ _ R 0%nat _ _ N1 N3).
      - lia.
      - split; [|exact Ch2]. apply (rd_unfrozen _ _ R). rewrite INS. left; reflexivity.
      - rewrite M3. symmetry. exact M2. }
    assert (EI0 : cred_pk (policy (asset_def (ti_ro i0))) = pt_id) by (rewrite F1; reflexivity).
    (* the credential given for the fee input is not passed on *)
    assert (HQ' : transferable (tb_depth b) root vu (fee_to_transfer_input (fee_input info) :: irest) (tb_chg b :: tb_outs b) fee d).
    { destruct HQ as [Q1 Q2 Q3 Q4 Q5 Q6 Q7 Q8].
      constructor; [|exact Q2| |exact Q4|exact Q5|exact Q6|exact Q7|exact Q8].
      - destruct Q1 as (a0 & ar & o0 & orr & A1 & A2 & A3). injection A1 as <- <-.
        exists (fee_to_transfer_input (fee_input info)), irest, o0, orr. split; [reflexivity|]. split; [exact A2|]. exact A3.
      - intros i [<-|Hi]; [|apply Q3; right; exact Hi]. pose proof (Q3 i0 (or_introl eq_refl)) as [S1 S2 S3 S4 S5 S6 S7].
        constructor; auto. intros G. exfalso. apply G. exact EI0. }
    assert (LI : (length irest + 1)%nat = tb_num_in b) by (rewrite <- Lin; cbn [length]; lia).
    destruct (transfer_non_native_live L SL g (tb_num_in b) (tb_num_out b) (tb_depth b) pk vk root vu irest (tb_outs b) info d (br_note r) extra)
      as (n & HG & Hrt & Hf); [exact HP|exact LI|exact Lo|exact PY|exact HQ'|].
    pose proof (generated_non_native _ _ _ _ _ _ _ _ _ HG) as (_ & HG').
    pose proof (generated_transfer L _ _ _ _ _ _ _ _ HG') as (_ & _ & _ & _ & _ & _ & _ & _ & _ & _ & B1 & B2 & B3 & B5 & B4 & B6 & _).
    destruct (payment_memos_live (br_enc r) (tb_outs b) 0) as (memos & HM); [exact Henc|].
    pose proof (payment_memos_nth _ _ _ _ HM) as [ML _].
    destruct (sign_memos_ok L (tr_sig (br_note r)) memos) as (sg & HS & HV); [intros ->; destruct (tb_outs b); [contradiction|discriminate ML]|].
    exists n, memos, sg.
    split; [|split; [|split; [|split; [|split; [|split; [|split; [|split]]]]]]].
    - unfold tb_build_note. rewrite Hnn. unfold tb_build_non_native, len_check. rewrite Li, La, Lk, Lc, Nat.eqb_refl. cbn [andb bind].
      unfold vec_get. rewrite N1, N2, N3. cbn [bind]. rewrite amount_sub_ok by exact Hfee. cbn [bind]. fold fee. fold fi. fold info.
      fold inputs. rewrite EI. cbn [skipn]. rewrite HG. cbn [bind fst snd]. rewrite HM. cbn [bind]. rewrite HS. reflexivity.
    - rewrite <- Hrt. exact (transfer_generate_verifies L SL _ _ _ _ _ _ _ _ _ _ _ _ _ ts HP HG' Hts).
    - apply HV. exact B4.
    - exact HM.
    - rewrite B1, <- NUL. reflexivity.
    - exact B3.
    - exact B5.
    - exact B6.
    - intros in0 Hin0. rewrite Hf. cbn [info fee_amount]. rewrite N1 in Hin0. injection Hin0 as <-. exact Efee.
  Qed.

  Theorem native_builds g pk vk b root vu r extra (ts : u64) :
    transfer_preprocess g (tb_num_in b) (tb_num_out b) (tb_depth b) = Ok (pk, vk) ->
    native_ready b root -> can_encrypt (br_enc r) (tb_outs b) -> zv ts < 2 ^ 20 ->
    exists n memos sg, tb_build_note r pk vu extra b = Ok (n, memos, sg) /\ transfer_verify n vk root ts = Ok tt /\
      verify_receiver_memos_signature (TxTransfer n) memos sg = Ok tt /\
      payment_memos (br_enc r) 0 (tb_outs b) = Ok memos /\
      tn_nullifiers n = tb_nullifiers b /\
      (exists chg, tn_commitments n = map derive_record_commitment (chg :: tb_outs b) /\
         asset_def chg = asset_def_native /\ pub_key chg = pub_key (tb_chg b) /\
         zv (amount chg) = zv (amount (tb_chg b)) + total (skipn 1 (tb_ins b)) - total (tb_outs b)) /\
      zv (ta_valid_until (tn_aux n)) = 2 ^ 20 - 1 /\ ta_extra (tn_aux n) = [] /\
      forall in0, nth_error (tb_ins b) 0 = Some in0 -> zv (ta_fee (tn_aux n)) = zv (amount in0) - zv (amount (tb_chg b)).
  Proof.
    intros HP Q Henc Hts. pose proof (ar_ready _ _ Q) as R. pose proof (ar_def _ _ Q) as Hnn.
    assert (Dd : tb_def b = asset_def_native) by (unfold tb_def; rewrite Hnn; reflexivity).
    assert (Ddm : asset_def_native <> asset_def_dummy) by (intros G; apply (f_equal code) in G; exact (native_neq_dummy G)).
    destruct (rd_ins _ _ R) as [Li0 Li]. pose proof (rd_accs _ _ R) as La. pose proof (rd_kps _ _ R) as Lk. pose proof (rd_creds _ _ R) as Lc0.
    destruct (rd_outs _ _ R) as [Ho0 Lo].
    set (nocreds := repeat (@None ExpirableCredential) (tb_num_in b)).
    assert (Lc : length nocreds = tb_num_in b) by apply repeat_length.
    set (inputs := tb_inputs b nocreds).
    assert (Lin : length inputs = tb_num_in b) by (apply tb_inputs_length; assumption).
    assert (ROS : map ti_ro inputs = tb_ins b) by (apply tb_inputs_ros; assumption).
    assert (NUL : map (fun i => user_nullify (ti_kp i) (freezer_pk (policy (asset_def (ti_ro i)))) (acc_uid (ti_acc i)) (derive_record_commitment (ti_ro i))) inputs = tb_nullifiers b)
      by (apply tb_inputs_nullifiers; assumption).
    destruct inputs as [|i0 irest] eqn:EI; [destruct Li0; symmetry; exact ROS|].
    assert (N0 : nth_error (tb_inputs b nocreds) 0 = Some i0) by (fold inputs; rewrite EI; reflexivity).
    apply tb_inputs_nth in N0. destruct N0 as (N1 & N2 & N3 & N4).
    destruct (rd_first _ _ R _ N1) as [F1 F2]. destruct (rd_chg _ _ R) as [Ch1 Ch2].
    pose proof (ar_fee _ _ Q _ N1) as Hfee.
    assert (INS : tb_ins b = ti_ro i0 :: map ti_ro irest) by (symmetry; exact ROS).
    assert (SKIP : skipn 1 (tb_ins b) = map ti_ro irest) by (rewrite INS; reflexivity).
    pose proof (rd_rest _ _ R) as RR. rewrite SKIP, Dd in RR.
    destruct (dummies_worthless asset_def_native (map ti_ro irest) Ddm RR) as [W1 W2].
    pose proof (ar_balance _ _ Q) as BAL. rewrite SKIP, !total_amt in BAL.
    pose proof (ar_amounts _ _ Q) as AM. rewrite total_amt, INS, amt_sum_cons in AM.
    pose proof (amount_range (amount (ti_ro i0))) as AR0. pose proof (amount_range (amount (tb_chg b))) as AR1.
    pose proof (amt_sum_nonneg (tb_outs b)) as AO.
    set (fee := w128 (zv (amount (ti_ro i0)) - zv (amount (tb_chg b)))).
    assert (Efee : zv fee = zv (amount (ti_ro i0)) - zv (amount (tb_chg b))) by (apply zv_w128_small; lia).
    set (ca := w128 (zv (amount (tb_chg b)) + amt_sum (map ti_ro irest) - amt_sum (tb_outs b))).
    assert (Eca : zv ca = zv (amount (tb_chg b)) + amt_sum (map ti_ro irest) - amt_sum (tb_outs b)) by (apply zv_w128_small; lia).
    set (chg := mkRO ca asset_def_native (pub_key (ti_ro i0)) Unfrozen (tr_chg_blind (br_note r))).
    assert (VU : zv (w64 (2 ^ Z.of_nat MAX_TIMESTAMP_LEN - 1)) = 2 ^ 20 - 1) by exact zv_unexpired.
    set (nvu := w64 (2 ^ Z.of_nat MAX_TIMESTAMP_LEN - 1)) in *.
    assert (NAT : forall x, In x inputs -> cred_pk (policy (asset_def (ti_ro x))) = pt_id).
    { intros x Hx. assert (Hr : In (ti_ro x) (tb_ins b)) by (rewrite <- ROS; rewrite <- EI; apply in_map; exact Hx).
      rewrite INS in Hr. destruct Hr as [<-|Hr]; [rewrite F1; reflexivity|]. destruct (RR _ Hr) as [G|[G _]]; rewrite G; reflexivity. }
    assert (SP : forall x, In x inputs -> spendable (tb_depth b) root nvu x).
    { apply (good_input (tb_depth b) root nvu b nocreds R eq_refl); [rewrite Dd; exact Ddm|].
      intros i x Hx Hc. exfalso. apply Hc, NAT. apply (nth_error_In _ i). exact Hx. }
    rewrite EI in SP.
    assert (HQ : transferable (tb_depth b) root nvu (i0 :: irest) (chg :: tb_outs b) fee asset_def_native).
    { constructor.
      - exists i0, irest, chg, (tb_outs b). split; [reflexivity|]. split; [reflexivity|]. split; [exact F1|]. split; [reflexivity|]. split; [|split; [|split]].
        + apply (transferred_iff L). unfold xfr_def. destruct (find _ (map ti_ro irest)) as [ro|] eqn:Ef; [|reflexivity].
          apply find_some in Ef. destruct Ef as [Ef1 Ef2]. destruct (RR ro Ef1) as [G|[G _]]; [symmetry; exact G|].
          rewrite G in Ef2. assert (asset_def_eqb asset_def_dummy asset_def_dummy = true) as T by (apply (asset_def_eqb_spec L); reflexivity).
          rewrite T in Ef2. discriminate.
        + intros i Hi. destruct (RR (ti_ro i)) as [G|[G _]]; [apply in_map; exact Hi|right; exact G|left; exact G].
        + intros o Ho. rewrite <- Dd. exact (proj1 (rd_out_defs _ _ R o Ho)).
        + intros G. destruct G. reflexivity.
      - split; [exact native_neq_dummy|]. split; [reflexivity|]. intros G. destruct G. reflexivity.
      - exact SP.
      - intros o [<-|Ho]; [reflexivity|exact (proj2 (rd_out_defs _ _ R o Ho))].
      - rewrite VU. lia.
      - intros c. cbn [map]. unfold non_dummy. cbn [filter].
        assert (Hnd0 : is_dummy_def (asset_def (ti_ro i0)) = false) by (apply (fee_input_non_dummy L); exact F1). rewrite Hnd0. cbn [negb].
        rewrite !code_sum_cons. fold (non_dummy (map ti_ro irest)). rewrite F1. cbn [chg asset_def amount]. change (code asset_def_native) with native_asset_code.
        assert (OUT : forall o, In o (tb_outs b) -> code (asset_def o) = native_asset_code) by (intros o Ho; rewrite (proj1 (rd_out_defs _ _ R o Ho)), Dd; reflexivity).
        destruct (zeqb_reflect native_asset_code c) as [<-|Hc].
        + rewrite code_sum_all by (intros o Ho; rewrite (W1 o Ho); reflexivity). rewrite code_sum_all by exact OUT. lia.
        + rewrite !code_sum_none; [lia| |].
          * intros o Ho. rewrite (OUT o Ho). exact Hc.
          * intros o Ho. rewrite (W1 o Ho). exact Hc.
      - cbn [map]. rewrite amt_sum_cons. exact AM.
      - rewrite NUL. exact (ar_distinct _ _ Q). }
    assert (LI : (length irest + 1)%nat = tb_num_in b) by (rewrite <- Lin; cbn [length]; lia).
    destruct (transfer_native_live L SL g (tb_num_in b) (tb_num_out b) (tb_depth b) pk vk root nvu i0 irest (tb_outs b) fee chg (br_note r))
      as (n & HG & Hrt & Hf); [exact HP|exact LI|exact Lo|reflexivity|exact HQ|].
    pose proof (transfer_native_inv L _ _ _ _ _ _ _ _ _ HG) as (HG' & _).
    pose proof (generated_transfer L _ _ _ _ _ _ _ _ HG') as (_ & _ & _ & _ & _ & _ & _ & _ & _ & _ & B1 & B2 & B3 & B5 & B4 & B6 & _).
    destruct (payment_memos_live (br_enc r) (tb_outs b) 0) as (memos & HM); [exact Henc|].
    pose proof (payment_memos_nth _ _ _ _ HM) as [ML _].
    destruct (sign_memos_ok L (tr_sig (br_note r)) memos) as (sg & HS & HV); [intros ->; destruct (tb_outs b); [contradiction|discriminate ML]|].
    exists n, memos, sg.
    split; [|split; [|split; [|split; [|split; [|split; [|split; [|split]]]]]]].
    - unfold tb_build_note. rewrite Hnn. unfold tb_build_native, len_check. rewrite Li, La, Lk, Lc0, Nat.eqb_refl. cbn [andb bind].
      unfold vec_get. rewrite N1. cbn [bind]. rewrite amount_sub_ok by exact Hfee. cbn [bind]. fold fee. fold nvu. fold nocreds.
      fold inputs. rewrite EI, HG. cbn [bind fst snd]. rewrite HM. cbn [bind]. rewrite HS. reflexivity.
    - rewrite <- Hrt. refine (transfer_generate_verifies L SL _ _ _ _ _ _ _ _ _ _ _ _ _ ts HP HG' _). rewrite VU. lia.
    - apply HV. exact B4.
    - exact HM.
    - rewrite B1, <- NUL. reflexivity.
    - exists chg. split; [exact B3|]. split; [reflexivity|]. split; [symmetry; exact F2|].
      cbn [chg amount]. rewrite Eca, SKIP, !total_amt. reflexivity.
    - rewrite B5. exact VU.
    - exact B6.
    - intros in0 Hin0. rewrite Hf. rewrite N1 in Hin0. injection Hin0 as <-. exact Efee.
  Qed.
End BuilderLive.
