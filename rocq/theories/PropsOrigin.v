(** C83: every asset in circulation was minted. C84: frozen records stay until their freezer releases them. *)
From Verif Require Import Base Config Structs Keys Utils Memo Plonk Witness Circuits Relation Snark Notes Serde ToySer
  GadgetProofs TransferCircuitProofs MintCircuitProofs NoteProofs Accepted Decide CircuitFacts Toy ToySnark Samples NoteSamples
  Ledger LedgerSpec LedgerSamples OriginSpec Origin.
#[local] Existing Instance toy_snark.
#[local] Existing Instance l_ser.

(** ** C83 *)
(** [minted v h r]: the history contains a mint, by the test or by an accepted mint note, of a positive amount of an asset with
    the code of [r] and, unless it is native, with the keys and the threshold of the policy of [r] *)
Theorem C83_origin (C : CapConfig) (L : CapLaws C) (S : Snark C) (Z0 : Ser C S) (v : Validator)
  (op : TransactionNote -> Opening) (h : list event) : (vd_depth v <= 100)%nat ->
  (forall t, In t (accepted v h) -> tx_opens (vd_depth v) t (op t)) ->
  let spends := spends_of op (accepted v h) in
  hash_collision_free (history_hashes (vd_depth v) (lg_leaves (ledger_after v h)) spends) ->
  commitment_binding (records op v h ++ map sp_ro spends) ->
  (forall s, In s spends -> zv (sp_sk s) < sub_order /\ ro_owner (sp_ro s) <> no_key) ->
  (forall t, In t (accepted v h) -> supply_condition t (op t)) ->
  forall j r, nth_error (records op v h) j = Some r -> ro_code r <> dummy_asset_code -> 0 < zv (ro_amount r) -> minted v h r.
Proof. intros Hd HO spends HF HB HK HC. exact (all_minted L v op Hd h HO HF HB HC HK). Qed.
Print Assumptions C83_origin.
(** the honest history: the third output of the accepted transfer, 12 units of the sample asset *)
Example C83_example : exists n sk m sk', h_transfer true = Ok (n, sk) /\ h_mint true = Ok (m, sk') /\
  let h := l_history (h_fee true) (h_in1 true) (h_in2 true) [[TxTransfer n]; [TxMint m]] in
  let op := l_op (OpTransfer h_opening) in
  (vd_depth l_validator <= 100)%nat /\
  (forall t, In t (l_accepted h) -> @tx_opens T TS 2 t (op t)) /\
  @hash_collision_free T (@history_hashes T 2 (lg_leaves (l_after h)) (l_spends op h)) /\
  @commitment_binding T (l_records op h ++ map sp_ro (l_spends op h)) /\
  (forall s, In s (l_spends op h) -> zv (sp_sk s) < @sub_order toy_field /\ ro_owner (sp_ro s) <> @no_key T) /\
  (forall t, In t (l_accepted h) -> @supply_condition T TS t (op t)) /\
  length (lg_leaves (l_after h)) = 7%nat.
Proof.
  destruct honest_history as (n & sk & m & sk' & E1 & E2 & H1 & H2 & H3 & H4 & H5 & H6 & _ & H7 & _).
  exists n, sk, m, sk'. split; [exact E1|]. split; [exact E2|]. cbv zeta. split; [cbn; lia|].
  split; [exact H2|]. split; [exact H3|]. split; [exact H4|]. split; [exact H5|]. split; [exact H6|exact H7].
Qed.

(** The exception for the native asset is needed. A transfer whose further inputs are all dummies may name the native code
    together with any policy: the fee record then pays for native outputs that carry that policy. *)
Definition np_def : @AssetDefinition T := @mkDef T (@native_asset_code toy_field) (s_policy true).
Definition np_out : @RecordOpening T := s_ro true 10 np_def 13 Unfrozen 201.
Definition np_witness : @TransferWitness T :=
  @mkTW T np_def [@mkIS T (s_user true 11) (h_fee true) (h_acc true 0) (s_cred true 11 8 900);
                  @mkIS T (s_user true 77) (s_dummy true 101) (h_acc true 1) (s_cred true 77 8 900)]
    [s_native true 5 11 200; np_out] (@sz toy_field 302).
Definition np_note := forge_transfer true np_witness 500.

Lemma native_policy : exists n h op,
  h = l_history (h_fee true) (h_in1 true) (h_in2 true) [[TxTransfer n]] /\ l_effective h = h /\ l_accepted h = [TxTransfer n] /\
  (forall t, In t (l_accepted h) -> @tx_opens T TS 2 t (op t)) /\
  @hash_collision_free T (@history_hashes T 2 (lg_leaves (l_after h)) (l_spends op h)) /\
  @commitment_binding T (l_records op h ++ map sp_ro (l_spends op h)) /\
  (forall s, In s (l_spends op h) -> zv (sp_sk s) < @sub_order toy_field /\ ro_owner (sp_ro s) <> @no_key T) /\
  (forall t, In t (l_accepted h) -> @supply_condition T TS t (op t)) /\
  exists r, In r (l_records op h) /\ r = @ro_value T np_out.
Proof.
  set (o := OpTransfer (@transfer_value T np_witness)).
  assert (H : get np_note (fun n =>
    let h := l_history (h_fee true) (h_in1 true) (h_in2 true) [[TxTransfer n]] in
    let op := l_op o in
    let sp := @spends_of T TS op [TxTransfer n] in
    @valid_b T TS l_ser l_validator (l_start (h_fee true) (h_in1 true) (h_in2 true)) (l_event [TxTransfer n]) &&
    transfer_good 2 2 2 h_root (w64 500) (@transfer_value T np_witness) n &&
    hyps_b op [TxTransfer n] h && secrets_b sp) = true) by (vm_compute; reflexivity).
  apply get_ok in H. destruct H as (n & En & H). cbv zeta in H.
  apply andb_true_iff in H. destruct H as [H H5]. apply andb_true_iff in H. destruct H as [H H4]. apply andb_true_iff in H. destruct H as [H1 H3].
  exists n, (l_history (h_fee true) (h_in1 true) (h_in2 true) [[TxTransfer n]]), (l_op o). split; [reflexivity|].
  destruct (one_block _ _ _ _ H1) as [EF EA]. cbv zeta in EF, EA.
  assert (HH := hyps_b_ok (l_op o) (l_history (h_fee true) (h_in1 true) (h_in2 true) [[TxTransfer n]])).
  rewrite EA in *. specialize (HH H4). cbv zeta in HH. split; [exact EF|].
  split; [reflexivity|]. split; [intros t [<-|[]]; apply transfer_good_ok in H3; apply H3|].
  split; [apply HH|]. split; [apply HH|]. split; [apply secrets_b_ok; exact H5|]. split.
  - intros t [<-|[]]. unfold l_op, o. cbn [supply_condition]. split; [|split; vm_compute; reflexivity].
    apply same_code_b_ok. vm_compute. reflexivity.
  - exists (@ro_value T np_out). split; [|reflexivity]. unfold records. change (vd_depth l_validator) with 2%nat. rewrite EF.
    apply in_flat_map. exists (l_event [TxTransfer n]). split; [right; right; right; left; reflexivity|].
    unfold l_event. cbn [event_records]. apply in_or_app. left. apply in_flat_map. exists (TxTransfer n). split; [left; reflexivity|].
    right. left. reflexivity.
Qed.
Theorem C83_native_policy_refuted :
  ~ (forall (C : CapConfig) (L : CapLaws C) (S : Snark C) (SL : SnarkLaws S) (Z0 : Ser C S) (v : Validator)
       (op : TransactionNote -> Opening) (h : list event), (vd_depth v <= 100)%nat ->
       (forall t, In t (accepted v h) -> tx_opens (vd_depth v) t (op t)) ->
       let spends := spends_of op (accepted v h) in
       hash_collision_free (history_hashes (vd_depth v) (lg_leaves (ledger_after v h)) spends) ->
       commitment_binding (records op v h ++ map sp_ro spends) ->
       (forall s, In s spends -> zv (sp_sk s) < sub_order /\ ro_owner (sp_ro s) <> no_key) ->
       (forall t, In t (accepted v h) -> supply_condition t (op t)) ->
       forall r, In r (records op v h) -> ro_code r <> dummy_asset_code -> 0 < zv (ro_amount r) ->
       (exists ro, In (EvMint ro) (effective v (ledger_new (vd_depth v)) h) /\
          code (asset_def ro) = ro_code r /\ same_policy (pol_value (policy (asset_def ro))) (ro_pol r)) \/
       (exists n, In (TxMint n) (accepted v h) /\
          code (mn_def n) = ro_code r /\ same_policy (pol_value (policy (mn_def n))) (ro_pol r))).
Proof.
  intros H. destruct native_policy as (n & h & op & Eh & HE & HA & H1 & H2 & H3 & H4 & H5 & r & Hr & Er).
  specialize (H T (toy_laws true) TS (toy_snark_laws true) l_ser l_validator op h ltac:(cbn; lia) H1 H2 H3 H4 H5 r Hr).
  change (vd_depth l_validator) with 2%nat in H. rewrite HE, HA in H.
  destruct H as [(ro & Hi & HC & HP)|(m & [Hm|[]] & _)].
  - rewrite Er. apply zeqb_neq. vm_compute. reflexivity.
  - rewrite Er. vm_compute. reflexivity.
  - subst h. unfold l_history, l_mints in Hi. cbn [map app] in Hi.
    assert (K : ro = h_fee true \/ ro = h_in1 true \/ ro = h_in2 true).
    { destruct Hi as [E|[E|[E|[E|[]]]]]; try (apply (f_equal (fun e => match e with EvMint x => x | _ => ro end)) in E; cbv beta iota in E; subst ro; auto). unfold l_event in E. discriminate E. }
    rewrite Er in HC, HP. destruct K as [->|[->| ->]].
    + destruct HP as (_ & _ & HP & _). apply (f_equal fst) in HP. apply zeqb_spec in HP. vm_compute in HP. discriminate HP.
    + apply zeqb_spec in HC. vm_compute in HC. discriminate HC.
    + apply zeqb_spec in HC. vm_compute in HC. discriminate HC.
  - discriminate Hm.
Qed.
Print Assumptions C83_native_policy_refuted.

(** ** C84 *)
Theorem C84_frozen (C : CapConfig) (L : CapLaws C) (S : Snark C) (Z0 : Ser C S) (v : Validator)
  (op : TransactionNote -> Opening) (h : list event) : (vd_depth v <= 100)%nat ->
  (forall t, In t (accepted v h) -> tx_opens (vd_depth v) t (op t)) ->
  let spends := spends_of op (accepted v h) in
  hash_collision_free (history_hashes (vd_depth v) (lg_leaves (ledger_after v h)) spends) ->
  commitment_binding (records op v h ++ map sp_ro spends) ->
  forall j r t s, nth_error (records op v h) j = Some r -> frozen r ->
  In t (accepted v h) -> In s (op_inputs (op t)) -> real s = true -> zv (pl_uid (sp_place s)) = Z.of_nat j ->
  (exists n, t = TxFreeze n) /\ owns (sp_sk s) (po_freezer (ro_pol r)) /\ po_freezer (ro_pol r) <> no_key /\
  exists r', In r' (op_outputs (op t)) /\ ro_owner r' = ro_owner r /\ ro_amount r' = ro_amount r /\ ro_code r' = ro_code r /\
    same_policy (ro_pol r') (ro_pol r).
Proof. intros Hd HO spends HF HB. exact (frozen_stays L v op Hd h HO HF HB). Qed.
Print Assumptions C84_frozen.
(** while nobody uses the secret of its freezer, a frozen record is not spent *)
Theorem C84_unspent (C : CapConfig) (L : CapLaws C) (S : Snark C) (Z0 : Ser C S) (v : Validator)
  (op : TransactionNote -> Opening) (h : list event) : (vd_depth v <= 100)%nat ->
  (forall t, In t (accepted v h) -> tx_opens (vd_depth v) t (op t)) ->
  let spends := spends_of op (accepted v h) in
  hash_collision_free (history_hashes (vd_depth v) (lg_leaves (ledger_after v h)) spends) ->
  commitment_binding (records op v h ++ map sp_ro spends) ->
  forall j r, nth_error (records op v h) j = Some r -> frozen r ->
  (forall s, In s spends -> ~ owns (sp_sk s) (po_freezer (ro_pol r))) ->
  forall s, In s spends -> zv (pl_uid (sp_place s)) <> Z.of_nat j.
Proof.
  intros Hd HO spends HF HB j r Hj Hr HN s Hs E. apply (HN s Hs). unfold spends, spends_of in Hs. apply in_flat_map in Hs.
  destruct Hs as (t & Ht & Hs). unfold real_inputs in Hs. apply filter_In in Hs. destruct Hs as [Hs Hre].
  exact (proj1 (proj2 (frozen_stays L v op Hd h HO HF HB j r t s Hj Hr Ht Hs Hre E))).
Qed.
Print Assumptions C84_unspent.

(** The record at position 1 is minted frozen; the freezer releases it. *)
Definition rl_in : @RecordOpening T := s_ro true 30 (s_def true) 12 Frozen 101.
Definition rl_acc := n_acc true (h_fee true) rl_in (h_in2 true).
Definition rl_inputs : list (@FreezeNoteInput T) := [@mkFIn T rl_in (rl_acc 1) (@sz toy_field 9)].
Definition rl_fee : @TxnFeeInfo T :=
  @mkFeeInfo T (@mkFeeInput T (h_fee true) (rl_acc 0) (s_user true 11)) (s_amount 5) (s_native true 15 11 200).
Definition rl_outs := @freeze_get_output_ros T (fun i => @fz toy_field (400 + Z.of_nat i)) rl_inputs.
Definition rl_note := let* k := @freeze_preprocess T TS tt (@sz toy_field 55) 2 2 in @freeze_generate T TS (f_rand true) rl_inputs rl_fee (fst k).
Definition rl_opening : @FreezeV T :=
  @mkFreezeV T (@ro_value T (h_fee true)) (@place_value T (rl_acc 0)) (@fz toy_field 11) (@ro_value T (s_native true 15 11 200))
    (map (fun x => @mkPairV T (@ro_value T (zi_ro (fst x))) (@place_value T (zi_acc (fst x))) (@fz toy_field 9) (@ro_value T (snd x)))
         (combine rl_inputs rl_outs)).
Example C84_example : exists n sk outs, rl_note = Ok (n, sk, outs) /\
  let h := l_history (h_fee true) rl_in (h_in2 true) [[TxFreeze n]] in
  let op := l_op (OpFreeze rl_opening) in
  (vd_depth l_validator <= 100)%nat /\ l_accepted h = [TxFreeze n] /\
  (forall t, In t (l_accepted h) -> @tx_opens T TS 2 t (op t)) /\
  @hash_collision_free T (@history_hashes T 2 (lg_leaves (l_after h)) (l_spends op h)) /\
  @commitment_binding T (l_records op h ++ map sp_ro (l_spends op h)) /\
  nth_error (l_records op h) 1 = Some (@ro_value T rl_in) /\ frozen (@ro_value T rl_in) /\
  exists s, In s (@op_inputs T (OpFreeze rl_opening)) /\ real s = true /\ zv (pl_uid (sp_place s)) = Z.of_nat 1.
Proof.
  assert (H : get rl_note (fun n =>
    let t := TxFreeze (fst (fst n)) in
    let h := l_history (h_fee true) rl_in (h_in2 true) [[t]] in
    let op := l_op (OpFreeze rl_opening) in
    @valid_b T TS l_ser l_validator (l_start (h_fee true) rl_in (h_in2 true)) (l_event [t]) &&
    freeze_good 2 2 (n_root true (h_fee true) rl_in (h_in2 true)) rl_opening (fst (fst n)) && hyps_b op [t] h) = true) by (vm_compute; reflexivity).
  apply get_ok in H. destruct H as ([[n sk] outs] & En & H). cbn [fst] in H. cbv zeta in H.
  apply andb_true_iff in H. destruct H as [H H4]. apply andb_true_iff in H. destruct H as [H1 H3].
  exists n, sk, outs. split; [exact En|]. cbv zeta.
  destruct (one_block _ _ _ _ H1) as [EF EA]. cbv zeta in EF, EA.
  assert (HH := hyps_b_ok (l_op (OpFreeze rl_opening)) (l_history (h_fee true) rl_in (h_in2 true) [[TxFreeze n]])).
  rewrite EA in *. specialize (HH H4). cbv zeta in HH. split; [cbn; lia|].
  split; [reflexivity|]. split; [intros t [<-|[]]; apply freeze_good_ok in H3; apply H3|].
  split; [apply HH|]. split; [apply HH|]. split.
  { unfold records. change (vd_depth l_validator) with 2%nat. rewrite EF. reflexivity. }
  split; [split; [apply zmod_ext; vm_compute; reflexivity|vm_compute; reflexivity]|].
  eexists. split; [right; left; reflexivity|]. split; reflexivity.
Qed.
