(** Ledger histories with forged notes, for the counterexamples of PropsLedger.v. *)
From Verif Require Import Base Config Structs Keys Utils Memo Plonk Witness Circuits Relation Snark Notes Serde ToySer
  GadgetProofs TransferCircuitProofs MintCircuitProofs NoteProofs Accepted Decide CircuitFacts Toy ToySnark Samples NoteSamples Ledger LedgerSpec LedgerSamples.
#[local] Existing Instance toy_snark.
#[local] Existing Instance l_ser.

(** ** Histories with forged notes *)
(** 30 units of asset 8888, of which none was ever minted *)
Lemma forged_supply : exists n h op,
  h = l_history (h_fee true) (x_in true) (h_in2 true) [[TxTransfer n]] /\ l_effective h = h /\ l_accepted h = [TxTransfer n] /\
  (forall t, In t (l_accepted h) -> @tx_opens T TS 2 t (op t)) /\
  @hash_collision_free T (@history_hashes T 2 (lg_leaves (l_after h)) (l_spends op h)) /\
  @commitment_binding T (l_records op h ++ map sp_ro (l_spends op h)) /\
  (forall s, In s (l_spends op h) -> zv (sp_sk s) < @sub_order toy_field /\ ro_owner (sp_ro s) <> @no_key T) /\
  @total T (@fz toy_field 8888) (@unspent T (l_records op h) (l_spends op h)) = 30 /\
  sumz (map (@event_mints T TS (@fz toy_field 8888)) h) = 0.
Proof.
  set (o := OpTransfer (@transfer_value T (x_witness true))).
  assert (H : get (x_note true) (fun n =>
    let h := l_history (h_fee true) (x_in true) (h_in2 true) [[TxTransfer n]] in
    let op := l_op o in
    let sp := @spends_of T TS op [TxTransfer n] in
    @valid_b T TS l_ser l_validator (l_start (h_fee true) (x_in true) (h_in2 true)) (l_event [TxTransfer n]) &&
    transfer_good 2 2 2 (n_root true (h_fee true) (x_in true) (h_in2 true)) (w64 500) (@transfer_value T (x_witness true)) n &&
    hyps_b op [TxTransfer n] h && secrets_b sp &&
    (@total T (@fz toy_field 8888) (@unspent T (l_records op h) sp) =? 30) &&
    (sumz (map (@event_mints T TS (@fz toy_field 8888)) h) =? 0)) = true) by (vm_compute; reflexivity).
  apply get_ok in H. destruct H as (n & En & H). cbv zeta in H.
  apply andb_true_iff in H. destruct H as [H H9]. apply andb_true_iff in H. destruct H as [H H8]. apply andb_true_iff in H. destruct H as [H H5]. apply andb_true_iff in H. destruct H as [H H4]. apply andb_true_iff in H. destruct H as [H1 H3].
  exists n, (l_history (h_fee true) (x_in true) (h_in2 true) [[TxTransfer n]]), (l_op o). split; [reflexivity|].
  destruct (one_block _ _ _ _ H1) as [EF EA]. cbv zeta in EF, EA.
  assert (HH := hyps_b_ok (l_op o) (l_history (h_fee true) (x_in true) (h_in2 true) [[TxTransfer n]])).
  rewrite EA in *. specialize (HH H4). cbv zeta in HH. split; [exact EF|].
  split; [reflexivity|]. split; [intros t [<-|[]]; apply transfer_good_ok in H3; apply H3|].
  split; [apply HH|]. split; [apply HH|]. split; [apply secrets_b_ok; exact H5|]. split; [apply Z.eqb_eq; exact H8|apply Z.eqb_eq; exact H9].
Qed.
(** a mint note pays a fee of 100 from the only native record, of 20 *)
Lemma forged_fee : exists n h op,
  h = l_history (h_fee true) (h_in1 true) (h_in2 true) [[TxMint n]] /\ l_effective h = h /\ l_accepted h = [TxMint n] /\
  (forall t, In t (l_accepted h) -> @tx_opens T TS 2 t (op t)) /\
  @hash_collision_free T (@history_hashes T 2 (lg_leaves (l_after h)) (l_spends op h)) /\
  @commitment_binding T (l_records op h ++ map sp_ro (l_spends op h)) /\
  (forall s, In s (l_spends op h) -> zv (sp_sk s) < @sub_order toy_field /\ ro_owner (sp_ro s) <> @no_key T) /\
  @total T native_asset_code (@unspent T (l_records op h) (l_spends op h)) = bn_p + 20 /\
  sumz (map (@event_mints T TS native_asset_code) h) = 20.
Proof.
  set (o := OpMint (m_opening 11 (20 - 100) (h_mint_ro true))).
  assert (H : get (z_note true) (fun n =>
    let h := l_history (h_fee true) (h_in1 true) (h_in2 true) [[TxMint n]] in
    let op := l_op o in
    let sp := @spends_of T TS op [TxMint n] in
    @valid_b T TS l_ser l_validator (l_start (h_fee true) (h_in1 true) (h_in2 true)) (l_event [TxMint n]) &&
    mint_good 2 h_root (m_opening 11 (20 - 100) (h_mint_ro true)) n &&
    hyps_b op [TxMint n] h && secrets_b sp &&
    (@total T native_asset_code (@unspent T (l_records op h) sp) =? bn_p + 20) &&
    (sumz (map (@event_mints T TS native_asset_code) h) =? 20)) = true) by (vm_compute; reflexivity).
  apply get_ok in H. destruct H as (n & En & H). cbv zeta in H.
  apply andb_true_iff in H. destruct H as [H H9]. apply andb_true_iff in H. destruct H as [H H8]. apply andb_true_iff in H. destruct H as [H H5]. apply andb_true_iff in H. destruct H as [H H4]. apply andb_true_iff in H. destruct H as [H1 H3].
  exists n, (l_history (h_fee true) (h_in1 true) (h_in2 true) [[TxMint n]]), (l_op o). split; [reflexivity|].
  destruct (one_block _ _ _ _ H1) as [EF EA]. cbv zeta in EF, EA.
  assert (HH := hyps_b_ok (l_op o) (l_history (h_fee true) (h_in1 true) (h_in2 true) [[TxMint n]])).
  rewrite EA in *. specialize (HH H4). cbv zeta in HH. split; [exact EF|].
  split; [reflexivity|]. split; [intros t [<-|[]]; apply mint_good_ok in H3; apply H3|].
  split; [apply HH|]. split; [apply HH|]. split; [apply secrets_b_ok; exact H5|]. split; [apply Z.eqb_eq; exact H8|apply Z.eqb_eq; exact H9].
Qed.
(** a mint note of the native asset: a million native units out of nothing *)
Lemma native_inflation : exists n h op,
  h = l_history (h_fee true) (h_in1 true) (h_in2 true) [[TxMint n]] /\ l_effective h = h /\ l_accepted h = [TxMint n] /\
  (forall t, In t (l_accepted h) -> @tx_opens T TS 2 t (op t)) /\
  @hash_collision_free T (@history_hashes T 2 (lg_leaves (l_after h)) (l_spends op h)) /\
  @commitment_binding T (l_records op h ++ map sp_ro (l_spends op h)) /\
  (forall s, In s (l_spends op h) -> zv (sp_sk s) < @sub_order toy_field /\ ro_owner (sp_ro s) <> @no_key T) /\
  (forall t, In t (l_accepted h) -> @supply_condition T TS t (op t)) /\
  @total T native_asset_code (@unspent T (l_records op h) (l_spends op h)) = 1000020 /\
  sumz (map (@event_mints T TS native_asset_code) (l_mints (h_fee true) (h_in1 true) (h_in2 true))) = 20.
Proof.
  set (o := OpMint (m_opening 11 15 (y_ro true))).
  assert (H : get (y_note true) (fun n =>
    let h := l_history (h_fee true) (h_in1 true) (h_in2 true) [[TxMint n]] in
    let op := l_op o in
    let sp := @spends_of T TS op [TxMint n] in
    @valid_b T TS l_ser l_validator (l_start (h_fee true) (h_in1 true) (h_in2 true)) (l_event [TxMint n]) &&
    ((length (pl_path (mv_place (m_opening 11 15 (y_ro true)))) =? 2)%nat &&
     @mint_b T (@mint_pub_value T (@mint_note_public T TS n)) (m_opening 11 15 (y_ro true))) &&
    hyps_b op [TxMint n] h && secrets_b sp && (zv (ma_fee (mn_aux n)) <=? 20) &&
    (@total T native_asset_code (@unspent T (l_records op h) sp) =? 1000020)) = true) by (vm_compute; reflexivity).
  apply get_ok in H. destruct H as (n & En & H). cbv zeta in H.
  rewrite !andb_true_iff, !Z.eqb_eq, Z.leb_le, Nat.eqb_eq in H. destruct H as (((((H1 & H3 & H3') & H4) & H5) & H8) & H9).
  exists n, (l_history (h_fee true) (h_in1 true) (h_in2 true) [[TxMint n]]), (l_op o). split; [reflexivity|].
  destruct (one_block _ _ _ _ H1) as [EF EA]. cbv zeta in EF, EA.
  assert (HH := hyps_b_ok (l_op o) (l_history (h_fee true) (h_in1 true) (h_in2 true) [[TxMint n]])).
  rewrite EA in *. specialize (HH H4). cbv zeta in HH. split; [exact EF|].
  split; [reflexivity|]. split; [intros t [<-|[]]; split; [exact H3|apply mint_b_ok; exact H3']|].
  split; [apply HH|]. split; [apply HH|]. split; [apply secrets_b_ok; exact H5|]. split; [|split; [exact H9|vm_compute; reflexivity]].
  intros t [<-|[]]. cbn [supply_condition l_op o]. exact H8.
Qed.
(** the record at position 0 spent twice, with secrets that differ by the order of the group *)
Definition dd_op : @TransactionNote T TS -> @Opening T := fun t =>
  OpMint (m_opening (match t with TxMint m => if zeqb (mn_nullifier m) (d_nullifier true) then 11 + bn_l else 11 | _ => 11 end) 15 (h_mint_ro true)).
Lemma forged_double_spend : exists n n' h,
  h = l_history (h_fee true) (h_in1 true) (h_in2 true) [[TxMint n; TxMint n']] /\ l_accepted h = [TxMint n; TxMint n'] /\
  (forall t, In t (l_accepted h) -> @tx_opens T TS 2 t (dd_op t)) /\
  @hash_collision_free T (@history_hashes T 2 (lg_leaves (l_after h)) (l_spends dd_op h)) /\
  @commitment_binding T (l_records dd_op h ++ map sp_ro (l_spends dd_op h)) /\
  (forall s, In s (l_spends dd_op h) -> ro_owner (sp_ro s) <> @no_key T) /\
  map (fun s => pl_uid (sp_place s)) (l_spends dd_op h) = [@fz toy_field 0; @fz toy_field 0].
Proof.
  assert (H : get (h_mint true) (fun n => get (d_note true) (fun n' =>
    let h := l_history (h_fee true) (h_in1 true) (h_in2 true) [[TxMint (fst n); TxMint n']] in
    let sp := @spends_of T TS dd_op [TxMint (fst n); TxMint n'] in
    @valid_b T TS l_ser l_validator (l_start (h_fee true) (h_in1 true) (h_in2 true)) (l_event [TxMint (fst n); TxMint n']) &&
    negb (zeqb (mn_nullifier (fst n)) (d_nullifier true)) && zeqb (mn_nullifier n') (d_nullifier true) &&
    mint_good 2 h_root (m_opening 11 15 (h_mint_ro true)) (fst n) && mint_good 2 h_root (m_opening (11 + bn_l) 15 (h_mint_ro true)) n' &&
    hyps_b dd_op [TxMint (fst n); TxMint n'] h && forallb (fun s => negb (@xy_eqb T (ro_owner (sp_ro s)) (@no_key T))) sp &&
    @flist_eqb T (map (fun s => pl_uid (sp_place s)) sp) [@fz toy_field 0; @fz toy_field 0])) = true) by (vm_compute; reflexivity).
  apply get_ok in H. destruct H as ([n sk] & En & H). apply get_ok in H. destruct H as (n' & En' & H). cbn [fst] in H. cbv zeta in H.
  apply andb_true_iff in H. destruct H as [H H8]. apply andb_true_iff in H. destruct H as [H H5]. apply andb_true_iff in H. destruct H as [H H4]. apply andb_true_iff in H. destruct H as [H H3']. apply andb_true_iff in H. destruct H as [H H3]. apply andb_true_iff in H. destruct H as [H N2]. apply andb_true_iff in H. destruct H as [H1 N1]. apply negb_true_iff in N1.
  exists n, n', (l_history (h_fee true) (h_in1 true) (h_in2 true) [[TxMint n; TxMint n']]). split; [reflexivity|].
  destruct (one_block _ _ _ _ H1) as [_ EA]. cbv zeta in EA.
  assert (HH := hyps_b_ok dd_op (l_history (h_fee true) (h_in1 true) (h_in2 true) [[TxMint n; TxMint n']])).
  rewrite EA in *. specialize (HH H4). cbv zeta in HH.
  split; [reflexivity|]. split.
  { intros t [<-|[<-|[]]]; unfold dd_op; [rewrite N1; apply mint_good_ok in H3; apply H3|rewrite N2; apply mint_good_ok in H3'; apply H3']. }
  split; [apply HH|]. split; [apply HH|]. split.
  - rewrite forallb_forall in H5. intros s Hs. specialize (H5 s Hs). apply negb_true_iff in H5. apply xy_eqb_false. exact H5.
  - apply (@flist_eqb_ok T). exact H8.
Qed.
