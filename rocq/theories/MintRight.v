(** Who can mint an asset: the seed behind the code of a mint, and a forged mint of somebody else's asset (C90). *)
From Verif Require Import Base Config Structs Keys Utils Memo Plonk Witness Circuits Relation Snark Notes Serde ToySer PolicyProofs
  GadgetProofs TransferCircuitProofs MintCircuitProofs NoteProofs Accepted Decide CircuitFacts Toy ToySnark Samples NoteSamples NoteFacts
  Ledger LedgerSpec LedgerSamples OriginSpec Origin.

Section MintRight.
  Context {C : CapConfig} (L : CapLaws C) {S : Snark C}.

  Lemma internal_of d n t : mint_opens d n t -> mn_internal n = prf_eval (mv_seed t) [mv_digest t].
  Proof. intros H. apply (mint_opens_facts L d n t H). Qed.
  Lemma checked_code d n t : verify_domestic (code (mn_def n)) (mn_internal n) = Ok tt -> mint_opens d n t ->
    code (mn_def n) = new_domestic_from_digest (mv_seed t) (mv_digest t).
  Proof.
    intros H HO. apply asset_code_spec in H. rewrite H. unfold new_domestic_from_digest, internal_new_internal.
    rewrite (internal_of d n t HO). reflexivity.
  Qed.

  Context {Z0 : Ser C S}.
  Lemma seed_origin v op h : (vd_depth v <= 100)%nat ->
    (forall t, In t (accepted v h) -> tx_opens (vd_depth v) t (op t)) ->
    hash_collision_free (history_hashes (vd_depth v) (lg_leaves (ledger_after v h)) (spends_of op (accepted v h))) ->
    commitment_binding (records op v h ++ map sp_ro (spends_of op (accepted v h))) ->
    (forall s, In s (spends_of op (accepted v h)) -> zv (sp_sk s) < sub_order /\ ro_owner (sp_ro s) <> no_key) ->
    (forall t, In t (accepted v h) -> supply_condition t (op t)) ->
    (forall n, In (TxMint n) (accepted v h) -> verify_domestic (code (mn_def n)) (mn_internal n) = Ok tt) ->
    forall r, In r (records op v h) -> ro_code r <> dummy_asset_code -> 0 < zv (ro_amount r) ->
    (exists ro, In (EvMint ro) (effective v (ledger_new (vd_depth v)) h) /\ code (asset_def ro) = ro_code r) \/
    (exists n x, In (TxMint n) (accepted v h) /\ op (TxMint n) = OpMint x /\ 0 < zv (mn_amount n) /\ ro_code r = new_domestic_from_digest (mv_seed x) (mv_digest x)).
  Proof.
    intros Hd HO HF HB HK HC HV r Hr Hn Hp. apply In_nth_error in Hr. destruct Hr as (j & Hj).
    destruct (all_minted L v op Hd h HO HF HB HC HK j r Hj Hn Hp) as [(ro & I & [E _] & _)|(n & I & [E _] & A)]; [left; exists ro; split; assumption|].
    right. pose proof (HO _ I) as K. destruct (op (TxMint n)) as [x|x|x] eqn:EO; cbn [tx_opens] in K; try contradiction.
    exists n, x. split; [exact I|]. split; [exact EO|]. split; [exact A|]. rewrite <- E. exact (checked_code _ _ _ (HV n I) K).
  Qed.
End MintRight.

(** ** A mint of somebody else's asset *)
#[local] Existing Instance toy_snark.
#[local] Existing Instance l_ser.
Definition mi_seed : @F toy_field := fz 5555.
(** the asset of the honest samples, whose code was derived from [h_seed], minted by someone who uses another seed *)
Definition mi_witness : @MintWitness T :=
  @mkMW T (s_user true 11) (h_acc true 0) (h_fee true) (h_mint_ro true) (s_native true 15 11 200) mi_seed (@digest_from_description T h_desc) (@sz toy_field 302).
Definition mi_note : res (@MintNote T TS) :=
  let* k := m_keys true in let* p0 := @mint_from_witness T mi_witness in
  let p := @mkMPI T (mp_root p0) (mp_native p0) (mp_nullifier p0) (mp_fee p0) (mp_mint_rc p0) (mp_chg_rc p0) (mp_mint_amount p0)
          (code (h_mint_def true)) (mp_mint_internal_ac p0) (mp_policy p0) (mp_memo p0) in
  let* prf := @mint_prove T TS tt (fst k) mi_witness p (@ver_key T (@sz toy_field 301)) in
  Ok (@mkMNote T TS (mp_nullifier p) (mp_chg_rc p) (mp_mint_rc p) (mp_mint_amount p) (h_mint_def true) (mp_mint_internal_ac p) prf (mp_memo p)
        (@mkMAux T (mp_root p) (mp_fee p) (@ver_key T (@sz toy_field 301)))).
Definition mi_opening : @MintV T :=
  let m := m_opening 11 15 (h_mint_ro true) in
  @mkMintV T (mv_mint m) (mv_sk m) (mv_fee_ro m) (mv_place m) (mv_chg m) mi_seed (mv_digest m) (@fz toy_field 302).
Lemma forged_mint : exists n h op,
  l_accepted h = [TxMint n] /\ op (TxMint n) = OpMint mi_opening /\
  (forall t, In t (l_accepted h) -> @tx_opens T TS 2 t (op t)) /\
  @hash_collision_free T (@history_hashes T 2 (lg_leaves (l_after h)) (l_spends op h)) /\
  @commitment_binding T (l_records op h ++ map sp_ro (l_spends op h)) /\
  (forall s, In s (l_spends op h) -> zv (sp_sk s) < @sub_order toy_field /\ ro_owner (sp_ro s) <> @no_key T) /\
  (forall t, In t (l_accepted h) -> @supply_condition T TS t (op t)) /\
  mn_def n = h_mint_def true /\ zv (mn_amount n) = 1000.
Proof.
  assert (H : get mi_note (fun n =>
    let h := l_history (h_fee true) (h_in1 true) (h_in2 true) [[TxMint n]] in
    let op := l_op (OpMint mi_opening) in
    let sp := @spends_of T TS op [TxMint n] in
    @valid_b T TS l_ser l_validator (l_start (h_fee true) (h_in1 true) (h_in2 true)) (l_event [TxMint n]) &&
    ((length (pl_path (mv_place mi_opening)) =? 2)%nat &&
     @mint_b T (@mint_pub_value T (@mint_note_public T TS n)) mi_opening) &&
    hyps_b op [TxMint n] h && secrets_b sp && (zv (ma_fee (mn_aux n)) <=? 20) && @asset_def_eqb T (mn_def n) (h_mint_def true) && (zv (mn_amount n) =? 1000)) = true) by (vm_compute; reflexivity).
  apply get_ok in H. destruct H as (n & En & H). cbv zeta in H.
  apply andb_true_iff in H. destruct H as [H HA]. apply andb_true_iff in H. destruct H as [H HD]. apply andb_true_iff in H. destruct H as [H H8].
  apply andb_true_iff in H. destruct H as [H H5]. apply andb_true_iff in H. destruct H as [H H4]. apply andb_true_iff in H. destruct H as [H1 H3].
  apply andb_true_iff in H3. destruct H3 as [H3 H3']. apply Nat.eqb_eq in H3. apply Z.leb_le in H8. apply Z.eqb_eq in HA. apply (asset_def_eqb_spec (toy_laws true)) in HD.
  exists n, (l_history (h_fee true) (h_in1 true) (h_in2 true) [[TxMint n]]), (l_op (OpMint mi_opening)).
  destruct (one_block _ _ _ _ H1) as [EF EA]. cbv zeta in EF, EA.
  assert (HH := hyps_b_ok (l_op (OpMint mi_opening)) (l_history (h_fee true) (h_in1 true) (h_in2 true) [[TxMint n]])).
  rewrite EA in *. specialize (HH H4). cbv zeta in HH.
  split; [reflexivity|]. split; [reflexivity|]. split; [intros t [<-|[]]; split; [exact H3|apply mint_b_ok; exact H3']|].
  split; [apply HH|]. split; [apply HH|]. split; [apply secrets_b_ok; exact H5|].
  split; [intros t [<-|[]]; cbn [supply_condition l_op]; exact H8|]. split; assumption.
Qed.
(** an honest mint in a block *)
Lemma honest_mint : exists n h op,
  l_accepted h = [TxMint n] /\ op (TxMint n) = OpMint (m_opening 11 15 (h_mint_ro true)) /\
  (forall t, In t (l_accepted h) -> @tx_opens T TS 2 t (op t)) /\
  @hash_collision_free T (@history_hashes T 2 (lg_leaves (l_after h)) (l_spends op h)) /\
  @commitment_binding T (l_records op h ++ map sp_ro (l_spends op h)) /\
  (forall s, In s (l_spends op h) -> zv (sp_sk s) < @sub_order toy_field /\ ro_owner (sp_ro s) <> @no_key T) /\
  (forall t, In t (l_accepted h) -> @supply_condition T TS t (op t)) /\
  code (mn_def n) = @new_domestic_from_internal T (mn_internal n) /\ zv (mn_amount n) = 1000.
Proof.
  assert (H : get (h_mint true) (fun n0 => let n := fst n0 in
    let h := l_history (h_fee true) (h_in1 true) (h_in2 true) [[TxMint n]] in
    let op := l_op (OpMint (m_opening 11 15 (h_mint_ro true))) in
    let sp := @spends_of T TS op [TxMint n] in
    @valid_b T TS l_ser l_validator (l_start (h_fee true) (h_in1 true) (h_in2 true)) (l_event [TxMint n]) &&
    ((length (pl_path (mv_place (m_opening 11 15 (h_mint_ro true)))) =? 2)%nat &&
     @mint_b T (@mint_pub_value T (@mint_note_public T TS n)) (m_opening 11 15 (h_mint_ro true))) &&
    hyps_b op [TxMint n] h && secrets_b sp && (zv (ma_fee (mn_aux n)) <=? 20) && zeqb (@new_domestic_from_internal T (mn_internal n)) (code (mn_def n)) && (zv (mn_amount n) =? 1000)) = true) by (vm_compute; reflexivity).
  apply get_ok in H. destruct H as ([n sk] & En & H). cbn [fst] in H. cbv zeta in H.
  apply andb_true_iff in H. destruct H as [H HA]. apply andb_true_iff in H. destruct H as [H HD]. apply andb_true_iff in H. destruct H as [H H8].
  apply andb_true_iff in H. destruct H as [H H5]. apply andb_true_iff in H. destruct H as [H H4]. apply andb_true_iff in H. destruct H as [H1 H3].
  apply andb_true_iff in H3. destruct H3 as [H3 H3']. apply Nat.eqb_eq in H3. apply Z.leb_le in H8. apply Z.eqb_eq in HA. apply zeqb_spec in HD.
  exists n, (l_history (h_fee true) (h_in1 true) (h_in2 true) [[TxMint n]]), (l_op (OpMint (m_opening 11 15 (h_mint_ro true)))).
  destruct (one_block _ _ _ _ H1) as [EF EA]. cbv zeta in EF, EA.
  assert (HH := hyps_b_ok (l_op (OpMint (m_opening 11 15 (h_mint_ro true)))) (l_history (h_fee true) (h_in1 true) (h_in2 true) [[TxMint n]])).
  rewrite EA in *. specialize (HH H4). cbv zeta in HH.
  split; [reflexivity|]. split; [reflexivity|]. split; [intros t [<-|[]]; split; [exact H3|apply mint_b_ok; exact H3']|].
  split; [apply HH|]. split; [apply HH|]. split; [apply secrets_b_ok; exact H5|].
  split; [intros t [<-|[]]; cbn [supply_condition l_op]; exact H8|]. split; [symmetry; exact HD|exact HA].
Qed.
