(** C86: ledgers of transactions made with this library. *)
From Verif Require Import Base Config Structs Keys Utils Memo Plonk Witness Circuits Relation Snark Notes Serde ToySer
  GadgetProofs TransferCircuitProofs NoteProofs NoteGen Accepted CircuitFacts Toy ToySnark Samples NoteSamples
  Ledger LedgerSpec LedgerSamples OriginSpec LibrarySpec Library.
#[local] Existing Instance toy_snark.
#[local] Existing Instance l_ser.

(** A transaction that the library made and a validator accepted spends exactly the records offered to the library, creates exactly
    those asked for, and meets the conditions that the circuits do not enforce. *)
Theorem C86_records (C : CapConfig) (L : CapLaws C) (S : Snark C) (SL : SnarkLaws S) (Z0 : Ser C S) (v : Validator) (h : list event)
  (t : TransactionNote) (ins : list Spend) (outs : list RoV) :
  In t (accepted v h) -> made (vd_depth v) t ins outs ->
  exists o, tx_opens (vd_depth v) t o /\ op_inputs o = ins /\ op_outputs o = outs /\ supply_condition t o.
Proof.
  intros Ht. apply (made_opens L). destruct (LedgerProofs.history_openings L SL v h) as (op & H). exists (op t). exact (H t Ht).
Qed.
Print Assumptions C86_records.

(** A history in which every accepted transaction was made by the library: nothing is spent twice, the supply of every asset is what
    was minted, and every record of a positive amount is of an asset that was minted. No condition on secrets, asset codes or fees
    is left: only that no hash collides among the records that occur and that no offered record belongs to the neutral key. *)
Theorem C86_history (C : CapConfig) (L : CapLaws C) (S : Snark C) (SL : SnarkLaws S) (Z0 : Ser C S) (v : Validator) (h : list event)
  (from : TransactionNote -> list Spend * list RoV) : (vd_depth v <= 100)%nat ->
  (forall t, In t (accepted v h) -> made (vd_depth v) t (fst (from t)) (snd (from t))) ->
  let spends := offered_in from (accepted v h) in
  let recs := created_in from v h in
  hash_collision_free (history_hashes (vd_depth v) (lg_leaves (ledger_after v h)) spends) ->
  commitment_binding (recs ++ map sp_ro spends) ->
  (forall s, In s spends -> ro_owner (sp_ro s) <> no_key) ->
  lg_leaves (ledger_after v h) = map commitment_of recs /\
  NoDup (map (fun s => pl_uid (sp_place s)) spends) /\
  (forall c, c <> dummy_asset_code ->
     total c (unspent recs spends) +
       (if zeqb native_asset_code c then sumz (map event_lost_fees (effective v (ledger_new (vd_depth v)) h)) else 0) =
     sumz (map (event_mints c) (effective v (ledger_new (vd_depth v)) h))) /\
  (forall j r, nth_error recs j = Some r -> ro_code r <> dummy_asset_code -> 0 < zv (ro_amount r) -> minted v h r).
Proof. intros Hd HM. exact (library_history L SL v h from HM Hd). Qed.
Print Assumptions C86_history.

(** the honest history: the accepted transfer of two records into three *)
Definition lb_from : @TransactionNote T TS -> list (@Spend T) * list (@RoV T) :=
  fun _ => (map (fun i => @offered T (ti_ro i) (ti_acc i) (addr_sk (ti_kp i))) (h_inputs true), map (@ro_value T) (h_outputs true)).
Lemma lb_made_by pk n sk : @transfer_generate T TS (h_rand true) (h_inputs true) (h_outputs true) pk (w64 500) (map b8 [1; 2; 3]) = Ok (n, sk) ->
  tpk_depth pk = 2%nat -> @made T TS 2 (TxTransfer n) (fst (lb_from (TxTransfer n))) (snd (lb_from (TxTransfer n))) /\
  @op_inputs T (OpTransfer h_opening) = fst (lb_from (TxTransfer n)) /\ @op_outputs T (OpTransfer h_opening) = snd (lb_from (TxTransfer n)).
Proof.
  intros E Hd. split.
  - exists (h_rand true), (h_inputs true), (h_outputs true), pk, (w64 500), (map b8 [1; 2; 3]), sk. split; [exact E|]. split; [exact Hd|].
    split; [reflexivity|]. split; [reflexivity|]. split; reflexivity.
  - destruct (transfer_generate_inv (toy_laws true) _ _ _ _ _ _ _ _ E) as (w & p & s & G).
    pose proof (tg_witness _ _ _ _ _ _ _ _ _ _ _ G) as W. destruct (new_unchecked_inv (toy_laws true) _ _ _ _ W) as (_ & W2 & _ & WF).
    unfold h_opening. rewrite W. cbn [ok_of op_inputs op_outputs transfer_value tv_ins tv_outs lb_from fst snd].
    split; [apply secrets_of; exact WF|rewrite W2; reflexivity].
Qed.
Lemma lb_keys pk vk : h_keys true = Ok (pk, vk) -> tpk_depth pk = 2%nat.
Proof.
  intros Hk. assert (K : get (h_keys true) (fun k => (tpk_depth (fst k) =? 2)%nat) = true) by (vm_compute; reflexivity).
  rewrite Hk in K. apply Nat.eqb_eq in K. exact K.
Qed.
Lemma lb_made x n sk : (let* k := h_keys true in
    @transfer_generate T TS (h_rand true) (h_inputs true) (h_outputs true) (fst k) (w64 500) (map b8 [1; 2; 3])) = x -> x = Ok (n, sk) ->
  @made T TS 2 (TxTransfer n) (fst (lb_from (TxTransfer n))) (snd (lb_from (TxTransfer n))) /\
  @op_inputs T (OpTransfer h_opening) = fst (lb_from (TxTransfer n)) /\ @op_outputs T (OpTransfer h_opening) = snd (lb_from (TxTransfer n)).
Proof.
  intros E Ex. rewrite Ex in E. apply bind_ok in E. destruct E as ([pk vk] & Hk & E). exact (lb_made_by pk n sk E (lb_keys pk vk Hk)).
Qed.
Example C86_example : exists n sk m sk', h_transfer true = Ok (n, sk) /\ h_mint true = Ok (m, sk') /\
  let h := l_history (h_fee true) (h_in1 true) (h_in2 true) [[TxTransfer n]; [TxMint m]] in
  (vd_depth l_validator <= 100)%nat /\ l_accepted h = [TxTransfer n] /\
  (forall t, In t (l_accepted h) -> @made T TS 2 t (fst (lb_from t)) (snd (lb_from t))) /\
  let spends := @offered_in T TS lb_from (l_accepted h) in
  let recs := @created_in T TS l_ser lb_from l_validator h in
  @hash_collision_free T (@history_hashes T 2 (lg_leaves (l_after h)) spends) /\
  @commitment_binding T (recs ++ map sp_ro spends) /\
  (forall s, In s spends -> ro_owner (sp_ro s) <> @no_key T) /\
  @total T native_asset_code (@unspent T recs spends) = 20 /\ @total T h_code (@unspent T recs spends) = 38.
Proof.
  destruct honest_history as (n & sk & m & sk' & E1 & E2 & H1 & H2 & H3 & H4 & H5 & _ & _ & _ & H7 & H8).
  exists n, sk, m, sk'. split; [exact E1|]. split; [exact E2|]. cbv zeta in *.
  destruct (lb_made (h_transfer true) n sk eq_refl E1) as (M1 & M2 & M3).
  set (h := l_history (h_fee true) (h_in1 true) (h_in2 true) [[TxTransfer n]; [TxMint m]]) in *.
  assert (ES : l_spends (l_op (OpTransfer h_opening)) h = @offered_in T TS lb_from (l_accepted h)).
  { apply spends_offered. intros t Ht. exact M2. }
  assert (ER : l_records (l_op (OpTransfer h_opening)) h = @created_in T TS l_ser lb_from l_validator h).
  { apply records_created. intros t Ht. exact M3. }
  rewrite <- ES, <- ER. split; [cbn; lia|]. split; [exact H1|].
  split; [intros t Ht; rewrite H1 in Ht; destruct Ht as [<-|[]]; exact M1|].
  split; [exact H3|]. split; [exact H4|]. split; [intros s Hs; exact (proj2 (H5 s Hs))|]. split; [exact H7|exact H8].
Qed.
