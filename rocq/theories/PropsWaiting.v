(** C82: others cannot block a payment.

    A payment that a wallet made and that is valid stays valid whatever happens on the ledger, until it expires, unless the
    wallet's own secret is used, a freezer freezes one of the wallet's records, or a transaction shows the nullifier of the
    dummy input that the payment was made with.

    [follows] and [collision_free] are in WorldSpec.v, as in C68 and C69.  [dummy_nullifier r] is the nullifier of the dummy
    record that the wallet samples for a payment. *)
From Verif Require Import Base Config Structs Keys Utils Memo Plonk Witness Circuits Relation Snark Notes Serde ToySer
  GadgetProofs NoteProofs Accepted Decide CircuitFacts Toy ToySnark Samples NoteSamples Ledger LedgerSpec LedgerProofs LedgerSupply LedgerBlocks LedgerSamples
  ScheduleSpec Schedule Wallet WalletSpec WalletProofs WalletPay WalletPay2 WalletSamples WorldSpec WorldProofs WorldSolvent WorldSamples Waiting PropsWallet PropsWorld.
#[local] Existing Instance toy_snark.
#[local] Existing Instance l_ser.
#[local] Existing Instance w_codec.
#[local] Existing Instance world_memo.
#[local] Notation accepted := Ledger.accepted.

(** payments in the native asset *)
Theorem C82_native (C : CapConfig) (L : CapLaws C) (S : Snark C) (SL : SnarkLaws S) (Z0 : Ser C S) (K : @RoCodec C) (KL : RoCodecLaws K) (E : MemoSer C)
    v op h e kps SE g depth w se r outs fee w1 n memos sg ts ts' :
  follows v h w se -> collision_free v op (h ++ e) kps SE -> incl se SE -> In (w_kp w) kps ->
  spend_native g depth w r outs fee (lg_leaves (ledger_after v h)) = (w1, Ok (n, memos, sg)) ->
  validate_single_xfr_note v (ledger_after v h) n ts = Ok tt -> zv ts' <= zv (ta_valid_until (tn_aux n)) ->
  validate_single_xfr_note v (ledger_after v (h ++ e)) n ts' = Ok tt \/
  exists t, In t (accepted v (h ++ e)) /\ ~ In t (accepted v h) /\
    ((exists x s, holds w x /\ code (asset_def (fst x)) = native_asset_code /\ In s (op_inputs (op t)) /\ spent_by_key w x t s) \/
     In (dummy_nullifier r) (tx_nullifiers t)).
Proof. exact (native_waits L SL KL v op h e kps SE g depth w se r outs fee w1 n memos sg ts ts'). Qed.
Print Assumptions C82_native.
(** payments in another asset *)
Theorem C82_non_native (C : CapConfig) (L : CapLaws C) (S : Snark C) (SL : SnarkLaws S) (Z0 : Ser C S) (K : @RoCodec C) (KL : RoCodecLaws K) (E : MemoSer C)
    v op h e kps SE g depth w se r d outs fee w1 n memos sg ts ts' :
  follows v h w se -> collision_free v op (h ++ e) kps SE -> incl se SE -> In (w_kp w) kps -> code d <> native_asset_code -> code d <> dummy_asset_code ->
  spend_non_native g depth w r d outs fee (lg_leaves (ledger_after v h)) = (w1, Ok (n, memos, sg)) ->
  validate_single_xfr_note v (ledger_after v h) n ts = Ok tt -> zv ts' <= zv (ta_valid_until (tn_aux n)) ->
  validate_single_xfr_note v (ledger_after v (h ++ e)) n ts' = Ok tt \/
  exists t, In t (accepted v (h ++ e)) /\ ~ In t (accepted v h) /\
    ((exists x s, holds w x /\ In s (op_inputs (op t)) /\ spent_by_key w x t s) \/ In (dummy_nullifier r) (tx_nullifiers t)).
Proof. exact (non_native_waits L SL KL v op h e kps SE g depth w se r d outs fee w1 n memos sg ts ts'). Qed.
Print Assumptions C82_non_native.
(** with C58: a wallet that follows the ledger and whose balance covers a payment in the native asset makes a note that is
    accepted at any later time before 2^20, whatever others did until then, if its own secret was not used and the dummy
    nullifier was not shown *)
Theorem C82_payment (C : CapConfig) (L : CapLaws C) (S : Snark C) (SL : SnarkLaws S) (Z0 : Ser C S) (K : @RoCodec C) (KL : RoCodecLaws K) (E : MemoSer C)
    g fk depth h w se r outs fee op0 kps0 SE0 : let v := mkValidator g fk depth in let l := ledger_after v h in
  follows v h w se -> collision_free v op0 h kps0 SE0 -> incl se SE0 -> In (w_kp w) kps0 -> (length (lg_leaves l) <= 3 ^ depth)%nat ->
  (forall x, In x se -> code (asset_def (fst x)) = native_asset_code -> asset_def (fst x) = asset_def_native) ->
  (exists x, holds w x /\ code (asset_def (fst x)) = native_asset_code) -> outs <> [] ->
  paid_sum outs + zv fee <= total_of native_asset_code (held w) -> total_of native_asset_code (held w) < 2 ^ 127 ->
  (forall x, In x se -> w_nullify w x <> dummy_nullifier r) -> ~ In (dummy_nullifier r) (lg_nullifiers l) ->
  (forall i pk a, nth_error outs i = Some (pk, a) -> exists m, receiver_memo_from_ro (sr_enc r i) (receiver_record asset_def_native r i pk a) [] = Ok m) ->
  (forall k, (2 <= k <= length (held w) + 1)%nat -> exists keys, transfer_preprocess g k (length outs + 1) depth = Ok keys) ->
  In (tree_root depth (lg_leaves l)) (lg_roots l) ->
  exists w1 n memos sg, spend_native g depth w r outs fee (lg_leaves l) = (w1, Ok (n, memos, sg)) /\ ta_fee (tn_aux n) = fee /\
    forall e op kps SE (ts : u64), collision_free v op (h ++ e) kps SE -> incl se SE -> In (w_kp w) kps -> zv ts < 2 ^ 20 ->
      (forall t s, In t (accepted v (h ++ e)) -> ~ In t (accepted v h) -> In s (op_inputs (op t)) -> sp_sk s <> fr_to_fq (addr_sk (w_kp w))) ->
      (forall t, In t (accepted v (h ++ e)) -> ~ In t (accepted v h) -> ~ In (dummy_nullifier r) (tx_nullifiers t)) ->
      validate_single_xfr_note v (ledger_after v (h ++ e)) n ts = Ok tt.
Proof.
  intros v l FO CF0 HI0 HK0 A0 A1 A2 A3 A4 A5 A6 A7 A8 A9 A10.
  destruct (follows_in_step L KL v op0 h kps0 SE0 w se CF0 FO HI0 HK0) as (sh & ST & OR).
  assert (P : forall ts : u64, zv ts < 2 ^ 20 -> exists w1 n memos sg, spend_native g depth w r outs fee (lg_leaves l) = (w1, Ok (n, memos, sg)) /\
      validate_single_xfr_note v l n ts = Ok tt /\ ta_fee (tn_aux n) = fee /\ verify_receiver_memos_signature (TxTransfer n) memos sg = Ok tt).
  { intros ts Hts. exact (C58_native_payment C L S SL K KL E g fk depth w l se sh r outs fee ts ST OR A0 A1 A2 A3 A4 A5 A6 A7 A8 A9 A10 Hts). }
  destruct (P (w64 0) eq_refl) as (w1 & n & memos & sg & HS & _ & HF & _). exists w1, n, memos, sg. split; [exact HS|]. split; [exact HF|].
  intros e op kps SE ts CF HI HK Hts HU HD. destruct (P ts Hts) as (w1' & n' & memos' & sg' & HS' & HV & _).
  rewrite HS in HS'. assert (n' = n) by congruence. subst n'.
  assert (HT : zv ts <= zv (ta_valid_until (tn_aux n))).
  { apply (single_note SL) in HV. exact (proj1 (proj1 (stays_valid SL v l (TxTransfer n) ts [] ts HV) HV)). }
  destruct (native_waits L SL KL v op h e kps SE g depth w se r outs fee w1 n memos sg ts ts FO CF HI HK HS HV HT) as [Q|(t & T1 & T2 & [(x & s & Hx & Hc & Hs & HB)|T3])].
  - exact Q.
  - exfalso. destruct HB as (_ & _ & [EK|(_ & HF' & _)]); [exact (HU t s T1 T2 Hs EK)|].
    pose proof (proj1 (proj1 (C68_unspent C L S Z0 K KL E v op0 h kps0 SE0 w se CF0 FO HI0 HK0) x) Hx) as [Hse _]. rewrite (A1 x Hse Hc) in HF'. exact (HF' eq_refl).
  - contradiction (HD t T1 T2 T3).
Qed.
Print Assumptions C82_payment.

(** User 11 follows the ledger of C68_example up to the three mints and pays 10 and 4 of its 20 with a fee of 3.  The payment
    waits while another record is minted, and is then valid. *)
Definition wt_event : LE := EvMint (s_native true 9 13 103).
Definition wt_kps : list (@UserKeyPair T) := map (s_user true) [11; 12; 13; 20].
Definition wt_b (h : list LE) (se : list (@Owned T)) : bool :=
  hashes_b (@history_hashes T 2 (lg_leaves (l_after h)) []) && binding_b (@records T TS l_ser ww_op l_validator h ++ [] ++ map (fun x => @ro_value T (fst x)) se) &&
  triples_b ([] ++ flat_map (fun kp => @own_triples T kp 0 (@records T TS l_ser ww_op l_validator h)) wt_kps) && not_dummy_b se &&
  (Z.of_nat (length (lg_leaves (l_after h))) <? 2 ^ 64).
Lemma wt_b_ok h se : l_accepted h = [] -> wt_b h se = true -> @collision_free T TS l_ser l_validator ww_op h wt_kps se.
Proof.
  intros HA H. unfold wt_b in H. apply andb_true_iff in H. destruct H as [H H5]. apply andb_true_iff in H. destruct H as [H H4].
  apply andb_true_iff in H. destruct H as [H H3]. apply andb_true_iff in H. destruct H as [H1 H2].
  constructor; rewrite ?HA.
  - intros t [].
  - change (vd_depth l_validator) with 2%nat. lia.
  - apply Z.ltb_lt. exact H5.
  - apply hashes_b_ok. exact H1.
  - apply binding_b_ok. exact H2.
  - apply triples_b_ok. exact H3.
  - intros t [].
  - apply not_dummy_b_ok. exact H4.
Qed.
Definition wt_spend := @spend_native T TS w_codec world_memo tt 2 (ww_before 11) ws_rand ws_outs (s_amount 3) (lg_leaves (l_after ww_mints)).
Lemma wt_before : @collision_free T TS l_ser l_validator ww_op ww_mints wt_kps (ww_seen 11).
Proof. apply wt_b_ok; [reflexivity|vm_compute; reflexivity]. Qed.
Lemma wt_later : @collision_free T TS l_ser l_validator ww_op (ww_mints ++ [wt_event]) wt_kps (ww_seen 11).
Proof. apply wt_b_ok; [reflexivity|vm_compute; reflexivity]. Qed.
Lemma wt_keys k : (2 <= k <= length (@held T (ww_before 11)) + 1)%nat -> exists keys, @transfer_preprocess T TS tt k 3 2 = Ok keys.
Proof.
  intros Hk. change (length (@held T (ww_before 11)) + 1)%nat with 2%nat in Hk. apply ws_keys; [left; reflexivity|].
  change (length (@held T ws_w) + 1)%nat with 4%nat. lia.
Qed.
Example C82_example :
  W_follows ww_mints (ww_before 11) (ww_seen 11) /\ @collision_free T TS l_ser l_validator ww_op (ww_mints ++ [wt_event]) wt_kps (ww_seen 11) /\
  In (w_kp (ww_before 11)) wt_kps /\ lg_leaves (l_after ww_mints) <> lg_leaves (l_after (ww_mints ++ [wt_event])) /\
  exists w1 n memos sg, wt_spend = (w1, Ok (n, memos, sg)) /\ ta_fee (tn_aux n) = s_amount 3 /\
    @validate_single_xfr_note T TS l_validator (l_after (ww_mints ++ [wt_event])) n (w64 600) = Ok tt.
Proof.
  assert (FO : W_follows ww_mints (ww_before 11) (ww_seen 11)) by (apply ww_before_follows; left; reflexivity).
  assert (HK : In (w_kp (ww_before 11)) wt_kps) by (left; reflexivity).
  split; [exact FO|]. split; [exact wt_later|]. split; [exact HK|].
  split; [intros E; apply (f_equal (@length _)) in E; vm_compute in E; discriminate E|].
  destruct (C82_payment T (toy_laws true) TS (toy_snark_laws true) l_ser w_codec w_codec_laws world_memo tt (fun _ => @sz toy_field 55) 2 ww_mints
    (ww_before 11) (ww_seen 11) ws_rand ws_outs (s_amount 3) ww_op wt_kps (ww_seen 11)) as (w1 & n & memos & sg & HS & HF & HV).
  - exact FO.
  - exact wt_before.
  - apply incl_refl.
  - exact HK.
  - change (length (lg_leaves (l_after ww_mints)) <= 9)%nat. vm_compute. lia.
  - intros x [<-|[]] _. reflexivity.
  - exists (h_fee true, w64 0). split; [|reflexivity]. apply held_holds. left. reflexivity.
  - discriminate.
  - vm_compute. discriminate.
  - vm_compute. reflexivity.
  - apply fresh_b_ok. vm_compute. reflexivity.
  - intros [].
  - intros i pk a _. eexists. reflexivity.
  - exact wt_keys.
  - exact (mint_root 2 _ (h_in2 true)).
  - exists w1, n, memos, sg. split; [exact HS|]. split; [exact HF|].
    apply (HV [wt_event] ww_op wt_kps (ww_seen 11) (w64 600) wt_later (incl_refl _) HK).
    + reflexivity.
    + intros t s [].
    + intros t [].
Qed.
