(** C57-C59: the user wallet of the integration test — which records it considers its own and unspent, and that its
    payments go through. *)
From Verif Require Import Base Config Structs Keys Utils Memo Plonk Witness Circuits Snark Notes Serde Ledger Wallet WalletSpec.
From Verif Require Import NoteProofs NoteThms NoteLive WalletProofs WalletPay WalletPay2
  CircuitFacts Toy ToySnark Samples NoteSamples WalletSamples.
#[local] Existing Instance toy_snark.
#[local] Existing Instance w_codec.
#[local] Existing Instance toy_memo_i.

(** ** C57: a wallet knows exactly its unspent records *)

(** at every point of a history in which the wallet scanned every block of the ledger *)
Theorem C57_unspent_records (C : CapConfig) (L : CapLaws C) (S : Snark C) (K : @RoCodec C) (KL : RoCodecLaws K) (E : MemoSer C) w l se sh :
  in_step w l se sh -> ordinary w (lg_leaves l) se sh ->
  (forall x, holds w x <-> In x se /\ ~ In (w_nullify w x) (lg_nullifiers l)) /\
  (forall x, holds w x -> pub_key (fst x) = user_pub_key (w_kp w) /\ freeze_flag (fst x) = Unfrozen /\
     nth_error (lg_leaves l) (Z.to_nat (zv (snd x))) = Some (derive_record_commitment (fst x))) /\
  (forall x, In x (held w) <-> holds w x) /\ NoDup (held w) /\
  (forall c, total_of c (held w) < 2 ^ 128 -> exists a, available_funds w c = Ok a /\ zv a = total_of c (held w)).
Proof.
  intros [R HN] (H1 & H2 & H3). pose proof (runs_inv L KL _ _ _ _ R H1 H2 H3) as I.
  split; [|split; [|split; [|split]]].
  - intros x. rewrite (ri_exact _ _ _ _ I). split; intros [A B]; (split; [exact A|]).
    + intros G. apply HN in G. destruct G as (k & G). exact (B k G).
    + intros k G. apply B, HN. exists k. exact G.
  - intros x Hx. apply (ri_exact _ _ _ _ I) in Hx. destruct (ri_seen _ _ _ _ I x (proj1 Hx)) as (A & B & _ & D). auto.
  - intros x. apply held_holds.
  - apply held_nodup, (ri_ok _ _ _ _ I).
  - intros c. apply available_funds_ok, (ri_ok _ _ _ _ I).
Qed.
Print Assumptions C57_unspent_records.
(** such a record can be shown to be in the tree *)
Theorem C57_membership (C : CapConfig) (L : CapLaws C) (S : Snark C) (K : @RoCodec C) (KL : RoCodecLaws K) (E : MemoSer C) w l se sh depth x :
  in_step w l se sh -> ordinary w (lg_leaves l) se sh -> (length (lg_leaves l) <= 3 ^ depth)%nat -> holds w x ->
  exists a, lookup_from_tree depth (lg_leaves l) (snd x) = Ok a /\ acc_uid a = snd x /\ length (acc_path a) = depth /\
    acc_root a = tree_root depth (lg_leaves l) /\
    merkle_root_of (f_of_u64 (snd x)) (derive_record_commitment (fst x)) (acc_path a) = tree_root depth (lg_leaves l).
Proof.
  intros H O HC Hx. apply tree_lookup; [|exact HC]. exact (proj2 (proj2 (proj1 (proj2 (C57_unspent_records C L S K KL E w l se sh H O)) x Hx))).
Qed.
Print Assumptions C57_membership.
(** the ways to stay in step with the ledger: a new wallet, a minted record (given to the wallet or not), a credential, a
    payment that succeeds or fails, another iteration order *)
Theorem C57_in_step (C : CapConfig) (S : Snark C) (K : @RoCodec C) (E : MemoSer C) :
  (forall depth kp, in_step (wallet_new kp) (ledger_new depth) [] []) /\
  (forall depth w l se sh ro, in_step w l se sh -> in_step w (mock_mint depth l ro) se sh) /\
  (forall depth w l se sh ro, in_step w l se sh -> pub_key ro = user_pub_key (w_kp w) -> freeze_flag ro = Unfrozen ->
     let uid := w64 (Z.of_nat (length (lg_leaves l))) in in_step (add_record_opening w ro uid) (mock_mint depth l ro) (se ++ [(ro, uid)]) sh) /\
  (forall w w' l se sh, in_step w l se sh -> same_records w w' -> in_step w' l se sh) /\
  (forall w l se sh c, in_step w l se sh -> in_step (set_credential w c) l se sh) /\
  (forall w l se sh g depth r outs fee leaves, in_step w l se sh -> in_step (fst (spend_native g depth w r outs fee leaves)) l se sh) /\
  (forall w l se sh g depth r d outs fee leaves, in_step w l se sh -> in_step (fst (spend_non_native g depth w r d outs fee leaves)) l se sh).
Proof.
  split; [exact new_in_step|]. split; [intros depth w l se sh ro H; exact (proj1 (mint_in_step depth w l se sh ro H))|].
  split; [intros depth w l se sh ro H; exact (proj2 (mint_in_step depth w l se sh ro H))|].
  split; [intros w w' l se sh [R H] HO; split; [exact (run_order _ _ _ _ _ R HO)|exact H]|].
  split; [intros w l se sh c H; exact (proj1 (own_step w l se sh H) c)|].
  split; [intros w l se sh g depth r outs fee leaves H; exact (proj1 (proj2 (own_step w l se sh H)) g depth r outs fee leaves)|].
  intros w l se sh g depth r d outs fee leaves H; exact (proj2 (proj2 (own_step w l se sh H)) g depth r d outs fee leaves).
Qed.
Print Assumptions C57_in_step.
(** a block that the ledger stores and the wallet scans: the wallet has seen what the memos open for it, nothing else but
    change it was waiting for, and, as the proposer, the fee record, which is the last record of the block *)
Theorem C57_blocks (C : CapConfig) (L : CapLaws C) (S : Snark C) (K : @RoCodec C) (E : MemoSer C) depth w l se sh b memos w' found l' :
  in_step w l se sh -> scan_block w b memos (length (lg_leaves l)) = Ok (w', found) -> insert_block depth l b = (l', Ok tt) ->
  exists ro se' sh', block_fee_record b = Ok ro /\ w_kp w' = w_kp w /\
    (forall x, In x se \/ opens (w_kp w) (combine (bk_txns b) memos) (length (lg_leaves l)) x -> In x se') /\
    (forall x, In x se' -> In x se \/ opens (w_kp w) (combine (bk_txns b) memos) (length (lg_leaves l)) x \/ In (fst x) (w_pending_chg w)) /\
    in_step w' l' se' sh' /\
    (pub_key ro = user_pub_key (w_kp w') ->
     let uid := w64 (Z.of_nat (length (lg_leaves l') - 1)) in in_step (add_record_opening w' ro uid) l' (se' ++ [(ro, uid)]) sh').
Proof. exact (scan_block_in_step L depth w l se sh b memos w' found l'). Qed.
Print Assumptions C57_blocks.
(** scanning returns exactly when every output but the first has a memo *)
Theorem C57_scanning_returns (C : CapConfig) (L : CapLaws C) (S : Snark C) (K : @RoCodec C) (KL : RoCodecLaws K) (E : MemoSer C) w l se sh t memos off :
  in_step w l se sh -> ordinary w (lg_leaves l) se sh ->
  (length (tx_output_commitments t) = Datatypes.S (length memos) -> exists r, scan_txn w t memos off = Ok r) /\
  (length (tx_output_commitments t) <> Datatypes.S (length memos) -> scan_txn w t memos off = Panic).
Proof. intros [R _] (H1 & H2 & H3). exact (scan_txn_total L w t memos off (ri_ok _ _ _ _ (runs_inv L KL _ _ _ _ R H1 H2 H3))). Qed.
Print Assumptions C57_scanning_returns.
(** a wallet with records of 7 and 20 native units and 30 units of another asset; then it scans a block with a payment of
    10 to another user and 4 to a third with fee 3 *)
Example C57_example :
  in_step ws_w ws_l ws_seen [] /\ ordinary ws_w (lg_leaves ws_l) ws_seen [] /\ RoCodecLaws w_codec /\
  map (funds ws_w) [@native_asset_code toy_field; code (s_def true)] = [27; 30] /\ length (@held T ws_w) = 3%nat /\
  match ws_native ws_w with (w1, Ok x) => ws_block_scan w1 x (@native_asset_code toy_field) | _ => (0, 0, false) end = (10, 3, true).
Proof.
  split; [exact ws_in_step|]. split; [exact ws_ordinary|]. split; [exact w_codec_laws|]. split; [vm_compute; reflexivity|].
  split; [vm_compute; reflexivity|]. vm_compute. reflexivity.
Qed.

(** ** C58: payments in the native asset *)

(** they succeed when the balance covers them, and the validator accepts the note *)
Theorem C58_native_payment (C : CapConfig) (L : CapLaws C) (S : Snark C) (SL : SnarkLaws S) (K : @RoCodec C) (KL : RoCodecLaws K) (E : MemoSer C)
  g fk depth w l se sh r outs fee (ts : u64) :
  in_step w l se sh -> ordinary w (lg_leaves l) se sh -> (length (lg_leaves l) <= 3 ^ depth)%nat ->
  (* the amounts *)
  (forall x, In x se -> code (asset_def (fst x)) = native_asset_code -> asset_def (fst x) = asset_def_native) ->
  (exists x, holds w x /\ code (asset_def (fst x)) = native_asset_code) -> outs <> [] ->
  paid_sum outs + zv fee <= total_of native_asset_code (held w) -> total_of native_asset_code (held w) < 2 ^ 127 ->
  (* what is sampled *)
  (forall x, In x se -> w_nullify w x <> dummy_nullifier r) -> ~ In (dummy_nullifier r) (lg_nullifiers l) ->
  (forall i pk a, nth_error outs i = Some (pk, a) -> exists m, receiver_memo_from_ro (sr_enc r i) (receiver_record asset_def_native r i pk a) [] = Ok m) ->
  (* there are keys for the numbers of inputs that may be needed *)
  (forall k, (2 <= k <= length (held w) + 1)%nat -> exists keys, transfer_preprocess g k (length outs + 1) depth = Ok keys) ->
  In (tree_root depth (lg_leaves l)) (lg_roots l) -> zv ts < 2 ^ 20 ->
  exists w1 n memos sg, spend_native g depth w r outs fee (lg_leaves l) = (w1, Ok (n, memos, sg)) /\
    validate_single_xfr_note (mkValidator g fk depth) l n ts = Ok tt /\ ta_fee (tn_aux n) = fee /\
    verify_receiver_memos_signature (TxTransfer n) memos sg = Ok tt.
Proof.
  intros [R HN] (H1 & H2 & H3) HC A1 A2 A3 A4 A5 A6 A7 A8 A9 A10 A11.
  exact (native_live L SL g fk depth w (lg_leaves l) se sh r outs fee l ts (runs_inv L KL _ _ _ _ R H1 H2 H3) H2 HC A1 A2 A3 A4 A5 A6 A7 A8 A9 (fun n Hn => proj1 (HN n) Hn) A10 A11).
Qed.
Print Assumptions C58_native_payment.
(** every receiver, on scanning the note, finds the record made for them and holds it *)
Theorem C58_receivers_paid (C : CapConfig) (L : CapLaws C) (S : Snark C) (K : @RoCodec C) (KL : RoCodecLaws K) (E : MemoSer C)
  g depth w l se sh r outs fee leaves w1 n memos sg :
  in_step w l se sh -> ordinary w (lg_leaves l) se sh -> spend_native g depth w r outs fee leaves = (w1, Ok (n, memos, sg)) ->
  forall i pk a wr lv ser shr, nth_error outs i = Some (pk, a) -> runs wr lv ser shr -> ordinary wr lv ser shr -> user_pub_key (w_kp wr) = pk ->
  let x := (receiver_record asset_def_native r i pk a, w64 (Z.of_nat (length lv + 1 + i))) in
  exists w2 found, scan_txn wr (TxTransfer n) memos (length lv) = Ok (w2, found) /\ In (fst x) found /\
    (forall se', (forall y, In y se' <-> In y ser \/ paid wr (TxTransfer n) memos (length lv) y) ->
       ordinary w2 (lv ++ tn_commitments n) se' (shr ++ map (fun k => (k, (length lv + length (tn_commitments n))%nat)) (tn_nullifiers n)) ->
       ~ In (w_nullify w2 x) (tn_nullifiers n) -> holds w2 x).
Proof.
  intros [R _] (H1 & H2 & H3) HSp i pk a wr lv ser shr Hi Rr (G1 & G2 & G3) HK x. pose proof (runs_inv L KL _ _ _ _ R H1 H2 H3) as I.
  destruct (spend_native_paid L _ _ _ _ _ _ _ _ _ _ _ (ri_ok _ _ _ _ I) HSp) as (records & chg & [_ _ _ P4 _ P6 _]).
  destruct (receivers_paid L KL asset_def_native r outs n chg memos (length lv) i pk a wr P4 P6 Hi HK) as (Q1 & Q2 & Q3).
  pose proof (ri_ok _ _ _ _ (runs_inv L KL _ _ _ _ Rr G1 G2 G3)) as Wr.
  destruct (proj1 (scan_txn_total L wr (TxTransfer n) memos (length lv) Wr) Q1) as ([w2 found] & HS).
  exists w2, found. split; [exact HS|]. split; [exact (Q3 _ _ Wr HS)|]. intros se' Hse HO Hn.
  exact (receiver_holds L KL wr lv ser shr (TxTransfer n) memos w2 found se' x Rr HS Hse HO Q2 Hn).
Qed.
Print Assumptions C58_receivers_paid.
(** after the sender scanned the note, the balance has changed by what was paid and by what the sender paid to itself *)
Theorem C58_sender_balance (C : CapConfig) (L : CapLaws C) (S : Snark C) (K : @RoCodec C) (KL : RoCodecLaws K) (E : MemoSer C)
  g depth w r outs fee leaves w1 n memos sg l se sh se' w2 found :
  in_step w l se sh -> ordinary w (lg_leaves l) se sh -> spend_native g depth w r outs fee leaves = (w1, Ok (n, memos, sg)) ->
  Z.of_nat (length (lg_leaves l) + length (tn_commitments n)) < 2 ^ 64 ->
  (forall x, In x se' <-> In x se \/ paid w1 (TxTransfer n) memos (length (lg_leaves l)) x) -> distinct_nullifiers w se' ->
  (forall x, In x se' -> w_nullify w x <> dummy_nullifier r) ->
  scan_txn w1 (TxTransfer n) memos (length (lg_leaves l)) = Ok (w2, found) ->
  forall c, total_of c (held w2) = total_of c (held w) - (if zeqb c native_asset_code then paid_sum outs + zv fee else 0)
    + paid_to_self w n memos (length outs) c.
Proof.
  intros [R _] (H1 & H2 & H3). exact (native_sender_self L g depth w r outs fee leaves w1 n memos sg (lg_leaves l) se sh se' w2 found (runs_inv L KL _ _ _ _ R H1 H2 H3)).
Qed.
Print Assumptions C58_sender_balance.
(** two payments without a scan in between share an input: once the first is in the ledger, the second is rejected *)
Theorem C58_second_payment_conflicts (C : CapConfig) (L : CapLaws C) (S : Snark C) (K : @RoCodec C) (KL : RoCodecLaws K) (E : MemoSer C)
  g depth w l se sh r outs fee leaves w1 n memos sg g' depth' r' outs' fee' leaves' w2 n' memos' sg' :
  in_step w l se sh -> ordinary w (lg_leaves l) se sh -> spend_native g depth w r outs fee leaves = (w1, Ok (n, memos, sg)) ->
  spend_native g' depth' w1 r' outs' fee' leaves' = (w2, Ok (n', memos', sg')) ->
  (exists x, In x (tn_nullifiers n) /\ In x (tn_nullifiers n')) /\
  forall v l1 ts, validate_single_xfr_note v (insert_transfer_note l1 n) n' ts <> Ok tt.
Proof.
  intros [R _] (H1 & H2 & H3) A B.
  destruct (native_conflict L _ _ _ _ _ _ _ _ _ _ _ _ _ _ _ _ _ _ _ _ _ _ _ _ (runs_inv L KL _ _ _ _ R H1 H2 H3) A B) as (x & Hx & Hx').
  split; [exists x; auto|]. intros v l1 ts. exact (conflict_rejected v l1 n n' x ts Hx Hx').
Qed.
Print Assumptions C58_second_payment_conflicts.
(** the hypotheses for this wallet and a payment that needs both its native records *)
Example C58_example :
  in_step ws_w ws_l ws_seen [] /\ ordinary ws_w (lg_leaves ws_l) ws_seen [] /\ (length (lg_leaves ws_l) <= 3 ^ 2)%nat /\
  (forall x, In x ws_seen -> code (asset_def (fst x)) = native_asset_code -> asset_def (fst x) = asset_def_native) /\
  (exists x, @holds T ws_w x /\ code (asset_def (fst x)) = native_asset_code) /\
  paid_sum ws_outs + zv (s_amount 3) <= total_of native_asset_code (@held T ws_w) < 2 ^ 127 /\
  (forall x, In x ws_seen -> @w_nullify T ws_w x <> @dummy_nullifier T TS ws_rand) /\ ~ In (@dummy_nullifier T TS ws_rand) (lg_nullifiers ws_l) /\
  (forall i pk a, nth_error ws_outs i = Some (pk, a) -> exists m, receiver_memo_from_ro (sr_enc ws_rand i) (receiver_record asset_def_native ws_rand i pk a) [] = Ok m) /\
  (forall k, (2 <= k <= length (@held T ws_w) + 1)%nat -> exists keys, @transfer_preprocess T TS tt k (length ws_outs + 1) 2 = Ok keys) /\
  In (tree_root 2 (lg_leaves ws_l)) (lg_roots ws_l).
Proof.
  split; [exact ws_in_step|]. split; [exact ws_ordinary|]. split; [vm_compute; lia|].
  split. { intros x [<-|[<-|[<-|[]]]] H; [reflexivity| |reflexivity]. exfalso. apply (f_equal zv) in H. vm_compute in H. discriminate H. }
  split. { exists (ws_r0, w64 0). split; [|reflexivity]. apply held_holds. left. reflexivity. }
  split; [vm_compute; split; [discriminate|reflexivity]|].
  split; [apply fresh_b_ok; vm_compute; reflexivity|]. split; [intros []|]. split; [intros i pk a _; eexists; reflexivity|].
  split; [intros k Hk; apply ws_keys; [left; reflexivity|exact Hk]|]. exact (mint_root 2 ws_l2 ws_r2).
Qed.
(** what it leads to: the validator accepts; the sender keeps 10, the receivers have 10 and 4, and the scanned states meet
    the hypotheses of the theorems again; a second payment is made and rejected *)
Example C58_run :
  match ws_native ws_w with
  | (w1, Ok x) =>
      done (@validate_single_xfr_note T TS (@mkValidator T TS tt (fun _ => @sz toy_field 55) 2) ws_l (fst (fst x)) (w64 500)) &&
      done (@verify_receiver_memos_signature T TS toy_memo_i (TxTransfer (fst (fst x))) (snd (fst x)) (snd x)) &&
      match snd (ws_native w1) with
      | Ok y => negb (done (@validate_single_xfr_note T TS (@mkValidator T TS tt (fun _ => @sz toy_field 55) 2) (ws_after (fst (fst x))) (fst (fst y)) (w64 500)))
      | _ => false
      end = true /\
      ws_scan w1 ws_seen x [native_asset_code; code (s_def true)] = ([10; 30], true) /\
      ws_scan (ws_receiver 13) [] x [native_asset_code] = ([10], true) /\ ws_scan (ws_receiver 12) [] x [native_asset_code] = ([4], true)
  | _ => False
  end.
Proof. vm_compute. repeat split. Qed.

(** ** C59: payments in another asset *)
Theorem C59_payment (C : CapConfig) (L : CapLaws C) (S : Snark C) (SL : SnarkLaws S) (K : @RoCodec C) (KL : RoCodecLaws K) (E : MemoSer C)
  g fk depth w l se sh r d outs fee (ts : u64) :
  in_step w l se sh -> ordinary w (lg_leaves l) se sh -> (length (lg_leaves l) <= 3 ^ depth)%nat ->
  (* the asset *)
  code d <> native_asset_code -> code d <> dummy_asset_code -> (freezer_pk (policy d) <> pt_id -> viewer_pk (policy d) <> pt_id) ->
  (viewer_pk (policy d) <> pt_id -> rm_bit (reveal_map (policy d)) 0 = rm_bit (reveal_map (policy d)) 1 /\
     zv (reveal_threshold (policy d)) < 2 ^ 127 + paid_sum outs) ->
  (cred_pk (policy d) <> pt_id -> exists c, Wallet.w_cred w = Some c /\ cred_verify c (cr_expiry c) = Ok tt /\ length (cr_attrs c) = 8%nat) ->
  (forall x, In x se -> code (asset_def (fst x)) = native_asset_code -> asset_def (fst x) = asset_def_native) ->
  (forall x, In x se -> code (asset_def (fst x)) = code d -> asset_def (fst x) = d) ->
  (* the amounts: one native record covers the fee *)
  (exists x, holds w x /\ code (asset_def (fst x)) = native_asset_code /\ zv fee <= zv (amount (fst x))) ->
  (exists x, holds w x /\ code (asset_def (fst x)) = code d) -> outs <> [] -> paid_sum outs <= total_of (code d) (held w) ->
  total_of native_asset_code (held w) + total_of (code d) (held w) < 2 ^ 127 ->
  (* what is sampled *)
  (forall x, In x se -> w_nullify w x <> dummy_nullifier r) -> ~ In (dummy_nullifier r) (lg_nullifiers l) ->
  (forall i pk a, nth_error outs i = Some (pk, a) -> exists m, receiver_memo_from_ro (sr_enc r i) (receiver_record d r i pk a) [] = Ok m) ->
  (forall a, exists m, receiver_memo_from_ro (sr_enc r (length outs)) (receiver_record d r (length outs) (user_pub_key (w_kp w)) a) [] = Ok m) ->
  (* there are keys for the numbers of inputs and outputs that may be needed *)
  (forall k, (2 <= k <= length (held w) + 1)%nat -> exists keys, transfer_preprocess g k (length outs + 1) depth = Ok keys) ->
  (forall k, (2 <= k <= length (held w) + 1)%nat -> exists keys, transfer_preprocess g k (length outs + 2) depth = Ok keys) ->
  In (tree_root depth (lg_leaves l)) (lg_roots l) -> zv (payment_expiry w) < 2 ^ 20 -> zv ts <= zv (payment_expiry w) ->
  exists w1 n memos sg, spend_non_native g depth w r d outs fee (lg_leaves l) = (w1, Ok (n, memos, sg)) /\
    validate_single_xfr_note (mkValidator g fk depth) l n ts = Ok tt /\ ta_fee (tn_aux n) = fee /\
    verify_receiver_memos_signature (TxTransfer n) memos sg = Ok tt.
Proof.
  intros [R HN] (H1 & H2 & H3) HC A1 A2 A3 A4 A5 A6 A7 A8 A9 A10 A11 A12 A13 A14 A15 A16 A17 A18 A19 A20 A21.
  exact (non_native_live L SL g fk depth w (lg_leaves l) se sh r d outs fee l ts (runs_inv L KL _ _ _ _ R H1 H2 H3) H2 HC A1 A2 A3 A4 A5 A6 A7 A8 A9 A10
    A11 A12 A13 A14 A15 A16 A17 A18 (fun n Hn => proj1 (HN n) Hn) A19 A20 A21).
Qed.
Print Assumptions C59_payment.
Theorem C59_receivers_paid (C : CapConfig) (L : CapLaws C) (S : Snark C) (K : @RoCodec C) (KL : RoCodecLaws K) (E : MemoSer C)
  g depth w l se sh r d outs fee leaves w1 n memos sg :
  in_step w l se sh -> ordinary w (lg_leaves l) se sh -> code d <> native_asset_code -> code d <> dummy_asset_code ->
  spend_non_native g depth w r d outs fee leaves = (w1, Ok (n, memos, sg)) ->
  forall i pk a wr lv ser shr, nth_error outs i = Some (pk, a) -> runs wr lv ser shr -> ordinary wr lv ser shr -> user_pub_key (w_kp wr) = pk ->
  let x := (receiver_record d r i pk a, w64 (Z.of_nat (length lv + 1 + i))) in
  exists w2 found, scan_txn wr (TxTransfer n) memos (length lv) = Ok (w2, found) /\ In (fst x) found /\
    (forall se', (forall y, In y se' <-> In y ser \/ paid wr (TxTransfer n) memos (length lv) y) ->
       ordinary w2 (lv ++ tn_commitments n) se' (shr ++ map (fun k => (k, (length lv + length (tn_commitments n))%nat)) (tn_nullifiers n)) ->
       ~ In (w_nullify w2 x) (tn_nullifiers n) -> holds w2 x).
Proof.
  intros [R _] (H1 & H2 & H3) Dn Dd HSp i pk a wr lv ser shr Hi Rr (G1 & G2 & G3) HK x. pose proof (runs_inv L KL _ _ _ _ R H1 H2 H3) as I.
  destruct (spend_non_native_paid L _ _ _ _ _ _ _ _ _ _ _ _ (ri_ok _ _ _ _ I) Dn Dd HSp) as (fr & records & change & chg & [_ _ _ _ P4 _ _ P6 _ _]).
  assert (Hi' : nth_error (outs ++ own_change w change) i = Some (pk, a)).
  { rewrite nth_error_app1; [exact Hi|]. apply nth_error_Some. congruence. }
  destruct (receivers_paid L KL d r (outs ++ own_change w change) n chg memos (length lv) i pk a wr P4 P6 Hi' HK) as (Q1 & Q2 & Q3).
  pose proof (ri_ok _ _ _ _ (runs_inv L KL _ _ _ _ Rr G1 G2 G3)) as Wr.
  destruct (proj1 (scan_txn_total L wr (TxTransfer n) memos (length lv) Wr) Q1) as ([w2 found] & HS).
  exists w2, found. split; [exact HS|]. split; [exact (Q3 _ _ Wr HS)|]. intros se' Hse HO Hn.
  exact (receiver_holds L KL wr lv ser shr (TxTransfer n) memos w2 found se' x Rr HS Hse HO Q2 Hn).
Qed.
Print Assumptions C59_receivers_paid.
Theorem C59_sender_balance (C : CapConfig) (L : CapLaws C) (S : Snark C) (K : @RoCodec C) (KL : RoCodecLaws K) (E : MemoSer C)
  g depth w r d outs fee leaves w1 n memos sg l se sh se' w2 found :
  in_step w l se sh -> ordinary w (lg_leaves l) se sh -> code d <> native_asset_code -> code d <> dummy_asset_code ->
  spend_non_native g depth w r d outs fee leaves = (w1, Ok (n, memos, sg)) ->
  Z.of_nat (length (lg_leaves l) + length (tn_commitments n)) < 2 ^ 64 ->
  (forall x, In x se' <-> In x se \/ paid w1 (TxTransfer n) memos (length (lg_leaves l)) x) -> distinct_nullifiers w se' ->
  (forall x, In x se' -> w_nullify w x <> dummy_nullifier r) ->
  scan_txn w1 (TxTransfer n) memos (length (lg_leaves l)) = Ok (w2, found) ->
  forall c, total_of c (held w2) = total_of c (held w) - (if zeqb c native_asset_code then zv fee else 0)
    - (if zeqb c (code d) then paid_sum outs else 0) + paid_to_self w n memos (length outs) c.
Proof.
  intros [R _] (H1 & H2 & H3). exact (non_native_sender L KL g depth w r d outs fee leaves w1 n memos sg (lg_leaves l) se sh se' w2 found (runs_inv L KL _ _ _ _ R H1 H2 H3)).
Qed.
Print Assumptions C59_sender_balance.
Theorem C59_second_payment_conflicts (C : CapConfig) (L : CapLaws C) (S : Snark C) (K : @RoCodec C) (KL : RoCodecLaws K) (E : MemoSer C)
  g depth w l se sh r d outs fee leaves w1 n memos sg g' depth' r' d' outs' fee' leaves' w2 n' memos' sg' :
  in_step w l se sh -> ordinary w (lg_leaves l) se sh -> code d <> native_asset_code -> code d <> dummy_asset_code -> code d' = code d ->
  spend_non_native g depth w r d outs fee leaves = (w1, Ok (n, memos, sg)) ->
  spend_non_native g' depth' w1 r' d' outs' fee' leaves' = (w2, Ok (n', memos', sg')) ->
  (exists x, In x (tn_nullifiers n) /\ In x (tn_nullifiers n')) /\
  forall v l1 ts, validate_single_xfr_note v (insert_transfer_note l1 n) n' ts <> Ok tt.
Proof.
  intros [R _] (H1 & H2 & H3) Dn Dd Ed A B.
  destruct (non_native_conflict L _ _ _ _ _ _ _ _ _ _ _ _ _ _ _ _ _ _ _ _ _ _ _ _ _ _ (runs_inv L KL _ _ _ _ R H1 H2 H3) Dn Dd Ed A B) as (x & Hx & Hx').
  split; [exists x; auto|]. intros v l1 ts. exact (conflict_rejected v l1 n n' x ts Hx Hx').
Qed.
Print Assumptions C59_second_payment_conflicts.
(** the hypotheses for a payment of 14 units of the other asset from its record of 30 *)
Example C59_example :
  in_step ws_w ws_l ws_seen [] /\ ordinary ws_w (lg_leaves ws_l) ws_seen [] /\
  code (s_def true) <> native_asset_code /\ code (s_def true) <> dummy_asset_code /\
  (viewer_pk (policy (s_def true)) <> pt_id /\ freezer_pk (policy (s_def true)) <> pt_id /\ cred_pk (policy (s_def true)) <> pt_id) /\
  (rm_bit (reveal_map (policy (s_def true))) 0 = rm_bit (reveal_map (policy (s_def true))) 1 /\ zv (reveal_threshold (policy (s_def true))) < 2 ^ 127 + paid_sum ws_outs) /\
  (exists c, Wallet.w_cred ws_w = Some c /\ cred_verify c (cr_expiry c) = Ok tt /\ length (cr_attrs c) = 8%nat) /\
  (forall x, In x ws_seen -> code (asset_def (fst x)) = code (s_def true) -> asset_def (fst x) = s_def true) /\
  (exists x, @holds T ws_w x /\ code (asset_def (fst x)) = native_asset_code /\ zv (s_amount 3) <= zv (amount (fst x))) /\
  (exists x, @holds T ws_w x /\ code (asset_def (fst x)) = code (s_def true)) /\ paid_sum ws_outs <= total_of (code (s_def true)) (@held T ws_w) /\
  total_of native_asset_code (@held T ws_w) + total_of (code (s_def true)) (@held T ws_w) < 2 ^ 127 /\
  (forall k n, n = 1%nat \/ n = 2%nat -> (2 <= k <= length (@held T ws_w) + 1)%nat -> exists keys, @transfer_preprocess T TS tt k (length ws_outs + n) 2 = Ok keys) /\
  (forall a, exists m, receiver_memo_from_ro (sr_enc ws_rand (length ws_outs)) (receiver_record (s_def true) ws_rand (length ws_outs) (user_pub_key (w_kp ws_w)) a) [] = Ok m) /\
  zv (w64 500) <= zv (payment_expiry ws_w) < 2 ^ 20.
Proof.
  split; [exact ws_in_step|]. split; [exact ws_ordinary|].
  split. { intros H. apply (f_equal zv) in H. vm_compute in H. discriminate H. }
  split. { intros H. apply (f_equal zv) in H. vm_compute in H. discriminate H. }
  split. { assert (N : forall p q : @point T, @point_eqb T p q = false -> p <> q) by (intros p q H ->; rewrite (proj2 (point_eqb_spec (toy_laws true) q q) eq_refl) in H; discriminate H).
           repeat split; apply N; vm_compute; reflexivity. }
  split; [split; [reflexivity|vm_compute; reflexivity]|].
  split. { eexists. split; [reflexivity|]. split; [apply done_ok; vm_compute; reflexivity|reflexivity]. }
  split. { intros x [<-|[<-|[<-|[]]]] H; [|reflexivity|]; exfalso; apply (f_equal zv) in H; vm_compute in H; discriminate H. }
  split. { exists (ws_r0, w64 0). split; [apply held_holds; left; reflexivity|]. split; [reflexivity|]. vm_compute. discriminate. }
  split. { exists (ws_r1, w64 1). split; [|reflexivity]. apply held_holds. right. right. left. reflexivity. }
  split; [vm_compute; discriminate|]. split; [vm_compute; reflexivity|].
  split. { intros k n Hn Hk. apply ws_keys; [destruct Hn as [->| ->]; [left|right]; reflexivity|exact Hk]. }
  split; [intros a; eexists; reflexivity|]. split; vm_compute; [discriminate|reflexivity].
Qed.
