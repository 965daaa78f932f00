(** Property theorems: generated and accepted notes, batches, encodings (C34-C43, C48, C50, C51).

    [code_sum c l] is the integer sum of the amounts of the records of [l] with asset code [c], [amt_sum l] the sum of all
    amounts, [non_dummy l] the records of [l] whose definition is not the dummy one (UtilsProofs.v).  [transfer_accepted],
    [mint_accepted] and [freeze_accepted] (Accepted.v) say that the note verifies under a verifying key made by the
    preprocessing for the given sizes; [mint_opens d n t] and [freeze_opens d n t] that the values [t] explain [n]. *)
From Verif Require Import Base Config Structs Keys Utils Memo Plonk Witness Circuits CircuitLogic Relation UtilsProofs GadgetProofs
  TransferCircuitProofs MintCircuitProofs FreezeCircuitProofs CircuitShape CircuitTheorems Snark Notes NoteProofs NoteGen NoteGen2
  NoteThms Security Accepted CircuitFacts Toy ToySnark Samples NoteSamples Serde SerdeProofs ToySer NoteFacts.
#[local] Notation T := (toy true).
#[local] Notation TS := (toy_snark true).

(** ** C34: a generated transfer is well formed *)
Theorem C34_transfer_well_formed (C : CapConfig) (L : CapLaws C) (S : Snark C) r inputs outputs pk vu extra n sk :
    transfer_generate r inputs outputs pk vu extra = Ok (n, sk) ->
    (* value *)
    (forall c, code_sum c (non_dummy (map ti_ro inputs)) =
               code_sum c outputs + (if zeqb native_asset_code c then zv (ta_fee (tn_aux n)) else 0)) /\
    amt_sum (non_dummy (map ti_ro inputs)) < 2 ^ 128 /\ amt_sum outputs < 2 ^ 128 /\
    (* one asset besides the native fee pair *)
    (exists i0 irest o0 orest d, inputs = i0 :: irest /\ outputs = o0 :: orest /\
      asset_def (ti_ro i0) = asset_def_native /\ asset_def o0 = asset_def_native /\
      (forall i, In i irest -> asset_def (ti_ro i) = asset_def_dummy \/ asset_def (ti_ro i) = d) /\
      (forall o, In o orest -> asset_def o = d)) /\
    (* records *)
    (forall i, In i inputs -> freeze_flag (ti_ro i) = Unfrozen) /\ (forall o, In o outputs -> freeze_flag o = Unfrozen) /\
    (forall i, In i inputs -> asset_def (ti_ro i) = asset_def_dummy -> zv (amount (ti_ro i)) = 0) /\
    (forall i, In i inputs -> address (pub_key (ti_ro i)) = user_address (ti_kp i)) /\
    (forall i, In i inputs -> asset_def (ti_ro i) <> asset_def_dummy ->
       pub_key (ti_ro i) = user_pub_key (ti_kp i) /\
       acc_root (ti_acc i) = ta_root (tn_aux n) /\ length (acc_path (ti_acc i)) = tpk_depth pk /\
       merkle_root_of (f_of_u64 (acc_uid (ti_acc i))) (derive_record_commitment (ti_ro i)) (acc_path (ti_acc i)) = ta_root (tn_aux n)) /\
    (forall i, In i inputs -> cred_pk (policy (asset_def (ti_ro i))) <> pt_id ->
       exists c, ti_cred i = Some c /\ cred_verify c vu = Ok tt) /\
    (* the note *)
    tn_nullifiers n = map (fun i => user_nullify (ti_kp i) (freezer_pk (policy (asset_def (ti_ro i))))
                                      (acc_uid (ti_acc i)) (derive_record_commitment (ti_ro i))) inputs /\
    NoDup (tn_nullifiers n) /\
    tn_commitments n = map derive_record_commitment outputs /\
    ta_valid_until (tn_aux n) = vu /\ ta_memo_vk (tn_aux n) = ver_key sk /\ ta_extra (tn_aux n) = extra /\
    length inputs = tpk_n_in pk /\ length outputs = tpk_n_out pk.
Proof. exact (generated_transfer L r inputs outputs pk vu extra n sk). Qed.
Print Assumptions C34_transfer_well_formed.
(** The native variant: the fee is the requested one, whatever the build's overflow behaviour, and the change record
    returned to the caller is the first output. *)
Theorem C34_native_transfer (C : CapConfig) (L : CapLaws C) (S : Snark C) r inputs outputs fee vu pk n sk chg :
  transfer_generate_native r inputs outputs fee vu pk = Ok (n, sk, chg) ->
  transfer_generate r inputs (chg :: outputs) pk vu [] = Ok (n, sk) /\
  ta_fee (tn_aux n) = fee /\
  exists i0 rest, inputs = i0 :: rest /\
    asset_def (ti_ro i0) = asset_def_native /\
    (forall i, In i rest -> asset_def (ti_ro i) = asset_def_dummy \/ asset_def (ti_ro i) = asset_def_native) /\
    (forall o, In o outputs -> asset_def o = asset_def_native) /\
    asset_def chg = asset_def_native /\ pub_key chg = pub_key (ti_ro i0) /\ freeze_flag chg = Unfrozen /\
    blind chg = tr_chg_blind r /\
    zv (amount chg) = amt_sum (non_dummy (map ti_ro inputs)) - amt_sum outputs - zv fee.
Proof. exact (transfer_native_inv L r inputs outputs fee vu pk n sk chg). Qed.
Print Assumptions C34_native_transfer.
(** the variant for another asset is the general one on the fee record and change, after the check of the fee *)
Theorem C34_non_native_transfer (C : CapConfig) (L : CapLaws C) (S : Snark C) r inputs outputs fee vu pk extra n sk :
  transfer_generate_non_native r inputs outputs fee vu pk extra = Ok (n, sk) ->
  transfer_generate r (fee_to_transfer_input (fee_input fee) :: inputs) (fee_chg_ro fee :: outputs) pk vu extra = Ok (n, sk) /\
  ((forall i, In i inputs -> code (asset_def (ti_ro i)) <> native_asset_code) ->
   (forall o, In o outputs -> code (asset_def o) <> native_asset_code) -> ta_fee (tn_aux n) = fee_amount fee).
Proof.
  intros H. exact (conj (proj2 (generated_non_native r inputs outputs fee vu pk extra n sk H))
                        (non_native_fee L r inputs outputs fee vu pk extra n sk H)).
Qed.
Print Assumptions C34_non_native_transfer.
Example C34_example :
  match h_transfer true with
  | Ok (n, _) => (length (tn_nullifiers n) =? 2)%nat && (length (tn_commitments n) =? 3)%nat && (zv (ta_fee (tn_aux n)) =? 5)
  | _ => false
  end = true.
Proof. vm_compute. reflexivity. Qed.

(** ** C35: generated notes verify *)
Theorem C35_generated_transfer_verifies (C : CapConfig) (L : CapLaws C) (S : Snark C) (SL : SnarkLaws S)
    g n_in n_out d pk vk r inputs outputs vu extra n sk (ts : u64) :
  transfer_preprocess g n_in n_out d = Ok (pk, vk) -> transfer_generate r inputs outputs pk vu extra = Ok (n, sk) ->
  zv ts <= zv vu -> transfer_verify n vk (ta_root (tn_aux n)) ts = Ok tt.
Proof. exact (transfer_generate_verifies L SL g n_in n_out d pk vk r inputs outputs vu extra n sk ts). Qed.
Print Assumptions C35_generated_transfer_verifies.
Theorem C35_generated_mint_verifies (C : CapConfig) (L : CapLaws C) (S : Snark C) (SL : SnarkLaws S)
    g d pk vk r mint_ro seed description fee n sk :
  mint_preprocess g d = Ok (pk, vk) -> mint_generate r mint_ro seed description fee pk = Ok (n, sk) ->
  zv (amount mint_ro) < 2 ^ 127 -> mint_verify n vk (ma_root (mn_aux n)) = Ok tt.
Proof. exact (mint_generate_verifies L SL g d pk vk r mint_ro seed description fee n sk). Qed.
Print Assumptions C35_generated_mint_verifies.
Theorem C35_generated_freeze_verifies (C : CapConfig) (L : CapLaws C) (S : Snark C) (SL : SnarkLaws S)
    g fk num d pk vk r inputs fee n sk outs :
  freeze_preprocess g fk num d = Ok (pk, vk) -> freeze_generate r inputs fee pk = Ok (n, sk, outs) ->
  length (acc_path (fi_acc (fee_input fee))) = d -> (forall i, In i inputs -> length (acc_path (zi_acc i)) = d) ->
  freeze_verify n vk (fa_root (fn_aux n)) = Ok tt.
Proof. exact (freeze_generate_verifies L SL g fk num d pk vk r inputs fee n sk outs). Qed.
Print Assumptions C35_generated_freeze_verifies.
(** the last expiry for which anything can be transferred is 2^20 - 1, even without any credential in the policy *)
Theorem C35_expiry_refuted :
  (exists n sk, u_transfer true (u_map true true) 10 (2 ^ 20 - 1) = Ok (n, sk)) /\
  u_transfer true (u_map true true) 10 (2 ^ 20) = Err FailedSnark.
Proof.
  assert (G : forall r : res (@TransferNote T TS * @Fj toy_field), match r with Ok _ => true | _ => false end = true ->
    exists n sk, r = Ok (n, sk)) by (intros [[n sk]| |] H; [exists n, sk; reflexivity|discriminate H|discriminate H]).
  assert (B : forall r : res (@TransferNote T TS * @Fj toy_field), match r with Err FailedSnark => true | _ => false end = true ->
    r = Err FailedSnark) by (intros [x|[]|] H; try discriminate H; reflexivity).
  split; [refine (G _ _)|refine (B _ _)]; vm_compute; reflexivity.
Qed.
Print Assumptions C35_expiry_refuted.
Example C35_example :
  h_transfer_verify true 500 = Ok tt /\ h_transfer_verify true 501 <> Ok tt /\
  h_mint_verify true (n_root true (h_fee true) (h_in1 true) (h_in2 true)) = Ok tt /\
  h_freeze_verify true (n_root true (h_fee true) (h_in1 true) (h_in2 true)) = Ok tt.
Proof. split; [vm_compute; reflexivity|]. split; [vm_compute; discriminate|]. split; vm_compute; reflexivity. Qed.

(** ** C36: what verification checks, and tamper resistance *)
Theorem C36_transfer_verify_meaning (C : CapConfig) (S : Snark C) (n : TransferNote) vk root (ts : u64) :
  transfer_verify n vk root ts = Ok tt <->
  root = ta_root (tn_aux n) /\ zv ts <= zv (ta_valid_until (tn_aux n)) /\
  snark_verify (tvk_key vk)
    ([ta_root (tn_aux n); native_asset_code; f_of_u64 (ta_valid_until (tn_aux n)); f_of_u128 (ta_fee (tn_aux n))] ++
     tn_nullifiers n ++ tn_commitments n ++ memo_to_scalars (tn_memo n)) (tn_proof n)
    (ser_verkey (ta_memo_vk (tn_aux n)) ++ ta_extra (tn_aux n)) = true.
Proof. exact (transfer_verify_iff n vk root ts). Qed.
Print Assumptions C36_transfer_verify_meaning.
Theorem C36_tampered_transfer_rejected (C : CapConfig) (L : CapLaws C) (S : Snark C) (SL : SnarkLaws S)
    g n_in n_out d pk vk r inputs outputs vu extra n sk n' root ts :
  transfer_preprocess g n_in n_out d = Ok (pk, vk) -> transfer_generate r inputs outputs pk vu extra = Ok (n, sk) ->
  tn_proof n' = tn_proof n -> length (tn_nullifiers n') = length (tn_nullifiers n) ->
  length (tn_commitments n') = length (tn_commitments n) ->
  transfer_verify n' vk root ts = Ok tt -> n' = n.
Proof. exact (transfer_tamper L SL g n_in n_out d pk vk r inputs outputs vu extra n sk n' root ts). Qed.
Print Assumptions C36_tampered_transfer_rejected.
Theorem C36_tampered_mint_rejected (C : CapConfig) (L : CapLaws C) (S : Snark C) (SL : SnarkLaws S)
    g d pk vk r mint_ro seed description fee n sk n' root :
  mint_preprocess g d = Ok (pk, vk) -> mint_generate r mint_ro seed description fee pk = Ok (n, sk) ->
  mn_proof n' = mn_proof n -> mint_verify n' vk root = Ok tt -> n' = n.
Proof. exact (mint_tamper L SL g d pk vk r mint_ro seed description fee n sk n' root). Qed.
Print Assumptions C36_tampered_mint_rejected.
Theorem C36_tampered_freeze_rejected (C : CapConfig) (L : CapLaws C) (S : Snark C) (SL : SnarkLaws S)
    g fk num d pk vk r inputs fee n sk outs n' root :
  freeze_preprocess g fk num d = Ok (pk, vk) -> freeze_generate r inputs fee pk = Ok (n, sk, outs) ->
  length (acc_path (fi_acc (fee_input fee))) = d -> (forall i, In i inputs -> length (acc_path (zi_acc i)) = d) ->
  fn_proof n' = fn_proof n -> length (fn_nullifiers n') = length (fn_nullifiers n) ->
  freeze_verify n' vk root = Ok tt -> n' = n.
Proof. exact (freeze_tamper L SL g fk num d pk vk r inputs fee n sk outs n' root). Qed.
Print Assumptions C36_tampered_freeze_rejected.
(** The condition on the list lengths is needed: the boundary between nullifiers and output commitments is not bound, so
    every accepted note is also accepted with its first output counted as a nullifier, or its last nullifier counted as an output. *)
Theorem C36_list_boundary_refuted (C : CapConfig) (S : Snark C) vk root ts prf memo aux nls x rcs :
  transfer_verify (mkTNote nls (x :: rcs) prf memo aux) vk root ts = Ok tt <->
  transfer_verify (mkTNote (nls ++ [x]) rcs prf memo aux) vk root ts = Ok tt.
Proof.
  rewrite !transfer_verify_iff. unfold transfer_to_scalars. cbn [transfer_note_public tn_nullifiers tn_commitments tn_proof tn_memo tn_aux tp_root
    tp_native tp_valid_until tp_fee tp_nullifiers tp_commitments tp_memo]. rewrite <- !app_assoc. reflexivity.
Qed.
Print Assumptions C36_list_boundary_refuted.
Example C36_example :
  h_transfer_verify true 500 = Ok tt /\ shift_verify true = Ok tt.
Proof. split; vm_compute; reflexivity. Qed.

(** ** C37: an accepted mint mints what it says *)
Theorem C37_mint_opening (C : CapConfig) (S : Snark C) (SL : SnarkLaws S) d n root :
  mint_accepted d n root ->
  root = ma_root (mn_aux n) /\ code (mn_def n) = new_domestic_from_internal (mn_internal n) /\
  length (vm_data (mn_memo n)) = 3%nat /\ exists t, mint_opens d n t.
Proof. exact (mint_accepted_opens SL d n root). Qed.
Print Assumptions C37_mint_opening.
Theorem C37_mint_mints_what_it_says (C : CapConfig) (L : CapLaws C) (S : Snark C) d n t :
  mint_opens d n t ->
  (* the minted record *)
  mn_mint n = commitment_of (mv_mint t) /\ ro_amount (mv_mint t) = f_of_u128 (mn_amount n) /\ zv (mn_amount n) < 2 ^ 127 /\
  ro_code (mv_mint t) = code (mn_def n) /\ ro_pol (mv_mint t) = pol_value (policy (mn_def n)) /\ ro_flag (mv_mint t) = f0 /\
  (* the seed behind the code *)
  mn_internal n = prf_eval (mv_seed t) [mv_digest t] /\
  (* the spent record *)
  ro_code (mv_fee_ro t) = native_asset_code /\ policy_empty (ro_pol (mv_fee_ro t)) /\ ro_flag (mv_fee_ro t) = f0 /\
  owns (mv_sk t) (ro_owner (mv_fee_ro t)) /\ length (pl_path (mv_place t)) = d /\
  merkle_root_of (pl_uid (mv_place t)) (commitment_of (mv_fee_ro t)) (pl_path (mv_place t)) = ma_root (mn_aux n) /\
  mn_nullifier n = nullifier_of (mv_sk t) (pl_uid (mv_place t)) (commitment_of (mv_fee_ro t)) /\
  (* the change *)
  mn_chg n = commitment_of (mv_chg t) /\ ro_code (mv_chg t) = native_asset_code /\ policy_empty (ro_pol (mv_chg t)) /\
  ro_flag (mv_chg t) = f0 /\ ro_owner (mv_chg t) = ro_owner (mv_fee_ro t) /\
  ro_amount (mv_fee_ro t) = fadd (f_of_u128 (ma_fee (mn_aux n))) (ro_amount (mv_chg t)) /\
  (* what the viewer of the asset reads *)
  (forall viewer : ViewerKeyPair, viewer_pk (policy (mn_def n)) = viewer_pub_key viewer -> viewer_pub_key viewer <> pt_id ->
     elgamal_decrypt viewer (vm_ephemeral (mn_memo n), vm_data (mn_memo n)) =
     [fst (ro_owner (mv_mint t)); snd (ro_owner (mv_mint t)); ro_blind (mv_mint t)]).
Proof. exact (mint_opens_facts L d n t). Qed.
Print Assumptions C37_mint_mints_what_it_says.
Example C37_example : exists n sk, h_mint true = Ok (n, sk) /\ @mint_accepted T TS 2 n h_root /\
  @mint_opens T TS 2 n (m_opening 11 15 (h_mint_ro true)).
Proof. exact h_mint_good. Qed.

(** ** C38: the fee of accepted mint and freeze notes *)
Theorem C38_mint_fee_covered (C : CapConfig) (S : Snark C) d n t :
  mint_opens d n t -> zv (ro_amount (mv_chg t)) < 2 ^ 128 ->
  zv (ro_amount (mv_fee_ro t)) = zv (ma_fee (mn_aux n)) + zv (ro_amount (mv_chg t)).
Proof. exact (mint_opens_fee d n t). Qed.
Print Assumptions C38_mint_fee_covered.
Theorem C38_freeze_fee_covered (C : CapConfig) (S : Snark C) d n t :
  freeze_opens d n t -> zv (ro_amount (fv_chg t)) < 2 ^ 128 ->
  zv (ro_amount (fv_fee_ro t)) = zv (fa_fee (fn_aux n)) + zv (ro_amount (fv_chg t)).
Proof. exact (freeze_opens_fee d n t). Qed.
Print Assumptions C38_freeze_fee_covered.
(** nothing bounds the change: a fee of 100 paid from a record of 20 is accepted *)
Theorem C38_uncovered_mint_fee_refuted :
  exists n root t, @mint_accepted T TS 2 n root /\ @mint_opens T TS 2 n t /\
    zv (@ro_amount T (mv_fee_ro t)) = 20 /\ zv (ma_fee (mn_aux n)) = 100.
Proof. exact uncovered_mint_fee. Qed.
Print Assumptions C38_uncovered_mint_fee_refuted.
Theorem C38_uncovered_freeze_fee_refuted :
  exists n root t, @freeze_accepted T TS 3 2 n root /\ @freeze_opens T TS 2 n t /\
    zv (@ro_amount T (fv_fee_ro t)) = 20 /\ zv (fa_fee (fn_aux n)) = 100.
Proof. exact uncovered_freeze_fee. Qed.
Print Assumptions C38_uncovered_freeze_fee_refuted.
Example C38_example :
  (exists n sk, h_mint true = Ok (n, sk) /\ @mint_opens T TS 2 n (m_opening 11 15 (h_mint_ro true)) /\
     zv (@ro_amount T (mv_chg (m_opening 11 15 (h_mint_ro true)))) = 15 /\ zv (@ro_amount T (mv_fee_ro (m_opening 11 15 (h_mint_ro true)))) = 20) /\
  (exists n sk outs, h_freeze true = Ok (n, sk, outs) /\ @freeze_opens T TS 2 n (f_opening 15) /\ zv (@ro_amount T (fv_chg (f_opening 15))) = 15).
Proof.
  destruct h_mint_good as (n & sk & H1 & _ & H2). destruct h_freeze_good as (n' & sk' & outs & H3 & _ & H4). split.
  - exists n, sk. split; [exact H1|]. split; [exact H2|]. split; vm_compute; reflexivity.
  - exists n', sk', outs. split; [exact H3|]. split; [exact H4|]. vm_compute. reflexivity.
Qed.

(** ** C39: an accepted freeze only flips flags *)
Theorem C39_freeze_opening (C : CapConfig) (S : Snark C) (SL : SnarkLaws S) num d n root :
  freeze_accepted num d n root ->
  root = fa_root (fn_aux n) /\ length (fn_commitments n) = num /\ exists t, freeze_opens d n t.
Proof. exact (freeze_accepted_opens SL num d n root). Qed.
Print Assumptions C39_freeze_opening.
Theorem C39_freeze_flips_flags (C : CapConfig) (S : Snark C) d n t :
  freeze_opens d n t ->
  exists nl nls rc rcs, fn_nullifiers n = nl :: nls /\ fn_commitments n = rc :: rcs /\
    (* the fee record and the change *)
    ro_code (fv_fee_ro t) = native_asset_code /\ policy_empty (ro_pol (fv_fee_ro t)) /\ ro_flag (fv_fee_ro t) = f0 /\
    owns (fv_sk t) (ro_owner (fv_fee_ro t)) /\ length (pl_path (fv_place t)) = d /\
    merkle_root_of (pl_uid (fv_place t)) (commitment_of (fv_fee_ro t)) (pl_path (fv_place t)) = fa_root (fn_aux n) /\
    nl = nullifier_of (fv_sk t) (pl_uid (fv_place t)) (commitment_of (fv_fee_ro t)) /\
    rc = commitment_of (fv_chg t) /\ ro_code (fv_chg t) = native_asset_code /\ policy_empty (ro_pol (fv_chg t)) /\
    ro_flag (fv_chg t) = f0 /\
    ro_amount (fv_fee_ro t) = fadd (ro_amount (fv_chg t)) (f_of_u128 (fa_fee (fn_aux n))) /\
    (* the other inputs, each with its output, nullifier and output commitment *)
    Forall3 (fun x nl0 rc0 =>
      rc0 = commitment_of (fz_out x) /\
      ro_amount (fz_out x) = ro_amount (fz_in x) /\ ro_owner (fz_out x) = ro_owner (fz_in x) /\
      ro_code (fz_out x) = ro_code (fz_in x) /\ ro_pol (fz_out x) = ro_pol (fz_in x) /\
      (ro_flag (fz_in x) = f0 /\ ro_flag (fz_out x) = f1 \/ ro_flag (fz_in x) = f1 /\ ro_flag (fz_out x) = f0) /\
      owns (fz_sk x) (po_freezer (ro_pol (fz_in x))) /\
      (ro_code (fz_in x) <> dummy_asset_code ->
       po_freezer (ro_pol (fz_in x)) <> no_key /\ length (pl_path (fz_place x)) = d /\
       merkle_root_of (pl_uid (fz_place x)) (commitment_of (fz_in x)) (pl_path (fz_place x)) = fa_root (fn_aux n)) /\
      nl0 = nullifier_of (spending_key (fz_sk x) (ro_owner (fz_in x))) (pl_uid (fz_place x)) (commitment_of (fz_in x)))
      (fv_pairs t) nls rcs.
Proof. exact (freeze_opens_facts d n t). Qed.
Print Assumptions C39_freeze_flips_flags.
Example C39_example : exists n sk outs, h_freeze true = Ok (n, sk, outs) /\ @freeze_accepted T TS 3 2 n h_root /\
  @freeze_opens T TS 2 n (f_opening 15).
Proof. exact h_freeze_good. Qed.

(** ** C40: batch verification *)
Theorem C40_batch_and_individual (C : CapConfig) (S : Snark C) (SL : SnarkLaws S) txns roots ts keys :
  txns <> [] -> Forall2 same_kind txns keys ->
  (length roots = length txns /\
   (forall i t k root, nth_error txns i = Some t -> nth_error keys i = Some k -> nth_error roots i = Some root ->
      tx_verify t k root ts = Ok tt) <->
   txn_batch_verify txns roots ts keys = Ok tt /\
   (forall n, In (TxMint n) txns -> code (mn_def n) = new_domestic_from_internal (mn_internal n))).
Proof. exact (batch_individual SL txns roots ts keys). Qed.
Print Assumptions C40_batch_and_individual.
(** a batch accepts a mint of the native asset, which its own verification refuses *)
Theorem C40_native_mint_in_batch_refuted :
  exists n pk vk root ts, @mint_preprocess T TS tt 2 = Ok (pk, vk) /\
    @txn_batch_verify T TS [TxMint n] [root] ts [VkMint vk] = Ok tt /\
    @tx_verify T TS (TxMint n) (VkMint vk) root ts = Err FailedAssetCodeVerification /\
    mn_def n = @asset_def_native T /\ zv (mn_amount n) = 1000000.
Proof. exact native_mint_in_batch. Qed.
Print Assumptions C40_native_mint_in_batch_refuted.
Example C40_example :
  match @transfer_preprocess T TS tt 2 3 2, m_keys true, h_transfer true, h_mint true with
  | Ok (_, vk1), Ok (_, vk2), Ok (n1, _), Ok (n2, _) =>
      let root := n_root true (h_fee true) (h_in1 true) (h_in2 true) in
      match @txn_batch_verify T TS [TxTransfer n1; TxMint n2] [root; root] (w64 500) [VkTransfer vk1; VkMint vk2],
            @txn_batch_verify T TS [TxTransfer n1; TxMint n2] [root; root] (w64 501) [VkTransfer vk1; VkMint vk2] with
      | Ok _, Err _ => true | _, _ => false
      end
  | _, _, _, _ => false
  end = true.
Proof. vm_compute. reflexivity. Qed.

(** ** C41: accessors and encodings *)
Theorem C41_accessors (C : CapConfig) (S : Snark C) (t : TransactionNote) :
  tx_output_len t = length (tx_output_commitments t) /\
  match t with
  | TxTransfer n => tx_nullifiers t = tn_nullifiers n /\ tx_output_commitments t = tn_commitments n /\ tx_merkle_root t = ta_root (tn_aux n)
  | TxMint n => tx_nullifiers t = [mn_nullifier n] /\ tx_output_commitments t = [mn_chg n; mn_mint n] /\ tx_merkle_root t = ma_root (mn_aux n)
  | TxFreeze n => tx_nullifiers t = fn_nullifiers n /\ tx_output_commitments t = fn_commitments n /\ tx_merkle_root t = fa_root (fn_aux n)
  end.
Proof. destruct t; auto. Qed.
Print Assumptions C41_accessors.
(** a note verifies only against the root that [merkle_root] returns *)
Theorem C41_root_is_verified (C : CapConfig) (S : Snark C) t k root ts : tx_verify t k root ts = Ok tt -> root = tx_merkle_root t.
Proof.
  destruct t as [n|n|n], k as [k|k|k]; cbn [tx_verify tx_merkle_root]; intros H; try discriminate H;
    [apply transfer_verify_iff in H|apply mint_verify_iff in H|apply freeze_verify_iff in H]; apply H.
Qed.
Print Assumptions C41_root_is_verified.
Theorem C41_note_encoding (C : CapConfig) (S : Snark C) (Z0 : Ser C S) (ZL : SerLaws Z0) :
  (forall t s, note_fits t -> tx_deserialize (tx_serialize t ++ s) = Ok (t, s)) /\
  (forall t, note_fits t -> length (tx_serialize t) = tx_serialized_size t) /\
  (forall b s, 2 < zv b -> tx_deserialize (b :: s) = Err SerInvalidData) /\
  tx_deserialize [] = Err SerIoError /\
  (forall t t', note_fits t -> note_fits t' -> tx_serialize t = tx_serialize t' -> t = t') /\
  (forall t t', note_fits t -> note_fits t' -> tx_commit_preimage t = tx_commit_preimage t' -> t = t').
Proof. exact (tx_codec ZL). Qed.
Print Assumptions C41_note_encoding.
Theorem C41_key_encoding (C : CapConfig) (S : Snark C) (Z0 : Ser C S) (ZL : SerLaws Z0) :
  (forall k s, key_fits k -> vk_deserialize (vk_serialize k ++ s) = Ok (k, s)) /\
  (forall k, key_fits k -> length (vk_serialize k) = vk_serialized_size k) /\
  (forall b s, 2 < zv b -> vk_deserialize (b :: s) = Err SerInvalidData) /\
  vk_deserialize [] = Err SerIoError /\
  (forall k k', key_fits k -> key_fits k' -> vk_serialize k = vk_serialize k' -> k = k').
Proof. exact (txvk_codec ZL). Qed.
Print Assumptions C41_key_encoding.
(** two notes and a key, encoded and read back *)
Example C41_example :
  @SerLaws T doc_snark doc_ser /\ @note_fits T doc_snark doc_note /\ @note_fits T doc_snark doc_mint /\ @key_fits T doc_snark doc_key /\
  @tx_deserialize T doc_snark doc_ser (@tx_serialize T doc_snark doc_ser doc_note ++ [b8 9]) = Ok (doc_note, [b8 9]) /\
  length (@tx_serialize T doc_snark doc_ser doc_note) = 315%nat.
Proof.
  assert (F1 : @note_fits T doc_snark doc_note) by (vm_compute; repeat split; reflexivity).
  split; [exact doc_ser_laws|]. split; [exact F1|]. split; [vm_compute; repeat split; reflexivity|].
  split; [vm_compute; repeat split; reflexivity|]. split; [exact (proj1 (tx_codec doc_ser_laws) _ _ F1)|]. vm_compute. reflexivity.
Qed.

(** ** C42: the signature on the receiver memos *)
Theorem C42_memo_signature (C : CapConfig) (L : CapLaws C) (S : Snark C) (E : MemoSer C) (EL : MemoSerLaws E) :
  (forall sk l, l <> [] -> exists sg, sign_receiver_memos sk l = Ok sg /\
     forall t : TransactionNote, tx_memo_vk t = ver_key sk -> verify_receiver_memos_signature t l sg = Ok tt) /\
  (forall sk, sign_receiver_memos sk [] = Err InternalError) /\
  (forall (t : TransactionNote) sg, verify_receiver_memos_signature t [] sg = Err InternalError) /\
  (forall (t : TransactionNote) l sg, l <> [] ->
     (verify_receiver_memos_signature t l sg = Ok tt <-> sig_ok (tx_memo_vk t) [hash_to_f (memos_bytes l)] sg = true)) /\
  (forall (t : TransactionNote) l l' sg, l <> l' -> verify_receiver_memos_signature t l sg = Ok tt ->
     verify_receiver_memos_signature t l' sg = Ok tt ->
     (* the signed strings differ, and they collide or the signature is valid for both digests *)
     memos_bytes l <> memos_bytes l' /\
       ((hash_to_f (memos_bytes l) = hash_to_f (memos_bytes l')) \/
        ([hash_to_f (memos_bytes l)] <> [hash_to_f (memos_bytes l')] /\ sig_ok (tx_memo_vk t) [hash_to_f (memos_bytes l)] sg = true /\
         sig_ok (tx_memo_vk t) [hash_to_f (memos_bytes l')] sg = true))).
Proof. exact (memo_signature_spec L EL). Qed.
Print Assumptions C42_memo_signature.
Example C42_example :
  @MemoSerLaws T (toy_memo_ser true) /\
  match h_transfer true with
  | Ok (n, sk) =>
      let memo (k : Z * bytes * bytes) : @ReceiverMemo T := k in
      match @sign_receiver_memos T (toy_memo_ser true) sk [memo (1, [b8 4], [b8 5]); memo (2, [], [b8 7])] with
      | Ok sg => match @verify_receiver_memos_signature T TS (toy_memo_ser true) (TxTransfer n) [memo (1, [b8 4], [b8 5]); memo (2, [], [b8 7])] sg,
                       @verify_receiver_memos_signature T TS (toy_memo_ser true) (TxTransfer n) [memo (2, [], [b8 7]); memo (1, [b8 4], [b8 5])] sg with
                 | Ok _, Err _ => true | _, _ => false
                 end
      | _ => false
      end
  | _ => false
  end = true.
Proof. split; [exact (toy_memo_ser_laws true)|]. vm_compute. reflexivity. Qed.

(** ** C43: fee records of a block *)
Theorem C43_fee_records (C : CapConfig) :
  (forall collectors fees blinds rcs, derive_txns_fee_records collectors fees blinds = Ok rcs ->
     fees <> [] /\ length collectors = length fees /\ length blinds = length fees /\ length rcs = length fees /\
     forall i f o b, nth_error fees i = Some f -> nth_error collectors i = Some o -> nth_error blinds i = Some b ->
       nth_error rcs i = Some (derive_record_commitment (mkRO f asset_def_native o Unfrozen b))) /\
  (forall collectors fees blinds, fees <> [] -> length collectors = length fees -> length blinds = length fees ->
     exists rcs, derive_txns_fee_records collectors fees blinds = Ok rcs) /\
  (forall collectors fees blinds, fees = [] \/ length collectors <> length fees \/ length blinds <> length fees ->
     derive_txns_fee_records collectors fees blinds = Err InvalidParameter).
Proof. exact fee_records_spec. Qed.
Print Assumptions C43_fee_records.
Example C43_example :
  match @derive_txns_fee_records T [@user_pub_key T (s_user true 1); @user_pub_key T (s_user true 2)] [w128 5; w128 6]
          [@fz toy_field 1; @fz toy_field 2] with
  | Ok [a; b] => zeqb b (@derive_record_commitment T (s_native true 6 2 2))
  | _ => false
  end = true.
Proof. vm_compute. reflexivity. Qed.

(** ** C48: mint generation *)
Theorem C48_mint_generation (C : CapConfig) (L : CapLaws C) (S : Snark C) r mint_ro seed desc fee pk n sk :
    mint_generate r mint_ro seed desc fee pk = Ok (n, sk) ->
    mn_internal n = internal_new seed desc /\
    code (mn_def n) = new_domestic_from_internal (mn_internal n) /\ code (mn_def n) = new_domestic seed desc /\
    mn_def n = asset_def mint_ro /\ mn_amount n = amount mint_ro /\
    mn_mint n = derive_record_commitment mint_ro /\ freeze_flag mint_ro = Unfrozen /\
    (* the fee record and the change *)
    asset_def (fi_ro (fee_input fee)) = asset_def_native /\ freeze_flag (fi_ro (fee_input fee)) = Unfrozen /\
    pub_key (fi_ro (fee_input fee)) = user_pub_key (fi_kp (fee_input fee)) /\
    ma_fee (mn_aux n) = fee_amount fee /\ zv (fee_amount fee) <= zv (amount (fi_ro (fee_input fee))) /\
    zv (amount (fee_chg_ro fee)) = zv (amount (fi_ro (fee_input fee))) - zv (fee_amount fee) /\
    asset_def (fee_chg_ro fee) = asset_def_native /\ freeze_flag (fee_chg_ro fee) = Unfrozen /\
    pub_key (fee_chg_ro fee) = pub_key (fi_ro (fee_input fee)) /\
    mn_chg n = derive_record_commitment (fee_chg_ro fee) /\
    mn_nullifier n = user_nullify (fi_kp (fee_input fee)) pt_id (acc_uid (fi_acc (fee_input fee)))
                                  (derive_record_commitment (fi_ro (fee_input fee))) /\
    merkle_root_of (f_of_u64 (acc_uid (fi_acc (fee_input fee)))) (derive_record_commitment (fi_ro (fee_input fee)))
                   (acc_path (fi_acc (fee_input fee))) = ma_root (mn_aux n) /\
    length (acc_path (fi_acc (fee_input fee))) = mpk_depth pk /\ ma_memo_vk (mn_aux n) = ver_key sk.
Proof. exact (generated_mint L r mint_ro seed desc fee pk n sk). Qed.
Print Assumptions C48_mint_generation.
Example C48_example :
  match h_mint true with Ok (n, _) => (zv (mn_amount n) =? 1000) && (zv (ma_fee (mn_aux n)) =? 5) | _ => false end = true.
Proof. vm_compute. reflexivity. Qed.

(** ** C50: encodings of records, definitions, keys, credentials and memos *)
Theorem C50_record_encoding (C : CapConfig) (S : Snark C) (Z0 : Ser C S) (ZL : SerLaws Z0) :
  (forall (r : RecordOpening) s, dec c_ro (enc c_ro r ++ s) = Ok (r, s)) /\
  (forall (d : AssetDefinition) s, dec c_def (enc c_def d ++ s) = Ok (d, s)) /\
  (forall (k : UserPubKey) s, dec c_userpk (enc c_userpk k ++ s) = Ok (k, s)) /\
  (forall (c : ExpirableCredential) s, Z.of_nat (length (cr_attrs c)) < 2 ^ 64 -> dec c_cred (enc c_cred c ++ s) = Ok (c, s)) /\
  (forall (m : ViewableMemo) s, Z.of_nat (length (vm_data m)) < 2 ^ 64 -> dec c_memo (enc c_memo m ++ s) = Ok (m, s)) /\
  (forall r : RecordOpening, length (enc c_ro r) = size c_ro r) /\
  (forall r r' : RecordOpening, enc c_ro r = enc c_ro r' -> r = r').
Proof. exact (record_codec ZL). Qed.
Print Assumptions C50_record_encoding.
Theorem C50_field_encoding_canonical (C : CapConfig) (s : bytes) :
  (forall x r, dec c_f s = Ok (x, r) -> s = enc c_f x ++ r /\ length (enc c_f x) = 32%nat) /\
  (forall b r, s = b ++ r -> length b = 32%nat -> modulus <= from_le b -> dec c_f s = Err SerInvalidData) /\
  ((length s < 32)%nat -> dec c_f s = Err SerIoError).
Proof. exact (field_codec_canonical s). Qed.
Print Assumptions C50_field_encoding_canonical.
Example C50_example :
  match @dec _ (@c_f T) (le_bytes 32 bn_p), @dec _ (@c_f T) (le_bytes 32 (bn_p - 1)) with
  | Err SerInvalidData, Ok (x, []) => zeqb x (@fz toy_field (-1))
  | _, _ => false
  end = true.
Proof. vm_compute. reflexivity. Qed.

(** ** C51: a generated freeze is well formed *)
Theorem C51_freeze_generation (C : CapConfig) (L : CapLaws C) (S : Snark C) r inputs fee pk n sk outs :
    freeze_generate r inputs fee pk = Ok (n, sk, outs) ->
    inputs <> [] /\ (length inputs + 1)%nat = fpk_num_input pk /\
    (* outputs are the inputs with the flag flipped and fresh blinding factors *)
    length outs = length inputs /\
    (forall k i o, nth_error inputs k = Some i -> nth_error outs k = Some o ->
       amount o = amount (zi_ro i) /\ asset_def o = asset_def (zi_ro i) /\ pub_key o = pub_key (zi_ro i) /\
       freeze_flag o = flip (freeze_flag (zi_ro i)) /\ blind o = frd_blinds r k) /\
    (forall i, In i inputs -> asset_def (zi_ro i) <> asset_def_dummy ->
       freezer_pk (policy (asset_def (zi_ro i))) <> pt_id /\ acc_root (zi_acc i) = fa_root (fn_aux n)) /\
    (* the circuit check of the prover: the freezer's key, the records' places *)
    (forall i, In i inputs -> freezer_pub_key (zi_kp i) = freezer_pk (policy (asset_def (zi_ro i)))) /\
    (forall i, In i inputs -> code (asset_def (zi_ro i)) <> dummy_asset_code ->
       merkle_root_of (f_of_u64 (acc_uid (zi_acc i))) (derive_record_commitment (zi_ro i)) (acc_path (zi_acc i)) = fa_root (fn_aux n)) /\
    (* the fee record and the change *)
    asset_def (fi_ro (fee_input fee)) = asset_def_native /\ freeze_flag (fi_ro (fee_input fee)) = Unfrozen /\
    address (pub_key (fi_ro (fee_input fee))) = user_address (fi_kp (fee_input fee)) /\
    zv (fee_amount fee) <= zv (amount (fi_ro (fee_input fee))) /\
    zv (amount (fee_chg_ro fee)) = zv (amount (fi_ro (fee_input fee))) - zv (fee_amount fee) /\
    asset_def (fee_chg_ro fee) = asset_def_native /\ freeze_flag (fee_chg_ro fee) = Unfrozen /\
    pub_key (fee_chg_ro fee) = pub_key (fi_ro (fee_input fee)) /\
    (* the note *)
    fn_nullifiers n = user_nullify (fi_kp (fee_input fee)) pt_id (acc_uid (fi_acc (fee_input fee)))
                                   (derive_record_commitment (fi_ro (fee_input fee)))
      :: map (fun i => freezer_nullify (zi_kp i) (address (pub_key (zi_ro i))) (acc_uid (zi_acc i))
                                       (derive_record_commitment (zi_ro i))) inputs /\
    NoDup (fn_nullifiers n) /\
    fn_commitments n = derive_record_commitment (fee_chg_ro fee) :: map derive_record_commitment outs /\
    fa_root (fn_aux n) = acc_root (fi_acc (fee_input fee)) /\ fa_fee (fn_aux n) = fee_amount fee /\ fa_memo_vk (fn_aux n) = ver_key sk.
Proof. exact (generated_freeze L r inputs fee pk n sk outs). Qed.
Print Assumptions C51_freeze_generation.
Example C51_example :
  match h_freeze true with
  | Ok (n, _, [o1; o2]) => match freeze_flag o1, freeze_flag o2 with Frozen, Frozen => (length (fn_nullifiers n) =? 3)%nat | _, _ => false end
  | _ => false
  end = true.
Proof. vm_compute. reflexivity. Qed.
