(** Model of src/transfer.rs, src/mint.rs, src/freeze.rs, of the preprocess/prove/verify functions of src/proof/*.rs
    and of src/lib.rs: the three note kinds, their generation and verification, and the functions on
    transaction notes.  All sampled randomness is an explicit argument. *)
From Verif Require Import Base Config Structs Keys Utils Memo Plonk Witness Circuits Snark.

Section Notes.
  Context {C : CapConfig} {S : Snark C}.

  (** ** Transfer *)

  (** proof/transfer.rs 58-118.  [tree_depth] is a u8 in the code; any number here. *)
  Record TransferProvingKey := mkTPK { tpk_key : pkey; tpk_n_in : nat; tpk_n_out : nat; tpk_depth : nat }.
  Record TransferVerifyingKey := mkTVK { tvk_key : vkey; tvk_n_in : nat; tvk_n_out : nat; tvk_depth : nat }.
  (** proof/transfer.rs 124-155 (the number of constraints is not returned) *)
  Definition transfer_preprocess (g : srs) (n_in n_out depth : nat)
    : res (TransferProvingKey * TransferVerifyingKey) :=
    let* s := transfer_build_for_preprocessing n_in n_out depth in
    let* k := map_err (snark_preprocess g s) FailedSnark in
    Ok (mkTPK (fst k) n_in n_out depth, mkTVK (snd k) n_in n_out depth).
  (** proof/transfer.rs 159-188 *)
  Definition transfer_prove (r : prand) (pk : TransferProvingKey) (w : TransferWitness) (p : TransferPublicInput)
      (memo_vk : point) (extra : bytes) : res proof :=
    let* s := map_err (transfer_circuit w p) FailedSnark in
    fail_if (negb (check_circuit_satisfiability s (transfer_to_scalars p))) FailedSnark ;;;
    map_err (snark_prove r s (tpk_key pk) (ser_verkey memo_vk ++ extra)) FailedSnark.
  (** proof/transfer.rs 192-212 *)
  Definition transfer_proof_verify (vk : TransferVerifyingKey) (p : TransferPublicInput) (prf : proof)
      (memo_vk : point) (extra : bytes) : res unit :=
    fail_if (negb (snark_verify (tvk_key vk) (transfer_to_scalars p) prf (ser_verkey memo_vk ++ extra))) FailedSnark.

  (** transfer.rs 78-91 *)
  Record TransferAux := mkTAux {
    ta_root : F; ta_fee : Amount; ta_valid_until : u64; ta_memo_vk : point; ta_extra : bytes }.
  (** transfer.rs 54-66 *)
  Record TransferNote := mkTNote {
    tn_nullifiers : list Nullifier; tn_commitments : list RecordCommitment; tn_proof : proof;
    tn_memo : ViewableMemo; tn_aux : TransferAux }.
  (** randomness of transfer generation: blinding factor of the change record (native only), signing key pair,
      viewing memo encryption, prover *)
  Record TransferRand := mkTRand { tr_chg_blind : F; tr_sig : Fj; tr_enc : Fj; tr_prand : prand }.

  (** transfer.rs 283-338.  The key pair returned with the note is represented by its secret. *)
  Definition transfer_generate (r : TransferRand) (inputs : list TransferNoteInput) (outputs : list RecordOpening)
      (pk : TransferProvingKey) (valid_until : u64) (extra : bytes) : res (TransferNote * Fj) :=
    fail_if ((length inputs =? 0)%nat || (length outputs =? 0)%nat) InvalidParameter ;;;
    let ros := map ti_ro inputs in
    transfer_check_proving_key_consistency (tpk_n_in pk) (tpk_n_out pk) (tpk_depth pk) inputs (length outputs) ;;;
    check_input_pub_keys inputs ;;;
    check_dummy_inputs ros ;;;
    let* fee := check_balance ros outputs in
    check_asset_def ros outputs ;;;
    check_unfrozen ros outputs ;;;
    let* root := check_and_get_roots inputs in
    check_creds inputs valid_until ;;;
    let* w := transfer_new_unchecked (tr_enc r) inputs outputs in
    let* p := transfer_from_witness w valid_until in
    check_distinct_input_nullifiers (tp_nullifiers p) ;;;
    let* prf := transfer_prove (tr_prand r) pk w p (ver_key (tr_sig r)) extra in
    Ok (mkTNote (tp_nullifiers p) (tp_commitments p) prf (tp_memo p)
                (mkTAux root fee valid_until (ver_key (tr_sig r)) extra), tr_sig r).

  (** transfer.rs 147-224 *)
  Definition transfer_generate_native (r : TransferRand) (inputs : list TransferNoteInput)
      (outputs : list RecordOpening) (fee : Amount) (valid_until : u64) (pk : TransferProvingKey)
    : res (TransferNote * Fj * RecordOpening) :=
    match inputs with
    | [] => Panic (* inputs[0] *)
    | i0 :: rest =>
      fail_if (negb (is_native (asset_def (ti_ro i0)))
               || existsb (fun i => negb (ro_is_dummy (ti_ro i) || is_native (asset_def (ti_ro i)))) rest
               || existsb (fun o => negb (is_native (asset_def o))) outputs) InvalidParameter ;;;
      let* total_in := ok_or (safe_sum_amount (map (fun i => amount (ti_ro i))
                                (filter (fun i => negb (ro_is_dummy (ti_ro i))) inputs))) InvalidParameter in
      let* total_out := ok_or (safe_sum_amount (map amount outputs)) InvalidParameter in
      let* need := amount_add total_out fee in
      fail_if (amount_ltb total_in need) InvalidParameter ;;;
      let* d := amount_sub total_in total_out in
      let* chg := amount_sub d fee in
      let chg_ro := ro_new (tr_chg_blind r) chg asset_def_native (pub_key (ti_ro i0)) Unfrozen in
      let* nk := transfer_generate r inputs (chg_ro :: outputs) pk valid_until [] in
      Ok (fst nk, snd nk, chg_ro)
    end.

  (** transfer.rs 244-269 *)
  Definition transfer_generate_non_native (r : TransferRand) (inputs : list TransferNoteInput)
      (outputs : list RecordOpening) (fee : TxnFeeInfo) (valid_until : u64) (pk : TransferProvingKey) (extra : bytes)
    : res (TransferNote * Fj) :=
    check_fee fee ;;;
    transfer_generate r (fee_to_transfer_input (fee_input fee) :: inputs) (fee_chg_ro fee :: outputs) pk valid_until extra.

  (** transfer.rs 370-400 *)
  Definition transfer_check_instance (n : TransferNote) (root : F) (timestamp : u64) : res TransferPublicInput :=
    fail_if (negb (zeqb root (ta_root (tn_aux n)))) FailedTransactionVerification ;;;
    fail_if (zv (ta_valid_until (tn_aux n)) <? zv timestamp) FailedTransactionVerification ;;;
    Ok (mkTPI root native_asset_code (ta_valid_until (tn_aux n)) (ta_fee (tn_aux n)) (tn_nullifiers n)
              (tn_commitments n) (tn_memo n)).
  (** transfer.rs 345-363 *)
  Definition transfer_verify (n : TransferNote) (vk : TransferVerifyingKey) (root : F) (timestamp : u64) : res unit :=
    let* p := transfer_check_instance n root timestamp in
    transfer_proof_verify vk p (tn_proof n) (ta_memo_vk (tn_aux n)) (ta_extra (tn_aux n)).

  (** ** Mint *)

  (** proof/mint.rs 49-63 *)
  Record MintProvingKey := mkMPK { mpk_key : pkey; mpk_depth : nat }.
  Record MintVerifyingKey := mkMVK { mvk_key : vkey; mvk_depth : nat }.
  (** proof/mint.rs 69-93 *)
  Definition mint_preprocess (g : srs) (depth : nat) : res (MintProvingKey * MintVerifyingKey) :=
    let* s := mint_build_for_preprocessing depth in
    let* k := map_err (snark_preprocess g s) FailedSnark in
    Ok (mkMPK (fst k) depth, mkMVK (snd k) depth).
  (** proof/mint.rs 97-120: unlike the two others, does not check the circuit before proving *)
  Definition mint_prove (r : prand) (pk : MintProvingKey) (w : MintWitness) (p : MintPublicInput) (memo_vk : point)
    : res proof :=
    let* s := map_err (mint_circuit w p) FailedSnark in
    map_err (snark_prove r s (mpk_key pk) (ser_verkey memo_vk)) FailedSnark.
  (** proof/mint.rs 124-140 *)
  Definition mint_proof_verify (vk : MintVerifyingKey) (p : MintPublicInput) (prf : proof) (memo_vk : point) : res unit :=
    fail_if (negb (snark_verify (mvk_key vk) (mint_to_scalars p) prf (ser_verkey memo_vk))) FailedSnark.

  (** mint.rs 71-79 *)
  Record MintAux := mkMAux { ma_root : F; ma_fee : Amount; ma_memo_vk : point }.
  (** mint.rs 41-60 *)
  Record MintNote := mkMNote {
    mn_nullifier : Nullifier; mn_chg : RecordCommitment; mn_mint : RecordCommitment; mn_amount : Amount;
    mn_def : AssetDefinition; mn_internal : InternalAssetCode; mn_proof : proof; mn_memo : ViewableMemo;
    mn_aux : MintAux }.
  Record MintRand := mkMRand { mrd_sig : Fj; mrd_enc : Fj; mrd_prand : prand }.

  (** mint.rs 90-152 *)
  Definition mint_generate (r : MintRand) (mint_ro : RecordOpening) (seed : AssetCodeSeed) (description : bytes)
      (fee : TxnFeeInfo) (pk : MintProvingKey) : res (MintNote * Fj) :=
    let acc := fi_acc (fee_input fee) in
    let kp := fi_kp (fee_input fee) in
    let digest := digest_from_description description in
    mint_check_proving_key_consistency (mpk_depth pk) acc ;;;
    mint_check_input_pub_key (fi_ro (fee_input fee)) kp ;;;
    check_mint_asset_code mint_ro seed digest ;;;
    check_fee fee ;;;
    check_unfrozen [fi_ro (fee_input fee)] [fee_chg_ro fee; mint_ro] ;;;
    let w := mkMW kp acc (fi_ro (fee_input fee)) mint_ro (fee_chg_ro fee) seed digest (mrd_enc r) in
    let* p := mint_from_witness w in
    let* prf := mint_prove (mrd_prand r) pk w p (ver_key (mrd_sig r)) in
    Ok (mkMNote (mp_nullifier p) (mp_chg_rc p) (mp_mint_rc p) (amount mint_ro) (asset_def mint_ro)
                (internal_new seed description) prf (mp_memo p)
                (mkMAux (acc_root acc) (fee_amount fee) (ver_key (mrd_sig r))), mrd_sig r).

  (** mint.rs 175-198 *)
  Definition mint_check_instance (n : MintNote) (root : F) : res MintPublicInput :=
    fail_if (negb (zeqb root (ma_root (mn_aux n)))) FailedTransactionVerification ;;;
    Ok (mkMPI root native_asset_code (mn_nullifier n) (ma_fee (mn_aux n)) (mn_mint n) (mn_chg n) (mn_amount n)
              (code (mn_def n)) (mn_internal n) (policy (mn_def n)) (mn_memo n)).
  (** mint.rs 155-170 *)
  Definition mint_verify (n : MintNote) (vk : MintVerifyingKey) (root : F) : res unit :=
    let* p := mint_check_instance n root in
    verify_domestic (code (mn_def n)) (mn_internal n) ;;;
    mint_proof_verify vk p (mn_proof n) (ma_memo_vk (mn_aux n)).

  (** ** Freeze *)

  (** proof/freeze.rs 48-88 *)
  Record FreezeProvingKey := mkFPK { fpk_key : pkey; fpk_depth : nat; fpk_num_input : nat }.
  Record FreezeVerifyingKey := mkFVK { fvk_key : vkey; fvk_depth : nat; fvk_num_input : nat }.
  (** proof/freeze.rs 93-121; [fk] is the freezer key the dummy witness samples *)
  Definition freeze_preprocess (g : srs) (fk : FreezerKeyPair) (num_input depth : nat)
    : res (FreezeProvingKey * FreezeVerifyingKey) :=
    let* s := freeze_build_for_preprocessing fk depth num_input in
    let* k := map_err (snark_preprocess g s) FailedSnark in
    Ok (mkFPK (fst k) depth num_input, mkFVK (snd k) depth num_input).
  (** proof/freeze.rs 125-158 *)
  Definition freeze_prove (r : prand) (pk : FreezeProvingKey) (w : FreezeWitness) (p : FreezePublicInput)
      (memo_vk : point) : res proof :=
    let* s := map_err (freeze_circuit w p) FailedSnark in
    fail_if (negb (check_circuit_satisfiability s (freeze_to_scalars p))) FailedSnark ;;;
    map_err (snark_prove r s (fpk_key pk) (ser_verkey memo_vk)) FailedSnark.
  (** proof/freeze.rs 162-178 *)
  Definition freeze_proof_verify (vk : FreezeVerifyingKey) (p : FreezePublicInput) (prf : proof) (memo_vk : point)
    : res unit :=
    fail_if (negb (snark_verify (fvk_key vk) (freeze_to_scalars p) prf (ser_verkey memo_vk))) FailedSnark.

  (** freeze.rs 61-69 *)
  Record FreezeAux := mkFAux { fa_root : F; fa_fee : Amount; fa_memo_vk : point }.
  (** freeze.rs 41-50 *)
  Record FreezeNote := mkFNote {
    fn_nullifiers : list Nullifier; fn_commitments : list RecordCommitment; fn_proof : proof; fn_aux : FreezeAux }.
  Record FreezeRand := mkFRand { frd_blinds : nat -> F; frd_sig : Fj; frd_prand : prand }.

  (** freeze.rs 97-156.  The path length is truncated to a u8 before it is compared with the key's depth. *)
  Definition freeze_generate (r : FreezeRand) (inputs : list FreezeNoteInput) (fee : TxnFeeInfo)
      (pk : FreezeProvingKey) : res (FreezeNote * Fj * list RecordOpening) :=
    check_inputs_len (length inputs) ;;;
    freeze_check_proving_key_consistency (fpk_num_input pk) (Z.of_nat (fpk_depth pk)) (length inputs + 1)
      (Z.of_nat (length (acc_path (fi_acc (fee_input fee)))) mod 256) ;;;
    let* root := freeze_check_and_get_root (fee_input fee) inputs in
    check_freezing_policies_are_not_dummy inputs ;;;
    check_fee fee ;;;
    let outs := freeze_get_output_ros (frd_blinds r) inputs in
    let w := freeze_new_unchecked inputs outs fee in
    let* p := freeze_from_witness w in
    check_distinct_input_nullifiers (fp_nullifiers p) ;;;
    let* prf := freeze_prove (frd_prand r) pk w p (ver_key (frd_sig r)) in
    Ok (mkFNote (fp_nullifiers p) (fp_commitments p) prf (mkFAux root (fee_amount fee) (ver_key (frd_sig r))),
        frd_sig r, outs).

  (** freeze.rs 180-198 *)
  Definition freeze_check_instance (n : FreezeNote) (root : F) : res FreezePublicInput :=
    fail_if (negb (zeqb root (fa_root (fn_aux n)))) FailedTransactionVerification ;;;
    Ok (mkFPI root native_asset_code (fa_fee (fn_aux n)) (fn_nullifiers n) (fn_commitments n)).
  (** freeze.rs 163-175 *)
  Definition freeze_verify (n : FreezeNote) (vk : FreezeVerifyingKey) (root : F) : res unit :=
    let* p := freeze_check_instance n root in
    freeze_proof_verify vk p (fn_proof n) (fa_memo_vk (fn_aux n)).

  (** ** Transaction notes (lib.rs) *)

  (** lib.rs 206-213 *)
  Inductive TransactionNote := TxTransfer (n : TransferNote) | TxMint (n : MintNote) | TxFreeze (n : FreezeNote).
  (** lib.rs 376-383 *)
  Inductive TransactionVerifyingKey :=
  | VkTransfer (k : TransferVerifyingKey) | VkMint (k : MintVerifyingKey) | VkFreeze (k : FreezeVerifyingKey).

  (** lib.rs 281-287 *)
  Definition tx_nullifiers (t : TransactionNote) : list Nullifier :=
    match t with TxTransfer n => tn_nullifiers n | TxMint n => [mn_nullifier n] | TxFreeze n => fn_nullifiers n end.
  (** lib.rs 289-295 *)
  Definition tx_output_commitments (t : TransactionNote) : list RecordCommitment :=
    match t with TxTransfer n => tn_commitments n | TxMint n => [mn_chg n; mn_mint n] | TxFreeze n => fn_commitments n end.
  (** lib.rs 297-303 *)
  Definition tx_output_len (t : TransactionNote) : nat :=
    match t with TxTransfer n => length (tn_commitments n) | TxMint _ => 2 | TxFreeze n => length (fn_commitments n) end.
  (** lib.rs 306-312 *)
  Definition tx_merkle_root (t : TransactionNote) : F :=
    match t with TxTransfer n => ta_root (tn_aux n) | TxMint n => ma_root (mn_aux n) | TxFreeze n => fa_root (fn_aux n) end.
  (** lib.rs 331-337 *)
  Definition tx_proof (t : TransactionNote) : proof :=
    match t with TxTransfer n => tn_proof n | TxMint n => mn_proof n | TxFreeze n => fn_proof n end.
  (** lib.rs 345-351 *)
  Definition tx_memo_vk (t : TransactionNote) : point :=
    match t with
    | TxTransfer n => ta_memo_vk (tn_aux n) | TxMint n => ma_memo_vk (mn_aux n) | TxFreeze n => fa_memo_vk (fn_aux n)
    end.
  (** the match of lib.rs 578-582 *)
  Definition tx_fee (t : TransactionNote) : Amount :=
    match t with TxTransfer n => ta_fee (tn_aux n) | TxMint n => ma_fee (mn_aux n) | TxFreeze n => fa_fee (fn_aux n) end.
  (** lib.rs 575-586 *)
  Definition txns_calculate_fee (txns : list TransactionNote) : res Amount := calculate_fee (map tx_fee txns).

  (** lib.rs 442-448 *)
  Definition get_key_ref (k : TransactionVerifyingKey) : vkey :=
    match k with VkTransfer k => tvk_key k | VkMint k => mvk_key k | VkFreeze k => fvk_key k end.

  (** lib.rs 468-485 *)
  Definition batch_public_input (txn : TransactionNote) (root : F) (timestamp : u64) : res (list F) :=
    match txn with
    | TxTransfer n => let* p := transfer_check_instance n root timestamp in Ok (transfer_to_scalars p)
    | TxMint n => let* p := mint_check_instance n root in Ok (mint_to_scalars p)
    | TxFreeze n => let* p := freeze_check_instance n root in Ok (freeze_to_scalars p)
    end.
  (** lib.rs 498-514 *)
  Definition batch_message (txn : TransactionNote) : bytes :=
    ser_verkey (tx_memo_vk txn) ++ match txn with TxTransfer n => ta_extra (tn_aux n) | _ => [] end.
  (** lib.rs 455-529 *)
  Definition txn_batch_verify (txns : list TransactionNote) (roots : list F) (timestamp : u64)
      (keys : list TransactionVerifyingKey) : res unit :=
    fail_if (negb (length txns =? length keys)%nat || negb (length txns =? length roots)%nat) InvalidParameter ;;;
    let* pubs := mapM (fun tr => batch_public_input (fst tr) (snd tr) timestamp) (combine txns roots) in
    fail_if (negb (snark_batch_verify
                     (combine (combine (combine (map get_key_ref keys) pubs) (map tx_proof txns))
                              (map batch_message txns)))) FailedSnark.

  (** The verification of one note with a key of its own kind (the integration test, tests/examples.rs 285-309,
      dispatches in this way); a key of another kind is refused. *)
  Definition tx_verify (t : TransactionNote) (k : TransactionVerifyingKey) (root : F) (timestamp : u64) : res unit :=
    match t, k with
    | TxTransfer n, VkTransfer k => transfer_verify n k root timestamp
    | TxMint n, VkMint k => mint_verify n k root
    | TxFreeze n, VkFreeze k => freeze_verify n k root
    | _, _ => Err InvalidParameter
    end.

  (** lib.rs 540-572 *)
  Definition derive_txns_fee_records (collectors : list UserPubKey) (fees : list Amount) (blinds : list F)
    : res (list RecordCommitment) :=
    fail_if (length fees =? 0)%nat InvalidParameter ;;;
    fail_if (negb (length fees =? length collectors)%nat || negb (length fees =? length blinds)%nat) InvalidParameter ;;;
    Ok (map (fun x => derive_record_commitment
                        (mkRO (fst x) asset_def_native (fst (snd x)) Unfrozen (snd (snd x))))
            (combine fees (combine collectors blinds))).
End Notes.

(** ** Receiver memo signatures *)

(** [CanonicalSerialize] of an authenticated ciphertext (external): self-delimiting, so that what follows an encoding
    does not matter.  A class field, not an axiom. *)
Class MemoSer {C : CapConfig} := { memo_ser : aead_ctxt -> bytes }.
Arguments MemoSer C : clear implicits.
Record MemoSerLaws {C : CapConfig} (E : MemoSer C) : Prop := {
  memo_ser_prefix_free : forall a b s t, memo_ser a ++ s = memo_ser b ++ t -> a = b /\ s = t;
  memo_ser_nonempty : forall a, memo_ser a <> []
}.
Arguments MemoSerLaws {C} E.

Section MemoSig.
  Context {C : CapConfig} {S : Snark C} {E : MemoSer C}.
  (** utils/mod.rs 778-793 *)
  Definition memos_bytes (l : list ReceiverMemo) : bytes := fold_left (fun acc m => acc ++ memo_ser m) l [].
  Definition get_receiver_memos_digest (l : list ReceiverMemo) : res F :=
    fail_if (length l =? 0)%nat InternalError ;;;
    Ok (hash_to_f (memos_bytes l)).
  (** lib.rs 589-598 *)
  Definition sign_receiver_memos (sk : Fj) (l : list ReceiverMemo) : res (Fj * point) :=
    let* d := get_receiver_memos_digest l in Ok (sig_sign sk [d]).
  (** lib.rs 315-328 *)
  Definition verify_receiver_memos_signature (t : TransactionNote) (l : list ReceiverMemo) (sg : Fj * point) : res unit :=
    let* d := get_receiver_memos_digest l in
    fail_if (negb (sig_ok (tx_memo_vk t) [d] sg)) FailedReceiverMemoSignature.
End MemoSig.
