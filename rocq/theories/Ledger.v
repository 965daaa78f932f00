(** Model of the ledger and the validator of the integration test, tests/examples.rs: the record tree, the nullifier
    set and the set of past roots, block validation and block insertion.  It is the protocol the library documents for
    its users, so the properties of whole histories (no record spent twice, supply) are stated about it.

    External and modelled by its documented behaviour: [jf_primitives::merkle_tree] (a ternary tree filled from the
    left; leaf [i] is hashed with its index; a subtree without leaves has value 0; any other inner node is the hash of
    its three children).  The tree is the list of its leaves; its capacity is not modelled (leaves pushed beyond it do
    not occur in the root).  The hash sets are lists used through membership only. *)
From Verif Require Import Base Config Structs Keys Utils Memo Plonk Witness Circuits Snark Notes Serde.

Section Ledger.
  Context {C : CapConfig} {S : Snark C} {Z0 : Ser C S}.

  (** ** The record tree *)
  Definition leaf_value (leaves : list F) (i : nat) : F :=
    match nth_error leaves i with Some c => merkle_leaf (fz (Z.of_nat i)) c | None => f0 end.
  (** does subtree [i] of height [d] contain a leaf? *)
  Definition has_leaf (leaves : list F) (d i : nat) : bool := Z.of_nat i * 3 ^ Z.of_nat d <? Z.of_nat (length leaves).
  (** value of the [i]-th subtree of height [d] *)
  Fixpoint subtree (leaves : list F) (d i : nat) : F :=
    match d with
    | O => leaf_value leaves i
    | Datatypes.S d' =>
        if has_leaf leaves d i
        then rescue3 (subtree leaves d' (3 * i)) (subtree leaves d' (3 * i + 1)) (subtree leaves d' (3 * i + 2))
        else f0
    end.
  (** [mt.commitment().root_value] *)
  Definition tree_root (depth : nat) (leaves : list F) : F := subtree leaves depth 0.

  (** examples.rs 49-53 *)
  Record Ledger := mkLedger { lg_leaves : list F; lg_nullifiers : list F; lg_roots : list F }.

  (** examples.rs 121-123 *)
  Definition store_current_mt_root (depth : nat) (l : Ledger) : Ledger :=
    mkLedger (lg_leaves l) (lg_nullifiers l) (tree_root depth (lg_leaves l) :: lg_roots l).
  (** examples.rs 57-65 *)
  Definition ledger_new (depth : nat) : Ledger := store_current_mt_root depth (mkLedger [] [] []).
  (** examples.rs 111-113, 116-118 *)
  Definition insert_record (l : Ledger) (rc : RecordCommitment) : Ledger :=
    mkLedger (lg_leaves l ++ [rc]) (lg_nullifiers l) (lg_roots l).
  Definition insert_nullifier (l : Ledger) (n : Nullifier) : Ledger :=
    mkLedger (lg_leaves l) (n :: lg_nullifiers l) (lg_roots l).
  (** examples.rs 68-108; the record is any record (the code makes an unfrozen one with a fresh blinding factor) *)
  Definition mock_mint (depth : nat) (l : Ledger) (ro : RecordOpening) : Ledger :=
    store_current_mt_root depth (insert_record l (derive_record_commitment ro)).
  (** examples.rs 126-128, 131-136 *)
  Definition check_nullifier (l : Ledger) (n : Nullifier) : bool := existsb (zeqb n) (lg_nullifiers l).
  Definition check_valid_root (l : Ledger) (r : F) : bool := existsb (zeqb r) (lg_roots l).

  (** examples.rs 139-188, all three with [store_new_mt_root = false], as [insert_block] calls them *)
  Definition insert_transfer_note (l : Ledger) (n : TransferNote) : Ledger :=
    fold_left insert_nullifier (tn_nullifiers n) (fold_left insert_record (tn_commitments n) l).
  Definition insert_mint_note (l : Ledger) (n : MintNote) : Ledger :=
    insert_nullifier (insert_record (insert_record l (mn_chg n)) (mn_mint n)) (mn_nullifier n).
  Definition insert_freeze_note (l : Ledger) (n : FreezeNote) : Ledger :=
    fold_left insert_nullifier (fn_nullifiers n) (fold_left insert_record (fn_commitments n) l).
  (** the match of examples.rs 193-201 *)
  Definition insert_txn (l : Ledger) (t : TransactionNote) : Ledger :=
    match t with
    | TxTransfer n => insert_transfer_note l n
    | TxMint n => insert_mint_note l n
    | TxFreeze n => insert_freeze_note l n
    end.

  (** examples.rs 216-220 *)
  Record Block := mkBlock { bk_txns : list TransactionNote; bk_blind : F; bk_proposer : UserPubKey }.
  (** examples.rs 225-234 *)
  Definition block_fee_record (b : Block) : res RecordOpening :=
    let* total := txns_calculate_fee (bk_txns b) in
    Ok (mkRO total asset_def_native (bk_proposer b) Unfrozen (bk_blind b)).
  (** examples.rs 191-207.  The ledger is returned also on failure: the transactions have then been inserted, but
      neither the fee record nor the new root. *)
  Definition insert_block (depth : nat) (l : Ledger) (b : Block) : Ledger * res unit :=
    let l1 := fold_left insert_txn (bk_txns b) l in
    match block_fee_record b with
    | Ok ro => (store_current_mt_root depth (insert_record l1 (derive_record_commitment ro)), Ok tt)
    | Err e => (l1, Err e)
    | Panic => (l1, Panic)
    end.

  (** examples.rs 238-244.  The cache of verifying keys is left out: [preprocess] is a function, so a cached key is the
      key it would compute again.  [vd_fk] gives the freezer key sampled for the dummy witness of [freeze::preprocess]
      for each number of inputs; [vd_depth] is TREE_DEPTH (26 in the test). *)
  Record Validator := mkValidator { vd_srs : srs; vd_fk : nat -> FreezerKeyPair; vd_depth : nat }.

  Definition unwrap {A} (r : res A) : res A := match r with Ok a => Ok a | _ => Panic end.
  (** examples.rs 427-469 and the match of 385-400: a key for the note's own numbers of inputs and outputs *)
  Definition key_for (v : Validator) (t : TransactionNote) : res TransactionVerifyingKey :=
    match t with
    | TxTransfer n =>
        let* k := unwrap (transfer_preprocess (vd_srs v) (length (tn_nullifiers n)) (length (tn_commitments n)) (vd_depth v)) in
        Ok (VkTransfer (snd k))
    | TxMint _ => let* k := unwrap (mint_preprocess (vd_srs v) (vd_depth v)) in Ok (VkMint (snd k))
    | TxFreeze n =>
        let num := length (fn_nullifiers n) in
        let* k := unwrap (freeze_preprocess (vd_srs v) (vd_fk v num) num (vd_depth v)) in Ok (VkFreeze (snd k))
    end.
  (** examples.rs 473-494; returns the extended set of checked nullifiers.  The [anyhow!] messages of this file are all
      represented by one error. *)
  Definition check_txn_input_nullifiers (l : Ledger) (nls checked : list Nullifier) : res (list Nullifier) :=
    fail_if (existsb (check_nullifier l) nls) FailedTransactionVerification ;;;
    fail_if (negb (all_insert checked nls)) FailedTransactionVerification ;;;
    Ok (nls ++ checked).
  (** the loop of examples.rs 383-415: keys and roots *)
  Fixpoint collect_keys (v : Validator) (l : Ledger) (txns : list TransactionNote) (checked : list Nullifier)
    : res (list TransactionVerifyingKey * list F) :=
    match txns with
    | [] => Ok ([], [])
    | t :: rest =>
        let* k := key_for v t in
        let* checked' := check_txn_input_nullifiers l (tx_nullifiers t) checked in
        fail_if (negb (check_valid_root l (tx_merkle_root t))) FailedTransactionVerification ;;;
        let* (ks, rs) := collect_keys v l rest checked' in
        Ok (k :: ks, tx_merkle_root t :: rs)
    end.
  (** examples.rs 374-425 *)
  Definition validate_txns_batch (v : Validator) (l : Ledger) (txns : list TransactionNote) (ts : u64) : res unit :=
    let* (ks, rs) := collect_keys v l txns [] in txn_batch_verify txns rs ts ks.
  (** examples.rs 274-308 *)
  Definition validate_single_xfr_note (v : Validator) (l : Ledger) (n : TransferNote) (ts : u64) : res unit :=
    let* k := unwrap (transfer_preprocess (vd_srs v) (length (tn_nullifiers n)) (length (tn_commitments n)) (vd_depth v)) in
    check_txn_input_nullifiers l (tn_nullifiers n) [] ;;;
    fail_if (negb (check_valid_root l (ta_root (tn_aux n)))) FailedTransactionVerification ;;;
    transfer_verify n (snd k) (ta_root (tn_aux n)) ts.
  (** derived [CanonicalSerialize] of a block, examples.rs 215-220 *)
  Definition c_block : Codec Block :=
    c_iso (fun b => (bk_txns b, (bk_blind b, bk_proposer b))) (fun x => mkBlock (fst x) (fst (snd x)) (snd (snd x)))
          (c_pair (c_vec c_tx) (c_pair c_f c_userpk)).
  (** examples.rs 349-371 *)
  Definition validate_block (v : Validator) (l : Ledger) (b : Block) (sig : Fj * point) (ts : u64) (proposer : UserPubKey) : res unit :=
    fail_if (negb (user_pub_key_eqb (bk_proposer b) proposer)) FailedTransactionVerification ;;;
    user_verify_sig proposer (enc c_block b) sig ;;;
    validate_txns_batch v l (bk_txns b) ts.
  (** examples.rs 313-345; the randomness is the blinding factor of the fee record *)
  Definition collect_fee_and_build_block (wallet : UserKeyPair) (bl : F) (txns : list TransactionNote)
    : res (RecordOpening * Block * (Fj * point)) :=
    let* total := txns_calculate_fee txns in
    let ro := mkRO total asset_def_native (user_pub_key wallet) Unfrozen bl in
    let b := mkBlock txns bl (user_pub_key wallet) in
    Ok (ro, b, user_sign wallet (enc c_block b)).

  (** ** Histories: the operations of the test on one ledger, in any order.  A block that is not valid is dropped (the
      test then does not insert it). *)
  Inductive event :=
  | EvMint (ro : RecordOpening)
  | EvBlock (b : Block) (sig : Fj * point) (ts : u64) (proposer : UserPubKey).
  Definition valid_b (v : Validator) (l : Ledger) (e : event) : bool :=
    match e with EvMint _ => true | EvBlock b sig ts pk => is_ok (validate_block v l b sig ts pk) end.
  Definition step (v : Validator) (l : Ledger) (e : event) : Ledger :=
    if valid_b v l e then
      match e with EvMint ro => mock_mint (vd_depth v) l ro | EvBlock b _ _ _ => fst (insert_block (vd_depth v) l b) end
    else l.
  Definition ledger_from (v : Validator) (l : Ledger) (h : list event) : Ledger := fold_left (step v) h l.
  Definition ledger_after (v : Validator) (h : list event) : Ledger := ledger_from v (ledger_new (vd_depth v)) h.

  (** the events of a history that took effect *)
  Fixpoint effective (v : Validator) (l : Ledger) (h : list event) : list event :=
    match h with
    | [] => []
    | e :: r => (if valid_b v l e then [e] else []) ++ effective v (step v l e) r
    end.
  Definition event_txns (e : event) : list TransactionNote := match e with EvMint _ => [] | EvBlock b _ _ _ => bk_txns b end.
  (** the notes of all accepted blocks, in order *)
  Definition accepted (v : Validator) (h : list event) : list TransactionNote :=
    flat_map event_txns (effective v (ledger_new (vd_depth v)) h).
End Ledger.
