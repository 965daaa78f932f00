(** Model of the user wallet of the integration test, tests/examples.rs 984-1526 ([SimpleUserWalletMock]): how a wallet
    finds the records paid to it, which ones it considers unspent and how it makes payments with them.

    Hash sets and hash maps are lists in iteration order.  That order is not specified, so [same_records] below relates
    two wallets that differ in it only, and the theorems allow the order to change between any two calls.  The cache of
    proving keys is left out: [preprocess] is a function, so a cached key is the key it would compute again. *)
From Verif Require Import Base Config Structs Keys Utils Memo Plonk Witness Circuits Snark Notes Serde Ledger.
From Coq Require Import Permutation.

(** ** Membership witnesses from the record tree *)
Section TreePath.
  Context {C : CapConfig}.
  (** [jf_primitives::merkle_tree]: the node above the [i]-th subtree of height [k] *)
  Definition path_node (leaves : list F) (k i : nat) : MerklePathNode :=
    let p := (i / 3)%nat in
    match (i mod 3)%nat with
    | 0%nat => mkNode PLeft (subtree leaves k (3 * p + 1)) (subtree leaves k (3 * p + 2))
    | 1%nat => mkNode PMiddle (subtree leaves k (3 * p)) (subtree leaves k (3 * p + 2))
    | _ => mkNode PRight (subtree leaves k (3 * p)) (subtree leaves k (3 * p + 1))
    end.
  (** the path from the [i]-th subtree of height [k], [n] levels up, lowest node first *)
  Fixpoint tree_path (leaves : list F) (k n i : nat) : list MerklePathNode :=
    match n with
    | O => []
    | Datatypes.S n' => path_node leaves k i :: tree_path leaves (Datatypes.S k) n' (i / 3)
    end.
  (** [AccMemberWitness::lookup_from_tree(tree, uid).expect_ok().unwrap().1] (examples.rs 1261-1264 and elsewhere):
      panics if there is no such leaf *)
  Definition lookup_from_tree (depth : nat) (leaves : list F) (uid : u64) : res AccMemberWitness :=
    if zv uid <? Z.of_nat (length leaves)
    then Ok (mkAcc uid (tree_path leaves 0 depth (Z.to_nat (zv uid))) (tree_root depth leaves))
    else Panic.
  (** [AccMemberWitness::dummy(depth)] (external) *)
  Definition acc_dummy (depth : nat) : AccMemberWitness := mkAcc (w64 0) (repeat (mkNode PLeft f0 f0) depth) f0.
End TreePath.

Section Wallet.
  Context {C : CapConfig} {S : Snark C} {K : @RoCodec C} {E : MemoSer C}.

  (** a record and its position in the tree *)
  Definition Owned : Type := RecordOpening * u64.
  (** structs.rs 946-953: derived [PartialEq] *)
  Definition ro_eqb (a b : RecordOpening) : bool :=
    zeqb (amount a) (amount b) && asset_def_eqb (asset_def a) (asset_def b) && user_pub_key_eqb (pub_key a) (pub_key b) &&
    flag_eqb (freeze_flag a) (freeze_flag b) && zeqb (blind a) (blind b).
  Definition owned_eqb (a b : Owned) : bool := ro_eqb (fst a) (fst b) && zeqb (snd a) (snd b).

  (** [HashSet::insert], [HashSet::remove] *)
  Definition set_insert {A} (eqb : A -> A -> bool) (x : A) (l : list A) : list A := if existsb (eqb x) l then l else l ++ [x].
  Definition set_remove {A} (eqb : A -> A -> bool) (x : A) (l : list A) : list A := filter (fun y => negb (eqb x y)) l.
  (** [HashMap::get], [HashMap::insert] and [HashMap::remove] with field elements as keys *)
  Fixpoint map_get {V} (k : F) (m : list (F * V)) : option V :=
    match m with [] => None | (k', v) :: m' => if zeqb k k' then Some v else map_get k m' end.
  Fixpoint map_put {V} (k : F) (v : V) (m : list (F * V)) : list (F * V) :=
    match m with [] => [(k, v)] | (k', v') :: m' => if zeqb k k' then (k, v) :: m' else (k', v') :: map_put k v m' end.
  Definition map_del {V} (k : F) (m : list (F * V)) : list (F * V) := filter (fun kv => negb (zeqb k (fst kv))) m.

  (** examples.rs 989-1006 *)
  Record Wallet := mkWallet {
    w_kp : UserKeyPair;
    w_cred : option ExpirableCredential;
    w_pending : list (Nullifier * Owned);              (* unconfirmed_spent_records *)
    w_unspent : list (AssetCode * list Owned);         (* unspent_records *)
    w_pending_chg : list RecordOpening                 (* unconfirmed_fee_chg_records *)
  }.
  Definition set_pending (w : Wallet) p := mkWallet (w_kp w) (w_cred w) p (w_unspent w) (w_pending_chg w).
  Definition set_unspent (w : Wallet) u := mkWallet (w_kp w) (w_cred w) (w_pending w) u (w_pending_chg w).
  Definition set_chg (w : Wallet) c := mkWallet (w_kp w) (w_cred w) (w_pending w) (w_unspent w) c.

  (** examples.rs 1010-1023 *)
  Definition wallet_new (kp : UserKeyPair) : Wallet := mkWallet kp None [] [] [].
  (** examples.rs 1048-1050 *)
  Definition set_credential (w : Wallet) (c : ExpirableCredential) : Wallet :=
    mkWallet (w_kp w) (Some c) (w_pending w) (w_unspent w) (w_pending_chg w).

  (** examples.rs 1026-1031; [Sum for Amount] adds from 0 with plain additions *)
  Definition available_funds (w : Wallet) (c : AssetCode) : res Amount :=
    match map_get c (w_unspent w) with
    | Some records => fold_left (fun acc x => let* a := acc in amount_add a (amount (fst x))) records (Ok (w128 0))
    | None => Ok (w128 0)
    end.

  (** examples.rs 1039-1045 *)
  Definition add_record_opening (w : Wallet) (ro : RecordOpening) (uid : u64) : Wallet :=
    let c := code (asset_def ro) in
    let bucket := match map_get c (w_unspent w) with Some b => b | None => [] end in
    set_unspent w (map_put c (set_insert owned_eqb (ro, uid) bucket) (w_unspent w)).

  (** the nullifier the wallet computes for one of its records: examples.rs 1253-1257, 1508-1512 and elsewhere *)
  Definition w_nullify (w : Wallet) (x : Owned) : Nullifier :=
    user_nullify (w_kp w) (freezer_pk (policy (asset_def (fst x)))) (snd x) (derive_record_commitment (fst x)).

  (** examples.rs 1480-1487 *)
  Definition mark_unconfirmed_spent (w : Wallet) (n : Nullifier) (x : Owned) : Wallet := set_pending w (map_put n x (w_pending w)).

  (** the loop of examples.rs 1504-1524: in the first bucket with a record of that nullifier, the last such record is
      removed *)
  Fixpoint drop_nullified (w : Wallet) (n : Nullifier) (m : list (AssetCode * list Owned)) : list (AssetCode * list Owned) :=
    match m with
    | [] => []
    | (c, records) :: m' =>
        match find (fun x => zeqb (w_nullify w x) n) (rev records) with
        | Some x => (c, set_remove owned_eqb x records) :: m'
        | None => (c, records) :: drop_nullified w n m'
        end
    end.
  (** examples.rs 1491-1525.  A record that is marked as being spent and whose asset code has no bucket panics. *)
  Definition mark_spent_if_owned (w : Wallet) (n : Nullifier) : res Wallet :=
    let* w1 := match map_get n (w_pending w) with
               | Some x =>
                   match map_get (code (asset_def (fst x))) (w_unspent w) with
                   | None => Panic
                   | Some b => Ok (set_pending (set_unspent w (map_put (code (asset_def (fst x))) (set_remove owned_eqb x b) (w_unspent w)))
                                               (map_del n (w_pending w)))
                   end
               | None => Ok w
               end in
    Ok (set_unspent w1 (drop_nullified w1 n (w_unspent w1))).

  (** the loop of examples.rs 1086-1107 over outputs (without the first) and memos; [off] is the position of the first
      of them; returns the openings found *)
  Fixpoint scan_outputs (w : Wallet) (outs : list RecordCommitment) (memos : list ReceiverMemo) (off : nat)
    : Wallet * list RecordOpening :=
    match outs, memos with
    | rc :: outs', m :: memos' =>
        match receiver_memo_decrypt m (w_kp w) rc [] with
        | Ok ro =>
            let w1 := match freeze_flag ro with Unfrozen => add_record_opening w ro (w64 (Z.of_nat off)) | Frozen => w end in
            let '(w2, l) := scan_outputs w1 outs' memos' (off + 1) in (w2, ro :: l)
        | _ => scan_outputs w outs' memos' (off + 1)
        end
    | _, _ => (w, [])
    end.
  (** examples.rs 1073-1084: a change record of the wallet's own that the transaction confirms *)
  Definition confirm_change (w : Wallet) (rc : RecordCommitment) (off : nat) : Wallet :=
    match find (fun ro => zeqb (derive_record_commitment ro) rc) (w_pending_chg w) with
    | Some ro => add_record_opening (set_chg w (set_remove ro_eqb ro (w_pending_chg w))) ro (w64 (Z.of_nat off))
    | None => w
    end.
  (** examples.rs 1110-1112 *)
  Fixpoint mark_all (w : Wallet) (l : list Nullifier) : res Wallet :=
    match l with [] => Ok w | n :: l' => let* w1 := mark_spent_if_owned w n in mark_all w1 l' end.
  (** examples.rs 1056-1115; [uid_offset] is the number of records before this transaction.  No outputs: the
      subtraction of 1 panics or wraps to a number that no list of memos has. *)
  Definition scan_txn (w : Wallet) (t : TransactionNote) (memos : list ReceiverMemo) (uid_offset : nat)
    : res (Wallet * list RecordOpening) :=
    match tx_output_commitments t with
    | [] => Panic
    | rc0 :: outs =>
        if negb (length outs =? length memos)%nat then Panic else
        let w1 := confirm_change w rc0 uid_offset in
        let '(w2, found) := scan_outputs w1 outs memos (uid_offset + 1) in
        let* w3 := mark_all w2 (tx_nullifiers t) in
        Ok (w3, found)
    end.
  (** examples.rs 1122-1138 *)
  Fixpoint scan_txns (w : Wallet) (txns : list (TransactionNote * list ReceiverMemo)) (uid_offset : nat)
    : res (Wallet * list RecordOpening) :=
    match txns with
    | [] => Ok (w, [])
    | (t, memos) :: rest =>
        let* (w1, l1) := scan_txn w t memos uid_offset in
        let* (w2, l2) := scan_txns w1 rest (uid_offset + tx_output_len t) in
        Ok (w2, l1 ++ l2)
    end.
  Definition scan_block (w : Wallet) (b : Block) (memos : list (list ReceiverMemo)) (uid_offset : nat)
    : res (Wallet * list RecordOpening) :=
    if negb (length (bk_txns b) =? length memos)%nat then Panic else scan_txns w (combine (bk_txns b) memos) uid_offset.

  (** ** Payments *)

  (** examples.rs 1168-1181; the errors of this file are all represented by one *)
  Definition find_record_for_fee (w : Wallet) (fee : Amount) : res Owned :=
    let* l := ok_or (map_get native_asset_code (w_unspent w)) InvalidParameter in
    ok_or (find (fun x => negb (amount_ltb (amount (fst x)) fee)) l) InvalidParameter.
  (** the loop of examples.rs 1199-1210 *)
  Fixpoint take_records (l : list Owned) (current : Amount) (amt : Amount) : res (list Owned * Amount) :=
    match l with
    | [] => Err InvalidParameter
    | x :: l' =>
        let* cur := amount_add current (amount (fst x)) in
        if negb (amount_ltb cur amt) then let* chg := amount_sub cur amt in Ok ([x], chg)
        else let* (r, chg) := take_records l' cur amt in Ok (x :: r, chg)
    end.
  (** examples.rs 1187-1211 *)
  Definition find_records (w : Wallet) (c : AssetCode) (amt : Amount) : res (list Owned * Amount) :=
    let* l := ok_or (map_get c (w_unspent w)) InvalidParameter in take_records l (w128 0) amt.

  (** examples.rs 1227-1229 and 1344-1346: [fold] with plain additions *)
  Definition total_amount (l : list (UserPubKey * Amount)) : res Amount :=
    fold_left (fun acc x => let* a := acc in amount_add a (snd x)) l (Ok (w128 0)).

  (** what a payment samples: the dummy's key pair and blinding factor, one blinding factor and one encryption
      randomness per output, the blinding factor of the fee change (non-native payments), and what note generation
      samples *)
  Record SpendRand := mkSpendRand {
    sr_dummy_kp : UserKeyPair; sr_dummy_blind : F; sr_blind : nat -> F; sr_enc : nat -> aead_rand; sr_fee_blind : F; sr_note : TransferRand
  }.
  (** examples.rs 984: 2^20 - 1 *)
  Definition UNEXPIRED_VALID_UNTIL : u64 := w64 (2 ^ Z.of_nat MAX_TIMESTAMP_LEN - 1).

  (** one record for each receiver: examples.rs 1275-1284, 1409-1418 *)
  Fixpoint payment_outputs (d : AssetDefinition) (bl : nat -> F) (i : nat) (l : list (UserPubKey * Amount)) : list RecordOpening :=
    match l with
    | [] => []
    | (pk, a) :: l' => ro_new (bl i) a d pk Unfrozen :: payment_outputs d bl (i + 1) l'
    end.
  (** examples.rs 1313-1317, 1464-1468: the memos for the receivers *)
  Fixpoint payment_memos (rnd : nat -> aead_rand) (i : nat) (l : list RecordOpening) : res (list ReceiverMemo) :=
    match l with
    | [] => Ok []
    | ro :: l' => let* m := receiver_memo_from_ro (rnd i) ro [] in let* ms := payment_memos rnd (i + 1) l' in Ok (m :: ms)
    end.
  (** examples.rs 1240-1272, 1377-1407: inputs for note generation *)
  Fixpoint payment_inputs (w : Wallet) (depth : nat) (leaves : list F) (dkp : UserKeyPair) (cred : option ExpirableCredential)
      (l : list Owned) : res (list TransferNoteInput) :=
    match l with
    | [] => Ok []
    | (ro, uid) :: l' =>
        let* i := (if ro_is_dummy ro then Ok (mkTIn ro (acc_dummy depth) dkp None)
                   else let* a := lookup_from_tree depth leaves uid in Ok (mkTIn ro a (w_kp w) cred)) in
        let* is := payment_inputs w depth leaves dkp cred l' in Ok (i :: is)
    end.
  (** examples.rs 1253-1259, 1399, 1472-1474 *)
  Definition mark_inputs (w : Wallet) (l : list Owned) : Wallet :=
    fold_left (fun w x => if ro_is_dummy (fst x) then w else mark_unconfirmed_spent w (w_nullify w x) x) l w.

  (** examples.rs 1216-1321.  The wallet is returned also on failure, when its records may have been marked. *)
  Definition spend_native (g : srs) (depth : nat) (w : Wallet) (r : SpendRand) (outs : list (UserPubKey * Amount)) (fee : Amount)
      (leaves : list F) : Wallet * res (TransferNote * list ReceiverMemo * (Fj * point)) :=
    match (let* t := total_amount outs in let* total := amount_add t fee in find_records w native_asset_code total) with
    | Err e => (w, Err e)
    | Panic => (w, Panic)
    | Ok (records, _) =>
        let '(dro, dkp) := ro_dummy (sr_dummy_kp r) (sr_dummy_blind r) Unfrozen in
        let records' := records ++ [(dro, w64 0)] in
        let w1 := mark_inputs w records' in
        match (let* inputs := payment_inputs w depth leaves dkp None records' in
               let outputs := payment_outputs asset_def_native (sr_blind r) 0 outs in
               let* keys := unwrap (transfer_preprocess g (length inputs) (length outputs + 1) depth) in
               let* nkc := transfer_generate_native (sr_note r) inputs outputs fee UNEXPIRED_VALID_UNTIL (fst keys) in
               let '(note, sk, chg) := nkc in
               let* memos := payment_memos (sr_enc r) 0 outputs in
               let* sig := sign_receiver_memos sk memos in
               Ok (note, memos, sig, chg)) with
        | Ok (note, memos, sig, chg) => (set_chg w1 (set_insert ro_eqb chg (w_pending_chg w1)), Ok (note, memos, sig))
        | Err e => (w1, Err e)
        | Panic => (w1, Panic)
        end
    end.

  (** examples.rs 1327-1477.  Marks the fee record before it looks for the records to transfer; the others are marked
      after the note was made. *)
  Definition spend_non_native (g : srs) (depth : nat) (w : Wallet) (r : SpendRand) (d : AssetDefinition)
      (outs : list (UserPubKey * Amount)) (fee : Amount) (leaves : list F)
    : Wallet * res (TransferNote * list ReceiverMemo * (Fj * point)) :=
    if asset_def_eqb d asset_def_native then (w, Panic) else
    match (let* total := total_amount outs in let* fee_rec := find_record_for_fee w fee in Ok (total, fee_rec)) with
    | Err e => (w, Err e)
    | Panic => (w, Panic)
    | Ok (total, fee_rec) =>
        let w1 := mark_unconfirmed_spent w (w_nullify w fee_rec) fee_rec in
        match (let* a := lookup_from_tree depth leaves (snd fee_rec) in
               let* fi := unwrap (txn_fee_info_new (sr_fee_blind r) (mkFeeInput (fst fee_rec) a (w_kp w)) fee) in
               let '(info, fee_chg) := fi in
               let* sel := find_records w (code d) total in
               let '(records, change) := sel in
               let '(dro, dkp) := ro_dummy (sr_dummy_kp r) (sr_dummy_blind r) Unfrozen in
               let* inputs := payment_inputs w depth leaves dkp (w_cred w) (records ++ [(dro, w64 0)]) in
               let outputs := payment_outputs d (sr_blind r) 0
                                (outs ++ if 0 <? zv change then [(user_pub_key (w_kp w), change)] else []) in
               let vu := match w_cred w with None => UNEXPIRED_VALID_UNTIL | Some c => cr_expiry c end in
               let* keys := unwrap (transfer_preprocess g (length inputs + 1) (length outputs + 1) depth) in
               let* nk := transfer_generate_non_native (sr_note r) inputs outputs info vu (fst keys) [] in
               let '(note, sk) := nk in
               let* memos := payment_memos (sr_enc r) 0 outputs in
               let* sig := sign_receiver_memos sk memos in
               Ok (note, memos, sig, records, fee_chg)) with
        | Ok (note, memos, sig, records, fee_chg) =>
            let w2 := mark_inputs w1 records in
            (set_chg w2 (set_insert ro_eqb fee_chg (w_pending_chg w2)), Ok (note, memos, sig))
        | Err e => (w1, Err e)
        | Panic => (w1, Panic)
        end
    end.

  (** ** Iteration order *)

  (** two hash maps of hash sets with the same content *)
  Inductive same_buckets : list (AssetCode * list Owned) -> list (AssetCode * list Owned) -> Prop :=
  | sb_nil : same_buckets [] []
  | sb_cons c l l' m m' : Permutation l l' -> same_buckets m m' -> same_buckets ((c, l) :: m) ((c, l') :: m')
  | sb_swap x y m : same_buckets (x :: y :: m) (y :: x :: m)
  | sb_trans m1 m2 m3 : same_buckets m1 m2 -> same_buckets m2 m3 -> same_buckets m1 m3.
  (** two wallets that differ in iteration order only *)
  Definition same_records (w w' : Wallet) : Prop :=
    w_kp w' = w_kp w /\ w_cred w' = w_cred w /\ Permutation (w_pending w) (w_pending w') /\
    same_buckets (w_unspent w) (w_unspent w') /\ Permutation (w_pending_chg w) (w_pending_chg w').
End Wallet.
