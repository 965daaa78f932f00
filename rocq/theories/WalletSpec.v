(** Vocabulary of the wallet properties: what a wallet holds, what a transaction pays to it, and histories of wallet
    calls next to the growing record tree. *)
From Verif Require Import Base Config Structs Keys Utils Memo Plonk Witness Circuits Snark Notes Serde Ledger Wallet.
From Coq Require Import Permutation.

Section WalletSpec.
  Context {C : CapConfig} {S : Snark C} {K : @RoCodec C} {E : MemoSer C}.

  (** the record [x] is among the records that the wallet considers unspent *)
  Definition holds (w : Wallet) (x : Owned) : Prop := exists c records, In (c, records) (w_unspent w) /\ In x records.
  (** total amount of asset [c] *)
  Definition total_of (c : AssetCode) (l : list Owned) : Z :=
    fold_right (fun x acc => (if zeqb (code (asset_def (fst x))) c then zv (amount (fst x)) else 0) + acc) 0 l.
  (** all records the wallet considers unspent *)
  Definition held (w : Wallet) : list Owned := flat_map snd (w_unspent w).

  (** the transaction, when it creates records from position [off] of the tree on, pays record [x] to the wallet: a
      receiver memo opens to an unfrozen record at its position, or the first output is a change record that the
      wallet is waiting for *)
  Definition paid (w : Wallet) (t : TransactionNote) (memos : list ReceiverMemo) (off : nat) (x : Owned) : Prop :=
    (exists i rc m, nth_error (tx_output_commitments t) (Datatypes.S i) = Some rc /\ nth_error memos i = Some m /\
       receiver_memo_decrypt m (w_kp w) rc [] = Ok (fst x) /\ freeze_flag (fst x) = Unfrozen /\
       snd x = w64 (Z.of_nat (off + 1 + i))) \/
    (In (fst x) (w_pending_chg w) /\ nth_error (tx_output_commitments t) 0 = Some (derive_record_commitment (fst x)) /\
     snd x = w64 (Z.of_nat off)).

  (** the transactions, when they create records from position [off] of the tree on, have a memo that opens with the key
      pair to the unfrozen record [x] at its position *)
  Fixpoint opens (kp : UserKeyPair) (txns : list (TransactionNote * list ReceiverMemo)) (off : nat) (x : Owned) : Prop :=
    match txns with
    | [] => False
    | (t, memos) :: rest =>
        (exists i rc m, nth_error (tx_output_commitments t) (Datatypes.S i) = Some rc /\ nth_error memos i = Some m /\
           receiver_memo_decrypt m kp rc [] = Ok (fst x) /\ freeze_flag (fst x) = Unfrozen /\
           snd x = w64 (Z.of_nat (off + 1 + i))) \/
        opens kp rest (off + length (tx_output_commitments t)) x
    end.

  (** Histories of a wallet.  [runs w leaves seen shown]: the wallet can be in state [w] when the leaves of the record
      tree are [leaves]; [seen] are the records it was ever given or paid; [shown] are the nullifiers of the scanned
      transactions, each with the size of the tree after its transaction. *)
  Inductive runs : Wallet -> list F -> list Owned -> list (Nullifier * nat) -> Prop :=
  | run_new kp : runs (wallet_new kp) [] [] []
  (** hash tables change their order *)
  | run_order w w' lv se sh : runs w lv se sh -> same_records w w' -> runs w' lv se sh
  | run_credential w lv se sh c : runs w lv se sh -> runs (set_credential w c) lv se sh
  (** a record enters the tree that is not given to the wallet *)
  | run_other w lv se sh rc : runs w lv se sh -> runs w (lv ++ [rc]) se sh
  (** a record of the wallet enters the tree and is given to it: minted by the test, or the fee of its block *)
  | run_own w lv se sh ro : runs w lv se sh -> pub_key ro = user_pub_key (w_kp w) -> freeze_flag ro = Unfrozen ->
      runs (add_record_opening w ro (w64 (Z.of_nat (length lv)))) (lv ++ [derive_record_commitment ro])
           (se ++ [(ro, w64 (Z.of_nat (length lv)))]) sh
  (** the records of a transaction enter the tree and the wallet scans it *)
  | run_scan w lv se sh t memos w' found se' : runs w lv se sh -> scan_txn w t memos (length lv) = Ok (w', found) ->
      (forall x, In x se' <-> In x se \/ paid w t memos (length lv) x) ->
      runs w' (lv ++ tx_output_commitments t) se'
           (sh ++ map (fun n => (n, (length lv + length (tx_output_commitments t))%nat)) (tx_nullifiers t))
  (** parts of a mint or a freeze whose fee the wallet pays (examples.rs 1590-1626, 876-981): one of its records is
      marked, the change of the fee is noted *)
  | run_mark w lv se sh x : runs w lv se sh -> holds w x -> runs (mark_unconfirmed_spent w (w_nullify w x) x) lv se sh
  | run_change w lv se sh ro : runs w lv se sh -> asset_def ro = asset_def_native -> pub_key ro = user_pub_key (w_kp w) ->
      freeze_flag ro = Unfrozen -> runs (set_chg w (set_insert ro_eqb ro (w_pending_chg w))) lv se sh
  (** the wallet makes a payment (successfully or not); the transaction may or may not be accepted later *)
  | run_native w lv se sh g depth r outs fee leaves : runs w lv se sh -> runs (fst (spend_native g depth w r outs fee leaves)) lv se sh
  | run_non_native w lv se sh g depth r d outs fee leaves : runs w lv se sh ->
      runs (fst (spend_non_native g depth w r d outs fee leaves)) lv se sh.

  (** no two records of the wallet have the same nullifier *)
  Definition distinct_nullifiers (w : Wallet) (se : list Owned) : Prop :=
    forall x y, In x se -> In y se -> w_nullify w x = w_nullify w y -> x = y.
  (** no transaction shows the nullifier of a record that is created after it *)
  Definition nullified_after_creation (w : Wallet) (se : list Owned) (sh : list (Nullifier * nat)) : Prop :=
    forall x k, In x se -> In (w_nullify w x, k) sh -> zv (snd x) < Z.of_nat k.
  (** the wallet has scanned all transactions of the ledger and no others *)
  Definition in_step (w : Wallet) (l : Ledger) (se : list Owned) (sh : list (Nullifier * nat)) : Prop :=
    runs w (lg_leaves l) se sh /\ forall n, In n (lg_nullifiers l) <-> exists k, In (n, k) sh.
  (** tree positions are 64-bit numbers, and nullifiers tell the wallet's records apart *)
  Definition ordinary (w : Wallet) (leaves : list F) (se : list Owned) (sh : list (Nullifier * nat)) : Prop :=
    Z.of_nat (length leaves) < 2 ^ 64 /\ distinct_nullifiers w se /\ nullified_after_creation w se sh.
End WalletSpec.

Section PaySpec.
  Context {C : CapConfig} {S : Snark C} {K : @RoCodec C} {E : MemoSer C}.
  (** the sum of what a payment gives to its receivers *)
  Definition paid_sum (outs : list (UserPubKey * Amount)) : Z := fold_right (fun x acc => zv (snd x) + acc) 0 outs.
  (** the record that the payment makes for its [i]th receiver *)
  Definition receiver_record (d : AssetDefinition) (r : SpendRand) (i : nat) (pk : UserPubKey) (a : Amount) : RecordOpening :=
    mkRO a d pk Unfrozen (sr_blind r i).
  (** the nullifier of the dummy input that the wallet adds to its payments *)
  Definition dummy_nullifier (r : SpendRand) : Nullifier :=
    user_nullify (sr_dummy_kp r) pt_id (w64 0)
      (derive_record_commitment (mkRO (w128 0) asset_def_dummy (user_pub_key (sr_dummy_kp r)) Unfrozen (sr_dummy_blind r))).
  (** the expiry of the wallet's payments in other assets: that of its credential, if it has one *)
  Definition payment_expiry (w : Wallet) : u64 := match w_cred w with None => UNEXPIRED_VALID_UNTIL | Some c => cr_expiry c end.
  (** the openings that the memos, next to the commitments [outs], give to the holder of the key pair *)
  Definition opened (kp : UserKeyPair) (outs : list RecordCommitment) (memos : list ReceiverMemo) : list RecordOpening :=
    flat_map (fun p => match receiver_memo_decrypt (snd p) kp (fst p) [] with Ok ro => [ro] | _ => [] end) (combine outs memos).
  (** the amount of asset [c] in the unfrozen ones of the given openings *)
  Definition received (c : AssetCode) (l : list RecordOpening) : Z :=
    fold_right (fun ro acc => (if flag_eqb (freeze_flag ro) Unfrozen && zeqb (code (asset_def ro)) c then zv (amount ro) else 0) + acc) 0 l.
  (** what the memos for the first [k] receivers of a payment give to the wallet itself *)
  Definition paid_to_self (w : Wallet) (n : TransferNote) (memos : list ReceiverMemo) (k : nat) (c : AssetCode) : Z :=
    received c (opened (w_kp w) (firstn k (tl (tn_commitments n))) (firstn k memos)).
End PaySpec.
