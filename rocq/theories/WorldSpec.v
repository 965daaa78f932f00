(** Vocabulary of the properties of wallets next to the ledger they follow: one step of a wallet and the ledger, runs of
    such steps, and what is assumed of the hash values that occur. *)
From Verif Require Import Base Config Structs Keys Utils Memo Plonk Witness Circuits Relation Snark Notes Serde
  GadgetProofs NoteProofs Accepted Ledger LedgerSpec Wallet WalletSpec.

Section WorldSpec.
  Context {C : CapConfig} {S : Snark C} {Z0 : Ser C S} {K : @RoCodec C} {E : MemoSer C}.

  (** the wallet scans the transactions of a block, whose records enter the tree from position [off] on; [got] are the
      records they pay to it *)
  Inductive scanned : Wallet -> list (TransactionNote * list ReceiverMemo) -> nat -> Wallet -> list Owned -> Prop :=
  | scanned_nil w off : scanned w [] off w []
  | scanned_cons w t memos off w1 found got rest w2 got' :
      scan_txn w t memos off = Ok (w1, found) -> (forall x, In x got <-> paid w t memos off x) ->
      scanned w1 rest (off + length (tx_output_commitments t)) w2 got' ->
      scanned w ((t, memos) :: rest) off w2 (got ++ got').

  (** One step of a wallet and the ledger.  The ledger is given by the history of its events; [se] are the records that
      the wallet was ever given or paid. *)
  Inductive act (v : Validator) : list event -> Wallet -> list Owned -> list event -> Wallet -> list Owned -> Prop :=
  (** hash tables change their order; the wallet gets a credential *)
  | act_order h w w' se : same_records w w' -> act v h w se h w' se
  | act_credential h w se c : act v h w se h (set_credential w c) se
  (** the wallet makes a payment, or the part of a mint or freeze that pays its fee; the transaction may be accepted
      later or not *)
  | act_native h w se g depth r outs fee leaves : act v h w se h (fst (spend_native g depth w r outs fee leaves)) se
  | act_non_native h w se g depth r d outs fee leaves : act v h w se h (fst (spend_non_native g depth w r d outs fee leaves)) se
  | act_mark h w se x : holds w x -> act v h w se h (mark_unconfirmed_spent w (w_nullify w x) x) se
  | act_change h w se ro : asset_def ro = asset_def_native -> pub_key ro = user_pub_key (w_kp w) -> freeze_flag ro = Unfrozen ->
      act v h w se h (set_chg w (set_insert ro_eqb ro (w_pending_chg w))) se
  (** the test mints a record, and may give it to the wallet if it is the wallet's *)
  | act_mint h w se ro : act v h w se (h ++ [EvMint ro]) w se
  | act_mint_own h w se ro : pub_key ro = user_pub_key (w_kp w) -> freeze_flag ro = Unfrozen ->
      let uid := w64 (Z.of_nat (length (lg_leaves (ledger_after v h)))) in
      act v h w se (h ++ [EvMint ro]) (add_record_opening w ro uid) (se ++ [(ro, uid)])
  (** a block is refused *)
  | act_refused h w se b sig ts pk : validate_block v (ledger_after v h) b sig ts pk <> Ok tt -> act v h w se (h ++ [EvBlock b sig ts pk]) w se
  (** a block is accepted and the wallet scans it; its proposer may give itself the fee record, which is the last one *)
  | act_block h w se b sig ts pk fee_ro memos w' got : validate_block v (ledger_after v h) b sig ts pk = Ok tt ->
      block_fee_record b = Ok fee_ro -> length memos = length (bk_txns b) ->
      scanned w (combine (bk_txns b) memos) (length (lg_leaves (ledger_after v h))) w' got ->
      act v h w se (h ++ [EvBlock b sig ts pk]) w' (se ++ got)
  | act_block_fee h w se b sig ts pk fee_ro memos w' got : validate_block v (ledger_after v h) b sig ts pk = Ok tt ->
      block_fee_record b = Ok fee_ro -> length memos = length (bk_txns b) ->
      scanned w (combine (bk_txns b) memos) (length (lg_leaves (ledger_after v h))) w' got ->
      pub_key fee_ro = user_pub_key (w_kp w) ->
      let uid := w64 (Z.of_nat (length (lg_leaves (ledger_after v h)) + length (flat_map tx_output_commitments (bk_txns b)))) in
      act v h w se (h ++ [EvBlock b sig ts pk]) (add_record_opening w' fee_ro uid) ((se ++ got) ++ [(fee_ro, uid)]).

  (** any number of steps *)
  Inductive leads (v : Validator) : list event -> Wallet -> list Owned -> list event -> Wallet -> list Owned -> Prop :=
  | leads_refl h w se : leads v h w se h w se
  | leads_step h w se h1 w1 se1 h2 w2 se2 : leads v h w se h1 w1 se1 -> act v h1 w1 se1 h2 w2 se2 -> leads v h w se h2 w2 se2.
  (** the wallet was new when the ledger was, and has followed its history since *)
  Definition follows (v : Validator) (h : list event) (w : Wallet) (se : list Owned) : Prop :=
    exists kp, leads v [] (wallet_new kp) [] h w se.

  (** ** What is assumed of the values that occur *)

  (** all inputs of the given notes, dummies included *)
  Definition inputs_of (op : TransactionNote -> Opening) (txns : list TransactionNote) : list Spend := flat_map (fun t => op_inputs (op t)) txns.
  (** an input of the nullifier function: the key, the position and the commitment of a record *)
  Definition nullifier3 (x : F * F * F) : F := let '(key, uid, com) := x in nullifier_of key uid com.
  (** what an input of a note may be nullified with: as its owner or as its freezer *)
  Definition spend_triples (s : Spend) : list (F * F * F) :=
    let r := sp_ro s in let uid := pl_uid (sp_place s) in
    [(spending_key (sp_sk s) (po_freezer (ro_pol r)), uid, commitment_of r); (spending_key (sp_sk s) (ro_owner r), uid, commitment_of r)].
  (** what the holder of the key pair would nullify the record at position [i] with *)
  Definition own_triple (kp : UserKeyPair) (i : nat) (r : RoV) : F * F * F :=
    (spending_key (fr_to_fq (addr_sk kp)) (po_freezer (ro_pol r)), fz (Z.of_nat i), commitment_of r).
  Fixpoint own_triples (kp : UserKeyPair) (i : nat) (l : list RoV) : list (F * F * F) :=
    match l with [] => [] | r :: rest => own_triple kp i r :: own_triples kp (Datatypes.S i) rest end.
  (** no two inputs have the same nullifier *)
  Definition nullifier_binding (l : list (F * F * F)) : Prop := forall x y, In x l -> In y l -> nullifier3 x = nullifier3 y -> x = y.

  (** The cryptographic assumptions for the history [h], whose notes open as [op] says, and for wallets with key pairs
      [kps] that were given the records [se]: no hash of the tree, no commitment and no nullifier occurring in them
      collides, and all spends use secrets below the order of the curve group, for owners with a key. *)
  Record collision_free (v : Validator) (op : TransactionNote -> Opening) (h : list event) (kps : list UserKeyPair) (se : list Owned) : Prop := {
    cf_opens : forall t, In t (accepted v h) -> tx_opens (vd_depth v) t (op t);
    cf_depth : (vd_depth v <= 100)%nat;
    cf_size : Z.of_nat (length (lg_leaves (ledger_after v h))) < 2 ^ 64;
    cf_tree : hash_collision_free (history_hashes (vd_depth v) (lg_leaves (ledger_after v h)) (spends_of op (accepted v h)));
    cf_commitments : commitment_binding (records op v h ++ map sp_ro (inputs_of op (accepted v h)) ++ map (fun x => ro_value (fst x)) se);
    cf_nullifiers : nullifier_binding (flat_map spend_triples (inputs_of op (accepted v h)) ++ flat_map (fun kp => own_triples kp 0 (records op v h)) kps);
    cf_secrets : forall s, In s (spends_of op (accepted v h)) -> zv (sp_sk s) < sub_order /\ ro_owner (sp_ro s) <> no_key;
    (** the dummy asset is not handed out *)
    cf_dummy : forall x, In x se -> code (asset_def (fst x)) <> dummy_asset_code
  }.

  (** some accepted note spends the record at the position *)
  Definition spent_at (v : Validator) (op : TransactionNote -> Opening) (h : list event) (uid : u64) : Prop :=
    exists s, In s (spends_of op (accepted v h)) /\ pl_uid (sp_place s) = f_of_u64 uid.
  (** the input of a note that spends record [x] of the wallet: its opening has the content of [x] at the position of [x],
      and the secret used is the wallet's own, or the note is a freeze and the secret is that of the record's freezer *)
  Definition spent_by_key (w : Wallet) (x : Owned) (t : TransactionNote) (s : Spend) : Prop :=
    pl_uid (sp_place s) = f_of_u64 (snd x) /\ content (sp_ro s) = content (ro_value (fst x)) /\
    (sp_sk s = fr_to_fq (addr_sk (w_kp w)) \/
     (exists n, t = TxFreeze n) /\ freezer_pk (policy (asset_def (fst x))) <> pt_id /\
     owns (sp_sk s) (pt_xy (freezer_pk (policy (asset_def (fst x)))))).
End WorldSpec.
