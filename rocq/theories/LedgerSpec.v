(** Vocabulary of the properties of ledger histories: what the transactions of a history spend and create, stated on
    openings (the values behind a note, Relation.v), and the absence of hash collisions among the values that occur. *)
From Verif Require Import Base Config Structs Keys Utils Memo Plonk Witness Circuits Relation Snark Notes Serde
  GadgetProofs NoteProofs Accepted Ledger.

Section LedgerSpec.
  Context {C : CapConfig} {S : Snark C} {Z0 : Ser C S}.

  (** ** Openings of notes *)
  Inductive Opening := OpTransfer (t : TransferV) | OpMint (t : MintV) | OpFreeze (t : FreezeV).
  Definition tx_opens (depth : nat) (n : TransactionNote) (o : Opening) : Prop :=
    match n, o with
    | TxTransfer n, OpTransfer t => transfer_opens depth n t
    | TxMint n, OpMint t => mint_opens depth n t
    | TxFreeze n, OpFreeze t => freeze_opens depth n t
    | _, _ => False
    end.
  (** a record being spent: its content, its place in the record tree and the secret used *)
  Record Spend := mkSpend { sp_ro : RoV; sp_place : PlaceV; sp_sk : F }.
  Definition op_inputs (o : Opening) : list Spend :=
    match o with
    | OpTransfer t => map (fun i => mkSpend (in_ro i) (in_place i) (in_sk i)) (tv_ins t)
    | OpMint t => [mkSpend (mv_fee_ro t) (mv_place t) (mv_sk t)]
    | OpFreeze t => mkSpend (fv_fee_ro t) (fv_place t) (fv_sk t) :: map (fun x => mkSpend (fz_in x) (fz_place x) (fz_sk x)) (fv_pairs t)
    end.
  Definition op_outputs (o : Opening) : list RoV :=
    match o with
    | OpTransfer t => tv_outs t
    | OpMint t => [mv_chg t; mv_mint t]
    | OpFreeze t => fv_chg t :: map fz_out (fv_pairs t)
    end.
  (** dummy inputs spend nothing *)
  Definition real (s : Spend) : bool := negb (zeqb (ro_code (sp_ro s)) dummy_asset_code).
  Definition real_inputs (o : Opening) : list Spend := filter real (op_inputs o).

  (** ** What a history spends and creates, under a choice [op] of an opening for each note *)
  Definition spends_of (op : TransactionNote -> Opening) (txns : list TransactionNote) : list Spend :=
    flat_map (fun t => real_inputs (op t)) txns.
  Definition event_records (op : TransactionNote -> Opening) (e : event) : list RoV :=
    match e with
    | EvMint ro => [ro_value ro]
    | EvBlock b _ _ _ => flat_map (fun t => op_outputs (op t)) (bk_txns b) ++
                         match block_fee_record b with Ok ro => [ro_value ro] | _ => [] end
    end.
  (** the records of the tree, in the order of their positions *)
  Definition records (op : TransactionNote -> Opening) (v : Validator) (h : list event) : list RoV :=
    flat_map (event_records op) (effective v (ledger_new (vd_depth v)) h).

  (** ** Hash inputs *)
  Definition hash3 (x : F * F * F) : F := let '(a, b, c) := x in rescue3 a b c.
  Definition node_triple (cur : F) (n : MerklePathNode) : F * F * F :=
    match n_pos n with
    | PLeft => (cur, n_sib1 n, n_sib2 n) | PMiddle => (n_sib1 n, cur, n_sib2 n) | PRight => (n_sib1 n, n_sib2 n, cur)
    end.
  Fixpoint path_triples (cur : F) (path : list MerklePathNode) : list (F * F * F) :=
    match path with [] => [] | n :: p => node_triple cur n :: path_triples (node_hash cur n) p end.
  (** what is hashed when the root is computed from a place *)
  Definition place_hashes (uid elem : F) (path : list MerklePathNode) : list (F * F * F) :=
    (f0, uid, elem) :: path_triples (merkle_leaf uid elem) path.
  (** what is hashed when the value of a subtree is computed *)
  Fixpoint tree_hashes (leaves : list F) (d i : nat) : list (F * F * F) :=
    match d with
    | O => match nth_error leaves i with Some c => [(f0, fz (Z.of_nat i), c)] | None => [] end
    | Datatypes.S d' =>
        if has_leaf leaves d i
        then (subtree leaves d' (3 * i), subtree leaves d' (3 * i + 1), subtree leaves d' (3 * i + 2)) ::
             tree_hashes leaves d' (3 * i) ++ tree_hashes leaves d' (3 * i + 1) ++ tree_hashes leaves d' (3 * i + 2)
        else []
    end.
  (** the inputs of the tree hash in a history: the tree after each insertion, and the path of each spend *)
  Definition history_hashes (depth : nat) (leaves : list F) (sp : list Spend) : list (F * F * F) :=
    flat_map (fun k => tree_hashes (firstn k leaves) depth 0) (seq 0 (Datatypes.S (length leaves))) ++
    flat_map (fun s => place_hashes (pl_uid (sp_place s)) (commitment_of (sp_ro s)) (pl_path (sp_place s))) sp.
  (** no two of these inputs collide and none hashes to the value of an empty subtree *)
  Definition hash_collision_free (l : list (F * F * F)) : Prop :=
    (forall x y, In x l -> In y l -> hash3 x = hash3 y -> x = y) /\ (forall x, In x l -> hash3 x <> f0).
  (** the committed content of a record *)
  Definition content (r : RoV) : list F * F :=
    let p := ro_pol r in
    ([ro_amount r; ro_code r; fst (ro_owner r); snd (ro_owner r);
      fst (po_viewer p); snd (po_viewer p); fst (po_cred p); snd (po_cred p);
      fst (po_freezer p); snd (po_freezer p); fadd (fadd (po_map p) (po_map p)) (ro_flag r); po_threshold p], ro_blind r).
  (** no two of these records have the same commitment and different content *)
  Definition commitment_binding (l : list RoV) : Prop :=
    forall x y, In x l -> In y l -> commitment_of x = commitment_of y -> content x = content y.

  (** ** Supply *)
  (** total amount of asset [c] *)
  Definition total (c : F) (l : list RoV) : Z := fold_right (fun r acc => (if zeqb (ro_code r) c then zv (ro_amount r) else 0) + acc) 0 l.
  (** the records at positions that no spend names *)
  Fixpoint unspent_from (i : nat) (l : list RoV) (sp : list Spend) : list RoV :=
    match l with
    | [] => []
    | r :: rest => (if existsb (fun s => zv (pl_uid (sp_place s)) =? Z.of_nat i) sp then [] else [r]) ++ unspent_from (Datatypes.S i) rest sp
    end.
  Definition unspent (l : list RoV) (sp : list Spend) : list RoV := unspent_from 0 l sp.
  Definition sumz (l : list Z) : Z := fold_right Z.add 0 l.
  (** what an event adds to the supply of [c]: a mint by the test, the amounts mint notes declare *)
  Definition declared_mint (c : F) (t : TransactionNote) : Z :=
    match t with TxMint n => if zeqb (code (mn_def n)) c then zv (mn_amount n) else 0 | _ => 0 end.
  Definition event_mints (c : F) (e : event) : Z :=
    match e with
    | EvMint ro => if zeqb (code (asset_def ro)) c then zv (amount ro) else 0
    | EvBlock b _ _ _ => sumz (map (declared_mint c) (bk_txns b))
    end.
  (** fees of a block whose fee record could not be made (their sum exceeds 2^128) *)
  Definition event_lost_fees (e : event) : Z :=
    match e with
    | EvMint _ => 0
    | EvBlock b _ _ _ => if is_ok (block_fee_record b) then 0 else sumz (map (fun t => zv (tx_fee t)) (bk_txns b))
    end.
  (** the conditions the circuits do not enforce: the transferred inputs have the transferred code, the fee of a mint
      or freeze does not exceed the record it is paid from; and the lists of a note fit in memory *)
  Definition supply_condition (n : TransactionNote) (o : Opening) : Prop :=
    match o with
    | OpTransfer t => (forall i, In i (tl (tv_ins t)) -> ro_code (in_ro i) <> dummy_asset_code -> ro_code (in_ro i) = tv_code t) /\
                      Z.of_nat (length (tv_ins t)) < 2 ^ 64 /\ Z.of_nat (length (tv_outs t)) < 2 ^ 64
    | OpMint t => zv (tx_fee n) <= zv (ro_amount (mv_fee_ro t))
    | OpFreeze t => zv (tx_fee n) <= zv (ro_amount (fv_fee_ro t))
    end.
End LedgerSpec.
