(** Vocabulary of the freezer properties: what a freezer lists, and histories of a freezer next to the record tree. *)
From Verif Require Import Base Config Structs Keys Utils Memo Plonk Witness Circuits Relation GadgetProofs Snark Notes Security Accepted Serde Ledger Wallet WalletSpec Roles RolesSpec.
From Coq Require Import Permutation.

Section FreezerSpec.
  Context {C : CapConfig} {S : Snark C} {K : @RoCodec C} {E : MemoSer C}.

  (** the nullifier that the freezer computes for a record *)
  Definition fnull (f : Freezer) (x : Owned) : Nullifier :=
    freezer_nullify (fm_kp f) (address (pub_key (fst x))) (snd x) (derive_record_commitment (fst x)).
  (** the book [m] lists the record [x] under the address [a] *)
  Definition listed (m : list (point * list Owned)) (a : point) (x : Owned) : Prop := exists b, amap_get a m = Some b /\ In x b.
  (** the asset of the freezer *)
  Definition fm_def (f : Freezer) : AssetDefinition := vw_def (fm_viewer f).
  (** the freezer waits for [x] to be replaced by [new] *)
  Definition becomes (f : Freezer) (x : Owned) (new : RecordOpening) : Prop :=
    In (fnull f x, (address (pub_key (fst x)), x, new)) (match freeze_flag (fst x) with Unfrozen => fm_freezing f | Frozen => fm_releasing f end).

  (** a transfer of the freezer's asset that moves something, with its opening *)
  Record own_transfer (f : Freezer) (depth : nat) (n : TransferNote) (t : TransferV) : Prop := {
    ot_opens : transfer_opens depth n t;
    ot_code : tv_code t = code (fm_def f);
    ot_policy : tv_pol t = pol_value (policy (fm_def f));
    ot_amounts : Forall (fun i => zv (ro_amount (in_ro i)) < 2 ^ 128) (tl (tv_ins t));
    ot_moves : 0 < isum (tl (in_amounts t));
    ot_size : Z.of_nat (1 + 12 * length (tn_nullifiers n) + 4 * length (tn_commitments n)) < 2 ^ 64;
    ot_owners : forall o, In o (tl (tv_outs t)) -> exists P, ro_owner o = pt_xy P
  }.
  (** a mint of the freezer's asset, with its opening *)
  Record own_mint (f : Freezer) (depth : nat) (n : MintNote) (t : MintV) : Prop := {
    om_opens : mint_opens depth n t;
    om_def : mn_def n = fm_def f;
    om_owner : exists P, ro_owner (mv_mint t) = pt_xy P /\ P <> pt_id
  }.
  (** the freezer knows the key of every owner *)
  Definition knows_owners (f : Freezer) (vals : list RoV) : Prop :=
    forall o P, In o vals -> ro_owner o = pt_xy P -> exists k, amap_get P (fm_users f) = Some k.
  (** [x] is one of the records [vals] that a transaction creates after its fee change; its key is the one registered for
      the owner's address *)
  Definition made (f : Freezer) (vals : list RoV) (off : nat) (x : Owned) : Prop :=
    exists i, nth_error vals i = Some (ro_value (fst x)) /\ asset_def (fst x) = fm_def f /\
      amap_get (address (pub_key (fst x))) (fm_users f) = Some (pub_key (fst x)) /\ snd x = w64 (Z.of_nat (off + 1 + i)).
  (** the freeze note replaces record [y] by [x] as the freezer expects *)
  Definition replaced (f : Freezer) (n : FreezeNote) (off : nat) (y x : Owned) : Prop :=
    exists i, nth_error (fn_nullifiers n) (Datatypes.S i) = Some (fnull f y) /\ becomes f y (fst x) /\ snd x = w64 (Z.of_nat (off + 1 + i)).
  (** every record of [se] that the freeze note replaces is replaced by what the freezer waits for *)
  Definition as_expected (f : Freezer) (n : FreezeNote) (se : list Owned) : Prop :=
    NoDup (fn_nullifiers n) /\ length (fn_nullifiers n) = length (fn_commitments n) /\
    forall y i, In y se -> nth_error (fn_nullifiers n) (Datatypes.S i) = Some (fnull f y) ->
      exists new, becomes f y new /\ nth_error (fn_commitments n) (Datatypes.S i) = Some (derive_record_commitment new).

  Definition shown_by (t : TransactionNote) (off : nat) : list (Nullifier * nat) :=
    map (fun n => (n, (off + length (tx_output_commitments t))%nat)) (tx_nullifiers t).

  (** Histories of a freezer.  [fruns g depth f leaves ws se sh fz]: the freezer can be in state [f] when the leaves of the
      record tree are [leaves].  [ws] and [sh] belong to its wallet, as in [runs].  [se] are all records of the freezer's
      asset, and [fz] are the nullifiers of what freeze notes replace, each with the size of the tree before its note. *)
  Inductive fruns (g : srs) (depth : nat) :
    Freezer -> list F -> list Owned -> list Owned -> list (Nullifier * nat) -> list (Nullifier * nat) -> Prop :=
  | fru_new kp vkp ukp c f : freezer_new kp vkp ukp c = Ok f -> fruns g depth f [] [] [] [] []
  (** hash tables change their order *)
  | fru_order f f' lv ws se sh fz : fruns g depth f lv ws se sh fz -> same_freezer f f' -> fruns g depth f' lv ws se sh fz
  | fru_user f lv ws se sh fz k : fruns g depth f lv ws se sh fz -> fruns g depth (add_user_key f k) lv ws se sh fz
  (** a record enters the tree without a transaction: not of the freezer's asset, not given to its wallet *)
  | fru_other f lv ws se sh fz rc : fruns g depth f lv ws se sh fz -> fruns g depth f (lv ++ [rc]) ws se sh fz
  (** a record enters the tree and is given to the freezer's wallet *)
  | fru_own f lv ws se sh fz ro : fruns g depth f lv ws se sh fz -> pub_key ro = user_pub_key (w_kp (fm_wallet f)) -> freeze_flag ro = Unfrozen ->
      fruns g depth (fm_set_wallet f (add_record_opening (fm_wallet f) ro (w64 (Z.of_nat (length lv))))) (lv ++ [derive_record_commitment ro])
            (ws ++ [(ro, w64 (Z.of_nat (length lv)))]) se sh fz
  (** records of a user are frozen or released, or the attempt fails; the transaction may or may not be accepted later *)
  | fru_call f lv ws se sh fz r user fee leaves freeze : fruns g depth f lv ws se sh fz ->
      fruns g depth (fst (freeze_user_internal g depth f r user fee leaves freeze)) lv ws se sh fz
  (** transactions are scanned *)
  | fru_transfer f lv ws se sh fz n t memos f' ws' se' : fruns g depth f lv ws se sh fz -> own_transfer f depth n t ->
      freezer_scan_txn f (TxTransfer n) memos (length lv) = Ok f' ->
      (forall x, In x ws' <-> In x ws \/ paid (fm_wallet f) (TxTransfer n) memos (length lv) x) ->
      (forall x, In x se' <-> In x se \/ made f (tl (tv_outs t)) (length lv) x) ->
      fruns g depth f' (lv ++ tn_commitments n) ws' se' (sh ++ shown_by (TxTransfer n) (length lv)) fz
  | fru_mint f lv ws se sh fz n t memos f' ws' se' : fruns g depth f lv ws se sh fz -> own_mint f depth n t ->
      freezer_scan_txn f (TxMint n) memos (length lv) = Ok f' ->
      (forall x, In x ws' <-> In x ws \/ paid (fm_wallet f) (TxMint n) memos (length lv) x) ->
      (forall x, In x se' <-> In x se \/ made f [mv_mint t] (length lv) x) ->
      fruns g depth f' (lv ++ [mn_chg n; mn_mint n]) ws' se' (sh ++ shown_by (TxMint n) (length lv)) fz
  | fru_freeze f lv ws se sh fz n memos f' ws' se' : fruns g depth f lv ws se sh fz -> as_expected f n se ->
      freezer_scan_txn f (TxFreeze n) memos (length lv) = Ok f' ->
      (forall x, In x ws' <-> In x ws \/ paid (fm_wallet f) (TxFreeze n) memos (length lv) x) ->
      (forall x, In x se' <-> In x se \/ exists y, In y se /\ replaced f n (length lv) y x) ->
      fruns g depth f' (lv ++ fn_commitments n) ws' se' (sh ++ shown_by (TxFreeze n) (length lv))
            (fz ++ map (fun nl => (nl, length lv)) (tl (fn_nullifiers n))).

  (** nullifiers tell the records of the asset apart, and freeze notes only show nullifiers of records that are there *)
  Definition apart (f : Freezer) (lv : list F) (se : list Owned) (fz : list (Nullifier * nat)) : Prop :=
    Z.of_nat (length lv) < 2 ^ 64 /\
    (forall x y, In x se -> In y se -> fnull f x = fnull f y -> x = y) /\
    (forall x k, In x se -> In (fnull f x, k) fz -> zv (snd x) < Z.of_nat k).
  (** no freeze note has replaced the record *)
  Definition intact (f : Freezer) (fz : list (Nullifier * nat)) (x : Owned) : Prop := forall k, ~ In (fnull f x, k) fz.

  (** *** Freezing and releasing *)
  (** the freezer has scanned all transactions of the ledger and no others *)
  Definition freezer_in_step (g : srs) (depth : nat) (f : Freezer) (l : Ledger) (ws se : list Owned) (sh fz : list (Nullifier * nat)) : Prop :=
    fruns g depth f (lg_leaves l) ws se sh fz /\ (forall n, In n (lg_nullifiers l) <-> exists k, In (n, k) sh) /\ natives ws.
  (** the book that a call works on: of freezable records to freeze, of releasable ones to release; and the other one *)
  Definition call_book (f : Freezer) (freeze : bool) := if freeze then fm_freezable f else fm_releasable f.
  Definition other_book (f : Freezer) (freeze : bool) := if freeze then fm_releasable f else fm_freezable f.
  Definition call_flag (freeze : bool) := if freeze then Unfrozen else Frozen.
  (** the nullifiers of the two dummies of a freeze note *)
  Definition padding_nullifier (kp : UserKeyPair) (bl : F) (fl : FreezeFlag) : Nullifier :=
    freezer_nullify freezer_kp_default (address (user_pub_key kp)) (w64 0) (derive_record_commitment (fst (ro_dummy kp bl fl))).
  Definition padding (r : FreezeUserRand) (freeze : bool) : list Nullifier :=
    [padding_nullifier (fu_kp0 r) (fu_blind0 r) (call_flag freeze); padding_nullifier (fu_kp1 r) (fu_blind1 r) (call_flag freeze)].
  (** what becomes of the [i]th of the records, and of all inputs of the note *)
  Definition turned (r : FreezeUserRand) (i : nat) (x : Owned) : RecordOpening := freeze_flip_ro (frd_blinds (fu_note r) (1 + i)%nat) (fst x).
  Definition freeze_outputs (r : FreezeUserRand) (freeze : bool) (records : list Owned) : list RecordOpening :=
    freeze_flip_ro (frd_blinds (fu_note r) 0%nat) (fst (ro_dummy (fu_kp0 r) (fu_blind0 r) (call_flag freeze))) ::
    map (fun ix => turned r (fst ix) (snd ix)) (combine (seq 0 (length records)) records) ++
    [freeze_flip_ro (frd_blinds (fu_note r) (1 + length records)%nat) (fst (ro_dummy (fu_kp1 r) (fu_blind1 r) (call_flag freeze)))].
  (** the sampled dummies have proper keys and their nullifiers are new: none is that of the other, of a record of the
      asset, of a record of the wallet, or in [spent] *)
  Record good_padding (f : Freezer) (r : FreezeUserRand) (freeze : bool) (ws se : list Owned) (spent : list Nullifier) : Prop := {
    gp_keys : address (user_pub_key (fu_kp0 r)) <> pt_id /\ address (user_pub_key (fu_kp1 r)) <> pt_id;
    gp_apart : NoDup (padding r freeze);
    gp_records : forall x, In x se -> ~ In (fnull f x) (padding r freeze);
    gp_wallet : forall x, In x ws -> ~ In (w_nullify (fm_wallet f) x) (padding r freeze);
    gp_new : forall nl, In nl (padding r freeze) -> ~ In nl spent
  }.

  (** *** Blocks *)
  (** a transaction of the freezer's asset; [vals] are the records that a transfer or a mint creates after its fee change *)
  Definition own_txn (f : Freezer) (depth : nat) (se : list Owned) (t : TransactionNote) (vals : list RoV) : Prop :=
    match t with
    | TxTransfer n => exists v, own_transfer f depth n v /\ vals = tl (tv_outs v)
    | TxMint n => exists v, own_mint f depth n v /\ vals = [mv_mint v]
    | TxFreeze n => as_expected f n se
    end.
  (** the transactions make the record [x] of the asset *)
  Fixpoint txns_make (f : Freezer) (se : list Owned) (txns : list TransactionNote) (vals : list (list RoV)) (off : nat) (x : Owned) : Prop :=
    match txns, vals with
    | t :: txns', v :: vals' =>
        match t with TxFreeze n => exists y, In y se /\ replaced f n off y x | _ => made f v off x end \/
        txns_make f se txns' vals' (off + length (tx_output_commitments t)) x
    | _, _ => False
    end.
  Definition freezes (t : TransactionNote) : list Nullifier := match t with TxFreeze n => tl (fn_nullifiers n) | _ => [] end.
End FreezerSpec.
