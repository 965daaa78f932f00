(** Model of the viewer, the freezer and the asset issuer of the integration test, tests/examples.rs 498-981 and
    1528-1639.  Conventions are those of Wallet.v: hash maps and hash sets are lists in iteration order, caches of
    proving keys are left out, and all errors of this file are represented by one. *)
From Verif Require Import Base Config Structs Keys Utils Memo Plonk Witness Circuits Snark Notes Serde Ledger Wallet.
From Coq Require Import Permutation.

Section Roles.
  Context {C : CapConfig} {S : Snark C} {K : @RoCodec C} {E : MemoSer C}.

  (** ** The viewer *)

  (** examples.rs 498-501 *)
  Record Viewer := mkViewer { vw_kp : ViewerKeyPair; vw_def : AssetDefinition }.
  (** the positions given to the outputs, examples.rs 535-540: after the fee change *)
  Definition positions (off n : nat) : list u64 := map (fun i => w64 (Z.of_nat (off + 1 + i))) (seq 0 n).
  (** examples.rs 514-542 *)
  Definition viewer_scan_xfr (v : Viewer) (n : TransferNote) (off : nat) : res (list ViewableData * list (ViewableData * u64)) :=
    let* n_in := usize_pred (length (tn_nullifiers n)) in
    let* n_out := usize_pred (length (tn_commitments n)) in
    let* (ins, outs) := open_transfer_viewing_memo (vw_kp v) (vw_def v) (length (tn_nullifiers n)) (length (tn_commitments n)) (tn_memo n) in
    if negb (length ins =? 0)%nat && (n_in <? Z.of_nat (length ins)) then Err InvalidParameter else
    if negb (length outs =? 0)%nat && negb (Z.of_nat (length outs) =? n_out) then Err InvalidParameter else
    Ok (ins, combine outs (positions off (length outs))).
  (** examples.rs 544-551; the asset definition is the note's own, not the viewer's *)
  Definition viewer_scan_mint (v : Viewer) (n : MintNote) (off : nat) : res (ViewableData * u64) :=
    let* d := open_mint_viewing_memo (vw_kp v) (mn_def n) (mn_amount n) (mn_memo n) in
    Ok (d, w64 (Z.of_nat (off + 1))).

  (** ** The freezer *)

  (** [HashMap] with addresses as keys *)
  Fixpoint amap_get {V} (k : point) (m : list (point * V)) : option V :=
    match m with [] => None | (k', v) :: m' => if point_eqb k k' then Some v else amap_get k m' end.
  Fixpoint amap_put {V} (k : point) (v : V) (m : list (point * V)) : list (point * V) :=
    match m with [] => [(k, v)] | (k', v') :: m' => if point_eqb k k' then (k, v) :: m' else (k', v') :: amap_put k v m' end.
  (** insertion into the set of a user, made if missing: examples.rs 713-727, 746-760, 776-785 *)
  Definition book_insert (a : point) (x : Owned) (m : list (point * list Owned)) : list (point * list Owned) :=
    amap_put a (set_insert owned_eqb x (match amap_get a m with Some b => b | None => [] end)) m.

  (** what is remembered of a record in a freeze note: its owner, the record, what it becomes *)
  Definition Change : Type := point * Owned * RecordOpening.
  (** examples.rs 556-599 *)
  Record Freezer := mkFreezer {
    fm_viewer : Viewer;
    fm_kp : FreezerKeyPair;
    fm_wallet : Wallet;
    fm_freezable : list (point * list Owned);
    fm_releasable : list (point * list Owned);
    fm_freezing : list (Nullifier * Change);      (* unconfirmed_frozen_records *)
    fm_releasing : list (Nullifier * Change);     (* unconfirmed_released_records *)
    fm_users : list (point * UserPubKey)          (* user_keys_oracle *)
  }.
  Definition fm_set_wallet (f : Freezer) w :=
    mkFreezer (fm_viewer f) (fm_kp f) w (fm_freezable f) (fm_releasable f) (fm_freezing f) (fm_releasing f) (fm_users f).
  Definition fm_set_freezable (f : Freezer) m :=
    mkFreezer (fm_viewer f) (fm_kp f) (fm_wallet f) m (fm_releasable f) (fm_freezing f) (fm_releasing f) (fm_users f).
  Definition fm_set_releasable (f : Freezer) m :=
    mkFreezer (fm_viewer f) (fm_kp f) (fm_wallet f) (fm_freezable f) m (fm_freezing f) (fm_releasing f) (fm_users f).
  Definition fm_set_freezing (f : Freezer) m :=
    mkFreezer (fm_viewer f) (fm_kp f) (fm_wallet f) (fm_freezable f) (fm_releasable f) m (fm_releasing f) (fm_users f).
  Definition fm_set_releasing (f : Freezer) m :=
    mkFreezer (fm_viewer f) (fm_kp f) (fm_wallet f) (fm_freezable f) (fm_releasable f) (fm_freezing f) m (fm_users f).

  (** examples.rs 603-631 *)
  Definition freezer_new (kp : FreezerKeyPair) (vkp : ViewerKeyPair) (ukp : UserKeyPair) (c : AssetCode) : res Freezer :=
    let* p := unwrap (reveal_record_opening (set_freezer_pub_key (freezer_pub_key kp)
                        (set_viewer_pub_key (viewer_pub_key vkp) policy_default))) in
    let* d := unwrap (asset_def_new c p) in
    Ok (mkFreezer (mkViewer vkp d) kp (wallet_new ukp) [] [] [] [] []).
  (** examples.rs 641-643 *)
  Definition add_user_key (f : Freezer) (k : UserPubKey) : Freezer :=
    mkFreezer (fm_viewer f) (fm_kp f) (fm_wallet f) (fm_freezable f) (fm_releasable f) (fm_freezing f) (fm_releasing f)
              (amap_put (address k) k (fm_users f)).

  Definition expect {A} (o : option A) : res A := match o with Some a => Ok a | None => Panic end.
  (** examples.rs 705-712, 736-743: the record opening behind viewed data, always of the freezer's own asset; every
      missing piece is an [unwrap] *)
  Definition viewed_opening (f : Freezer) (d : ViewableData) : res (point * RecordOpening) :=
    let* a := expect (vd_user_address d) in
    let* amt := expect (vd_amount d) in
    let* k := expect (amap_get a (fm_users f)) in
    let* b := expect (vd_blind d) in
    Ok (a, mkRO amt (vw_def (fm_viewer f)) k Unfrozen b).
  (** one step of the loops of examples.rs 735-761 and the body of 703-729 *)
  Definition note_viewed (f : Freezer) (d : ViewableData) (uid : u64) : res Freezer :=
    let* (a, ro) := viewed_opening f d in Ok (fm_set_freezable f (book_insert a (ro, uid) (fm_freezable f))).
  Fixpoint note_all_viewed (f : Freezer) (l : list (ViewableData * u64)) : res Freezer :=
    match l with [] => Ok f | (d, uid) :: l' => let* f1 := note_viewed f d uid in note_all_viewed f1 l' end.

  (** examples.rs 703-729 *)
  Definition freezer_scan_mint (f : Freezer) (n : MintNote) (off : nat) : res Freezer :=
    let* (d, uid) := viewer_scan_mint (fm_viewer f) n off in note_viewed f d uid.
  (** examples.rs 731-763 *)
  Definition freezer_scan_xfr (f : Freezer) (n : TransferNote) (off : nat) : res Freezer :=
    let* (_, outs) := viewer_scan_xfr (fm_viewer f) n off in note_all_viewed f outs.

  (** the first half of the loop body, examples.rs 768-789 *)
  Definition confirm_frozen (f : Freezer) (n : Nullifier) (uid : u64) : res Freezer :=
    match map_get n (fm_freezing f) with
    | None => Ok f
    | Some (a, old, new) =>
        let* b := expect (amap_get a (fm_freezable f)) in
        let f1 := fm_set_freezable f (amap_put a (set_remove owned_eqb old b) (fm_freezable f)) in
        let f2 := fm_set_releasable f1 (book_insert a (new, uid) (fm_releasable f1)) in
        Ok (fm_set_freezing f2 (map_del n (fm_freezing f2)))
    end.
  (** the second half, examples.rs 790-803; here the set that gets the record must exist *)
  Definition confirm_released (f : Freezer) (n : Nullifier) (uid : u64) : res Freezer :=
    match map_get n (fm_releasing f) with
    | None => Ok f
    | Some (a, old, new) =>
        let* b := expect (amap_get a (fm_releasable f)) in
        let f1 := fm_set_releasable f (amap_put a (set_remove owned_eqb old b) (fm_releasable f)) in
        let* b' := expect (amap_get a (fm_freezable f1)) in
        let f2 := fm_set_freezable f1 (amap_put a (set_insert owned_eqb (new, uid) b') (fm_freezable f1)) in
        Ok (fm_set_releasing f2 (map_del n (fm_releasing f2)))
    end.
  Fixpoint confirm_all (f : Freezer) (l : list Nullifier) (pos : nat) : res Freezer :=
    match l with
    | [] => Ok f
    | n :: l' =>
        let* f1 := confirm_frozen f n (w64 (Z.of_nat pos)) in
        let* f2 := confirm_released f1 n (w64 (Z.of_nat pos)) in
        confirm_all f2 l' (pos + 1)
    end.
  (** examples.rs 765-806: the first nullifier is that of the fee *)
  Definition freezer_scan_freeze (f : Freezer) (n : FreezeNote) (off : nat) : res Freezer :=
    confirm_all f (skipn 1 (fn_nullifiers n)) (off + 1).
  (** examples.rs 687-699.  After an error or a panic the freezer is not used again (the test unwraps), so its state is
      not returned. *)
  Definition freezer_scan_txn (f : Freezer) (t : TransactionNote) (memos : list ReceiverMemo) (off : nat) : res Freezer :=
    let* (w, _) := scan_txn (fm_wallet f) t memos off in
    let f1 := fm_set_wallet f w in
    match t with
    | TxTransfer n => freezer_scan_xfr f1 n off
    | TxFreeze n => freezer_scan_freeze f1 n off
    | TxMint n => freezer_scan_mint f1 n off
    end.
  (** examples.rs 663-684 *)
  Fixpoint freezer_scan_txns (f : Freezer) (txns : list (TransactionNote * list ReceiverMemo)) (off : nat) : res Freezer :=
    match txns with
    | [] => Ok f
    | (t, memos) :: rest => let* f1 := freezer_scan_txn f t memos off in freezer_scan_txns f1 rest (off + length (tx_output_commitments t))
    end.
  Definition freezer_scan_block (f : Freezer) (b : Block) (memos : list (list ReceiverMemo)) (off : nat) : res Freezer :=
    fail_if (negb (length (bk_txns b) =? length memos)%nat) InvalidParameter ;;;
    freezer_scan_txns f (combine (bk_txns b) memos) off.

  (** what a freeze samples: the fee change's blinding factor, key pairs and blinding factors of the two dummies, the key
      for the dummy witness of [preprocess], the randomness of note generation and of the memos *)
  Record FreezeUserRand := mkFreezeUserRand {
    fu_fee_blind : F; fu_kp0 : UserKeyPair; fu_blind0 : F; fu_kp1 : UserKeyPair; fu_blind1 : F;
    fu_key : FreezerKeyPair; fu_note : FreezeRand; fu_enc : nat -> aead_rand
  }.
  (** the inputs of examples.rs 898-906 and 920-925 *)
  Definition dummy_freeze_input (depth : nat) (kp : UserKeyPair) (bl : F) (fl : FreezeFlag) : FreezeNoteInput :=
    mkFIn (fst (ro_dummy kp bl fl)) (acc_dummy depth) freezer_kp_default.
  (** examples.rs 908-919 *)
  Fixpoint freeze_inputs (kp : FreezerKeyPair) (depth : nat) (leaves : list F) (l : list Owned) : res (list FreezeNoteInput) :=
    match l with
    | [] => Ok []
    | (ro, uid) :: l' =>
        let* a := lookup_from_tree depth leaves uid in
        let* is := freeze_inputs kp depth leaves l' in Ok (mkFIn ro a kp :: is)
    end.
  (** the loop of examples.rs 949-977 *)
  Fixpoint note_changes (kp : FreezerKeyPair) (outs : list RecordOpening) (l : list Owned) (m : list (Nullifier * Change))
    : res (list (Nullifier * Change)) :=
    match outs with
    | [] => Ok m
    | o :: outs' =>
        if ro_is_dummy o then note_changes kp outs' l m else
        match l with
        | [] => Panic
        | (ro, uid) :: l' =>
            let a := address (pub_key ro) in
            note_changes kp outs' l' (map_put (freezer_nullify kp a uid (derive_record_commitment ro)) (a, (ro, uid), o) m)
        end
    end.
  (** examples.rs 807-981; [freeze] tells freezing from releasing.  The freezer is returned also on failure, when the
      fee record may have been marked. *)
  Definition freeze_user_internal (g : srs) (depth : nat) (f : Freezer) (r : FreezeUserRand) (user : point) (fee : Amount)
      (leaves : list F) (freeze : bool) : Freezer * res (FreezeNote * list ReceiverMemo * (Fj * point)) :=
    match amap_get user (if freeze then fm_freezable f else fm_releasable f) with
    | None => (f, Err InvalidParameter)
    | Some records =>
        match (let* x := find_record_for_fee (fm_wallet f) fee in
               let* a := lookup_from_tree depth leaves (snd x) in Ok (x, a)) with
        | Err e => (f, Err e)
        | Panic => (f, Panic)
        | Ok (x, a) =>
            let kp := w_kp (fm_wallet f) in
            let nl := user_nullify kp pt_id (snd x) (derive_record_commitment (fst x)) in
            let f1 := fm_set_wallet f (mark_unconfirmed_spent (fm_wallet f) nl x) in
            let fl := if freeze then Unfrozen else Frozen in
            match (let* fi := unwrap (txn_fee_info_new (fu_fee_blind r) (mkFeeInput (fst x) a kp) fee) in
                   let '(info, chg) := fi in
                   let* is := freeze_inputs (fm_kp f) depth leaves records in
                   let inputs := dummy_freeze_input depth (fu_kp0 r) (fu_blind0 r) fl :: is ++
                                 [dummy_freeze_input depth (fu_kp1 r) (fu_blind1 r) fl] in
                   let* keys := unwrap (freeze_preprocess g (fu_key r) (length inputs + 1) depth) in
                   let* nk := unwrap (freeze_generate (fu_note r) inputs info (fst keys)) in
                   let '(note, sk, outs) := nk in
                   let* memos := unwrap (payment_memos (fu_enc r) 0 outs) in
                   let* sig := sign_receiver_memos sk memos in
                   let* m := note_changes (fm_kp f) outs records (if freeze then fm_freezing f else fm_releasing f) in
                   Ok (note, memos, sig, chg, m)) with
            | Ok (note, memos, sig, chg, m) =>
                let f2 := if freeze then fm_set_freezing f1 m else fm_set_releasing f1 m in
                (fm_set_wallet f2 (set_chg (fm_wallet f2) (set_insert ro_eqb chg (w_pending_chg (fm_wallet f2)))), Ok (note, memos, sig))
            | Err e => (f1, Err e)
            | Panic => (f1, Panic)
            end
        end
    end.
  Definition freeze_user g depth f r user fee leaves := freeze_user_internal g depth f r user fee leaves true.
  Definition unfreeze_user g depth f r user fee leaves := freeze_user_internal g depth f r user fee leaves false.

  (** ** The asset issuer *)

  (** examples.rs 1528-1535 *)
  Record Issuer := mkIssuer {
    iu_wallet : Wallet;
    iu_key : MintProvingKey;
    iu_assets : list (AssetCode * (AssetDefinition * AssetCodeSeed * bytes))
  }.
  Definition iu_set_wallet (i : Issuer) w := mkIssuer w (iu_key i) (iu_assets i).
  (** examples.rs 1540-1552 *)
  Definition issuer_new (g : srs) (depth : nat) (kp : UserKeyPair) : res Issuer :=
    let* keys := unwrap (mint_preprocess g depth) in Ok (mkIssuer (wallet_new kp) (fst keys) []).
  (** examples.rs 1555-1567; the seed is what is sampled *)
  Definition new_asset_definition (i : Issuer) (seed : AssetCodeSeed) (description : bytes) (p : AssetPolicy) : res (Issuer * AssetCode) :=
    let c := new_domestic seed description in
    let* d := unwrap (asset_def_new c p) in
    Ok (mkIssuer (iu_wallet i) (iu_key i) (map_put c (d, seed, description) (iu_assets i)), c).
  (** examples.rs 1570-1572 *)
  Definition asset_definition (i : Issuer) (c : AssetCode) : option AssetDefinition :=
    match map_get c (iu_assets i) with Some (d, _, _) => Some d | None => None end.
  Record MintUserRand := mkMintUserRand { mu_blind : F; mu_enc : aead_rand; mu_fee_blind : F; mu_note : MintRand }.
  (** examples.rs 1575-1628.  The issuer is returned also on failure, when the fee record may have been marked. *)
  Definition issuer_mint (depth : nat) (i : Issuer) (r : MintUserRand) (fee : Amount) (c : AssetCode) (amt : Amount)
      (owner : UserPubKey) (leaves : list F) : Issuer * res (MintNote * (Fj * point) * ReceiverMemo) :=
    match find_record_for_fee (iu_wallet i) fee with
    | Err e => (i, Err e)
    | Panic => (i, Panic)
    | Ok x =>
        let kp := w_kp (iu_wallet i) in
        let nl := user_nullify kp pt_id (snd x) (derive_record_commitment (fst x)) in
        let i1 := iu_set_wallet i (mark_unconfirmed_spent (iu_wallet i) nl x) in
        match (let* a := lookup_from_tree depth leaves (snd x) in
               let* e := ok_or (map_get c (iu_assets i)) InvalidParameter in
               let '(d, seed, description) := e in
               let ro := mkRO amt d owner Unfrozen (mu_blind r) in
               let* memo := receiver_memo_from_ro (mu_enc r) ro [] in
               let* fi := unwrap (txn_fee_info_new (mu_fee_blind r) (mkFeeInput (fst x) a kp) fee) in
               let '(info, chg) := fi in
               let* nk := mint_generate (mu_note r) ro seed description info (iu_key i) in
               Ok (nk, memo, chg)) with
        | Ok ((note, sk), memo, chg) =>
            let i2 := iu_set_wallet i1 (set_chg (iu_wallet i1) (set_insert ro_eqb chg (w_pending_chg (iu_wallet i1)))) in
            (i2, let* sig := sign_receiver_memos sk [memo] in Ok (note, sig, memo))
        | Err e => (i1, Err e)
        | Panic => (i1, Panic)
        end
    end.
  (** examples.rs 1631-1638 *)
  Definition issuer_scan_txn (i : Issuer) (t : TransactionNote) (memos : list ReceiverMemo) (off : nat) : res Issuer :=
    let* (w, _) := scan_txn (iu_wallet i) t memos off in Ok (iu_set_wallet i w).

  (** ** Iteration order *)

  (** two books of a freezer with the same content *)
  Inductive same_books : list (point * list Owned) -> list (point * list Owned) -> Prop :=
  | bk_nil : same_books [] []
  | bk_cons c l l' m m' : Permutation l l' -> same_books m m' -> same_books ((c, l) :: m) ((c, l') :: m')
  | bk_swap x y m : same_books (x :: y :: m) (y :: x :: m)
  | bk_trans m1 m2 m3 : same_books m1 m2 -> same_books m2 m3 -> same_books m1 m3.
  Definition same_freezer (f f' : Freezer) : Prop :=
    fm_viewer f' = fm_viewer f /\ fm_kp f' = fm_kp f /\ same_records (fm_wallet f) (fm_wallet f') /\
    same_books (fm_freezable f) (fm_freezable f') /\ same_books (fm_releasable f) (fm_releasable f') /\
    Permutation (fm_freezing f) (fm_freezing f') /\ Permutation (fm_releasing f) (fm_releasing f') /\
    Permutation (fm_users f) (fm_users f').
End Roles.
