(** C62: the books of the freezer of the integration test.  C63: freezing and releasing a user's records. *)
From Verif Require Import Base Config Structs Keys Utils Memo Plonk Witness Circuits Relation GadgetProofs Snark Notes Security Accepted Serde Ledger Wallet WalletSpec Roles RolesSpec FreezerSpec.
From Verif Require Import NoteProofs WalletProofs WalletPay WalletPay2 FreezerBooks FreezerRun FreezerHistory FreezerBlocks FreezerLive FreezerEffect
  CircuitFacts Toy ToySnark Samples NoteSamples WalletSamples FreezerSamples FreezerSamples2.
#[local] Existing Instance toy_snark.
#[local] Existing Instance w_codec.
#[local] Existing Instance toy_memo_i.

(** ** C62 *)

(** at every point of its history a freezer lists as freezable exactly the unfrozen records of its asset that no freeze
    note has replaced, and as releasable exactly the frozen ones, each under its owner's address; what it lists is what is
    in the tree *)
Theorem C62_books (C : CapConfig) (L : CapLaws C) (S : Snark C) (K : @RoCodec C) (E : MemoSer C) g depth f lv ws se sh fz :
  fruns g depth f lv ws se sh fz -> apart f lv se fz ->
  (forall a x, listed (fm_freezable f) a x <-> In x se /\ freeze_flag (fst x) = Unfrozen /\ a = address (pub_key (fst x)) /\ intact f fz x) /\
  (forall a x, listed (fm_releasable f) a x <-> In x se /\ freeze_flag (fst x) = Frozen /\ a = address (pub_key (fst x)) /\ intact f fz x) /\
  (forall a x, listed (fm_freezable f) a x \/ listed (fm_releasable f) a x ->
     asset_def (fst x) = fm_def f /\ zv (snd x) < Z.of_nat (length lv) /\ nth_error lv (Z.to_nat (zv (snd x))) = Some (derive_record_commitment (fst x))) /\
  (forall a b, amap_get a (fm_freezable f) = Some b \/ amap_get a (fm_releasable f) = Some b -> NoDup b).
Proof.
  intros R AP. pose proof (fruns_inv L _ _ _ _ _ _ _ _ R AP) as I. split; [exact (fi_free _ _ _ _ I)|]. split; [exact (fi_rel _ _ _ _ I)|]. split.
  - intros a x [H|H]; [apply (fi_free _ _ _ _ I) in H|apply (fi_rel _ _ _ _ I) in H]; exact (fi_leaf _ _ _ _ I x (proj1 H)).
  - intros a b [H|H]; [exact (bo_free_sets _ _ (fi_books _ _ _ _ I) _ _ H)|exact (bo_rel_sets _ _ (fi_books _ _ _ _ I) _ _ H)].
Qed.
Print Assumptions C62_books.

(** the asset of a new freezer: its viewer and freezer keys, no credential issuer, owner, amount and blinding factor revealed at every amount *)
Theorem C62_asset (C : CapConfig) (L : CapLaws C) (S : Snark C) kp vkp ukp c f : freezer_new kp vkp ukp c = Ok f ->
  viewer_pk (policy (fm_def f)) = viewer_pub_key vkp /\ viewer_pub_key vkp <> pt_id /\ freezer_pk (policy (fm_def f)) = freezer_pub_key kp /\
  (forall i, (i < 4)%nat -> rm_bit (reveal_map (policy (fm_def f))) i = true) /\ zv (reveal_threshold (policy (fm_def f))) = 0 /\
  code (fm_def f) = c /\ c <> dummy_asset_code /\ c <> native_asset_code.
Proof.
  intros H. pose proof (freezer_new_asset L _ _ _ _ _ H) as A.
  assert (G : vw_kp (fm_viewer f) = vkp /\ fm_kp f = kp /\ code (fm_def f) = c).
  { unfold freezer_new in H. apply bind_ok in H. destruct H as (p & _ & H). apply bind_ok in H. destruct H as (d & Hd & H). injection H as <-. unfold fm_def. cbn [fm_viewer vw_kp fm_kp vw_def].
    split; [reflexivity|]. split; [reflexivity|]. unfold asset_def_new in Hd. destruct (zeqb c native_asset_code || zeqb c dummy_asset_code); cbn [unwrap] in Hd; [discriminate Hd|]. injection Hd as <-. reflexivity. }
  destruct G as (G1 & G2 & G3). destruct (fas_code _ A) as [A1 A2].
  split; [rewrite <- (fas_viewer _ A), G1; reflexivity|]. split; [rewrite <- G1, (fas_viewer _ A); exact (fas_viewed _ A)|]. split; [rewrite (fas_freezer _ A), G2; reflexivity|].
  split; [exact (fas_bits _ A)|]. split; [exact (fas_threshold _ A)|]. split; [exact G3|]. rewrite G3 in A1, A2. auto.
Qed.
Print Assumptions C62_asset.

(** its wallet is in every history a wallet as in C58 and C59 *)
Theorem C62_wallet (C : CapConfig) (L : CapLaws C) (S : Snark C) (K : @RoCodec C) (KL : RoCodecLaws K) (E : MemoSer C) g depth f lv ws se sh fz :
  fruns g depth f lv ws se sh fz -> natives ws -> ordinary (fm_wallet f) lv ws sh -> runs (fm_wallet f) lv ws sh.
Proof. exact (fruns_runs L KL g depth f lv ws se sh fz). Qed.
Print Assumptions C62_wallet.

(** scans of transactions of its asset return, when it knows the owners *)
Theorem C62_scans_return (C : CapConfig) (L : CapLaws C) (S : Snark C) (K : @RoCodec C) (KL : RoCodecLaws K) (E : MemoSer C) g depth f lv ws se sh fz :
  fruns g depth f lv ws se sh fz -> apart f lv se fz -> natives ws -> ordinary (fm_wallet f) lv ws sh ->
  (forall n t memos, own_transfer f depth n t -> knows_owners f (tl (tv_outs t)) -> length (tn_commitments n) = Datatypes.S (length memos) ->
     exists f', freezer_scan_txn f (TxTransfer n) memos (length lv) = Ok f') /\
  (forall n t memo, own_mint f depth n t -> knows_owners f [mv_mint t] -> exists f', freezer_scan_txn f (TxMint n) [memo] (length lv) = Ok f') /\
  (forall n memos, NoDup (fn_nullifiers n) -> length (fn_nullifiers n) = length (fn_commitments n) -> length (fn_commitments n) = Datatypes.S (length memos) ->
     Z.of_nat (length lv + length (fn_commitments n)) <= 2 ^ 64 -> exists f', freezer_scan_txn f (TxFreeze n) memos (length lv) = Ok f').
Proof.
  intros R AP HN O. split; [|split].
  - intros n t memos. exact (scan_transfer_total L KL g depth f lv ws se sh fz n t memos R AP HN O).
  - intros n t memo. exact (scan_mint_total L KL g depth f lv ws se sh fz n t memo R AP HN O).
  - intros n memos. exact (scan_freeze_total L KL g depth f lv ws se sh fz n memos R AP HN O).
Qed.
Print Assumptions C62_scans_return.

(** a block of transactions of its asset with different nullifiers, none of which is that of a record made in the block:
    when the ledger has stored the block and the freezer has scanned it, the history goes on with the records that the
    transactions make, at the positions where the ledger has put them *)
Theorem C62_blocks (C : CapConfig) (L : CapLaws C) (S : Snark C) (K : @RoCodec C) (E : MemoSer C) g depth f l ws se sh fz b memos vals f' l' :
  freezer_in_step g depth f l ws se sh fz -> Forall2 (own_txn f depth se) (bk_txns b) vals ->
  NoDup (flat_map tx_nullifiers (bk_txns b)) ->
  (forall x, txns_make f se (bk_txns b) vals (length (lg_leaves l)) x -> ~ In (fnull f x) (flat_map tx_nullifiers (bk_txns b))) ->
  freezer_scan_block f b memos (length (lg_leaves l)) = Ok f' -> insert_block depth l b = (l', Ok tt) ->
  exists ro ws' se' sh' fz', block_fee_record b = Ok ro /\
    fruns g depth f' (lg_leaves l') ws' se' sh' fz' /\ (forall n, In n (lg_nullifiers l') <-> exists k, In (n, k) sh') /\
    (forall x, In x se' <-> In x se \/ txns_make f se (bk_txns b) vals (length (lg_leaves l)) x) /\
    map fst fz' = map fst fz ++ flat_map freezes (bk_txns b) /\
    (forall x, In x ws \/ opens (w_kp (fm_wallet f)) (combine (bk_txns b) memos) (length (lg_leaves l)) x -> In x ws') /\
    (forall x, In x ws' -> In x ws \/ opens (w_kp (fm_wallet f)) (combine (bk_txns b) memos) (length (lg_leaves l)) x \/ In (fst x) (w_pending_chg (fm_wallet f))).
Proof. exact (freezer_block L g depth f l ws se sh fz b memos vals f' l'). Qed.
Print Assumptions C62_blocks.

(** Not proved because false: that only records of its asset are listed.  A mint of another asset with the same viewer key
    is listed as a record of the freezer's own asset, or stops the freezer. *)
Theorem C62_foreign_mint (C : CapConfig) (L : CapLaws C) (S : Snark C) f depth n t P off :
  mint_opens depth n t -> viewer_pub_key (vw_kp (fm_viewer f)) = viewer_pk (policy (mn_def n)) ->
  viewer_pk (policy (mn_def n)) <> pt_id -> ro_owner (mv_mint t) = pt_xy P -> P <> pt_id ->
  (forall k, amap_get P (fm_users f) = Some k -> (forall i, In i [0; 2; 3]%nat -> rm_bit (reveal_map (policy (mn_def n))) i = true) ->
     exists x f', freezer_scan_mint f n off = Ok f' /\ listed (fm_freezable f') P x /\ asset_def (fst x) = fm_def f /\ pub_key (fst x) = k /\
       amount (fst x) = mn_amount n /\ snd x = w64 (Z.of_nat (off + 1))) /\
  (amap_get P (fm_users f) = None \/ (exists i, In i [0; 2; 3]%nat /\ rm_bit (reveal_map (policy (mn_def n))) i = false) -> freezer_scan_mint f n off = Panic).
Proof. exact (foreign_mint_noted L f depth n t P off). Qed.
Print Assumptions C62_foreign_mint.

(** ** C63 *)

(** [freeze_user] and [unfreeze_user] succeed for a user with listed records that are unspent, if the wallet has a native
    record for the fee and the sampled dummies are new; the validator accepts the note and the memos' signature verifies *)
Theorem C63_accepted (C : CapConfig) (L : CapLaws C) (S : Snark C) (K : @RoCodec C) (KL : RoCodecLaws K) (E : MemoSer C) (SL : SnarkLaws S)
    g fk depth f l ws se sh fz r user fee freeze records keys (ts : u64) :
  freezer_in_step g depth f l ws se sh fz -> ordinary (fm_wallet f) (lg_leaves l) ws sh -> apart f (lg_leaves l) se fz ->
  (length (lg_leaves l) <= 3 ^ depth)%nat -> (depth < 256)%nat -> In (tree_root depth (lg_leaves l)) (lg_roots l) ->
  (exists x, holds (fm_wallet f) x /\ code (asset_def (fst x)) = native_asset_code /\ zv fee <= zv (amount (fst x))) ->
  amap_get user (call_book f freeze) = Some records -> user <> pt_id -> freezer_pub_key (fm_kp f) <> pt_id ->
  (forall x, In x records -> ~ In (fnull f x) (lg_nullifiers l)) ->
  (forall x y, In x ws -> In y se -> w_nullify (fm_wallet f) x <> fnull f y) ->
  good_padding f r freeze ws se (lg_nullifiers l) ->
  freeze_preprocess g (fu_key r) (length records + 3) depth = Ok keys ->
  (forall i ro, nth_error (freeze_outputs r freeze records) i = Some ro -> exists m, receiver_memo_from_ro (fu_enc r i) ro [] = Ok m) ->
  exists f' n memos sg,
    (if freeze then freeze_user g depth f r user fee (lg_leaves l) else unfreeze_user g depth f r user fee (lg_leaves l)) = (f', Ok (n, memos, sg)) /\
    validate_txns_batch (mkValidator g fk depth) l [TxFreeze n] ts = Ok tt /\
    verify_receiver_memos_signature (TxFreeze n) memos sg = Ok tt.
Proof.
  intros. destruct freeze; [refine (freeze_live L KL SL g fk depth f l ws se sh fz r user fee true records keys ts _ _ _ _ _ _ _ _ _ _ _ _ _ _ _)
                           |refine (freeze_live L KL SL g fk depth f l ws se sh fz r user fee false records keys ts _ _ _ _ _ _ _ _ _ _ _ _ _ _ _)]; assumption.
Qed.
Print Assumptions C63_accepted.

(** the note of a call replaces every record listed for the user by the same record with the other flag and a new blinding
    factor; when the freezer has scanned the note, exactly these have moved from one book to the other *)
Theorem C63_effect (C : CapConfig) (L : CapLaws C) (S : Snark C) (K : @RoCodec C) (KL : RoCodecLaws K) (E : MemoSer C)
    g depth f lv ws se sh fz r user fee leaves freeze f' n memos sg records :
  fruns g depth f lv ws se sh fz -> apart f lv se fz -> natives ws -> ordinary (fm_wallet f) lv ws sh ->
  amap_get user (call_book f freeze) = Some records -> (forall x, In x se -> ~ In (fnull f x) (padding r freeze)) ->
  freeze_user_internal g depth f r user fee leaves freeze = (f', Ok (n, memos, sg)) ->
  Z.of_nat (length lv + length (fn_commitments n)) <= 2 ^ 64 ->
  as_expected f' n se /\
  (forall i x, nth_error records i = Some x -> nth_error (fn_nullifiers n) (2 + i) = Some (fnull f x) /\
     nth_error (fn_commitments n) (2 + i) = Some (derive_record_commitment (turned r i x))) /\
  exists f2, freezer_scan_txn f' (TxFreeze n) memos (length lv) = Ok f2 /\
    (forall a y, listed (call_book f2 freeze) a y <-> listed (call_book f freeze) a y /\ a <> user) /\
    (forall a y, listed (other_book f2 freeze) a y <-> listed (other_book f freeze) a y \/
       (a = user /\ exists i x, nth_error records i = Some x /\ y = (turned r i x, w64 (Z.of_nat (length lv + 2 + i))))).
Proof. exact (call_effect L KL g depth f lv ws se sh fz r user fee leaves freeze f' n memos sg records). Qed.
Print Assumptions C63_effect.

(** what [turned] keeps and changes *)
Theorem C63_turned (C : CapConfig) (S : Snark C) (r : FreezeUserRand) i (x : Owned) :
  amount (turned r i x) = amount (fst x) /\ asset_def (turned r i x) = asset_def (fst x) /\ pub_key (turned r i x) = pub_key (fst x) /\
  freeze_flag (turned r i x) = (match freeze_flag (fst x) with Frozen => Unfrozen | Unfrozen => Frozen end) /\ blind (turned r i x) = frd_blinds (fu_note r) (1 + i)%nat.
Proof. repeat split; reflexivity. Qed.
Print Assumptions C63_turned.

(** the owner's wallet, when it scans the note, does not hold the old records any more *)
Theorem C63_owner_loses (C : CapConfig) (L : CapLaws C) (S : Snark C) (K : @RoCodec C) (KL : RoCodecLaws K) (E : MemoSer C)
    g depth f lv ws se sh fz r user fee leaves freeze f' n memos sg records x w wse wsh w2 found wse' :
  fruns g depth f lv ws se sh fz -> apart f lv se fz -> freezer_pub_key (fm_kp f) <> pt_id ->
  freeze_user_internal g depth f r user fee leaves freeze = (f', Ok (n, memos, sg)) -> amap_get user (call_book f freeze) = Some records -> In x records ->
  pub_key (fst x) = user_pub_key (w_kp w) -> runs w lv wse wsh -> scan_txn w (TxFreeze n) memos (length lv) = Ok (w2, found) ->
  (forall y, In y wse' <-> In y wse \/ paid w (TxFreeze n) memos (length lv) y) ->
  ordinary w2 (lv ++ fn_commitments n) wse' (wsh ++ shown_by (TxFreeze n) (length lv)) -> ~ holds w2 x.
Proof. exact (owner_loses L KL g depth f lv ws se sh fz r user fee leaves freeze f' n memos sg records x w wse wsh w2 found wse'). Qed.
Print Assumptions C63_owner_loses.

(** after a note that releases, the owner's wallet holds the released records *)
Theorem C63_owner_regains (C : CapConfig) (L : CapLaws C) (S : Snark C) (K : @RoCodec C) (KL : RoCodecLaws K) (E : MemoSer C)
    g depth f lv ws se sh fz r user fee leaves f' n memos sg records i x w wse wsh w2 found wse' :
  fruns g depth f lv ws se sh fz -> apart f lv se fz ->
  unfreeze_user g depth f r user fee leaves = (f', Ok (n, memos, sg)) -> amap_get user (fm_releasable f) = Some records -> nth_error records i = Some x ->
  pub_key (fst x) = user_pub_key (w_kp w) -> runs w lv wse wsh -> scan_txn w (TxFreeze n) memos (length lv) = Ok (w2, found) ->
  (forall y, In y wse' <-> In y wse \/ paid w (TxFreeze n) memos (length lv) y) ->
  ordinary w2 (lv ++ fn_commitments n) wse' (wsh ++ shown_by (TxFreeze n) (length lv)) ->
  let y := (turned r i x, w64 (Z.of_nat (length lv + 2 + i))) in
  ~ In (w_nullify w y) (fn_nullifiers n) -> holds w2 y.
Proof. exact (owner_regains L KL g depth f lv ws se sh fz r user fee leaves f' n memos sg records i x w wse wsh w2 found wse'). Qed.
Print Assumptions C63_owner_regains.

(** Not proved because false: that a user who has listed records can always be frozen.  A record that its owner spends
    stays listed, and from then on every call for that owner makes a note that the validator rejects. *)
Theorem C63_spent_record_blocks (C : CapConfig) (L : CapLaws C) (S : Snark C) (K : @RoCodec C) (E : MemoSer C)
    v g depth f l ws se sh fz r fee freeze f' n memos sg x (ts : u64) :
  freezer_in_step g depth f l ws se sh fz -> apart f (lg_leaves l) se fz ->
  In x se -> freeze_flag (fst x) = call_flag freeze -> intact f fz x -> In (fnull f x) (lg_nullifiers l) ->
  listed (call_book f freeze) (address (pub_key (fst x))) x /\
  (freeze_user_internal g depth f r (address (pub_key (fst x))) fee (lg_leaves l) freeze = (f', Ok (n, memos, sg)) -> validate_txns_batch v l [TxFreeze n] ts <> Ok tt).
Proof. exact (stale_rejected L v g depth f l ws se sh fz r fee freeze f' n memos sg x ts). Qed.
Print Assumptions C63_spent_record_blocks.

(** Not proved because false: that calls may overlap.  After a second call for the same user before the first note is
    scanned, the freezer lists for the first note the openings of the second. *)
Theorem C63_second_call (C : CapConfig) (L : CapLaws C) (S : Snark C) (K : @RoCodec C) (E : MemoSer C)
    g depth f lv ws se sh fz r fee r' fee' user leaves leaves' freeze f1 n memos sg f2 n' memos' sg' records f3 :
  fruns g depth f lv ws se sh fz -> apart f lv se fz -> amap_get user (call_book f freeze) = Some records ->
  (forall x, In x se -> ~ In (fnull f x) (padding r freeze)) ->
  freeze_user_internal g depth f r user fee leaves freeze = (f1, Ok (n, memos, sg)) ->
  freeze_user_internal g depth f1 r' user fee' leaves' freeze = (f2, Ok (n', memos', sg')) ->
  Z.of_nat (length lv + length (fn_commitments n)) <= 2 ^ 64 ->
  freezer_scan_txn f2 (TxFreeze n) memos (length lv) = Ok f3 ->
  forall i x, nth_error records i = Some x ->
    nth_error (fn_commitments n) (2 + i) = Some (derive_record_commitment (turned r i x)) /\
    listed (other_book f3 freeze) user (turned r' i x, w64 (Z.of_nat (length lv + 2 + i))).
Proof. exact (second_call_confuses L g depth f lv ws se sh fz r fee r' fee' user leaves leaves' freeze f1 n memos sg f2 n' memos' sg' records f3). Qed.
Print Assumptions C63_second_call.

(** ** Concrete cases *)

(** a block with one mint of the asset meets the hypotheses of [C62_blocks] *)
Example C62_blocks_example : exists n memo f' l',
  @freezer_in_step T TS w_codec toy_memo_i tt 3 fs_f fs_l fs_seen [] [] [] /\
  Forall2 (@own_txn T TS fs_f 3 []) (bk_txns (fs_block n)) [[ro_value fs_ro]] /\ NoDup (flat_map (@tx_nullifiers T TS) (bk_txns (fs_block n))) /\
  (forall x, @txns_make T TS fs_f [] (bk_txns (fs_block n)) [[ro_value fs_ro]] 4 x <-> x = fs_x) /\
  ~ In (@fnull T fs_f fs_x) (flat_map (@tx_nullifiers T TS) (bk_txns (fs_block n))) /\
  @freezer_scan_block T TS w_codec fs_f (fs_block n) [[memo]] 4 = Ok f' /\ @insert_block T TS 3 fs_l (fs_block n) = (l', Ok tt).
Proof. destruct fs_minted as (pk & n & Q). destruct fs_memo as (memo & HM). destruct (fs_block_scan _ _ _ _ Q HM) as (f' & l' & H). exists n, memo, f', l'. exact H. Qed.

(** a freezer with two native records, a mint of its asset for a user that it knows: the scanned state meets the
    hypotheses of C62 and C63, and the freeze of the user is made and accepted *)
Example C63_accepted_example (ts : u64) : exists pk n sk memo f f' fn memos sg,
  fs_mint pk = Ok (n, sk) /\ @freezer_scan_txn T TS w_codec fs_f (TxMint n) [memo] 4 = Ok f /\
  @freezer_in_step T TS w_codec toy_memo_i tt 3 f (fs_after n) fs_seen [fs_x] (fs_shown n) [] /\
  apart f (lg_leaves (fs_after n)) [fs_x] [] /\ ordinary (fm_wallet f) (lg_leaves (fs_after n)) fs_seen (fs_shown n) /\
  amap_get (address fs_user) (call_book f true) = Some [fs_x] /\
  @good_padding T TS f (fs_rand 0) true fs_seen [fs_x] (lg_nullifiers (fs_after n)) /\
  @freeze_user_internal T TS w_codec toy_memo_i tt 3 f (fs_rand 0) (address fs_user) (s_amount 2) (lg_leaves (fs_after n)) true = (f', Ok (fn, memos, sg)) /\
  @validate_txns_batch T TS (@mkValidator T TS tt (fun _ => @sz toy_field 55) 3) (fs_after n) [TxFreeze fn] ts = Ok tt.
Proof.
  destruct fs_minted as (pk & n & Q). destruct fs_memo as (memo & HM). destruct (fs_live _ _ _ _ ts Q HM) as (f & f' & fn & memos & sg & H).
  exists pk, n, (mrd_sig (m_rand true)), memo, f, f', fn, memos, sg. split; [exact Q|exact H].
Qed.
(** computed: a mint and two calls of which the first is confirmed.  [fs_honest]: the listed openings are those in the tree. *)
Example C63_run : get (fs_mint_step fs_start) (fun w1 => get (fs_confused w1) (fun w => negb (fs_honest w))) = true.
Proof. vm_compute. reflexivity. Qed.
(** user 13 spends part of the record: the hypotheses of [C63_spent_record_blocks] *)
Example C63_spent_record_example : exists f n m sh,
  @freezer_in_step T TS w_codec toy_memo_i tt 3 f (fs_end n m) fs_seen fs_pay_seen sh [] /\ apart f (lg_leaves (fs_end n m)) fs_pay_seen [] /\
  In fs_x fs_pay_seen /\ freeze_flag (fst fs_x) = call_flag true /\ intact f [] fs_x /\ In (@fnull T f fs_x) (lg_nullifiers (fs_end n m)).
Proof.
  destruct fs_minted as (pk & n & Q). destruct fs_memo as (memo & HM). destruct fs_paid_note as (pk' & m & sk' & Q'). destruct fs_pay_memos_ok as (memos & HM').
  destruct (fs_stale _ _ _ _ _ _ _ _ Q HM Q' HM') as (f0 & f & sh & _ & _ & H1 & H2 & H3). exists f, n, m, sh.
  split; [exact H1|]. split; [exact H2|]. split; [left; reflexivity|]. split; [reflexivity|]. split; [intros k []|exact H3].
Qed.
