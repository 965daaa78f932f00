(** Properties of ledger histories: the validator and the ledger of tests/examples.rs (Ledger.v) accept any sequence of
    mints and blocks, the blocks made by anybody.  What the accepted notes spend and create is stated with openings, the
    values behind a note (Relation.v), and the vocabulary of LedgerSpec.v. *)
From Verif Require Import Base Config Structs Keys Utils Memo Plonk Witness Circuits Relation Snark Notes Serde SerdeProofs ToySer
  GadgetProofs NoteProofs Accepted CircuitFacts Toy ToySnark Samples NoteSamples Ledger LedgerSpec LedgerProofs LedgerSupply LedgerBlocks
  LedgerSamples LedgerForged.
#[local] Existing Instance toy_snark.
#[local] Existing Instance l_ser.

(** ** C44: no record is spent twice *)

(** every note of an accepted block has an opening: whoever made it knew records in the tree with these nullifiers *)
Theorem C44_openings_exist (C : CapConfig) (L : CapLaws C) (S : Snark C) (SL : SnarkLaws S) (Z0 : Ser C S) (v : Validator) (h : list event) :
  exists op, forall t, In t (accepted v h) -> tx_opens (vd_depth v) t (op t).
Proof. exact (history_openings L SL v h). Qed.
Print Assumptions C44_openings_exist.
(** no nullifier occurs twice, and the ledger knows exactly the nullifiers of the accepted notes *)
Theorem C44_nullifiers_once (C : CapConfig) (S : Snark C) (Z0 : Ser C S) (v : Validator) (h : list event) :
  NoDup (flat_map tx_nullifiers (accepted v h)) /\
  (forall n, check_nullifier (ledger_after v h) n = true <-> In n (flat_map tx_nullifiers (accepted v h))).
Proof. exact (accepted_nullifiers v h). Qed.
Print Assumptions C44_nullifiers_once.
(** whatever is spent was inserted: the input sits at its position in the list of inserted commitments *)
Theorem C44_spent_records_exist (C : CapConfig) (L : CapLaws C) (S : Snark C) (Z0 : Ser C S) (v : Validator)
  (op : TransactionNote -> Opening) (h : list event) : (vd_depth v <= 100)%nat ->
  (forall t, In t (accepted v h) -> tx_opens (vd_depth v) t (op t)) ->
  let spends := spends_of op (accepted v h) in
  let leaves := lg_leaves (ledger_after v h) in
  hash_collision_free (history_hashes (vd_depth v) leaves spends) ->
  leaves = map commitment_of (records op v h) /\
  forall s, In s spends -> exists j, nth_error leaves j = Some (commitment_of (sp_ro s)) /\
    pl_uid (sp_place s) = fz (Z.of_nat j) /\ Z.of_nat j < modulus.
Proof. intros Hd HO spends leaves HF. split; [exact (leaves_are_records L v op h HO)|]. exact (fun s Hs => spend_in_tree L v op Hd h HO HF s Hs). Qed.
Print Assumptions C44_spent_records_exist.
(** no two inputs of a history spend the record at the same position, whatever openings the notes have *)
Theorem C44_no_double_spend (C : CapConfig) (L : CapLaws C) (S : Snark C) (Z0 : Ser C S) (v : Validator)
  (op : TransactionNote -> Opening) (h : list event) : (vd_depth v <= 100)%nat ->
  (forall t, In t (accepted v h) -> tx_opens (vd_depth v) t (op t)) ->
  let spends := spends_of op (accepted v h) in
  hash_collision_free (history_hashes (vd_depth v) (lg_leaves (ledger_after v h)) spends) ->
  commitment_binding (map sp_ro spends) ->
  (forall s, In s spends -> zv (sp_sk s) < sub_order /\ ro_owner (sp_ro s) <> no_key) ->
  NoDup (map (fun s => pl_uid (sp_place s)) spends).
Proof. exact (fun Hd HO HF HB HK => no_double_spend L v op Hd h HO HF HB HK). Qed.
Print Assumptions C44_no_double_spend.
(** the condition on the secrets is needed: with 11 and 11 + (group order) one record is spent twice in one block *)
Theorem C44_noncanonical_secret_refuted :
  ~ (forall (C : CapConfig) (L : CapLaws C) (S : Snark C) (SL : SnarkLaws S) (Z0 : Ser C S) (v : Validator)
       (op : TransactionNote -> Opening) (h : list event), (vd_depth v <= 100)%nat ->
       (forall t, In t (accepted v h) -> tx_opens (vd_depth v) t (op t)) ->
       let spends := spends_of op (accepted v h) in
       hash_collision_free (history_hashes (vd_depth v) (lg_leaves (ledger_after v h)) spends) ->
       commitment_binding (map sp_ro spends) ->
       (forall s, In s spends -> ro_owner (sp_ro s) <> no_key) ->
       NoDup (map (fun s => pl_uid (sp_place s)) spends)).
Proof.
  intros H. destruct forged_double_spend as (n & n' & h & _ & _ & H1 & H2 & H3 & H4 & H5).
  specialize (H T (toy_laws true) TS (toy_snark_laws true) l_ser l_validator dd_op h). cbv zeta in H.
  rewrite H5 in H. assert (K : NoDup [@fz toy_field 0; @fz toy_field 0]).
  { apply H; auto; [cbn; lia|]. intros x y Hx Hy. apply H3; apply in_or_app; right; assumption. }
  inversion K as [|? ? K1 _]. apply K1. left. reflexivity.
Qed.
Print Assumptions C44_noncanonical_secret_refuted.
(** an accepted transfer with two inputs, and a block that would spend one of them again *)
Example C44_example : exists n sk m sk', h_transfer true = Ok (n, sk) /\ h_mint true = Ok (m, sk') /\
  let h := l_history (h_fee true) (h_in1 true) (h_in2 true) [[TxTransfer n]; [TxMint m]] in
  let op := l_op (OpTransfer h_opening) in
  (vd_depth l_validator <= 100)%nat /\ l_accepted h = [TxTransfer n] /\
  (forall t, In t (l_accepted h) -> @tx_opens T TS 2 t (op t)) /\
  @hash_collision_free T (@history_hashes T 2 (lg_leaves (l_after h)) (l_spends op h)) /\
  @commitment_binding T (map sp_ro (l_spends op h)) /\
  (forall s, In s (l_spends op h) -> zv (sp_sk s) < @sub_order toy_field /\ ro_owner (sp_ro s) <> @no_key T) /\
  length (l_spends op h) = 2%nat /\ length (lg_leaves (l_after h)) = 7%nat.
Proof.
  destruct honest_history as (n & sk & m & sk' & E1 & E2 & H1 & H2 & H3 & H4 & H5 & _ & H6 & H7 & _).
  exists n, sk, m, sk'. split; [exact E1|]. split; [exact E2|]. cbv zeta. split; [cbn; lia|]. split; [exact H1|]. split; [exact H2|]. split; [exact H3|].
  split; [intros x y Hx Hy; apply H4; apply in_or_app; right; assumption|]. auto.
Qed.

(** ** C45: supply changes only by minting *)
(** For every asset: what the unspent records hold (plus, for the native asset, the fees of blocks whose fee record could
    not be made) is what the test minted and the mint notes declared. *)
Theorem C45_supply_by_minting (C : CapConfig) (L : CapLaws C) (S : Snark C) (Z0 : Ser C S) (v : Validator)
  (op : TransactionNote -> Opening) (h : list event) : (vd_depth v <= 100)%nat ->
  (forall t, In t (accepted v h) -> tx_opens (vd_depth v) t (op t)) ->
  let spends := spends_of op (accepted v h) in
  hash_collision_free (history_hashes (vd_depth v) (lg_leaves (ledger_after v h)) spends) ->
  commitment_binding (records op v h ++ map sp_ro spends) ->
  (forall s, In s spends -> zv (sp_sk s) < sub_order /\ ro_owner (sp_ro s) <> no_key) ->
  (forall t, In t (accepted v h) -> supply_condition t (op t)) ->
  forall c, c <> dummy_asset_code ->
  total c (unspent (records op v h) spends) +
    (if zeqb native_asset_code c then sumz (map event_lost_fees (effective v (ledger_new (vd_depth v)) h)) else 0) =
  sumz (map (event_mints c) (effective v (ledger_new (vd_depth v)) h)).
Proof.
  intros Hd HO spends HF HB HK HC c Hc. apply (supply_by_minting L v op Hd h HO HF); auto.
  intros x y Hx Hy. apply HB; apply in_or_app; right; assumption.
Qed.
Print Assumptions C45_supply_by_minting.
Example C45_example : exists n sk m sk', h_transfer true = Ok (n, sk) /\ h_mint true = Ok (m, sk') /\
  let h := l_history (h_fee true) (h_in1 true) (h_in2 true) [[TxTransfer n]; [TxMint m]] in
  let op := l_op (OpTransfer h_opening) in
  (vd_depth l_validator <= 100)%nat /\
  (forall t, In t (l_accepted h) -> @tx_opens T TS 2 t (op t)) /\
  @hash_collision_free T (@history_hashes T 2 (lg_leaves (l_after h)) (l_spends op h)) /\
  @commitment_binding T (l_records op h ++ map sp_ro (l_spends op h)) /\
  (forall s, In s (l_spends op h) -> zv (sp_sk s) < @sub_order toy_field /\ ro_owner (sp_ro s) <> @no_key T) /\
  (forall t, In t (l_accepted h) -> @supply_condition T TS t (op t)) /\
  @total T native_asset_code (@unspent T (l_records op h) (l_spends op h)) = 20 /\
  @total T h_code (@unspent T (l_records op h) (l_spends op h)) = 38.
Proof.
  destruct honest_history as (n & sk & m & sk' & E1 & E2 & H1 & H2 & H3 & H4 & H5 & H6 & _ & _ & H7 & H8).
  exists n, sk, m, sk'. split; [exact E1|]. split; [exact E2|]. cbv zeta. split; [cbn; lia|]. auto 10.
Qed.
(** Without the side conditions on the accepted notes it is false: the circuits accept a transfer whose inputs have
    another asset code, which makes 30 units of an asset that was never minted ... *)
Theorem C45_without_side_conditions_refuted :
  ~ (forall (C : CapConfig) (L : CapLaws C) (S : Snark C) (SL : SnarkLaws S) (Z0 : Ser C S) (v : Validator)
       (op : TransactionNote -> Opening) (h : list event), (vd_depth v <= 100)%nat ->
       (forall t, In t (accepted v h) -> tx_opens (vd_depth v) t (op t)) ->
       let spends := spends_of op (accepted v h) in
       hash_collision_free (history_hashes (vd_depth v) (lg_leaves (ledger_after v h)) spends) ->
       commitment_binding (records op v h ++ map sp_ro spends) ->
       (forall s, In s spends -> zv (sp_sk s) < sub_order /\ ro_owner (sp_ro s) <> no_key) ->
       forall c, c <> dummy_asset_code -> c <> native_asset_code ->
       total c (unspent (records op v h) spends) = sumz (map (event_mints c) (effective v (ledger_new (vd_depth v)) h))).
Proof.
  intros H. destruct forged_supply as (n & h & op & _ & HE & _ & H1 & H2 & H3 & H4 & H5 & H6).
  specialize (H T (toy_laws true) TS (toy_snark_laws true) l_ser l_validator op h ltac:(cbn; lia) H1 H2 H3 H4 (@fz toy_field 8888)). cbv zeta in H.
  change (vd_depth l_validator) with 2%nat in H. rewrite HE, H5, H6 in H.
  assert (K : 30 = 0); [|discriminate K]. apply H; apply zeqb_neq; vm_compute; reflexivity.
Qed.
Print Assumptions C45_without_side_conditions_refuted.
(** ... and a mint whose fee exceeds the record it is paid from, which multiplies the native asset *)
Theorem C45_uncovered_fee_refuted : exists (h : list (@event T TS)) op,
  (forall t, In t (l_accepted h) -> @tx_opens T TS (vd_depth l_validator) t (op t)) /\
  @hash_collision_free T (@history_hashes T (vd_depth l_validator) (lg_leaves (l_after h)) (l_spends op h)) /\
  @commitment_binding T (l_records op h ++ map sp_ro (l_spends op h)) /\
  (forall s, In s (l_spends op h) -> zv (sp_sk s) < @sub_order toy_field /\ ro_owner (sp_ro s) <> @no_key T) /\
  sumz (map (@event_mints T TS native_asset_code) (l_effective h)) = 20 /\
  @total T native_asset_code (@unspent T (l_records op h) (l_spends op h)) = @modulus toy_field + 20.
Proof.
  destruct forged_fee as (n & h & op & _ & HE & _ & H1 & H2 & H3 & H4 & H5 & H6). exists h, op. rewrite HE. auto 10.
Qed.
Print Assumptions C45_uncovered_fee_refuted.
(** The native asset can be minted by a note in a block, although such a note is refused when verified alone: all
    conditions above hold, the test minted 20 native units, and the unspent records hold a million more. *)
Theorem C45_native_supply_refuted : exists (n : @MintNote T TS) (h : list (@event T TS)) op,
  l_accepted h = [TxMint n] /\
  (forall t, In t (l_accepted h) -> @tx_opens T TS (vd_depth l_validator) t (op t)) /\
  @hash_collision_free T (@history_hashes T (vd_depth l_validator) (lg_leaves (l_after h)) (l_spends op h)) /\
  @commitment_binding T (l_records op h ++ map sp_ro (l_spends op h)) /\
  (forall s, In s (l_spends op h) -> zv (sp_sk s) < @sub_order toy_field /\ ro_owner (sp_ro s) <> @no_key T) /\
  (forall t, In t (l_accepted h) -> @supply_condition T TS t (op t)) /\
  sumz (map (fun e => match e with EvMint _ => @event_mints T TS native_asset_code e | _ => 0 end) h) = 20 /\
  @total T native_asset_code (@unspent T (l_records op h) (l_spends op h)) = 1000020.
Proof.
  destruct native_inflation as (n & h & op & Eh & HE & H0 & H1 & H2 & H3 & H4 & H5 & H6 & H7). exists n, h, op. 
  split; [exact H0|]. split; [exact H1|]. split; [exact H2|]. split; [exact H3|]. split; [exact H4|]. split; [exact H5|]. split; [|exact H6].
  rewrite Eh. exact H7.
Qed.
Print Assumptions C45_native_supply_refuted.

(** ** C52: blocks *)
(** a block made by [collect_fee_and_build_block] is valid whenever its notes are, and pays their fees to its maker *)
Theorem C52_built_blocks (C : CapConfig) (L : CapLaws C) (S : Snark C) (Z0 : Ser C S) :
  (forall v l wallet bl txns ro b sig ts, collect_fee_and_build_block wallet bl txns = Ok (ro, b, sig) ->
    bk_txns b = txns /\ bk_proposer b = user_pub_key wallet /\
    zv (amount ro) = sumz (map (fun t => zv (tx_fee t)) txns) /\ asset_def ro = asset_def_native /\
    pub_key ro = user_pub_key wallet /\ freeze_flag ro = Unfrozen /\
    validate_block v l b sig ts (user_pub_key wallet) = validate_txns_batch v l txns ts /\
    exists l', insert_block (vd_depth v) l b = (l', Ok tt) /\
      lg_leaves l' = lg_leaves l ++ flat_map tx_output_commitments txns ++ [derive_record_commitment ro] /\
      In (tree_root (vd_depth v) (lg_leaves l')) (lg_roots l')) /\
  (forall wallet bl (txns : list TransactionNote), sumz (map (fun t => zv (tx_fee t)) txns) < 2 ^ 128 ->
    exists x, collect_fee_and_build_block wallet bl txns = Ok x) /\
  (forall wallet bl (txns : list TransactionNote), 2 ^ 128 <= sumz (map (fun t => zv (tx_fee t)) txns) ->
    collect_fee_and_build_block wallet bl txns = Err IncorrectFee).
Proof. exact (conj (built_block L) (conj built_block_succeeds built_block_fails)). Qed.
Print Assumptions C52_built_blocks.
(** what a validator refuses: a nullifier of the ledger, a repeated nullifier, an unknown root, another proposer, and
    every note that was accepted before *)
Theorem C52_refused_blocks (C : CapConfig) (L : CapLaws C) (S : Snark C) (SL : SnarkLaws S) (Z0 : Ser C S) v :
  (forall l b sig ts pk n, check_nullifier l n = true -> In n (flat_map tx_nullifiers (bk_txns b)) -> validate_block v l b sig ts pk <> Ok tt) /\
  (forall l b sig ts pk, ~ NoDup (flat_map tx_nullifiers (bk_txns b)) -> validate_block v l b sig ts pk <> Ok tt) /\
  (forall l b sig ts pk t, In t (bk_txns b) -> check_valid_root l (tx_merkle_root t) = false -> validate_block v l b sig ts pk <> Ok tt) /\
  (forall l b sig ts pk, bk_proposer b <> pk -> validate_block v l b sig ts pk <> Ok tt) /\
  (forall h t b sig ts pk, In t (accepted v h) -> In t (bk_txns b) -> validate_block v (ledger_after v h) b sig ts pk <> Ok tt).
Proof.
  exact (conj (no_replay v) (conj (no_repeat v) (conj (no_foreign_root v) (conj (wrong_proposer L v) (accepted_once L SL v))))).
Qed.
Print Assumptions C52_refused_blocks.
Theorem C52_single_note (C : CapConfig) (S : Snark C) (SL : SnarkLaws S) (Z0 : Ser C S) v l n ts :
  validate_single_xfr_note v l n ts = Ok tt <-> validate_txns_batch v l [TxTransfer n] ts = Ok tt.
Proof. exact (single_note SL v l n ts). Qed.
Print Assumptions C52_single_note.
Example C52_example :
  get (h_transfer true) (fun n =>
    get (@collect_fee_and_build_block T TS l_ser (s_user true 20) (@fz toy_field 777) [TxTransfer (fst n)]) (fun x =>
      let '(ro, b, sig) := x in
      let l := l_start (h_fee true) (h_in1 true) (h_in2 true) in
      (zv (amount ro) =? 5) && done (@validate_block T TS l_ser l_validator l b sig (w64 500) l_proposer) &&
      negb (done (@validate_block T TS l_ser l_validator (fst (@insert_block T TS 2 l b)) b sig (w64 500) l_proposer)) &&
      done (@validate_single_xfr_note T TS l_validator l (fst n) (w64 500)))) = true.
Proof. vm_compute. reflexivity. Qed.

(** ** C53: the encoding and the signature of a block *)
Theorem C53_block_encoding (C : CapConfig) (S : Snark C) (Z0 : Ser C S) (ZL : SerLaws Z0) :
  (forall b s, block_fits b -> dec c_block (enc c_block b ++ s) = Ok (b, s)) /\
  (forall b b', block_fits b -> block_fits b' -> enc c_block b = enc c_block b' -> b = b').
Proof. exact (block_codec ZL). Qed.
Print Assumptions C53_block_encoding.
(** one signature for two blocks needs a hash collision or a signature valid for two messages *)
Theorem C53_block_signature (C : CapConfig) (S : Snark C) (Z0 : Ser C S) (ZL : SerLaws Z0) v l l' b b' sig ts ts' pk :
  block_fits b -> block_fits b' -> b <> b' ->
  validate_block v l b sig ts pk = Ok tt -> validate_block v l' b' sig ts' pk = Ok tt ->
  enc c_block b <> enc c_block b' /\
  (hash_to_f (enc c_block b) = hash_to_f (enc c_block b') \/
   ([hash_to_f (enc c_block b)] <> [hash_to_f (enc c_block b')] /\ sig_ok (address pk) [hash_to_f (enc c_block b)] sig = true /\
    sig_ok (address pk) [hash_to_f (enc c_block b')] sig = true)).
Proof. exact (block_signature ZL v l l' b b' sig ts ts' pk). Qed.
Print Assumptions C53_block_signature.
(** a block of two notes, encoded and read back; and a valid block whose signature does not fit the same block with its
    notes exchanged or with another blinding factor *)
Definition doc_block : @Block T doc_snark := @mkBlock T doc_snark [doc_note; doc_mint] (@fz toy_field 5) l_proposer.
Example C53_example :
  @SerLaws T doc_snark doc_ser /\ @block_fits T doc_snark doc_block /\
  @dec _ (@c_block T doc_snark doc_ser) (@enc _ (@c_block T doc_snark doc_ser) doc_block ++ [b8 3]) = Ok (doc_block, [b8 3]) /\
  let sg := @user_sign T (s_user true 20) (@enc _ (@c_block T doc_snark doc_ser) doc_block) in
  match @user_verify_sig T l_proposer (@enc _ (@c_block T doc_snark doc_ser) doc_block) sg,
        @user_verify_sig T l_proposer (@enc _ (@c_block T doc_snark doc_ser) (@mkBlock T doc_snark [doc_mint; doc_note] (@fz toy_field 5) l_proposer)) sg,
        @user_verify_sig T l_proposer (@enc _ (@c_block T doc_snark doc_ser) (@mkBlock T doc_snark [doc_note; doc_mint] (@fz toy_field 6) l_proposer)) sg with
  | Ok _, Err _, Err _ => True | _, _, _ => False end.
Proof.
  assert (F1 : @block_fits T doc_snark doc_block).
  { split; [vm_compute; reflexivity|]. constructor; [|constructor; [|constructor]]; vm_compute; repeat split; reflexivity. }
  split; [exact doc_ser_laws|]. split; [exact F1|]. split; [exact (proj1 (block_codec doc_ser_laws) _ _ F1)|]. vm_compute. exact I.
Qed.
