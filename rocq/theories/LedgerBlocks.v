(** Proofs about single blocks: honest building, replay, encoding and signature of blocks. *)
From Verif Require Import Base Config Structs Keys Utils Memo Plonk Witness Circuits Snark Notes Serde CodecProofs PolicyProofs UtilsProofs NoteProofs
  NoteThms SerdeProofs Accepted Ledger LedgerSpec LedgerProofs.

Section LedgerBlocks.
  Context {C : CapConfig} (L : CapLaws C) {S : Snark C} {Z0 : Ser C S}.

  Lemma built_block v l wallet bl txns ro b sig ts :
    collect_fee_and_build_block wallet bl txns = Ok (ro, b, sig) ->
    bk_txns b = txns /\ bk_proposer b = user_pub_key wallet /\
    zv (amount ro) = sumz (map (fun t => zv (tx_fee t)) txns) /\ asset_def ro = asset_def_native /\
    pub_key ro = user_pub_key wallet /\ freeze_flag ro = Unfrozen /\
    validate_block v l b sig ts (user_pub_key wallet) = validate_txns_batch v l txns ts /\
    exists l', insert_block (vd_depth v) l b = (l', Ok tt) /\
      lg_leaves l' = lg_leaves l ++ flat_map tx_output_commitments txns ++ [derive_record_commitment ro] /\
      In (tree_root (vd_depth v) (lg_leaves l')) (lg_roots l').
  Proof.
    unfold collect_fee_and_build_block. intros H. bindH H f Hf. injection H as <- <- <-. cbn [bk_txns bk_proposer amount asset_def pub_key freeze_flag].
    split; [reflexivity|]. split; [reflexivity|]. split.
    { unfold txns_calculate_fee in Hf. apply calculate_fee_spec in Hf. rewrite map_map in Hf. rewrite <- Hf. reflexivity. }
    split; [reflexivity|]. split; [reflexivity|]. split; [reflexivity|]. split.
    - unfold validate_block. cbn [bk_proposer bk_txns]. rewrite (proj2 (user_pub_key_eqb_spec L _ _) eq_refl). cbn [negb fail_if bind].
      unfold user_verify_sig, user_sign. cbn [user_pub_key address]. unfold user_address, ver_key.
      rewrite (sig_correct L). reflexivity.
    - unfold insert_block. cbn [bk_txns]. rewrite insert_txns_spec. unfold block_fee_record. cbn [bk_txns bk_proposer bk_blind]. rewrite Hf. cbn [bind].
      eexists. split; [reflexivity|]. unfold store_current_mt_root, insert_record. cbn [lg_leaves lg_roots]. rewrite <- app_assoc. split; [reflexivity|left; reflexivity].
  Qed.
  Lemma built_block_fails wallet bl txns : 2 ^ 128 <= sumz (map (fun t : TransactionNote => zv (tx_fee t)) txns) ->
    collect_fee_and_build_block wallet bl txns = Err IncorrectFee.
  Proof.
    intros H. unfold collect_fee_and_build_block, txns_calculate_fee. destruct calculate_fee_spec as (_ & _ & K & _). rewrite K; [reflexivity|].
    rewrite map_map. exact H.
  Qed.
  Lemma built_block_succeeds wallet bl txns : sumz (map (fun t : TransactionNote => zv (tx_fee t)) txns) < 2 ^ 128 ->
    exists x, collect_fee_and_build_block wallet bl txns = Ok x.
  Proof.
    intros H. unfold collect_fee_and_build_block, txns_calculate_fee. destruct calculate_fee_spec as (_ & K & _). destruct (K (map tx_fee txns)) as (f & E).
    - rewrite map_map. exact H.
    - rewrite E. cbn [bind]. eauto.
  Qed.

  (** a note whose nullifier is in the ledger, and a block that names a nullifier twice, are not accepted *)
  Lemma no_replay v l b sig ts pk n : check_nullifier l n = true -> In n (flat_map tx_nullifiers (bk_txns b)) ->
    validate_block v l b sig ts pk <> Ok tt.
  Proof.
    intros Hn Hi H. apply valid_block_inv in H. destruct H as (_ & _ & _ & _ & _ & H). apply (H n Hi). unfold check_nullifier in Hn.
    apply existsb_exists in Hn. destruct Hn as (x & Hx & E). apply zeqb_spec in E. subst. exact Hx.
  Qed.
  Lemma no_repeat v l b sig ts pk : ~ NoDup (flat_map tx_nullifiers (bk_txns b)) -> validate_block v l b sig ts pk <> Ok tt.
  Proof. intros Hn H. apply valid_block_inv in H. destruct H as (_ & _ & _ & _ & H & _). exact (Hn H). Qed.
  Lemma no_foreign_root v l b sig ts pk t : In t (bk_txns b) -> check_valid_root l (tx_merkle_root t) = false -> validate_block v l b sig ts pk <> Ok tt.
  Proof.
    intros Ht Hr H. apply valid_block_inv in H. destruct H as (_ & _ & _ & H & _). specialize (H t Ht).
    assert (E : check_valid_root l (tx_merkle_root t) = true); [|congruence]. apply existsb_exists. eexists. split; [exact H|apply zeqb_refl].
  Qed.
  Lemma wrong_proposer v l b sig ts pk : bk_proposer b <> pk -> validate_block v l b sig ts pk <> Ok tt.
  Proof.
    intros Hp H. unfold validate_block in H. failH H. apply negb_false_iff, (user_pub_key_eqb_spec L) in K. contradiction.
  Qed.
  (** an accepted note cannot be accepted again, in any later block *)
  Lemma accepted_once (SL : SnarkLaws S) v h t b sig ts pk : In t (accepted v h) -> In t (bk_txns b) ->
    validate_block v (ledger_after v h) b sig ts pk <> Ok tt.
  Proof.
    intros Ha Hb. destruct (accepted_open L SL v h _ t Ha) as (o & Ho). destruct (tx_facts L _ t o Ho) as (_ & Hn & _).
    destruct (tx_nullifiers t) as [|n ns] eqn:E; [contradiction|].
    apply (no_replay v _ b sig ts pk n).
    - apply accepted_nullifiers. apply in_flat_map. exists t. split; [exact Ha|]. rewrite E. left; reflexivity.
    - apply in_flat_map. exists t. split; [exact Hb|]. rewrite E. left; reflexivity.
  Qed.

  (** checking one transfer note by itself or as a block of one note is the same *)
  Lemma single_note (SL : SnarkLaws S) v l n ts : validate_single_xfr_note v l n ts = Ok tt <-> validate_txns_batch v l [TxTransfer n] ts = Ok tt.
  Proof.
    unfold validate_single_xfr_note, validate_txns_batch. cbn [collect_keys key_for tx_nullifiers tx_merkle_root].
    destruct (transfer_preprocess (vd_srs v) (length (tn_nullifiers n)) (length (tn_commitments n)) (vd_depth v)) as [k|e|] eqn:E; cbn [unwrap bind]; [|split; discriminate..].
    destruct (check_txn_input_nullifiers l (tn_nullifiers n) []) as [ch|e|]; cbn [bind]; [|split; discriminate..].
    destruct (check_valid_root l (ta_root (tn_aux n))); cbn [negb fail_if bind]; [|split; discriminate].
    assert (V : transfer_verify n (snd k) (ta_root (tn_aux n)) ts = tx_verify (TxTransfer n) (VkTransfer (snd k)) (ta_root (tn_aux n)) ts) by reflexivity.
    rewrite V. rewrite (batch_iff SL) by discriminate. split.
    - intros H. split; [reflexivity|]. split; [reflexivity|]. intros [|i] t' k' r' H1 H2 H3; [|destruct i; discriminate].
      cbn in H1, H2, H3. injection H1 as <-. injection H2 as <-. injection H3 as <-. apply (batch_ok_iff (TxTransfer n) (VkTransfer (snd k))) in H; [apply H|cbn; auto].
    - intros (_ & _ & H). apply (batch_ok_iff (TxTransfer n) (VkTransfer (snd k))); [cbn; auto|]. split; [apply (H 0%nat); reflexivity|exact I].
  Qed.

  (** ** Encoding and signature *)
  Definition block_fits (b : Block) : Prop := len64 (bk_txns b) /\ Forall note_fits (bk_txns b).
  Lemma block_ok (ZL : SerLaws Z0) b : block_fits b -> reads_back c_block b.
  Proof.
    intros [H1 H2]. apply c_iso_ok; [destruct b; reflexivity|]. apply c_pair_ok; [apply c_vec_ok|apply c_pair_ok; [apply f_ok|apply (userpk_ok ZL)]].
    - eapply Forall_impl; [|exact H2]. intros t. apply (tx_ok ZL).
    - exact H1.
  Qed.
  Lemma block_codec (ZL : SerLaws Z0) :
    (forall b s, block_fits b -> dec c_block (enc c_block b ++ s) = Ok (b, s)) /\
    (forall b b', block_fits b -> block_fits b' -> enc c_block b = enc c_block b' -> b = b').
  Proof.
    split; [intros b s Hb; apply (block_ok ZL b Hb)|]. intros b b' H H' E.
    pose proof (proj1 (block_ok ZL b H) []) as K. pose proof (proj1 (block_ok ZL b' H') []) as K'. rewrite E, K' in K. injection K as K. auto.
  Qed.
  Lemma block_signature (ZL : SerLaws Z0) v l l' b b' sig ts ts' pk : block_fits b -> block_fits b' -> b <> b' ->
    validate_block v l b sig ts pk = Ok tt -> validate_block v l' b' sig ts' pk = Ok tt ->
    enc c_block b <> enc c_block b' /\
  (hash_to_f (enc c_block b) = hash_to_f (enc c_block b') \/
   ([hash_to_f (enc c_block b)] <> [hash_to_f (enc c_block b')] /\ sig_ok (address pk) [hash_to_f (enc c_block b)] sig = true /\
    sig_ok (address pk) [hash_to_f (enc c_block b')] sig = true)).
  Proof.
    intros F F' N H H'. unfold validate_block in H, H'. failH H. failH H'. bindH H u Hu. bindH H' u' Hu'.
    unfold user_verify_sig in Hu, Hu'. destruct (sig_ok (address pk) [hash_to_f (enc c_block b)] sig) eqn:E; [|discriminate].
    destruct (sig_ok (address pk) [hash_to_f (enc c_block b')] sig) eqn:E'; [|discriminate].
    assert (NE : enc c_block b <> enc c_block b') by (intros K2; apply N; apply (block_codec ZL); auto).
    split; [exact NE|].
    destruct (zmod_eq_dec (hash_to_f (enc c_block b)) (hash_to_f (enc c_block b'))) as [K2|K2]; [left; exact K2|].
    right. split; [intros [= ?]; contradiction|]. auto.
  Qed.
End LedgerBlocks.
