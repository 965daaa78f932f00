(** Proofs about ledger histories. *)
From Verif Require Import Base Config Structs Keys Utils Memo Plonk Witness Circuits Relation CircuitLogic UtilsProofs
  GadgetProofs TransferCircuitProofs MintCircuitProofs FreezeCircuitProofs Snark Notes NoteProofs NoteGen NoteThms Security Accepted Serde Ledger LedgerSpec.

Lemma NoDup_app_intro {A} (l k : list A) : NoDup l -> NoDup k -> (forall x, In x l -> ~ In x k) -> NoDup (l ++ k).
Proof.
  intros Hl Hk H. induction Hl as [|x l Hx Hl IH]; [exact Hk|]. cbn. constructor.
  - intros Hi. apply in_app_or in Hi. destruct Hi as [Hi|Hi]; [contradiction|]. apply (H x); cbn; auto.
  - apply IH. intros y Hy. apply H. cbn. auto.
Qed.
Lemma NoDup_app_r {A} (l k : list A) : NoDup (l ++ k) -> NoDup k.
Proof. induction l as [|x l IH]; cbn; intros H; [exact H|]. inversion H; auto. Qed.
Lemma Forall2_nth {A B} (P : A -> B -> Prop) l k : Forall2 P l k -> forall i x, nth_error l i = Some x -> exists y, nth_error k i = Some y /\ P x y.
Proof. intros H. induction H as [|a b l k H K IH]; intros [|i] x E; try discriminate; cbn in *; [injection E as <-; eauto|auto]. Qed.

Section LedgerProofs.
  Context {C : CapConfig} {S : Snark C} {Z0 : Ser C S}.

  (** ** Insertion *)
  Lemma insert_records_spec rcs l :
    fold_left insert_record rcs l = mkLedger (lg_leaves l ++ rcs) (lg_nullifiers l) (lg_roots l).
  Proof.
    revert l. induction rcs as [|r rcs IH]; intros l; cbn [fold_left]; [rewrite app_nil_r; destruct l; reflexivity|].
    rewrite IH. cbn [insert_record lg_leaves lg_nullifiers lg_roots]. rewrite <- app_assoc. reflexivity.
  Qed.
  Lemma insert_nullifiers_spec nls l :
    fold_left insert_nullifier nls l = mkLedger (lg_leaves l) (rev nls ++ lg_nullifiers l) (lg_roots l).
  Proof.
    revert l. induction nls as [|n nls IH]; intros l; cbn [fold_left]; [destruct l; reflexivity|].
    rewrite IH. cbn [insert_nullifier lg_leaves lg_nullifiers lg_roots rev]. rewrite <- app_assoc. reflexivity.
  Qed.
  Lemma insert_txn_spec l t :
    insert_txn l t = mkLedger (lg_leaves l ++ tx_output_commitments t) (rev (tx_nullifiers t) ++ lg_nullifiers l) (lg_roots l).
  Proof.
    destruct t as [n|n|n]; cbn [insert_txn].
    - unfold insert_transfer_note. rewrite insert_records_spec, insert_nullifiers_spec. reflexivity.
    - unfold insert_mint_note, insert_record, insert_nullifier. cbn. rewrite <- app_assoc. reflexivity.
    - unfold insert_freeze_note. rewrite insert_records_spec, insert_nullifiers_spec. reflexivity.
  Qed.
  Lemma insert_txns_spec txns l :
    fold_left insert_txn txns l = mkLedger (lg_leaves l ++ flat_map tx_output_commitments txns)
                                           (rev (flat_map tx_nullifiers txns) ++ lg_nullifiers l) (lg_roots l).
  Proof.
    revert l. induction txns as [|t txns IH]; intros l; cbn [fold_left flat_map]; [rewrite app_nil_r; destruct l; reflexivity|].
    rewrite IH, insert_txn_spec. cbn [lg_leaves lg_nullifiers lg_roots]. rewrite <- !app_assoc, rev_app_distr, <- app_assoc. reflexivity.
  Qed.

  (** ** What validation checks *)
  Lemma collect_keys_spec v l txns : forall checked ks rs, collect_keys v l txns checked = Ok (ks, rs) ->
    rs = map tx_merkle_root txns /\ Forall2 (fun t k => key_for v t = Ok k) txns ks /\
    (forall t, In t txns -> In (tx_merkle_root t) (lg_roots l)) /\
    NoDup (flat_map tx_nullifiers txns) /\
    (forall n, In n (flat_map tx_nullifiers txns) -> ~ In n checked /\ ~ In n (lg_nullifiers l)).
  Proof.
    induction txns as [|t txns IH]; intros checked ks rs H; cbn [collect_keys] in H.
    - injection H as <- <-. conjs; auto; try constructor; try contradiction.
    - bindH H k0 Hk. bindH H ch Hc. failH H. bindH H kr Hr. destruct kr as [ks' rs']. injection H as <- <-.
      unfold check_txn_input_nullifiers in Hc. failH Hc. failH Hc. injection Hc as <-.
      destruct (IH _ _ _ Hr) as (E & F2 & HR & ND & HN). subst rs'.
      apply negb_false_iff in K. unfold check_valid_root in K. apply existsb_exists in K. destruct K as (x & Hx & Ex). apply zeqb_spec in Ex. subst x.
      apply negb_false_iff in K1. pose proof (proj1 (all_insert_iff _ _) K1) as [ND1 HN1].
      pose proof (proj1 (existsb_false _ _) K0) as HL.
      assert (HL' : forall n, In n (tx_nullifiers t) -> ~ In n (lg_nullifiers l)).
      { intros n Hn Hl. specialize (HL _ Hn). unfold check_nullifier in HL. rewrite existsb_false in HL. specialize (HL _ Hl). rewrite zeqb_refl in HL. discriminate. }
      cbn [map flat_map]. conjs; auto.
      + intros t' [<-|Ht]; auto.
      + apply NoDup_app_intro; auto. intros n Hn Hn'. apply HN in Hn'. destruct Hn' as [Hn' _]. apply Hn'. apply in_or_app. auto.
      + intros n Hn. apply in_app_or in Hn. destruct Hn as [Hn|Hn]; [split; auto|]. destruct (HN _ Hn) as [A B]. split; auto.
        intros Hc. apply A. apply in_or_app. auto.
  Qed.

  Lemma valid_block_inv v l b sig ts pk : validate_block v l b sig ts pk = Ok tt ->
    exists ks, Forall2 (fun t k => key_for v t = Ok k) (bk_txns b) ks /\
      txn_batch_verify (bk_txns b) (map tx_merkle_root (bk_txns b)) ts ks = Ok tt /\
      (forall t, In t (bk_txns b) -> In (tx_merkle_root t) (lg_roots l)) /\
      NoDup (flat_map tx_nullifiers (bk_txns b)) /\
      (forall n, In n (flat_map tx_nullifiers (bk_txns b)) -> ~ In n (lg_nullifiers l)).
  Proof.
    intros H. unfold validate_block in H. failH H. bindH H u Hs. unfold validate_txns_batch in H. bindH H kr Hc. destruct kr as [ks rs].
    destruct (collect_keys_spec _ _ _ _ _ _ Hc) as (-> & F2 & HR & ND & HN). exists ks. conjs; auto. intros n Hn. apply HN, Hn.
  Qed.
  Lemma valid_b_block v l b sig ts pk : valid_b v l (EvBlock b sig ts pk) = true -> validate_block v l b sig ts pk = Ok tt.
  Proof. cbn [valid_b]. destruct (validate_block v l b sig ts pk) as [[]| |]; cbn; intros; auto; discriminate. Qed.

  (** ** One step *)
  Definition event_commitments (e : event) : list F :=
    match e with
    | EvMint ro => [derive_record_commitment ro]
    | EvBlock b _ _ _ => flat_map tx_output_commitments (bk_txns b) ++
                         match block_fee_record b with Ok ro => [derive_record_commitment ro] | _ => [] end
    end.
  Lemma step_valid v l e : valid_b v l e = true ->
    lg_leaves (step v l e) = lg_leaves l ++ event_commitments e /\
    lg_nullifiers (step v l e) = rev (flat_map tx_nullifiers (event_txns e)) ++ lg_nullifiers l /\
    (forall r, In r (lg_roots (step v l e)) -> In r (lg_roots l) \/ r = tree_root (vd_depth v) (lg_leaves (step v l e))).
  Proof.
    intros H. unfold step. rewrite H. destruct e as [ro|b sig ts pk].
    - unfold mock_mint, store_current_mt_root, insert_record. cbn. conjs; auto. intros r [<-|Hr]; auto.
    - cbn [event_txns event_commitments]. unfold insert_block. rewrite insert_txns_spec. destruct (block_fee_record b) as [ro|e|]; cbn; rewrite ?app_nil_r; conjs; auto.
      + rewrite app_assoc. reflexivity.
      + intros r [<-|Hr]; auto.
  Qed.
  Lemma step_invalid v l e : valid_b v l e = false -> step v l e = l.
  Proof. intros H. unfold step. rewrite H. reflexivity. Qed.

  (** ** Histories *)
  Definition txns_from v l h := flat_map event_txns (effective v l h).
  Lemma leaves_from v h : forall l, lg_leaves (ledger_from v l h) = lg_leaves l ++ flat_map event_commitments (effective v l h).
  Proof.
    induction h as [|e h IH]; intros l; cbn [ledger_from fold_left effective]; [cbn; rewrite app_nil_r; reflexivity|].
    fold (ledger_from v (step v l e) h). rewrite IH. destruct (valid_b v l e) eqn:E.
    - destruct (step_valid v l e E) as (-> & _). cbn [app flat_map]. rewrite <- app_assoc. reflexivity.
    - rewrite (step_invalid v l e E). reflexivity.
  Qed.
  Lemma nullifiers_from v h : forall l, NoDup (lg_nullifiers l) ->
    lg_nullifiers (ledger_from v l h) = rev (flat_map tx_nullifiers (txns_from v l h)) ++ lg_nullifiers l /\
    NoDup (lg_nullifiers (ledger_from v l h)).
  Proof.
    induction h as [|e h IH]; intros l HN; cbn [ledger_from fold_left effective]; [split; [reflexivity|exact HN]|].
    fold (ledger_from v (step v l e) h). unfold txns_from. cbn [effective]. destruct (valid_b v l e) eqn:E.
    - destruct (step_valid v l e E) as (_ & E2 & _).
      assert (HN' : NoDup (lg_nullifiers (step v l e))).
      { rewrite E2. destruct e as [ro|b sig ts pk]; cbn [event_txns flat_map rev app]; [exact HN|].
        apply valid_b_block, valid_block_inv in E. destruct E as (ks & _ & _ & _ & ND & HL).
        apply NoDup_app_intro; auto; [apply NoDup_rev, ND|]. intros x Hx. apply HL. apply in_rev. exact Hx. }
      destruct (IH _ HN') as [E3 ND3]. split; auto. rewrite E3, E2. cbn [app flat_map]. rewrite flat_map_app, rev_app_distr, app_assoc. reflexivity.
    - rewrite (step_invalid v l e E). cbn [app]. apply IH, HN.
  Qed.
  Theorem accepted_nullifiers v h :
    NoDup (flat_map tx_nullifiers (accepted v h)) /\
    (forall n, check_nullifier (ledger_after v h) n = true <-> In n (flat_map tx_nullifiers (accepted v h))).
  Proof.
    destruct (nullifiers_from v h (ledger_new (vd_depth v))) as [E ND]; [constructor|]. cbn [ledger_new store_current_mt_root lg_nullifiers] in E. rewrite app_nil_r in E.
    fold (ledger_after v h) in *. unfold txns_from in E. fold (accepted v h) in E. rewrite E in ND. split.
    - apply NoDup_rev in ND. rewrite rev_involutive in ND. exact ND.
    - intros n. unfold check_nullifier. rewrite E, existsb_exists. split.
      + intros (x & Hx & Ex). apply zeqb_spec in Ex. subst x. apply in_rev. exact Hx.
      + intros Hn. exists n. split; [apply in_rev; rewrite rev_involutive; exact Hn|apply zeqb_refl].
  Qed.

  (** the stored roots are roots of prefixes *)
  Definition roots_ok (d : nat) (l : Ledger) : Prop :=
    forall r, In r (lg_roots l) -> exists k, (k <= length (lg_leaves l))%nat /\ r = tree_root d (firstn k (lg_leaves l)).
  Lemma firstn_prefix {A} k (l r : list A) : (k <= length l)%nat -> firstn k (l ++ r) = firstn k l.
  Proof. intros H. rewrite firstn_app. replace (k - length l)%nat with 0%nat by lia. cbn. apply app_nil_r. Qed.
  Lemma roots_new d : roots_ok d (ledger_new d).
  Proof. intros r [<-|[]]. exists 0%nat. split; [cbn; lia|reflexivity]. Qed.
  Lemma roots_step v l e : roots_ok (vd_depth v) l -> roots_ok (vd_depth v) (step v l e).
  Proof.
    intros H. destruct (valid_b v l e) eqn:E; [|rewrite (step_invalid v l e E); exact H].
    destruct (step_valid v l e E) as (EL & _ & HR). intros r Hr. apply HR in Hr. destruct Hr as [Hr| ->].
    - destruct (H _ Hr) as (k & Hk & ->). exists k. rewrite EL. rewrite app_length. split; [lia|]. rewrite firstn_prefix by exact Hk. reflexivity.
    - exists (length (lg_leaves (step v l e))). split; [lia|]. rewrite firstn_all. reflexivity.
  Qed.

  (** ** Openings *)
  Context (L : CapLaws C) (SL : SnarkLaws S).

  Lemma unwrap_ok {A} (r : res A) a : unwrap r = Ok a -> r = Ok a.
  Proof. destruct r; cbn; congruence. Qed.
  Lemma batch_opens v t k ts : key_for v t = Ok k -> batch_ok t k (tx_merkle_root t) ts -> exists o, tx_opens (vd_depth v) t o.
  Proof.
    intros Hk Hb. destruct t as [n|n|n]; cbn [key_for] in Hk; bindH Hk kk Hp; injection Hk as <-; apply unwrap_ok in Hp; destruct kk as [pk vk]; cbn [snd] in *.
    - assert (V : tx_verify (TxTransfer n) (VkTransfer vk) (tx_merkle_root (TxTransfer n)) ts = Ok tt) by (apply (batch_ok_iff (TxTransfer n) (VkTransfer vk)); cbn; auto).
      destruct (transfer_accepted_opens L SL (length (tn_nullifiers n)) (length (tn_commitments n)) (vd_depth v) n (ta_root (tn_aux n)) ts) as (_ & _ & _ & t & Ht).
      { exists (vd_srs v), pk, vk. auto. }
      exists (OpTransfer t). exact Ht.
    - destruct Hb as (pub & H1 & H2). cbn [batch_public_input] in H1. bindH H1 p Hi. injection H1 as <-. apply mint_check_instance_iff in Hi. destruct Hi as [_ ->].
      destruct (mint_proof_sound SL _ _ _ _ _ _ Hp H2) as (t & Ht). exists (OpMint t). exact Ht.
    - assert (V : tx_verify (TxFreeze n) (VkFreeze vk) (tx_merkle_root (TxFreeze n)) ts = Ok tt) by (apply (batch_ok_iff (TxFreeze n) (VkFreeze vk)); cbn; auto).
      destruct (freeze_accepted_opens SL (length (fn_nullifiers n)) (vd_depth v) n (fa_root (fn_aux n))) as (_ & _ & t & Ht).
      { exists (vd_srs v), (vd_fk v (length (fn_nullifiers n))), pk, vk. auto. }
      exists (OpFreeze t). exact Ht.
  Qed.
  Lemma block_opens v l b sig ts pk t : validate_block v l b sig ts pk = Ok tt -> In t (bk_txns b) -> exists o, tx_opens (vd_depth v) t o.
  Proof.
    intros H Ht. apply valid_block_inv in H. destruct H as (ks & F2 & HB & _). apply (batch_iff SL) in HB; [|destruct (bk_txns b); [destruct Ht|discriminate]].
    destruct HB as (_ & _ & HB). apply In_nth_error in Ht. destruct Ht as (i & Hi). destruct (Forall2_nth _ _ _ F2 _ _ Hi) as (k & Hk & Hkey).
    apply (batch_opens v t k ts Hkey). apply (HB i); auto. rewrite nth_error_map, Hi. reflexivity.
  Qed.
  Lemma accepted_open v h : forall l t, In t (txns_from v l h) -> exists o, tx_opens (vd_depth v) t o.
  Proof.
    induction h as [|e h IH]; intros l t Ht; [destruct Ht|]. unfold txns_from in Ht. cbn [effective] in Ht. rewrite flat_map_app in Ht.
    apply in_app_or in Ht. destruct Ht as [Ht|Ht]; [|apply (IH _ _ Ht)]. destruct (valid_b v l e) eqn:E; [|destruct Ht].
    cbn in Ht. rewrite app_nil_r in Ht. destruct e as [ro|b sig ts pk]; [destruct Ht|]. apply valid_b_block in E. apply (block_opens _ _ _ _ _ _ _ E Ht).
  Qed.
  (** what an opening says of each input and of the outputs, for the three kinds of notes together *)
  Definition spend_ok (d : nat) (root : F) (s : Spend) (nl : F) : Prop :=
    let r := sp_ro s in let uid := pl_uid (sp_place s) in
    (owner_spend r uid (sp_sk s) nl \/
     (freezer_spend r uid (sp_sk s) nl /\ (ro_code r <> dummy_asset_code -> po_freezer (ro_pol r) <> no_key))) /\
    (ro_code r <> dummy_asset_code ->
     length (pl_path (sp_place s)) = d /\ merkle_root_of uid (commitment_of r) (pl_path (sp_place s)) = root).
  Lemma Forall3_first {A B D} (P : A -> B -> D -> Prop) (Q : A -> B -> Prop) l k m :
    Forall3 P l k m -> (forall a b d, P a b d -> Q a b) -> Forall2 Q l k.
  Proof. intros H HQ. induction H; constructor; eauto. Qed.
  Lemma Forall3_last {A B D} (P : A -> B -> D -> Prop) (f : A -> D) l k m :
    Forall3 P l k m -> (forall a b d, P a b d -> d = f a) -> m = map f l.
  Proof. intros H HQ. induction H; cbn; f_equal; eauto. Qed.
  Lemma tx_facts d t o : tx_opens d t o ->
    Forall2 (spend_ok d (tx_merkle_root t)) (op_inputs o) (tx_nullifiers t) /\ tx_nullifiers t <> [] /\
    tx_output_commitments t = map commitment_of (op_outputs o).
  Proof.
    destruct t as [n|n|n], o as [x|x|x]; cbn [tx_opens]; try tauto; intros H; cbn [op_inputs tx_nullifiers op_outputs tx_output_commitments tx_merkle_root].
    - destruct (opens_spends _ _ _ H) as [H1 H2]. conjs.
      + clear H H2. induction H1 as [|i nl l k H H1 IH]; cbn; constructor; auto. destruct H as (K1 & _ & K3 & _ & K5).
        split; cbn [sp_ro sp_place sp_sk]; [left; split; auto|exact K5].
      + apply H.
      + clear H H1. induction H2 as [|i nl l k H H1 IH]; cbn; [reflexivity|]. destruct H as (-> & _). f_equal. exact IH.
    - pose proof H as [HD R]. destruct (mint_opens_facts L _ _ _ H) as (E1 & _ & _ & _ & _ & _ & _ & _ & _ & _ & _ & _ & _ & _ & E2 & _). conjs; [|discriminate|exact (f_equal2 (fun a b => [a; b]) E2 E1)].
      constructor; [|constructor]. split; cbn [sp_ro sp_place sp_sk].
      + left. split; [apply (mr_owner _ _ R)|apply (mr_nullifier _ _ R)].
      + intros _. split; [exact HD|apply (mr_member _ _ R)].
    - pose proof H as [[HD _] R]. destruct (freeze_opens_facts _ _ _ H) as (nl & nls & rc & rcs & E1 & E2 & _ & _ & _ & _ & _ & _ & _ & E3 & _ & _ & _ & _ & HP).
      rewrite E1, E2. conjs; [|discriminate|].
      + constructor.
        * split; cbn [sp_ro sp_place sp_sk].
          -- left. split; [apply (fr_owner _ _ R)|]. pose proof (fr_fee_nullifier _ _ R) as K.
             change (fq_nullifiers (freeze_pub_value (freeze_note_public n))) with (fn_nullifiers n) in K. rewrite E1 in K. cbn [hd_error] in K.
             apply (f_equal (fun o => match o with Some x => x | None => nl end)) in K. symmetry. exact K.
          -- intros _. split; [exact HD|apply (fr_member _ _ R)].
        * assert (K : Forall2 (fun y a => spend_ok d (fa_root (fn_aux n)) (mkSpend (fz_in y) (fz_place y) (fz_sk y)) a) (fv_pairs x) nls).
          { apply (Forall3_first _ _ _ _ _ HP). intros y a b (_ & _ & _ & _ & _ & _ & K1 & K2 & K3).
            split; cbn [sp_ro sp_place sp_sk]; [right; split; [split; auto|]|]; intros Hd; apply K2, Hd. }
          clear - K. induction K; cbn; constructor; auto.
      + cbn [map]. f_equal; [exact E3|]. rewrite map_map. apply (Forall3_last _ _ _ _ _ HP). intros y a b K. apply K.
  Qed.
  Lemma opens_nullifiers d t o : tx_opens d t o -> length (op_inputs o) = length (tx_nullifiers t).
  Proof. intros H. destruct (tx_facts _ _ _ H) as (H1 & _). apply (Forall2_len (spend_ok d (tx_merkle_root t))). exact H1. Qed.

  (** a choice of openings: the nullifiers of a history are distinct and no note is without, so the notes are distinct *)
  Lemma choose_openings d txns : (forall t, In t txns -> exists o, tx_opens d t o) -> NoDup (flat_map tx_nullifiers txns) ->
    exists op, forall t, In t txns -> tx_opens d t (op t).
  Proof.
    intros HO. induction txns as [|t txns IH]; intros ND; [exists (fun _ => OpMint (mkMintV (mkRoV f0 f0 no_key (mkPolV no_key no_key no_key f0 f0) f0 f0) f0 (mkRoV f0 f0 no_key (mkPolV no_key no_key no_key f0 f0) f0 f0) (mkPlaceV f0 []) (mkRoV f0 f0 no_key (mkPolV no_key no_key no_key f0 f0) f0 f0) f0 f0 f0)); intros t []|].
    cbn [flat_map] in ND. destruct IH as (op & Hop).
    { intros t' Ht. apply HO. cbn. auto. }
    { apply NoDup_app_r in ND. exact ND. }
    destruct (HO t) as (o & Ho); [cbn; auto|].
    exists (fun t' => if existsb (fun n => existsb (zeqb n) (tx_nullifiers t)) (tx_nullifiers t') then o else op t').
    intros t' [<-|Ht].
    - destruct (tx_facts _ _ _ Ho) as (_ & HN & _). destruct (tx_nullifiers t) as [|n ns] eqn:E; [congruence|]. rewrite <- E.
      replace (existsb _ (tx_nullifiers t)) with true; [exact Ho|]. symmetry. apply existsb_exists. exists n. rewrite E. split; [cbn; auto|]. apply existsb_exists.
      exists n. split; [cbn; auto|apply zeqb_refl].
    - replace (existsb _ (tx_nullifiers t')) with false; [auto|]. symmetry. apply existsb_false. intros n Hn. apply existsb_false. intros m Hm.
      destruct (zeqb n m) eqn:E; [|reflexivity]. apply zeqb_spec in E. subst m. exfalso.
      assert (In n (flat_map tx_nullifiers txns)) by (apply in_flat_map; eauto).
      clear - ND Hm H. induction (tx_nullifiers t) as [|a l IHl]; [destruct Hm|]. cbn in ND. inversion ND; subst. destruct Hm as [->|Hm]; auto.
      apply H2. apply in_or_app. auto.
  Qed.
  Theorem history_openings v h : exists op, forall t, In t (accepted v h) -> tx_opens (vd_depth v) t (op t).
  Proof. apply choose_openings; [apply (accepted_open v h)|apply accepted_nullifiers]. Qed.

  (** ** Membership in the tree is binding *)
  Lemma hash3_triple cur n : hash3 (node_triple cur n) = node_hash cur n.
  Proof. destruct n as [p a b]. destruct p; reflexivity. Qed.
  Lemma path_triples_snoc p n : forall cur, path_triples cur (p ++ [n]) = path_triples cur p ++ [node_triple (fold_left node_hash p cur) n].
  Proof. induction p as [|m p IH]; intros cur; cbn; [reflexivity|]. f_equal. apply IH. Qed.
  Definition digit (n : MerklePathNode) : nat := match n_pos n with PLeft => 0 | PMiddle => 1 | PRight => 2 end.
  Lemma walk_down hs leaves path : hash_collision_free hs -> forall cur i,
    incl (path_triples cur path) hs -> incl (tree_hashes leaves (length path) i) hs ->
    fold_left node_hash path cur = subtree leaves (length path) i ->
    exists j, cur = leaf_value leaves j /\ incl (tree_hashes leaves 0 j) hs /\
      Z.of_nat i * 3 ^ Z.of_nat (length path) <= Z.of_nat j < (Z.of_nat i + 1) * 3 ^ Z.of_nat (length path).
  Proof.
    intros [HI HZ]. induction path as [|n p IH] using rev_ind; intros cur i H1 H2 H3.
    - exists i. cbn in *. conjs; auto; lia.
    - rewrite fold_left_app in H3. cbn [fold_left] in H3. rewrite path_triples_snoc in H1. rewrite app_length in *. cbn [length] in *. rewrite Nat.add_1_r in *.
      cbn [subtree tree_hashes] in H2, H3. rewrite <- hash3_triple in H3.
      assert (K : In (node_triple (fold_left node_hash p cur) n) hs) by (apply H1, in_or_app; right; cbn; auto).
      destruct (has_leaf leaves (Datatypes.S (length p)) i) eqn:EL; [|exfalso; apply (HZ _ K H3)].
      set (t3 := (subtree leaves (length p) (3 * i), subtree leaves (length p) (3 * i + 1), subtree leaves (length p) (3 * i + 2))) in *.
      change (rescue3 _ _ _) with (hash3 t3) in H3.
      apply HI in H3; auto; [|apply H2; left; reflexivity].
      assert (ED : fold_left node_hash p cur = subtree leaves (length p) (3 * i + digit n) /\ incl (tree_hashes leaves (length p) (3 * i + digit n)) hs).
      { assert (Q : forall x, In x (tree_hashes leaves (length p) (3 * i) ++ tree_hashes leaves (length p) (3 * i + 1) ++ tree_hashes leaves (length p) (3 * i + 2)) -> In x hs) by (intros x Hx; apply H2; right; exact Hx).
        unfold node_triple, digit, t3 in *. destruct (n_pos n); injection H3 as E1 E2 E3; (split; [rewrite ?Nat.add_0_r; auto|]); intros x Hx; apply Q; rewrite !in_app_iff, ?Nat.add_0_r in *; auto. }
      destruct ED as [E1 E2].
      destruct (IH cur (3 * i + digit n)%nat) as (j & Ej & Hj & B); auto.
      { intros x Hx. apply H1, in_or_app. auto. }
      exists j. split; [exact Ej|]. split; [exact Hj|]. assert (D : (digit n <= 2)%nat) by (unfold digit; destruct (n_pos n); lia).
      rewrite Nat2Z.inj_succ, Z.pow_succ_r by lia. rewrite Nat2Z.inj_add, Nat2Z.inj_mul in B. change (Z.of_nat 3) with 3 in B.
      pose proof (Z.pow_pos_nonneg 3 (Z.of_nat (length p)) ltac:(lia) ltac:(lia)). nia.
  Qed.
  Lemma membership_binding hs leaves uid elem path : hash_collision_free hs ->
    incl (place_hashes uid elem path) hs -> incl (tree_hashes leaves (length path) 0) hs ->
    merkle_root_of uid elem path = tree_root (length path) leaves ->
    exists j, nth_error leaves j = Some elem /\ uid = fz (Z.of_nat j) /\ Z.of_nat j < 3 ^ Z.of_nat (length path).
  Proof.
    intros HF H1 H2 H3. unfold place_hashes in H1. unfold merkle_root_of in H3. unfold tree_root in H3.
    destruct (walk_down hs leaves path HF _ _ (fun x Hx => H1 x (or_intror Hx)) H2 H3) as (j & Ej & Hj & B).
    exists j. unfold leaf_value in Ej. cbn [tree_hashes] in Hj. destruct HF as [HI HZ].
    assert (K : In (f0, uid, elem) hs) by (apply H1; left; reflexivity).
    destruct (nth_error leaves j) as [c|].
    - change (merkle_leaf uid elem) with (hash3 (f0, uid, elem)) in Ej. change (merkle_leaf (fz (Z.of_nat j)) c) with (hash3 (f0, fz (Z.of_nat j), c)) in Ej.
      apply HI in Ej; auto; [|apply Hj; left; reflexivity]. injection Ej as E1 E2. subst. conjs; auto. lia.
    - exfalso. apply (HZ _ K). exact Ej.
  Qed.
End LedgerProofs.
