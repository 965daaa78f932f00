(** Proofs about the order and the grouping of transactions: a block is valid exactly when its transactions are valid one
    by one and share no nullifier; a valid transaction stays valid until it expires or one of its inputs is spent. *)
From Coq Require Import Permutation.
From Verif Require Import Base Config Structs Keys Utils Memo Plonk Witness Circuits Relation CircuitLogic UtilsProofs Snark Notes NoteProofs NoteGen NoteThms Accepted Serde
  Ledger LedgerSpec LedgerProofs ScheduleSpec.

Section Schedule.
  Context {C : CapConfig} {S : Snark C} (SL : SnarkLaws S) {Z0 : Ser C S}.

  Lemma collect_keys_ok v l txns : forall checked,
    (forall t, In t txns -> exists k, key_for v t = Ok k) -> (forall t, In t txns -> In (tx_merkle_root t) (lg_roots l)) ->
    NoDup (flat_map tx_nullifiers txns) -> (forall n, In n (flat_map tx_nullifiers txns) -> ~ In n checked /\ ~ In n (lg_nullifiers l)) ->
    exists ks, collect_keys v l txns checked = Ok (ks, map tx_merkle_root txns).
  Proof.
    induction txns as [|t txns IH]; intros checked HK HR ND HN; cbn [collect_keys]; [exists []; reflexivity|].
    destruct (HK t (or_introl eq_refl)) as (k & Hk). rewrite Hk. cbn [bind].
    assert (E : check_txn_input_nullifiers l (tx_nullifiers t) checked = Ok (tx_nullifiers t ++ checked)).
    { unfold check_txn_input_nullifiers. rewrite (proj2 (existsb_false _ _)).
      - cbn [fail_if bind]. rewrite (proj2 (all_insert_iff _ _)); [reflexivity|]. cbn [flat_map] in ND. split.
        + clear - ND. revert ND. generalize (flat_map tx_nullifiers txns). intros m H. apply NoDup_rev in H. rewrite rev_app_distr in H. apply NoDup_app_r in H. apply NoDup_rev in H. rewrite rev_involutive in H. exact H.
        + intros n Hn. apply HN. cbn [flat_map]. apply in_or_app. auto.
      - intros n Hn. unfold check_nullifier. apply existsb_false. intros x Hx. destruct (zeqb n x) eqn:E; [|reflexivity]. apply zeqb_spec in E. subst x.
        exfalso. apply (HN n); [cbn [flat_map]; apply in_or_app; auto|exact Hx]. }
    rewrite E. cbn [bind].
    assert (R : check_valid_root l (tx_merkle_root t) = true).
    { unfold check_valid_root. apply existsb_exists. exists (tx_merkle_root t). split; [apply HR; left; reflexivity|apply zeqb_refl]. }
    rewrite R. cbn [negb fail_if bind].
    destruct (IH (tx_nullifiers t ++ checked)) as (ks & Hks).
    - intros t' Ht. apply HK. right. exact Ht.
    - intros t' Ht. apply HR. right. exact Ht.
    - cbn [flat_map] in ND. apply NoDup_app_r in ND. exact ND.
    - intros n Hn. cbn [flat_map] in ND, HN. split; [|apply HN, in_or_app; auto]. intros Hc. apply in_app_or in Hc. destruct Hc as [Hc|Hc].
      + clear - ND Hn Hc. induction (tx_nullifiers t) as [|a m IHm]; [destruct Hc|]. cbn in ND. inversion ND as [|? ? A B]; subst. destruct Hc as [->|Hc]; [apply A, in_or_app; auto|auto].
      + apply (proj1 (HN n (in_or_app _ _ _ (or_intror Hn)))). exact Hc.
    - rewrite Hks. cbn [bind]. exists (k :: ks). reflexivity.
  Qed.

  (** what the validator checks of one transaction *)
  Record sound_at (v : Validator) (l : Ledger) (t : TransactionNote) (ts : u64) : Prop := {
    sa_proof : exists k, key_for v t = Ok k /\ batch_ok t k (tx_merkle_root t) ts;
    sa_root : In (tx_merkle_root t) (lg_roots l);
    sa_once : NoDup (tx_nullifiers t);
    sa_fresh : forall n, In n (tx_nullifiers t) -> ~ In n (lg_nullifiers l)
  }.

  Lemma NoDup_app_l {A} (a b : list A) : NoDup (a ++ b) -> NoDup a.
  Proof. intros H. apply NoDup_rev in H. rewrite rev_app_distr in H. apply NoDup_app_r in H. apply NoDup_rev in H. rewrite rev_involutive in H. exact H. Qed.
  Lemma NoDup_part {A B} (f : A -> list B) l x : NoDup (flat_map f l) -> In x l -> NoDup (f x).
  Proof.
    induction l as [|a l IH]; [intros _ []|]. cbn [flat_map]. intros H [->|Hx]; [apply NoDup_app_l in H; exact H|]. apply IH; [apply NoDup_app_r in H; exact H|exact Hx].
  Qed.

  Lemma batch_valid_iff v l txns ts : txns <> [] ->
    (validate_txns_batch v l txns ts = Ok tt <-> (forall t, In t txns -> sound_at v l t ts) /\ NoDup (flat_map tx_nullifiers txns)).
  Proof.
    intros Hne. unfold validate_txns_batch. split.
    - intros H. bindH H kr Hc. destruct kr as [ks rs]. destruct (collect_keys_spec _ _ _ _ _ _ Hc) as (-> & F2 & HR & ND & HN).
      split; [|exact ND]. apply (batch_iff SL) in H; [|exact Hne]. destruct H as (K1 & K2 & H). intros t Ht.
      destruct (In_nth_error _ _ Ht) as (i & Hi). destruct (Forall2_nth _ _ _ F2 i t Hi) as (k & Ek & Hk). constructor.
      + exists k. split; [exact Hk|]. apply (H i); auto. rewrite nth_error_map, Hi. reflexivity.
      + exact (HR t Ht).
      + exact (NoDup_part _ _ _ ND Ht).
      + intros n Hn. apply HN. apply in_flat_map. exists t. auto.
    - intros (HS & ND). destruct (collect_keys_ok v l txns []) as (ks & Hks).
      + intros t Ht. destruct (sa_proof _ _ _ _ (HS t Ht)) as (k & Hk & _). exists k. exact Hk.
      + intros t Ht. exact (sa_root _ _ _ _ (HS t Ht)).
      + exact ND.
      + intros n Hn. split; [intros []|]. apply in_flat_map in Hn. destruct Hn as (t & Ht & Hn). exact (sa_fresh _ _ _ _ (HS t Ht) n Hn).
      + rewrite Hks. cbn [bind]. destruct (collect_keys_spec _ _ _ _ _ _ Hks) as (_ & F2 & _). apply (batch_iff SL); [exact Hne|].
        split; [symmetry; exact (Forall2_len _ _ _ F2)|]. split; [apply map_length|]. intros i t k root Hi Ek Er.
        destruct (Forall2_nth _ _ _ F2 i t Hi) as (k' & Ek' & Hk). rewrite Ek in Ek'. injection Ek' as <-. rewrite nth_error_map, Hi in Er. injection Er as <-.
        destruct (sa_proof _ _ _ _ (HS t (nth_error_In _ _ Hi))) as (k' & Hk' & HB). rewrite Hk in Hk'. injection Hk' as <-. exact HB.
  Qed.
  Lemma single_valid_iff v l t ts : validate_txns_batch v l [t] ts = Ok tt <-> sound_at v l t ts.
  Proof.
    rewrite batch_valid_iff by discriminate. split; [intros [H _]; apply H; left; reflexivity|]. intros H. split; [intros t' [<-|[]]; exact H|].
    cbn [flat_map]. rewrite app_nil_r. exact (sa_once _ _ _ _ H).
  Qed.
  Lemma one_by_one v l txns ts : txns <> [] ->
    (validate_txns_batch v l txns ts = Ok tt <->
     (forall t, In t txns -> validate_txns_batch v l [t] ts = Ok tt) /\ NoDup (flat_map tx_nullifiers txns)).
  Proof.
    intros Hne. rewrite batch_valid_iff by exact Hne. split; intros [H1 H2]; (split; [|exact H2]); intros t Ht; apply single_valid_iff; auto.
  Qed.

  (** ** Order *)
  Lemma flat_map_perm {A B} (f : A -> list B) l l' : Permutation l l' -> Permutation (flat_map f l) (flat_map f l').
  Proof.
    intros H. induction H; cbn [flat_map]; auto.
    - apply Permutation_app_head. exact IHPermutation.
    - rewrite !app_assoc. apply Permutation_app_tail, Permutation_app_comm.
    - eapply Permutation_trans; eauto.
  Qed.
  Lemma batch_perm v l txns txns' ts : Permutation txns txns' -> validate_txns_batch v l txns ts = Ok tt -> validate_txns_batch v l txns' ts = Ok tt.
  Proof.
    intros P H. destruct txns as [|t txns]; [apply Permutation_nil in P; subst; exact H|].
    destruct txns' as [|t' txns']; [apply Permutation_sym, Permutation_nil in P; discriminate P|].
    apply batch_valid_iff in H; [|discriminate]. destruct H as [H1 H2]. apply batch_valid_iff; [discriminate|]. split.
    - intros x Hx. apply H1. apply (Permutation_in x (Permutation_sym P) Hx).
    - apply (Permutation_NoDup (flat_map_perm _ _ _ P) H2).
  Qed.
  Lemma fee_perm txns txns' : Permutation txns txns' -> txns_calculate_fee txns = txns_calculate_fee txns'.
  Proof. intros P. unfold txns_calculate_fee. apply calculate_fee_spec. apply Permutation_map. exact P. Qed.
  Lemma built_perm wallet bl txns txns' ro b sig v l l1 : Permutation txns txns' ->
    collect_fee_and_build_block wallet bl txns = Ok (ro, b, sig) -> insert_block (vd_depth v) l b = (l1, Ok tt) ->
    exists b' sig' l2, collect_fee_and_build_block wallet bl txns' = Ok (ro, b', sig') /\ insert_block (vd_depth v) l b' = (l2, Ok tt) /\
      Permutation (lg_leaves l1) (lg_leaves l2) /\ (forall n, check_nullifier l1 n = check_nullifier l2 n).
  Proof.
    intros P HB HI. unfold collect_fee_and_build_block in HB. bindH HB f Hf. injection HB as <- <- _.
    unfold collect_fee_and_build_block. rewrite <- (fee_perm _ _ P), Hf. cbn [bind]. do 3 eexists. split; [reflexivity|].
    unfold insert_block, block_fee_record in *. cbn [bk_txns bk_proposer bk_blind] in *. rewrite <- (fee_perm _ _ P). rewrite Hf in *. cbn [bind] in *.
    split; [reflexivity|]. apply (f_equal fst) in HI. cbn [fst] in HI. subst l1. rewrite !insert_txns_spec. cbn. split.
    - apply Permutation_app_tail, Permutation_app_head, flat_map_perm, P.
    - intros n. unfold check_nullifier. cbn [lg_nullifiers]. apply eq_true_iff_eq. rewrite !existsb_exists.
      split; intros (x & Hx & E); exists x; (split; [|exact E]); apply in_app_or in Hx; apply in_or_app; (destruct Hx as [Hx|Hx]; [left|right; exact Hx]);
        apply in_rev in Hx; apply in_rev; rewrite ?rev_involutive; [apply (Permutation_in x (flat_map_perm _ _ _ P) Hx)|apply (Permutation_in x (Permutation_sym (flat_map_perm _ _ _ P)) Hx)].
  Qed.

  (** ** Waiting *)
  Lemma roots_kept v l e r : In r (lg_roots l) -> In r (lg_roots (step v l e)).
  Proof.
    intros H. unfold step. destruct (valid_b v l e); [|exact H]. destruct e as [ro|b sig ts pk]; cbn [mock_mint store_current_mt_root insert_record lg_roots]; [right; exact H|].
    unfold insert_block. rewrite insert_txns_spec. destruct (block_fee_record b); cbn; auto.
  Qed.
  Lemma roots_kept_from v h r : forall l, In r (lg_roots l) -> In r (lg_roots (ledger_from v l h)).
  Proof. induction h as [|e h IH]; intros l H; [exact H|]. cbn [ledger_from fold_left]. apply IH, roots_kept, H. Qed.
  Lemma nullifiers_of_from v h n : forall l, In n (lg_nullifiers (ledger_from v l h)) <-> In n (flat_map tx_nullifiers (txns_from v l h)) \/ In n (lg_nullifiers l).
  Proof.
    induction h as [|e h IH]; intros l; cbn [ledger_from fold_left].
    - cbn. tauto.
    - fold (ledger_from v (step v l e) h). rewrite IH. unfold txns_from. cbn [effective]. destruct (valid_b v l e) eqn:E.
      + destruct (step_valid v l e E) as (_ & E2 & _). rewrite E2. cbn [app flat_map]. rewrite flat_map_app, !in_app_iff, <- in_rev. tauto.
      + rewrite (step_invalid v l e E). cbn [app]. reflexivity.
  Qed.
  Lemma batch_timely t k root ts ts' : batch_ok t k root ts -> (batch_ok t k root ts' <-> timely t ts').
  Proof.
    intros (pub & H1 & H2). unfold batch_ok, timely. destruct t as [n|n|n]; cbn [batch_public_input] in *.
    - bindH H1 p Hp. injection H1 as <-. apply transfer_check_instance_iff in Hp. destruct Hp as (-> & Ht & ->). split.
      + intros (pub' & H3 & _). bindH H3 p' Hp'. apply transfer_check_instance_iff in Hp'. apply Hp'.
      + intros T. exists (transfer_to_scalars (transfer_note_public n)). split; [|exact H2]. apply bind_ok. exists (transfer_note_public n). split; auto.
        apply transfer_check_instance_iff. auto.
    - split; [auto|]. intros _. exists pub. auto.
    - split; [auto|]. intros _. exists pub. auto.
  Qed.
  Lemma stays_valid v l t ts h ts' : validate_txns_batch v l [t] ts = Ok tt ->
    (validate_txns_batch v (ledger_from v l h) [t] ts' = Ok tt <->
     timely t ts' /\ forall n, In n (tx_nullifiers t) -> ~ In n (flat_map tx_nullifiers (txns_from v l h))).
  Proof.
    rewrite !single_valid_iff. intros [(k & Hk & HB) HR HO HF]. split.
    - intros [(k' & Hk' & HB') _ _ HF']. rewrite Hk in Hk'. injection Hk' as <-. split; [apply (batch_timely _ _ _ _ ts' HB), HB'|].
      intros n Hn Hs. apply (HF' n Hn). apply nullifiers_of_from. left. exact Hs.
    - intros [HT HN]. constructor.
      + exists k. split; [exact Hk|]. apply (batch_timely _ _ _ _ ts' HB), HT.
      + apply roots_kept_from, HR.
      + exact HO.
      + intros n Hn Hs. apply nullifiers_of_from in Hs. destruct Hs as [Hs|Hs]; [exact (HN n Hn Hs)|exact (HF n Hn Hs)].
  Qed.

  (** ** Grouping *)
  Lemma insert_block_parts depth l b : let l' := fst (insert_block depth l b) in
    lg_nullifiers l' = rev (flat_map tx_nullifiers (bk_txns b)) ++ lg_nullifiers l /\ (forall r, In r (lg_roots l) -> In r (lg_roots l')).
  Proof. cbv zeta. unfold insert_block. rewrite insert_txns_spec. destruct (block_fee_record b); cbn; auto. Qed.
  Lemma in_two v l b1 rest ts : bk_txns b1 <> [] -> rest <> [] -> let l' := fst (insert_block (vd_depth v) l b1) in
    (validate_txns_batch v l (bk_txns b1 ++ rest) ts = Ok tt <->
     validate_txns_batch v l (bk_txns b1) ts = Ok tt /\ validate_txns_batch v l' rest ts = Ok tt /\
     forall t, In t rest -> check_valid_root l (tx_merkle_root t) = true).
  Proof.
    intros N1 N2 l'. destruct (insert_block_parts (vd_depth v) l b1) as [EN ER]. fold l' in EN, ER.
    rewrite (batch_valid_iff v l (bk_txns b1 ++ rest)) by (intros E; apply app_eq_nil in E; destruct E; contradiction).
    rewrite (batch_valid_iff v l (bk_txns b1)) by exact N1. rewrite (batch_valid_iff v l' rest) by exact N2. rewrite flat_map_app. split.
    - intros [H ND]. split; [split|split; [split|]].
      + intros t Ht. apply H, in_or_app. auto.
      + apply NoDup_app_l in ND. exact ND.
      + intros t Ht. destruct (H t (in_or_app _ _ _ (or_intror Ht))) as [H1 H2 H3 H4]. constructor; auto.
        intros n Hn Hs. rewrite EN in Hs. apply in_app_or in Hs. destruct Hs as [Hs|Hs]; [|exact (H4 n Hn Hs)]. apply in_rev in Hs.
        assert (Hr : In n (flat_map tx_nullifiers rest)) by (apply in_flat_map; exists t; auto).
        clear - ND Hs Hr. induction (flat_map tx_nullifiers (bk_txns b1)) as [|a m IHm]; [destruct Hs|]. cbn in ND. inversion ND as [|? ? A B]; subst. destruct Hs as [->|Hs]; [apply A, in_or_app; auto|auto].
      + apply NoDup_app_r in ND. exact ND.
      + intros t Ht. unfold check_valid_root. apply existsb_exists. exists (tx_merkle_root t). split; [|apply zeqb_refl]. apply (sa_root _ _ _ _ (H t (in_or_app _ _ _ (or_intror Ht)))).
    - intros ([H1 ND1] & [H2 ND2] & HR). split.
      + intros t Ht. apply in_app_or in Ht. destruct Ht as [Ht|Ht]; [exact (H1 t Ht)|]. destruct (H2 t Ht) as [A B D G]. constructor; auto.
        * specialize (HR t Ht). unfold check_valid_root in HR. apply existsb_exists in HR. destruct HR as (x & Hx & E). apply zeqb_spec in E. subst x. exact Hx.
        * intros n Hn Hs. apply (G n Hn). rewrite EN. apply in_or_app. auto.
      + apply NoDup_app_intro; auto. intros n Hn Hn'. apply in_flat_map in Hn'. destruct Hn' as (t & Ht & Hn').
        apply (sa_fresh _ _ _ _ (H2 t Ht) n Hn'). rewrite EN. apply in_or_app. left. apply in_rev. rewrite rev_involutive. exact Hn.
  Qed.

  (** ** Conflicts *)
  Lemma flat_map_disjoint {A B} (f : A -> list B) l : NoDup (flat_map f l) -> forall i j x y, nth_error l i = Some x -> nth_error l j = Some y -> i <> j ->
    forall b, In b (f x) -> ~ In b (f y).
  Proof.
    induction l as [|a l IH]; intros ND i j x y Hi Hj Hij b Hb Hb'; [destruct i; discriminate Hi|]. cbn [flat_map] in ND.
    assert (AP : forall z, In z (f a) -> ~ In z (flat_map f l)).
    { clear - ND. intros z Hz Hr. induction (f a) as [|q m IHm]; [destruct Hz|]. cbn in ND. inversion ND as [|? ? A1 B1]; subst. destruct Hz as [->|Hz]; [apply A1, in_or_app; auto|auto]. }
    destruct i as [|i], j as [|j]; cbn [nth_error] in Hi, Hj.
    - contradiction.
    - injection Hi as <-. apply (AP b Hb). apply in_flat_map. exists y. split; [exact (nth_error_In _ _ Hj)|exact Hb'].
    - injection Hj as <-. apply (AP b Hb'). apply in_flat_map. exists x. split; [exact (nth_error_In _ _ Hi)|exact Hb].
    - apply NoDup_app_r in ND. exact (IH ND i j x y Hi Hj (fun E => Hij (f_equal Datatypes.S E)) b Hb Hb').
  Qed.
  Lemma conflict v h i j t t' n : nth_error (accepted v h) i = Some t -> nth_error (accepted v h) j = Some t' ->
    In n (tx_nullifiers t) -> In n (tx_nullifiers t') -> i = j.
  Proof.
    intros Hi Hj H1 H2. destruct (Nat.eq_dec i j) as [E|E]; [exact E|]. exfalso.
    exact (flat_map_disjoint tx_nullifiers _ (proj1 (accepted_nullifiers v h)) i j t t' Hi Hj E n H1 H2).
  Qed.
End Schedule.
