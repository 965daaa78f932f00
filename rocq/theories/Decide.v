(** Executable checks of the relations of Relation.v (one direction: an accepted check implies the relation), used to
    exhibit openings of concrete notes. *)
From Verif Require Import Base Config Structs Keys Utils Memo Plonk Relation.

Section Decide.
  Context {C : CapConfig}.
  Definition polv_eqb (a b : PolV) : bool :=
    xy_eqb (po_viewer a) (po_viewer b) && xy_eqb (po_cred a) (po_cred b) && xy_eqb (po_freezer a) (po_freezer b) &&
    zeqb (po_map a) (po_map b) && zeqb (po_threshold a) (po_threshold b).
  Lemma polv_eqb_ok a b : polv_eqb a b = true -> a = b.
  Proof.
    destruct a as [a1 a2 a3 a4 a5], b as [b1 b2 b3 b4 b5]. unfold polv_eqb. cbn [po_viewer po_cred po_freezer po_map po_threshold].
    rewrite !andb_true_iff, !xy_eqb_spec, !zeqb_spec. intros ((((-> & ->) & ->) & ->) & ->). reflexivity.
  Qed.
  Definition rov_eqb (a b : RoV) : bool :=
    zeqb (ro_amount a) (ro_amount b) && zeqb (ro_code a) (ro_code b) && xy_eqb (ro_owner a) (ro_owner b) &&
    polv_eqb (ro_pol a) (ro_pol b) && zeqb (ro_flag a) (ro_flag b) && zeqb (ro_blind a) (ro_blind b).
  Lemma rov_eqb_ok a b : rov_eqb a b = true -> a = b.
  Proof.
    destruct a as [a1 a2 a3 a4 a5 a6], b as [b1 b2 b3 b4 b5 b6]. unfold rov_eqb. cbn [ro_amount ro_code ro_owner ro_pol ro_flag ro_blind].
    rewrite !andb_true_iff, !xy_eqb_spec, !zeqb_spec. intros (((((-> & ->) & ->) & H) & ->) & ->). apply polv_eqb_ok in H. subst. reflexivity.
  Qed.
  Definition memov_eqb (a b : MemoV) : bool := xy_eqb (fst a) (fst b) && flist_eqb (snd a) (snd b).
  Lemma flist_eqb_ok a : forall b, flist_eqb a b = true -> a = b.
  Proof.
    induction a as [|x a IH]; intros [|y b]; cbn; try discriminate; auto. rewrite andb_true_iff, zeqb_spec. intros [-> H]. f_equal. auto.
  Qed.
  Lemma memov_eqb_ok a b : memov_eqb a b = true -> a = b.
  Proof. destruct a, b. unfold memov_eqb. cbn. rewrite andb_true_iff, xy_eqb_spec. intros [-> H]. apply flist_eqb_ok in H. congruence. Qed.
  Definition owns_b (sk : F) (owner : xy) : bool := scalar_ok sk && xy_eqb owner (pt_xy (pt_mul (zv sk) pt_gen)).
  Lemma owns_b_ok sk o : owns_b sk o = true -> owns sk o.
  Proof. unfold owns_b, owns. rewrite andb_true_iff, xy_eqb_spec. auto. Qed.
  Definition no_policy : PolV := mkPolV no_key no_key no_key f0 f0.
  Lemma no_policy_ok p : polv_eqb p no_policy = true -> policy_empty p.
  Proof. intros H. apply polv_eqb_ok in H. subst. unfold policy_empty, no_policy. cbn. auto. Qed.
  Definition weak_b (p : PolV) : bool :=
    xy_eqb (po_viewer p) no_key && xy_eqb (po_cred p) no_key && xy_eqb (po_freezer p) no_key && zeqb (fadd (po_map p) (po_threshold p)) f0.
  Lemma weak_b_ok p : weak_b p = true -> policy_empty_weak p.
  Proof. unfold weak_b, policy_empty_weak. rewrite !andb_true_iff, !xy_eqb_spec, zeqb_spec. tauto. Qed.

  Definition input_b (t : TransferV) (p : TransferPubV) (first : bool) (i : InV) (nl : F) : bool :=
    let dummy := zeqb (ro_code (in_ro i)) dummy_asset_code in
    zeqb (ro_flag (in_ro i)) f0 &&
    (negb dummy || zeqb (ro_amount (in_ro i)) f0) &&
    (if first then zeqb (ro_code (in_ro i)) (tq_native p) && polv_eqb (ro_pol (in_ro i)) no_policy
     else if dummy then weak_b (ro_pol (in_ro i)) else polv_eqb (ro_pol (in_ro i)) (tv_pol t)) &&
    owns_b (in_sk i) (ro_owner (in_ro i)) &&
    zeqb nl (nullifier_of (spending_key (in_sk i) (po_freezer (ro_pol (in_ro i)))) (pl_uid (in_place i)) (commitment_of (in_ro i))) &&
    (dummy || zeqb (root_from (in_place i) (commitment_of (in_ro i))) (tq_root p)) &&
    (length (cr_v_attrs (in_cred i)) =? ATTRS_LEN)%nat &&
    in_range MAX_TIMESTAMP_LEN (fsub (cr_v_expiry (in_cred i)) (tq_valid_until p)) &&
    scalar_ok (fst (cr_v_sig (in_cred i))) &&
    (xy_eqb (po_cred (ro_pol (in_ro i))) no_key || csig_ok (cr_v_creator (in_cred i)) (cred_message (in_cred i)) (cr_v_sig (in_cred i))).
  Lemma input_b_ok t p first i nl : input_b t p first i nl = true -> input_ok t p first i nl.
  Proof.
    unfold input_b. cbv zeta. rewrite !andb_true_iff.
    intros (((((((((H1 & H2) & H3) & H4) & H5) & H6) & H7) & H8) & H9) & H10).
    constructor; auto.
    - apply zeqb_spec. exact H1.
    - intros E. unfold is_dummy_code in E. rewrite (proj2 (zeqb_spec _ _) E) in H2. cbn in H2. apply zeqb_spec. exact H2.
    - destruct first.
      + apply andb_true_iff in H3. destruct H3 as [H3 H3']. split; [apply zeqb_spec; exact H3|apply no_policy_ok; exact H3'].
      + unfold is_dummy_code. split; intros E.
        * rewrite (proj2 (zeqb_spec _ _) E) in H3. apply weak_b_ok. exact H3.
        * destruct (zeqb (ro_code (in_ro i)) dummy_asset_code) eqn:K; [apply zeqb_spec in K; contradiction|]. apply polv_eqb_ok. exact H3.
    - apply owns_b_ok. exact H4.
    - apply zeqb_spec. exact H5.
    - intros E. unfold is_dummy_code in E. apply orb_true_iff in H6. destruct H6 as [H6|H6]; [apply zeqb_spec in H6; contradiction|]. apply zeqb_spec. exact H6.
    - apply Nat.eqb_eq. exact H7.
    - intros E. apply orb_true_iff in H10. destruct H10 as [H10|H10]; [apply xy_eqb_spec in H10; contradiction|]. exact H10.
  Qed.
  Definition output_b (t : TransferV) (p : TransferPubV) (first : bool) (o : RoV) (rc : F) : bool :=
    zeqb (ro_flag o) f0 &&
    (if first then zeqb (ro_code o) (tq_native p) && polv_eqb (ro_pol o) no_policy else zeqb (ro_code o) (tv_code t) && polv_eqb (ro_pol o) (tv_pol t)) &&
    zeqb rc (commitment_of o) && in_range AMOUNT_LEN (ro_amount o).
  Lemma output_b_ok t p first o rc : output_b t p first o rc = true -> output_ok t p first o rc.
  Proof.
    unfold output_b. rewrite !andb_true_iff. intros (((H1 & H2) & H3) & H4). constructor; auto.
    - apply zeqb_spec. exact H1.
    - destruct first; apply andb_true_iff in H2; destruct H2 as [H2 H2']; (split; [apply zeqb_spec; exact H2|]).
      + apply no_policy_ok. exact H2'.
      + apply polv_eqb_ok. exact H2'.
    - apply zeqb_spec. exact H3.
  Qed.
  Fixpoint all2 {A B} (f : A -> B -> bool) (l : list A) (k : list B) : bool :=
    match l, k with [], [] => true | x :: xs, y :: ys => f x y && all2 f xs ys | _, _ => false end.
  Lemma all2_ok {A B} (f : A -> B -> bool) (P : A -> B -> Prop) : (forall x y, f x y = true -> P x y) -> forall l k, all2 f l k = true -> Forall2 P l k.
  Proof. intros H. induction l as [|x l IH]; intros [|y k]; cbn; try discriminate; constructor; apply andb_true_iff in H0; [apply H|apply IH]; tauto. Qed.
  Definition first2 {A B} (f : bool -> A -> B -> bool) (l : list A) (k : list B) : bool :=
    match l, k with [], [] => true | x :: xs, y :: ys => f true x y && all2 (f false) xs ys | _, _ => false end.
  Lemma first2_ok {A B} (f : bool -> A -> B -> bool) (P : bool -> A -> B -> Prop) : (forall b x y, f b x y = true -> P b x y) ->
    forall l k, first2 f l k = true -> Forall2_first P l k.
  Proof.
    intros H [|x l] [|y k]; cbn; try discriminate; auto. rewrite andb_true_iff. intros [H1 H2]. split; auto. eapply all2_ok; [|exact H2]. auto.
  Qed.
  Definition transfer_b (p : TransferPubV) (t : TransferV) : bool :=
    first2 (input_b t p) (tv_ins t) (tq_nullifiers p) && first2 (output_b t p) (tv_outs t) (tq_commitments p) &&
    (if zeqb (tq_native p) (tv_code t)
     then zeqb (fadd (transfer_in t) (fee_in t)) (fadd (transfer_out t) (fadd (fee_change t) (tq_fee p)))
     else zeqb (transfer_in t) (transfer_out t) && zeqb (fee_in t) (fadd (fee_change t) (tq_fee p))) &&
    in_range VIEWABLE_DATA_LEN (po_map (tv_pol t)) && scalar_ok (tv_rand t) &&
    (in_range AMOUNT_LEN (fsub (po_threshold (tv_pol t)) (transfer_in t)) || xy_eqb (po_viewer (tv_pol t)) no_key ||
     memov_eqb (tq_memo p) (celgamal_encrypt (po_viewer (tv_pol t)) (tv_rand t) (transfer_message t))).
  Lemma transfer_b_ok p t : transfer_b p t = true -> transfer_relation p t.
  Proof.
    unfold transfer_b. rewrite !andb_true_iff, !orb_true_iff. intros (((((H1 & H2) & H3) & H4) & H5) & H6). constructor; auto.
    - eapply first2_ok; [|exact H1]. intros. apply input_b_ok; auto.
    - eapply first2_ok; [|exact H2]. intros. apply output_b_ok; auto.
    - unfold balanced. destruct (zeqb (tq_native p) (tv_code t)); [apply zeqb_spec; exact H3|].
      apply andb_true_iff in H3. rewrite !zeqb_spec in H3. exact H3.
    - destruct H6 as [[H6|H6]|H6]; [left; exact H6|right; left; apply xy_eqb_spec; exact H6|right; right; apply memov_eqb_ok; exact H6].
  Qed.

  Definition mint_b (p : MintPubV) (w : MintV) : bool :=
    zeqb (mq_mint_rc p) (commitment_of (mv_mint w)) && zeqb (mq_chg_rc p) (commitment_of (mv_chg w)) &&
    zeqb (mq_internal p) (prf_eval (mv_seed w) [mv_digest w]) &&
    zeqb (fadd (mq_fee p) (ro_amount (mv_chg w))) (ro_amount (mv_fee_ro w)) &&
    owns_b (mv_sk w) (ro_owner (mv_fee_ro w)) && zeqb (root_from (mv_place w) (commitment_of (mv_fee_ro w))) (mq_root p) &&
    zeqb (mq_nullifier p) (nullifier_of (spending_key (mv_sk w) (po_freezer (ro_pol (mv_fee_ro w)))) (pl_uid (mv_place w)) (commitment_of (mv_fee_ro w))) &&
    (zeqb (ro_flag (mv_mint w)) f0 && zeqb (ro_flag (mv_fee_ro w)) f0 && zeqb (ro_flag (mv_chg w)) f0) &&
    in_range AMOUNT_LEN (ro_amount (mv_mint w)) && zeqb (ro_amount (mv_mint w)) (mq_amount p) && zeqb (ro_code (mv_mint w)) (mq_code p) &&
    polv_eqb (ro_pol (mv_mint w)) (mq_pol p) && (zeqb (ro_code (mv_chg w)) (mq_native p) && zeqb (ro_code (mv_fee_ro w)) (mq_native p)) &&
    (polv_eqb (ro_pol (mv_chg w)) no_policy && polv_eqb (ro_pol (mv_fee_ro w)) no_policy) &&
    xy_eqb (ro_owner (mv_fee_ro w)) (ro_owner (mv_chg w)) && scalar_ok (mv_rand w) &&
    (xy_eqb (po_viewer (mq_pol p)) no_key || memov_eqb (mq_memo p) (celgamal_encrypt (po_viewer (ro_pol (mv_mint w))) (mv_rand w) (mint_message w))).
  Lemma mint_b_ok p w : mint_b p w = true -> mint_relation p w.
  Proof.
    unfold mint_b. rewrite !andb_true_iff, !orb_true_iff, !zeqb_spec, !xy_eqb_spec.
    intros ((((((((((((((((H1 & H2) & H3) & H4) & H5) & H6) & H7) & H8) & H9) & H10) & H11) & H12) & H13) & H14) & H15) & H16) & H17).
    constructor; auto.
    - apply owns_b_ok; auto.
    - tauto.
    - apply polv_eqb_ok; auto.
    - split; apply no_policy_ok; tauto.
    - destruct H17 as [H|H]; [left; exact H|right; apply memov_eqb_ok; exact H].
  Qed.

  Definition pair_b (p : FreezePubV) (x : PairV) (nl rc : F) : bool :=
    let dummy := zeqb (ro_code (fz_in x)) dummy_asset_code in
    zeqb (fadd (ro_flag (fz_in x)) (ro_flag (fz_out x))) f1 && (is_bool (ro_flag (fz_in x)) && is_bool (ro_flag (fz_out x))) &&
    (zeqb (ro_amount (fz_in x)) (ro_amount (fz_out x)) && xy_eqb (ro_owner (fz_in x)) (ro_owner (fz_out x)) &&
     zeqb (ro_code (fz_in x)) (ro_code (fz_out x)) && polv_eqb (ro_pol (fz_in x)) (ro_pol (fz_out x))) &&
    zeqb rc (commitment_of (fz_out x)) && (negb (xy_eqb (po_freezer (ro_pol (fz_in x))) no_key) || dummy) &&
    owns_b (fz_sk x) (po_freezer (ro_pol (fz_in x))) && (dummy || zeqb (root_from (fz_place x) (commitment_of (fz_in x))) (fq_root p)) &&
    zeqb nl (nullifier_of (spending_key (fz_sk x) (ro_owner (fz_in x))) (pl_uid (fz_place x)) (commitment_of (fz_in x))).
  Lemma pair_b_ok p x nl rc : pair_b p x nl rc = true -> pair_ok p x nl rc.
  Proof.
    unfold pair_b. cbv zeta. rewrite !andb_true_iff, !zeqb_spec, !xy_eqb_spec. intros (((((((H1 & H2) & H3) & H4) & H5) & H6) & H7) & H8).
    constructor; auto.
    - destruct H3 as (((A & B) & D) & E). apply polv_eqb_ok in E. auto.
    - intros E. apply orb_true_iff in H5. destruct H5 as [H5|H5]; [|apply zeqb_spec; exact H5].
      rewrite (proj2 (xy_eqb_spec _ _) E) in H5. discriminate.
    - apply owns_b_ok; auto.
    - intros E. apply orb_true_iff in H7. destruct H7 as [H7|H7]; apply zeqb_spec in H7; [contradiction|exact H7].
  Qed.
  Fixpoint all3 {A B D} (f : A -> B -> D -> bool) (l : list A) (k : list B) (m : list D) : bool :=
    match l, k, m with [], [], [] => true | x :: xs, y :: ys, z :: zs => f x y z && all3 f xs ys zs | _, _, _ => false end.
  Lemma all3_ok {A B D} (f : A -> B -> D -> bool) (P : A -> B -> D -> Prop) : (forall x y z, f x y z = true -> P x y z) ->
    forall l k m, all3 f l k m = true -> Forall3 P l k m.
  Proof.
    intros H. induction l as [|x l IH]; intros [|y k] [|z m]; cbn; try discriminate; constructor; apply andb_true_iff in H0; [apply H|apply IH]; tauto.
  Qed.
  Definition ohd_b (x : F) (l : list F) : bool := match l with [] => false | y :: _ => zeqb x y end.
  Lemma ohd_b_ok x l : ohd_b x l = true -> Some x = hd_error l.
  Proof. destruct l; cbn; [discriminate|]. intros H. apply zeqb_spec in H. congruence. Qed.
  Definition freeze_b (p : FreezePubV) (w : FreezeV) : bool :=
    (zeqb (ro_code (fv_fee_ro w)) (fq_native p) && zeqb (ro_code (fv_chg w)) (fq_native p)) &&
    (polv_eqb (ro_pol (fv_fee_ro w)) no_policy && polv_eqb (ro_pol (fv_chg w)) no_policy) &&
    (zeqb (ro_flag (fv_fee_ro w)) f0 && zeqb (ro_flag (fv_chg w)) f0) &&
    zeqb (fadd (ro_amount (fv_chg w)) (fq_fee p)) (ro_amount (fv_fee_ro w)) && owns_b (fv_sk w) (ro_owner (fv_fee_ro w)) &&
    zeqb (root_from (fv_place w) (commitment_of (fv_fee_ro w))) (fq_root p) &&
    ohd_b (nullifier_of (spending_key (fv_sk w) (po_freezer (ro_pol (fv_fee_ro w)))) (pl_uid (fv_place w)) (commitment_of (fv_fee_ro w))) (fq_nullifiers p) &&
    ohd_b (commitment_of (fv_chg w)) (fq_commitments p) && all3 (pair_b p) (fv_pairs w) (tl (fq_nullifiers p)) (tl (fq_commitments p)).
  Lemma freeze_b_ok p w : freeze_b p w = true -> freeze_relation p w.
  Proof.
    unfold freeze_b. rewrite !andb_true_iff, !zeqb_spec. intros ((((((((H1 & H2) & H3) & H4) & H5) & H6) & H7) & H8) & H9).
    constructor; auto.
    - split; apply no_policy_ok; tauto.
    - apply owns_b_ok; auto.
    - apply ohd_b_ok; auto.
    - apply ohd_b_ok; auto.
    - eapply all3_ok; [|exact H9]. intros; apply pair_b_ok; auto.
  Qed.
End Decide.
