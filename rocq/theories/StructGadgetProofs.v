(** Specifications of the compound gadgets of src/circuit/{structs,gadgets_helper,gadgets}.rs. *)
From Verif Require Import Base Config Structs Keys Utils Memo Plonk Witness Circuits Relation CircuitLogic GadgetProofs.

Ltac gstart := split; [gext|split].
Ltac sret := apply snd_ret.
Ltac cret := apply cmp_ret.

Section Alloc.
  Context {C : CapConfig}.
  Notation T := (fun _ => True) (only parsing).

  Lemma g_pubvar x rho : gspec (create_public_variable x) rho True T (fun v => rho v = x).
  Proof.
    unfold create_public_variable. gstart.
    - repeat sstep. sret; auto.
    - intros _. repeat cstep. cret; auto.
  Qed.
  Lemma g_boolvar b rho : gspec (create_boolean_variable b) rho True (fun v => is_bool (rho v) = true) (fun v => rho v = fbool b).
  Proof.
    unfold create_boolean_variable. gstart.
    - repeat sstep. sret; auto.
    - intros _. cstep. cstep. { rewrite H. apply is_bool_fbool. } cret; auto.
  Qed.
  Lemma g_ptvar p rho : gspec (create_point_variable p) rho True T (fun v => vpt rho v = p).
  Proof.
    unfold create_point_variable. gstart.
    - repeat sstep. sret; auto.
    - intros _. repeat cstep. cret. unfold vpt; cbn. rewrite H, H0. destruct p; auto.
  Qed.
  Lemma extm_pubvar x : extm (create_public_variable x).
  Proof. unfold create_public_variable; gext. Qed.
  Lemma extm_boolvar x : extm (create_boolean_variable x).
  Proof. unfold create_boolean_variable; gext. Qed.
  Lemma extm_ptvar x : extm (create_point_variable x).
  Proof. unfold create_point_variable; gext. Qed.
End Alloc.
Global Hint Resolve g_pubvar g_boolvar g_ptvar : gspec.
Global Hint Resolve extm_pubvar extm_boolvar extm_ptvar : gext.

Section Alloc2.
  Context {C : CapConfig}.
  Notation T := (fun _ => True) (only parsing).

  Lemma g_createmap l rho : gspec (mmap create_variable l) rho True T (fun vs => map rho vs = l).
  Proof.
    eapply gspec_conseq; [apply (gspec_map create_variable rho (fun _ => True) (fun _ _ => True) (fun x v => rho v = x)); intros; apply gspec_create|..].
    - split; auto. intros _. apply Forall_forall; auto.
    - auto.
    - cbv beta. intros vs _ H. apply Forall2_map_eq' in H. auto.
  Qed.
  Lemma g_pubmap l rho : gspec (mmap create_public_variable l) rho True T (fun vs => map rho vs = l).
  Proof.
    eapply gspec_conseq; [apply (gspec_map create_public_variable rho (fun _ => True) (fun _ _ => True) (fun x v => rho v = x)); intros; apply g_pubvar|..].
    - split; auto. intros _. apply Forall_forall; auto.
    - auto.
    - cbv beta. intros vs _ H. apply Forall2_map_eq' in H. auto.
  Qed.

  Lemma Forall2_map_val {A B D} (val : B -> D) (api : A -> D) l ys :
    Forall2 (fun x y => val y = api x) l ys -> map val ys = map api l.
  Proof. induction 1; cbn; congruence. Qed.
  (** allocation of a list of structures *)
  Lemma g_allocmap {A B D} (f : A -> M B) (val : env -> B -> D) (api : A -> D) (Q : env -> B -> Prop) l rho :
    (forall x, gspec (f x) rho True (Q rho) (fun y => val rho y = api x)) ->
    gspec (mmap f l) rho True (fun ys => Forall (Q rho) ys) (fun ys => map (val rho) ys = map api l).
  Proof.
    intros Hf. eapply gspec_conseq; [apply (gspec_map f rho (fun _ => True) (fun _ => Q rho) (fun x y => val rho y = api x)); intros; apply Hf|..].
    - split; auto. intros _. apply Forall_forall; auto.
    - cbv beta. intros ys _ H. induction H; auto.
    - cbv beta. intros vs _ H. apply Forall2_map_val in H. auto.
  Qed.
  Lemma extm_createmap l : extm (mmap create_variable l).
  Proof. gext. Qed.

  Lemma g_memo_new m rho : gspec (memo_var_new m) rho True T (fun v => vmemo rho v = memo_value m).
  Proof.
    unfold memo_var_new. gstart.
    - sstep. apply snd_bind; [gext|]. eapply gspec_snd; [apply g_createmap|]. intros. sret; auto.
    - intros _. cstep. apply cmp_bind; [gext|]. eapply gspec_cmp; [apply g_createmap|auto|]. intros. cret.
      unfold vmemo, memo_value; cbn. congruence.
  Qed.
  Lemma g_forpub l rho : gspec (mfor l set_variable_public) rho True T T.
  Proof.
    eapply gspec_conseq; [apply (gspec_for set_variable_public rho (fun _ => True)); intros; apply gspec_pub|..]; auto.
    split; auto. intros _; apply Forall_forall; auto.
  Qed.
  Lemma g_memo_pub m rho : gspec (memo_var_set_public m) rho True T T.
  Proof.
    unfold memo_var_set_public. gstart.
    - repeat sstep. eapply gspec_snd; [apply g_forpub|auto].
    - intros _. repeat cstep. eapply gspec_cmp; [apply g_forpub|auto|auto].
  Qed.
  Lemma g_policy_new p rho : gspec (policy_var_new p) rho True T (fun v => vpol rho v = pol_value p).
  Proof.
    unfold policy_var_new. gstart.
    - repeat sstep. sret; auto.
    - intros _. repeat cstep. cret. unfold vpol, pol_value; cbn. congruence.
  Qed.
  Lemma g_policy_pub p rho : gspec (policy_var_set_public p) rho True T T.
  Proof.
    unfold policy_var_set_public. gstart.
    - repeat sstep. auto.
    - intros _. repeat cstep. auto.
  Qed.
End Alloc2.
Global Hint Resolve g_createmap g_pubmap g_memo_new g_memo_pub g_policy_new g_policy_pub : gspec.
Section Ext2.
  Context {C : CapConfig}.
  Lemma extm_memo_new m : extm (memo_var_new m).
  Proof. unfold memo_var_new; gext. Qed.
  Lemma extm_memo_pub m : extm (memo_var_set_public m).
  Proof. unfold memo_var_set_public; gext. Qed.
  Lemma extm_policy_new m : extm (policy_var_new m).
  Proof. unfold policy_var_new; gext. Qed.
  Lemma extm_policy_pub m : extm (policy_var_set_public m).
  Proof. unfold policy_var_set_public; gext. Qed.
End Ext2.
Global Hint Resolve extm_memo_new extm_memo_pub extm_policy_new extm_policy_pub : gext.

Section Alloc3.
  Context {C : CapConfig}.
  Notation T := (fun _ => True) (only parsing).
  Lemma g_ro_new r rho :
    gspec (ro_var_new r) rho True (fun v => is_bool (ro_flag (vro rho v)) = true) (fun v => vro rho v = ro_value r).
  Proof.
    unfold ro_var_new. gstart.
    - repeat sstep. sret. cbn; auto.
    - intros _. repeat cstep. cret. unfold vro, ro_value; cbn. congruence.
  Qed.
  Lemma g_cred_new c rho : gspec (cred_var_new c) rho True T (fun v => vcred rho v = cred_value c).
  Proof.
    unfold cred_var_new. gstart.
    - repeat sstep. sret; auto.
    - intros _. repeat cstep. cret. unfold vcred, cred_value; cbn. congruence.
  Qed.
  Lemma pos_of_node n : pos_of (fbool (node_is_left n)) (fbool (node_is_right n)) = n_pos n.
  Proof. unfold pos_of. rewrite !zeqb_fbool_1. unfold node_is_left, node_is_right. destruct (n_pos n); reflexivity. Qed.
  Lemma g_node_new n rho : gspec (node_var_new n) rho True T (fun v => vnode rho v = n).
  Proof.
    unfold node_var_new. gstart.
    - repeat sstep. sret; auto.
    - intros _. repeat cstep.
      + rewrite H3, H1, H2. unfold node_is_left, node_is_right. destruct (n_pos n); cbn [fbool]; rewrite ?fadd_0_r, ?fadd_0_l;
          apply is_bool_spec; [exists true|exists false|exists true]; auto.
      + cret. unfold vnode; cbn. rewrite H, H0, H1, H2, pos_of_node. destruct n; reflexivity.
  Qed.
  Lemma extm_node_new n : extm (node_var_new n).
  Proof. unfold node_var_new; gext. Qed.
  Lemma g_acc_new a rho : gspec (acc_var_new a) rho True T (fun v => vacc rho v = place_value a).
  Proof.
    assert (X : forall x : var, extm (do p <- mmap node_var_new (acc_path a); ret (mkAccVar x p))).
    { intros. apply extm_bind; [apply extm_map, extm_node_new|gext]. }
    assert (G : gspec (mmap node_var_new (acc_path a)) rho True (fun ys => Forall (fun _ => True) ys)
                  (fun ys => map (vnode rho) ys = map (fun n => n) (acc_path a))).
    { apply (g_allocmap node_var_new vnode (fun n => n) (fun _ _ => True)). intros; apply g_node_new. }
    unfold acc_var_new. split; [apply extm_bind; [gext|exact X]|]. split.
    - apply snd_bind; [exact X|]. sprim. apply snd_bind; [gext|]. eapply gspec_snd; [exact G|]. intros. sret; auto.
    - intros _. apply cmp_bind; [exact X|]. cprim. apply cmp_bind; [gext|]. eapply gspec_cmp; [exact G|auto|].
      intros. cret. unfold vacc, place_value; cbn. rewrite H, H0, map_id. auto.
  Qed.
  Lemma extm_ro_new r : extm (ro_var_new r).
  Proof. unfold ro_var_new; gext. Qed.
  Lemma extm_cred_new r : extm (cred_var_new r).
  Proof. unfold cred_var_new; gext. Qed.
  Lemma extm_acc_new r : extm (acc_var_new r).
  Proof. eapply gspec_ext. apply (g_acc_new r (fun _ => f0)). Qed.
End Alloc3.
Global Hint Resolve g_ro_new g_cred_new g_acc_new : gspec.
Global Hint Resolve extm_ro_new extm_cred_new extm_acc_new : gext.

Section Gadgets.
  Context {C : CapConfig}.
  Notation T := (fun _ => True) (only parsing).
  Notation V1 rho x := (fun y : var => rho y = x) (only parsing).

  Definition memo_eqb (a b : MemoV) : bool := xy_eqb (fst a) (fst b) && flist_eqb (snd a) (snd b).
  Lemma memo_eqb_spec a b : memo_eqb a b = true <-> a = b.
  Proof.
    unfold memo_eqb. rewrite andb_true_iff, xy_eqb_spec, flist_eqb_spec. destruct a, b; cbn. split; [intros [-> ->]; auto|].
    intros H; split; [apply (f_equal fst) in H|apply (f_equal snd) in H]; exact H.
  Qed.

  Lemma extm_memo_loop l : forall a, extm (memo_eq_loop a l).
  Proof. induction l as [|[x y] l IH]; intros; cbn; [gext|]. repeat (apply extm_bind; [gext|intros]). apply IH. Qed.
  Lemma g_memo_loop rho l : forall acc b, rho acc = fbool b ->
    gspec (memo_eq_loop acc l) rho True
      (V1 rho (fbool (b && forallb (fun xy => zeqb (rho (fst xy)) (rho (snd xy))) l)))
      (V1 rho (fbool (b && forallb (fun xy => zeqb (rho (fst xy)) (rho (snd xy))) l))).
  Proof.
    induction l as [|[x y] l IH]; intros acc b Hb.
    - cbn [memo_eq_loop forallb]. rewrite andb_true_r. split; [gext|]. split; [sret; auto|intros _; cret; auto].
    - cbn [memo_eq_loop forallb]. assert (X := extm_memo_loop l). split; [|split].
      + repeat (apply extm_bind; [gext|intros]). apply X.
      + apply snd_bind; [intros; apply extm_bind; [gext|intros; apply X]|]. sprim. apply snd_bind; [intros; apply X|]. sprim.
        eapply gspec_snd; [apply IH|].
        { rewrite H2, H0, Hb, f_and_bool. reflexivity. }
        cbv beta. cbn [fst snd]. intros. rewrite andb_assoc. auto.
      + intros _. apply cmp_bind; [intros; apply extm_bind; [gext|intros; apply X]|]. cprim. apply cmp_bind; [intros; apply X|]. cprim.
        eapply gspec_cmp; [apply IH|auto|].
        { rewrite H0, H, Hb, f_and_bool. reflexivity. }
        cbv beta. cbn [fst snd]. intros. rewrite andb_assoc. auto.
  Qed.
  Lemma forallb_combine_eq rho : forall l k : list var, length l = length k ->
    forallb (fun xy => zeqb (rho (fst xy)) (rho (snd xy))) (combine l k) = flist_eqb (map rho l) (map rho k).
  Proof. induction l as [|x l IH]; intros [|y k] H; cbn in *; try discriminate; auto. rewrite IH by lia. auto. Qed.
  Lemma extm_memo_check m m' : extm (memo_var_check_equal m m').
  Proof. unfold memo_var_check_equal. destruct (negb _); [gext|]. apply extm_bind; [gext|intros; apply extm_memo_loop]. Qed.
  Lemma g_memo_check m m' rho :
    gspec (memo_var_check_equal m m') rho True (V1 rho (fbool (memo_eqb (vmemo rho m) (vmemo rho m'))))
      (V1 rho (fbool (memo_eqb (vmemo rho m) (vmemo rho m')))).
  Proof.
    split; [apply extm_memo_check|]. unfold memo_var_check_equal.
    destruct (length (snd m') =? length (snd m))%nat eqn:E; cbn [negb].
    2:{ split; [apply snd_fail|intros _; apply cmp_fail]. }
    apply Nat.eqb_eq in E. unfold memo_eqb, vmemo; cbn [fst snd]. rewrite <- forallb_combine_eq by auto. split.
    - apply snd_bind; [intros; apply extm_memo_loop|]. sprim. eapply gspec_snd; [apply g_memo_loop; eassumption|]. auto.
    - intros _. apply cmp_bind; [intros; apply extm_memo_loop|]. cprim. eapply gspec_cmp; [apply g_memo_loop; eassumption|auto|]. auto.
  Qed.

  Lemma g_elgamal pk msg r rho :
    gspec (elgamal_encrypt_gadget pk msg r) rho (scalar_ok (rho r) = true)
      (fun m => vmemo rho m = celgamal_encrypt (vpt rho pk) (rho r) (map rho msg))
      (fun m => vmemo rho m = celgamal_encrypt (vpt rho pk) (rho r) (map rho msg)).
  Proof.
    unfold elgamal_encrypt_gadget.
    assert (X : forall outs : list var, extm (match outs with x :: y :: ct => ret ((x, y), ct) | _ => mfail CircuitError end)).
    { intros [|? [|? ?]]; gext. }
    assert (R : forall x y ct, map rho (x :: y :: ct) = op_eval OElgamal (map rho (r :: px pk :: py pk :: msg)) ->
                vmemo rho ((x, y), ct) = celgamal_encrypt (vpt rho pk) (rho r) (map rho msg)).
    { intros x y ct H. cbn [op_eval map pt_list app] in H. unfold vmemo, vpt, px, py in *. cbn [fst snd].
      rewrite (surjective_pairing (celgamal_encrypt _ _ _)).
      pose proof (f_equal (hd f0) H) as H1. pose proof (f_equal (fun l => hd f0 (tl l)) H) as H2.
      pose proof (f_equal (fun l => tl (tl l)) H) as H3. cbn [hd tl] in H1, H2, H3.
      rewrite H1, H2, H3. destruct (celgamal_encrypt _ _ _) as [[? ?] ?]; reflexivity. }
    split; [apply extm_bind; [gext|exact X]|]. split.
    - apply snd_bind; [exact X|]. eapply gspec_snd; [apply gspec_apply_op|]. intros [|x [|y ct]] HE HQ; try apply snd_fail.
      sret. split; [exact HE|]. apply R; exact HQ.
    - intros HE. apply cmp_bind; [exact X|]. eapply gspec_cmp; [apply gspec_apply_op|exact HE|].
      intros [|x [|y ct]] HQ; try apply cmp_fail. cret. apply R; exact HQ.
  Qed.
  Lemma extm_elgamal pk msg r : extm (elgamal_encrypt_gadget pk msg r).
  Proof. eapply gspec_ext, (g_elgamal _ _ _ (fun _ => f0)). Qed.

  Lemma g_in_range a n rho :
    gspec (is_in_range a n) rho True
      (fun y => is_bool (rho y) = true /\ (rho y = f1 -> in_range n (rho a) = true))
      (V1 rho (fbool (in_range n (rho a)))).
  Proof.
    unfold is_in_range. gstart.
    - apply snd_bind; [gext|]. eapply gspec_snd; [apply gspec_witness|]. intros x _ _. sstep.
      apply snd_bind; [gext|]. eapply gspec_snd; [apply gspec_insert|]. intros ? Hg _. sret. split; auto.
      cbn in Hg. apply andb_true_iff in Hg. destruct Hg as [Hb Hg]. split; auto. intros Hy. rewrite Hy in Hg.
      apply orb_true_iff in Hg. destruct Hg as [Hg|Hg]; auto. apply zeqb_spec in Hg. exfalso. apply f0_neq_f1; auto.
    - intros _. apply cmp_bind; [gext|]. eapply gspec_cmp; [apply gspec_witness|auto|]. intros x Hx. cstep.
      apply cmp_bind; [gext|]. eapply gspec_cmp; [apply gspec_insert| |].
      + cbn. rewrite H, is_bool_fbool, Hx. rewrite zeqb_fbool_0. destruct (in_range n x); auto.
      + intros _ _. cret. congruence.
  Qed.
  Lemma extm_in_range a n : extm (is_in_range a n).
  Proof. eapply gspec_ext, (g_in_range _ _ (fun _ => f0)). Qed.

  (** ** Policies *)
  Lemma vpt_neutral rho : consts rho -> vpt rho neutral_point_variable = no_key.
  Proof. intros [H0 H1]. unfold vpt, no_key, neutral_xy; cbn. rewrite H0, H1. auto. Qed.
  Lemma g_dummy_policy p rho : consts rho -> gspec (enforce_dummy_policy p) rho (policy_empty (vpol rho p)) T T.
  Proof.
    intros Hc. pose proof (vpt_neutral rho Hc) as Hn. unfold enforce_dummy_policy, policy_empty, vpol; cbn [po_viewer po_cred po_freezer po_map po_threshold].
    rewrite <- Hn. gstart.
    - repeat sstep. conjs; auto.
    - intros (? & ? & ? & ? & ?). repeat cstep; auto.
  Qed.
  Lemma g_cred_neutral p rho : gspec (is_dummy_cred_pk p) rho True (V1 rho (fbool (xy_eqb (po_cred (vpol rho p)) no_key))) (V1 rho (fbool (xy_eqb (po_cred (vpol rho p)) no_key))).
  Proof. apply g_is_neutral. Qed.
  Lemma g_viewer_neutral p rho : gspec (is_dummy_viewing_pk p) rho True (V1 rho (fbool (xy_eqb (po_viewer (vpol rho p)) no_key))) (V1 rho (fbool (xy_eqb (po_viewer (vpol rho p)) no_key))).
  Proof. apply g_is_neutral. Qed.
  Lemma g_freezer_neutral p rho : gspec (is_dummy_freezer_pk p) rho True (V1 rho (fbool (xy_eqb (po_freezer (vpol rho p)) no_key))) (V1 rho (fbool (xy_eqb (po_freezer (vpol rho p)) no_key))).
  Proof. apply g_is_neutral. Qed.
  Definition policy_empty_weakb (p : PolV) : bool :=
    xy_eqb (po_viewer p) no_key && xy_eqb (po_cred p) no_key && xy_eqb (po_freezer p) no_key &&
    zeqb (fadd (po_map p) (po_threshold p)) f0.
  Lemma policy_empty_weakb_spec p : policy_empty_weakb p = true <-> policy_empty_weak p.
  Proof. unfold policy_empty_weakb, policy_empty_weak. rewrite !andb_true_iff, !xy_eqb_spec, zeqb_spec. tauto. Qed.
  Lemma g_is_dummy_policy p rho : gspec (is_dummy_policy p) rho True (V1 rho (fbool (policy_empty_weakb (vpol rho p)))) (V1 rho (fbool (policy_empty_weakb (vpol rho p)))).
  Proof.
    unfold is_dummy_policy, is_dummy_viewing_pk, is_dummy_cred_pk, is_dummy_freezer_pk. gstart.
    - repeat sstep. split; auto. rewrite H10. cbn [map fold_right]. rewrite H8, H6, H4, H2, H0, fmul_1_r, !f_and_bool.
      unfold policy_empty_weakb. cbn. rewrite !andb_assoc. reflexivity.
    - intros _. repeat cstep. rewrite H4. cbn [map fold_right]. rewrite H3, H2, H1, H0, H, fmul_1_r, !f_and_bool.
      unfold policy_empty_weakb. cbn. rewrite !andb_assoc. reflexivity.
  Qed.
  Lemma PolV_eq (p q : PolV) :
    po_map p = po_map q -> po_threshold p = po_threshold q -> po_viewer p = po_viewer q -> po_cred p = po_cred q ->
    po_freezer p = po_freezer q -> p = q.
  Proof. destruct p, q; cbn; intros; subst; auto. Qed.
  Lemma g_equal_policy p q rho : gspec (enforce_equal_policy p q) rho (vpol rho p = vpol rho q) T T.
  Proof.
    unfold enforce_equal_policy. gstart.
    - repeat sstep. split; auto. apply PolV_eq; cbn; auto.
    - intros HE. pose proof (f_equal po_map HE). pose proof (f_equal po_threshold HE). pose proof (f_equal po_viewer HE).
      pose proof (f_equal po_cred HE). pose proof (f_equal po_freezer HE). cbn in *. repeat cstep; auto.
  Qed.
  Definition pol_eqb (p q : PolV) : bool :=
    zeqb (po_map p) (po_map q) && xy_eqb (po_viewer p) (po_viewer q) && xy_eqb (po_cred p) (po_cred q) &&
    xy_eqb (po_freezer p) (po_freezer q) && zeqb (po_threshold p) (po_threshold q).
  Lemma pol_eqb_spec p q : pol_eqb p q = true <-> p = q.
  Proof.
    unfold pol_eqb. rewrite !andb_true_iff, !xy_eqb_spec, !zeqb_spec. split; [intros; apply PolV_eq; tauto|]. intros ->; tauto.
  Qed.
  Lemma g_check_policy p q rho : gspec (check_equal_policy p q) rho True (V1 rho (fbool (pol_eqb (vpol rho p) (vpol rho q)))) (V1 rho (fbool (pol_eqb (vpol rho p) (vpol rho q)))).
  Proof.
    unfold check_equal_policy. gstart.
    - repeat sstep. split; auto. rewrite H10. cbn [map fold_right]. rewrite H8, H6, H4, H2, H0, fmul_1_r, !f_and_bool.
      unfold pol_eqb. cbn. rewrite !andb_assoc. reflexivity.
    - intros _. repeat cstep. rewrite H4. cbn [map fold_right]. rewrite H3, H2, H1, H0, H, fmul_1_r, !f_and_bool.
      unfold pol_eqb. cbn. rewrite !andb_assoc. reflexivity.
  Qed.

  (** ** Records *)
  Lemma lc_flag a b c : f_lc (combine [fz 2; f1; f0; f0] [a; b; c; c]) = fadd (fadd a a) b.
  Proof.
    unfold f_lc. cbn [combine map fst snd fsum fold_right].
    rewrite !fmul_0_l, !fadd_0_r, fmul_1_l, fmul_2. reflexivity.
  Qed.
  Lemma g_commitment r rho : gspec (compute_record_commitment r) rho True (V1 rho (commitment_of (vro rho r))) (V1 rho (commitment_of (vro rho r))).
  Proof.
    unfold compute_record_commitment. cbn zeta. gstart.
    - repeat sstep. split; auto. rewrite H2. cbn [map] in H0 |- *. rewrite H0, lc_flag. reflexivity.
    - intros _. repeat cstep. rewrite H0. cbn [map] in H |- *. rewrite H, lc_flag. reflexivity.
  Qed.
  Lemma g_code_dummy r rho : gspec (check_asset_code_dummy r) rho True (V1 rho (fbool (zeqb (ro_code (vro rho r)) dummy_asset_code))) (V1 rho (fbool (zeqb (ro_code (vro rho r)) dummy_asset_code))).
  Proof.
    unfold check_asset_code_dummy. gstart.
    - repeat sstep. split; auto. rewrite H2, H0, fadd_fneg, zeqb_fsub. reflexivity.
    - intros _. repeat cstep. rewrite H0, H, fadd_fneg, zeqb_fsub. reflexivity.
  Qed.
  Lemma extm_cred_verify c vu : extm (cred_var_verify c vu).
  Proof. unfold cred_var_verify. destruct (negb _); gext. Qed.
  Lemma g_cred_verify c vu rho :
    gspec (cred_var_verify c vu) rho
      (in_range MAX_TIMESTAMP_LEN (fsub (cr_v_expiry (vcred rho c)) (rho vu)) = true /\
       scalar_ok (fst (cr_v_sig (vcred rho c))) = true)
      (fun v => length (cr_v_attrs (vcred rho c)) = ATTRS_LEN /\
         rho v = fbool (csig_ok (cr_v_creator (vcred rho c)) (cred_message (vcred rho c)) (cr_v_sig (vcred rho c))))
      (V1 rho (fbool (csig_ok (cr_v_creator (vcred rho c)) (cred_message (vcred rho c)) (cr_v_sig (vcred rho c))))).
  Proof.
    split; [apply extm_cred_verify|]. unfold cred_var_verify.
    destruct (length (cv_attrs c) =? ATTRS_LEN)%nat eqn:E; cbn [negb].
    2:{ split; [apply snd_fail|intros _; apply cmp_fail]. }
    apply Nat.eqb_eq in E. split.
    - repeat sstep. rewrite H0 in H1. cbn. rewrite map_length. auto.
    - intros [HE1 HE2]. cstep. cstep. { rewrite H. exact HE1. } cstep; auto.
  Qed.

  (** ** Keys, nullifiers and the record tree *)
  Lemma g_nk sk pk rho : consts rho ->
    gspec (derive_nullifier_key sk pk) rho (scalar_ok (rho sk) = true)
      (V1 rho (spending_key (rho sk) (vpt rho pk))) (V1 rho (spending_key (rho sk) (vpt rho pk))).
  Proof.
    intros [Hz _]. unfold derive_nullifier_key. gstart.
    - repeat sstep. split; auto. rewrite H6, H4, f_sel_bool, H2, Hz. unfold spending_key, vpt in *.
      rewrite <- H0. reflexivity.
    - intros HE. repeat cstep; auto. rewrite H2, H1, f_sel_bool, H0, Hz. unfold spending_key, vpt in *.
      rewrite <- H. reflexivity.
  Qed.
  Lemma g_nullify k u c rho : gspec (nullify_gadget k u c) rho True (V1 rho (nullifier_of (rho k) (rho u) (rho c))) (V1 rho (nullifier_of (rho k) (rho u) (rho c))).
  Proof. exact (g_prf k [u; c] rho). Qed.
  Lemma extm_climb path : forall c, extm (merkle_climb c path).
  Proof. induction path; intros; cbn; [gext|]. apply extm_bind; [gext|auto]. Qed.
  Lemma g_climb path rho : forall c, gspec (merkle_climb c path) rho True
     (V1 rho (fold_left node_hash (map (vnode rho) path) (rho c))) (V1 rho (fold_left node_hash (map (vnode rho) path) (rho c))).
  Proof.
    induction path as [|n path IH]; intros c; cbn [merkle_climb map fold_left].
    - gstart; [sret|intros _; cret]; auto.
    - split; [apply extm_bind; [gext|intros; apply extm_climb]|]. split.
      + apply snd_bind; [intros; apply extm_climb|]. sprim. eapply gspec_snd; [apply IH|]. cbv beta. intros. rewrite <- H0. auto.
      + intros _. apply cmp_bind; [intros; apply extm_climb|]. cprim. eapply gspec_cmp; [apply IH|auto|]. cbv beta. intros. rewrite <- H. auto.
  Qed.
  Lemma extm_root u e p : extm (compute_merkle_root u e p).
  Proof. unfold compute_merkle_root. apply extm_bind; [gext|intros; apply extm_climb]. Qed.
  Lemma g_root u e path rho : consts rho ->
    gspec (compute_merkle_root u e path) rho True
      (V1 rho (merkle_root_of (rho u) (rho e) (map (vnode rho) path))) (V1 rho (merkle_root_of (rho u) (rho e) (map (vnode rho) path))).
  Proof.
    intros [Hz _]. split; [apply extm_root|]. unfold compute_merkle_root, merkle_root_of, merkle_leaf. split.
    - apply snd_bind; [intros; apply extm_climb|]. sprim. eapply gspec_snd; [apply g_climb|]. cbv beta. intros.
      rewrite <- Hz at 1. rewrite <- H0. auto.
    - intros _. apply cmp_bind; [intros; apply extm_climb|]. cprim. eapply gspec_cmp; [apply g_climb|auto|]. cbv beta. intros.
      rewrite <- Hz at 1. rewrite <- H. auto.
  Qed.
End Gadgets.
Global Hint Resolve g_memo_check g_elgamal g_in_range g_dummy_policy g_cred_neutral g_viewer_neutral g_freezer_neutral
  g_is_dummy_policy g_equal_policy g_check_policy g_commitment g_code_dummy g_cred_verify g_nk g_nullify g_root : gspec.
Global Hint Resolve extm_memo_check extm_elgamal extm_in_range extm_cred_verify extm_root : gext.
Section Ext3.
  Context {C : CapConfig}.
  Lemma extm_dummy_policy p : extm (enforce_dummy_policy p).
  Proof. unfold enforce_dummy_policy; gext. Qed.
  Lemma extm_is_dummy_policy p : extm (is_dummy_policy p).
  Proof. unfold is_dummy_policy, is_dummy_viewing_pk, is_dummy_cred_pk, is_dummy_freezer_pk; gext. Qed.
  Lemma extm_equal_policy p q : extm (enforce_equal_policy p q).
  Proof. unfold enforce_equal_policy; gext. Qed.
  Lemma extm_check_policy p q : extm (check_equal_policy p q).
  Proof. unfold check_equal_policy; gext. Qed.
  Lemma extm_commitment r : extm (compute_record_commitment r).
  Proof. unfold compute_record_commitment; gext. Qed.
  Lemma extm_code_dummy r : extm (check_asset_code_dummy r).
  Proof. unfold check_asset_code_dummy; gext. Qed.
  Lemma extm_nk k p : extm (derive_nullifier_key k p).
  Proof. unfold derive_nullifier_key; gext. Qed.
End Ext3.
Global Hint Resolve extm_dummy_policy extm_is_dummy_policy extm_equal_policy extm_check_policy extm_commitment extm_code_dummy extm_nk : gext.
Global Hint Extern 1 (extm (nullify_gadget _ _ _)) => apply extm_apply1 : gext.
Global Hint Extern 1 (extm (is_dummy_cred_pk _)) => apply extm_apply1 : gext.
Global Hint Extern 1 (extm (is_dummy_viewing_pk _)) => apply extm_apply1 : gext.
Global Hint Extern 1 (extm (is_dummy_freezer_pk _)) => apply extm_apply1 : gext.
Global Hint Extern 1 (extm (derive_user_address _)) => apply extm_apply2 : gext.
Global Hint Extern 1 (extm (derive_internal_asset_code _ _)) => apply extm_apply1 : gext.
Global Hint Extern 1 (extm (memo_var_derive _ _ _)) => apply extm_elgamal : gext.
