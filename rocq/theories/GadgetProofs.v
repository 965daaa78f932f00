(** Specifications of the gadgets of src/circuit/{structs,gadgets_helper,gadgets}.rs in the logic of CircuitLogic.v. *)
From Verif Require Import Base Config Structs Keys Utils Memo Plonk Witness Circuits Relation CircuitLogic.

(** ** Booleans as field elements *)
Section Bools.
  Context {C : CapConfig}.
  Lemma fmul_comm a b : fmul a b = fmul b a.
  Proof. unfold fmul; f_equal; lia. Qed.
  Lemma fmul_0_r a : fmul a f0 = f0.
  Proof. rewrite fmul_comm; apply fmul_0_l. Qed.
  Lemma fmul_1_r a : fmul a f1 = a.
  Proof. rewrite fmul_comm; apply fmul_1_l. Qed.
  Lemma fsub_0_r a : fsub a f0 = a.
  Proof. unfold fsub; rewrite zv_f0, Z.sub_0_r; apply fz_zv. Qed.
  Lemma f_not_bool a : f_not (fbool a) = fbool (negb a).
  Proof. unfold f_not. destruct a; cbn [fbool negb]; [apply fsub_diag|apply fsub_0_r]. Qed.
  Lemma f_and_bool a b : fmul (fbool a) (fbool b) = fbool (a && b).
  Proof. destruct a; cbn [fbool andb]; [apply fmul_1_l|apply fmul_0_l]. Qed.
  Lemma f_or_bool a b : f_or (fbool a) (fbool b) = fbool (a || b).
  Proof.
    unfold f_or. destruct a, b; cbn [fbool orb]; rewrite ?fmul_1_l, ?fmul_0_l, ?fadd_0_l, ?fadd_0_r, ?fsub_0_r; auto.
    apply fsub_fadd.
  Qed.
  Lemma zeqb_fbool_1 b : zeqb (fbool b) f1 = b.
  Proof.
    destruct b; cbn [fbool]; [apply zeqb_refl|]. destruct (zeqb f0 f1) eqn:E; [|auto]. apply zeqb_spec in E.
    exfalso; apply f0_neq_f1; auto.
  Qed.
  Lemma zeqb_fbool_0 b : zeqb (fbool b) f0 = negb b.
  Proof.
    destruct b; cbn [fbool negb]; [|apply zeqb_refl]. destruct (zeqb f1 f0) eqn:E; [|auto]. apply zeqb_spec in E.
    exfalso; apply f0_neq_f1; auto.
  Qed.
  Lemma f_sel_bool b x y : f_sel (fbool b) x y = if b then y else x.
  Proof.
    unfold f_sel. rewrite f_not_bool. destruct b; cbn [fbool negb]; rewrite ?fmul_1_l, ?fmul_0_l, ?fadd_0_l, ?fadd_0_r; auto.
  Qed.
  Lemma fmul_bool b x : fmul (fbool b) x = if b then x else f0.
  Proof. destruct b; cbn [fbool]; [apply fmul_1_l|apply fmul_0_l]. Qed.
  Lemma is_bool_spec x : is_bool x = true <-> exists b, x = fbool b.
  Proof.
    unfold is_bool. rewrite orb_true_iff, !zeqb_spec. split.
    - intros [->| ->]; [exists false|exists true]; reflexivity.
    - intros [[] ->]; auto.
  Qed.
  Lemma is_bool_fbool b : is_bool (fbool b) = true.
  Proof. apply is_bool_spec; eauto. Qed.
  Lemma fadd_fneg a b : fadd a (fneg b) = fsub a b.
  Proof.
    apply zmod_ext. unfold fadd, fneg, fsub. rewrite !zv_fz, Zplus_mod_idemp_r. f_equal; lia.
  Qed.
  Lemma fmul_2 a : fmul (fz 2) a = fadd a a.
  Proof.
    apply zmod_ext. unfold fmul, fadd. rewrite !zv_fz, Zmult_mod_idemp_l. f_equal; lia.
  Qed.
  Lemma zeqb_fsub a b : zeqb (fsub a b) f0 = zeqb a b.
  Proof.
    destruct (zeqb a b) eqn:E.
    - apply zeqb_spec in E; subst. rewrite fsub_diag. apply zeqb_refl.
    - destruct (zeqb (fsub a b) f0) eqn:E'; [|auto]. apply zeqb_spec in E'. apply -> fsub_eq0 in E'. subst. rewrite zeqb_refl in E. discriminate.
  Qed.
  Lemma zeqb_false (a b : F) : zeqb a b = false <-> a <> b.
  Proof.
    split; intros H.
    - intros ->. rewrite zeqb_refl in H. discriminate.
    - destruct (zeqb a b) eqn:E; [|auto]. apply zeqb_spec in E. contradiction.
  Qed.
  Lemma xy_eqb_false (a b : xy) : xy_eqb a b = false <-> a <> b.
  Proof. rewrite <- xy_eqb_spec. destruct (xy_eqb a b); split; congruence. Qed.
  Lemma xy_eqb_refl (a : xy) : xy_eqb a a = true.
  Proof. apply xy_eqb_spec; auto. Qed.
End Bools.
Global Hint Rewrite @f_not_bool @f_and_bool @f_or_bool @zeqb_fbool_1 @zeqb_fbool_0 @f_sel_bool @fmul_bool : fb.

(** ** Values of structures of variables *)
Section Vals.
  Context {C : CapConfig}.
  Variable rho : env.
  Definition vpt (p : ptv) : xy := (rho (px p), rho (py p)).
  Definition vmemo (m : MemoVar) : MemoV := (vpt (fst m), map rho (snd m)).
  Definition vpol (p : PolicyVar) : PolV :=
    mkPolV (vpt (pv_viewer p)) (vpt (pv_cred p)) (vpt (pv_freezer p)) (rho (pv_map p)) (rho (pv_threshold p)).
  Definition vro (r : RoVar) : RoV :=
    mkRoV (rho (rv_amount r)) (rho (rv_code r)) (vpt (rv_owner r)) (vpol (rv_policy r)) (rho (rv_flag r)) (rho (rv_blind r)).
  Definition vcred (c : CredVar) : CredV :=
    mkCredV (map rho (cv_attrs c)) (rho (cv_expiry c)) (rho (fst (cv_sig c)), vpt (snd (cv_sig c))) (vpt (cv_addr c))
            (vpt (cv_creator c)).
  Definition vnode (n : NodeVar) : MerklePathNode :=
    mkNode (pos_of (rho (nv_left n)) (rho (nv_right n))) (rho (nv_sib1 n)) (rho (nv_sib2 n)).
  Definition vacc (a : AccVar) : PlaceV := mkPlaceV (rho (av_uid a)) (map vnode (av_path a)).
  Definition vin (i : InputVar) : InV := mkInV (rho (iv_sk i)) (vro (iv_ro i)) (vacc (iv_acc i)) (vcred (iv_cred i)).
End Vals.

(** ** Values of API structures *)
Section ApiVals.
  Context {C : CapConfig}.
  Definition pol_value (p : AssetPolicy) : PolV :=
    mkPolV (pt_xy (viewer_pk p)) (pt_xy (cred_pk p)) (pt_xy (freezer_pk p)) (rm_to_scalar (reveal_map p))
           (f_of_u128 (reveal_threshold p)).
  Definition ro_value (r : RecordOpening) : RoV :=
    mkRoV (f_of_u128 (amount r)) (code (asset_def r)) (pt_xy (address (pub_key r))) (pol_value (policy (asset_def r)))
          (fbool (flag_bool (freeze_flag r))) (blind r).
  Definition cred_value (c : ExpirableCredential) : CredV :=
    mkCredV (cr_attrs c) (f_of_u64 (cr_expiry c)) (fr_to_fq (fst (cr_cred c)), pt_xy (snd (cr_cred c)))
            (pt_xy (cr_user_addr c)) (pt_xy (cr_creator_pk c)).
  Definition place_value (a : AccMemberWitness) : PlaceV := mkPlaceV (f_of_u64 (acc_uid a)) (acc_path a).
  Definition input_value (s : InputSecret) : InV :=
    mkInV (fr_to_fq (addr_sk (is_kp s))) (ro_value (is_ro s)) (place_value (is_acc s)) (cred_value (is_cred s)).
  Definition memo_value (m : ViewableMemo) : MemoV := (pt_xy (vm_ephemeral m), vm_data m).

  Lemma commitment_of_ro_value (r : RecordOpening) : commitment_of (ro_value r) = derive_record_commitment r.
  Proof.
    unfold commitment_of, derive_record_commitment, ro_scalars; cbn. do 2 f_equal.
    repeat (f_equal; []). f_equal. f_equal. destruct (freeze_flag r); reflexivity.
  Qed.
End ApiVals.

(** ** Tactics for symbolic execution *)
Create HintDb gext.
Global Hint Resolve extm_ret extm_fail extm_panic extm_map extm_for extm_witness extm_create extm_insert extm_pub
  extm_apply_op : gext.
Global Hint Resolve extm_bind : gext.
Global Hint Extern 2 (extm (match ?x with _ => _ end)) => destruct x : gext.
Global Hint Extern 2 (extm (let (_, _) := ?x in _)) => destruct x : gext.
Ltac gext := intros; solve [auto 40 with gext].

Create HintDb gspec.
(** run one step of a soundness goal / of a completeness goal *)
Ltac sprim := eapply gspec_snd; [solve [eauto 2 with gspec]|cbv beta; intros ? ? ?].
Ltac cprim := eapply gspec_cmp; [solve [eauto 2 with gspec]|try exact I|cbv beta; intros ? ?].
Ltac sstep := first [apply snd_bind; [gext|sprim] | sprim].
Ltac cstep := first [apply cmp_bind; [gext|cprim] | cprim].

Section Prims.
  Context {C : CapConfig}.

  Lemma hd_one (x y : F) : [x] = [y] -> x = y.
  Proof. intros H. apply (f_equal (hd f0)) in H. exact H. Qed.
  Lemma two_eq (a b x y : F) : [a; b] = [x; y] -> (a, b) = (x, y).
  Proof. intros H. pose proof (f_equal (hd f0) H). apply (f_equal (@tl F)), (f_equal (hd f0)) in H. cbn in *. congruence. Qed.

  Lemma gspec_op1 o ins rho (E : Prop) (x : F) :
    (op_guard o (map rho ins) = true <-> E) -> op_eval o (map rho ins) = [x] ->
    gspec (apply1 o ins) rho E (fun y => rho y = x) (fun y => rho y = x).
  Proof.
    intros HE Hx. eapply gspec_conseq; [apply gspec_apply1|exact HE| |]; cbv beta; rewrite Hx; intros a _ H; apply hd_one; auto.
  Qed.
  Lemma gspec_op2 o ins rho (E : Prop) (p : xy) :
    (op_guard o (map rho ins) = true <-> E) -> op_eval o (map rho ins) = pt_list p ->
    gspec (apply2 o ins) rho E (fun y => vpt rho y = p) (fun y => vpt rho y = p).
  Proof.
    intros HE Hx. eapply gspec_conseq; [apply gspec_apply2|exact HE| |]; cbv beta; rewrite Hx; intros a _ H;
      unfold vpt, px, py; unfold pt_list in H; apply two_eq in H; rewrite H; destruct p; auto.
  Qed.
  Lemma true_iff : (true = true) <-> True.
  Proof. tauto. Qed.

  Notation V1 rho x := (fun y : var => rho y = x) (only parsing).
  Lemma g_add a b rho : gspec (add a b) rho True (V1 rho (fadd (rho a) (rho b))) (V1 rho (fadd (rho a) (rho b))).
  Proof. apply gspec_op1; [apply true_iff|reflexivity]. Qed.
  Lemma g_sub a b rho : gspec (sub a b) rho True (V1 rho (fsub (rho a) (rho b))) (V1 rho (fsub (rho a) (rho b))).
  Proof. apply gspec_op1; [apply true_iff|reflexivity]. Qed.
  Lemma g_addc a c rho : gspec (add_constant a c) rho True (V1 rho (fadd (rho a) c)) (V1 rho (fadd (rho a) c)).
  Proof. apply gspec_op1; [apply true_iff|reflexivity]. Qed.
  Lemma g_lc ws qs rho : gspec (lc ws qs) rho True (V1 rho (f_lc (combine qs (map rho ws)))) (V1 rho (f_lc (combine qs (map rho ws)))).
  Proof. apply gspec_op1; [cbn; destruct (map rho ws); apply true_iff|reflexivity]. Qed.
  Lemma g_sum ws rho : gspec (sum ws) rho True (V1 rho (fsum (map rho ws))) (V1 rho (fsum (map rho ws))).
  Proof. apply gspec_op1; [cbn; destruct (map rho ws); apply true_iff|reflexivity]. Qed.
  Lemma g_mul a b rho : gspec (mul a b) rho True (V1 rho (fmul (rho a) (rho b))) (V1 rho (fmul (rho a) (rho b))).
  Proof. apply gspec_op1; [apply true_iff|reflexivity]. Qed.
  Lemma g_is_zero a rho : gspec (is_zero a) rho True (V1 rho (fbool (zeqb (rho a) f0))) (V1 rho (fbool (zeqb (rho a) f0))).
  Proof. apply gspec_op1; [apply true_iff|reflexivity]. Qed.
  Lemma g_is_equal a b rho : gspec (is_equal a b) rho True (V1 rho (fbool (zeqb (rho a) (rho b)))) (V1 rho (fbool (zeqb (rho a) (rho b)))).
  Proof. apply gspec_op1; [apply true_iff|reflexivity]. Qed.
  Lemma g_neg a rho : gspec (logic_neg a) rho True (V1 rho (f_not (rho a))) (V1 rho (f_not (rho a))).
  Proof. apply gspec_op1; [apply true_iff|reflexivity]. Qed.
  Lemma g_or a b rho : gspec (logic_or a b) rho True (V1 rho (f_or (rho a) (rho b))) (V1 rho (f_or (rho a) (rho b))).
  Proof. apply gspec_op1; [apply true_iff|reflexivity]. Qed.
  Lemma g_and a b rho : gspec (logic_and a b) rho True (V1 rho (fmul (rho a) (rho b))) (V1 rho (fmul (rho a) (rho b))).
  Proof. apply gspec_op1; [apply true_iff|reflexivity]. Qed.
  Lemma g_and_all ws rho : gspec (logic_and_all ws) rho True (V1 rho (fold_right fmul f1 (map rho ws))) (V1 rho (fold_right fmul f1 (map rho ws))).
  Proof. apply gspec_op1; [cbn; destruct (map rho ws); apply true_iff|reflexivity]. Qed.
  Lemma g_sel b x y rho : gspec (conditional_select b x y) rho True (V1 rho (f_sel (rho b) (rho x) (rho y))) (V1 rho (f_sel (rho b) (rho x) (rho y))).
  Proof. apply gspec_op1; [apply true_iff|reflexivity]. Qed.
  Lemma g_unpack a n rho : gspec (unpack a n) rho (in_range n (rho a) = true)
     (fun bs => map rho bs = f_bits n (rho a)) (fun bs => map rho bs = f_bits n (rho a)).
  Proof. exact (gspec_apply_op (OUnpack n) [a] rho). Qed.
  Lemma g_is_pt_eq p q rho : gspec (is_point_equal p q) rho True (V1 rho (fbool (xy_eqb (vpt rho p) (vpt rho q)))) (V1 rho (fbool (xy_eqb (vpt rho p) (vpt rho q)))).
  Proof. apply gspec_op1; [apply true_iff|reflexivity]. Qed.
  Lemma g_is_neutral p rho : gspec (is_neutral_point p) rho True (V1 rho (fbool (xy_eqb (vpt rho p) neutral_xy))) (V1 rho (fbool (xy_eqb (vpt rho p) neutral_xy))).
  Proof. apply gspec_op1; [apply true_iff|reflexivity]. Qed.
  Lemma g_fix s rho : gspec (fixed_base_scalar_mul s) rho (scalar_ok (rho s) = true)
     (fun p => vpt rho p = pt_xy (pt_mul (zv (rho s)) pt_gen)) (fun p => vpt rho p = pt_xy (pt_mul (zv (rho s)) pt_gen)).
  Proof. apply gspec_op2; reflexivity. Qed.
  Lemma g_var s p rho : gspec (variable_base_scalar_mul s p) rho (scalar_ok (rho s) = true)
     (fun q => vpt rho q = cmul (zv (rho s)) (vpt rho p)) (fun q => vpt rho q = cmul (zv (rho s)) (vpt rho p)).
  Proof. apply gspec_op2; reflexivity. Qed.
  Lemma g_rescue a b c rho : gspec (rescue_sponge_no_padding a b c) rho True (V1 rho (rescue3 (rho a) (rho b) (rho c))) (V1 rho (rescue3 (rho a) (rho b) (rho c))).
  Proof. apply gspec_op1; [apply true_iff|reflexivity]. Qed.
  Lemma g_prf k l rho : gspec (eval_prf k l) rho True (V1 rho (prf_eval (rho k) (map rho l))) (V1 rho (prf_eval (rho k) (map rho l))).
  Proof. apply gspec_op1; [apply true_iff|reflexivity]. Qed.
  Lemma g_commit l r rho : gspec (commit_gadget l r) rho True (V1 rho (commit (map rho l) (rho r))) (V1 rho (commit (map rho l) (rho r))).
  Proof. apply gspec_op1; [apply true_iff|reflexivity]. Qed.
  Lemma g_sig pk m s rho : gspec (check_signature_validity pk m s) rho (scalar_ok (rho (fst s)) = true)
     (V1 rho (fbool (csig_ok (vpt rho pk) (map rho m) (rho (fst s), vpt rho (snd s)))))
     (V1 rho (fbool (csig_ok (vpt rho pk) (map rho m) (rho (fst s), vpt rho (snd s))))).
  Proof. apply gspec_op1; reflexivity. Qed.
  Lemma g_node c n rho : gspec (apply1 ONode [c; nv_sib1 n; nv_sib2 n; nv_left n; nv_right n]) rho True
     (V1 rho (node_hash (rho c) (vnode rho n))) (V1 rho (node_hash (rho c) (vnode rho n))).
  Proof. apply gspec_op1; [apply true_iff|reflexivity]. Qed.

  Notation T := (fun _ : unit => True) (only parsing).
  Lemma gspec_check k ins rho (E : Prop) : (check_eval k (map rho ins) = true <-> E) -> gspec (enforce k ins) rho E T T.
  Proof. intros HE. eapply gspec_conseq; [apply gspec_enforce|exact HE| |]; auto. Qed.
  Lemma g_const a c rho : gspec (enforce_constant a c) rho (rho a = c) T T.
  Proof. apply gspec_check. cbn. apply zeqb_spec. Qed.
  Lemma g_eq a b rho : gspec (enforce_equal a b) rho (rho a = rho b) T T.
  Proof. apply gspec_check. cbn. apply zeqb_spec. Qed.
  Lemma g_bool a rho : gspec (enforce_bool a) rho (is_bool (rho a) = true) T T.
  Proof. apply gspec_check. reflexivity. Qed.
  Lemma g_addg a b c rho : gspec (add_gate a b c) rho (fadd (rho a) (rho b) = rho c) T T.
  Proof. apply gspec_check. cbn. apply zeqb_spec. Qed.
  Lemma g_mulg a b c rho : gspec (mul_gate a b c) rho (fmul (rho a) (rho b) = rho c) T T.
  Proof. apply gspec_check. cbn. apply zeqb_spec. Qed.
  Lemma g_muladd a b c d y q1 q2 rho :
    gspec (mul_add_gate a b c d y q1 q2) rho
      (fadd (fmul q1 (fmul (rho a) (rho b))) (fmul q2 (fmul (rho c) (rho d))) = rho y) T T.
  Proof. apply gspec_check. cbn. apply zeqb_spec. Qed.
  Lemma g_org a b rho : gspec (logic_or_gate a b) rho (zeqb (f_or (rho a) (rho b)) f1 = true) T T.
  Proof. apply gspec_check. reflexivity. Qed.
  Lemma g_range a n rho : gspec (enforce_in_range a n) rho (in_range n (rho a) = true) T T.
  Proof. apply gspec_check. reflexivity. Qed.
  Lemma g_pteq p q rho : gspec (enforce_point_equal p q) rho (vpt rho p = vpt rho q) T T.
  Proof. apply gspec_check. cbn. apply xy_eqb_spec. Qed.
End Prims.
Global Hint Resolve gspec_create gspec_pub g_add g_sub g_addc g_lc g_sum g_mul g_is_zero g_is_equal g_neg g_or g_and g_and_all g_sel
  g_unpack g_is_pt_eq g_is_neutral g_fix g_var g_rescue g_prf g_commit g_sig g_node g_const g_eq g_bool g_addg g_mulg
  g_muladd g_org g_range g_pteq : gspec.
Section PrimExt.
  Context {C : CapConfig}.
  Let r0 : env := fun _ => f0.
  Lemma extm_apply1 o l : extm (apply1 o l).
  Proof. eapply gspec_ext; apply gspec_apply1 with (rho := r0). Qed.
  Lemma extm_apply2 o l : extm (apply2 o l).
  Proof. eapply gspec_ext; apply gspec_apply2 with (rho := r0). Qed.
End PrimExt.
Global Hint Resolve extm_apply1 extm_apply2 : gext.
Global Hint Extern 1 (extm (add _ _)) => apply extm_apply1 : gext.
Global Hint Extern 1 (extm (sub _ _)) => apply extm_apply1 : gext.
Global Hint Extern 1 (extm (add_constant _ _)) => apply extm_apply1 : gext.
Global Hint Extern 1 (extm (lc _ _)) => apply extm_apply1 : gext.
Global Hint Extern 1 (extm (sum _)) => apply extm_apply1 : gext.
Global Hint Extern 1 (extm (mul _ _)) => apply extm_apply1 : gext.
Global Hint Extern 1 (extm (is_zero _)) => apply extm_apply1 : gext.
Global Hint Extern 1 (extm (is_equal _ _)) => apply extm_apply1 : gext.
Global Hint Extern 1 (extm (logic_neg _)) => apply extm_apply1 : gext.
Global Hint Extern 1 (extm (logic_or _ _)) => apply extm_apply1 : gext.
Global Hint Extern 1 (extm (logic_and _ _)) => apply extm_apply1 : gext.
Global Hint Extern 1 (extm (logic_and_all _)) => apply extm_apply1 : gext.
Global Hint Extern 1 (extm (conditional_select _ _ _)) => apply extm_apply1 : gext.
Global Hint Extern 1 (extm (unpack _ _)) => apply extm_apply_op : gext.
Global Hint Extern 1 (extm (is_point_equal _ _)) => apply extm_apply1 : gext.
Global Hint Extern 1 (extm (is_neutral_point _)) => apply extm_apply1 : gext.
Global Hint Extern 1 (extm (fixed_base_scalar_mul _)) => apply extm_apply2 : gext.
Global Hint Extern 1 (extm (variable_base_scalar_mul _ _)) => apply extm_apply2 : gext.
Global Hint Extern 1 (extm (rescue_sponge_no_padding _ _ _)) => apply extm_apply1 : gext.
Global Hint Extern 1 (extm (eval_prf _ _)) => apply extm_apply1 : gext.
Global Hint Extern 1 (extm (commit_gadget _ _)) => apply extm_apply1 : gext.
Global Hint Extern 1 (extm (check_signature_validity _ _ _)) => apply extm_apply1 : gext.
Global Hint Extern 1 (extm (enforce _ _)) => apply extm_insert : gext.
Global Hint Extern 1 (extm (enforce_constant _ _)) => apply extm_insert : gext.
Global Hint Extern 1 (extm (enforce_equal _ _)) => apply extm_insert : gext.
Global Hint Extern 1 (extm (enforce_bool _)) => apply extm_insert : gext.
Global Hint Extern 1 (extm (add_gate _ _ _)) => apply extm_insert : gext.
Global Hint Extern 1 (extm (mul_gate _ _ _)) => apply extm_insert : gext.
Global Hint Extern 1 (extm (mul_add_gate _ _ _ _ _ _ _)) => apply extm_insert : gext.
Global Hint Extern 1 (extm (logic_or_gate _ _)) => apply extm_insert : gext.
Global Hint Extern 1 (extm (enforce_in_range _ _)) => apply extm_insert : gext.
Global Hint Extern 1 (extm (enforce_point_equal _ _)) => apply extm_insert : gext.
