(** Public variables of the three circuits and independence of their shape from the values. *)
From Verif Require Import Base Config Structs Keys Utils Memo Plonk Witness Circuits Relation CircuitLogic GadgetProofs
  StructGadgetProofs SpendGadgetProofs TransferCircuitProofs MintCircuitProofs FreezeCircuitProofs.

Create HintDb np.
Create HintDb shp.
Ltac head_of t := lazymatch t with ?f _ => head_of f | _ => t end.
Ltac np := intros; cbn zeta;
  first [ solve [auto 3 with np] |
  lazymatch goal with
  | |- nopub (mbind _ _) => apply nopub_bind; np
  | |- nopub (mmap _ _) => apply nopub_map; np
  | |- nopub (mfor _ _) => apply nopub_for; np
  | |- nopub (ret _) => apply nopub_ret
  | |- nopub (mfail _) => apply nopub_fail
  | |- nopub mpanic => apply nopub_panic
  | |- nopub (witness _) => apply nopub_witness
  | |- nopub (create_variable _) => apply nopub_create
  | |- nopub (insert_gate _) => apply nopub_insert
  | |- nopub (apply_op _ _) => apply nopub_apply_op
  | |- nopub (apply1 _ _) => apply nopub_apply1
  | |- nopub (apply2 _ _) => apply nopub_apply2
  | |- nopub (match ?x with _ => _ end) => destruct x; np
  | |- nopub ?m => let h := head_of m in unfold h; np
  end ].
Ltac sh := intros; cbn zeta;
  first [ solve [auto 3 with shp] |
  lazymatch goal with
  | |- shp (mbind _ _) (mbind _ _) => apply shp_bind; sh
  | |- shp (mmap _ _) _ => apply shp_map_same; sh
  | |- shp (mfor _ _) _ => apply shp_for; sh
  | |- shp (ret _) _ => apply shp_ret
  | |- shp (mfail _) _ => apply shp_fail
  | |- shp mpanic _ => apply shp_panic
  | |- shp (create_variable _) _ => apply shp_create
  | |- shp (insert_gate _) _ => apply shp_insert
  | |- shp (set_variable_public _) _ => apply shp_pub
  | |- shp (apply_op _ _) _ => apply shp_apply_op
  | |- shp (apply1 _ _) _ => apply shp_apply1
  | |- shp (apply2 _ _) _ => apply shp_apply2
  | |- shp (match ?x with _ => _ end) _ => destruct x; sh
  | |- shp ?m _ => let h := head_of m in unfold h; sh
  end ].

Section NoPub.
  Context {C : CapConfig}.
  Lemma np_memo_loop l : forall a, nopub (memo_eq_loop a l).
  Proof. induction l as [|[x y] l IH]; intros; cbn [memo_eq_loop]; np. Qed.
  Lemma np_climb p : forall c, nopub (merkle_climb c p).
  Proof. induction p as [|n p IH]; intros; cbn [merkle_climb]; np. Qed.
  Lemma np_range a n : nopub (is_in_range a n).
  Proof. unfold is_in_range. np. Qed.
  Lemma np_loop_first {A} (f : bool -> A -> M unit) l : (forall b x, nopub (f b x)) -> nopub (loop_first f l).
  Proof. intros H. destruct l; cbn [loop_first]; np. Qed.
End NoPub.
Global Hint Resolve np_memo_loop np_climb np_range : np.
Section NoPub2.
  Context {C : CapConfig}.
  Lemma np_transfer w p : nopub (transfer_constraints w p).
  Proof.
    unfold transfer_constraints. apply nopub_bind; [apply np_loop_first; np|].
    intros; apply nopub_bind; [apply np_loop_first; np|]. np.
  Qed.
  Lemma np_mint w p : nopub (mint_constraints w p).
  Proof. np. Qed.
  Lemma np_freeze w p : nopub (freeze_constraints w p).
  Proof. np. Qed.
  Lemma np_twit w : nopub (transfer_witness_var_new w).
  Proof. np. Qed.
  Lemma np_mwit w : nopub (mint_witness_var_new w).
  Proof. np. Qed.
  Lemma np_fwit w : nopub (freeze_witness_var_new w).
  Proof. np. Qed.
  Lemma np_policy_new p : nopub (policy_var_new p).
  Proof. np. Qed.
  Lemma np_memo_new p : nopub (memo_var_new p).
  Proof. np. Qed.
End NoPub2.

Section Pub.
  Context {C : CapConfig}.
  Lemma pspec_bind {A B} (m : M A) (k : A -> M B) (P : A -> list var) (Q : B -> list var) :
    pspec m P -> (forall a, pspec (k a) (fun b => Q b)) ->
    forall s b s', mbind m k s = Ok (b, s') -> exists a s1, m s = Ok (a, s1) /\ pubs s' = pubs s ++ P a ++ Q b.
  Proof.
    intros Hm Hk s b s' H. apply mbind_ok in H. destruct H as (a & s1 & H1 & H2). exists a, s1. split; auto.
    rewrite (Hk _ _ _ _ H2), (Hm _ _ _ H1), app_assoc. reflexivity.
  Qed.
  Lemma pub_pubvar x : pspec (create_public_variable x) (fun v => [v]).
  Proof. intros s v s' H. injection H as <- <-. reflexivity. Qed.
  Lemma pub_pub v : pspec (set_variable_public v) (fun _ => [v]).
  Proof. intros s [] s' H. injection H as <-. reflexivity. Qed.
  Lemma pub_pubmap l : pspec (mmap create_public_variable l) (fun vs => vs).
  Proof.
    induction l as [|x l IH]; intros s vs s' H; cbn [mmap] in H; [injection H as <- <-; rewrite app_nil_r; auto|].
    apply mbind_ok in H. destruct H as (v & s1 & H1 & H). apply mbind_ok in H. destruct H as (vs' & s2 & H2 & H).
    injection H as <- <-. rewrite (IH _ _ _ H2), (pub_pubvar _ _ _ _ H1), <- app_assoc. reflexivity.
  Qed.
  Lemma pub_pubfor l : pspec (mfor l set_variable_public) (fun _ => l).
  Proof.
    induction l as [|x l IH]; intros s vs s' H; cbn [mfor] in H; [injection H as <- <-; rewrite app_nil_r; auto|].
    apply mbind_ok in H. destruct H as ([] & s1 & H1 & H). rewrite (IH _ _ _ H), (pub_pub _ _ _ _ H1), <- app_assoc. reflexivity.
  Qed.
  Lemma pub_memo m : pspec (memo_var_set_public m) (fun _ => px (fst m) :: py (fst m) :: snd m).
  Proof.
    intros s [] s' H. unfold memo_var_set_public in H. apply mbind_ok in H. destruct H as ([] & s1 & H1 & H).
    apply mbind_ok in H. destruct H as ([] & s2 & H2 & H).
    rewrite (pub_pubfor _ _ _ _ H), (pub_pub _ _ _ _ H2), (pub_pub _ _ _ _ H1), <- !app_assoc. reflexivity.
  Qed.
  Lemma pub_policy p : pspec (policy_var_set_public p)
    (fun _ => [pv_map p; px (pv_viewer p); py (pv_viewer p); px (pv_cred p); py (pv_cred p); px (pv_freezer p); py (pv_freezer p); pv_threshold p]).
  Proof.
    intros s [] s' H. unfold policy_var_set_public in H.
    do 7 (apply mbind_ok in H; destruct H as ([] & ? & ? & H)). apply pub_pub in H.
    rewrite H. repeat match goal with E : set_variable_public _ _ = _ |- _ => apply pub_pub in E; rewrite E; clear E end.
    rewrite <- !app_assoc. reflexivity.
  Qed.

  (** the scalars a verifier is given, in order *)
  Definition memo_scalars (m : MemoV) : list F := fst (fst m) :: snd (fst m) :: snd m.
  Definition transfer_scalars (p : TransferPubV) : list F :=
    [tq_root p; tq_native p; tq_valid_until p; tq_fee p] ++ tq_nullifiers p ++ tq_commitments p ++ memo_scalars (tq_memo p).
  Definition mint_scalars (p : MintPubV) : list F :=
    [mq_root p; mq_native p; mq_nullifier p; mq_fee p; mq_mint_rc p; mq_chg_rc p; mq_amount p; mq_code p; mq_internal p]
    ++ [po_map (mq_pol p); fst (po_viewer (mq_pol p)); snd (po_viewer (mq_pol p)); fst (po_cred (mq_pol p)); snd (po_cred (mq_pol p));
        fst (po_freezer (mq_pol p)); snd (po_freezer (mq_pol p)); po_threshold (mq_pol p)]
    ++ memo_scalars (mq_memo p).
  Definition freeze_scalars (p : FreezePubV) : list F :=
    [fq_root p; fq_native p; fq_fee p] ++ fq_nullifiers p ++ fq_commitments p.
  Lemma transfer_scalars_api p : transfer_scalars (transfer_pub_value p) = transfer_to_scalars p.
  Proof. reflexivity. Qed.
  Lemma mint_scalars_api p : mint_scalars (mint_pub_value p) = mint_to_scalars p.
  Proof. reflexivity. Qed.
  Lemma freeze_scalars_api p : freeze_scalars (freeze_pub_value p) = freeze_to_scalars p.
  Proof. reflexivity. Qed.

  Ltac pubs_tac :=
    repeat match goal with
    | E : create_public_variable _ _ = _ |- _ => apply pub_pubvar in E
    | E : mmap create_public_variable _ _ = _ |- _ => apply pub_pubmap in E
    | E : memo_var_set_public _ _ = _ |- _ => apply pub_memo in E
    | E : policy_var_set_public _ _ = _ |- _ => apply pub_policy in E
    | E : memo_var_new _ _ = _ |- _ => apply np_memo_new in E
    | E : policy_var_new _ _ = _ |- _ => apply np_policy_new in E
    end.
  Lemma tpub_pubs p s v s' rho : transfer_pub_var_new p s = Ok (v, s') ->
    map rho (pubs s') = map rho (pubs s) ++ transfer_scalars (vtpub rho v).
  Proof.
    unfold transfer_pub_var_new. intros H. do 8 (apply mbind_ok in H; destruct H as (? & ? & ? & H)). injection H as <- <-.
    pubs_tac. repeat match goal with E : pubs ?a = _ |- context [pubs ?a] => rewrite E; clear E end.
    rewrite !map_app, <- !app_assoc. reflexivity.
  Qed.
  Lemma mpub_pubs p s v s' rho : mint_pub_var_new p s = Ok (v, s') ->
    map rho (pubs s') = map rho (pubs s) ++ mint_scalars (vmpub rho v).
  Proof.
    unfold mint_pub_var_new. intros H. do 13 (apply mbind_ok in H; destruct H as (? & ? & ? & H)). injection H as <- <-.
    pubs_tac. repeat match goal with E : pubs ?a = _ |- context [pubs ?a] => rewrite E; clear E end.
    rewrite !map_app, <- !app_assoc. reflexivity.
  Qed.
  Lemma fpub_pubs p s v s' rho : freeze_pub_var_new p s = Ok (v, s') ->
    map rho (pubs s') = map rho (pubs s) ++ freeze_scalars (vfpub rho v).
  Proof.
    unfold freeze_pub_var_new. intros H. do 5 (apply mbind_ok in H; destruct H as (? & ? & ? & H)). injection H as <- <-.
    pubs_tac. repeat match goal with E : pubs ?a = _ |- context [pubs ?a] => rewrite E; clear E end.
    rewrite !map_app, <- !app_assoc. reflexivity.
  Qed.
  Lemma transfer_pubs w p wv pv s rho : transfer_build w p new_circuit = Ok ((wv, pv), s) ->
    map rho (pubs s) = transfer_scalars (vtpub rho pv).
  Proof.
    intros H. apply transfer_build_inv in H. destruct H as (s1 & s2 & H1 & H2 & H3).
    apply np_transfer in H3. rewrite H3, (tpub_pubs _ _ _ _ rho H2). apply np_twit in H1. rewrite H1. reflexivity.
  Qed.
  Lemma mint_pubs w p wv pv s rho : mint_build w p new_circuit = Ok ((wv, pv), s) ->
    map rho (pubs s) = mint_scalars (vmpub rho pv).
  Proof.
    intros H. apply mint_build_inv in H. destruct H as (s1 & s2 & H1 & H2 & H3).
    apply np_mint in H3. rewrite H3, (mpub_pubs _ _ _ _ rho H2). apply np_mwit in H1. rewrite H1. reflexivity.
  Qed.
  Lemma freeze_pubs w p wv pv s rho : freeze_build_unchecked w p new_circuit = Ok ((wv, pv), s) ->
    map rho (pubs s) = freeze_scalars (vfpub rho pv).
  Proof.
    intros H. apply freeze_build_inv in H. destruct H as (s1 & s2 & H1 & H2 & H3).
    apply np_freeze in H3. rewrite H3, (fpub_pubs _ _ _ _ rho H2). apply np_fwit in H1. rewrite H1. reflexivity.
  Qed.

  (** ** Values from scalars *)
  Lemma app_inv_length {A} : forall (a b c d : list A), length a = length c -> a ++ b = c ++ d -> a = c /\ b = d.
  Proof.
    induction a as [|x a IH]; intros b [|y c] d H E; try discriminate; [auto|].
    cbn in E. injection E as -> E. destruct (IH b c d) as [-> ->]; auto.
  Qed.
End Pub.

(** ** Shape *)
Section Shape.
  Context {C : CapConfig}.
  Lemma shp_witness_range a n : shp (is_in_range a n) (is_in_range a n).
  Proof.
    intros s1 s2 H. assert (HL := proj1 H). unfold is_in_range. rewrite !(mbind_eq (witness a)). unfold witness.
    destruct (nth_error (wit s1) a) as [x|] eqn:E1, (nth_error (wit s2) a) as [y|] eqn:E2.
    - refine (shp_bind (create_variable _) (create_variable _) _ _ (shp_create _ _) _ s1 s2 H). sh.
    - apply nth_error_None in E2. assert (a < length (wit s1))%nat by (apply nth_error_Some; congruence). lia.
    - apply nth_error_None in E1. assert (a < length (wit s2))%nat by (apply nth_error_Some; congruence). lia.
    - reflexivity.
  Qed.
  Lemma shp_memo_loop l : forall a, shp (memo_eq_loop a l) (memo_eq_loop a l).
  Proof. induction l as [|[x y] l IH]; intros; cbn [memo_eq_loop]; sh. Qed.
  Lemma shp_climb p : forall c, shp (merkle_climb c p) (merkle_climb c p).
  Proof. induction p as [|n p IH]; intros; cbn [merkle_climb]; sh. Qed.
  Lemma shp_loop_first {A} (f : bool -> A -> M unit) l : (forall b x, shp (f b x) (f b x)) -> shp (loop_first f l) (loop_first f l).
  Proof. intros H. destruct l; cbn [loop_first]; sh. Qed.
  (** two lists of the same length are allocated alike *)
  Lemma shp_map_len {A B} (f : A -> M B) l1 l2 : length l1 = length l2 -> (forall x y, shp (f x) (f y)) -> shp (mmap f l1) (mmap f l2).
  Proof.
    intros H Hf. apply shp_map. revert l2 H. induction l1 as [|x l1 IH]; intros [|y l2] H; try discriminate; constructor; auto.
  Qed.
End Shape.
Global Hint Resolve shp_witness_range shp_memo_loop shp_climb : shp.
Section Shape2.
  Context {C : CapConfig}.
  Lemma shp_transfer_c w p : shp (transfer_constraints w p) (transfer_constraints w p).
  Proof.
    unfold transfer_constraints. apply shp_bind; [apply shp_loop_first; sh|].
    intros; apply shp_bind; [apply shp_loop_first; sh|]. sh.
  Qed.
  Lemma shp_mint_c w p : shp (mint_constraints w p) (mint_constraints w p).
  Proof. sh. Qed.
  Lemma shp_freeze_c w p : shp (freeze_constraints w p) (freeze_constraints w p).
  Proof. sh. Qed.

  Lemma shp_pubvar x y : shp (create_public_variable x) (create_public_variable y).
  Proof. sh. Qed.
  Lemma shp_ptvar x y : shp (create_point_variable x) (create_point_variable y).
  Proof. sh. Qed.
  Lemma shp_boolvar x y : shp (create_boolean_variable x) (create_boolean_variable y).
  Proof. sh. Qed.
  Lemma shp_policy x y : shp (policy_var_new x) (policy_var_new y).
  Proof. sh. Qed.
  Lemma shp_ro x y : shp (ro_var_new x) (ro_var_new y).
  Proof. sh. Qed.
  Lemma shp_memo x y : length (vm_data x) = length (vm_data y) -> shp (memo_var_new x) (memo_var_new y).
  Proof.
    intros H. unfold memo_var_new. apply shp_bind; [apply shp_ptvar|]. intros. apply shp_bind; [apply shp_map_len; auto using shp_create|]. sh.
  Qed.
  Lemma shp_node x y : shp (node_var_new x) (node_var_new y).
  Proof. sh. Qed.
  Lemma shp_acc x y : length (acc_path x) = length (acc_path y) -> shp (acc_var_new x) (acc_var_new y).
  Proof.
    intros H. unfold acc_var_new. apply shp_bind; [apply shp_create|]. intros. apply shp_bind; [apply shp_map_len; auto using shp_node|]. sh.
  Qed.
  Lemma shp_cred x y : length (cr_attrs x) = length (cr_attrs y) -> shp (cred_var_new x) (cred_var_new y).
  Proof.
    intros H. unfold cred_var_new.
    do 2 (apply shp_bind; [apply shp_create|intros]). do 3 (apply shp_bind; [apply shp_ptvar|intros]).
    apply shp_bind; [apply shp_map_len; auto using shp_create|]. sh.
  Qed.

  (** the only data the shape of a transfer circuit depends on *)
  Definition input_shape (s : InputSecret) : nat * nat := (length (acc_path (is_acc s)), length (cr_attrs (is_cred s))).
  Definition transfer_shape (w : TransferWitness) (p : TransferPublicInput) : list (nat * nat) * nat * (nat * nat * nat) :=
    (map input_shape (tw_inputs w), length (tw_outputs w),
     (length (tp_nullifiers p), length (tp_commitments p), length (vm_data (tp_memo p)))).
  Lemma shp_input x y : input_shape x = input_shape y -> shp (input_var_new x) (input_var_new y).
  Proof.
    intros H. injection H as H1 H2. unfold input_var_new. apply shp_bind; [apply shp_create|intros].
    apply shp_bind; [apply shp_ro|intros]. apply shp_bind; [apply shp_cred; auto|intros]. apply shp_bind; [apply shp_acc; auto|]. sh.
  Qed.
  Lemma shp_transfer w1 p1 w2 p2 : transfer_shape w1 p1 = transfer_shape w2 p2 -> shp (transfer_build w1 p1) (transfer_build w2 p2).
  Proof.
    intros H. injection H as H1 H2 H3 H4 H5. unfold transfer_build. rewrite H2.
    assert (HL : length (tw_inputs w1) = length (tw_inputs w2)) by (rewrite <- (map_length input_shape), H1, map_length; auto).
    rewrite HL. destruct (_ =? 0)%nat; [sh|]. destruct (_ =? 0)%nat; [sh|].
    apply shp_bind; [|intros; apply shp_bind; [|intros; apply shp_bind; [apply shp_transfer_c|sh]]].
    - unfold transfer_witness_var_new. apply shp_bind; [apply shp_create|intros]. apply shp_bind; [apply shp_policy|intros].
      apply shp_bind; [|intros; apply shp_bind; [apply shp_map_len; auto using shp_ro|sh]].
      apply shp_map. clear HL. revert H1. generalize (tw_inputs w1) (tw_inputs w2).
      induction l as [|x l IH]; intros [|y l'] H; try discriminate; constructor; cbn [map] in H; injection H as H; auto.
      apply shp_input. unfold input_shape. congruence.
    - unfold transfer_pub_var_new. do 4 (apply shp_bind; [apply shp_pubvar|intros]).
      do 2 (apply shp_bind; [apply shp_map_len; auto using shp_pubvar|intros]). apply shp_bind; [apply shp_memo; auto|]. sh.
  Qed.
  Definition mint_shape (w : MintWitness) (p : MintPublicInput) : nat * nat := (length (acc_path (mw_acc w)), length (vm_data (mp_memo p))).
  Lemma shp_mint w1 p1 w2 p2 : mint_shape w1 p1 = mint_shape w2 p2 -> shp (mint_build w1 p1) (mint_build w2 p2).
  Proof.
    intros H. injection H as H1 H2. unfold mint_build.
    apply shp_bind; [|intros; apply shp_bind; [|intros; apply shp_bind; [apply shp_mint_c|sh]]].
    - unfold mint_witness_var_new. apply shp_bind; [apply shp_ro|intros]. apply shp_bind; [apply shp_create|intros].
      apply shp_bind; [apply shp_ro|intros]. apply shp_bind; [apply shp_acc; auto|intros]. sh.
    - unfold mint_pub_var_new. do 9 (apply shp_bind; [apply shp_pubvar|intros]). apply shp_bind; [apply shp_policy|intros].
      apply shp_bind; [sh|intros]. apply shp_bind; [apply shp_memo; auto|]. sh.
  Qed.
  Definition freeze_shape (w : FreezeWitness) (p : FreezePublicInput) : nat * list nat * nat * nat * (nat * nat) :=
    (length (fw_inputs w), map (fun a => length (acc_path a)) (fw_accs w), length (fw_outputs w), length (fw_keys w),
     (length (fp_nullifiers p), length (fp_commitments p))).
  Lemma shp_freeze w1 p1 w2 p2 : freeze_shape w1 p1 = freeze_shape w2 p2 -> shp (freeze_build_unchecked w1 p1) (freeze_build_unchecked w2 p2).
  Proof.
    intros H. injection H as H1 H2 H3 H4 H5 H6. unfold freeze_build_unchecked.
    apply shp_bind; [|intros; apply shp_bind; [|intros; apply shp_bind; [apply shp_freeze_c|sh]]].
    - unfold freeze_witness_var_new. apply shp_bind; [apply shp_map_len; auto using shp_ro|intros].
      apply shp_bind; [|intros; apply shp_bind; [apply shp_map_len; auto using shp_ro|intros; apply shp_bind; [apply shp_create|intros;
         apply shp_bind; [apply shp_map_len; auto using shp_create|sh]]]].
      apply shp_map. revert H2. generalize (fw_accs w1) (fw_accs w2).
      induction l as [|x l IH]; intros [|y l'] H; try discriminate; constructor; cbn [map] in H; injection H as H; auto.
      apply shp_acc; auto.
    - unfold freeze_pub_var_new. do 3 (apply shp_bind; [apply shp_pubvar|intros]).
      do 2 (apply shp_bind; [apply shp_map_len; auto using shp_pubvar|intros]). sh.
  Qed.
End Shape2.
