(** Which functions of the API can panic: building the circuits, generating notes, opening memos and decoding. *)
From Verif Require Import Base Config Structs Keys Utils Memo Plonk Witness Circuits Snark Notes Serde CodecProofs UtilsProofs CircuitLogic CircuitShape.

(** ** Results *)
Lemma np_bind {A B} (m : res A) (k : A -> res B) : m <> Panic -> (forall a, m = Ok a -> k a <> Panic) -> bind m k <> Panic.
Proof. destruct m; cbn; intros H K; try congruence. apply K; reflexivity. Qed.
Lemma np_fail_if b e : fail_if b e <> Panic.
Proof. destruct b; discriminate. Qed.
Lemma np_ok_or {A} (o : option A) e : ok_or o e <> Panic.
Proof. destruct o; discriminate. Qed.
Lemma np_map_err {A} (r : res A) e : r <> Panic -> map_err r e <> Panic.
Proof. destruct r; cbn; congruence. Qed.
Lemma np_mapM {A B} (f : A -> res B) l : (forall x, In x l -> f x <> Panic) -> mapM f l <> Panic.
Proof.
  induction l as [|x l IH]; cbn [mapM]; intros H; [discriminate|]. apply np_bind; [apply H; left; reflexivity|]. intros.
  apply np_bind; [apply IH; intros; apply H; right; assumption|]. discriminate.
Qed.
Lemma np_forM {A} (f : A -> res unit) l : (forall x, In x l -> f x <> Panic) -> forM l f <> Panic.
Proof.
  induction l as [|x l IH]; cbn [forM]; intros H; [discriminate|]. apply np_bind; [apply H; left; reflexivity|]. intros.
  apply IH; intros; apply H; right; assumption.
Qed.
Lemma np_read n s : read_exact n s <> Panic.
Proof. unfold read_exact. destruct (_ <? _)%nat; discriminate. Qed.

(** ** Circuit construction *)
Section Builder.
  Context {C : CapConfig}.
  (** no panic, and a successful run returns a value with [P] *)
  Definition npm {A} (m : M A) (P : A -> Prop) : Prop :=
    forall s, match m s with Ok (a, _) => P a | Err _ => True | Panic => False end.
  Lemma npm_weak {A} (m : M A) (P Q : A -> Prop) : npm m P -> (forall a, P a -> Q a) -> npm m Q.
  Proof. intros H K s. specialize (H s). destruct (m s) as [[a t]|e|]; auto. Qed.
  Lemma npm_bind {A B} (m : M A) (k : A -> M B) P Q : npm m P -> (forall a, P a -> npm (k a) Q) -> npm (mbind m k) Q.
  Proof. intros Hm Hk s. unfold mbind. specialize (Hm s). destruct (m s) as [[a t]|e|]; auto. apply Hk, Hm. Qed.
  Lemma npm_ret {A} (a : A) (P : A -> Prop) : P a -> npm (ret a) P.
  Proof. intros H s. exact H. Qed.
  Lemma npm_fail {A} e P : npm (@mfail _ A e) P.
  Proof. intros s. exact I. Qed.
  Lemma npm_map {A B} (f : A -> M B) l : (forall x, npm (f x) (fun _ => True)) -> npm (mmap f l) (fun r => length r = length l).
  Proof.
    intros H. induction l as [|x l IH]; cbn [mmap]; [apply npm_ret; reflexivity|].
    eapply npm_bind; [apply H|]. intros y _. eapply npm_bind; [apply IH|]. intros ys Hy. apply npm_ret. cbn. congruence.
  Qed.
  Lemma npm_for {A} (f : A -> M unit) l : (forall x, npm (f x) (fun _ => True)) -> npm (mfor l f) (fun _ => True).
  Proof.
    intros H. induction l as [|x l IH]; cbn [mfor]; [apply npm_ret; exact I|]. eapply npm_bind; [apply H|]. intros; apply IH.
  Qed.
  Lemma npm_witness v : npm (witness v) (fun _ => True).
  Proof. intros s. unfold witness. destruct (nth_error _ _); exact I. Qed.
  Lemma npm_create x : npm (create_variable x) (fun _ => True).
  Proof. intros s. exact I. Qed.
  Lemma npm_pub v : npm (set_variable_public v) (fun _ => True).
  Proof. intros s. exact I. Qed.
  Lemma npm_insert g : npm (insert_gate g) (fun _ => True).
  Proof. intros s. unfold insert_gate. destruct (forallb _ _); exact I. Qed.
  Lemma npm_true {A} (m : M A) P : npm m P -> npm m (fun _ => True).
  Proof. intros H. eapply npm_weak; [exact H|auto]. Qed.
  Lemma npm_apply_op o ins n : (forall xs, length xs = length ins -> length (op_eval o xs) = n) -> npm (apply_op o ins) (fun r => length r = n).
  Proof.
    intros H. unfold apply_op. eapply npm_bind; [apply npm_map; intros; apply npm_witness|]. intros xs Hx.
    eapply npm_bind; [apply npm_map; intros; apply npm_create|]. intros outs Ho.
    eapply npm_bind; [apply npm_insert|]. intros _ _. apply npm_ret. rewrite Ho. apply H, Hx.
  Qed.
  Lemma npm_apply_any o ins : npm (apply_op o ins) (fun _ => True).
  Proof.
    unfold apply_op. eapply npm_bind; [apply npm_map; intros; apply npm_witness|]. intros xs Hx.
    eapply npm_bind; [apply npm_map; intros; apply npm_create|]. intros outs Ho.
    eapply npm_bind; [apply npm_insert|]. intros _ _. apply npm_ret. exact I.
  Qed.
  Lemma npm_apply1 o ins : npm (apply1 o ins) (fun _ => True).
  Proof. unfold apply1. eapply npm_bind; [apply npm_apply_any|]. intros [|? [|? ?]] _; try apply npm_fail. apply npm_ret. exact I. Qed.
  Lemma npm_apply2 o ins : npm (apply2 o ins) (fun _ => True).
  Proof. unfold apply2. eapply npm_bind; [apply npm_apply_any|]. intros [|? [|? [|? ?]]] _; try apply npm_fail. apply npm_ret. exact I. Qed.
End Builder.

Create HintDb npm.
Ltac npm := intros; cbn zeta;
  first [ solve [auto 3 with npm] |
  lazymatch goal with
  | |- npm (mbind _ _) _ => eapply npm_bind; [npm|npm]
  | |- npm (mmap _ _) _ => eapply npm_true; apply npm_map; npm
  | |- npm (mfor _ _) _ => apply npm_for; npm
  | |- npm (ret ?a) _ => apply (npm_ret a (fun _ => True)); exact I
  | |- npm (mfail _) _ => apply npm_fail
  | |- npm (witness _) _ => apply npm_witness
  | |- npm (create_variable _) _ => apply npm_create
  | |- npm (set_variable_public _) _ => apply npm_pub
  | |- npm (insert_gate _) _ => apply npm_insert
  | |- npm (apply_op _ _) _ => apply npm_apply_any
  | |- npm (apply1 _ _) _ => apply npm_apply1
  | |- npm (apply2 _ _) _ => apply npm_apply2
  | |- npm (match ?x with _ => _ end) _ => destruct x; npm
  | |- npm ?m _ => let h := head_of m in unfold h; npm
  end ].

Section BuildCircuits.
  Context {C : CapConfig}.
  Lemma npm_climb path : forall c, npm (merkle_climb c path) (fun _ => True).
  Proof. induction path as [|n p IH]; intros; cbn [merkle_climb]; npm. Qed.
  Lemma npm_memo_loop l : forall a, npm (memo_eq_loop a l) (fun _ => True).
  Proof. induction l as [|[x y] l IH]; intros; cbn [memo_eq_loop]; npm. Qed.
  Lemma npm_loop_first {A} (f : bool -> A -> M unit) l : (forall b x, npm (f b x) (fun _ => True)) -> npm (loop_first f l) (fun _ => True).
  Proof. intros H. destruct l; cbn [loop_first]; npm. Qed.
End BuildCircuits.
Global Hint Resolve npm_climb npm_memo_loop : npm.
Section BuildCircuits2.
  Context {C : CapConfig}.
  Lemma npm_spend r a s k : npm (prove_spend r a s k) (fun _ => True).
  Proof. npm. Qed.
  Lemma npm_input_message reveal i : length reveal = 12%nat -> npm (memo_input_message reveal i) (fun _ => True).
  Proof. destruct reveal as [|? [|? [|? [|? ?]]]]; intros H; try discriminate H. npm. Qed.
  Lemma npm_output_message reveal r : length reveal = 12%nat -> npm (memo_output_message reveal r) (fun _ => True).
  Proof. destruct reveal as [|? [|? [|? [|? ?]]]]; intros H; try discriminate H. npm. Qed.
  Lemma npm_transfer_memo w p : npm (transfer_is_correct_viewing_memo w p) (fun _ => True).
  Proof.
    unfold transfer_is_correct_viewing_memo. eapply npm_bind; [apply (npm_apply_op _ _ 12)|].
    - intros [|x [|y xs]] H; try discriminate H. cbn [op_eval]. unfold f_bits. rewrite map_length, seq_length. reflexivity.
    - intros bits Hb. cbn zeta. eapply npm_bind; [eapply npm_true, npm_map; intros; apply npm_input_message; rewrite rev_length; exact Hb|].
      intros ins _. eapply npm_bind; [eapply npm_true, npm_map; intros; apply npm_output_message; rewrite rev_length; exact Hb|]. npm.
  Qed.
  Lemma npm_transfer_build w p : npm (transfer_build w p) (fun _ => True).
  Proof.
    unfold transfer_build. destruct (_ =? 0)%nat; [apply npm_fail|]. destruct (_ =? 0)%nat; [apply npm_fail|].
    eapply npm_bind; [npm|]. intros wv _. eapply npm_bind; [npm|]. intros pv _. eapply npm_bind; [|intros; apply npm_ret; exact I].
    unfold transfer_constraints. eapply npm_bind; [apply npm_loop_first; npm|]. intros.
    eapply npm_bind; [apply npm_loop_first; npm|]. intros.
    eapply npm_bind; [npm|]; intros. eapply npm_bind; [npm|]; intros. eapply npm_bind; [npm|]; intros.
    eapply npm_bind; [npm|]; intros. eapply npm_bind; [npm|]; intros. eapply npm_bind; [apply npm_transfer_memo|]; npm.
  Qed.
  Lemma npm_mint_build w p : npm (mint_build w p) (fun _ => True).
  Proof. npm. Qed.
  Lemma npm_freeze_witness w : npm (freeze_witness_var_new w) (fun v => length (fwv_inputs v) = length (fw_inputs w) /\
    length (fwv_accs v) = length (fw_accs w) /\ length (fwv_outputs v) = length (fw_outputs w)).
  Proof.
    unfold freeze_witness_var_new. eapply npm_bind; [apply npm_map; npm|]. intros ins H1. eapply npm_bind; [apply npm_map; npm|]. intros accs H2.
    eapply npm_bind; [apply npm_map; npm|]. intros outs H3. eapply npm_bind; [npm|]. intros sk _. eapply npm_bind; [apply npm_map; npm|]. intros keys _.
    apply npm_ret. cbn. auto.
  Qed.
  Lemma npm_freeze_pub p : npm (freeze_pub_var_new p) (fun v => length (fpv_nullifiers v) = length (fp_nullifiers p)).
  Proof.
    unfold freeze_pub_var_new. eapply npm_bind; [npm|]. intros x1 _. eapply npm_bind; [npm|]. intros x2 _. eapply npm_bind; [npm|]. intros x3 _.
    eapply npm_bind; [apply npm_map; npm|]. intros nls H. eapply npm_bind; [npm|]. intros rcs _. apply npm_ret. exact H.
  Qed.
  Lemma npm_freeze_build w p : fw_inputs w <> [] -> fw_accs w <> [] -> fw_outputs w <> [] -> fp_nullifiers p <> [] ->
    npm (freeze_build_unchecked w p) (fun _ => True).
  Proof.
    intros H1 H2 H3 H4. unfold freeze_build_unchecked. eapply npm_bind; [apply npm_freeze_witness|]. intros wv (L1 & L2 & L3).
    eapply npm_bind; [apply npm_freeze_pub|]. intros pv L4. cbv beta in L4. eapply npm_bind; [|intros; apply npm_ret; exact I].
    unfold freeze_constraints.
    destruct (fwv_inputs wv) as [|i0 ir]; [destruct (fw_inputs w); [congruence|discriminate L1]|].
    destruct (fwv_outputs wv) as [|o0 or]; [destruct (fw_outputs w); [congruence|discriminate L3]|].
    destruct (fwv_accs wv) as [|a0 ar]; [destruct (fw_accs w); [congruence|discriminate L2]|].
    destruct (fpv_nullifiers pv) as [|n0 nr]; [exfalso; apply H4; apply length_zero_iff_nil; symmetry; exact L4|].
    npm.
  Qed.
  Lemma npm_run {A} (m : M A) s : npm m (fun _ => True) -> match m s with Ok (_, t) => Ok t | Err e => Err e | Panic => Panic end <> Panic.
  Proof. intros H. specialize (H s). destruct (m s) as [[a t]|e|]; try discriminate. destruct H. Qed.
  Lemma np_transfer_circuit w p : transfer_circuit w p <> Panic.
  Proof. apply npm_run, npm_transfer_build. Qed.
  Lemma np_mint_circuit w p : mint_circuit w p <> Panic.
  Proof. apply npm_run, npm_mint_build. Qed.
  Lemma np_freeze_unchecked w p : fw_inputs w <> [] -> fw_accs w <> [] -> fw_outputs w <> [] -> fp_nullifiers p <> [] -> freeze_circuit_unchecked w p <> Panic.
  Proof. intros. apply npm_run, npm_freeze_build; auto. Qed.
  Lemma np_freeze_circuit w p : fw_inputs w <> [] -> fw_accs w <> [] -> fw_outputs w <> [] -> fp_nullifiers p <> [] -> freeze_circuit w p <> Panic.
  Proof. intros. unfold freeze_circuit. destruct (existsb _ _); [discriminate|]. apply np_map_err, np_freeze_unchecked; auto. Qed.
End BuildCircuits2.

Ltac np1 := first [apply np_fail_if|apply np_ok_or|apply np_read|discriminate].
Ltac nps := repeat (first [np1|match goal with |- bind _ _ <> Panic => apply np_bind; [|intros ? ?] | |- map_err _ _ <> Panic => apply np_map_err end]); try solve [auto].

(** ** Public inputs and memos *)
Section Api.
  Context {C : CapConfig}.
  Lemma np_amount_sub (a b : Amount) : amount_ltb a b = false -> amount_sub a b <> Panic.
  Proof. unfold amount_ltb, amount_sub. intros H. apply Z.ltb_ge in H. destruct (Z.leb_spec (zv b) (zv a)); [discriminate|lia]. Qed.
  Lemma fail_if_ok b e u : fail_if b e = Ok u -> b = false.
  Proof. destruct b; [discriminate|reflexivity]. Qed.
  Lemma np_check_fee f : check_fee f <> Panic.
  Proof.
    unfold check_fee. apply np_bind; [np1|]. intros u Hu. apply fail_if_ok in Hu. apply np_bind; [apply np_amount_sub, Hu|]. intros d _. nps.
  Qed.
  Lemma np_fee_info b fin fee : txn_fee_info_new b fin fee <> Panic.
  Proof.
    unfold txn_fee_info_new. repeat match goal with |- (if ?b then _ else _) <> _ => let E := fresh in destruct b eqn:E; [discriminate|] end.
    nps. apply np_amount_sub; auto.
  Qed.
  Lemma np_mint_pub w : mint_from_witness w <> Panic.
  Proof.
    unfold mint_from_witness. apply np_bind; [np1|]. intros u Hu. apply fail_if_ok in Hu. nps. apply np_amount_sub, Hu.
  Qed.
  Lemma np_freeze_pub w : freeze_from_witness w <> Panic.
  Proof.
    unfold freeze_from_witness. apply np_bind; [np1|]. intros u1 H1. apply np_bind; [np1|]. intros u2 H2. apply np_bind; [np1|]. intros u3 H3.
    apply fail_if_ok in H1, H2, H3. destruct (fw_inputs w) as [|i0 ir]; [discriminate H1|]. destruct (fw_outputs w) as [|o0 or]; [discriminate H2|].
    apply np_bind; [np1|]. intros u4 H4. apply np_bind; [np1|]. intros u5 H5. apply fail_if_ok in H4, H5.
    destruct (fw_accs w) as [|a0 ar]; [discriminate H5|]. nps. apply np_amount_sub, H4.
  Qed.
  Lemma np_hadamard m vals : (length vals <= 12)%nat -> rm_hadamard_product m vals <> Panic.
  Proof. intros H. unfold rm_hadamard_product. destruct (Nat.leb_spec (length vals) VIEWABLE_DATA_LEN); [discriminate|]. unfold VIEWABLE_DATA_LEN in *; cbn in *; lia. Qed.
  (** a credential as the issuer makes it *)
  Definition full_cred (c : ExpirableCredential) : Prop := length (cr_attrs c) = ATTRS_LEN.
  Lemma np_memo_in m r c : full_cred c -> memo_input_vals m r c <> Panic.
  Proof.
    intros H. unfold full_cred in H. unfold memo_input_vals. rewrite H, Nat.eqb_refl. cbn [negb]. apply np_bind; [|discriminate]. apply np_hadamard.
    rewrite app_length. apply Nat.eq_le_incl. exact (f_equal (fun n => 4 + n)%nat H).
  Qed.
  Lemma np_memo_transfer ins outs creds r : outs <> [] -> (forall c, In c creds -> full_cred c) -> memo_for_transfer_note ins outs creds r <> Panic.
  Proof.
    intros H1 H2. unfold memo_for_transfer_note, get_asset_def_in_transfer_txn. destruct ins as [|i0 ir]; [discriminate|].
    apply np_bind; [destruct (negb _); [discriminate|destruct (find _ _); discriminate]|]. intros ad _. destruct (is_dummy_def ad); [discriminate|].
    apply np_bind; [apply np_ok_or|]. intros amt _. destruct (_ && _).
    - apply np_bind; [apply np_mapM|].
      + intros [x c] Hx. apply np_memo_in. apply H2. apply (in_combine_r (i0 :: ir) creds x c). rewrite <- (firstn_skipn 1 (combine (i0 :: ir) creds)). apply in_or_app. right. exact Hx.
      + intros ins' _. apply np_bind; [apply np_mapM; intros; apply np_hadamard; cbn; lia|]. discriminate.
    - unfold memo_dummy_for_transfer_note, usize_sub. destruct outs as [|o0 or]; [congruence|]. cbn. discriminate.
  Qed.
  Lemma dummy_cred_full c : cred_dummy_unexpired = Ok c -> full_cred c.
  Proof. unfold cred_dummy_unexpired, cred_create. rewrite (repeat_length _ _ : length attr_default_vector = _). cbn. intros [= <-]. reflexivity. Qed.
  Lemma np_secret i : input_secret_of i <> Panic.
  Proof. unfold input_secret_of. nps. destruct (point_eqb _ _); [|np1]. unfold cred_dummy_unexpired. apply np_map_err. unfold cred_create. destruct (negb _); discriminate. Qed.
  Lemma secret_full i s : input_secret_of i = Ok s -> (forall c, ti_cred i = Some c -> full_cred c) -> full_cred (is_cred s).
  Proof.
    unfold input_secret_of. intros H K. apply bind_ok in H. destruct H as (c & Hc & H). injection H as <-. cbn [is_cred].
    destruct (point_eqb _ _); [apply dummy_cred_full, Hc|]. destruct (ti_cred i); [|discriminate Hc]. injection Hc as <-. apply K. reflexivity.
  Qed.
End Api.

(** ** Balance checks *)
Section Balance.
  Context {C : CapConfig}.
  (** the arithmetic on signed 128-bit amounts cannot overflow, or overflow does not panic *)
  Definition tame (inputs outputs : list RecordOpening) : Prop :=
    overflow_checks = false \/ amt_sum inputs + amt_sum outputs < 2 ^ 127.
  Lemma np_i128_release z : overflow_checks = false -> i128_res z <> Panic.
  Proof. intros H. unfold i128_res. rewrite H. destruct (i128_in z); discriminate. Qed.
  Lemma np_sum_release l : overflow_checks = false -> forall r, r <> Panic -> fold_left (fun acc x => let* a := acc in i128_res (a + x)) l r <> Panic.
  Proof.
    intros H. induction l as [|x l IH]; intros r Hr; cbn [fold_left]; [exact Hr|]. apply IH. apply np_bind; [exact Hr|]. intros. apply np_i128_release, H.
  Qed.
  Lemma np_bal_add_release k d m : overflow_checks = false -> bal_add k d m <> Panic.
  Proof.
    intros H. induction m as [|[k' v] m IH]; cbn [bal_add]; [discriminate|]. destruct (zeqb k k'); (apply np_bind; [|discriminate]); [apply np_i128_release, H|exact IH].
  Qed.
  Lemma np_bal_sub_release k d m : overflow_checks = false -> bal_sub k d m <> Panic.
  Proof.
    intros H. induction m as [|[k' v] m IH]; cbn [bal_sub]; [apply np_bind; [apply np_i128_release, H|discriminate]|].
    destruct (zeqb k k'); (apply np_bind; [|discriminate]); [apply np_i128_release, H|exact IH].
  Qed.
  Lemma np_foldM {A B} (f : A -> B -> res A) l : (forall a x, f a x <> Panic) -> forall a, foldM f l a <> Panic.
  Proof.
    intros H. induction l as [|x l IH]; intros a; [discriminate|]. rewrite foldM_cons. apply np_bind; [apply H|]. intros; apply IH.
  Qed.
  Lemma small_of_sum l b : amt_sum l < b -> b <= 2 ^ 127 -> Forall small l.
  Proof.
    intros H Hb. apply Forall_forall. intros r Hr. unfold small. induction l as [|x l IH]; [destruct Hr|].
    rewrite amt_sum_cons in H. pose proof (amt_sum_nonneg l). pose proof (amount_range (amount x)).
    destruct Hr as [<-|Hr]; [lia|]. apply IH; [lia|exact Hr].
  Qed.
  Lemma amt_sum_filter f l : amt_sum (filter f l) <= amt_sum l.
  Proof.
    induction l as [|x l IH]; [apply Z.le_refl|]. cbn [filter]. rewrite amt_sum_cons. pose proof (amount_range (amount x)).
    destruct (f x); [rewrite amt_sum_cons|]; lia.
  Qed.
  Lemma derive_fee_bound inputs outputs fee : inputs <> [] -> outputs <> [] -> amt_sum inputs + amt_sum outputs < 2 ^ 127 ->
    derive_fee inputs outputs <> Panic /\ (derive_fee inputs outputs = Ok fee -> zv fee <= amt_sum inputs).
  Proof.
    intros Hi Ho Hb. pose proof (amt_sum_nonneg inputs) as Ni. pose proof (amt_sum_nonneg outputs) as No.
    assert (Si : Forall small inputs) by (apply (small_of_sum _ (2 ^ 127)); lia).
    assert (So : Forall small outputs) by (apply (small_of_sum _ (2 ^ 127)); lia).
    unfold derive_fee. destruct (forallb _ _).
    - unfold i128_sum. rewrite !i128_sum_ok by (auto; lia). cbn [bind]. rewrite i128_res_in by lia. cbn [bind].
      destruct (Z.ltb_spec (0 + amt_sum inputs - (0 + amt_sum outputs)) 0) as [E|E]; [split; discriminate|]. split; [discriminate|].
      intros [= <-]. rewrite zv_w128_small by lia. lia.
    - destruct inputs as [|i0 ir]; [congruence|]. destruct outputs as [|o0 or]; [congruence|].
      inversion Si as [|? ? Hs1 _]; inversion So as [|? ? Hs2 _]; subst. rewrite !i128_of_small by assumption.
      unfold small in Hs1, Hs2. pose proof (amount_range (amount i0)). pose proof (amount_range (amount o0)). rewrite amt_sum_cons in *.
      pose proof (amt_sum_nonneg ir). rewrite i128_res_in by lia. cbn [bind].
      destruct (Z.ltb_spec (zv (amount i0) - zv (amount o0)) 0) as [E|E]; [split; discriminate|]. split; [discriminate|].
      intros [= <-]. rewrite zv_w128_small by lia. lia.
  Qed.
  Lemma np_balance inputs outputs : inputs <> [] -> outputs <> [] -> tame inputs outputs -> check_balance inputs outputs <> Panic.
  Proof.
    intros Hi Ho [Hr|Hb]; unfold check_balance.
    - apply np_bind.
      + unfold derive_fee. apply np_bind; [|intros fee _; destruct (_ <? _); discriminate].
        destruct (forallb _ _).
        * unfold i128_sum. apply np_bind; [apply np_sum_release; [exact Hr|discriminate]|]. intros. apply np_bind; [apply np_sum_release; [exact Hr|discriminate]|].
          intros. apply np_i128_release, Hr.
        * destruct inputs as [|i0 ir]; [congruence|]. destruct outputs as [|o0 or]; [congruence|]. apply np_i128_release, Hr.
      + intros fee _. apply np_bind; [|discriminate]. unfold check_asset_amount. destruct inputs as [|i0 ir]; [congruence|].
        apply np_bind; [apply np_i128_release, Hr|]. intros nfee _. apply np_bind; [apply np_foldM; intros; apply np_bal_add_release, Hr|]. intros b1 _.
        apply np_bind; [apply np_foldM; intros; apply np_bal_sub_release, Hr|]. intros b2 _. destruct (existsb _ _); discriminate.
    - pose proof (amt_sum_nonneg inputs) as Ni. pose proof (amt_sum_nonneg outputs) as No.
      assert (Si : Forall small inputs) by (apply (small_of_sum _ (2 ^ 127)); lia).
      assert (So : Forall small outputs) by (apply (small_of_sum _ (2 ^ 127)); lia).
      apply np_bind; [apply derive_fee_bound; auto; exact (w128 0)|]. intros fee Hf.
      destruct (derive_fee_bound inputs outputs fee Hi Ho Hb) as [_ Hle]. specialize (Hle Hf). apply np_bind; [|discriminate].
      unfold check_asset_amount. destruct inputs as [|i0 ir] eqn:Ei; [congruence|]. rewrite <- Ei in *. pose proof (amount_range fee).
      rewrite i128_of_small by lia. rewrite i128_res_in by lia. cbn [bind].
      set (nd := filter _ inputs).
      assert (Hnd : amt_sum nd <= amt_sum inputs) by apply amt_sum_filter.
      destruct (fold_add_ok nd [(code (asset_def i0), - zv fee)]) as (b1 & E1 & H1).
      { apply (small_of_sum _ (2 ^ 127)); lia. }
      { intros j. cbn [bal_get]. pose proof (code_sum_nonneg j nd). pose proof (code_sum_le j nd). destruct (zeqb j _); lia. }
      rewrite E1. cbn [bind]. destruct (fold_sub_ok outputs b1) as (b2 & E2 & H2).
      { exact So. }
      { intros j. rewrite H1. cbn [bal_get]. pose proof (code_sum_nonneg j nd). pose proof (code_sum_le j nd). pose proof (code_sum_le j outputs).
        pose proof (code_sum_nonneg j outputs). destruct (zeqb j _); lia. }
      rewrite E2. cbn [bind]. destruct (existsb _ _); discriminate.
  Qed.
End Balance.

(** ** Generating notes *)
Section Generate.
  Context {C : CapConfig} {S : Snark C}.
  (** the external prover and preprocessing return a result *)
  Definition prover_returns : Prop := forall r s pk msg, snark_prove r s pk msg <> Panic.
  Definition preprocess_returns : Prop := forall g s, snark_preprocess g s <> Panic.

  Lemma mapM_secrets inputs secs : mapM input_secret_of inputs = Ok secs ->
    (forall i c, In i inputs -> ti_cred i = Some c -> full_cred c) -> forall c, In c (map is_cred secs) -> full_cred c.
  Proof.
    intros H K c Hc. apply mapM_ok in H. apply in_map_iff in Hc. destruct Hc as (s & <- & Hs).
    induction H as [|i s' is ss Hi H IH]; [destruct Hs|]. destruct Hs as [->|Hs].
    - eapply secret_full; [exact Hi|]. intros c Hc. eapply K; [left; reflexivity|exact Hc].
    - apply IH; [|exact Hs]. intros i' c' Hi' Hc'. eapply K; [right; exact Hi'|exact Hc'].
  Qed.
  Lemma np_transfer_generate r inputs outputs pk vu extra :
    prover_returns -> (forall i c, In i inputs -> ti_cred i = Some c -> full_cred c) -> tame (map ti_ro inputs) outputs ->
    transfer_generate r inputs outputs pk vu extra <> Panic.
  Proof.
    intros HP HC HT. unfold transfer_generate. apply np_bind; [np1|]. intros u1 Hu. apply fail_if_ok in Hu. apply orb_false_iff in Hu. destruct Hu as [U1 U2].
    assert (N1 : inputs <> []) by (intros ->; discriminate U1). assert (N2 : outputs <> []) by (intros ->; discriminate U2).
    assert (N3 : map ti_ro inputs <> []) by (destruct inputs; [congruence|discriminate]). clear U1 U2 u1. cbn zeta.
    apply np_bind; [unfold transfer_check_proving_key_consistency; nps|]. intros u2 _. apply np_bind; [unfold check_input_pub_keys; nps|]. intros u3 _.
    apply np_bind. { unfold check_dummy_inputs. destruct (map ti_ro inputs); [congruence|]. destruct (ro_is_dummy _); [discriminate|]. destruct (existsb _ _); discriminate. }
    intros u4 _. apply np_bind; [apply np_balance; auto|]. intros fee _. apply np_bind.
    { unfold check_asset_def. destruct (map ti_ro inputs); [congruence|]. destruct outputs; [congruence|]. nps. }
    intros u5 _. apply np_bind; [unfold check_unfrozen; nps|]. intros u6 _. apply np_bind.
    { unfold check_and_get_roots. destruct inputs; [discriminate|]. destruct (existsb _ _); discriminate. }
    intros root _. apply np_bind.
    { unfold check_creds. apply np_forM. intros i _. destruct (negb _); [|discriminate]. destruct (ti_cred i); [|discriminate].
      unfold cred_verify. destruct (cred_is_expired _ _); [discriminate|]. destruct (sig_ok _ _ _); discriminate. }
    intros u7 _. apply np_bind. { unfold transfer_new_unchecked. apply np_bind; [apply np_mapM; intros; apply np_secret|discriminate]. }
    intros w Hw. unfold transfer_new_unchecked in Hw. apply bind_ok in Hw. destruct Hw as (secs & Hs & Hw). injection Hw as <-.
    apply np_bind.
    { unfold transfer_from_witness. cbn [tw_inputs tw_outputs tw_rand].
      nps; try (destruct (_ <=? _); discriminate). all: apply np_memo_transfer; [exact N2|]. eapply mapM_secrets; eauto. }
    intros p _. apply np_bind; [unfold check_distinct_input_nullifiers; destruct (all_insert _ _); discriminate|]. intros u8 _. apply np_bind; [|discriminate].
    unfold transfer_prove. apply np_bind; [apply np_map_err, np_transfer_circuit|]. intros s _. apply np_bind; [np1|]. intros _ _.
    apply np_map_err, HP.
  Qed.
  Lemma np_mint_generate r mint_ro seed d fee pk : prover_returns -> mint_generate r mint_ro seed d fee pk <> Panic.
  Proof.
    intros HP. unfold mint_generate. cbn zeta. apply np_bind; [unfold mint_check_proving_key_consistency; nps|]. intros _ _.
    apply np_bind; [unfold mint_check_input_pub_key; nps|]. intros _ _. apply np_bind; [unfold check_mint_asset_code; nps|]. intros _ _.
    apply np_bind; [apply np_check_fee|]. intros _ _. apply np_bind; [unfold check_unfrozen; nps|]. intros _ _. apply np_bind; [apply np_mint_pub|]. intros p _.
    apply np_bind; [|discriminate]. unfold mint_prove. apply np_bind; [apply np_map_err, np_mint_circuit|]. intros. apply np_map_err, HP.
  Qed.
  Lemma freeze_pub_nonempty w p : freeze_from_witness w = Ok p -> fw_inputs w <> [] /\ fw_accs w <> [] /\ fw_outputs w <> [] /\ fp_nullifiers p <> [].
  Proof.
    unfold freeze_from_witness. intros H. apply bind_ok in H. destruct H as (u1 & _ & H). apply bind_ok in H. destruct H as (u2 & _ & H).
    apply bind_ok in H. destruct H as (u3 & _ & H). destruct (fw_inputs w); [discriminate H|]. destruct (fw_outputs w); [discriminate H|].
    apply bind_ok in H. destruct H as (u4 & _ & H). apply bind_ok in H. destruct H as (u5 & _ & H). destruct (fw_accs w); [discriminate H|].
    apply bind_ok in H. destruct H as (f & _ & H). injection H as <-. cbn. repeat split; discriminate.
  Qed.
  Lemma np_freeze_generate r inputs fee pk : prover_returns -> freeze_generate r inputs fee pk <> Panic.
  Proof.
    intros HP. unfold freeze_generate. cbn zeta. apply np_bind; [unfold check_inputs_len; nps|]. intros _ _.
    apply np_bind; [unfold freeze_check_proving_key_consistency; nps|]. intros _ _. apply np_bind.
    { unfold freeze_check_and_get_root. destruct (existsb _ _); discriminate. }
    intros root _. apply np_bind; [unfold check_freezing_policies_are_not_dummy; apply np_forM; intros; np1|]. intros _ _.
    apply np_bind; [apply np_check_fee|]. intros _ _. apply np_bind; [apply np_freeze_pub|]. intros p Hp. apply np_bind; [unfold check_distinct_input_nullifiers; destruct (all_insert _ _); discriminate|]. intros _ _.
    apply np_bind; [|discriminate]. unfold freeze_prove. destruct (freeze_pub_nonempty _ _ Hp) as (H1 & H2 & H3 & H4).
    apply np_bind; [apply np_map_err, np_freeze_circuit; assumption|]. intros s _. apply np_bind; [np1|]. intros _ _. apply np_map_err, HP.
  Qed.
  Lemma np_amount_add (a b : Amount) : zv a + zv b < 2 ^ 128 -> amount_add a b <> Panic.
  Proof. unfold amount_add. intros H. destruct (zv a + zv b <? u128_mod) eqn:E; [discriminate|]. apply Z.ltb_ge in E. assert (u128_mod = 2 ^ 128) by reflexivity. lia. Qed.
  Lemma np_transfer_generate_native r inputs outputs fee vu pk :
    prover_returns -> (forall i c, In i inputs -> ti_cred i = Some c -> full_cred c) -> inputs <> [] ->
    (overflow_checks = false \/ 2 * amt_sum (map ti_ro inputs) + amt_sum outputs + zv fee < 2 ^ 127) ->
    transfer_generate_native r inputs outputs fee vu pk <> Panic.
  Proof.
    intros HP HC HN HT. unfold transfer_generate_native. destruct inputs as [|i0 rest] eqn:Ei; [congruence|]. rewrite <- Ei in *.
    apply np_bind; [np1|]. intros u1 _. apply np_bind; [np1|]. intros ti Hti. apply np_bind; [np1|]. intros to Hto.
    assert (Bo : zv to = amt_sum outputs).
    { unfold amt_sum, ok_or in *. destruct (safe_sum_amount (map amount outputs)) eqn:E; [|discriminate Hto]. injection Hto as <-.
      apply safe_sum_some in E. rewrite <- E, map_map. reflexivity. }
    assert (Bi : zv ti <= amt_sum (map ti_ro inputs)).
    { unfold ok_or in Hti. destruct (safe_sum_amount _) eqn:E; [|discriminate Hti]. injection Hti as <-. apply safe_sum_some in E. rewrite <- E.
      rewrite !map_map. clear. unfold amt_sum. rewrite map_map. induction inputs as [|x l IH]; [apply Z.le_refl|]. cbn [filter map].
      pose proof (amount_range (amount (ti_ro x))). destruct (negb _); cbn [map]; unfold zsum in *; cbn [fold_right] in *; lia. }
    apply np_bind.
    { destruct HT as [HT|HT]; [unfold amount_add; rewrite HT; destruct (_ <? _); discriminate|]. apply np_amount_add. pose proof (amt_sum_nonneg (map ti_ro inputs)). lia. }
    intros need Hneed. apply np_bind; [np1|]. intros u2 Hge. apply fail_if_ok in Hge. unfold amount_ltb in Hge. apply Z.ltb_ge in Hge.
    assert (Hs : overflow_checks = false \/ zv to + zv fee <= zv ti /\ 2 * amt_sum (map ti_ro inputs) + amt_sum outputs + zv fee < 2 ^ 127).
    { destruct HT as [HT|HT]; [auto|]. right. split; [|exact HT]. unfold amount_add in Hneed. pose proof (amt_sum_nonneg (map ti_ro inputs)).
      pose proof (amount_range fee). pose proof (amount_range to).
      destruct (zv to + zv fee <? u128_mod) eqn:E; [|apply Z.ltb_ge in E; assert (u128_mod = 2 ^ 128) by reflexivity; lia]. injection Hneed as <-. rewrite zv_w128_small in Hge by lia. exact Hge. }
    pose proof (amount_range fee) as Rf. pose proof (amount_range to) as Ro. pose proof (amount_range ti) as Ri.
    apply np_bind.
    { destruct Hs as [Hs|Hs]; [unfold amount_sub; rewrite Hs; destruct (_ <=? _); discriminate|]. rewrite amount_sub_ok by lia. discriminate. }
    intros d Hd. apply np_bind.
    { destruct Hs as [Hs|Hs]; [unfold amount_sub; rewrite Hs; destruct (_ <=? _); discriminate|]. rewrite amount_sub_ok in Hd by lia. injection Hd as <-.
      unfold amount_sub. rewrite zv_w128_small by lia. destruct (Z.leb_spec (zv fee) (zv ti - zv to)); [discriminate|lia]. }
    intros chg Hchg. apply np_bind; [|discriminate]. apply np_transfer_generate; [exact HP|exact HC|].
    destruct Hs as [Hs|[Hs Hb]]; [left; exact Hs|]. right. rewrite amt_sum_cons. change (amount (ro_new _ chg _ _ _)) with chg.
    rewrite amount_sub_ok in Hd by lia. injection Hd as <-. rewrite amount_sub_ok in Hchg by (rewrite zv_w128_small by lia; lia). apply (f_equal (fun r => match r with Ok a => zv a | _ => 0 end)) in Hchg. rewrite (zv_w128_small (zv ti - zv to)) in Hchg by lia. rewrite zv_w128_small in Hchg by lia. lia.
  Qed.
  Lemma np_transfer_generate_non_native r inputs outputs fee vu pk extra :
    prover_returns -> (forall i c, In i inputs -> ti_cred i = Some c -> full_cred c) ->
    tame (fi_ro (fee_input fee) :: map ti_ro inputs) (fee_chg_ro fee :: outputs) ->
    transfer_generate_non_native r inputs outputs fee vu pk extra <> Panic.
  Proof.
    intros HP HC HT. unfold transfer_generate_non_native. apply np_bind; [apply np_check_fee|]. intros _ _. apply np_transfer_generate; [exact HP| |exact HT].
    intros i c [<-|Hi] Hc; [discriminate Hc|eapply HC; eassumption].
  Qed.
  Lemma transfer_dummy_ok n_in n_out depth kp : exists w, transfer_witness_dummy n_in n_out depth kp = Ok w /\
    length (tw_outputs w) = n_out /\ forall c, In c (map is_cred (tw_inputs w)) -> full_cred c.
  Proof.
    unfold transfer_witness_dummy. destruct cred_dummy_unexpired as [c|e|] eqn:E.
    - eexists. split; [reflexivity|]. cbn [tw_outputs tw_inputs]. split; [apply repeat_length|]. intros x Hx. apply in_map_iff in Hx.
      destruct Hx as (s & <- & Hs). apply repeat_spec in Hs. subst s. cbn [is_cred]. apply dummy_cred_full, E.
    - exfalso. unfold cred_dummy_unexpired, cred_create in E. rewrite (repeat_length _ _ : length attr_default_vector = _) in E. discriminate E.
    - exfalso. unfold cred_dummy_unexpired, cred_create in E. rewrite (repeat_length _ _ : length attr_default_vector = _) in E. discriminate E.
  Qed.
  Lemma np_transfer_preprocess g n_in n_out depth : preprocess_returns -> transfer_preprocess g n_in n_out depth <> Panic.
  Proof.
    intros HP. unfold transfer_preprocess, transfer_build_for_preprocessing.
    destruct (transfer_dummy_ok n_in n_out depth user_kp_default) as (w & -> & Hl & Hc). cbn [bind].
    apply np_bind; [|intros; apply np_bind; [apply np_map_err, HP|discriminate]].
    apply np_bind; [|intros; apply np_map_err, np_transfer_circuit].
    unfold transfer_from_witness. apply np_bind; [np1|]. intros s0 _. apply np_bind; [np1|]. intros o0 Ho.
    nps; try (destruct (_ <=? _); discriminate). all: apply np_memo_transfer; [|exact Hc]. intros E. rewrite E in Ho. discriminate Ho.
  Qed.
  Lemma np_mint_preprocess g depth : preprocess_returns -> mint_preprocess g depth <> Panic.
  Proof.
    intros HP. unfold mint_preprocess, mint_build_for_preprocessing. apply np_bind; [|intros; apply np_bind; [apply np_map_err, HP|discriminate]].
    apply np_bind; [apply np_mint_pub|]. intros. apply np_map_err, np_mint_circuit.
  Qed.
  Lemma np_freeze_preprocess g fk n depth : preprocess_returns -> n <> 0%nat -> freeze_preprocess g fk n depth <> Panic.
  Proof.
    intros HP Hn. unfold freeze_preprocess, freeze_build_for_preprocessing. apply np_bind; [|intros; apply np_bind; [apply np_map_err, HP|discriminate]].
    apply np_bind; [destruct n; [congruence|discriminate]|]. intros w _. apply np_bind; [apply np_freeze_pub|]. intros p Hp.
    destruct (freeze_pub_nonempty _ _ Hp) as (H1 & H2 & H3 & H4). apply np_map_err, np_freeze_unchecked; assumption.
  Qed.
  Lemma freeze_preprocess_zero g fk depth : freeze_preprocess g fk 0 depth = Panic.
  Proof. reflexivity. Qed.

  (** ** Verification *)
  Lemma np_verify t k root ts : tx_verify t k root ts <> Panic.
  Proof.
    destruct t, k; cbn [tx_verify]; try discriminate.
    - unfold transfer_verify, transfer_check_instance, transfer_proof_verify. nps.
    - unfold mint_verify, mint_check_instance, mint_proof_verify. apply np_bind; [nps|]. intros p _. apply np_bind; [|intros; apply np_fail_if].
      unfold verify_domestic. match goal with |- (if ?b then _ else _) <> _ => destruct b end; discriminate.
    - unfold freeze_verify, freeze_check_instance, freeze_proof_verify. nps.
  Qed.
  Lemma np_batch txns roots ts keys : txn_batch_verify txns roots ts keys <> Panic.
  Proof.
    unfold txn_batch_verify. nps. apply np_mapM. intros [[n|n|n] r] _; cbn [fst snd batch_public_input];
      unfold transfer_check_instance, mint_check_instance, freeze_check_instance; nps.
  Qed.
  Lemma np_memo_sig (E : MemoSer C) t l sg : verify_receiver_memos_signature t l sg <> Panic.
  Proof. unfold verify_receiver_memos_signature, get_receiver_memos_digest. nps. Qed.
End Generate.

(** ** Opening memos *)
Section Open.
  Context {C : CapConfig}.
  Lemma np_fetch x y ad : fetch_address x y ad <> Panic.
  Proof. unfold fetch_address. destruct (pt_of_xy _); [destruct (_ || _)|destruct (rm_is_user_address_revealed _)]; discriminate. Qed.
  Lemma np_vd ad data d : vd_from_xfr_data_and_asset ad data d <> Panic.
  Proof.
    unfold vd_from_xfr_data_and_asset. destruct (_ =? _)%nat eqn:E; cbn [negb]; [|discriminate]. apply Nat.eqb_eq in E.
    destruct data as [|x [|y [|v [|b attrs]]]]; try (destruct d; discriminate E).
    apply np_bind; [apply np_fetch|]. intros ua _. apply np_bind. { unfold vd_amount_of. destruct (rm_is_amount_revealed _); [destruct (_ <? _)|]; discriminate. }
    intros am _. apply np_bind; [|discriminate]. destruct d; [|discriminate]. apply np_mapM. intros ia _. apply np_bind; [|discriminate].
    unfold rm_is_ith_attribute_revealed. destruct (_ <=? _)%nat; discriminate.
  Qed.
  Lemma chunks_ok {A} (f : list F -> res A) len : (forall l, f l <> Panic) -> (0 < len)%nat -> forall fuel count data,
    (length data < fuel)%nat -> 0 <= count -> count * Z.of_nat len <= Z.of_nat (length data) ->
    process_chunks fuel count len f data <> Panic /\
    (forall l rest, process_chunks fuel count len f data = Ok (l, rest) -> Z.of_nat (length rest) = Z.of_nat (length data) - count * Z.of_nat len).
  Proof.
    intros Hf Hlen. induction fuel as [|fuel IH]; intros count data Hfu Hc Hb; [lia|]. cbn [process_chunks].
    destruct (Z.leb_spec count 0) as [H0|H0].
    - split; [discriminate|]. intros l rest [= <- <-]. replace count with 0 by lia. lia.
    - assert (Hge : (len <= length data)%nat) by nia.
      destruct (Nat.ltb_spec (length data) len) as [H1|H1]; [lia|].
      assert (Hsk : length (skipn len data) = (length data - len)%nat) by apply skipn_length.
      destruct (IH (count - 1) (skipn len data)) as [I1 I2]; [lia|lia|rewrite Hsk, Nat2Z.inj_sub by lia; lia|].
      split.
      + apply np_bind; [apply Hf|]. intros a _. apply np_bind; [exact I1|]. intros [l rest] _. discriminate.
      + intros l rest H. apply bind_ok in H. destruct H as (a & _ & H). apply bind_ok in H. destruct H as ([l' rest'] & H' & H). injection H as _ <-.
        rewrite (I2 _ _ H'), Hsk, Nat2Z.inj_sub by lia. lia.
  Qed.
  (** with at least one nullifier and one commitment, opening a transfer memo returns a result *)
  Lemma np_open_transfer kp ad n m memo : (0 < n)%nat -> (0 < m)%nat ->
    Z.of_nat n < 2 ^ 59 -> Z.of_nat m < 2 ^ 59 -> open_transfer_viewing_memo kp ad n m memo <> Panic.
  Proof.
    intros Hn Hm Bn Bm. unfold open_transfer_viewing_memo. destruct (negb (point_eqb _ _)); [discriminate|].
    destruct n as [|n]; [lia|]. destruct m as [|m]; [lia|]. cbn [usize_pred bind]. cbv zeta.
    rewrite Z.mod_small by (change (Z.of_nat VIEWABLE_DATA_LEN) with 12; lia).
    set (pt := elgamal_decrypt _ _). destruct (Z.eqb_spec (Z.of_nat (length pt)) (1 + Z.of_nat n * Z.of_nat VIEWABLE_DATA_LEN + Z.of_nat m * 4)) as [E|E]; cbn [negb]; [|discriminate].
    change (Z.of_nat VIEWABLE_DATA_LEN) with 12 in E.
    destruct pt as [|c data]; [cbn [length] in E; lia|]. destruct (negb (zeqb _ _)); [discriminate|].
    cbn [length] in E.
    destruct (chunks_ok (fun ch => vd_from_xfr_data_and_asset ad ch VIn) VIEWABLE_DATA_LEN (fun l => np_vd ad l VIn) ltac:(unfold VIEWABLE_DATA_LEN; cbn; lia)
                (Datatypes.S (length data)) (Z.of_nat n) data) as [P1 P2]; [lia|lia|change (Z.of_nat VIEWABLE_DATA_LEN) with 12; lia|].
    apply np_bind; [exact P1|]. intros [ins rest] Hr. apply P2 in Hr. change (Z.of_nat VIEWABLE_DATA_LEN) with 12 in Hr.
    apply np_bind; [|intros [outs r] _; discriminate].
    apply (chunks_ok (fun ch => vd_from_xfr_data_and_asset ad ch VOut) 4 (fun l => np_vd ad l VOut)); lia.
  Qed.
  Lemma open_transfer_no_inputs kp ad m memo : overflow_checks = true -> point_eqb (viewer_pub_key kp) (viewer_pk (policy ad)) = true ->
    open_transfer_viewing_memo kp ad 0 m memo = Panic.
  Proof. intros H E. unfold open_transfer_viewing_memo. rewrite E. cbn [negb usize_pred]. rewrite H. reflexivity. Qed.
  Lemma open_transfer_no_outputs kp ad n memo : overflow_checks = true -> point_eqb (viewer_pub_key kp) (viewer_pk (policy ad)) = true ->
    open_transfer_viewing_memo kp ad n 0 memo = Panic.
  Proof.
    intros H E. unfold open_transfer_viewing_memo. rewrite E. cbn [negb]. destruct n; cbn [usize_pred]; rewrite H; reflexivity.
  Qed.
  Lemma np_open_mint kp ad a memo : open_mint_viewing_memo kp ad a memo <> Panic.
  Proof.
    unfold open_mint_viewing_memo. destruct (negb _); [discriminate|]. unfold vd_from_mint_note.
    destruct (elgamal_decrypt _ _) as [|x [|y [|b [|? ?]]]]; try discriminate. apply np_bind; [apply np_fetch|discriminate].
  Qed.
  Lemma np_receiver_memo (K : RoCodec) m kp rc label : receiver_memo_decrypt m kp rc label <> Panic.
  Proof.
    unfold receiver_memo_decrypt. nps. destruct (negb (user_pub_key_eqb _ _)); [discriminate|]. destruct (negb (zeqb _ _)); discriminate.
  Qed.
End Open.

(** ** Decoding *)
Section Decode.
  Context {C : CapConfig} {S : Snark C} {Z0 : Ser C S}.
  (** decoding returns a result for every byte string *)
  Definition returns {A} (c : Codec A) : Prop := forall s, dec c s <> Panic.
  Lemma ret_int n m mk : returns (c_int n m mk).
  Proof. intros s. cbn [dec c_int]. apply np_bind; [np1|]. intros [b r] _. destruct (_ <? _); discriminate. Qed.
  Lemma ret_pair {A B} (a : Codec A) (b : Codec B) : returns a -> returns b -> returns (c_pair a b).
  Proof. intros Ha Hb s. cbn [dec c_pair]. apply np_bind; [apply Ha|]. intros [x r] _. apply np_bind; [apply Hb|]. intros [y r'] _. discriminate. Qed.
  Lemma ret_iso {A B} (f : A -> B) g b : returns b -> returns (c_iso f g b).
  Proof. intros Hb s. cbn [dec c_iso]. apply np_bind; [apply Hb|]. intros [x r] _. discriminate. Qed.
  Lemma ret_vec {A} (a : Codec A) : returns a -> returns (c_vec a).
  Proof.
    intros Ha s. cbn [dec c_vec]. apply np_bind; [np1|]. intros [b r] _. generalize (Z.to_nat (from_le b)) as n. intros n. revert r.
    induction n as [|n IH]; intros r; cbn [dec_many]; [discriminate|]. apply np_bind; [apply Ha|]. intros [x r'] _.
    apply np_bind; [apply IH|]. intros [l r''] _. discriminate.
  Qed.
  Lemma ret_usize : returns c_usize.
  Proof. intros s. cbn [dec c_usize]. apply np_bind; [np1|]. intros [b r] _. discriminate. Qed.
  Lemma ret_depth : returns c_depth.
  Proof. intros s. cbn [dec c_depth]. apply np_bind; [np1|]. intros [b r] _. discriminate. Qed.
  Lemma ret_amount : returns c_amount.
  Proof. intros s. cbn [dec c_amount]. unfold amount_deserialize. apply np_bind; [np1|]. intros [b r] _. discriminate. Qed.
  Lemma ret_rm : returns c_rm.
  Proof.
    intros s. cbn [dec c_rm]. unfold rm_deserialize. apply np_bind; [np1|]. intros [b r] _. cbn zeta. destruct (negb _); [discriminate|].
    apply np_bind; [np1|]. intros [b' r'] _. apply np_bind; [apply np_mapM; intros x _; unfold flag_of_byte; repeat destruct (_ =? _); discriminate|].
    intros l _. destruct (rm_make l); discriminate.
  Qed.
  Lemma ret_flag : returns c_flag.
  Proof.
    intros s. cbn [dec c_flag]. unfold flag_deserialize. apply np_bind; [np1|]. intros [b r] Hr. apply read_exact_ok in Hr. destruct Hr as [_ Hl].
    destruct b; [discriminate Hl|]. repeat destruct (_ =? _); discriminate.
  Qed.
  Definition external_codecs_return : Prop := returns c_point /\ returns c_enckey /\ returns c_proof /\ returns c_vkey.
  Context (E : external_codecs_return).
  Ltac rets := repeat first [apply ret_pair|apply ret_iso|apply ret_vec|apply ret_int|apply ret_usize|apply ret_depth|apply ret_amount|apply ret_rm|apply ret_flag|
                             exact (proj1 E)|exact (proj1 (proj2 E))|exact (proj1 (proj2 (proj2 E)))|exact (proj2 (proj2 (proj2 E)))].
  Lemma ret_ro : returns c_ro. Proof. unfold c_ro, c_def, c_policy, c_userpk. rets. Qed.
  Lemma ret_cred : returns c_cred. Proof. unfold c_cred, c_sig. rets. Qed.
  Lemma ret_tag {A} (f : byte -> bytes -> res (A * bytes)) : (forall b r, f b r <> Panic) ->
    forall s, bind (read_exact 1 s) (fun x => let (flag, r) := x in match flag with [b] => f b r | _ => Panic end) <> Panic.
  Proof.
    intros H s. apply np_bind; [np1|]. intros [b r] Hr. apply read_exact_ok in Hr. destruct Hr as [_ Hl].
    destruct b as [|b [|? ?]]; try discriminate Hl. apply H.
  Qed.
  Lemma ret_tx : returns c_tx.
  Proof.
    intros s. cbn [dec c_tx]. unfold tx_deserialize. apply (ret_tag (fun b r => if zv b =? 0 then _ else _)). intros b r.
    destruct (_ =? _); [|destruct (_ =? _); [|destruct (_ =? _); [|discriminate]]]; (apply np_bind; [|intros [n r'] _; discriminate]).
    - assert (H : returns c_transfer_note) by (unfold c_transfer_note, c_memo, c_transfer_aux; rets). apply H.
    - assert (H : returns c_mint_note) by (unfold c_mint_note, c_memo, c_mint_aux, c_def, c_policy; rets). apply H.
    - assert (H : returns c_freeze_note) by (unfold c_freeze_note, c_freeze_aux; rets). apply H.
  Qed.
  Lemma ret_txvk : returns c_txvk.
  Proof.
    intros s. cbn [dec c_txvk]. unfold vk_deserialize. apply (ret_tag (fun b r => if zv b =? 0 then _ else _)). intros b r.
    destruct (_ =? _); [|destruct (_ =? _); [|destruct (_ =? _); [|discriminate]]]; (apply np_bind; [|intros [n r'] _; discriminate]).
    - assert (H : returns c_tvk) by (unfold c_tvk; rets). apply H.
    - assert (H : returns c_mvk) by (unfold c_mvk; rets). apply H.
    - assert (H : returns c_fvk) by (unfold c_fvk; rets). apply H.
  Qed.
End Decode.
