(** A program logic for circuits built with Plonk.v: what every satisfying assignment must satisfy ([snd_wp]), when the
    prover's own assignment satisfies the circuit ([cmp_wp]), which variables are public ([pspec]) and that the shape of
    the circuit does not depend on the values ([shp]). *)
From Verif Require Import Base Config Structs Keys Utils Memo Plonk Witness Circuits.

Section Logic.
  Context {C : CapConfig}.

  Definition sat (rho : env) (s : cs) : Prop := Forall (fun g => gate_ok rho g = true) (gates s).
  Definition agr (rho : env) (s : cs) : Prop := forall v x, nth_error (wit s) v = Some x -> rho v = x.
  Definition consts (rho : env) : Prop := rho zero_var = f0 /\ rho one_var = f1.
  Definition ext (s s' : cs) : Prop :=
    (exists ws, wit s' = wit s ++ ws) /\ (exists gs, gates s' = gates s ++ gs).

  Lemma ext_refl s : ext s s.
  Proof. split; exists []; rewrite app_nil_r; reflexivity. Qed.
  Lemma ext_trans a b c : ext a b -> ext b c -> ext a c.
  Proof.
    intros [[w1 H1] [g1 G1]] [[w2 H2] [g2 G2]]. split.
    - exists (w1 ++ w2). rewrite H2, H1, app_assoc; reflexivity.
    - exists (g1 ++ g2). rewrite G2, G1, app_assoc; reflexivity.
  Qed.
  Lemma ext_sat rho s s' : ext s s' -> sat rho s' -> sat rho s.
  Proof. intros [_ [gs G]] H. unfold sat in *. rewrite G, Forall_app in H. apply H. Qed.
  Lemma ext_agr rho s s' : ext s s' -> agr rho s' -> agr rho s.
  Proof.
    intros [[ws W] _] H v x Hv. apply H. rewrite W, nth_error_app1; auto.
    apply nth_error_Some; congruence.
  Qed.

  Definition extm {A} (m : M A) : Prop := forall s a s', m s = Ok (a, s') -> ext s s'.
  (** every satisfying assignment of the built circuit makes [P] true *)
  Definition snd_wp {A} (m : M A) (rho : env) (P : A -> Prop) : Prop :=
    forall s a s', m s = Ok (a, s') -> sat rho s' -> P a.
  (** the assignment computed while building satisfies the circuit, and [P] holds *)
  Definition cmp_wp {A} (m : M A) (rho : env) (P : A -> Prop) : Prop :=
    forall s a s', m s = Ok (a, s') -> agr rho s' -> sat rho s -> sat rho s' /\ P a.
  Definition gspec {A} (m : M A) (rho : env) (E : Prop) (Q H : A -> Prop) : Prop :=
    extm m /\ snd_wp m rho (fun a => E /\ Q a) /\ (E -> cmp_wp m rho H).

  Lemma mbind_ok {A B} (m : M A) (k : A -> M B) s b s' :
    mbind m k s = Ok (b, s') -> exists a s1, m s = Ok (a, s1) /\ k a s1 = Ok (b, s').
  Proof. unfold mbind. destruct (m s) as [[a s1]|e|]; try discriminate. eauto. Qed.

  Lemma mbind_eq {A B} (m : M A) (k : A -> M B) s :
    mbind m k s = match m s with Ok (a, s') => k a s' | Err e => Err e | Panic => Panic end.
  Proof. reflexivity. Qed.

  Lemma extm_ret {A} (a : A) : extm (ret a).
  Proof. intros s x s' [= <- <-]. apply ext_refl. Qed.
  Lemma extm_fail {A} e : extm (@mfail _ A e).
  Proof. intros s x s' H; discriminate. Qed.
  Lemma extm_panic {A} : extm (@mpanic _ A).
  Proof. intros s x s' H; discriminate. Qed.
  Lemma extm_bind {A B} (m : M A) (k : A -> M B) : extm m -> (forall a, extm (k a)) -> extm (mbind m k).
  Proof.
    intros Hm Hk s b s' H. apply mbind_ok in H. destruct H as (a & s1 & H1 & H2).
    eapply ext_trans; [eapply Hm; eauto|eapply Hk; eauto].
  Qed.
  Lemma extm_map {A B} (f : A -> M B) l : (forall x, extm (f x)) -> extm (mmap f l).
  Proof. intros Hf; induction l; cbn; [apply extm_ret|]. repeat (apply extm_bind; auto; intros). apply extm_ret. Qed.
  Lemma extm_for {A} (f : A -> M unit) l : (forall x, extm (f x)) -> extm (mfor l f).
  Proof. intros Hf; induction l; cbn; [apply extm_ret|]. apply extm_bind; auto. Qed.
  Lemma extm_witness v : extm (witness v).
  Proof. intros s x s' H. unfold witness in H. destruct (nth_error _ _); [|discriminate]. injection H as <- <-. apply ext_refl. Qed.
  Lemma extm_create x : extm (create_variable x).
  Proof. intros s v s' [= <- <-]. split; cbn; [exists [x]|exists []]; rewrite ?app_nil_r; reflexivity. Qed.
  Lemma extm_insert g : extm (insert_gate g).
  Proof.
    intros s v s' H. unfold insert_gate in H. destruct (forallb _ _); [|discriminate]. injection H as <- <-.
    split; cbn; [exists []|exists [g]]; rewrite ?app_nil_r; reflexivity.
  Qed.
  Lemma extm_pub v : extm (set_variable_public v).
  Proof. intros s a s' [= <- <-]. split; cbn; exists []; rewrite app_nil_r; reflexivity. Qed.

  Lemma snd_mono {A} (m : M A) rho (P Q : A -> Prop) : snd_wp m rho P -> (forall a, P a -> Q a) -> snd_wp m rho Q.
  Proof. intros H HI s a s' Hm Hs. eapply HI, H; eauto. Qed.
  Lemma cmp_mono {A} (m : M A) rho (P Q : A -> Prop) : cmp_wp m rho P -> (forall a, P a -> Q a) -> cmp_wp m rho Q.
  Proof. intros H HI s a s' Hm Ha Hs. destruct (H s a s' Hm Ha Hs). auto. Qed.
  Lemma snd_ret {A} (a : A) rho (P : A -> Prop) : P a -> snd_wp (ret a) rho P.
  Proof. intros H s x s' [= <- <-] _; auto. Qed.
  Lemma cmp_ret {A} (a : A) rho (P : A -> Prop) : P a -> cmp_wp (ret a) rho P.
  Proof. intros H s x s' [= <- <-] _; auto. Qed.
  Lemma snd_fail {A} e rho (P : A -> Prop) : snd_wp (mfail e) rho P.
  Proof. intros s x s' H; discriminate. Qed.
  Lemma cmp_fail {A} e rho (P : A -> Prop) : cmp_wp (mfail e) rho P.
  Proof. intros s x s' H; discriminate. Qed.
  Lemma snd_panic {A} rho (P : A -> Prop) : snd_wp mpanic rho P.
  Proof. intros s x s' H; discriminate. Qed.
  Lemma cmp_panic {A} rho (P : A -> Prop) : cmp_wp mpanic rho P.
  Proof. intros s x s' H; discriminate. Qed.
  Lemma snd_bind {A B} (m : M A) (k : A -> M B) rho P :
    (forall a, extm (k a)) -> snd_wp m rho (fun a => snd_wp (k a) rho P) -> snd_wp (mbind m k) rho P.
  Proof.
    intros Hx Hm s b s' H Hs. apply mbind_ok in H. destruct H as (a & s1 & H1 & H2).
    eapply Hm; eauto. eapply ext_sat; [eapply Hx; eauto|auto].
  Qed.
  Lemma cmp_bind {A B} (m : M A) (k : A -> M B) rho P :
    (forall a, extm (k a)) -> cmp_wp m rho (fun a => cmp_wp (k a) rho P) -> cmp_wp (mbind m k) rho P.
  Proof.
    intros Hx Hm s b s' H Ha Hs. apply mbind_ok in H. destruct H as (a & s1 & H1 & H2).
    assert (Ha1 : agr rho s1) by (eapply ext_agr; [eapply Hx; eauto|auto]).
    destruct (Hm s a s1 H1 Ha1 Hs) as [Hs1 Hk]. eapply Hk; eauto.
  Qed.

  Lemma gspec_ext {A} (m : M A) rho E Q H : gspec m rho E Q H -> extm m.
  Proof. intros [Hx _]; exact Hx. Qed.
  Lemma gspec_snd {A} (m : M A) rho E Q H (P : A -> Prop) :
    gspec m rho E Q H -> (forall a, E -> Q a -> P a) -> snd_wp m rho P.
  Proof. intros (_ & Hs & _) HI. eapply snd_mono; [exact Hs|]. intros a [? ?]; auto. Qed.
  Lemma gspec_cmp {A} (m : M A) rho E Q H (P : A -> Prop) :
    gspec m rho E Q H -> E -> (forall a, H a -> P a) -> cmp_wp m rho P.
  Proof. intros (_ & _ & Hc) HE HI. eapply cmp_mono; [apply Hc; auto|auto]. Qed.
  Lemma gspec_conseq {A} (m : M A) rho (E E' : Prop) (Q Q' H H' : A -> Prop) :
    gspec m rho E Q H -> (E <-> E') -> (forall a, E -> Q a -> Q' a) -> (forall a, E -> H a -> H' a) ->
    gspec m rho E' Q' H'.
  Proof.
    intros HG HE HQ HH. split; [eapply gspec_ext; eauto|]. split.
    - eapply gspec_snd; [eauto|]. intros a He Hq; split; [apply HE|apply HQ]; auto.
    - intros He. apply HE in He. eapply gspec_cmp; eauto.
  Qed.

  (** ** Primitive gadgets *)

  Lemma flist_eqb_spec a : forall b, flist_eqb a b = true <-> a = b.
  Proof.
    induction a as [|x a IH]; intros [|y b]; cbn; try (split; [discriminate|discriminate]); [split; auto|].
    rewrite andb_true_iff, zeqb_spec, IH. split; [intros [-> ->]; auto|].
    intros H; split; [apply (f_equal (hd x)) in H|apply (f_equal (@tl F)) in H]; exact H.
  Qed.

  Lemma insert_snd g rho (P : unit -> Prop) : (gate_ok rho g = true -> P tt) -> snd_wp (insert_gate g) rho P.
  Proof.
    intros HP s [] s' H Hs. unfold insert_gate in H. destruct (forallb _ _); [|discriminate].
    injection H as <-. apply HP. unfold sat in Hs; cbn in Hs. rewrite Forall_app in Hs.
    destruct Hs as [_ Hs]. inversion Hs; auto.
  Qed.
  Lemma insert_cmp g rho (P : unit -> Prop) : gate_ok rho g = true -> P tt -> cmp_wp (insert_gate g) rho P.
  Proof.
    intros Hg HP s [] s' H _ Hs. unfold insert_gate in H. destruct (forallb _ _); [|discriminate].
    injection H as <-. split; [|exact HP]. unfold sat; cbn. rewrite Forall_app; auto.
  Qed.
  Lemma gspec_insert g rho : gspec (insert_gate g) rho (gate_ok rho g = true) (fun _ => True) (fun _ => True).
  Proof. split; [apply extm_insert|]. split; [apply insert_snd; auto|]. intros H. apply insert_cmp; auto. Qed.

  Lemma gspec_enforce k ins rho :
    gspec (enforce k ins) rho (check_eval k (map rho ins) = true) (fun _ => True) (fun _ => True).
  Proof. apply gspec_insert. Qed.

  Lemma gspec_create x rho : gspec (create_variable x) rho True (fun _ => True) (fun v => rho v = x).
  Proof.
    split; [apply extm_create|]. split; [intros s a s' _ _; auto|].
    intros _ s a s' [= <- <-] Ha Hs. split; [exact Hs|]. apply Ha; cbn.
    rewrite nth_error_app2, Nat.sub_diag; auto.
  Qed.
  Lemma gspec_pub v rho : gspec (set_variable_public v) rho True (fun _ => True) (fun _ => True).
  Proof.
    split; [apply extm_pub|]. split; [intros s a s' _ _; auto|].
    intros _ s a s' [= <- <-] Ha Hs. split; [exact Hs|]. auto.
  Qed.
  Lemma gspec_witness v rho : gspec (witness v) rho True (fun _ => True) (fun x => rho v = x).
  Proof.
    split; [apply extm_witness|]. split; [intros s a s' _ _; auto|].
    intros _ s a s' H Ha Hs. unfold witness in H. destruct (nth_error _ _) eqn:E; [|discriminate].
    injection H as <- <-. split; [exact Hs|]. apply Ha; exact E.
  Qed.

  Lemma gspec_map {A B} (f : A -> M B) rho (E : A -> Prop) (Q H : A -> B -> Prop) l :
    (forall x, gspec (f x) rho (E x) (Q x) (H x)) ->
    gspec (mmap f l) rho (Forall E l) (fun ys => Forall2 Q l ys) (fun ys => Forall2 H l ys).
  Proof.
    intros Hf. split; [apply extm_map; intros; eapply gspec_ext; eauto|].
    assert (Hx : forall x, extm (f x)) by (intros; eapply gspec_ext; eauto).
    split.
    - induction l as [|x xs IH]; cbn; [apply snd_ret; auto|].
      apply snd_bind; [intros; apply extm_bind; [apply extm_map; auto|intros; apply extm_ret]|].
      eapply gspec_snd; [apply Hf|]. intros y He Hq. apply snd_bind; [intros; apply extm_ret|].
      eapply snd_mono; [apply IH|]. intros ys [? ?]. apply snd_ret. auto.
    - induction l as [|x xs IH]; cbn; intros HE; [apply cmp_ret; auto|]. inversion HE; subst.
      apply cmp_bind; [intros; apply extm_bind; [apply extm_map; auto|intros; apply extm_ret]|].
      eapply gspec_cmp; [apply Hf|auto|]. intros y Hh. apply cmp_bind; [intros; apply extm_ret|].
      eapply cmp_mono; [apply IH; auto|]. intros ys ?. apply cmp_ret. auto.
  Qed.
  Lemma gspec_for {A} (f : A -> M unit) rho (E : A -> Prop) l :
    (forall x, In x l -> gspec (f x) rho (E x) (fun _ => True) (fun _ => True)) ->
    gspec (mfor l f) rho (Forall E l) (fun _ => True) (fun _ => True).
  Proof.
    induction l as [|x xs IH]; intros Hf; cbn.
    - split; [apply extm_ret|]. split; [apply snd_ret; auto|]. intros _; apply cmp_ret; auto.
    - assert (Hxs : gspec (mfor xs f) rho (Forall E xs) (fun _ => True) (fun _ => True)) by (apply IH; intros; apply Hf; cbn; auto).
      assert (Hx : gspec (f x) rho (E x) (fun _ => True) (fun _ => True)) by (apply Hf; cbn; auto).
      split; [apply extm_bind; intros; eapply gspec_ext; eauto|]. split.
      + apply snd_bind; [intros; eapply gspec_ext; eauto|].
        eapply gspec_snd; [exact Hx|]. intros [] He _. eapply gspec_snd; [exact Hxs|]. auto.
      + intros HE. inversion HE; subst. apply cmp_bind; [intros; eapply gspec_ext; eauto|].
        eapply gspec_cmp; [exact Hx|auto|]. intros [] _. eapply gspec_cmp; [exact Hxs|auto|]. auto.
  Qed.

  Lemma Forall2_map_eq rho (ins : list var) (xs : list F) : Forall2 (fun v x => rho v = x) ins xs -> map rho ins = xs.
  Proof. induction 1; cbn; congruence. Qed.
  Lemma Forall2_map_eq' rho (xs : list F) (ins : list var) : Forall2 (fun x v => rho v = x) xs ins -> map rho ins = xs.
  Proof. induction 1; cbn; congruence. Qed.

  Lemma extm_apply_op o ins : extm (apply_op o ins).
  Proof.
    unfold apply_op. apply extm_bind; [apply extm_map; intros; apply extm_witness|]. intros.
    apply extm_bind; [apply extm_map; intros; apply extm_create|]. intros.
    apply extm_bind; [apply extm_insert|]. intros; apply extm_ret.
  Qed.
  Lemma gspec_apply_op o ins rho :
    gspec (apply_op o ins) rho (op_guard o (map rho ins) = true)
      (fun outs => map rho outs = op_eval o (map rho ins)) (fun outs => map rho outs = op_eval o (map rho ins)).
  Proof.
    split; [apply extm_apply_op|]. unfold apply_op.
    assert (X1 : forall x : list F, extm (mbind (mmap create_variable (op_eval o x))
               (fun outs => mbind (insert_gate (GOp o ins outs)) (fun _ => ret outs)))).
    { intros. apply extm_bind; [apply extm_map; intros; apply extm_create|]. intros.
      apply extm_bind; [apply extm_insert|]. intros; apply extm_ret. }
    assert (X2 : forall x : list var, extm (mbind (insert_gate (GOp o ins x)) (fun _ => ret x))).
    { intros. apply extm_bind; [apply extm_insert|]. intros; apply extm_ret. }
    split.
    - apply snd_bind; [apply X1|]. intros s xs s1 _ _. apply snd_bind; [apply X2|]. intros s2 outs s3 _ _.
      apply snd_bind; [intros; apply extm_ret|]. apply insert_snd. cbn. intros Hg. apply snd_ret.
      apply andb_true_iff in Hg. destruct Hg as [Hg Ho]. apply flist_eqb_spec in Ho. auto.
    - intros HE. apply cmp_bind; [apply X1|].
      eapply gspec_cmp; [eapply gspec_map; intros; apply gspec_witness|apply Forall_forall; auto|].
      cbn. intros xs Hxs. apply Forall2_map_eq in Hxs. apply cmp_bind; [apply X2|].
      eapply gspec_cmp; [eapply gspec_map; intros; apply gspec_create|apply Forall_forall; auto|].
      cbn. intros outs Ho. apply Forall2_map_eq' in Ho. subst xs. apply cmp_bind; [intros; apply extm_ret|].
      apply insert_cmp; [|apply cmp_ret; auto]. cbn. rewrite HE. apply flist_eqb_spec. auto.
  Qed.

  Lemma gspec_apply1 o ins rho :
    gspec (apply1 o ins) rho (op_guard o (map rho ins) = true)
      (fun y => [rho y] = op_eval o (map rho ins)) (fun y => [rho y] = op_eval o (map rho ins)).
  Proof.
    assert (X : forall outs : list var, extm (match outs with [y] => ret y | _ => mfail CircuitError end)).
    { intros [|? [|? ?]]; try apply extm_ret; apply extm_fail. }
    split; [apply extm_bind; [apply extm_apply_op|exact X]|]. unfold apply1. split.
    - apply snd_bind; [exact X|]. eapply gspec_snd; [apply gspec_apply_op|]. intros [|y [|? ?]] He Hq; try apply snd_fail.
      apply snd_ret. auto.
    - intros HE. apply cmp_bind; [exact X|]. eapply gspec_cmp; [apply gspec_apply_op|auto|].
      intros [|y [|? ?]] Hq; try apply cmp_fail. apply cmp_ret. auto.
  Qed.
  Lemma gspec_apply2 o ins rho :
    gspec (apply2 o ins) rho (op_guard o (map rho ins) = true)
      (fun p => [rho (fst p); rho (snd p)] = op_eval o (map rho ins))
      (fun p => [rho (fst p); rho (snd p)] = op_eval o (map rho ins)).
  Proof.
    assert (X : forall outs : list var, extm (match outs with [x; y] => ret (x, y) | _ => mfail CircuitError end)).
    { intros [|? [|? [|? ?]]]; try apply extm_ret; apply extm_fail. }
    split; [apply extm_bind; [apply extm_apply_op|exact X]|]. unfold apply2. split.
    - apply snd_bind; [exact X|]. eapply gspec_snd; [apply gspec_apply_op|]. intros [|x [|y [|? ?]]] He Hq; try apply snd_fail.
      apply snd_ret. auto.
    - intros HE. apply cmp_bind; [exact X|]. eapply gspec_cmp; [apply gspec_apply_op|auto|].
      intros [|x [|y [|? ?]]] Hq; try apply cmp_fail. apply cmp_ret. auto.
  Qed.

  (** ** Starting point *)
  Lemma new_circuit_consts rho : sat rho new_circuit -> consts rho.
  Proof.
    intros H. unfold sat, new_circuit in H; cbn [gates] in H. inversion H as [|? ? H1 H2]; subst.
    inversion H2 as [|? ? H3 ?]; subst. cbn in H1, H3. apply zeqb_spec in H1, H3. split; auto.
  Qed.
  Lemma new_circuit_agr rho : agr rho new_circuit -> consts rho /\ sat rho new_circuit.
  Proof.
    intros H. assert (consts rho) as [H0 H1] by (split; apply H; reflexivity).
    split; [split; auto|]. repeat constructor; cbn; rewrite ?H0, ?H1; apply zeqb_refl.
  Qed.

  (** ** Public variables *)
  Definition pspec {A} (m : M A) (P : A -> list var) : Prop :=
    forall s a s', m s = Ok (a, s') -> pubs s' = pubs s ++ P a.
  Lemma pspec_ret {A} (a : A) P : P a = [] -> pspec (ret a) P.
  Proof. intros H s x s' [= <- <-]. rewrite H, app_nil_r; auto. Qed.
  Lemma pspec_fail {A} e P : pspec (@mfail _ A e) P.
  Proof. intros s x s' H; discriminate. Qed.
  Lemma pspec_panic {A} P : pspec (@mpanic _ A) P.
  Proof. intros s x s' H; discriminate. Qed.
  (** [nopub m]: m declares no public variable *)
  Definition nopub {A} (m : M A) : Prop := forall s a s', m s = Ok (a, s') -> pubs s' = pubs s.
  Lemma nopub_ret {A} (a : A) : nopub (ret a).
  Proof. intros s x s' [= <- <-]; auto. Qed.
  Lemma nopub_fail {A} e : nopub (@mfail _ A e).
  Proof. intros s x s' H; discriminate. Qed.
  Lemma nopub_panic {A} : nopub (@mpanic _ A).
  Proof. intros s x s' H; discriminate. Qed.
  Lemma nopub_bind {A B} (m : M A) (k : A -> M B) : nopub m -> (forall a, nopub (k a)) -> nopub (mbind m k).
  Proof.
    intros Hm Hk s b s' H. apply mbind_ok in H. destruct H as (a & s1 & H1 & H2).
    apply Hk in H2. apply Hm in H1. congruence.
  Qed.
  Lemma nopub_map {A B} (f : A -> M B) l : (forall x, nopub (f x)) -> nopub (mmap f l).
  Proof. intros Hf; induction l; cbn; [apply nopub_ret|]. repeat (apply nopub_bind; auto; intros). apply nopub_ret. Qed.
  Lemma nopub_for {A} (f : A -> M unit) l : (forall x, nopub (f x)) -> nopub (mfor l f).
  Proof. intros Hf; induction l; cbn; [apply nopub_ret|]. apply nopub_bind; auto. Qed.
  Lemma nopub_witness v : nopub (witness v).
  Proof. intros s x s' H. unfold witness in H. destruct (nth_error _ _); [|discriminate]. injection H as <- <-. auto. Qed.
  Lemma nopub_create x : nopub (create_variable x).
  Proof. intros s v s' [= <- <-]. auto. Qed.
  Lemma nopub_insert g : nopub (insert_gate g).
  Proof.
    intros s v s' H. unfold insert_gate in H. destruct (forallb _ _); [|discriminate]. injection H as <- <-. auto.
  Qed.

  (** ** Shape *)

  (** same number of variables, same gates, same public variables: only the values differ *)
  Definition sim (s1 s2 : cs) : Prop :=
    length (wit s1) = length (wit s2) /\ gates s1 = gates s2 /\ pubs s1 = pubs s2.
  (** running from similar states gives the same outcome: same result variables and similar states, or the same failure *)
  Definition shp {A} (m1 m2 : M A) : Prop :=
    forall s1 s2, sim s1 s2 ->
    match m1 s1, m2 s2 with
    | Ok (a1, t1), Ok (a2, t2) => a1 = a2 /\ sim t1 t2
    | Err e1, Err e2 => e1 = e2
    | Panic, Panic => True
    | _, _ => False
    end.
  Lemma sim_refl s : sim s s.
  Proof. split; auto. Qed.
  Lemma shp_ret {A} (a : A) : shp (ret a) (ret a).
  Proof. intros s1 s2 H; cbn; auto. Qed.
  Lemma shp_fail {A} e : shp (@mfail _ A e) (mfail e).
  Proof. intros s1 s2 H; cbn; auto. Qed.
  Lemma shp_panic {A} : shp (@mpanic _ A) mpanic.
  Proof. intros s1 s2 H; cbn; auto. Qed.
  Lemma shp_bind {A B} (m1 m2 : M A) (k1 k2 : A -> M B) :
    shp m1 m2 -> (forall a, shp (k1 a) (k2 a)) -> shp (mbind m1 k1) (mbind m2 k2).
  Proof.
    intros Hm Hk s1 s2 H. specialize (Hm s1 s2 H). unfold mbind.
    destruct (m1 s1) as [[a1 t1]|e1|], (m2 s2) as [[a2 t2]|e2|]; try tauto.
    destruct Hm as [-> Hs]. apply Hk; auto.
  Qed.
  Lemma shp_map {A B} (f g : A -> M B) l1 l2 : Forall2 (fun x y => shp (f x) (g y)) l1 l2 -> shp (mmap f l1) (mmap g l2).
  Proof.
    induction 1; cbn; [apply shp_ret|]. apply shp_bind; auto. intros. apply shp_bind; auto. intros. apply shp_ret.
  Qed.
  Lemma shp_map_same {A B} (f : A -> M B) l : (forall x, shp (f x) (f x)) -> shp (mmap f l) (mmap f l).
  Proof. intros H. apply shp_map. induction l; constructor; auto. Qed.
  Lemma shp_for {A} (f : A -> M unit) l : (forall x, shp (f x) (f x)) -> shp (mfor l f) (mfor l f).
  Proof. intros H. induction l; cbn; [apply shp_ret|]. apply shp_bind; auto. Qed.
  Lemma shp_create x y : shp (create_variable x) (create_variable y).
  Proof. intros s1 s2 (H1 & H2 & H3). cbn. split; [auto|]. split; cbn; [rewrite !app_length; cbn; lia|auto]. Qed.
  Lemma shp_insert g : shp (insert_gate g) (insert_gate g).
  Proof.
    intros s1 s2 (H1 & H2 & H3). unfold insert_gate. rewrite H1. destruct (forallb _ _); [|auto].
    split; [auto|]. split; cbn; [auto|]. rewrite H2; auto.
  Qed.
  Lemma shp_pub v : shp (set_variable_public v) (set_variable_public v).
  Proof. intros s1 s2 (H1 & H2 & H3). cbn. split; [auto|]. split; cbn; [auto|]. rewrite H3; auto. Qed.

  (** the number of outputs of a gadget depends only on the number of its inputs *)
  Lemma op_eval_length o l1 l2 : length l1 = length l2 -> length (op_eval o l1) = length (op_eval o l2).
  Proof.
    intros H.
    destruct l1 as [|a1 [|a2 [|a3 [|a4 [|a5 [|a6 l1]]]]]], l2 as [|b1 [|b2 [|b3 [|b4 [|b5 [|b6 l2]]]]]];
      try discriminate H; cbn in H; destruct o; cbn; auto;
      unfold f_bits; rewrite ?app_length, ?mask_length, ?map_length; cbn; auto; rewrite ?combine_length, ?seq_length; lia.
  Qed.
  Lemma witness_map_ok s : forall ins,
    (exists xs, mmap witness ins s = Ok (xs, s) /\ length xs = length ins /\
       Forall (fun v => (v < length (wit s))%nat) ins) \/
    (mmap witness ins s = Err CircuitError /\ ~ Forall (fun v => (v < length (wit s))%nat) ins).
  Proof.
    induction ins as [|v ins IH]; cbn; [left; exists []; auto|].
    assert (W : witness v s = match nth_error (wit s) v with Some x => Ok (x, s) | None => Err CircuitError end) by reflexivity.
    unfold mbind. rewrite W. destruct (nth_error (wit s) v) as [x|] eqn:E.
    - assert (Hv : (v < length (wit s))%nat) by (apply nth_error_Some; congruence).
      destruct IH as [(xs & H1 & H2 & H3)|[H1 H2]]; rewrite H1; [left|right].
      + exists (x :: xs). cbn. auto.
      + split; [reflexivity|]. intros HF; inversion HF; auto.
    - right. split; [reflexivity|]. intros HF; inversion HF; subst. apply nth_error_None in E. lia.
  Qed.
  Lemma shp_apply_op o ins : shp (apply_op o ins) (apply_op o ins).
  Proof.
    intros s1 s2 H. unfold apply_op. rewrite !(mbind_eq (mmap witness ins)).
    destruct (witness_map_ok s1 ins) as [(xs & H1 & H2 & H3)|[H1 H2]];
    destruct (witness_map_ok s2 ins) as [(ys & G1 & G2 & G3)|[G1 G2]]; rewrite H1, G1; auto;
      destruct H as (HL & HG & HP).
    - assert (HS : shp (mmap create_variable (op_eval o xs)) (mmap create_variable (op_eval o ys))).
      { apply shp_map. assert (E : length (op_eval o xs) = length (op_eval o ys)) by (apply op_eval_length; congruence).
        revert E. generalize (op_eval o xs) as a, (op_eval o ys) as b. induction a as [|x a IH]; intros [|y b] E;
          cbn in E; try discriminate; constructor; [apply shp_create|auto]. }
      apply (shp_bind _ _ _ _ HS); [|split; auto].
      intros. apply shp_bind; [apply shp_insert|]. intros; apply shp_ret.
    - rewrite HL in H3. tauto.
    - rewrite <- HL in G3. tauto.
  Qed.
  Lemma shp_apply1 o ins : shp (apply1 o ins) (apply1 o ins).
  Proof.
    apply shp_bind; [apply shp_apply_op|]. intros [|? [|? ?]]; try apply shp_ret; apply shp_fail.
  Qed.
  Lemma shp_apply2 o ins : shp (apply2 o ins) (apply2 o ins).
  Proof.
    apply shp_bind; [apply shp_apply_op|]. intros [|? [|? [|? ?]]]; try apply shp_ret; apply shp_fail.
  Qed.
  Lemma nopub_apply_op o ins : nopub (apply_op o ins).
  Proof.
    unfold apply_op. apply nopub_bind; [apply nopub_map; intros; apply nopub_witness|]. intros.
    apply nopub_bind; [apply nopub_map; intros; apply nopub_create|]. intros.
    apply nopub_bind; [apply nopub_insert|]. intros; apply nopub_ret.
  Qed.
  Lemma nopub_apply1 o ins : nopub (apply1 o ins).
  Proof. apply nopub_bind; [apply nopub_apply_op|]. intros [|? [|? ?]]; try apply nopub_ret; apply nopub_fail. Qed.
  Lemma nopub_apply2 o ins : nopub (apply2 o ins).
  Proof. apply nopub_bind; [apply nopub_apply_op|]. intros [|? [|? [|? ?]]]; try apply nopub_ret; apply nopub_fail. Qed.
End Logic.
