(** The circuits can be built for every shape: no gadget call fails. *)
From Verif Require Import Base Config Structs Keys Utils Memo Plonk Witness Circuits Relation CircuitLogic.

Section Can.
  Context {C : CapConfig}.

  (** [m], run on a circuit with [n] variables, returns, and what it returns satisfies [P] at the new number of variables *)
  Definition can {A} (n : nat) (m : M A) (P : nat -> A -> Prop) : Prop :=
    forall s, length (wit s) = n -> exists a s', m s = Ok (a, s') /\ (n <= length (wit s'))%nat /\ P (length (wit s')) a.

  Lemma can_ret {A} n (a : A) (P : nat -> A -> Prop) : P n a -> can n (ret a) P.
  Proof. intros H s <-. exists a, s. auto. Qed.
  Lemma can_bind {A B} n (m : M A) (k : A -> M B) P Q :
    can n m P -> (forall n' a, (n <= n')%nat -> P n' a -> can n' (k a) Q) -> can n (mbind m k) Q.
  Proof.
    intros Hm Hk s Hs. destruct (Hm s Hs) as (a & s1 & E1 & L1 & P1).
    destruct (Hk _ a L1 P1 s1 eq_refl) as (b & s2 & E2 & L2 & P2).
    exists b, s2. unfold mbind. rewrite E1. conjs; auto. lia.
  Qed.
  Lemma can_weak {A} n (m : M A) (P Q : nat -> A -> Prop) : can n m P -> (forall n' a, (n <= n')%nat -> P n' a -> Q n' a) -> can n m Q.
  Proof. intros H HQ s Hs. destruct (H s Hs) as (a & s' & E & L & HP). exists a, s'. auto. Qed.
  Lemma can_create n x : can n (create_variable x) (fun m v => (v < m)%nat).
  Proof. intros s <-. eexists _, _. split; [reflexivity|]. cbn. rewrite app_length. cbn. lia. Qed.
  Lemma can_insert n g : Forall (fun v => (v < n)%nat) (gate_vars g) -> can n (insert_gate g) (fun _ _ => True).
  Proof.
    intros H s <-. unfold insert_gate. replace (forallb _ _) with true.
    - eexists _, _. split; [reflexivity|]. cbn. auto.
    - symmetry. apply forallb_forall. intros v Hv. apply Nat.ltb_lt. rewrite Forall_forall in H. auto.
  Qed.
  Lemma can_pub n v : can n (set_variable_public v) (fun _ _ => True).
  Proof. intros s <-. eexists _, _. split; [reflexivity|]. cbn. auto. Qed.
  Lemma can_enforce n k ins : Forall (fun v => (v < n)%nat) ins -> can n (enforce k ins) (fun _ _ => True).
  Proof. intros H. apply (can_insert n (GCheck k ins)). exact H. Qed.

  Lemma can_map {A B} n (f : A -> M B) (R : nat -> B -> Prop) l :
    (forall a b y, (a <= b)%nat -> R a y -> R b y) ->
    (forall x n', In x l -> (n <= n')%nat -> can n' (f x) R) ->
    can n (mmap f l) (fun m ys => length ys = length l /\ Forall (R m) ys).
  Proof.
    intros HR. revert n. induction l as [|x l IH]; intros n Hf; cbn [mmap]; [apply can_ret; auto|].
    eapply can_bind; [apply Hf; [left; auto|apply le_n]|]. intros n1 y L1 Hy.
    eapply can_bind; [apply IH; intros; apply Hf; [right; auto|lia]|]. intros n2 ys L2 [E Hys].
    apply can_ret. cbn. split; [lia|]. constructor; [eapply HR; eauto|auto].
  Qed.
  Lemma can_for {A} n (f : A -> M unit) l :
    (forall x n', In x l -> (n <= n')%nat -> can n' (f x) (fun _ _ => True)) -> can n (mfor l f) (fun _ _ => True).
  Proof.
    revert n. induction l as [|x l IH]; intros n Hf; cbn [mfor]; [apply can_ret; auto|].
    eapply can_bind; [apply Hf; [left; auto|apply le_n]|]. intros n1 [] L1 _. apply IH. intros. apply Hf; [right; auto|lia].
  Qed.
  Lemma can_creates n l : can n (mmap create_variable l) (fun m ys => length ys = length l /\ Forall (fun v => (v < m)%nat) ys).
  Proof. apply can_map; [intros; lia|]. intros. apply can_create. Qed.

  Lemma can_apply_op n o ins k : Forall (fun v => (v < n)%nat) ins ->
    (forall xs, length xs = length ins -> length (op_eval o xs) = k) ->
    can n (apply_op o ins) (fun m ys => length ys = k /\ Forall (fun v => (v < m)%nat) ys).
  Proof.
    intros Hi Hk s Hs. unfold apply_op. destruct (witness_map_ok s ins) as [(xs & H1 & H2 & H3)|[H1 H2]].
    - assert (G : can n (mbind (mmap create_variable (op_eval o xs)) (fun outs => mbind (insert_gate (GOp o ins outs)) (fun _ => ret outs)))
        (fun m ys => length ys = k /\ Forall (fun v => (v < m)%nat) ys)).
      { eapply can_bind; [apply can_creates|]. intros n1 ys L1 [E1 Hy]. eapply can_bind.
        - apply can_insert. cbn. apply Forall_app. split; [|exact Hy]. eapply Forall_impl; [|exact Hi]. cbn; intros; lia.
        - intros n2 [] L2 _. apply can_ret. rewrite E1, (Hk xs H2). split; [reflexivity|]. eapply Forall_impl; [|exact Hy]. cbn; intros; lia. }
      destruct (G s Hs) as (a & s' & E & L & HP). exists a, s'. conjs; auto; try apply HP. unfold mbind at 1. rewrite H1. exact E.
    - exfalso. apply H2. rewrite Hs. exact Hi.
  Qed.
  Lemma can_apply1 n o ins : Forall (fun v => (v < n)%nat) ins ->
    (forall xs, length xs = length ins -> length (op_eval o xs) = 1%nat) -> can n (apply1 o ins) (fun m v => (v < m)%nat).
  Proof.
    intros Hi Hk. eapply can_bind; [apply (can_apply_op n o ins 1); auto|]. intros n1 [|y [|? ?]] L1 [E HF]; try discriminate.
    apply can_ret. inversion HF; auto.
  Qed.
  Definition okp (n : nat) (p : ptv) : Prop := (px p < n /\ py p < n)%nat.
  Lemma can_apply2 n o ins : Forall (fun v => (v < n)%nat) ins ->
    (forall xs, length xs = length ins -> length (op_eval o xs) = 2%nat) -> can n (apply2 o ins) okp.
  Proof.
    intros Hi Hk. eapply can_bind; [apply (can_apply_op n o ins 2); auto|]. intros n1 [|y [|z [|? ?]]] L1 [E HF]; try discriminate.
    apply can_ret. inversion HF as [|? ? ? HF2]; inversion HF2; split; auto.
  Qed.

  (** ** Which variables the structures hold *)
  Definition okpol (n : nat) (p : PolicyVar) : Prop :=
    okp n (pv_viewer p) /\ okp n (pv_cred p) /\ okp n (pv_freezer p) /\ (pv_map p < n)%nat /\ (pv_threshold p < n)%nat.
  Definition okro (n : nat) (r : RoVar) : Prop :=
    (rv_amount r < n)%nat /\ (rv_code r < n)%nat /\ okp n (rv_owner r) /\ okpol n (rv_policy r) /\ (rv_flag r < n)%nat /\ (rv_blind r < n)%nat.
  Definition oknode (n : nat) (x : NodeVar) : Prop :=
    (nv_sib1 x < n /\ nv_sib2 x < n /\ nv_left x < n /\ nv_right x < n)%nat.
  Definition okacc (n : nat) (a : AccVar) : Prop := (av_uid a < n)%nat /\ Forall (oknode n) (av_path a).
  Definition okcred (n : nat) (c : CredVar) : Prop :=
    (cv_expiry c < n)%nat /\ (fst (cv_sig c) < n)%nat /\ okp n (snd (cv_sig c)) /\ okp n (cv_addr c) /\ okp n (cv_creator c) /\
    Forall (fun v => (v < n)%nat) (cv_attrs c) /\ length (cv_attrs c) = ATTRS_LEN.
  Definition okin (n : nat) (i : InputVar) : Prop :=
    (iv_sk i < n)%nat /\ okro n (iv_ro i) /\ okacc n (iv_acc i) /\ okcred n (iv_cred i).
  Definition okmemo (n : nat) (m : MemoVar) : Prop := okp n (fst m) /\ Forall (fun v => (v < n)%nat) (snd m).

  Lemma lt_mono (l : list nat) a b : (a <= b)%nat -> Forall (fun v => (v < a)%nat) l -> Forall (fun v => (v < b)%nat) l.
  Proof. intros H. apply Forall_impl. intros; lia. Qed.
  Lemma okpol_mono a b p : (a <= b)%nat -> okpol a p -> okpol b p.
  Proof. unfold okpol, okp. lia. Qed.
  Lemma okro_mono a b p : (a <= b)%nat -> okro a p -> okro b p.
  Proof. unfold okro, okpol, okp. lia. Qed.
  Lemma oknode_mono a b p : (a <= b)%nat -> oknode a p -> oknode b p.
  Proof. unfold oknode. lia. Qed.
  Lemma okacc_mono a b p : (a <= b)%nat -> okacc a p -> okacc b p.
  Proof. intros H [H1 H2]. split; [lia|]. eapply Forall_impl; [|exact H2]. intros; eapply oknode_mono; eauto. Qed.
  Lemma okcred_mono a b p : (a <= b)%nat -> okcred a p -> okcred b p.
  Proof.
    intros H (H1 & H2 & H3 & H4 & H5 & H6 & H7). unfold okcred, okp in *. conjs; auto; try lia. eapply lt_mono; eauto.
  Qed.
  Lemma okin_mono a b p : (a <= b)%nat -> okin a p -> okin b p.
  Proof.
    intros H (H1 & H2 & H3 & H4). unfold okin. conjs; [lia|eapply okro_mono|eapply okacc_mono|eapply okcred_mono]; eauto.
  Qed.
  Lemma okmemo_mono a b p : (a <= b)%nat -> okmemo a p -> okmemo b p.
  Proof. intros H [H1 H2]. unfold okmemo, okp in *. split; [lia|eapply lt_mono; eauto]. Qed.
End Can.

Ltac vb := unfold okro, okpol, okp, okacc, oknode, px, py, neutral_point_variable, zero_var, one_var in *; cbn [fst snd] in *; repeat match goal with H : _ /\ _ |- _ => destruct H end; lia.
Ltac vbs := repeat (apply Forall_cons; [vb|]); try apply Forall_nil.
Ltac op1 := let xs := fresh "xs" in let H := fresh "H" in intros xs H; cbn [length] in H;
  repeat (destruct xs as [|? xs]; cbn [length] in H; try discriminate H; try reflexivity).

Section Gadgets.
  Context {C : CapConfig}.
  Ltac nx := let n := fresh "n" in let y := fresh "y" in let L := fresh "L" in let H := fresh "H" in intros n y L H; cbv beta in H.
  Ltac g1 := eapply can_bind; [apply can_apply1; [vbs|op1]|nx].

  Lemma can_ptvar n p : can n (create_point_variable p) okp.
  Proof.
    eapply can_bind; [apply can_create|nx]. eapply can_bind; [apply can_create|nx]. apply can_ret. vb.
  Qed.
  Lemma can_boolvar n b : can n (create_boolean_variable b) (fun m v => (v < m)%nat).
  Proof. eapply can_bind; [apply can_create|nx]. eapply can_bind; [apply can_enforce; vbs|nx]. apply can_ret. vb. Qed.
  Lemma can_pubvar n x : can n (create_public_variable x) (fun m v => (v < m)%nat).
  Proof. eapply can_bind; [apply can_create|nx]. eapply can_bind; [apply can_pub|nx]. apply can_ret. vb. Qed.
  Lemma can_pubvars n l : can n (mmap create_public_variable l) (fun m ys => length ys = length l /\ Forall (fun v => (v < m)%nat) ys).
  Proof. apply can_map; [intros; lia|]. intros. apply can_pubvar. Qed.
  Lemma can_policy n p : can n (policy_var_new p) okpol.
  Proof.
    eapply can_bind; [apply can_create|nx]. do 3 (eapply can_bind; [apply can_ptvar|nx]).
    eapply can_bind; [apply can_create|nx]. apply can_ret. unfold okpol; cbn. vb.
  Qed.
  Lemma can_policy_public n p : can n (policy_var_set_public p) (fun _ _ => True).
  Proof. do 7 (eapply can_bind; [apply can_pub|nx]). apply can_pub. Qed.
  Lemma can_ro n r : can n (ro_var_new r) okro.
  Proof.
    do 2 (eapply can_bind; [apply can_create|nx]). eapply can_bind; [apply can_ptvar|nx]. eapply can_bind; [apply can_policy|nx].
    eapply can_bind; [apply can_boolvar|nx]. eapply can_bind; [apply can_create|nx]. apply can_ret. unfold okro, okpol; cbn. vb.
  Qed.
  Lemma can_ros n l : can n (mmap ro_var_new l) (fun m ys => length ys = length l /\ Forall (okro m) ys).
  Proof. apply can_map; [intros; eapply okro_mono; eauto|]. intros. apply can_ro. Qed.
  Lemma can_node n x : can n (node_var_new x) oknode.
  Proof.
    do 2 (eapply can_bind; [apply can_create|nx]). do 2 (eapply can_bind; [apply can_boolvar|nx]).
    g1. eapply can_bind; [apply can_enforce; vbs|nx]. apply can_ret. unfold oknode; cbn. vb.
  Qed.
  Lemma can_acc n a : can n (acc_var_new a) okacc.
  Proof.
    eapply can_bind; [apply can_create|nx]. eapply can_bind; [apply can_map; [intros; eapply oknode_mono; eauto|intros; apply can_node]|nx].
    apply can_ret. unfold okacc. cbn. split; [vb|apply H0].
  Qed.
  Lemma can_accs n l : can n (mmap acc_var_new l) (fun m ys => length ys = length l /\ Forall (okacc m) ys).
  Proof. apply can_map; [intros; eapply okacc_mono; eauto|]. intros. apply can_acc. Qed.
  Lemma can_cred n c : length (cr_attrs c) = ATTRS_LEN -> can n (cred_var_new c) okcred.
  Proof.
    intros HL. do 2 (eapply can_bind; [apply can_create|nx]). do 3 (eapply can_bind; [apply can_ptvar|nx]).
    eapply can_bind; [apply can_creates|nx]. apply can_ret. destruct H4 as [H4 H5]. unfold okcred. cbn. rewrite H4.
    conjs; auto; vb.
  Qed.
  Lemma can_input n i : length (cr_attrs (is_cred i)) = ATTRS_LEN -> can n (input_var_new i) okin.
  Proof.
    intros HL. eapply can_bind; [apply can_create|nx]. eapply can_bind; [apply can_ro|nx].
    eapply can_bind; [apply can_cred; exact HL|nx]. eapply can_bind; [apply can_acc|nx]. apply can_ret.
    unfold okin; cbn. conjs; [lia|refine (okro_mono _ _ _ _ H0); lia|assumption|refine (okcred_mono _ _ _ _ H1); lia].
  Qed.
  Lemma can_memo n m : can n (memo_var_new m) (fun k v => okmemo k v /\ length (snd v) = length (vm_data m)).
  Proof.
    eapply can_bind; [apply can_ptvar|nx]. eapply can_bind; [apply can_creates|nx]. apply can_ret. destruct H0. unfold okmemo; cbn.
    conjs; auto. vb.
  Qed.
  Lemma can_memo_public n m : can n (memo_var_set_public m) (fun _ _ => True).
  Proof. do 2 (eapply can_bind; [apply can_pub|nx]). apply can_for. intros. apply can_pub. Qed.


  (** ** Gadgets *)
  Ltac ge := eapply can_bind; [apply can_enforce; vbs|nx].
  Ltac gl := apply can_enforce; vbs.
  Ltac g1l := apply can_apply1; [vbs|op1].
  Lemma can_dummy_policy n p : (2 <= n)%nat -> okpol n p -> can n (enforce_dummy_policy p) (fun _ _ => True).
  Proof. intros H2 HP. unfold enforce_dummy_policy, enforce_point_equal, enforce_constant. do 4 ge. gl. Qed.
  Lemma can_neutral n p : okp n p -> can n (is_neutral_point p) (fun m v => (v < m)%nat).
  Proof. intros HP. g1l. Qed.
  Lemma can_is_dummy_policy n p : okpol n p -> can n (is_dummy_policy p) (fun m v => (v < m)%nat).
  Proof. intros HP. unfold is_dummy_policy, is_dummy_viewing_pk, is_dummy_cred_pk, is_dummy_freezer_pk. do 5 g1. g1l. Qed.
  Lemma can_equal_policy n p q : okpol n p -> okpol n q -> can n (enforce_equal_policy p q) (fun _ _ => True).
  Proof. intros HP HQ. unfold enforce_equal_policy, enforce_point_equal, enforce_equal. do 4 ge. gl. Qed.
  Lemma can_check_policy n p q : okpol n p -> okpol n q -> can n (check_equal_policy p q) (fun m v => (v < m)%nat).
  Proof. intros HP HQ. unfold check_equal_policy. do 5 g1. g1l. Qed.
  Lemma can_commitment n r : (2 <= n)%nat -> okro n r -> can n (compute_record_commitment r) (fun m v => (v < m)%nat).
  Proof. intros H2 HR. unfold compute_record_commitment. g1. g1l. Qed.
  Lemma can_code_dummy n r : okro n r -> can n (check_asset_code_dummy r) (fun m v => (v < m)%nat).
  Proof. intros HR. unfold check_asset_code_dummy. g1. g1l. Qed.
  Lemma can_cred_verify n c v : okcred n c -> (v < n)%nat -> can n (cred_var_verify c v) (fun m v => (v < m)%nat).
  Proof.
    intros HC Hv. destruct HC as (H1 & H2 & H3 & H4 & H5 & H6 & H7). unfold cred_var_verify. rewrite H7, Nat.eqb_refl. cbn [negb].
    g1. ge. apply can_apply1.
    - cbn [app]. do 8 (apply Forall_cons; [vb|]). eapply lt_mono; [|exact H6]. lia.
    - op1.
  Qed.
  Lemma can_climb path : forall n c, (c < n)%nat -> Forall (oknode n) path -> can n (merkle_climb c path) (fun m v => (v < m)%nat).
  Proof.
    induction path as [|x path IH]; intros n c Hc HF; cbn [merkle_climb]; [apply can_ret; auto|].
    inversion HF as [|? ? Hx HF']; subst. g1. apply IH; auto. eapply Forall_impl; [|exact HF']. intros; apply (oknode_mono n); auto.
  Qed.
  Lemma can_spend n r acc sk sp : (2 <= n)%nat -> okro n r -> okacc n acc -> (sk < n)%nat ->
    can n (prove_spend r acc sk sp) (fun m x => (fst x < m /\ snd x < m)%nat).
  Proof.
    intros H2 HR HA Hs. unfold prove_spend.
    destruct (match sp with SUser => (rv_owner r, pv_freezer (rv_policy r)) | SFreezer => (pv_freezer (rv_policy r), rv_owner r) end) as [pk1 pk2] eqn:E.
    assert (O : okp n pk1 /\ okp n pk2) by (destruct sp; injection E as <- <-; vb). clear E. destruct O as [O1 O2].
    eapply can_bind; [apply can_apply2; [vbs|op1]|nx]. unfold enforce_point_equal. ge.
    eapply can_bind; [apply can_commitment; [lia|eapply okro_mono; [|exact HR]; lia]|nx].
    unfold derive_nullifier_key. eapply can_bind.
    { eapply can_bind; [apply can_apply2; [vbs|op1]|nx]. g1. g1. g1l. }
    nx. g1. unfold compute_merkle_root. eapply can_bind.
    { g1. destruct HA as [HA HF]. apply can_climb; [lia|]. eapply Forall_impl; [|exact HF]. intros; apply (oknode_mono n); auto; lia. }
    nx. apply can_ret. cbn. lia.
  Qed.
  Lemma can_hadamard n (bits vals : list var) : length bits = length vals -> Forall (fun v => (v < n)%nat) bits -> Forall (fun v => (v < n)%nat) vals ->
    can n (hadamard_product bits vals) (fun m ys => length ys = length vals /\ Forall (fun v => (v < m)%nat) ys).
  Proof.
    intros E HB HV. unfold hadamard_product. rewrite (proj2 (Nat.eqb_eq _ _) E). cbn [negb].
    eapply can_weak; [apply (can_map n _ (fun m v => (v < m)%nat)); [intros; lia|]|].
    - intros [b v] n' Hin L. pose proof (in_combine_l _ _ _ _ Hin) as I1. pose proof (in_combine_r _ _ _ _ Hin) as I2.
      rewrite Forall_forall in HB, HV. specialize (HB _ I1). specialize (HV _ I2). g1l.
    - cbn. intros n' ys L [Hl Hf]. rewrite combine_length, E, Nat.min_id in Hl. auto.
  Qed.
  Lemma can_memo_loop l : forall n a, (a < n)%nat -> Forall (fun x => (fst x < n /\ snd x < n)%nat) l -> can n (memo_eq_loop a l) (fun m v => (v < m)%nat).
  Proof.
    induction l as [|[x y] l IH]; intros n a Ha HF; cbn [memo_eq_loop]; [apply can_ret; auto|].
    inversion HF as [|? ? Hx HF']; subst. g1. g1. apply IH; auto. eapply Forall_impl; [|exact HF']. cbn; intros; lia.
  Qed.
  Lemma can_memo_equal n m m' : okmemo n m -> okmemo n m' -> length (snd m') = length (snd m) ->
    can n (memo_var_check_equal m m') (fun m v => (v < m)%nat).
  Proof.
    intros [H1 H2] [H3 H4] E. unfold memo_var_check_equal. rewrite E, Nat.eqb_refl. cbn [negb]. g1. apply can_memo_loop; auto.
    apply Forall_forall. intros [a b] Hin. pose proof (in_combine_l _ _ _ _ Hin) as I1. pose proof (in_combine_r _ _ _ _ Hin) as I2.
    rewrite Forall_forall in H2, H4. specialize (H2 _ I1). specialize (H4 _ I2). cbn. lia.
  Qed.
  Lemma can_derive n pk data r : okp n pk -> (r < n)%nat -> Forall (fun v => (v < n)%nat) data ->
    can n (memo_var_derive pk data r) (fun m v => okmemo m v /\ length (snd v) = length data).
  Proof.
    intros HP Hr HD. unfold memo_var_derive, elgamal_encrypt_gadget.
    eapply can_bind; [apply (can_apply_op n OElgamal _ (2 + length data))|].
    - do 3 (apply Forall_cons; [vb|]). exact HD.
    - intros xs H. destruct xs as [|a [|b [|c xs]]]; try discriminate H. cbn. rewrite mask_length. cbn in H. lia.
    - intros n1 ys L [E HF]. destruct ys as [|a [|b ys]]; try discriminate E. apply can_ret.
      inversion HF as [|? ? Ha HF2]; inversion HF2; subst. unfold okmemo; cbn. cbn in E. conjs; auto; try vb.
  Qed.

  (** ** Transfer *)
  Definition oktw (n : nat) (w : TWitnessVar) (p : TPubVar) : Prop :=
    (twv_code w < n)%nat /\ okpol n (twv_policy w) /\ Forall (okin n) (twv_inputs w) /\ Forall (okro n) (twv_outputs w) /\ (twv_rand w < n)%nat /\
    (tpv_root p < n)%nat /\ (tpv_native p < n)%nat /\ (tpv_valid_until p < n)%nat /\ (tpv_fee p < n)%nat /\
    Forall (fun v => (v < n)%nat) (tpv_nullifiers p) /\ Forall (fun v => (v < n)%nat) (tpv_commitments p) /\ okmemo n (tpv_memo p).
  Lemma can_input_step n w p f i nl : (2 <= n)%nat -> okpol n (twv_policy w) -> (tpv_native p < n)%nat -> (tpv_root p < n)%nat -> (tpv_valid_until p < n)%nat ->
    okin n i -> (nl < n)%nat -> can n (transfer_input_step w p f i nl) (fun _ _ => True).
  Proof.
    intros H2 HW HN HR HV (I1 & I2 & I3 & I4) Hnl. unfold transfer_input_step. ge.
    eapply can_bind; [apply can_code_dummy, (okro_mono n); auto; lia|nx]. g1. g1. unfold logic_or_gate, enforce_equal. ge.
    eapply can_bind.
    { instantiate (1 := fun _ _ => True). destruct f.
      - ge. apply can_dummy_policy; [lia|]. apply (okpol_mono n); [lia|apply I2].
      - eapply can_bind; [apply can_is_dummy_policy, (okpol_mono n); [lia|apply I2]|nx]. ge.
        eapply can_bind; [apply can_check_policy; apply (okpol_mono n); try lia; [apply I2|exact HW]|nx]. gl. }
    nx. eapply can_bind; [apply can_spend; [lia|apply (okro_mono n); auto; lia|apply (okacc_mono n); auto; lia|lia]|nx].
    destruct y5 as [a b]; cbn [fst snd] in *. ge. g1. ge.
    eapply can_bind; [apply can_neutral; assert (okp n (pv_cred (rv_policy (iv_ro i)))) by apply I2; vb|nx].
    eapply can_bind; [apply can_cred_verify; [apply (okcred_mono n); auto; lia|lia]|nx]. gl.
  Qed.
  Lemma can_output_step n w p f r rc : (2 <= n)%nat -> okpol n (twv_policy w) -> (tpv_native p < n)%nat -> (twv_code w < n)%nat ->
    okro n r -> (rc < n)%nat -> can n (transfer_output_step w p f r rc) (fun _ _ => True).
  Proof.
    intros H2 HW HN HC HR Hrc. unfold transfer_output_step, enforce_constant, enforce_equal. ge. eapply can_bind.
    { instantiate (1 := fun _ _ => True). destruct f.
      - ge. apply can_dummy_policy; [lia|]. apply (okpol_mono n); [lia|apply HR].
      - ge. apply can_equal_policy; apply (okpol_mono n); try lia; [apply HR|exact HW]. }
    nx. eapply can_bind; [apply can_commitment; [lia|apply (okro_mono n); auto; lia]|nx]. ge. gl.
  Qed.
  Lemma can_loop_first {A} n (f : bool -> A -> M unit) l :
    (forall b x n', In x l -> (n <= n')%nat -> can n' (f b x) (fun _ _ => True)) -> can n (loop_first f l) (fun _ _ => True).
  Proof.
    intros H. destruct l as [|x l]; cbn [loop_first]; [apply can_ret; auto|].
    eapply can_bind; [apply H; [left; auto|apply le_n]|nx]. apply can_for. intros. apply H; [right; auto|lia].
  Qed.
  Lemma can_balance n a b c ins outs : (2 <= n)%nat -> (a < n)%nat -> (b < n)%nat -> (c < n)%nat -> Forall (fun v => (v < n)%nat) ins -> Forall (fun v => (v < n)%nat) outs ->
    ins <> [] -> outs <> [] -> can n (preserve_balance a b c ins outs) (fun m v => (v < m)%nat).
  Proof.
    intros H2 Ha Hb Hc HI HO NI NO. destruct ins as [|i0 ir]; [congruence|]. destruct outs as [|o0 or]; [congruence|].
    inversion HI as [|? ? I0 IR]; inversion HO as [|? ? O0 OR]; subst. unfold preserve_balance.
    eapply can_bind.
    { instantiate (1 := fun m v => (v < m)%nat). destruct ir; [apply can_ret; vb|apply can_apply1; [exact IR|reflexivity]]. }
    nx. eapply can_bind.
    { instantiate (1 := fun m v => (v < m)%nat). destruct or; [apply can_ret; vb|apply can_apply1; [apply (lt_mono _ n); auto|reflexivity]]. }
    nx. g1. g1. g1. unfold mul_add_gate, mul_gate. do 3 ge. apply can_ret. lia.
  Qed.
  Lemma combine_fst {A B} (a : list A) : forall b : list B, length b = length a -> map fst (combine a b) = a.
  Proof. induction a as [|x a IH]; intros [|y b] H; cbn in *; try discriminate; auto. f_equal. apply IH. lia. Qed.
  Lemma combine_snd {A B} (a : list A) : forall b : list B, length b = length a -> map snd (combine a b) = b.
  Proof. induction a as [|x a IH]; intros [|y b] H; cbn in *; try discriminate; auto. f_equal. apply IH. lia. Qed.
  Lemma can_memo_input n (reveal : list var) i : (2 <= n)%nat -> length reveal = VIEWABLE_DATA_LEN -> Forall (fun v => (v < n)%nat) reveal -> okin n i ->
    can n (memo_input_message reveal i) (fun m ys => length ys = 12%nat /\ Forall (fun v => (v < m)%nat) ys).
  Proof.
    intros H2 HL HF (I1 & I2 & I3 & I4). destruct reveal as [|b0 [|b1 [|b2 [|b3 br]]]]; try discriminate HL. unfold memo_input_message; cbv zeta.
    inversion HF as [|? ? F0 HF1]; inversion HF1 as [|? ? F1 HF2]; inversion HF2 as [|? ? F2 HF3]; inversion HF3 as [|? ? F3 HF4]; subst.
    assert (EL : length br = length (cv_attrs (iv_cred i))) by (destruct I4 as (_ & _ & _ & _ & _ & _ & ->); injection HL; auto).
    assert (E8 : length (cv_attrs (iv_cred i)) = 8%nat) by apply I4.
    rewrite (combine_fst (cv_attrs (iv_cred i)) br EL), (combine_snd (cv_attrs (iv_cred i)) br EL).
    assert (FA : Forall (fun v => (v < n)%nat) (cv_attrs (iv_cred i))) by apply I4. clear I4.
    eapply can_bind; [apply can_code_dummy; exact I2|nx]. g1. g1. g1.
    eapply can_weak; [apply can_hadamard|].
    - rewrite !app_length, EL. reflexivity.
    - apply Forall_app. split; [vbs|apply (lt_mono _ n); auto; lia].
    - apply Forall_app. split; [vbs|apply (lt_mono _ n); auto; lia].
    - intros n' ys L' [E HY]. rewrite app_length, E8 in E. auto.
  Qed.
  Lemma can_memo_output n (reveal : list var) r : length reveal = VIEWABLE_DATA_LEN -> Forall (fun v => (v < n)%nat) reveal -> okro n r ->
    can n (memo_output_message reveal r) (fun m ys => length ys = 4%nat /\ Forall (fun v => (v < m)%nat) ys).
  Proof.
    intros HL HF HR. destruct reveal as [|b0 [|b1 [|b2 [|b3 br]]]]; try discriminate HL. unfold memo_output_message.
    inversion HF as [|? ? F0 HF1]; inversion HF1 as [|? ? F1 HF2]; inversion HF2 as [|? ? F2 HF3]; inversion HF3 as [|? ? F3 HF4]; subst.
    apply can_hadamard; [reflexivity|vbs|vbs].
  Qed.
  Lemma concat_len k (ll : list (list var)) : Forall (fun l => length l = k) ll -> length (concat ll) = (length ll * k)%nat.
  Proof. induction 1; cbn; [reflexivity|]. rewrite app_length. lia. Qed.
  Lemma can_is_range n (a : var) k : (a < n)%nat -> can n (is_in_range a k) (fun m v => (v < m)%nat).
  Proof.
    intros Ha. unfold is_in_range. eapply (can_bind n (witness a) _ (fun m _ => (a < m)%nat)).
    - intros s Hs. unfold witness. destruct (nth_error (wit s) a) as [x|] eqn:E; [|apply nth_error_None in E; lia].
      exists x, s. conjs; auto; lia.
    - nx. eapply can_bind; [apply can_create|nx]. eapply can_bind; [apply can_insert; cbn [gate_vars]; vbs|nx]. apply can_ret. lia.
  Qed.
  Lemma can_viewing_memo n w p : (2 <= n)%nat -> oktw n w p ->
    length (snd (tpv_memo p)) = (1 + (length (twv_inputs w) - 1) * 12 + (length (twv_outputs w) - 1) * 4)%nat ->
    can n (transfer_is_correct_viewing_memo w p) (fun m v => (v < m)%nat).
  Proof.
    intros H2 (C1 & C2 & C3 & C4 & C5 & C6 & C7 & C8 & C9 & C10 & C11 & C12) HM. unfold transfer_is_correct_viewing_memo.
    eapply can_bind; [apply (can_apply_op n (OUnpack VIEWABLE_DATA_LEN) _ 12); [vbs|]|].
    { intros xs H. destruct xs as [|x [|? ?]]; try discriminate H. reflexivity. }
    intros n1 bits L1 [EB FB].
    assert (ER : length (rev bits) = VIEWABLE_DATA_LEN) by (rewrite rev_length; exact EB).
    assert (FR : Forall (fun v => (v < n1)%nat) (rev bits)) by (apply Forall_rev, FB).
    eapply can_bind; [apply (can_map n1 _ (fun m ys => length ys = 12%nat /\ Forall (fun v => (v < m)%nat) ys))|].
    { intros a b y Hab [E F]. split; [auto|eapply lt_mono; eauto]. }
    { intros i n' Hi Hn. apply can_memo_input; [lia|exact ER|apply (lt_mono _ n1); auto|]. apply (okin_mono n); [lia|].
      rewrite Forall_forall in C3. apply C3. destruct (twv_inputs w); [destruct Hi|right; exact Hi]. }
    intros n2 ins L2 [EI FI].
    eapply can_bind; [apply (can_map n2 _ (fun m ys => length ys = 4%nat /\ Forall (fun v => (v < m)%nat) ys))|].
    { intros a b y Hab [E F]. split; [auto|eapply lt_mono; eauto]. }
    { intros r n' Hr Hn. apply can_memo_output; [exact ER|apply (lt_mono _ n1); auto; lia|]. apply (okro_mono n); [lia|].
      rewrite Forall_forall in C4. apply C4. destruct (twv_outputs w); [destruct Hr|right; exact Hr]. }
    intros n3 outs L3 [EO FO].
    assert (FM : Forall (fun v => (v < n3)%nat) (concat ins ++ concat outs)).
    { apply Forall_app. split; apply Forall_concat.
      - eapply Forall_impl; [|exact FI]. intros l [_ Hl]. apply (lt_mono _ n2); auto.
      - eapply Forall_impl; [|exact FO]. intros l [_ Hl]. exact Hl. }
    assert (LM : length (concat ins ++ concat outs) = ((length (twv_inputs w) - 1) * 12 + (length (twv_outputs w) - 1) * 4)%nat).
    { rewrite app_length, (concat_len 12), (concat_len 4).
      - unfold var in *. rewrite EI, EO, !skipn_length. reflexivity.
      - eapply Forall_impl; [|exact FO]. intros l [Hl _]. exact Hl.
      - eapply Forall_impl; [|exact FI]. intros l [Hl _]. exact Hl. }
    eapply can_bind; [apply can_derive; [vb|lia|apply Forall_cons; [lia|exact FM]]|].
    intros n4 d L4 [OD LD]. cbv beta in *. apply can_memo_equal; [apply (okmemo_mono n); auto; lia|exact OD|].
    rewrite HM. rewrite LD. cbn [length]. rewrite <- Nat.add_assoc. cbn [Nat.add]. f_equal. exact LM.
  Qed.
  Lemma can_transfer_constraints n w p : (2 <= n)%nat -> oktw n w p -> twv_inputs w <> [] -> twv_outputs w <> [] ->
    length (snd (tpv_memo p)) = (1 + (length (twv_inputs w) - 1) * 12 + (length (twv_outputs w) - 1) * 4)%nat ->
    can n (transfer_constraints w p) (fun _ _ => True).
  Proof.
    intros H2 HO NI NO HM. pose proof HO as (C1 & C2 & C3 & C4 & C5 & C6 & C7 & C8 & C9 & C10 & C11 & C12).
    unfold transfer_constraints.
    eapply can_bind; [apply can_loop_first|nx].
    { intros b [i nl] n' Hin Hn. pose proof (in_combine_l _ _ _ _ Hin) as J1. pose proof (in_combine_r _ _ _ _ Hin) as J2.
      rewrite Forall_forall in C3, C10. specialize (C3 _ J1). specialize (C10 _ J2). cbv beta in C10. cbn [fst snd].
      apply can_input_step; try lia; [apply (okpol_mono n); auto|apply (okin_mono n); auto]. }
    eapply can_bind; [apply can_loop_first|nx].
    { intros b [r rc] n' Hin Hn. pose proof (in_combine_l _ _ _ _ Hin) as J1. pose proof (in_combine_r _ _ _ _ Hin) as J2.
      rewrite Forall_forall in C4, C11. specialize (C4 _ J1). specialize (C11 _ J2). cbv beta in C11. cbn [fst snd].
      apply can_output_step; try lia; [apply (okpol_mono n); auto; lia|apply (okro_mono n); auto; lia]. }
    eapply can_bind; [apply can_balance; try lia|nx].
    { apply Forall_map. eapply Forall_impl; [|exact C3]. intros i (_ & (Hi & _) & _). lia. }
    { apply Forall_map. eapply Forall_impl; [|exact C4]. intros i (Hi & _). lia. }
    { destruct (twv_inputs w); [congruence|discriminate]. }
    { destruct (twv_outputs w); [congruence|discriminate]. }
    g1. eapply can_bind; [apply can_is_range; lia|].
    nx. unfold is_dummy_viewing_pk. g1. g1.
    eapply can_bind; [apply can_viewing_memo; [lia| |exact HM]|nx]; [|gl].
    unfold oktw, okmemo in *. unfold okp in *. conjs; try lia; try (eapply lt_mono; [|eassumption]; lia).
    - apply (okpol_mono n); auto; lia.
    - eapply Forall_impl; [|exact C3]. intros; apply (okin_mono n); auto; lia.
    - eapply Forall_impl; [|exact C4]. intros; apply (okro_mono n); auto; lia.
    - destruct C12 as [_ C12]. eapply lt_mono; [|exact C12]. lia.
  Qed.
  Lemma transfer_can_build w p : tw_inputs w <> [] -> tw_outputs w <> [] -> Forall (fun i => length (cr_attrs (is_cred i)) = ATTRS_LEN) (tw_inputs w) ->
    length (vm_data (tp_memo p)) = (1 + (length (tw_inputs w) - 1) * 12 + (length (tw_outputs w) - 1) * 4)%nat ->
    exists s, transfer_circuit w p = Ok s.
  Proof.
    intros NI NO HC HM. assert (G : can 2 (transfer_build w p) (fun _ _ => True)).
    { unfold transfer_build. destruct (Nat.eqb_spec (length (tw_inputs w)) 0) as [E|_]; [destruct (tw_inputs w); [congruence|discriminate E]|].
      destruct (Nat.eqb_spec (length (tw_outputs w)) 0) as [E|_]; [destruct (tw_outputs w); [congruence|discriminate E]|].
      eapply can_bind.
      { instantiate (1 := fun n v => (twv_code v < n)%nat /\ okpol n (twv_policy v) /\ Forall (okin n) (twv_inputs v) /\ Forall (okro n) (twv_outputs v) /\
          (twv_rand v < n)%nat /\ length (twv_inputs v) = length (tw_inputs w) /\ length (twv_outputs v) = length (tw_outputs w)).
        unfold transfer_witness_var_new. eapply can_bind; [apply can_create|nx]. eapply can_bind; [apply can_policy|nx].
        eapply can_bind; [apply (can_map _ _ okin); [intros; eapply okin_mono; eauto|intros; apply can_input]|nx].
        { rewrite Forall_forall in HC. auto. }
        eapply can_bind; [apply can_ros|nx]. eapply can_bind; [apply can_create|nx]. apply can_ret. cbn.
        destruct H1 as [E1 F1], H2 as [E2 F2]. conjs; auto; try lia.
        - eapply okpol_mono; [|exact H0]. lia.
        - eapply Forall_impl; [|exact F1]. intros; eapply okin_mono; [|eassumption]. lia.
        - eapply Forall_impl; [|exact F2]. intros; eapply okro_mono; [|eassumption]. lia. }
      intros n1 wv L1 (W1 & W2 & W3 & W4 & W5 & W6 & W7).
      eapply can_bind.
      { instantiate (1 := fun n v => (tpv_root v < n)%nat /\ (tpv_native v < n)%nat /\ (tpv_valid_until v < n)%nat /\ (tpv_fee v < n)%nat /\
          Forall (fun x => (x < n)%nat) (tpv_nullifiers v) /\ Forall (fun x => (x < n)%nat) (tpv_commitments v) /\ okmemo n (tpv_memo v) /\
          length (snd (tpv_memo v)) = length (vm_data (tp_memo p))).
        unfold transfer_pub_var_new. do 4 (eapply can_bind; [apply can_pubvar|nx]). do 2 (eapply can_bind; [apply can_pubvars|nx]).
        eapply can_bind; [apply can_memo|nx]. eapply can_bind; [apply can_memo_public|nx]. apply can_ret. cbn.
        destruct H3 as [E3 F3], H4 as [E4 F4], H5 as [F5 E5]. conjs; auto; try lia.
        - eapply lt_mono; [|exact F3]. lia.
        - eapply lt_mono; [|exact F4]. lia.
        - eapply okmemo_mono; [|exact F5]. lia. }
      intros n2 pv L2 (P1 & P2 & P3 & P4 & P5 & P6 & P7 & P8).
      eapply can_bind; [apply can_transfer_constraints; [lia| | | |]|nx; apply can_ret; auto].
      - unfold oktw. conjs; auto; try lia.
        + eapply okpol_mono; [|exact W2]. lia.
        + eapply Forall_impl; [|exact W3]. intros; eapply okin_mono; [|eassumption]. lia.
        + eapply Forall_impl; [|exact W4]. intros; eapply okro_mono; [|eassumption]. lia.
      - intros E. rewrite E in W6. destruct (tw_inputs w); [congruence|discriminate W6].
      - intros E. rewrite E in W7. destruct (tw_outputs w); [congruence|discriminate W7].
      - rewrite P8, W6, W7. exact HM. }
    destruct (G new_circuit eq_refl) as ([wv pv] & s & E & _). exists s. unfold transfer_circuit. rewrite E. reflexivity.
  Qed.

  (** ** Mint *)
  Lemma mint_can_build w p : length (vm_data (mp_memo p)) = 3%nat -> exists s, mint_circuit w p = Ok s.
  Proof.
    intros HM. assert (G : can 2 (mint_build w p) (fun _ _ => True)).
    { unfold mint_build. eapply can_bind.
      { instantiate (1 := fun n v => okro n (mwv_mint v) /\ (mwv_sk v < n)%nat /\ okro n (mwv_fee v) /\ okacc n (mwv_acc v) /\ okro n (mwv_chg v) /\
          (mwv_seed v < n)%nat /\ (mwv_digest v < n)%nat /\ (mwv_rand v < n)%nat).
        unfold mint_witness_var_new. eapply can_bind; [apply can_ro|nx]. eapply can_bind; [apply can_create|nx]. eapply can_bind; [apply can_ro|nx].
        eapply can_bind; [apply can_acc|nx]. eapply can_bind; [apply can_ro|nx]. do 3 (eapply can_bind; [apply can_create|nx]). apply can_ret. cbn.
        conjs; try lia.
        - eapply okro_mono; [|exact H]. lia.
        - eapply okro_mono; [|exact H1]. lia.
        - eapply okacc_mono; [|exact H2]. lia.
        - eapply okro_mono; [|exact H3]. lia. }
      intros n1 wv L1 (W1 & W2 & W3 & W4 & W5 & W6 & W7 & W8).
      eapply can_bind.
      { instantiate (1 := fun n v => ((mpv_root v < n) /\ (mpv_native v < n) /\ (mpv_nullifier v < n) /\ (mpv_fee v < n) /\ (mpv_mint_rc v < n) /\
          (mpv_chg_rc v < n) /\ (mpv_amount v < n) /\ (mpv_ac v < n) /\ (mpv_internal v < n))%nat /\ okpol n (mpv_policy v) /\ okmemo n (mpv_memo v) /\
          length (snd (mpv_memo v)) = 3%nat).
        unfold mint_pub_var_new. do 9 (eapply can_bind; [apply can_pubvar|nx]). eapply can_bind; [apply can_policy|nx].
        eapply can_bind; [apply can_policy_public|nx]. eapply can_bind; [apply can_memo|nx]. eapply can_bind; [apply can_memo_public|nx].
        apply can_ret. cbn. destruct H10 as [F5 E5]. conjs; auto; try lia.
        - eapply okpol_mono; [|exact H8]. lia.
        - eapply okmemo_mono; [|exact F5]. lia. }
      intros n2 pv L2 ((P1 & P2 & P3 & P4 & P5 & P6 & P7 & P8 & P9) & P10 & P11 & P12).
      eapply can_bind; [|nx; apply can_ret; auto]. instantiate (1 := fun _ _ => True).
      assert (V1 : okro n2 (mwv_mint wv)) by (eapply okro_mono; [|exact W1]; lia).
      assert (V3 : okro n2 (mwv_fee wv)) by (eapply okro_mono; [|exact W3]; lia).
      assert (V5 : okro n2 (mwv_chg wv)) by (eapply okro_mono; [|exact W5]; lia).
      assert (Q1 : okpol n2 (rv_policy (mwv_mint wv))) by apply V1.
      assert (Q3 : okpol n2 (rv_policy (mwv_fee wv))) by apply V3.
      assert (Q5 : okpol n2 (rv_policy (mwv_chg wv))) by apply V5.
      clear W1 W3 W5. unfold mint_constraints, enforce_equal, enforce_constant, enforce_in_range, enforce_point_equal, add_gate, logic_or_gate.
      eapply can_bind; [apply can_commitment; [lia|exact V1]|nx]. ge.
      eapply can_bind; [apply can_commitment; [lia|apply (okro_mono n2); auto; lia]|nx]. ge. g1. ge. ge.
      eapply can_bind; [apply can_spend; [lia|apply (okro_mono n2); auto; lia|apply (okacc_mono n1); auto; lia|lia]|nx].
      match goal with y : (var * var)%type |- _ => destruct y as [nl root] end. cbn [fst snd] in *. do 8 ge.
      eapply can_bind; [apply can_equal_policy; apply (okpol_mono n2); auto; lia|nx]. do 2 ge.
      do 2 (eapply can_bind; [apply can_dummy_policy; [lia|apply (okpol_mono n2); auto; lia]|nx]). ge.
      unfold is_dummy_viewing_pk. eapply can_bind; [apply can_neutral; vb|nx]. unfold mint_is_correct_viewing_memo. eapply can_bind.
      { eapply can_bind; [apply can_derive; [vb|lia|vbs]|]. intros n' d L' [OD LD]. cbv beta in *.
        apply can_memo_equal; [apply (okmemo_mono n2); auto; lia|exact OD|]. rewrite P12, LD. reflexivity. }
      nx. gl. }
    destruct (G new_circuit eq_refl) as ([wv pv] & s & E & _). exists s. unfold mint_circuit. rewrite E. reflexivity.
  Qed.

  (** ** Freeze *)
  Lemma freeze_can_build w p : fw_inputs w <> [] -> fw_outputs w <> [] -> fw_accs w <> [] -> fp_nullifiers p <> [] ->
    exists s, freeze_circuit_unchecked w p = Ok s.
  Proof.
    intros N1 N2 N3 N4. assert (G : can 2 (freeze_build_unchecked w p) (fun _ _ => True)).
    { unfold freeze_build_unchecked. eapply can_bind.
      { instantiate (1 := fun n v => (fwv_fee_sk v < n)%nat /\ Forall (okro n) (fwv_inputs v) /\ Forall (okacc n) (fwv_accs v) /\ Forall (okro n) (fwv_outputs v) /\
          Forall (fun x => (x < n)%nat) (fwv_keys v) /\ length (fwv_inputs v) = length (fw_inputs w) /\ length (fwv_accs v) = length (fw_accs w) /\
          length (fwv_outputs v) = length (fw_outputs w)).
        unfold freeze_witness_var_new. eapply can_bind; [apply can_ros|nx]. eapply can_bind; [apply can_accs|nx]. eapply can_bind; [apply can_ros|nx].
        eapply can_bind; [apply can_create|nx]. eapply can_bind; [apply (can_map _ _ (fun m v => (v < m)%nat)); [intros; lia|intros; apply can_create]|nx].
        apply can_ret. cbn. destruct H as [E F], H0 as [E0 F0], H1 as [E1 F1], H3 as [E3 F3]. conjs; auto; try lia.
        - eapply Forall_impl; [|exact F]. intros; eapply okro_mono; [|eassumption]. lia.
        - eapply Forall_impl; [|exact F0]. intros; eapply okacc_mono; [|eassumption]. lia.
        - eapply Forall_impl; [|exact F1]. intros; eapply okro_mono; [|eassumption]. lia. }
      intros n1 wv L1 (W1 & W2 & W3 & W4 & W5 & W6 & W7 & W8).
      eapply can_bind.
      { instantiate (1 := fun n v => (fpv_root v < n)%nat /\ (fpv_native v < n)%nat /\ (fpv_fee v < n)%nat /\
          Forall (fun x => (x < n)%nat) (fpv_nullifiers v) /\ Forall (fun x => (x < n)%nat) (fpv_commitments v) /\ length (fpv_nullifiers v) = length (fp_nullifiers p)).
        unfold freeze_pub_var_new. do 3 (eapply can_bind; [apply can_pubvar|nx]). do 2 (eapply can_bind; [apply can_pubvars|nx]).
        apply can_ret. cbn. destruct H2 as [E2 F2], H3 as [E3 F3]. conjs; auto; try lia. eapply lt_mono; [|exact F2]. lia. }
      intros n2 pv L2 (P1 & P2 & P3 & P4 & P5 & P6).
      eapply can_bind; [|nx; apply can_ret; auto]. instantiate (1 := fun _ _ => True).
      unfold freeze_constraints.
      assert (V2 : Forall (okro n2) (fwv_inputs wv)) by (eapply Forall_impl; [|exact W2]; intros; eapply okro_mono; [|eassumption]; lia).
      assert (V3 : Forall (okacc n2) (fwv_accs wv)) by (eapply Forall_impl; [|exact W3]; intros; eapply okacc_mono; [|eassumption]; lia).
      assert (V4 : Forall (okro n2) (fwv_outputs wv)) by (eapply Forall_impl; [|exact W4]; intros; eapply okro_mono; [|eassumption]; lia).
      assert (V5 : Forall (fun x => (x < n2)%nat) (fwv_keys wv)) by (eapply lt_mono; [|exact W5]; lia).
      clear W2 W3 W4 W5.
      destruct (fwv_inputs wv) as [|i0 ir]; [destruct (fw_inputs w); [congruence|discriminate W6]|].
      destruct (fwv_outputs wv) as [|o0 or]; [destruct (fw_outputs w); [congruence|discriminate W8]|].
      destruct (fwv_accs wv) as [|a0 ar]; [destruct (fw_accs w); [congruence|discriminate W7]|].
      destruct (fpv_nullifiers pv) as [|n0 nr]; [destruct (fp_nullifiers p); [congruence|discriminate P6]|].
      inversion V2 as [|? ? I0 IR]; inversion V3 as [|? ? A0 AR]; pose proof V4 as VO; inversion V4 as [|? ? O0 OR]; inversion P4 as [|? ? M0 MR]; subst.
      unfold enforce_equal, enforce_constant, enforce_point_equal, add_gate, logic_or_gate.
      assert (QI : okpol n2 (rv_policy i0)) by apply I0. assert (QO : okpol n2 (rv_policy o0)) by apply O0.
      ge. eapply can_bind; [apply can_dummy_policy; [lia|apply (okpol_mono n2); auto; lia]|nx].
      ge. eapply can_bind; [apply can_dummy_policy; [lia|apply (okpol_mono n2); auto; lia]|nx]. do 3 ge.
      eapply can_bind; [apply can_spend; [lia|apply (okro_mono n2); auto; lia|apply (okacc_mono n2); auto; lia|lia]|nx].
      match goal with y : (var * var)%type |- _ => destruct y as [nl root] end. cbn [fst snd] in *. do 2 ge.
      eapply can_bind; [apply can_for|nx].
      { intros [a b] n' Hin Hn. pose proof (in_combine_l _ _ _ _ Hin) as J1. pose proof (in_combine_r _ _ _ _ Hin) as J2.
        rewrite Forall_forall in IR, OR. specialize (IR _ J1). specialize (OR _ J2). cbn [fst snd].
        unfold freeze_pair_step, enforce_equal, enforce_point_equal, add_gate. do 4 ge.
        apply can_equal_policy; apply (okpol_mono n2); try lia; [apply IR|apply OR]. }
      eapply can_bind; [apply can_for|nx].
      { intros [a b] n' Hin Hn. pose proof (in_combine_l _ _ _ _ Hin) as J1. pose proof (in_combine_r _ _ _ _ Hin) as J2.
        rewrite Forall_forall in VO, P5. specialize (VO _ J1). specialize (P5 _ J2). cbv beta in P5. cbn [fst snd].
        unfold freeze_output_step, enforce_equal. eapply can_bind; [apply can_commitment; [lia|apply (okro_mono n2); auto; lia]|nx]. gl. }
      apply can_for. intros [[a b] [c d]] n' Hin Hn. pose proof (in_combine_l _ _ _ _ Hin) as J1. pose proof (in_combine_r _ _ _ _ Hin) as J2.
      pose proof (in_combine_l _ _ _ _ J1) as K1. pose proof (in_combine_r _ _ _ _ J1) as K2. pose proof (in_combine_l _ _ _ _ J2) as K3. pose proof (in_combine_r _ _ _ _ J2) as K4.
      rewrite Forall_forall in IR, AR, V5, MR. specialize (IR _ K1). specialize (AR _ K2). specialize (V5 _ K3). specialize (MR _ K4). cbv beta in *. cbn [fst snd].
      assert (QA : okpol n2 (rv_policy a)) by apply IR.
      unfold freeze_input_step, enforce_equal, logic_or_gate, is_dummy_freezer_pk.
      eapply can_bind; [apply can_neutral; vb|nx]. g1. eapply can_bind; [apply can_code_dummy, (okro_mono n2); auto; lia|nx]. ge.
      eapply can_bind; [apply can_spend; [lia|apply (okro_mono n2); auto; lia|apply (okacc_mono n2); auto; lia|lia]|nx].
      match goal with y : (var * var)%type |- _ => destruct y as [nl2 root2] end. cbn [fst snd] in *. g1. ge. gl. }
    destruct (G new_circuit eq_refl) as ([wv pv] & s & E & _). exists s. unfold freeze_circuit_unchecked. rewrite E. reflexivity.
  Qed.
End Gadgets.
