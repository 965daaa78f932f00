(** The three circuits as a verifier sees them: a list of public scalars and some satisfying assignment. *)
From Verif Require Import Base Config Structs Keys Utils Memo Plonk Witness Circuits Relation CircuitLogic GadgetProofs
  StructGadgetProofs SpendGadgetProofs TransferCircuitProofs MintCircuitProofs FreezeCircuitProofs CircuitShape MemoProofs.

Section Common.
  Context {C : CapConfig}.
  Lemma circuit_sat_iff s rho pub : circuit_sat s rho pub = true <-> sat rho s /\ map rho (pubs s) = pub.
  Proof.
    unfold circuit_sat, sat. rewrite andb_true_iff, flist_eqb_spec, forallb_forall, Forall_forall. tauto.
  Qed.
  Lemma circuit_sat_sim s1 s2 rho pub : sim s1 s2 -> circuit_sat s1 rho pub = circuit_sat s2 rho pub.
  Proof. intros (_ & E1 & E2). unfold circuit_sat. rewrite E1, E2. reflexivity. Qed.
  Lemma map_err_ok {A} (m : res A) e x : map_err m e = Ok x <-> m = Ok x.
  Proof. destruct m; cbn; split; congruence. Qed.
  Lemma map_repeat {A B} (f : A -> B) x n : map f (repeat x n) = repeat (f x) n.
  Proof. induction n; cbn; congruence. Qed.

  (** length of the allocated Merkle paths *)
  Lemma acc_var_depth (rho : env) a s v s' : acc_var_new a s = Ok (v, s') -> length (pl_path (vacc rho v)) = length (acc_path a).
  Proof.
    unfold acc_var_new. intros H. apply mbind_ok in H. destruct H as (u & s1 & _ & H). apply mbind_ok in H.
    destruct H as (p & s2 & H & E). injection E as <- <-. cbn. rewrite map_length. eapply mmap_length; eauto.
  Qed.
  Lemma mmap_Forall2 {A B} (f : A -> M B) (P : A -> B -> Prop) : (forall x s y s', f x s = Ok (y, s') -> P x y) ->
    forall l s ys s', mmap f l s = Ok (ys, s') -> Forall2 P l ys.
  Proof.
    intros H. induction l as [|x l IH]; intros s ys s' E; cbn [mmap] in E; [injection E as <- <-; constructor|].
    apply mbind_ok in E. destruct E as (y & s1 & E1 & E). apply mbind_ok in E. destruct E as (ys' & s2 & E2 & E).
    injection E as <- <-. constructor; eauto.
  Qed.
  Lemma shp_run {A} (m1 m2 : M A) s a t : shp m1 m2 -> m1 s = Ok (a, t) -> exists t', m2 s = Ok (a, t') /\ sim t t'.
  Proof.
    intros H E. specialize (H s s (sim_refl s)). rewrite E in H. destruct (m2 s) as [[a2 t2]| |]; try contradiction.
    destruct H as [<- H]. eauto.
  Qed.
End Common.

(** ** Transfer *)
Section Transfer.
  Context {C : CapConfig} (L : CapLaws C).

  Lemma transfer_circuit_inv w p s : transfer_circuit w p = Ok s -> exists wv pv, transfer_build w p new_circuit = Ok ((wv, pv), s).
  Proof.
    unfold transfer_circuit. destruct (transfer_build w p new_circuit) as [[[wv pv] s']| |]; try discriminate. intros [= ->]. eauto.
  Qed.
  (** lists of witness and public input line up *)
  Definition transfer_lengths (w : TransferWitness) (p : TransferPublicInput) : Prop :=
    length (tp_nullifiers p) = length (tw_inputs w) /\ length (tp_commitments p) = length (tw_outputs w).
  (** all membership paths of a claimed transfer have the given length *)
  Definition transfer_depth (d : nat) (t : TransferV) : Prop := Forall (fun i => length (pl_path (in_place i)) = d) (tv_ins t).

  Lemma twitness_depth rho w s v s' d : transfer_witness_var_new w s = Ok (v, s') ->
    Forall (fun i => length (acc_path (is_acc i)) = d) (tw_inputs w) -> transfer_depth d (vtransfer rho v).
  Proof.
    unfold transfer_witness_var_new. intros H HF. do 2 (apply mbind_ok in H; destruct H as (? & ? & _ & H)).
    apply mbind_ok in H. destruct H as (ins & ? & Hi & H). do 2 (apply mbind_ok in H; destruct H as (? & ? & _ & H)).
    injection H as <- <-. unfold transfer_depth. cbn. rewrite Forall_map.
    apply (mmap_Forall2 input_var_new (fun i v => length (pl_path (in_place (vin rho v))) = length (acc_path (is_acc i)))) in Hi.
    - clear -Hi HF. induction Hi; constructor; inversion HF; subst; auto; congruence.
    - clear. intros x s y s' E. unfold input_var_new in E. do 3 (apply mbind_ok in E; destruct E as (? & ? & _ & E)).
      apply mbind_ok in E. destruct E as (a & ? & Ha & E). injection E as <- <-. cbn [in_place vin iv_acc]. eapply acc_var_depth; eauto.
  Qed.

  (** every satisfying assignment comes from a witness of the relation *)
  Lemma transfer_circuit_sound w0 p0 s rho pub d :
    transfer_lengths w0 p0 -> Forall (fun i => length (acc_path (is_acc i)) = d) (tw_inputs w0) ->
    transfer_circuit w0 p0 = Ok s -> circuit_sat s rho pub = true ->
    exists q t, pub = transfer_scalars q /\ length (tq_nullifiers q) = length (tp_nullifiers p0) /\
      length (tq_commitments q) = length (tp_commitments p0) /\ length (snd (tq_memo q)) = length (vm_data (tp_memo p0)) /\
      transfer_depth d t /\ transfer_relation q t.
  Proof.
    intros [L1 L2] HF Hs H. apply transfer_circuit_inv in Hs. destruct Hs as (wv & pv & Hb).
    apply circuit_sat_iff in H. destruct H as [Hsat Hpub].
    exists (vtpub rho pv), (vtransfer rho wv).
    pose proof (transfer_pubs _ _ _ _ _ rho Hb) as HP. pose proof (transfer_build_inv _ _ _ _ _ _ Hb) as (s1 & s2 & H1 & H2 & _).
    destruct (tpub_lengths _ _ _ _ H2) as (M1 & M2 & M3). conjs.
    - congruence.
    - cbn. rewrite map_length. auto.
    - cbn. rewrite map_length. auto.
    - cbn. rewrite map_length. auto.
    - eapply twitness_depth; eauto.
    - eapply transfer_build_sound; eauto.
  Qed.
  (** the scalars determine the public input when the lengths are known *)
  Lemma transfer_scalars_inj p q : length (tq_nullifiers p) = length (tq_nullifiers q) ->
    length (tq_commitments p) = length (tq_commitments q) -> transfer_scalars p = transfer_scalars q -> p = q.
  Proof.
    destruct p as [a1 a2 a3 a4 n1 c1 [[x1 y1] d1]], q as [b1 b2 b3 b4 n2 c2 [[x2 y2] d2]].
    unfold transfer_scalars, memo_scalars. cbn [tq_root tq_native tq_valid_until tq_fee tq_nullifiers tq_commitments tq_memo fst snd app].
    intros L1 L2 E. apply cons_inj in E. destruct E as [-> E]. apply cons_inj in E. destruct E as [-> E].
    apply cons_inj in E. destruct E as [-> E]. apply cons_inj in E. destruct E as [-> E].
    apply app_inv_length in E; [|auto]. destruct E as [-> E]. apply app_inv_length in E; [|auto]. destruct E as [-> E].
    apply cons_inj in E. destruct E as [-> E]. apply cons_inj in E. destruct E as [-> ->]. reflexivity.
  Qed.
  (** the honest assignment satisfies the circuit exactly when the relation holds *)
  Lemma transfer_honest w p s : transfer_lengths w p -> transfer_circuit w p = Ok s ->
    (check_circuit_satisfiability s (transfer_to_scalars p) = true <-> transfer_relation (transfer_pub_value p) (transfer_value w)).
  Proof.
    intros [L1 L2] Hs. apply transfer_circuit_inv in Hs. destruct Hs as (wv & pv & Hb).
    unfold check_circuit_satisfiability. rewrite circuit_sat_iff.
    set (rho := env_of (wit s)).
    assert (Ha : agr rho s) by (intros v x Hv; unfold rho, env_of; apply nth_error_nth; exact Hv).
    pose proof Hb as Hb'. apply transfer_build_inv in Hb'. destruct Hb' as (s1 & s2 & H1 & H2 & H3).
    assert (Ha2 : agr rho s2) by (eapply ext_agr; [eapply extm_constraints; eauto|auto]).
    assert (Ha1 : agr rho s1) by (eapply ext_agr; [eapply extm_tpub; eauto|auto]).
    assert (Ha0 : agr rho new_circuit) by (eapply ext_agr; [eapply extm_twitness; eauto|auto]).
    destruct (new_circuit_agr rho Ha0) as [Hc Hs0].
    destruct (g_twitness w rho) as (_ & _ & G1). destruct (G1 I _ _ _ H1 Ha1 Hs0) as [Hs1 V1].
    destruct (g_tpub p rho) as (_ & _ & G2). destruct (G2 I _ _ _ H2 Ha2 Hs1) as [Hs2 V2].
    split.
    - intros [Hsat _]. rewrite <- V1, <- V2. eapply transfer_build_sound; eauto.
    - intros HR. split; [eapply transfer_build_complete; eauto|].
      rewrite (transfer_pubs _ _ _ _ _ rho Hb), V2. reflexivity.
  Qed.

  (** shape-equal instances build together *)
  Lemma transfer_circuit_shape w1 p1 w2 p2 s1 : transfer_shape w1 p1 = transfer_shape w2 p2 -> transfer_circuit w1 p1 = Ok s1 ->
    exists s2, transfer_circuit w2 p2 = Ok s2 /\ sim s1 s2.
  Proof.
    intros HS H. apply transfer_circuit_inv in H. destruct H as (wv & pv & H).
    apply (shp_run _ (transfer_build w2 p2)) in H; [|apply shp_transfer; auto]. destruct H as (s2 & H & HH).
    exists s2. split; auto. unfold transfer_circuit. rewrite H. reflexivity.
  Qed.

  (** lengths of what from_witness derives *)
  Lemma transfer_from_witness_lengths w vu p : transfer_from_witness w vu = Ok p ->
    transfer_lengths w p /\ length (vm_data (tp_memo p)) = (1 + (length (tw_inputs w) - 1) * 12 + (length (tw_outputs w) - 1) * 4)%nat.
  Proof.
    unfold transfer_from_witness. intros H. do 6 (apply bind_ok in H; destruct H as (? & ? & H)). injection H as <-.
    cbn. unfold transfer_lengths; cbn. rewrite !map_length. conjs; auto.
    match goal with E : memo_for_transfer_note _ _ _ _ = _ |- _ => apply (memo_length L) in E; [rewrite map_length in E; exact E|] end.
    rewrite !map_length; auto.
  Qed.
  Lemma transfer_preprocess_inv n_in n_out d s0 : transfer_build_for_preprocessing n_in n_out d = Ok s0 ->
    exists w0 p0, transfer_circuit w0 p0 = Ok s0 /\ transfer_lengths w0 p0 /\ length (tw_inputs w0) = n_in /\ length (tw_outputs w0) = n_out /\
      Forall (fun i => length (acc_path (is_acc i)) = d) (tw_inputs w0) /\
      length (vm_data (tp_memo p0)) = (1 + (n_in - 1) * 12 + (n_out - 1) * 4)%nat /\
      map input_shape (tw_inputs w0) = repeat (d, ATTRS_LEN) n_in.
  Proof.
    unfold transfer_build_for_preprocessing. intros H. apply bind_ok in H. destruct H as (w & Hw & H).
    apply bind_ok in H. destruct H as (p & Hp & H). apply map_err_ok in H. exists w, p.
    destruct (transfer_from_witness_lengths _ _ _ Hp) as [HL HM].
    unfold transfer_witness_dummy in Hw. destruct cred_dummy_unexpired as [cred| |] eqn:Ec; try discriminate. injection Hw as <-.
    cbn [tw_inputs tw_outputs] in *. rewrite !repeat_length in *. conjs; auto.
    - apply Forall_forall. intros i Hi. apply repeat_spec in Hi. subst. cbn. apply repeat_length.
    - rewrite map_repeat. f_equal. unfold input_shape. cbn [is_acc is_cred acc_path]. rewrite repeat_length. f_equal.
      unfold cred_dummy_unexpired in Ec. injection Ec as <-. reflexivity.
  Qed.
  (** soundness of the preprocessed circuit *)
  Lemma transfer_key_sound n_in n_out d s0 rho pub :
    transfer_build_for_preprocessing n_in n_out d = Ok s0 -> circuit_sat s0 rho pub = true ->
    exists q t, pub = transfer_scalars q /\ length (tq_nullifiers q) = n_in /\ length (tq_commitments q) = n_out /\
      length (snd (tq_memo q)) = (1 + (n_in - 1) * 12 + (n_out - 1) * 4)%nat /\ transfer_depth d t /\ transfer_relation q t.
  Proof.
    intros H Hs. apply transfer_preprocess_inv in H. destruct H as (w0 & p0 & Hc & HL & L1 & L2 & HF & HM & _).
    destruct (transfer_circuit_sound _ _ _ _ _ _ HL HF Hc Hs) as (q & t & E & M1 & M2 & M3 & HD & HR).
    destruct HL as [E1 E2]. exists q, t. conjs; auto; congruence.
  Qed.
  (** an honest instance of the key's size has the key's circuit *)
  Lemma transfer_honest_circuit n_in n_out d s0 w vu p :
    transfer_build_for_preprocessing n_in n_out d = Ok s0 -> transfer_from_witness w vu = Ok p ->
    map input_shape (tw_inputs w) = repeat (d, ATTRS_LEN) n_in -> length (tw_outputs w) = n_out ->
    exists s, transfer_circuit w p = Ok s /\ sim s0 s.
  Proof.
    intros H Hp HI HO. apply transfer_preprocess_inv in H. destruct H as (w0 & p0 & Hc & [L1 L2] & M1 & M2 & _ & HM & HS).
    apply (transfer_circuit_shape w0 p0); auto.
    destruct (transfer_from_witness_lengths _ _ _ Hp) as [[K1 K2] KM]. unfold transfer_shape.
    assert (length (tw_inputs w) = n_in) by (rewrite <- (map_length input_shape), HI; apply repeat_length).
    rewrite HI, HS, L1, L2, K1, K2, HM, KM. repeat (f_equal; try congruence).
  Qed.
End Transfer.

(** ** Mint *)
Section Mint.
  Context {C : CapConfig}.
  Lemma mint_circuit_inv w p s : mint_circuit w p = Ok s -> exists wv pv, mint_build w p new_circuit = Ok ((wv, pv), s).
  Proof.
    unfold mint_circuit. destruct (mint_build w p new_circuit) as [[[wv pv] s']| |]; try discriminate. intros [= ->]. eauto.
  Qed.
  Lemma mpub_lengths p s v s' : mint_pub_var_new p s = Ok (v, s') -> length (snd (mpv_memo v)) = length (vm_data (mp_memo p)).
  Proof.
    unfold mint_pub_var_new. intros H. do 11 (apply mbind_ok in H; destruct H as (? & ? & _ & H)).
    apply mbind_ok in H. destruct H as (m & ? & E & H). apply mbind_ok in H. destruct H as (? & ? & _ & H). injection H as <- <-.
    unfold memo_var_new in E. do 2 (apply mbind_ok in E; destruct E as (? & ? & ? & E)).
    injection E as <- <-. cbn. eapply mmap_length; eassumption.
  Qed.
  Lemma mwitness_depth rho w s v s' : mint_witness_var_new w s = Ok (v, s') -> length (pl_path (mv_place (vmint rho v))) = length (acc_path (mw_acc w)).
  Proof.
    unfold mint_witness_var_new. intros H. do 3 (apply mbind_ok in H; destruct H as (? & ? & _ & H)).
    apply mbind_ok in H; destruct H as (a & ? & E & H). do 4 (apply mbind_ok in H; destruct H as (? & ? & _ & H)).
    injection H as <- <-. cbn [mv_place vmint mwv_acc]. eapply acc_var_depth; eauto.
  Qed.
  Lemma mint_circuit_sound w0 p0 s rho pub : mint_circuit w0 p0 = Ok s -> circuit_sat s rho pub = true ->
    exists q t, pub = mint_scalars q /\ length (snd (mq_memo q)) = length (vm_data (mp_memo p0)) /\
      length (pl_path (mv_place t)) = length (acc_path (mw_acc w0)) /\ mint_relation q t.
  Proof.
    intros Hs H. apply mint_circuit_inv in Hs. destruct Hs as (wv & pv & Hb).
    apply circuit_sat_iff in H. destruct H as [Hsat Hpub]. exists (vmpub rho pv), (vmint rho wv).
    pose proof (mint_pubs _ _ _ _ _ rho Hb) as HP. pose proof (mint_build_inv _ _ _ _ _ _ Hb) as (s1 & s2 & H1 & H2 & _). conjs.
    - congruence.
    - cbn. rewrite map_length. eapply mpub_lengths; eauto.
    - eapply mwitness_depth; eauto.
    - eapply mint_build_sound; eauto.
  Qed.
  Lemma mint_scalars_inj p q : mint_scalars p = mint_scalars q -> p = q.
  Proof.
    destruct p as [a1 a2 a3 a4 a5 a6 a7 a8 a9 [[v1 v2] [c1 c2] [f1 f2] m t] [[x1 y1] d1]].
    destruct q as [b1 b2 b3 b4 b5 b6 b7 b8 b9 [[v3 v4] [c3 c4] [f3 f4] m' t'] [[x2 y2] d2]].
    unfold mint_scalars, memo_scalars. cbn [mq_root mq_native mq_nullifier mq_fee mq_mint_rc mq_chg_rc mq_amount mq_code mq_internal mq_pol mq_memo po_map po_viewer po_cred po_freezer po_threshold fst snd app].
    intros E. repeat (apply cons_inj in E; destruct E as [-> E]). subst. reflexivity.
  Qed.
  Lemma mint_honest w p s : mint_circuit w p = Ok s ->
    (check_circuit_satisfiability s (mint_to_scalars p) = true <-> mint_relation (mint_pub_value p) (mint_value w)).
  Proof.
    intros Hs. apply mint_circuit_inv in Hs. destruct Hs as (wv & pv & Hb).
    unfold check_circuit_satisfiability. rewrite circuit_sat_iff. set (rho := env_of (wit s)).
    assert (Ha : agr rho s) by (intros v x Hv; unfold rho, env_of; apply nth_error_nth; exact Hv).
    pose proof Hb as Hb'. apply mint_build_inv in Hb'. destruct Hb' as (s1 & s2 & H1 & H2 & H3).
    assert (Ha2 : agr rho s2) by (eapply ext_agr; [eapply extm_mint_constraints; eauto|auto]).
    assert (Ha1 : agr rho s1) by (eapply ext_agr; [eapply extm_mpub; eauto|auto]).
    assert (Ha0 : agr rho new_circuit) by (eapply ext_agr; [eapply extm_mwitness; eauto|auto]).
    destruct (new_circuit_agr rho Ha0) as [Hc Hs0].
    destruct (g_mwitness w rho) as (_ & _ & G1). destruct (G1 I _ _ _ H1 Ha1 Hs0) as [Hs1 V1].
    destruct (g_mpub p rho) as (_ & _ & G2). destruct (G2 I _ _ _ H2 Ha2 Hs1) as [Hs2 V2].
    split.
    - intros [Hsat _]. rewrite <- V1, <- V2. eapply mint_build_sound; eauto.
    - intros HR. split; [eapply mint_build_complete; eauto|].
      rewrite (mint_pubs _ _ _ _ _ rho Hb), V2. reflexivity.
  Qed.
  Lemma mint_circuit_shape w1 p1 w2 p2 s1 : mint_shape w1 p1 = mint_shape w2 p2 -> mint_circuit w1 p1 = Ok s1 ->
    exists s2, mint_circuit w2 p2 = Ok s2 /\ sim s1 s2.
  Proof.
    intros HS H. apply mint_circuit_inv in H. destruct H as (wv & pv & H).
    apply (shp_run _ (mint_build w2 p2)) in H; [|apply shp_mint; auto]. destruct H as (s2 & H & HH).
    exists s2. split; auto. unfold mint_circuit. rewrite H. reflexivity.
  Qed.
  Lemma memo_for_mint_length ro r : length (vm_data (memo_for_mint_note ro r)) = 3%nat.
  Proof.
    unfold memo_for_mint_note, memo_of, viewer_encrypt, elgamal_encrypt. cbv zeta. cbn [vm_data snd]. rewrite mask_length.
    destruct (point_eqb _ _); reflexivity.
  Qed.
  Lemma mint_from_witness_memo w p : mint_from_witness w = Ok p -> length (vm_data (mp_memo p)) = 3%nat.
  Proof.
    unfold mint_from_witness. intros H. do 4 (apply bind_ok in H; destruct H as (? & ? & H)). injection H as <-.
    cbn [mp_memo]. apply memo_for_mint_length.
  Qed.
  Lemma mint_preprocess_inv d s0 : mint_build_for_preprocessing d = Ok s0 ->
    exists w0 p0, mint_circuit w0 p0 = Ok s0 /\ mint_shape w0 p0 = (d, 3%nat).
  Proof.
    unfold mint_build_for_preprocessing. cbv zeta. intros H. apply bind_ok in H. destruct H as (p & Hp & H). apply map_err_ok in H.
    exists (mint_witness_dummy d user_kp_default), p. split; auto. unfold mint_shape. rewrite (mint_from_witness_memo _ _ Hp).
    f_equal. cbn. apply repeat_length.
  Qed.
  Lemma mint_key_sound d s0 rho pub : mint_build_for_preprocessing d = Ok s0 -> circuit_sat s0 rho pub = true ->
    exists q t, pub = mint_scalars q /\ length (snd (mq_memo q)) = 3%nat /\ length (pl_path (mv_place t)) = d /\ mint_relation q t.
  Proof.
    intros H Hs. apply mint_preprocess_inv in H. destruct H as (w0 & p0 & Hc & HSh). injection HSh as S1 S2.
    destruct (mint_circuit_sound _ _ _ _ _ Hc Hs) as (q & t & E & M1 & M2 & HR). exists q, t. conjs; auto; congruence.
  Qed.
  Lemma mint_honest_circuit d s0 w p : mint_build_for_preprocessing d = Ok s0 -> mint_from_witness w = Ok p ->
    length (acc_path (mw_acc w)) = d -> exists s, mint_circuit w p = Ok s /\ sim s0 s.
  Proof.
    intros H Hp HD. apply mint_preprocess_inv in H. destruct H as (w0 & p0 & Hc & HS).
    apply (mint_circuit_shape w0 p0); auto. rewrite HS. unfold mint_shape. rewrite (mint_from_witness_memo _ _ Hp), HD. reflexivity.
  Qed.
End Mint.

(** ** Freeze *)
Section Freeze.
  Context {C : CapConfig}.
  Lemma freeze_circuit_inv w p s : freeze_circuit_unchecked w p = Ok s -> exists wv pv, freeze_build_unchecked w p new_circuit = Ok ((wv, pv), s).
  Proof.
    unfold freeze_circuit_unchecked. destruct (freeze_build_unchecked w p new_circuit) as [[[wv pv] s']| |]; try discriminate. intros [= ->]. eauto.
  Qed.
  Lemma freeze_circuit_ok w p s : freeze_circuit w p = Ok s -> freeze_circuit_unchecked w p = Ok s.
  Proof. unfold freeze_circuit. destruct (existsb _ _); [discriminate|]. apply map_err_ok. Qed.
  Definition freeze_depth (d : nat) (t : FreezeV) : Prop :=
    length (pl_path (fv_place t)) = d /\ Forall (fun x => length (pl_path (fz_place x)) = d) (fv_pairs t).
  Lemma pair_up_places (P : PlaceV -> Prop) : forall ins pls sks outs, Forall P pls -> Forall (fun x => P (fz_place x)) (pair_up ins pls sks outs).
  Proof.
    induction ins as [|i ins IH]; intros [|a pls] [|k sks] [|o outs] H; cbn [pair_up]; try constructor; inversion H; subst; auto.
  Qed.
  Lemma fwitness_depth rho w s v s' d : freeze_witness_var_new w s = Ok (v, s') -> freeze_lengths w (mkFPI f0 f0 (w128 0) (repeat f0 (length (fw_inputs w))) (repeat f0 (length (fw_inputs w)))) ->
    Forall (fun a => length (acc_path a) = d) (fw_accs w) -> freeze_depth d (vfreeze rho v).
  Proof.
    unfold freeze_witness_var_new. intros H (L1 & L2 & L3 & _) HF.
    apply mbind_ok in H. destruct H as (ins & ? & Hi & H). apply mbind_ok in H. destruct H as (accs & ? & Ha & H).
    apply mbind_ok in H. destruct H as (outs & ? & Ho & H). apply mbind_ok in H. destruct H as (sk & ? & _ & H).
    apply mbind_ok in H. destruct H as (keys & ? & Hk & H). injection H as <- <-.
    apply mmap_length in Hi as Li. apply mmap_length in Ho as Lo. apply mmap_length in Ha as La. apply mmap_length in Hk as Lk.
    apply (mmap_Forall2 acc_var_new (fun a v => length (pl_path (vacc rho v)) = length (acc_path a))) in Ha;
      [|clear; intros; eapply acc_var_depth; eauto].
    assert (HA : Forall (fun v => length (pl_path (vacc rho v)) = d) accs).
    { clear -Ha HF. induction Ha; constructor; inversion HF; subst; auto; congruence. }
    unfold vfreeze, freeze_of_lists, freeze_depth. cbn.
    destruct accs as [|a0 accs]; [cbn in La; lia|]. inversion HA as [|? ? HA0 HA1]; subst. cbn. split; auto.
    refine (pair_up_places (fun x => length (pl_path x) = _) _ _ _ _ _). rewrite Forall_map. exact HA1.
  Qed.
  Lemma freeze_lengths_any w p : freeze_lengths w p ->
    freeze_lengths w (mkFPI f0 f0 (w128 0) (repeat f0 (length (fw_inputs w))) (repeat f0 (length (fw_inputs w)))).
  Proof. intros (L1 & L2 & L3 & _). unfold freeze_lengths. cbn. rewrite !repeat_length. conjs; auto. Qed.
  Lemma freeze_circuit_sound w0 p0 s rho pub d : freeze_lengths w0 p0 -> Forall (fun a => length (acc_path a) = d) (fw_accs w0) ->
    freeze_circuit_unchecked w0 p0 = Ok s -> circuit_sat s rho pub = true ->
    exists q t, pub = freeze_scalars q /\ length (fq_nullifiers q) = length (fp_nullifiers p0) /\
      length (fq_commitments q) = length (fp_commitments p0) /\ freeze_depth d t /\ freeze_relation q t.
  Proof.
    intros HL HF Hs H. apply freeze_circuit_inv in Hs. destruct Hs as (wv & pv & Hb).
    apply circuit_sat_iff in H. destruct H as [Hsat Hpub]. exists (vfpub rho pv), (vfreeze rho wv).
    pose proof (freeze_pubs _ _ _ _ _ rho Hb) as HP. pose proof (freeze_build_inv _ _ _ _ _ _ Hb) as (s1 & s2 & H1 & H2 & _).
    destruct (fpub_lengths _ _ _ _ H2) as (M1 & M2). conjs.
    - congruence.
    - cbn. rewrite map_length. auto.
    - cbn. rewrite map_length. auto.
    - eapply fwitness_depth; eauto using freeze_lengths_any.
    - eapply freeze_build_sound; eauto.
  Qed.
  Lemma freeze_scalars_inj p q : length (fq_nullifiers p) = length (fq_nullifiers q) -> freeze_scalars p = freeze_scalars q -> p = q.
  Proof.
    destruct p as [a1 a2 a3 n1 c1], q as [b1 b2 b3 n2 c2]. unfold freeze_scalars. cbn [fq_root fq_native fq_fee fq_nullifiers fq_commitments app].
    intros L E. repeat (apply cons_inj in E; destruct E as [-> E]). apply app_inv_length in E; [|auto]. destruct E as [-> ->]. reflexivity.
  Qed.
  Lemma freeze_honest w p s : freeze_lengths w p -> freeze_circuit_unchecked w p = Ok s ->
    (check_circuit_satisfiability s (freeze_to_scalars p) = true <-> freeze_relation (freeze_pub_value p) (freeze_value w)).
  Proof.
    intros HL Hs. apply freeze_circuit_inv in Hs. destruct Hs as (wv & pv & Hb).
    unfold check_circuit_satisfiability. rewrite circuit_sat_iff. set (rho := env_of (wit s)).
    assert (Ha : agr rho s) by (intros v x Hv; unfold rho, env_of; apply nth_error_nth; exact Hv).
    pose proof Hb as Hb'. apply freeze_build_inv in Hb'. destruct Hb' as (s1 & s2 & H1 & H2 & H3).
    assert (Ha2 : agr rho s2) by (eapply ext_agr; [eapply extm_freeze_constraints; eauto|auto]).
    assert (Ha1 : agr rho s1) by (eapply ext_agr; [eapply extm_fpub; eauto|auto]).
    assert (Ha0 : agr rho new_circuit) by (eapply ext_agr; [eapply extm_fwitness; eauto|auto]).
    destruct (new_circuit_agr rho Ha0) as [Hc Hs0].
    destruct (g_fwitness w rho) as (_ & _ & G1). destruct (G1 I _ _ _ H1 Ha1 Hs0) as [Hs1 (_ & _ & V1)].
    destruct (g_fpub p rho) as (_ & _ & G2). destruct (G2 I _ _ _ H2 Ha2 Hs1) as [Hs2 V2].
    split.
    - intros [Hsat _]. rewrite <- V1, <- V2. eapply freeze_build_sound; eauto.
    - intros HR. split; [eapply freeze_build_complete; eauto|].
      rewrite (freeze_pubs _ _ _ _ _ rho Hb), V2. reflexivity.
  Qed.
  Lemma freeze_circuit_shape w1 p1 w2 p2 s1 : freeze_shape w1 p1 = freeze_shape w2 p2 -> freeze_circuit_unchecked w1 p1 = Ok s1 ->
    exists s2, freeze_circuit_unchecked w2 p2 = Ok s2 /\ sim s1 s2.
  Proof.
    intros HS H. apply freeze_circuit_inv in H. destruct H as (wv & pv & H).
    apply (shp_run _ (freeze_build_unchecked w2 p2)) in H; [|apply shp_freeze; auto]. destruct H as (s2 & H & HH).
    exists s2. split; auto. unfold freeze_circuit_unchecked. rewrite H. reflexivity.
  Qed.
  Lemma freeze_from_witness_lengths w p : freeze_from_witness w = Ok p -> freeze_lengths w p /\ (2 <= length (fw_inputs w))%nat.
  Proof.
    unfold freeze_from_witness. intros H. do 3 (apply bind_ok in H; destruct H as (? & ? & H)).
    repeat match goal with E : fail_if _ _ = Ok _ |- _ => apply fail_if_ok in E end.
    destruct (fw_inputs w) as [|i0 irest] eqn:Ei; [discriminate|]. destruct (fw_outputs w) as [|o0 orest] eqn:Eo; [discriminate|].
    do 2 (apply bind_ok in H; destruct H as (? & ? & H)).
    repeat match goal with E : fail_if _ _ = Ok _ |- _ => apply fail_if_ok in E end.
    destruct (fw_accs w) as [|a0 arest] eqn:Ea; [discriminate|]. apply bind_ok in H. destruct H as (fee & ? & H). injection H as <-.
    repeat match goal with E : negb _ = false |- _ => apply negb_false_iff, Nat.eqb_eq in E | E : (_ <=? _)%nat = false |- _ => apply Nat.leb_gt in E end.
    cbn [length] in *. unfold freeze_lengths. rewrite Ei, Eo, Ea. cbn [fp_nullifiers fp_commitments length map].
    rewrite !map_length, !combine_length. conjs; lia.
  Qed.
  Lemma freeze_preprocess_inv fk d n s0 : freeze_build_for_preprocessing fk d n = Ok s0 ->
    exists w0 p0, freeze_circuit_unchecked w0 p0 = Ok s0 /\ freeze_lengths w0 p0 /\ length (fw_inputs w0) = n /\ (2 <= n)%nat /\
      Forall (fun a => length (acc_path a) = d) (fw_accs w0) /\
      freeze_shape w0 p0 = (n, repeat d n, n, (n - 1)%nat, (n, n)).
  Proof.
    unfold freeze_build_for_preprocessing. intros H. apply bind_ok in H. destruct H as (w & Hw & H).
    apply bind_ok in H. destruct H as (p & Hp & H). apply map_err_ok in H. exists w, p.
    destruct (freeze_from_witness_lengths _ _ Hp) as [HL HN]. unfold freeze_witness_dummy in Hw.
    destruct n as [|n]; [discriminate|]. injection Hw as <-.
    change (ro_default :: repeat ro_default n) with (repeat ro_default (S n)) in *.
    match type of HL with context [?a :: repeat ?a n] => change (a :: repeat a n) with (repeat a (S n)) in * end. unfold freeze_shape. destruct HL as (L1 & L2 & L3 & L4 & L5).
    cbn [fw_inputs fw_outputs fw_accs fw_keys] in *. rewrite !repeat_length in *.
    conjs; auto.
    - unfold freeze_lengths. cbn [fw_inputs fw_outputs fw_accs fw_keys]. rewrite !repeat_length. conjs; auto.
    - apply Forall_forall. intros a Ha. apply repeat_spec in Ha. subst. cbn. apply repeat_length.
    - rewrite map_repeat, L4, L5. cbn [acc_path single_leaf_acc]. rewrite repeat_length. repeat f_equal. lia.
  Qed.
  Lemma freeze_key_sound fk d n s0 rho pub : freeze_build_for_preprocessing fk d n = Ok s0 -> circuit_sat s0 rho pub = true ->
    exists q t, pub = freeze_scalars q /\ length (fq_nullifiers q) = n /\ length (fq_commitments q) = n /\ freeze_depth d t /\ freeze_relation q t.
  Proof.
    intros H Hs. apply freeze_preprocess_inv in H. destruct H as (w0 & p0 & Hc & HL & LN & _ & HF & _).
    destruct (freeze_circuit_sound _ _ _ _ _ _ HL HF Hc Hs) as (q & t & E & M1 & M2 & HD & HR).
    destruct HL as (L1 & L2 & L3 & L4 & L5). exists q, t. conjs; auto; congruence.
  Qed.
  Lemma freeze_honest_circuit fk d n s0 w p : freeze_build_for_preprocessing fk d n = Ok s0 -> freeze_from_witness w = Ok p ->
    length (fw_inputs w) = n -> Forall (fun a => length (acc_path a) = d) (fw_accs w) -> exists s, freeze_circuit_unchecked w p = Ok s /\ sim s0 s.
  Proof.
    intros H Hp HN HD. apply freeze_preprocess_inv in H. destruct H as (w0 & p0 & Hc & _ & _ & _ & _ & HS).
    apply (freeze_circuit_shape w0 p0); auto. rewrite HS. destruct (freeze_from_witness_lengths _ _ Hp) as [(L1 & L2 & L3 & L4 & L5) _].
    unfold freeze_shape. rewrite L1, L4, L5, HN. repeat f_equal; try lia.
    rewrite <- HN, <- L2. clear -HD. induction HD; cbn; congruence.
  Qed.
End Freeze.

(** ** Values exposed by the circuit *)
Section Exposed.
  Context {C : CapConfig}.
  Lemma honest_agr s : agr (env_of (wit s)) s.
  Proof. intros v x Hv. unfold env_of. apply nth_error_nth. exact Hv. Qed.
  Lemma transfer_exposed w p s : transfer_circuit w p = Ok s -> map (env_of (wit s)) (pubs s) = transfer_to_scalars p.
  Proof.
    intros Hs. apply transfer_circuit_inv in Hs. destruct Hs as (wv & pv & Hb). set (rho := env_of (wit s)).
    assert (Ha : agr rho s) by apply honest_agr.
    pose proof Hb as Hb'. apply transfer_build_inv in Hb'. destruct Hb' as (s1 & s2 & H1 & H2 & H3).
    assert (Ha2 : agr rho s2) by (eapply ext_agr; [eapply extm_constraints; eauto|auto]).
    assert (Ha1 : agr rho s1) by (eapply ext_agr; [eapply extm_tpub; eauto|auto]).
    assert (Ha0 : agr rho new_circuit) by (eapply ext_agr; [eapply extm_twitness; eauto|auto]).
    destruct (new_circuit_agr rho Ha0) as [Hc Hs0].
    destruct (g_twitness w rho) as (_ & _ & G1). destruct (G1 I _ _ _ H1 Ha1 Hs0) as [Hs1 V1].
    destruct (g_tpub p rho) as (_ & _ & G2). destruct (G2 I _ _ _ H2 Ha2 Hs1) as [Hs2 V2].
    rewrite (transfer_pubs _ _ _ _ _ rho Hb), V2. reflexivity.
  Qed.
  Lemma mint_exposed w p s : mint_circuit w p = Ok s -> map (env_of (wit s)) (pubs s) = mint_to_scalars p.
  Proof.
    intros Hs. apply mint_circuit_inv in Hs. destruct Hs as (wv & pv & Hb). set (rho := env_of (wit s)).
    assert (Ha : agr rho s) by apply honest_agr.
    pose proof Hb as Hb'. apply mint_build_inv in Hb'. destruct Hb' as (s1 & s2 & H1 & H2 & H3).
    assert (Ha2 : agr rho s2) by (eapply ext_agr; [eapply extm_mint_constraints; eauto|auto]).
    assert (Ha1 : agr rho s1) by (eapply ext_agr; [eapply extm_mpub; eauto|auto]).
    assert (Ha0 : agr rho new_circuit) by (eapply ext_agr; [eapply extm_mwitness; eauto|auto]).
    destruct (new_circuit_agr rho Ha0) as [Hc Hs0].
    destruct (g_mwitness w rho) as (_ & _ & G1). destruct (G1 I _ _ _ H1 Ha1 Hs0) as [Hs1 V1].
    destruct (g_mpub p rho) as (_ & _ & G2). destruct (G2 I _ _ _ H2 Ha2 Hs1) as [Hs2 V2].
    rewrite (mint_pubs _ _ _ _ _ rho Hb), V2. reflexivity.
  Qed.
  Lemma freeze_exposed w p s : freeze_circuit_unchecked w p = Ok s -> map (env_of (wit s)) (pubs s) = freeze_to_scalars p.
  Proof.
    intros Hs. apply freeze_circuit_inv in Hs. destruct Hs as (wv & pv & Hb). set (rho := env_of (wit s)).
    assert (Ha : agr rho s) by apply honest_agr.
    pose proof Hb as Hb'. apply freeze_build_inv in Hb'. destruct Hb' as (s1 & s2 & H1 & H2 & H3).
    assert (Ha2 : agr rho s2) by (eapply ext_agr; [eapply extm_freeze_constraints; eauto|auto]).
    assert (Ha1 : agr rho s1) by (eapply ext_agr; [eapply extm_fpub; eauto|auto]).
    assert (Ha0 : agr rho new_circuit) by (eapply ext_agr; [eapply extm_fwitness; eauto|auto]).
    destruct (new_circuit_agr rho Ha0) as [Hc Hs0].
    destruct (g_fwitness w rho) as (_ & _ & G1). destruct (G1 I _ _ _ H1 Ha1 Hs0) as [Hs1 (_ & _ & V1)].
    destruct (g_fpub p rho) as (_ & _ & G2). destruct (G2 I _ _ _ H2 Ha2 Hs1) as [Hs2 V2].
    rewrite (freeze_pubs _ _ _ _ _ rho Hb), V2. reflexivity.
  Qed.
  (** the commitment gadget on the variables of a record opening *)
  Lemma commitment_exposed r s0 v s1 c s2 :
    ro_var_new r s0 = Ok (v, s1) -> compute_record_commitment v s1 = Ok (c, s2) ->
    sat (env_of (wit s2)) s0 -> sat (env_of (wit s2)) s2 /\ env_of (wit s2) c = derive_record_commitment r.
  Proof.
    intros H1 H2 Hs0. set (rho := env_of (wit s2)) in *. assert (Ha : agr rho s2) by apply honest_agr.
    assert (Ha1 : agr rho s1) by (eapply ext_agr; [eapply extm_commitment; eauto|auto]).
    destruct (g_ro_new r rho) as (_ & _ & G1). destruct (G1 I _ _ _ H1 Ha1 Hs0) as [Hs1 V1].
    destruct (g_commitment v rho) as (_ & _ & G2). destruct (G2 I _ _ _ H2 Ha Hs1) as [Hs2 V2]. split; auto.
    cbv beta in V2. rewrite V2, V1. apply commitment_of_ro_value.
  Qed.
End Exposed.
