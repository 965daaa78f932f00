(** src/utils/mod.rs 79-115 ([compute_universal_param_size]) and the shapes for which the circuits can be built.

    The number of gates that the external crate uses for a gadget, and the evaluation domain it chooses for a circuit
    ([PlonkCircuit::eval_domain_size]), are not modelled: [dom] stands for it, and the theorems assume of it only that it
    depends on the gates and not on the values ([sim], as for preprocessing). *)
From Verif Require Import Base Config Structs Keys Utils Memo Plonk Witness Circuits Relation CircuitLogic CodecProofs UtilsProofs PolicyProofs
  MemoProofs CircuitShape CircuitTheorems CircuitTotal CircuitFacts Snark Notes NoteProofs.

Section ParamSize.
  Context {C : CapConfig}.

  (** src/structs.rs 48-57 *)
  Inductive NoteType := NTransfer | NMint | NFreeze.

  (** utils/mod.rs 88-115; [fk] is the freezer key generated from the fixed seed.  The addition of 2 cannot overflow. *)
  Definition compute_universal_param_size (dom : cs -> res nat) (fk : FreezerKeyPair) (t : NoteType)
      (num_inputs num_outputs tree_depth : nat) : res nat :=
    let* s := match t with
              | NTransfer => transfer_build_for_preprocessing num_inputs num_outputs tree_depth
              | NMint => mint_build_for_preprocessing tree_depth
              | NFreeze => freeze_build_for_preprocessing fk tree_depth num_inputs
              end in
    let* n := map_err (dom s) FailedSnark in
    Ok (n + 2)%nat.

  Context (L : CapLaws C).
  Lemma zeros_sum (l : list Amount) : (forall a, In a l -> zv a = 0) -> exists s, safe_sum_amount l = Some s /\ zv s = 0.
  Proof.
    intros H. rewrite safe_sum_spec. assert (E : zsum (map zv l) = 0).
    { induction l as [|a l IH]; [reflexivity|]. cbn [map]. unfold zsum in *. cbn [fold_right]. rewrite IH by (intros; apply H; right; auto).
      rewrite (H a) by (left; auto). reflexivity. }
    rewrite E. cbn. eexists. split; [reflexivity|]. reflexivity.
  Qed.
  Lemma transfer_dummy_public n_in n_out d w : transfer_witness_dummy (Datatypes.S n_in) (Datatypes.S n_out) d user_kp_default = Ok w ->
    exists p, transfer_from_witness w (w64 0) = Ok p.
  Proof.
    intros H. unfold transfer_witness_dummy in H. destruct cred_dummy_unexpired as [cred|e|]; try discriminate H. injection H as <-.
    unfold transfer_from_witness.
    set (ro := mkRO (w128 0) asset_def_native user_pub_key_default Unfrozen f0).
    set (sec := mkIS user_kp_default ro (mkAcc (w64 0) (repeat node_default d) f0) cred).
    cbn [tw_inputs tw_outputs tw_rand]. cbn [repeat hd_error ok_or bind]. cbv zeta.
    change (sec :: repeat sec n_in) with (repeat sec (Datatypes.S n_in)). change (ro_default :: repeat ro_default n_out) with (repeat ro_default (Datatypes.S n_out)).
    destruct (zeros_sum (map (fun s => amount (is_ro s)) (filter (fun s => negb (is_dummy_def (asset_def (is_ro s)))) (repeat sec (Datatypes.S n_in))))) as (si & E1 & Z1).
    { intros a Ha. apply in_map_iff in Ha. destruct Ha as (s & <- & Hs). apply filter_In in Hs. destruct Hs as [Hs _]. apply repeat_spec in Hs. subst s. reflexivity. }
    destruct (zeros_sum (map amount (repeat ro_default (Datatypes.S n_out)))) as (so & E2 & Z2).
    { intros a Ha. apply in_map_iff in Ha. destruct Ha as (s & <- & Hs). apply repeat_spec in Hs. subst s. reflexivity. }
    rewrite E1, E2. cbn [ok_or bind]. rewrite Z1, Z2. cbn [Z.leb Z.compare bind].
    assert (EM : exists m, memo_for_transfer_note (map is_ro (repeat sec (Datatypes.S n_in))) (repeat ro_default (Datatypes.S n_out)) (map is_cred (repeat sec (Datatypes.S n_in))) (sz 0) = Ok m).
    { rewrite !CircuitTheorems.map_repeat. change (is_ro sec) with ro; change (is_cred sec) with cred. unfold memo_for_transfer_note.
      assert (EG : get_asset_def_in_transfer_txn (repeat ro (Datatypes.S n_in)) = Ok asset_def_native).
      { cbn [repeat get_asset_def_in_transfer_txn]. change (asset_def ro) with asset_def_native. rewrite (proj1 (proj2 (proj2 (proj2 (asset_definition_new_spec L))))). cbn [negb].
        destruct (find _ _) as [r|] eqn:EF; [|reflexivity]. apply find_some in EF. destruct EF as [EF _]. apply repeat_spec in EF. subst r. reflexivity. }
      rewrite EG. cbn [bind]. rewrite (proj2 (proj2 (proj2 (proj2 (proj2 (proj2 (asset_definition_new_spec L))))))).
      unfold memo_transfer_amount.
      destruct (zeros_sum (map amount (filter (fun r => negb (is_dummy_def (asset_def r))) (skipn 1 (repeat ro (Datatypes.S n_in)))))) as (sm & E3 & Z3).
      { intros a Ha. apply in_map_iff in Ha. destruct Ha as (s & <- & Hs). apply filter_In in Hs. destruct Hs as [Hs _]. cbn [skipn repeat] in Hs. apply repeat_spec in Hs. subst s. reflexivity. }
      rewrite E3. cbn [ok_or bind]. change (viewer_pk (policy asset_def_native)) with pt_id.
      rewrite (proj2 (point_eqb_spec L pt_id pt_id) eq_refl). cbn [negb andb].
      unfold memo_dummy_for_transfer_note, usize_sub. rewrite !repeat_length. cbn [Nat.leb bind]. eauto. }
    destruct EM as (m & ->). cbn [bind]. eauto.
  Qed.

  Lemma transfer_build_iff n_in n_out d :
    (exists s, transfer_build_for_preprocessing n_in n_out d = Ok s) <-> (1 <= n_in /\ 1 <= n_out)%nat.
  Proof.
    split.
    - intros (s & H). unfold transfer_build_for_preprocessing in H. apply bind_ok in H. destruct H as (w & Hw & H).
      apply bind_ok in H. destruct H as (p & Hp & _). unfold transfer_witness_dummy in Hw.
      destruct cred_dummy_unexpired; try discriminate Hw. injection Hw as <-. unfold transfer_from_witness in Hp.
      cbn [tw_inputs tw_outputs] in Hp. apply bind_ok in Hp. destruct Hp as (s0 & H1 & Hp). apply bind_ok in Hp. destruct Hp as (o0 & H2 & _).
      destruct n_in; [discriminate H1|]. destruct n_out; [discriminate H2|]. lia.
    - intros [H1 H2]. destruct n_in as [|n_in]; [lia|]. destruct n_out as [|n_out]; [lia|].
      unfold transfer_build_for_preprocessing.
      assert (EW : exists w, transfer_witness_dummy (Datatypes.S n_in) (Datatypes.S n_out) d user_kp_default = Ok w /\ length (tw_inputs w) = Datatypes.S n_in /\
         length (tw_outputs w) = Datatypes.S n_out /\ Forall (fun i => length (cr_attrs (is_cred i)) = ATTRS_LEN) (tw_inputs w)).
      { unfold transfer_witness_dummy. destruct cred_dummy_unexpired as [cred|e|] eqn:Ec; try discriminate Ec.
        eexists. split; [reflexivity|]. cbn [tw_inputs tw_outputs]. rewrite !repeat_length. conjs; auto. apply Forall_forall.
        intros i Hi. apply repeat_spec in Hi. subst i. cbn [is_cred]. injection Ec as <-. reflexivity. }
      destruct EW as (w & Hw & W1 & W2 & W3). rewrite Hw. cbn [bind]. destruct (transfer_dummy_public _ _ _ _ Hw) as (p & Hp). rewrite Hp. cbn [bind].
      destruct (transfer_from_witness_lengths L _ _ _ Hp) as [_ HM].
      destruct (transfer_can_build w p) as (s & E); auto.
      + intros E. rewrite E in W1. discriminate W1.
      + intros E. rewrite E in W2. discriminate W2.
      + exists s. rewrite E. reflexivity.
  Qed.
  Lemma mint_build_total d : exists s, mint_build_for_preprocessing d = Ok s.
  Proof.
    unfold mint_build_for_preprocessing. cbv zeta.
    assert (EP : exists p, mint_from_witness (mint_witness_dummy d user_kp_default) = Ok p).
    { unfold mint_from_witness, mint_witness_dummy. cbn [mw_fee_ro mw_chg_ro amount asset_def].
      rewrite (proj1 (proj2 (proj2 (proj2 (asset_definition_new_spec L))))). cbn [negb].
      assert (E : amount_ltb (w128 0) (w128 0) = false) by reflexivity. rewrite E. cbn [fail_if bind].
      assert (E2 : exists f, amount_sub (w128 0) (w128 0) = Ok f) by (unfold amount_sub; cbn; eauto). destruct E2 as (f & ->). cbn [bind]. eauto. }
    destruct EP as (p & Hp). rewrite Hp. cbn [bind]. destruct (mint_can_build (mint_witness_dummy d user_kp_default) p) as (s & E).
    - apply (mint_from_witness_memo _ _ Hp).
    - exists s. rewrite E. reflexivity.
  Qed.
  Lemma freeze_build_iff fk d n : (exists s, freeze_build_for_preprocessing fk d n = Ok s) <-> (2 <= n)%nat.
  Proof.
    split.
    - intros (s & H). apply freeze_preprocess_inv in H. destruct H as (w0 & p0 & _ & _ & _ & H & _). exact H.
    - intros H. destruct n as [|n]; [lia|]. unfold freeze_build_for_preprocessing. cbn [freeze_witness_dummy bind].
      set (w := mkFW _ _ _ _ _).
      assert (EP : exists p, freeze_from_witness w = Ok p).
      { unfold freeze_from_witness. subst w. cbn [fw_inputs fw_outputs fw_accs fw_keys fw_fee_kp].
        change (ro_default :: repeat ro_default n) with (repeat ro_default (Datatypes.S n)). rewrite !repeat_length, Nat.eqb_refl.
        rewrite (proj2 (Nat.leb_gt _ _)) by lia. rewrite (proj2 (Nat.eqb_eq (Datatypes.S n) (n + 1))) by lia. cbn [fail_if bind negb repeat].
        rewrite (repeat_length _ n : length (repeat _ n) = n) || idtac.
        assert (E : amount_ltb (amount ro_default) (amount ro_default) = false) by reflexivity. rewrite E. cbn [fail_if bind].
        assert (E2 : exists f, amount_sub (amount ro_default) (amount ro_default) = Ok f) by (unfold amount_sub; cbn; eauto). destruct E2 as (f & ->). cbn [bind]. eauto. }
      destruct EP as (p & Hp). rewrite Hp. cbn [bind]. destruct (freeze_from_witness_lengths _ _ Hp) as [(K1 & K2 & K3 & K4 & K5) _].
      destruct (freeze_can_build w p) as (s & E); try (subst w; discriminate).
      + intros E. rewrite E in K4. subst w. discriminate K4.
      + exists s. rewrite E. reflexivity.
  Qed.
End ParamSize.

Section Sizes.
  Context {C : CapConfig} (L : CapLaws C) (dom : cs -> res nat) (fk : FreezerKeyPair).
  Hypothesis dom_shape : forall s s', sim s s' -> dom s = dom s'.

  Lemma size_inv t n_in n_out d k : compute_universal_param_size dom fk t n_in n_out d = Ok k ->
    exists s m, match t with NTransfer => transfer_build_for_preprocessing n_in n_out d | NMint => mint_build_for_preprocessing d
      | NFreeze => freeze_build_for_preprocessing fk d n_in end = Ok s /\ dom s = Ok m /\ k = (m + 2)%nat.
  Proof.
    unfold compute_universal_param_size. intros H. apply bind_ok in H. destruct H as (s & Hs & H). apply bind_ok in H. destruct H as (m & Hm & H).
    injection H as <-. exists s, m. conjs; auto. apply map_err_ok in Hm. exact Hm.
  Qed.
  Lemma size_transfer n_in n_out d k w vu p : compute_universal_param_size dom fk NTransfer n_in n_out d = Ok k ->
    transfer_from_witness w vu = Ok p -> length (tw_inputs w) = n_in -> length (tw_outputs w) = n_out ->
    (forall i, In i (tw_inputs w) -> length (acc_path (is_acc i)) = d /\ length (cr_attrs (is_cred i)) = ATTRS_LEN) ->
    exists s m, transfer_circuit w p = Ok s /\ dom s = Ok m /\ k = (m + 2)%nat.
  Proof.
    intros H Hp LI LO HI. destruct (size_inv _ _ _ _ _ H) as (s0 & m & H0 & Hm & E).
    destruct (transfer_key_circuit L _ _ _ _ _ _ _ H0 Hp LI LO HI) as (s & Hs & S1 & S2 & S3). exists s, m. conjs; auto.
    rewrite <- Hm. symmetry. apply dom_shape. split; auto.
  Qed.
  Lemma size_mint n_in n_out d k w p : compute_universal_param_size dom fk NMint n_in n_out d = Ok k ->
    mint_from_witness w = Ok p -> length (acc_path (mw_acc w)) = d ->
    exists s m, mint_circuit w p = Ok s /\ dom s = Ok m /\ k = (m + 2)%nat.
  Proof.
    intros H Hp HD. destruct (size_inv _ _ _ _ _ H) as (s0 & m & H0 & Hm & E).
    destruct (mint_key_circuit _ _ _ _ H0 Hp HD) as (s & Hs & S1 & S2 & S3). exists s, m. conjs; auto.
    rewrite <- Hm. symmetry. apply dom_shape. split; auto.
  Qed.
  Lemma size_freeze n_in n_out d k w p : compute_universal_param_size dom fk NFreeze n_in n_out d = Ok k ->
    freeze_from_witness w = Ok p -> length (fw_inputs w) = n_in -> (forall a, In a (fw_accs w) -> length (acc_path a) = d) ->
    exists s m, freeze_circuit_unchecked w p = Ok s /\ dom s = Ok m /\ k = (m + 2)%nat.
  Proof.
    intros H Hp HN HD. destruct (size_inv _ _ _ _ _ H) as (s0 & m & H0 & Hm & E).
    destruct (freeze_key_circuit _ _ _ _ _ _ H0 Hp HN HD) as (s & Hs & S1 & S2 & S3). exists s, m. conjs; auto.
    rewrite <- Hm. symmetry. apply dom_shape. split; auto.
  Qed.
End Sizes.

Section Returns.
  Context {C : CapConfig} (L : CapLaws C).
  (** which shapes have a size, if the crate finds a domain for every circuit *)
  Lemma size_iff (dom : cs -> res nat) fk t n_in n_out d : (forall s, exists m, dom s = Ok m) ->
    (exists k, compute_universal_param_size dom fk t n_in n_out d = Ok k) <->
    match t with NTransfer => (1 <= n_in /\ 1 <= n_out)%nat | NMint => True | NFreeze => (2 <= n_in)%nat end.
  Proof.
    intros HD.
    assert (G : (exists k, compute_universal_param_size dom fk t n_in n_out d = Ok k) <->
      exists s, match t with NTransfer => transfer_build_for_preprocessing n_in n_out d | NMint => mint_build_for_preprocessing d
      | NFreeze => freeze_build_for_preprocessing fk d n_in end = Ok s).
    { split; [intros (k & H); destruct (size_inv _ _ _ _ _ _ _ H) as (s & m & Hs & _); eauto|].
      intros (s & Hs). unfold compute_universal_param_size. rewrite Hs. cbn [bind]. destruct (HD s) as (m & ->). cbn [map_err bind]. eauto. }
    rewrite G. destruct t; [apply (transfer_build_iff L)|split; [trivial|intros _; apply (mint_build_total L)]|apply freeze_build_iff].
  Qed.
  (** the freezer key used for the dummy circuit does not matter, nor do the arguments that are documented as ignored *)
  Lemma size_key (dom : cs -> res nat) (HD : forall s s', sim s s' -> dom s = dom s') fk fk' t n_in n_out d : (2 <= n_in)%nat ->
    compute_universal_param_size dom fk t n_in n_out d = compute_universal_param_size dom fk' t n_in n_out d.
  Proof.
    intros Hn. destruct t; [reflexivity|reflexivity|]. unfold compute_universal_param_size.
    destruct (proj2 (freeze_build_iff fk d n_in) Hn) as (s & E). destruct (proj2 (freeze_build_iff fk' d n_in) Hn) as (s' & E').
    rewrite E, E'. cbn [bind]. f_equal. assert (S : sim s s'); [|rewrite (HD _ _ S); reflexivity].
    apply freeze_preprocess_inv in E, E'. destruct E as (w & p & Hc & _ & _ & _ & _ & HS), E' as (w' & p' & Hc' & _ & _ & _ & _ & HS').
    destruct (freeze_circuit_shape w p w' p' s) as (s2 & E2 & S2); [congruence|exact Hc|]. congruence.
  Qed.

  Context {S : Snark C}.
  (** keys for every shape, if the parameters suffice *)
  Lemma preprocess_iff g fk n_in n_out d : (forall s, exists k, snark_preprocess g s = Ok k) ->
    ((exists k, transfer_preprocess g n_in n_out d = Ok k) <-> (1 <= n_in /\ 1 <= n_out)%nat) /\
    (exists k, mint_preprocess g d = Ok k) /\
    ((exists k, freeze_preprocess g fk n_in d = Ok k) <-> (2 <= n_in)%nat).
  Proof.
    intros HP. conjs.
    - rewrite <- (transfer_build_iff L n_in n_out d). unfold transfer_preprocess. split.
      + intros (k & H). apply bind_ok in H. destruct H as (s & Hs & _). eauto.
      + intros (s & Hs). rewrite Hs. cbn [bind]. destruct (HP s) as (k & ->). cbn [map_err bind]. eauto.
    - destruct (mint_build_total L d) as (s & Hs). unfold mint_preprocess. rewrite Hs. cbn [bind]. destruct (HP s) as (k & ->). cbn [map_err bind]. eauto.
    - rewrite <- (freeze_build_iff fk d n_in). unfold freeze_preprocess. split.
      + intros (k & H). apply bind_ok in H. destruct H as (s & Hs & _). eauto.
      + intros (s & Hs). rewrite Hs. cbn [bind]. destruct (HP s) as (k & ->). cbn [map_err bind]. eauto.
  Qed.
End Returns.

Section Refused.
  Context {C : CapConfig} (L : CapLaws C).
  Lemma size_refused (dom : cs -> res nat) fk n d :
    compute_universal_param_size dom fk NTransfer 0 n d = Err InvalidParameter /\
    compute_universal_param_size dom fk NTransfer n 0 d = Err InvalidParameter /\
    compute_universal_param_size dom fk NFreeze 0 n d = Panic /\
    compute_universal_param_size dom fk NFreeze 1 n d = Err InvalidParameter.
  Proof.
    conjs; [reflexivity| |reflexivity|reflexivity].
    unfold compute_universal_param_size, transfer_build_for_preprocessing, transfer_witness_dummy.
    destruct cred_dummy_unexpired as [cred|e|] eqn:Ec; try discriminate Ec. cbn [bind]. destruct n; reflexivity.
  Qed.
End Refused.
