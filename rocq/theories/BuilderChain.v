(** Ordinary chains of calls make a builder that is ready, and so do the random builders. *)
From Verif Require Import Base Config Structs Keys Utils Memo Plonk Witness Circuits Relation CodecProofs PolicyProofs UtilsProofs Snark
  Notes NoteProofs Serde Ledger Wallet WalletProofs WalletPay Builder BuilderSpec BuilderLive BuilderProofs.

Section BuilderChain.
  Context {C : CapConfig} {S : Snark C} {K : @RoCodec C} {E : MemoSer C} (L : CapLaws C).

  Definition cred_slot (e : u64) (o : option (option ExpirableCredential)) : Prop :=
    exists c, o = Some (Some c) /\ length (cr_attrs c) = 8%nat /\ cr_expiry c = e /\ forall vu : u64, zv vu <= zv e -> cred_verify c vu = Ok tt.
  Record chain_inv (dm : bool) (e : option u64) (b : TransferBuilder) : Prop := {
    ci_first : forall r, nth_error (tb_ins b) 0 = Some r -> asset_def r = asset_def_native;
    ci_rest : forall i r, nth_error (tb_ins b) (Datatypes.S i) = Some r ->
      asset_def r = tb_def b \/ (dm = true /\ asset_def r = asset_def_dummy /\ zv (amount r) = 0);
    ci_outs : forall o, In o (tb_outs b) -> asset_def o = tb_def b;
    ci_chg : tb_outs b <> [] -> asset_def (tb_chg b) = asset_def_native;
    ci_flags : forall i r, nth_error (tb_ins b) i = Some r -> freeze_flag r = Unfrozen;
    ci_creds : forall x, e = Some x -> tb_ins b <> [] /\ (cred_pk (policy (tb_def b)) <> pt_id ->
      forall i r, nth_error (tb_ins b) (Datatypes.S i) = Some r -> asset_def r = tb_def b -> cred_slot x (nth_error (tb_creds b) (Datatypes.S i)))
  }.

  Lemma reveal_agrees a p m p' : map_reveal a (reveal_map p) = Ok m -> policy_reveal a p = Ok p' -> p' = set_reveal_map_for_test m p.
  Proof.
    unfold policy_reveal. destruct a; cbn [map_reveal]; unfold reveal_user_address, reveal_amount, reveal_blinding_factor, reveal_ith_attribute, reveal_all_attributes.
    - intros [= <-]. destruct (negb _); cbn [unwrap]; [discriminate|]. intros [= <-]. reflexivity.
    - intros [= <-]. destruct (negb _); cbn [unwrap]; [discriminate|]. intros [= <-]. reflexivity.
    - intros [= <-]. destruct (negb _); cbn [unwrap]; [discriminate|]. intros [= <-]. reflexivity.
    - intros H. destruct (negb _); cbn [unwrap]; [discriminate|]. destruct (negb _); cbn [unwrap]; [discriminate|].
      destruct (rm_reveal_ith_id_attribute i (reveal_map p)) as [m'| |]; cbn [unwrap bind] in *; try discriminate. injection H as <-. intros [= <-]. reflexivity.
    - intros [= <-]. destruct (negb _); cbn [unwrap]; [discriminate|]. destruct (negb _); cbn [unwrap]; [discriminate|]. intros [= <-]. reflexivity.
  Qed.
  Lemma dummy_not_revealed a p' : policy_reveal a policy_default = Ok p' -> False.
  Proof.
    unfold policy_reveal. assert (V : is_viewer_pub_key_set policy_default = false).
    { unfold is_viewer_pub_key_set, policy_default. cbn [viewer_pk]. apply negb_false_iff. apply (point_eqb_spec L). reflexivity. }
    destruct a; unfold reveal_user_address, reveal_amount, reveal_blinding_factor, reveal_ith_attribute, reveal_all_attributes; rewrite V; discriminate.
  Qed.

  (** Changing the policy of the definition and of all records but the first *)
  Lemma policy_changed dm e b b' nn p' ins outs accs root : chain_inv dm e b -> tb_asset b = Some nn ->
    b' = tb_set_accs (tb_set_outs (tb_set_ins (tb_set_asset b (Some (nn_set_policy p' nn))) ins) outs) accs root ->
    cred_pk p' = cred_pk (policy (nn_def nn)) ->
    length ins = length (tb_ins b) -> (forall r, nth_error ins 0 = Some r -> nth_error (tb_ins b) 0 = Some r) ->
    (forall i r, nth_error ins (Datatypes.S i) = Some r -> exists r0, nth_error (tb_ins b) (Datatypes.S i) = Some r0 /\ asset_def r0 = nn_def nn /\ r = ro_set_policy p' r0) ->
    length outs = length (tb_outs b) ->
    (forall i o, nth_error outs i = Some o -> exists o0, nth_error (tb_outs b) i = Some o0 /\ (asset_def o0 = nn_def nn -> o = ro_set_policy p' o0)) ->
    chain_inv dm e b'.
  Proof.
    intros [c1 c2 c3 c4 c5 c6] Hn -> Hp Li H0 Hi Lo Ho.
    assert (Dd : tb_def b = nn_def nn) by (unfold tb_def; rewrite Hn; reflexivity). rewrite Dd in *.
    constructor; unfold tb_def; cbn [tb_set_accs tb_set_outs tb_set_ins tb_set_asset tb_ins tb_outs tb_chg tb_creds tb_asset nn_set_policy nn_def code policy].
    - intros r Hr. apply c1, H0, Hr.
    - intros i r Hr. destruct (Hi i r Hr) as (r0 & G1 & G2 & ->). left. unfold ro_set_policy. cbn [ro_set_def asset_def]. rewrite G2. reflexivity.
    - intros o G. apply In_nth_error in G. destruct G as (i & G). destruct (Ho i o G) as (o0 & G1 & G2). pose proof (c3 o0 (nth_error_In _ _ G1)) as D.
      rewrite (G2 D). unfold ro_set_policy. cbn [ro_set_def asset_def]. rewrite D. reflexivity.
    - intros G. apply c4. intros Q. rewrite Q in Lo. destruct outs; [contradiction|discriminate].
    - intros [|i] r Hr; [exact (c5 0%nat r (H0 r Hr))|]. destruct (Hi i r Hr) as (r0 & G1 & G2 & ->). exact (c5 _ _ G1).
    - intros x Hx. destruct (c6 x Hx) as [C1 C2]. split; [intros Q; rewrite Q in Li; destruct (tb_ins b); [contradiction|discriminate]|].
      rewrite Hp. intros Hc i r Hr Hd. destruct (Hi i r Hr) as (r0 & G1 & G2 & ->). exact (C2 Hc i r0 G1 G2).
  Qed.

  Lemma input_changed dm dm' e b b' i f : chain_inv dm e b -> shape b -> (dm = true -> dm' = true) ->
    tb_change_input i f b = Ok b' -> (forall r, pub_key (f r) = pub_key r) -> (forall r, freeze_flag (f r) = freeze_flag r) ->
    (i = 0%nat -> forall r, asset_def (f r) = asset_def r) ->
    (i <> 0%nat -> forall r, asset_def r = tb_def b \/ (dm = true /\ asset_def r = asset_def_dummy /\ zv (amount r) = 0) ->
       asset_def (f r) = tb_def b /\ asset_def r = tb_def b \/ (dm' = true /\ asset_def (f r) = asset_def_dummy /\ zv (amount (f r)) = 0)) ->
    chain_inv dm' e b'.
  Proof.
    intros [c1 c2 c3 c4 c5 c6] Sh Hdm H F1 F2 F3 F4. apply change_input_spec in H; [|exact Sh|exact F1].
    destruct H as (_ & _ & _ & E1 & E2 & E3 & E4 & r0 & R0 & E5).
    assert (Hi : (i < length (tb_ins b))%nat) by (apply nth_error_Some; congruence).
    assert (Dd : tb_def b' = tb_def b) by (unfold tb_def; rewrite E2; reflexivity).
    assert (N : forall j r, nth_error (tb_ins b') j = Some r -> (j = i /\ r = f r0) \/ (j <> i /\ nth_error (tb_ins b) j = Some r)).
    { intros j r Hr. rewrite E5, list_set_nth in Hr by exact Hi. destruct (Nat.eqb_spec j i); [left; split; [assumption|congruence]|right; auto]. }
    constructor; rewrite ?Dd, ?E1, ?E3, ?E4.
    - intros r Hr. destruct (N _ _ Hr) as [[<- ->]|[_ G]]; [rewrite F3 by reflexivity; apply c1, R0|apply c1, G].
    - intros j r Hr. destruct (N _ _ Hr) as [[<- ->]|[_ G]].
      + destruct (F4 ltac:(discriminate) r0 (c2 _ _ R0)) as [[G _]|G]; auto.
      + destruct (c2 _ _ G) as [Q|(Q1 & Q2)]; auto.
    - exact c3.
    - exact c4.
    - intros j r Hr. destruct (N _ _ Hr) as [[_ ->]|[_ G]]; [rewrite F2; exact (c5 _ _ R0)|exact (c5 _ _ G)].
    - intros x Hx. destruct (c6 x Hx) as [C1 C2]. split.
      + intros Q. apply (f_equal (@length _)) in Q. rewrite E5, list_set_length in Q. destruct (tb_ins b); [contradiction|discriminate].
      + intros Hc j r Hr Hd. destruct (N _ _ Hr) as [[<- ->]|[_ G]]; [|exact (C2 Hc _ _ G Hd)].
        destruct (F4 ltac:(discriminate) r0 (c2 _ _ R0)) as [[G1 G2]|(_ & G & _)]; [exact (C2 Hc _ _ R0 G2)|].
        exfalso. apply Hc. rewrite <- Hd, G. reflexivity.
  Qed.

  Definition call_plain (dm : bool) (c : BuilderCall) : Prop :=
    match c with
    | CInputFlag _ _ | CFeeInputDef _ | CInputDef _ _ | CFeeChangeDef _ | COutputDef _ _ => False
    | CRevealThreshold _ | CRevealMap _ | CInputAmount _ _ => dm = false
    | _ => True
    end.
  Definition call_dm (dm : bool) (c : BuilderCall) : bool := match c with CDummyInput _ => true | _ => dm end.
  Definition call_exp (e : option u64) (c : BuilderCall) : option u64 := match c with CInputCreds _ x => Some x | _ => e end.
  Lemma plain_cons dm c l : plain dm (c :: l) <-> call_plain dm c /\ plain (call_dm dm c) l.
  Proof. destruct c; cbn [plain call_plain call_dm]; tauto. Qed.
  Lemma expiry_cons e c l : chain_expiry e (c :: l) = chain_expiry (call_exp e c) l.
  Proof. destruct c; reflexivity. Qed.

  Lemma changed_policy_inv e b b' f : chain_inv false e b -> shape b -> (forall p, cred_pk (f p) = cred_pk p) ->
    tb_change_policy f b = Ok b' -> chain_inv false e b'.
  Proof.
    intros CI Sh Hf H. unfold tb_change_policy in H. destruct (tb_asset b) as [nn|] eqn:EA; [|discriminate]. cbv zeta in H.
    set (g := fun r => ro_set_policy (f (policy (asset_def r))) r) in H.
    unfold tb_refresh in H. apply update_accs_spec in H. destruct H as (accs & l & -> & _).
    assert (Dd : tb_def b = nn_def nn) by (unfold tb_def; rewrite EA; reflexivity).
    eapply (policy_changed false e b _ nn (f (policy (nn_def nn)))); [exact CI|exact EA|reflexivity|apply Hf|apply map_rest_length| | |apply map_length|].
    - intros r Hr. cbn [tb_set_asset tb_ins] in Hr. destruct (tb_ins b); [discriminate|exact Hr].
    - intros i r Hr. cbn [tb_set_asset tb_ins] in Hr. destruct (tb_ins b) as [|x xs] eqn:EI; [discriminate|]. cbn [map_rest nth_error] in Hr |- *. rewrite nth_error_map in Hr.
      destruct (nth_error xs i) as [y|] eqn:Y; [|discriminate]. injection Hr as <-. exists y. split; [reflexivity|].
      assert (D : asset_def y = nn_def nn). { destruct (ci_rest _ _ _ CI i y) as [G|[G _]]; [rewrite EI; exact Y|congruence|discriminate]. }
      split; [exact D|]. unfold g. rewrite D. reflexivity.
    - intros i o Ho. rewrite nth_error_map in Ho. cbn [tb_set_asset tb_outs] in Ho. destruct (nth_error (tb_outs b) i) as [y|] eqn:Y; [|discriminate]. injection Ho as <-.
      exists y. split; [reflexivity|]. intros D. unfold g. rewrite D. reflexivity.
  Qed.

  Lemma call_inv dm e c b b' : call_plain dm c -> shape b -> chain_inv dm e b -> call c b = Ok b' ->
    chain_inv (call_dm dm c) (call_exp e c) b'.
  Proof.
    intros HP Sh CI H. destruct c; cbn [call call_plain call_dm call_exp] in *; try contradiction.
    - unfold tb_policy_reveal in H. destruct (tb_asset b) as [nn|] eqn:EA; [|discriminate].
      destruct (map_reveal a _) as [m| |] eqn:EM; cbn [bind] in H; try discriminate. cbv zeta in H.
      destruct (mapM_rest _ _) as [ins| |] eqn:EI; cbn [bind] in H; try discriminate.
      destruct (mapM _ _) as [outs| |] eqn:EO; cbn [bind] in H; try discriminate.
      destruct (mapM_nth _ _ _ EO) as [O1 O2]. cbn [tb_set_asset tb_ins tb_outs] in *.
      unfold tb_refresh in H. apply update_accs_spec in H. destruct H as (accs & l & -> & _).
      assert (Dd : tb_def b = nn_def nn) by (unfold tb_def; rewrite EA; reflexivity).
      assert (RV : forall r r', asset_def r = nn_def nn -> ro_reveal a r = Ok r' -> r' = ro_set_policy (set_reveal_map_for_test m (policy (nn_def nn))) r).
      { intros r r' D G. unfold ro_reveal in G. rewrite D in G. destruct (policy_reveal a _) as [p'| |] eqn:EP; cbn [bind] in G; try discriminate.
        injection G as <-. rewrite (reveal_agrees _ _ _ _ EM EP). reflexivity. }
      eapply (policy_changed dm e b _ nn (set_reveal_map_for_test m (policy (nn_def nn)))); [exact CI|exact EA|reflexivity|reflexivity| | | |exact O1|].
      + exact (proj1 (mapM_rest_nth _ _ _ EI)).
      + intros r Hr. destruct (tb_ins b) as [|x xs]; cbn [mapM_rest] in EI; [injection EI as <-; discriminate|].
        destruct (mapM _ xs); cbn [bind] in EI; try discriminate. injection EI as <-. exact Hr.
      + intros i r Hr. destruct (tb_ins b) as [|x xs] eqn:EB; cbn [mapM_rest] in EI; [injection EI as <-; discriminate|].
        destruct (mapM _ xs) as [ys| |] eqn:EX; cbn [bind] in EI; try discriminate. injection EI as <-. cbn [nth_error] in *.
        destruct (mapM_nth _ _ _ EX) as [_ X2]. destruct (X2 i r Hr) as (y & Y1 & Y2). exists y. split; [exact Y1|].
        destruct (ci_rest _ _ _ CI i y) as [D|(_ & D & _)]; [rewrite EB; exact Y1| |].
        * rewrite Dd in D. split; [exact D|apply RV; assumption].
        * exfalso. unfold ro_reveal in Y2. rewrite D in Y2. destruct (policy_reveal a (policy asset_def_dummy)) as [p'| |] eqn:EP; cbn [bind] in Y2; try discriminate.
          exact (dummy_not_revealed _ _ EP).
      + intros i o Ho. destruct (O2 i o Ho) as (o0 & G1 & G2). exists o0. split; [exact G1|]. intros D. apply RV; assumption.
    - subst dm. apply (changed_policy_inv e b b' _ CI Sh) in H; [exact H|reflexivity].
    - subst dm. apply (changed_policy_inv e b b' _ CI Sh) in H; [exact H|reflexivity].
    - assert (N : tb_ins b = []). { unfold tb_set_input_amounts in H. destruct (tb_ins b); [reflexivity|discriminate]. }
      apply set_inputs_spec in H; [|exact Sh]. destruct H as (_ & _ & _ & E1 & E2 & E3 & E4 & k & rs & K1 & K2 & K3 & K4).
      destruct (input_records_spec _ _ _ _ _ K2) as [I1 I2]. destruct CI as [c1 c2 c3 c4 c5 c6].
      assert (Dd : tb_def b' = tb_def b) by (unfold tb_def; rewrite E2; reflexivity).
      constructor; rewrite ?Dd, ?E1, ?E3, ?E4, ?K4.
      + intros r [= <-]. reflexivity.
      + intros i r Hr. cbn [nth_error] in Hr. destruct (I2 i r Hr) as (k' & a & _ & _ & ->). left. reflexivity.
      + exact c3.
      + exact c4.
      + intros [|i] r Hr; cbn [nth_error] in Hr; [injection Hr as <-; reflexivity|]. destruct (I2 i r Hr) as (k' & a & _ & _ & ->). reflexivity.
      + intros x Hx. destruct (c6 x Hx) as [C1 _]. destruct (C1 N).
    - apply set_outputs_spec in H; [|exact Sh]. destruct H as (_ & _ & _ & E1 & E2 & E3 & k & K1 & K2 & K3 & K4). destruct CI as [c1 c2 c3 c4 c5 c6].
      assert (Dd : tb_def b' = tb_def b) by (unfold tb_def; rewrite E2; reflexivity).
      destruct (output_records_spec (tb_def b) kps bl amounts 0) as [O1 O2].
      constructor; rewrite ?Dd, ?E1, ?E3; auto.
      + rewrite K4. intros o Ho. apply In_nth_error in Ho. destruct Ho as (i & Ho). rewrite O2 in Ho. destruct (nth_error amounts i); [|discriminate].
        injection Ho as <-. reflexivity.
      + intros _. rewrite K3. reflexivity.
    - apply set_creds_spec in H; [|exact Sh]. destruct H as (_ & _ & _ & E2 & E3 & E4 & E5 & _ & _ & CR). destruct CI as [c1 c2 c3 c4 c5 c6].
      assert (Dd : tb_def b' = tb_def b) by (unfold tb_def; rewrite E2; reflexivity).
      constructor; rewrite ?Dd, ?E3, ?E4, ?E5; auto. intros x [= <-]. split.
      + destruct (CR 0%nat) as (c & G & _); [exact (sh_num _ Sh)|]. intros Q. unfold input_cred in G. rewrite Q in G. discriminate.
      + intros Hc i r Hr Hd. assert (Hi : (Datatypes.S i < tb_num_in b)%nat).
        { assert (G : (Datatypes.S i < length (tb_ins b))%nat) by (apply nth_error_Some; congruence).
          destruct (sh_ins _ Sh) as [Q|Q]; [rewrite Q in G; cbn [length] in G; lia|lia]. }
        destruct (CR _ Hi) as (c & G1 & G2). unfold cred_slot. rewrite G2. unfold input_cred in G1.
        assert (VG : vec_get (tb_ins b) (Datatypes.S i) = Ok r) by (apply vec_get_ok; exact Hr). rewrite VG in G1. cbn [bind] in G1. rewrite Hd in G1.
        destruct (point_eqb _ _) eqn:PE; [apply (point_eqb_spec L) in PE; contradiction|].
        destruct (tb_asset b) as [nn|]; [|discriminate]. unfold input_upk_at in G1. destruct (vec_get _ _) as [k| |]; cbn [bind] in G1; try discriminate.
        unfold cred_create in G1. unfold attr_random_vector in G1. rewrite map_length, seq_length in G1. cbn [Nat.eqb ATTRS_LEN negb unwrap bind] in G1. injection G1 as <-.
        eexists. split; [reflexivity|]. split; [reflexivity|]. split; [reflexivity|]. intros vu Hvu. unfold cred_verify, cred_is_expired. cbn [cr_expiry cr_creator_pk cr_user_addr cr_attrs cr_cred].
        destruct (Z.ltb_spec (zv expiry) (zv vu)); [lia|]. rewrite (sig_correct L). reflexivity.
    - unfold tb_set_dummy_input_record in H. destruct (assert_index _ _) as [[]| |]; cbn [bind] in H; try discriminate.
      eapply (input_changed dm true); [exact CI|exact Sh|reflexivity|exact H|reflexivity|reflexivity|lia|]. intros _ r _. right. repeat split.
    - eapply (input_changed dm dm); [exact CI|exact Sh|auto|exact H|reflexivity|reflexivity|reflexivity|]. intros G. destruct (G eq_refl).
    - subst dm. unfold tb_update_input_amount in H. destruct (assert_index _ _) as [[]| |]; cbn [bind] in H; try discriminate.
      eapply (input_changed false false); [exact CI|exact Sh|auto|exact H|reflexivity|reflexivity|reflexivity|].
      intros _ r [G|[G _]]; [left; split; exact G|discriminate].
  Qed.

  (** ** The definition keeps its keys *)
  Lemma same_asset_eq b b' : tb_asset b' = tb_asset b -> same_asset b b'.
  Proof. intros H. unfold same_asset, tb_def. rewrite H. repeat split; auto. Qed.
  Lemma call_asset c b b' : shape b -> call c b = Ok b' -> same_asset b b'.
  Proof.
    intros Sh H. destruct c; cbn [call] in H.
    - unfold tb_policy_reveal in H. destruct (tb_asset b) as [nn|] eqn:EA; [|discriminate].
      destruct (map_reveal a _) as [m| |] eqn:EM; cbn [bind] in H; try discriminate. cbv zeta in H.
      destruct (mapM_rest _ _) as [ins| |] eqn:EI; cbn [bind] in H; try discriminate.
      destruct (mapM _ _) as [outs| |] eqn:EO; cbn [bind] in H; try discriminate.
      unfold tb_refresh in H. apply update_accs_spec in H. destruct H as (accs & l & -> & _).
      unfold same_asset, tb_def. cbn [tb_set_accs tb_set_outs tb_set_ins tb_set_asset tb_asset]. rewrite EA. repeat split; discriminate.
    - unfold tb_set_reveal_threshold, tb_change_policy in H. destruct (tb_asset b) as [nn|] eqn:EA; [|discriminate]. cbv zeta in H.
      unfold tb_refresh in H. apply update_accs_spec in H. destruct H as (accs & l & -> & _).
      unfold same_asset, tb_def. cbn [tb_set_accs tb_set_outs tb_set_ins tb_set_asset tb_asset]. rewrite EA. repeat split; discriminate.
    - unfold tb_set_reveal_map, tb_change_policy in H. destruct (tb_asset b) as [nn|] eqn:EA; [|discriminate]. cbv zeta in H.
      unfold tb_refresh in H. apply update_accs_spec in H. destruct H as (accs & l & -> & _).
      unfold same_asset, tb_def. cbn [tb_set_accs tb_set_outs tb_set_ins tb_set_asset tb_asset]. rewrite EA. repeat split; discriminate.
    - apply set_inputs_spec in H; [|exact Sh]. apply same_asset_eq. tauto.
    - apply set_outputs_spec in H; [|exact Sh]. apply same_asset_eq. tauto.
    - apply set_creds_spec in H; [|exact Sh]. apply same_asset_eq. tauto.
    - unfold tb_update_input_freeze_flag in H. destruct (assert_index _ _) as [[]| |]; cbn [bind] in H; try discriminate.
      apply change_input_spec in H; [|exact Sh|reflexivity]. apply same_asset_eq. tauto.
    - apply change_input_spec in H; [|exact Sh|reflexivity]. apply same_asset_eq. tauto.
    - unfold tb_update_input_asset_def in H. destruct (assert_index _ _) as [[]| |]; cbn [bind] in H; try discriminate.
      apply change_input_spec in H; [|exact Sh|reflexivity]. apply same_asset_eq. tauto.
    - unfold tb_set_dummy_input_record in H. destruct (assert_index _ _) as [[]| |]; cbn [bind] in H; try discriminate.
      apply change_input_spec in H; [|exact Sh|reflexivity]. apply same_asset_eq. tauto.
    - unfold tb_update_fee_chg_asset_def in H. injection H as <-. apply same_asset_eq. reflexivity.
    - unfold tb_update_output_asset_def in H. destruct (vec_get _ _) as [r| |]; cbn [bind] in H; try discriminate.
      destruct (vec_set _ _ _) as [l| |]; cbn [bind] in H; try discriminate. injection H as <-. apply same_asset_eq. reflexivity.
    - apply change_input_spec in H; [|exact Sh|reflexivity]. apply same_asset_eq. tauto.
    - unfold tb_update_input_amount in H. destruct (assert_index _ _) as [[]| |]; cbn [bind] in H; try discriminate.
      apply change_input_spec in H; [|exact Sh|reflexivity]. apply same_asset_eq. tauto.
  Qed.
  Lemma same_asset_trans a b c : same_asset a b -> same_asset b c -> same_asset a c.
  Proof. unfold same_asset. intros (A1 & A2 & A3 & A4 & A5) (B1 & B2 & B3 & B4 & B5). repeat split; try congruence; tauto. Qed.

  Lemma calls_inv : forall l dm e b b', plain dm l -> shape b -> current b -> chain_inv dm e b -> calls l b = Ok b' ->
    exists dm', chain_inv dm' (chain_expiry e l) b' /\ same_asset b b' /\ shape b' /\ current b' /\ same_frame b b'.
  Proof.
    induction l as [|c l IH]; intros dm e b b' HP Sh Cu CI H; cbn [calls] in H.
    - injection H as <-. exists dm. split; [exact CI|]. split; [apply same_asset_eq; reflexivity|]. split; [exact Sh|]. split; [exact Cu|]. repeat split.
    - apply plain_cons in HP. destruct HP as [P1 P2]. rewrite expiry_cons.
      destruct (call c b) as [b1| |] eqn:EC; cbn [bind] in H; try discriminate.
      destruct (call_shape _ _ _ Sh Cu EC) as (S1 & C1 & F1).
      destruct (IH _ _ _ _ P2 S1 C1 (call_inv _ _ _ _ _ P1 Sh CI EC) H) as (dm' & G1 & G2 & G3 & G4 & G5).
      exists dm'. split; [exact G1|]. split; [exact (same_asset_trans _ _ _ (call_asset _ _ _ Sh EC) G2)|].
      split; [exact G3|]. split; [exact G4|]. exact (frame_trans _ _ _ F1 G5).
  Qed.

  (** ** A chain gives a ready builder *)
  Lemma In_skipn1 {A} (x : A) l : In x (skipn 1 l) -> exists i, nth_error l (Datatypes.S i) = Some x.
  Proof. destruct l as [|y l]; [intros []|]. cbn [skipn]. intros H. apply In_nth_error in H. exact H. Qed.
  Lemma nth_skipn1 {A} (l : list A) i : nth_error (skipn 1 l) i = nth_error l (Datatypes.S i).
  Proof. destruct l; [destruct i; reflexivity|reflexivity]. Qed.

  Theorem chain_ready start n_in n_out depth kps asset b0 l b :
    size_ok start n_in n_out depth -> tb_new start n_in n_out depth kps asset = Ok b0 -> plain false l -> calls l b0 = Ok b ->
    tb_ins b <> [] -> tb_outs b <> [] ->
    tb_ready b (tb_root b) /\ tb_num_in b = n_in /\ tb_num_out b = n_out /\ tb_depth b = tb_depth b0 /\ same_asset b0 b /\
    forall x, chain_expiry None l = Some x -> cred_pk (policy (tb_def b)) <> pt_id ->
      forall i r, nth_error (skipn 1 (tb_ins b)) i = Some r -> asset_def r = tb_def b ->
        exists c, nth_error (tb_creds b) (Datatypes.S i) = Some (Some c) /\ cr_expiry c = x /\
          forall vu : u64, zv vu <= zv x < zv vu + 2 ^ 20 -> good_cred vu c.
  Proof.
    intros HS HN HP HC Hi Ho. destruct (new_shape _ _ _ _ _ _ _ HS HN) as (S0 & C0 & N1 & N2 & N3 & N4 & N5 & N6 & N7 & N8).
    assert (I0 : chain_inv false None b0).
    { constructor; rewrite ?N6, ?N7; try (intros; discriminate).
      - intros o [].
      - intros G; destruct (G eq_refl).
      - intros [|i] r; discriminate. }
    destruct (calls_inv _ _ _ _ _ HP S0 C0 I0 HC) as (dm & CI & SA & Sh & Cu & (F1 & F2 & F3 & F4)).
    destruct (witnesses_current _ _ _ _ _ _ _ _ _ HS HN HC) as (W1 & W2 & W3).
    split; [|split; [congruence|split; [congruence|split; [exact F3|split; [exact SA|]]]]].
    - destruct CI as [c1 c2 c3 c4 c5 c6]. constructor.
      + exact (sh_kps _ Sh).
      + exact (sh_creds _ Sh).
      + exact (sh_accs _ Sh).
      + split; [exact Hi|]. destruct (sh_ins _ Sh) as [G|G]; [contradiction|exact G].
      + split; [exact Ho|]. destruct (sh_outs _ Sh) as [G|G]; [contradiction|exact G].
      + intros i r a Hr Ha. destruct (W3 i r Hr) as (a' & k & A1 & _ & _ & _ & A2). congruence.
      + exact (sh_owner _ Sh).
      + intros r Hr. split; [exact (c1 r Hr)|]. destruct (sh_chg _ Sh Ho) as [_ G].
        destruct (nth_error (tb_kps b) 0) as [k|] eqn:EK.
        * rewrite (G k eq_refl). symmetry. exact (sh_owner _ Sh 0%nat r k Hr EK).
        * exfalso. apply nth_error_None in EK. pose proof (sh_kps _ Sh). pose proof (sh_num _ Sh). lia.
      + split; [exact (c4 Ho)|exact (proj1 (sh_chg _ Sh Ho))].
      + intros r Hr. apply In_skipn1 in Hr. destruct Hr as (i & Hr). destruct (c2 i r Hr) as [G|(_ & G)]; auto.
      + intros o G. split; [exact (c3 o G)|exact (sh_out_flags _ Sh o G)].
      + intros r Hr. apply In_nth_error in Hr. destruct Hr as (i & Hr). exact (c5 i r Hr).
    - intros x Hx Hc i r Hr Hd. rewrite nth_skipn1 in Hr. destruct (ci_creds _ _ _ CI x Hx) as [_ G].
      destruct (G Hc i r Hr Hd) as (c & G1 & G2 & G3 & G4). exists c. split; [exact G1|]. split; [exact G3|].
      intros vu Hvu. split; [apply G4; lia|]. split; [exact G2|]. rewrite G3. lia.
  Qed.
End BuilderChain.
