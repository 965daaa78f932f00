(** Every call of a builder does exactly what BuilderCallSpec.v says, and panics otherwise. *)
From Verif Require Import Base Config Structs Keys Utils Memo Plonk Witness Circuits Relation CodecProofs PolicyProofs UtilsProofs Snark
  Notes NoteProofs Serde Ledger Wallet WalletProofs WalletPay Builder BuilderSpec BuilderLive BuilderProofs BuilderChain BuilderRand BuilderOther BuilderCallSpec.

Section BuilderCalls.
  Context {C : CapConfig} {S : Snark C} {K : @RoCodec C} {E : MemoSer C} (L : CapLaws C).

  (** ** Refreshing always works *)
  Lemma lookup_live depth leaves i : Z.of_nat (length leaves) < 2 ^ 64 -> (i < length leaves)%nat ->
    exists a, lookup_from_tree depth leaves (w64 (Z.of_nat i)) = Ok a.
  Proof.
    intros H64 Hi. eexists. apply lookup_from_tree_spec. split; [rewrite zv_w64_nat by lia; lia|reflexivity].
  Qed.
  Lemma refresh_live b : shape b -> exists b', tb_refresh b = Ok b'.
  Proof.
    intros Sh. unfold tb_refresh, tb_update_accs. cbn [bind].
    destruct (put_accs_live (tb_depth b) (map derive_record_commitment (tb_ins b)) (uids_from 0 (length (tb_ins b))) 0 (tb_accs b)) as (accs & ->).
    - rewrite uids_from_length, (sh_accs _ Sh). destruct (sh_ins _ Sh) as [->| ->]; cbn [length]; lia.
    - intros u Hu. unfold uids_from in Hu. apply in_map_iff in Hu. destruct Hu as (i & <- & Hi). apply in_seq in Hi.
      apply lookup_live; rewrite map_length; [|lia]. pose proof (sh_64 _ Sh). destruct (sh_ins _ Sh) as [G|G]; rewrite G; cbn [length]; lia.
    - cbn [bind]. eexists. reflexivity.
  Qed.
  Lemma refreshed b : shape b -> exists accs root, tb_refresh b = Ok (tb_set_accs b accs root).
  Proof.
    intros Sh. destruct (refresh_live b Sh) as (b' & H). destruct (refresh_current _ _ Sh H) as (_ & _ & accs & root & ->). eauto.
  Qed.

  (** ** Policies *)
  Definition op_of (a : PolicyRevealAttr) : builder_op :=
    match a with UserAddr => RevealAddress | RevAmount => RevealAmount | BlindFactor => RevealBlind | IdAttr i => RevealAttr i | AllIdAttr => RevealAllAttrs end.
  Lemma policy_reveal_live a p : index_in_range a -> may_reveal a p -> exists p', policy_reveal a p = Ok p' /\ flags_added a p p'.
  Proof.
    intros HI [HV HC]. assert (NV : needs_viewer (op_of a) = true) by (destruct a; reflexivity).
    pose proof (reveal_call_exact (op_of a) p NV) as H.
    assert (G : is_viewer_pub_key_set p && (negb (needs_cred (op_of a)) || is_cred_creator_pub_key_set p) && index_ok (op_of a) = true).
    { apply andb_true_iff. split; [apply andb_true_iff; split|].
      - apply (viewer_set_iff L). exact HV.
      - destruct a; try reflexivity; cbn [op_of needs_cred negb orb]; apply (cred_set_iff L); exact HC.
      - destruct a; try reflexivity. cbn [op_of index_ok]. apply Nat.ltb_lt. exact HI. }
    rewrite G in H. destruct H as (p' & H1 & H2 & H3 & H4 & H5 & H6). exists p'. split.
    - unfold policy_reveal. destruct a; cbn [op_of builder_call] in H1; rewrite H1; reflexivity.
    - split; [split; [exact H2|split; assumption]|]. split; [exact H5|]. intros i. rewrite H6. destruct a; reflexivity.
  Qed.
  Lemma policy_reveal_panics a p : ~ (index_in_range a /\ may_reveal a p) -> policy_reveal a p = Panic.
  Proof.
    intros HN. assert (NV : needs_viewer (op_of a) = true) by (destruct a; reflexivity).
    pose proof (reveal_call_exact (op_of a) p NV) as H.
    destruct (is_viewer_pub_key_set p && (negb (needs_cred (op_of a)) || is_cred_creator_pub_key_set p) && index_ok (op_of a)) eqn:G.
    - exfalso. apply HN. apply andb_true_iff in G. destruct G as [G G3]. apply andb_true_iff in G. destruct G as [G1 G2].
      apply (viewer_set_iff L) in G1. split.
      + destruct a; try exact I. cbn [op_of index_ok] in G3. apply Nat.ltb_lt in G3. exact G3.
      + split; [exact G1|]. destruct a; try exact I; cbn [op_of needs_cred negb orb] in G2; apply (cred_set_iff L); exact G2.
    - unfold policy_reveal. destruct a; cbn [op_of builder_call] in H; rewrite H; reflexivity.
  Qed.
  Lemma reveal_decidable a p : (index_in_range a /\ may_reveal a p) \/ ~ (index_in_range a /\ may_reveal a p).
  Proof.
    destruct (is_viewer_pub_key_set p) eqn:V; [|right; intros [_ [G _]]; apply (viewer_set_iff L) in G; congruence].
    destruct (is_cred_creator_pub_key_set p) eqn:Cr.
    - destruct a as [| | |i|]; try (left; split; [exact I|split; [apply (viewer_set_iff L); exact V|try exact I; apply (cred_set_iff L); exact Cr]]; fail).
      destruct (Nat.lt_ge_cases i 8); [left; split; [assumption|split; [apply (viewer_set_iff L); exact V|apply (cred_set_iff L); exact Cr]]|].
      right. intros [G _]. cbn [index_in_range] in G. lia.
    - destruct a as [| | |i|]; try (left; split; [exact I|split; [apply (viewer_set_iff L); exact V|exact I]]; fail);
        right; intros [_ [_ G]]; apply (cred_set_iff L) in G; congruence.
  Qed.
  Lemma map_reveal_live a p : index_in_range a -> exists m, map_reveal a (reveal_map p) = Ok m /\ flags_added a p (set_reveal_map_for_test m p).
  Proof.
    intros HI. assert (G : forall m, (forall i, rm_bit m i = reveals a i || rm_bit (reveal_map p) i) -> flags_added a p (set_reveal_map_for_test m p)).
    { intros m Hm. split; [repeat split|]. split; [reflexivity|]. exact Hm. }
    destruct a as [| | |k|]; cbn [map_reveal].
    - eexists. split; [reflexivity|]. apply G. intros i. unfold rm_reveal_user_address. rewrite !rm_bit_set by (unfold VIEWABLE_DATA_LEN; lia). cbn [reveals].
      destruct i as [|[|i]]; reflexivity.
    - eexists. split; [reflexivity|]. apply G. intros i. unfold rm_reveal_amount. rewrite rm_bit_set by (unfold VIEWABLE_DATA_LEN; lia). reflexivity.
    - eexists. split; [reflexivity|]. apply G. intros i. unfold rm_reveal_blinding_factor. rewrite rm_bit_set by (unfold VIEWABLE_DATA_LEN; lia). reflexivity.
    - cbn [index_in_range] in HI. unfold rm_reveal_ith_id_attribute. assert (Q : (ATTRS_LEN <=? k)%nat = false) by (apply Nat.leb_gt; exact HI). rewrite Q. cbn [unwrap].
      eexists. split; [reflexivity|]. apply G. intros i. rewrite rm_bit_set by (unfold ASSET_TRACING_MAP_LEN; lia). reflexivity.
    - eexists. split; [reflexivity|]. apply G. intros i. apply rm_bit_all_attrs.
  Qed.
  Lemma map_reveal_panics a p : ~ index_in_range a -> map_reveal a (reveal_map p) = Panic.
  Proof.
    destruct a as [| | |k|]; cbn [index_in_range map_reveal]; intros H; try (destruct H; exact I).
    unfold rm_reveal_ith_id_attribute. assert (Q : (ATTRS_LEN <=? k)%nat = true) by (apply Nat.leb_le; unfold ATTRS_LEN; lia). rewrite Q. reflexivity.
  Qed.
  Lemma ro_reveal_live a r : index_in_range a -> may_reveal a (policy (asset_def r)) ->
    exists r', ro_reveal a r = Ok r' /\ policy_changed_by (flags_added a) r r'.
  Proof.
    intros HI HM. destruct (policy_reveal_live a _ HI HM) as (p' & H1 & H2). unfold ro_reveal. rewrite H1. eexists. split; [reflexivity|].
    repeat (split; [reflexivity|]). exact H2.
  Qed.
  Lemma mapM_live {A B} (f : A -> res B) (R : A -> B -> Prop) l : (forall x, In x l -> exists y, f x = Ok y /\ R x y) -> exists l', mapM f l = Ok l' /\ Forall2 R l l'.
  Proof.
    induction l as [|x l IH]; intros H; cbn [mapM]; [exists []; split; [reflexivity|constructor]|].
    destruct (H x (or_introl eq_refl)) as (y & H1 & H2). destruct IH as (l' & I1 & I2); [intros z Hz; apply H; right; exact Hz|].
    rewrite H1, I1. exists (y :: l'). split; [reflexivity|constructor; assumption].
  Qed.
  Lemma mapM_panics {A B} (f : A -> res B) l x : In x l -> f x = Panic -> (forall y, In y l -> exists z, f y = Ok z \/ f y = Panic) -> mapM f l = Panic.
  Proof.
    induction l as [|y l IH]; intros Hin Hx HA; [destruct Hin|]. cbn [mapM]. destruct Hin as [->|Hin]; [rewrite Hx; reflexivity|].
    destruct (HA y (or_introl eq_refl)) as (z & [-> | ->]); [|reflexivity]. cbn [bind]. rewrite (IH Hin Hx); [reflexivity|]. intros w Hw. apply HA. right; exact Hw.
  Qed.
  Lemma ro_reveal_cases a r : exists z, ro_reveal a r = Ok z \/ ro_reveal a r = Panic.
  Proof.
    destruct (reveal_decidable a (policy (asset_def r))) as [[G1 G2]|G].
    - destruct (ro_reveal_live a r G1 G2) as (z & H & _). eauto.
    - exists r. right. unfold ro_reveal. rewrite policy_reveal_panics by exact G. reflexivity.
  Qed.
  Lemma mapM_cases {A B} (f : A -> res B) l : (forall y, In y l -> exists z, f y = Ok z \/ f y = Panic) -> exists z, mapM f l = Ok z \/ mapM f l = Panic.
  Proof.
    induction l as [|y l IH]; intros HA; cbn [mapM]; [exists []; left; reflexivity|]. destruct (HA y (or_introl eq_refl)) as (z & [-> | ->]); [|exists []; right; reflexivity].
    cbn [bind]. destruct IH as (zs & [-> | ->]); [intros w Hw; apply HA; right; exact Hw| |exists []; right; reflexivity]. exists (z :: zs). left. reflexivity.
  Qed.

  (** ** One element changed *)
  Lemma set_changed {A} i (R : A -> A -> Prop) (l : list A) x x' : nth_error l i = Some x -> R x x' -> changed_at i R l (list_set i x' l).
  Proof.
    intros Hx HR. assert (Hi : (i < length l)%nat) by (apply nth_error_Some; congruence).
    split; [apply list_set_length|]. split.
    - exists x, x'. rewrite list_set_nth, Nat.eqb_refl by exact Hi. auto.
    - intros j Hj. rewrite list_set_nth by exact Hi. destruct (Nat.eqb_spec j i); [contradiction|reflexivity].
  Qed.
  Lemma change_input_live i f b (R : RecordOpening -> RecordOpening -> Prop) : shape b -> (forall r, pub_key (f r) = pub_key r) -> (forall r, R r (f r)) -> (i < length (tb_ins b))%nat ->
    exists b', tb_change_input i f b = Ok b' /\ only_ins b b' /\ changed_at i R (tb_ins b) (tb_ins b').
  Proof.
    intros Sh Hf HR Hi. destruct (nth_error (tb_ins b) i) as [r|] eqn:Hr; [|exfalso; apply nth_error_None in Hr; lia].
    unfold tb_change_input, vec_get. rewrite Hr. cbn [bind]. unfold vec_set. destruct (Nat.ltb_spec i (length (tb_ins b))); [|lia]. cbn [bind].
    destruct (refreshed (tb_set_ins b (list_set i (f r) (tb_ins b)))) as (accs & root & ->).
    - rewrite <- (set_outs_ins b). apply shape_records; [exact Sh|apply list_set_length| |reflexivity|intros j o Ho; eauto].
      intros j r' Hr'. rewrite list_set_nth in Hr' by exact Hi. destruct (Nat.eqb_spec j i) as [->|]; [|eauto]. injection Hr' as <-. exists r. split; [exact Hr|apply Hf].
    - eexists. split; [reflexivity|]. split; [repeat split|]. cbn [tb_set_accs tb_set_ins tb_ins]. apply (set_changed i R _ r); [exact Hr|apply HR].
  Qed.
  Lemma change_input_panics i f b : ~ (i < length (tb_ins b))%nat -> tb_change_input i f b = Panic.
  Proof. intros H. unfold tb_change_input, vec_get. destruct (nth_error (tb_ins b) i) eqn:G; [exfalso; apply H, nth_error_Some; congruence|reflexivity]. Qed.
  Lemma assert_index_dec {A B} i (l : list A) (k : res B) : (assert_index i l ;;; k) = if (i <? length l)%nat then k else Panic.
  Proof. unfold assert_index. destruct (i <? length l)%nat; reflexivity. Qed.

  Lemma change_policy_live f (R : AssetPolicy -> AssetPolicy -> Prop) b : shape b -> (forall p, R p (f p)) -> tb_asset b <> None ->
    exists b', tb_change_policy f b = Ok b' /\ policies_changed R b b'.
  Proof.
    intros Sh HR Ha. unfold tb_change_policy. destruct (tb_asset b) as [nn|] eqn:EA; [|contradiction]. cbv zeta.
    set (g := fun r => ro_set_policy (f (policy (asset_def r))) r).
    match goal with |- context [tb_refresh ?x] => destruct (refreshed x) as (accs & root & ->) end.
    - apply shape_records; [apply shape_asset, Sh|apply map_rest_length| |apply map_length|].
      + intros i r Hr. apply map_rest_nth in Hr. destruct Hr as (y & G1 & [->| ->]); eauto.
      + intros i o Ho. rewrite nth_error_map in Ho. destruct (nth_error _ i) as [y|] eqn:G; [|discriminate]. injection Ho as <-. eauto.
    - eexists. split; [reflexivity|]. unfold policies_changed. cbn [tb_set_accs tb_set_outs tb_set_ins tb_set_asset tb_ins tb_outs tb_chg tb_creds tb_asset].
      assert (G : forall l, Forall2 (policy_changed_by R) l (map g l)).
      { induction l as [|r l IH]; cbn [map]; constructor; [|exact IH]. repeat (split; [reflexivity|]). apply HR. }
      split; [exists nn, (nn_set_policy (f (policy (nn_def nn))) nn); split; [exact EA|]; repeat (split; [reflexivity|]); apply HR|].
      split; [destruct (tb_ins b); reflexivity|]. split; [destruct (tb_ins b) as [|x l]; cbn [map_rest skipn]; [constructor|apply G]|].
      split; [apply G|]. split; reflexivity.
  Qed.

  Lemma reveal_live a b : shape b -> allowed (CPolicyReveal a) b -> exists b', tb_policy_reveal a b = Ok b' /\ policies_changed (flags_added a) b b'.
  Proof.
    intros Sh (Ha & HI & HM). unfold tb_policy_reveal. destruct (tb_asset b) as [nn|] eqn:EA; [|contradiction].
    destruct (map_reveal_live a (policy (nn_def nn)) HI) as (m & M1 & M2). rewrite M1. cbn [bind]. cbv zeta. cbn [tb_set_asset tb_ins tb_outs].
    destruct (mapM_live (ro_reveal a) (policy_changed_by (flags_added a)) (skipn 1 (tb_ins b))) as (ins & I1 & I2).
    { intros r Hr. apply ro_reveal_live; [exact HI|]. apply HM. apply in_or_app. left; exact Hr. }
    destruct (mapM_live (ro_reveal a) (policy_changed_by (flags_added a)) (tb_outs b)) as (outs & O1 & O2).
    { intros r Hr. apply ro_reveal_live; [exact HI|]. apply HM. apply in_or_app. right; exact Hr. }
    assert (EI : mapM_rest (ro_reveal a) (tb_ins b) = Ok (firstn 1 (tb_ins b) ++ ins)).
    { destruct (tb_ins b) as [|x l]; cbn [mapM_rest skipn firstn app] in *; [cbn [mapM] in I1; injection I1 as <-; reflexivity|rewrite I1; reflexivity]. }
    unfold tb_set_asset. cbn [tb_ins tb_outs]. rewrite EI. cbn [bind]. rewrite O1. cbn [bind].
    match goal with |- context [tb_refresh ?x] => destruct (refreshed x) as (accs & root & ->) end.
    - destruct (mapM_rest_nth _ _ _ EI) as [L1 L2]. destruct (mapM_nth _ _ _ O1) as [L3 L4].
      apply (shape_records (tb_set_asset b (Some (nn_set_policy (set_reveal_map_for_test m (policy (nn_def nn))) nn)))); [apply shape_asset, Sh|exact L1| |exact L3|].
      + intros i r Hr. destruct (L2 i r Hr) as (x & G1 & [->|G2]); [eauto|]. exists x. split; [exact G1|]. exact (proj1 (ro_reveal_same _ _ _ G2)).
      + intros i o Ho. destruct (L4 i o Ho) as (x & G1 & G2). exists x. split; [exact G1|]. exact (proj2 (ro_reveal_same _ _ _ G2)).
    - eexists. split; [reflexivity|]. unfold policies_changed. cbn [tb_set_accs tb_set_outs tb_set_ins tb_ins tb_outs tb_chg tb_creds tb_asset].
      split; [exists nn, (nn_set_policy (set_reveal_map_for_test m (policy (nn_def nn))) nn); split; [exact EA|]; repeat (split; [reflexivity|]); exact M2|].
      split; [destruct (tb_ins b) as [|x l]; [inversion I2; reflexivity|reflexivity]|].
      split; [destruct (tb_ins b) as [|x l]; [inversion I2; constructor|exact I2]|]. split; [exact O2|]. split; reflexivity.
  Qed.
  Lemma reveal_panics a b : ~ allowed (CPolicyReveal a) b -> tb_policy_reveal a b = Panic.
  Proof.
    intros HN. unfold tb_policy_reveal. destruct (tb_asset b) as [nn|] eqn:EA; [|reflexivity].
    assert (DI : index_in_range a \/ ~ index_in_range a) by (destruct a; cbn [index_in_range]; try (left; exact I); destruct (Nat.lt_ge_cases i 8); [left; assumption|right; lia]).
    destruct DI as [DI|DI]; [|rewrite map_reveal_panics by exact DI; reflexivity].
    destruct (map_reveal_live a (policy (nn_def nn)) DI) as (m & -> & _). cbn [bind]. cbv zeta. unfold tb_set_asset. cbn [tb_ins tb_outs].
    assert (HE : exists r, In r (skipn 1 (tb_ins b) ++ tb_outs b) /\ ~ may_reveal a (policy (asset_def r))).
    { assert (G : forall l, (forall r, In r l -> may_reveal a (policy (asset_def r))) \/ exists r : RecordOpening, In r l /\ ~ may_reveal a (policy (asset_def r))).
      { induction l as [|r l [IH|(x & X1 & X2)]]; [left; intros r []| |right; exists x; split; [right; exact X1|exact X2]].
        destruct (reveal_decidable a (policy (asset_def r))) as [[_ G]|G].
        - left. intros x [<-|Hx]; [exact G|exact (IH x Hx)].
        - right. exists r. split; [left; reflexivity|]. intros Q. apply G. split; assumption. }
      destruct (G (skipn 1 (tb_ins b) ++ tb_outs b)) as [G1|G1]; [|exact G1]. exfalso. apply HN. split; [congruence|]. split; [exact DI|exact G1]. }
    destruct HE as (r & Hr & HM).
    assert (PR : ro_reveal a r = Panic) by (unfold ro_reveal; rewrite policy_reveal_panics; [reflexivity|intros [_ Q]; exact (HM Q)]).
    apply in_app_or in Hr. destruct Hr as [Hr|Hr].
    - destruct (tb_ins b) as [|x l]; [destruct Hr|]. cbn [skipn] in Hr. cbn [mapM_rest].
      rewrite (mapM_panics _ _ _ Hr PR); [reflexivity|]. intros; apply ro_reveal_cases.
    - assert (G : exists z, mapM_rest (ro_reveal a) (tb_ins b) = Ok z \/ mapM_rest (ro_reveal a) (tb_ins b) = Panic).
      { destruct (tb_ins b) as [|x l]; cbn [mapM_rest]; [exists []; left; reflexivity|].
        destruct (mapM_cases (ro_reveal a) l) as (z & [-> | ->]); [intros; apply ro_reveal_cases|exists (x :: z); left; reflexivity|exists []; right; reflexivity]. }
      destruct G as (z & [-> | ->]); [|reflexivity]. cbn [bind]. rewrite (mapM_panics _ _ _ Hr PR); [reflexivity|]. intros; apply ro_reveal_cases.
  Qed.

  (** ** New records *)
  Lemma input_records_live b bl : forall amounts i, (i + 1 + length amounts <= length (tb_kps b))%nat -> exists rs, input_records b bl i amounts = Ok rs.
  Proof.
    induction amounts as [|a l IH]; intros i Hl; cbn [input_records]; [eexists; reflexivity|]. cbn [length] in Hl. unfold input_upk_at, vec_get.
    destruct (nth_error (tb_kps b) (i + 1)) as [k|] eqn:Hk; [|exfalso; apply nth_error_None in Hk; lia]. cbn [bind].
    destruct (IH (i + 1)%nat) as (rs & ->); [lia|]. cbn [bind]. eexists. reflexivity.
  Qed.
  Lemma nth_ext_opt {A} : forall l l' : list A, (forall i, nth_error l i = nth_error l' i) -> l = l'.
  Proof.
    induction l as [|x l IH]; intros [|y l'] H; [reflexivity|specialize (H 0%nat); discriminate H|specialize (H 0%nat); discriminate H|].
    f_equal; [specialize (H 0%nat); cbn in H; congruence|]. apply IH. intros i. exact (H (Datatypes.S i)).
  Qed.
  Lemma nth_repeat {A} (x : A) n i : nth_error (repeat x n) i = if (i <? n)%nat then Some x else None.
  Proof.
    revert i. induction n as [|n IH]; intros [|i]; cbn [repeat nth_error]; try reflexivity. rewrite IH. reflexivity.
  Qed.
  Lemma set_inputs_live bl fee amounts b : shape b -> tb_ins b = [] -> (length amounts + 1)%nat = tb_num_in b ->
    exists b', tb_set_input_amounts bl fee amounts b = Ok b' /\ effect (CInputAmounts bl fee amounts) b b'.
  Proof.
    intros Sh H0 Hn. assert (HX : exists b', tb_set_input_amounts bl fee amounts b = Ok b').
    { unfold tb_set_input_amounts. rewrite H0. cbn [length Nat.eqb negb]. rewrite Hn, Nat.eqb_refl. cbn [negb]. pose proof (sh_num _ Sh) as N1. pose proof (sh_kps _ Sh) as N2.
      unfold input_upk_at, vec_get. destruct (nth_error (tb_kps b) 0) as [k|] eqn:Hk; [|exfalso; apply nth_error_None in Hk; lia]. cbn [bind].
      destruct (input_records_live b bl amounts 0) as (rs & ER); [lia|]. rewrite ER. cbn [bind]. apply refresh_live.
      destruct (input_records_spec _ _ _ _ _ ER) as [I1 I2].
      destruct Sh as [s1 s2 s3 s4 s5 s6 s7 s8 s9 s10 s11]. constructor; cbn [tb_set_ins tb_kps tb_creds tb_accs tb_num_in tb_num_out tb_depth tb_ins tb_outs tb_chg]; auto.
      - right. cbn [length]. lia.
      - intros [|i] r k' Hr Hk'; cbn [nth_error] in Hr; [injection Hr as <-; cbn [ro_new pub_key]; congruence|].
        destruct (I2 i r Hr) as (k2 & a & G1 & G2 & ->). cbn [ro_new pub_key]. change (0 + 1 + i)%nat with (Datatypes.S i) in G1. congruence. }
    destruct HX as (b' & HX). exists b'. split; [exact HX|].
    destruct (set_inputs_spec _ _ _ _ _ Sh HX) as (_ & _ & _ & E1 & E2 & E3 & E4 & k & rs & Hk & ER & _ & E5).
    destruct (input_records_spec _ _ _ _ _ ER) as [I1 I2].
    assert (I3 : forall j, nth_error rs j = match nth_error amounts j, nth_error (tb_kps b) (Datatypes.S j) with
                  | Some a, Some k' => Some (ro_new (bl (Datatypes.S j)) a (tb_def b) (user_pub_key k') Unfrozen) | _, _ => None end).
    { intros j. destruct (nth_error rs j) as [r|] eqn:Hr.
      - destruct (I2 j r Hr) as (k' & a & G1 & G2 & ->). change (0 + 1 + j)%nat with (Datatypes.S j) in *. rewrite G1, G2. reflexivity.
      - apply nth_error_None in Hr. destruct (nth_error amounts j) eqn:Ha; [|reflexivity]. assert (j < length amounts)%nat by (apply nth_error_Some; congruence). lia. }
    assert (Ls : forall j, (j < length amounts)%nat -> exists k', nth_error (tb_kps b) (Datatypes.S j) = Some k').
    { intros j Hj. destruct (nth_error (tb_kps b) (Datatypes.S j)) as [k'|] eqn:G; [eauto|]. apply nth_error_None in G. pose proof (sh_kps _ Sh). lia. }
    cbn [effect]. split; [repeat split; assumption|]. rewrite E5. cbn [map ro_new amount pub_key asset_def]. split; [|split; [|split]].
    - f_equal. apply nth_ext_opt. intros j. rewrite nth_error_map, I3. destruct (nth_error amounts j) as [a|] eqn:Ha; [|reflexivity].
      destruct (Ls j) as (k' & ->); [apply nth_error_Some; congruence|]. reflexivity.
    - apply nth_ext_opt. intros [|j]; [rewrite nth_error_map, Hk; reflexivity|].
      change (nth_error (map pub_key rs) j = nth_error (map user_pub_key (tb_kps b)) (Datatypes.S j)). rewrite !nth_error_map, I3.
      destruct (nth_error amounts j) as [a|] eqn:Ha.
      + destruct (Ls j) as (k' & ->); [apply nth_error_Some; congruence|]. reflexivity.
      + apply nth_error_None in Ha. destruct (nth_error (tb_kps b) (Datatypes.S j)) eqn:G; [|reflexivity].
        assert (Datatypes.S j < length (tb_kps b))%nat by (apply nth_error_Some; congruence). pose proof (sh_kps _ Sh). lia.
    - f_equal. apply nth_ext_opt. intros j. rewrite nth_error_map, I3, nth_repeat. destruct (nth_error amounts j) as [a|] eqn:Ha.
      + assert (Hj : (j < length amounts)%nat) by (apply nth_error_Some; congruence). destruct (Ls j Hj) as (k' & ->).
        destruct (Nat.ltb_spec j (length amounts)); [reflexivity|lia].
      + apply nth_error_None in Ha. destruct (Nat.ltb_spec j (length amounts)); [lia|reflexivity].
    - intros [|i] r Hr; cbn [nth_error] in Hr; [injection Hr as <-; split; reflexivity|]. rewrite I3 in Hr.
      destruct (nth_error amounts i); [|discriminate]. destruct (nth_error (tb_kps b) (Datatypes.S i)); [|discriminate]. injection Hr as <-. split; reflexivity.
  Qed.
  Lemma set_outputs_live kps bl chg amounts b : shape b -> tb_outs b = [] -> (length amounts + 1)%nat = tb_num_out b ->
    exists b', tb_set_output_amounts kps bl chg amounts b = Ok b' /\ effect (COutputAmounts kps bl chg amounts) b b'.
  Proof.
    intros Sh H0 Hn. assert (HX : exists b', tb_set_output_amounts kps bl chg amounts b = Ok b').
    { unfold tb_set_output_amounts. rewrite H0. cbn [length Nat.eqb negb]. rewrite Hn, Nat.eqb_refl. cbn [negb]. pose proof (sh_num _ Sh) as N1. pose proof (sh_kps _ Sh) as N2.
      unfold input_upk_at, vec_get. destruct (nth_error (tb_kps b) 0) as [k|] eqn:Hk; [|exfalso; apply nth_error_None in Hk; lia]. cbn [bind]. eexists. reflexivity. }
    destruct HX as (b' & HX). exists b'. split; [exact HX|].
    destruct (set_outputs_spec _ _ _ _ _ _ Sh HX) as (_ & _ & _ & E1 & E2 & E3 & k & Hk & _ & E4 & E5).
    destruct (output_records_spec (tb_def b) kps bl amounts 0) as [O1 O2].
    cbn [effect]. rewrite E4, E5. cbn [ro_new amount asset_def freeze_flag blind pub_key].
    split; [exact E2|]. split; [exact E3|]. split; [exact E1|]. repeat (split; [reflexivity|]). split; [exists k; split; [exact Hk|reflexivity]|]. split.
    - apply nth_ext_opt. intros j. rewrite nth_error_map, O2. destruct (nth_error amounts j); reflexivity.
    - intros i o Ho. rewrite O2 in Ho. destruct (nth_error amounts i) as [a|]; [|discriminate]. injection Ho as <-.
      cbn [ro_new asset_def pub_key freeze_flag blind]. repeat split.
  Qed.

  Lemma input_cred_live attrs expiry b i r : shape b -> nth_error (tb_ins b) i = Some r -> (cred_pk (policy (asset_def r)) <> pt_id -> tb_asset b <> None) ->
    exists o, input_cred attrs expiry b i = Ok o /\
      (cred_pk (policy (asset_def r)) = pt_id -> o = None) /\
      (cred_pk (policy (asset_def r)) <> pt_id -> exists c nn, o = Some c /\ tb_asset b = Some nn /\ cr_expiry c = expiry /\
         cr_user_addr c = address (pub_key r) /\ cr_attrs c = map (attrs i) (seq 0 8) /\ cr_creator_pk c = ver_key (nn_minter nn) /\
         forall now : u64, zv now <= zv expiry -> cred_verify c now = Ok tt).
  Proof.
    intros Sh Hr Ha. unfold input_cred, vec_get. rewrite Hr. cbn [bind]. destruct (point_eqb (cred_pk (policy (asset_def r))) pt_id) eqn:G.
    - apply (point_eqb_spec L) in G. exists None. split; [reflexivity|]. split; [reflexivity|]. intros Q. contradiction.
    - assert (N : cred_pk (policy (asset_def r)) <> pt_id) by (intros Q; apply (point_eqb_spec L) in Q; congruence).
      specialize (Ha N). destruct (tb_asset b) as [nn|] eqn:EA; [|contradiction].
      assert (Hi : (i < length (tb_ins b))%nat) by (apply nth_error_Some; congruence).
      assert (Hk : exists k, nth_error (tb_kps b) i = Some k).
      { destruct (nth_error (tb_kps b) i) as [k|] eqn:Q; [eauto|]. apply nth_error_None in Q. pose proof (sh_kps _ Sh). destruct (sh_ins _ Sh) as [W|W]; [rewrite W in Hi; cbn in Hi|]; lia. }
      destruct Hk as (k & Hk). unfold input_upk_at, vec_get. rewrite Hk. cbn [bind]. pose proof (sh_owner _ Sh _ _ _ Hr Hk) as HO.
      unfold cred_create, attr_random_vector. rewrite map_length, seq_length, Nat.eqb_refl. cbn [negb unwrap bind].
      eexists. split; [reflexivity|]. split; [intros Q; contradiction|]. intros _. eexists. exists nn. split; [reflexivity|]. split; [reflexivity|].
      cbn [cr_expiry cr_user_addr cr_attrs cr_creator_pk]. split; [reflexivity|]. split; [rewrite HO; reflexivity|]. split; [reflexivity|]. split; [reflexivity|].
      intros now Hnow. unfold cred_verify, cred_is_expired. cbn [cr_expiry cr_user_addr cr_attrs cr_creator_pk cr_cred].
      destruct (Z.ltb_spec (zv expiry) (zv now)); [lia|].
      match goal with |- (if ?x then _ else _) = _ => replace x with true end; [reflexivity|]. symmetry. apply (sig_correct L).
  Qed.
  Lemma put_creds_live attrs expiry b : forall l creds, (forall i, In i l -> (i < length creds)%nat /\ exists o, input_cred attrs expiry b i = Ok o) ->
    exists creds', put_creds attrs expiry b l creds = Ok creds'.
  Proof.
    induction l as [|i l IH]; intros creds H; cbn [put_creds]; [eexists; reflexivity|]. destruct (H i (or_introl eq_refl)) as (H1 & o & ->). cbn [bind].
    unfold vec_set. destruct (Nat.ltb_spec i (length creds)); [|lia]. cbn [bind]. apply IH. intros j Hj. rewrite list_set_length. apply H. right; exact Hj.
  Qed.
  Lemma put_creds_panics attrs expiry b i : forall l creds, In i l -> input_cred attrs expiry b i = Panic ->
    (forall j, In j l -> (j < length creds)%nat /\ exists o, input_cred attrs expiry b j = Ok o \/ input_cred attrs expiry b j = Panic) -> put_creds attrs expiry b l creds = Panic.
  Proof.
    induction l as [|j l IH]; intros creds Hin HP H; [destruct Hin|]. cbn [put_creds]. destruct (H j (or_introl eq_refl)) as (H1 & o & [HO|HO]); [|rewrite HO; reflexivity].
    destruct Hin as [->|Hin]; [congruence|]. rewrite HO. cbn [bind]. unfold vec_set. destruct (Nat.ltb_spec j (length creds)); [|lia]. cbn [bind].
    apply IH; [exact Hin|exact HP|]. intros q Hq. rewrite list_set_length. apply H. right; exact Hq.
  Qed.
  Lemma set_creds_live attrs expiry b : shape b -> allowed (CInputCreds attrs expiry) b ->
    exists b', tb_set_input_creds attrs expiry b = Ok b' /\ effect (CInputCreds attrs expiry) b b'.
  Proof.
    intros Sh [H0 HA]. assert (Li : length (tb_ins b) = tb_num_in b) by (destruct (sh_ins _ Sh); [contradiction|assumption]).
    assert (G : forall i, (i < tb_num_in b)%nat -> exists r, nth_error (tb_ins b) i = Some r).
    { intros i Hi. destruct (nth_error (tb_ins b) i) as [r|] eqn:Q; [eauto|]. apply nth_error_None in Q. lia. }
    assert (HX : exists b', tb_set_input_creds attrs expiry b = Ok b').
    { unfold tb_set_input_creds. destruct (put_creds_live attrs expiry b (seq 0 (tb_num_in b)) (tb_creds b)) as (c & ->); [|cbn [bind]; eexists; reflexivity].
      intros i Hi. apply in_seq in Hi. split; [rewrite (sh_creds _ Sh); lia|]. destruct (G i) as (r & Hr); [lia|].
      destruct (input_cred_live attrs expiry b i r Sh Hr) as (o & Ho & _); [intros N; exact (HA r (nth_error_In _ _ Hr) N)|]. eauto. }
    destruct HX as (b' & HX). exists b'. split; [exact HX|]. destruct (set_creds_spec _ _ _ _ Sh HX) as (S1 & _ & (F1 & _) & E1 & E2 & E3 & E4 & E5 & E6 & E7).
    cbn [effect]. split; [exact E1|]. split; [exact E2|]. split; [exact E3|]. split; [exact E4|]. split; [rewrite (sh_creds _ S1), F1; auto|].
    intros i r o Hr Ho. assert (Hi : (i < tb_num_in b)%nat) by (rewrite <- Li; apply nth_error_Some; congruence).
    destruct (E7 i Hi) as (o' & O1 & O2). rewrite Ho in O2. injection O2 as <-.
    destruct (input_cred_live attrs expiry b i r Sh Hr) as (o2 & P1 & P2); [intros N; exact (HA r (nth_error_In _ _ Hr) N)|]. rewrite O1 in P1. injection P1 as <-. exact P2.
  Qed.
  Lemma set_creds_panics attrs expiry b : shape b -> ~ allowed (CInputCreds attrs expiry) b -> tb_set_input_creds attrs expiry b = Panic.
  Proof.
    intros Sh HN. unfold tb_set_input_creds. pose proof (sh_num _ Sh) as N1. destruct (tb_ins b) as [|r0 rs] eqn:EI.
    - destruct (tb_num_in b) as [|n]; [lia|]. cbn [seq put_creds]. unfold input_cred, vec_get. rewrite EI. reflexivity.
    - assert (Li : length (tb_ins b) = tb_num_in b) by (destruct (sh_ins _ Sh) as [Q|Q]; [rewrite EI in Q; discriminate|exact Q]).
      assert (EA : tb_asset b = None) by (destruct (tb_asset b) eqn:Q; [exfalso; apply HN; split; [rewrite EI; discriminate|intros; congruence]|reflexivity]).
      assert (HE : exists i r, nth_error (tb_ins b) i = Some r /\ cred_pk (policy (asset_def r)) <> pt_id).
      { assert (G : forall l : list RecordOpening, (forall r, In r l -> cred_pk (policy (asset_def r)) = pt_id) \/ exists i r, nth_error l i = Some r /\ cred_pk (policy (asset_def r)) <> pt_id).
        { induction l as [|r l [IH|(i & x & X1 & X2)]]; [left; intros r []| |right; exists (Datatypes.S i), x; auto].
          destruct (point_eqb (cred_pk (policy (asset_def r))) pt_id) eqn:Q.
          - apply (point_eqb_spec L) in Q. left. intros x [<-|Hx]; [exact Q|exact (IH x Hx)].
          - right. exists 0%nat, r. split; [reflexivity|]. intros W. apply (point_eqb_spec L) in W. congruence. }
        destruct (G (tb_ins b)) as [G1|G1]; [|exact G1]. exfalso. apply HN. split; [rewrite EI; discriminate|]. intros r Hr N. destruct N. apply G1. exact Hr. }
      destruct HE as (i & r & Hr & N).
      assert (Hi : (i < tb_num_in b)%nat) by (rewrite <- Li; apply nth_error_Some; congruence).
      assert (P : input_cred attrs expiry b i = Panic).
      { unfold input_cred, vec_get. rewrite Hr. cbn [bind]. destruct (point_eqb _ _) eqn:Q; [apply (point_eqb_spec L) in Q; contradiction|]. rewrite EA. reflexivity. }
      rewrite (put_creds_panics attrs expiry b i); [reflexivity|apply in_seq; lia|exact P|].
      intros j Hj. apply in_seq in Hj. split; [rewrite (sh_creds _ Sh); lia|].
      destruct (nth_error (tb_ins b) j) as [x|] eqn:Q; [|apply nth_error_None in Q; lia]. unfold input_cred, vec_get. rewrite Q. cbn [bind].
      destruct (point_eqb _ _); [exists None; left; reflexivity|]. rewrite EA. exists None. right. reflexivity.
  Qed.

  (** ** All calls of a transfer builder *)
  Theorem call_exact start n_in n_out depth kps asset b0 l b c :
    size_ok start n_in n_out depth -> tb_new start n_in n_out depth kps asset = Ok b0 -> calls l b0 = Ok b ->
    (allowed c b -> exists b', call c b = Ok b' /\ effect c b b' /\ tb_num_in b' = n_in /\ tb_num_out b' = n_out /\ tb_depth b' = tb_depth b /\ tb_kps b' = kps) /\
    (~ allowed c b -> call c b = Panic).
  Proof.
    intros HS HN HC. destruct (new_shape _ _ _ _ _ _ _ HS HN) as (S0 & C0 & N1 & N2 & N3 & N4 & N5 & N6 & N7 & N8).
    destruct (calls_shape _ _ _ S0 C0 HC) as (Sh & Cu & (F1 & F2 & F3 & F4)).
    assert (G : (allowed c b -> exists b', call c b = Ok b' /\ effect c b b') /\ (~ allowed c b -> call c b = Panic)).
    { destruct c; cbn [call].
      - split; [apply reveal_live, Sh|apply reveal_panics].
      - split; [intros H; apply change_policy_live; [exact Sh|repeat split|exact H]|]. cbn [allowed]. intros H. unfold tb_set_reveal_threshold, tb_change_policy. destruct (tb_asset b); [destruct H; discriminate|reflexivity].
      - split; [intros H; apply change_policy_live; [exact Sh|repeat split|exact H]|]. cbn [allowed]. intros H. unfold tb_set_reveal_map, tb_change_policy. destruct (tb_asset b); [destruct H; discriminate|reflexivity].
      - split; [intros [H1 H2]; apply set_inputs_live; assumption|]. cbn [allowed]. intros H. unfold tb_set_input_amounts.
        destruct (Nat.eqb_spec (length (tb_ins b)) 0) as [Q1|Q1]; [|reflexivity]. cbn [negb]. destruct (Nat.eqb_spec (length amounts + 1) (tb_num_in b)) as [Q2|Q2]; [|reflexivity].
        destruct H. split; [apply length_zero_iff_nil; exact Q1|exact Q2].
      - split; [intros [H1 H2]; apply set_outputs_live; assumption|]. cbn [allowed]. intros H. unfold tb_set_output_amounts.
        destruct (Nat.eqb_spec (length (tb_outs b)) 0) as [Q1|Q1]; [|reflexivity]. cbn [negb]. destruct (Nat.eqb_spec (length amounts + 1) (tb_num_out b)) as [Q2|Q2]; [|reflexivity].
        destruct H. split; [apply length_zero_iff_nil; exact Q1|exact Q2].
      - split; [apply set_creds_live, Sh|apply set_creds_panics, Sh].
      - unfold tb_update_input_freeze_flag. rewrite assert_index_dec. cbn [allowed effect]. destruct (Nat.ltb_spec i (length (tb_ins b))); split; intros H'; try lia; [|reflexivity].
        apply change_input_live; [exact Sh|reflexivity|reflexivity|exact H].
      - unfold tb_update_fee_input_asset_def. cbn [allowed effect]. split; intros H'.
        + apply change_input_live; [exact Sh|reflexivity|reflexivity|]. destruct (tb_ins b); [contradiction|cbn [length]; lia].
        + apply change_input_panics. intros Q. apply H'. intros W. rewrite W in Q. cbn in Q. lia.
      - unfold tb_update_input_asset_def. rewrite assert_index_dec. cbn [allowed effect]. replace (Datatypes.S i) with (i + 1)%nat by lia. destruct (Nat.ltb_spec i (length (tb_ins b))); split; intros H'; try lia; [| |reflexivity].
        + apply change_input_live; [exact Sh|reflexivity|reflexivity|exact H'].
        + apply change_input_panics. exact H'.
      - unfold tb_set_dummy_input_record. rewrite assert_index_dec. cbn [allowed effect]. replace (Datatypes.S i) with (i + 1)%nat by lia. destruct (Nat.ltb_spec i (length (tb_ins b))); split; intros H'; try lia; [| |reflexivity].
        + apply change_input_live; [exact Sh|reflexivity|reflexivity|exact H'].
        + apply change_input_panics. exact H'.
      - unfold tb_update_fee_chg_asset_def. cbn [allowed effect]. split; [intros _|intros H'; destruct H'; exact I]. eexists. split; [reflexivity|]. repeat split.
      - unfold tb_update_output_asset_def, vec_get. cbn [allowed effect]. destruct (nth_error (tb_outs b) i) as [r|] eqn:Hr; cbn [bind]; split; intros H'.
        + unfold vec_set. destruct (Nat.ltb_spec i (length (tb_outs b))); [|lia]. cbn [bind]. eexists. split; [reflexivity|]. cbn [tb_set_outs tb_asset tb_ins tb_chg tb_creds tb_outs].
          repeat (split; [reflexivity|]). apply (set_changed i _ _ r); [exact Hr|reflexivity].
        + exfalso. apply H'. apply nth_error_Some. congruence.
        + apply nth_error_None in Hr. lia.
        + reflexivity.
      - unfold tb_update_fee_input_amount. cbn [allowed effect]. split; intros H'.
        + apply change_input_live; [exact Sh|reflexivity|reflexivity|]. destruct (tb_ins b); [contradiction|cbn [length]; lia].
        + apply change_input_panics. intros Q. apply H'. intros W. rewrite W in Q. cbn in Q. lia.
      - unfold tb_update_input_amount. rewrite assert_index_dec. cbn [allowed effect]. replace (Datatypes.S i) with (i + 1)%nat by lia. destruct (Nat.ltb_spec i (length (tb_ins b))); split; intros H'; try lia; [| |reflexivity].
        + apply change_input_live; [exact Sh|reflexivity|reflexivity|exact H'].
        + apply change_input_panics. exact H'. }
    destruct G as [G1 G2]. split; [|exact G2]. intros HA. destruct (G1 HA) as (b' & B1 & B2). exists b'. split; [exact B1|]. split; [exact B2|].
    destruct (call_shape _ _ _ Sh Cu B1) as (_ & _ & (D1 & D2 & D3 & D4)). repeat split; congruence.
  Qed.
  (** ** Freeze builders *)
  Lemma put_freeze_accs_live depth leaves : forall uids idx l, (idx + length uids <= length l)%nat ->
    (forall u, In u uids -> exists a, lookup_from_tree depth leaves u = Ok a) -> exists l', put_freeze_accs depth leaves idx uids l = Ok l'.
  Proof.
    induction uids as [|u us IH]; intros idx l Hl H; cbn [put_freeze_accs]; [eexists; reflexivity|]. cbn [length] in Hl. unfold vec_get.
    destruct (nth_error l idx) as [x|] eqn:Hx; [|exfalso; apply nth_error_None in Hx; lia]. cbn [bind].
    destruct (H u (or_introl eq_refl)) as (a & ->). cbn [bind]. unfold vec_set. destruct (Nat.ltb_spec idx (length l)); [|lia]. cbn [bind].
    apply IH; [rewrite list_set_length; lia|]. intros u' Hu. apply H. right; exact Hu.
  Qed.
  Lemma freeze_refreshed b : fb_room b -> exists b', fb_refresh b = Ok b' /\ freeze_current b b' /\ fb_room b' /\
    map zi_ro (fb_inputs b') = map zi_ro (fb_inputs b) /\ fb_fee_ro b' = fb_fee_ro b.
  Proof.
    intros [R1 R2]. unfold fb_refresh, fb_update_accs. cbn [bind]. cbv zeta. fold (fb_leaves b). pose proof (fb_leaves_length b) as LL.
    assert (H64 : Z.of_nat (length (fb_leaves b)) < 2 ^ 64) by lia. assert (Hcap : Z.of_nat (length (fb_leaves b)) <= 3 ^ Z.of_nat (fb_depth b)) by lia.
    destruct (put_freeze_accs_live (fb_depth b) (fb_leaves b) (uids_from 0 (length (fb_inputs b))) 0 (fb_inputs b)) as (ins & Hi).
    { rewrite uids_from_length. lia. }
    { intros u Hu. unfold uids_from in Hu. apply in_map_iff in Hu. destruct Hu as (i & <- & Hi). apply in_seq in Hi. apply lookup_live; lia. }
    rewrite Hi. cbn [bind]. destruct (lookup_live (fb_depth b) (fb_leaves b) (length (fb_inputs b))) as (a & Ha); [lia|lia|]. rewrite Ha. cbn [bind].
    destruct (put_freeze_accs_spec _ _ _ _ _ _ Hi) as (P1 & P2 & P3 & P4).
    assert (Li : length ins = length (fb_inputs b)) by (rewrite <- (map_length zi_ro ins), P1, map_length; reflexivity).
    eexists. split; [reflexivity|]. unfold freeze_current, fb_room, fb_fee_ro. cbn [fb_inputs fb_depth fb_fee fb_fee_in fi_ro fi_kp fi_acc]. rewrite P1, P2, Li.
    assert (EL : map derive_record_commitment (map zi_ro (fb_inputs b)) ++ [derive_record_commitment (fi_ro (fb_fee_in b))] = fb_leaves b) by reflexivity.
    rewrite EL. split; [|split; [split; assumption|split; reflexivity]]. repeat (split; [reflexivity|]).
    assert (NF : nth_error (fb_leaves b) (length (fb_inputs b)) = Some (derive_record_commitment (fi_ro (fb_fee_in b)))).
    { unfold fb_leaves, fb_input_ros. rewrite nth_error_app2 by (rewrite !map_length; lia). rewrite !map_length, Nat.sub_diag. reflexivity. }
    destruct (lookup_proves _ _ _ _ _ H64 Hcap NF Ha) as [A1 A2]. split; [exact A2|]. split; [exact A1|].
    intros i x Hx. assert (Hin : (i < length (fb_inputs b))%nat) by (rewrite <- Li; apply nth_error_Some; congruence).
    destruct (P3 i _ (uids_from_nth 0 _ i Hin)) as (x' & X1 & X2). change (0 + i)%nat with i in X1, X2. rewrite Hx in X1. injection X1 as <-.
    destruct (nth_map_ro zi_ro _ _ _ _ P1 Hx) as (y & Y1 & Y2).
    destruct (lookup_proves (fb_depth b) (fb_leaves b) i (zi_ro x) (zi_acc x) H64 Hcap) as [B1 B2]; [|exact X2|split; assumption].
    unfold fb_leaves, fb_input_ros. rewrite nth_error_app1 by (rewrite !map_length; exact Hin). rewrite !nth_error_map, Y1. cbn [option_map]. rewrite Y2. reflexivity.
  Qed.
  Lemma freeze_current_trans b0 b b' : freeze_current b0 b -> freeze_current b b' -> freeze_current b0 b'.
  Proof.
    intros (A1 & A2 & A3 & A4 & _) (B1 & B2 & B3 & B4 & B5). split; [congruence|]. split; [congruence|]. split; [congruence|]. split; [congruence|]. exact B5.
  Qed.
  Lemma map_list_set {A B} (f : A -> B) : forall i x l, map f (list_set i x l) = list_set i (f x) (map f l).
  Proof. induction i as [|i IH]; intros x [|y l]; cbn [list_set map]; try reflexivity. rewrite IH. reflexivity. Qed.
  Lemma list_set_same {A} : forall i (x : A) l, nth_error l i = Some x -> list_set i x l = l.
  Proof. induction i as [|i IH]; intros x [|y l] H; cbn [list_set nth_error] in *; try discriminate; [congruence|]. rewrite IH by exact H. reflexivity. Qed.
  Lemma change_frozen_live i f b (R : RecordOpening -> RecordOpening -> Prop) : fb_room b -> (forall r, R r (f r)) -> (i < length (fb_inputs b))%nat ->
    exists b', fb_change_input i f b = Ok b' /\ freeze_current b b' /\ fb_room b' /\ input_record_changed i R b b'.
  Proof.
    intros Ro HR Hi. destruct (nth_error (fb_inputs b) i) as [x|] eqn:Hx; [|exfalso; apply nth_error_None in Hx; lia].
    unfold fb_change_input, vec_get. rewrite Hx. cbn [bind]. unfold vec_set. destruct (Nat.ltb_spec i (length (fb_inputs b))); [|lia]. cbn [bind].
    set (b1 := mkFB _ _ _ _). destruct (freeze_refreshed b1) as (b' & B1 & B2 & B3 & B4 & B5).
    { unfold fb_room, b1. cbn [fb_inputs fb_depth]. rewrite list_set_length. exact Ro. }
    exists b'. split; [exact B1|]. split; [|split; [exact B3|]].
    - destruct B2 as (C1 & C2 & C3 & C4 & C5). split; [exact C1|]. split; [exact C2|]. split; [|split; [exact C4|exact C5]].
      rewrite C3. unfold b1. cbn [fb_inputs]. rewrite map_list_set. apply list_set_same. rewrite nth_error_map, Hx. reflexivity.
    - split; [|exact B5]. rewrite B4. unfold b1. cbn [fb_inputs]. rewrite map_list_set. apply (set_changed i R _ (zi_ro x)); [rewrite nth_error_map, Hx; reflexivity|apply HR].
  Qed.
  Lemma change_fee_live f b (R : RecordOpening -> RecordOpening -> Prop) : fb_room b -> (forall r, R r (f r)) ->
    exists b', fb_change_fee f b = Ok b' /\ freeze_current b b' /\ fb_room b' /\ fee_record_changed R b b'.
  Proof.
    intros Ro HR. unfold fb_change_fee. set (b1 := mkFB _ _ _ _). destruct (freeze_refreshed b1 Ro) as (b' & B1 & B2 & B3 & B4 & B5).
    exists b'. split; [exact B1|]. split; [exact B2|]. split; [exact B3|]. split; [exact B4|]. rewrite B5. apply HR.
  Qed.
  Lemma acall_step c b : fb_room b ->
    (aallowed c b -> exists b', acall c b = Ok b' /\ freeze_current b b' /\ fb_room b' /\ aeffect c b b') /\ (~ aallowed c b -> acall c b = Panic).
  Proof.
    intros Ro. destruct c; cbn [acall aallowed aeffect].
    - unfold fb_update_input_freeze_flag. rewrite assert_index_dec. destruct (Nat.ltb_spec i (length (fb_inputs b))); split; intros H'; try lia; [|reflexivity].
      apply change_frozen_live; [exact Ro|reflexivity|exact H'].
    - unfold fb_update_input_policy. rewrite assert_index_dec. destruct (Nat.ltb_spec i (length (fb_inputs b))); split; intros H'; try lia; [|reflexivity].
      apply change_frozen_live; [exact Ro|reflexivity|exact H'].
    - split; [intros _; apply change_fee_live; [exact Ro|reflexivity]|intros H; destruct H; exact I].
    - split; [intros _; apply change_fee_live; [exact Ro|reflexivity]|intros H; destruct H; exact I].
    - split; [intros _; apply change_fee_live; [exact Ro|reflexivity]|intros H; destruct H; exact I].
  Qed.
  Lemma freeze_inputs_nth s : forall l i j, nth_error (freeze_inputs s i l) j = match nth_error l j with
    | Some (a, k) => Some (mkFIn (mkRO a (mkDef (code (fs_def s (i + j)%nat)) (set_freezer_pub_key (freezer_pub_key k) (policy (fs_def s (i + j)%nat)))) (user_pub_key (fs_user s (i + j)%nat))
                                   Unfrozen (fs_blind s (i + j)%nat)) acc_default k)
    | None => None end.
  Proof.
    induction l as [|[a k] l IH]; intros i [|j]; cbn [freeze_inputs nth_error]; try reflexivity.
    - rewrite Nat.add_0_r. reflexivity.
    - rewrite IH. replace (i + 1 + j)%nat with (i + Datatypes.S j)%nat by lia. reflexivity.
  Qed.
  (** a new freeze builder *)
  Theorem freeze_new_exact s depth amounts fee_in fee fee_kp kps :
    Z.of_nat (length kps) + 1 < 2 ^ 64 -> Z.of_nat (length kps) + 1 <= 3 ^ Z.of_nat depth ->
    (length amounts = length kps -> exists b, fb_new s depth amounts fee_in fee fee_kp kps = Ok b /\ freeze_current b b /\ fb_room b /\
       fb_depth b = depth /\ fb_fee b = fee /\ map zi_kp (fb_inputs b) = kps /\ fi_kp (fb_fee_in b) = fee_kp /\
       fb_fee_ro b = mkRO fee_in asset_def_native (user_pub_key fee_kp) Unfrozen (fs_fee_blind s) /\
       map (fun i => amount (zi_ro i)) (fb_inputs b) = amounts /\
       forall i x, nth_error (fb_inputs b) i = Some x -> freeze_flag (zi_ro x) = Unfrozen /\ pub_key (zi_ro x) = user_pub_key (fs_user s i) /\ blind (zi_ro x) = fs_blind s i /\
         code (asset_def (zi_ro x)) = code (fs_def s i) /\ policy (asset_def (zi_ro x)) = set_freezer_pub_key (freezer_pub_key (zi_kp x)) (policy (fs_def s i))) /\
    (length amounts <> length kps -> fb_new s depth amounts fee_in fee fee_kp kps = Panic).
  Proof.
    intros R1 R2. unfold fb_new. destruct (Nat.eqb_spec (length amounts) (length kps)) as [El|El]; cbn [negb]; split; intros H; try contradiction; [|reflexivity].
    set (b1 := mkFB _ _ _ _). destruct (freeze_inputs_spec s (combine amounts kps) 0) as (I1 & I2 & _).
    assert (Lc : length (combine amounts kps) = length kps) by (rewrite combine_length, El, Nat.min_id; reflexivity).
    assert (Ro : fb_room b1) by (unfold fb_room, b1; cbn [fb_inputs fb_depth]; rewrite I1, Lc; auto).
    destruct (freeze_refreshed b1 Ro) as (b' & B1 & B2 & B3 & B4 & B5). exists b'. split; [exact B1|].
    destruct B2 as (C1 & C2 & C3 & C4 & C5). split; [repeat (split; [reflexivity|]); exact C5|]. split; [exact B3|]. split; [exact C1|]. split; [exact C2|].
    assert (KP : map zi_kp (fb_inputs b') = kps) by (rewrite C3; unfold b1; cbn [fb_inputs]; rewrite I2; apply combine_snd; exact El).
    split; [exact KP|]. split; [exact C4|]. split; [exact B5|].
    assert (RO : forall i x, nth_error (fb_inputs b') i = Some x -> exists a k, nth_error amounts i = Some a /\ nth_error kps i = Some k /\
       zi_ro x = mkRO a (mkDef (code (fs_def s i)) (set_freezer_pub_key (freezer_pub_key k) (policy (fs_def s i)))) (user_pub_key (fs_user s i)) Unfrozen (fs_blind s i)).
    { intros i x Hx. destruct (nth_map_ro zi_ro _ _ _ _ B4 Hx) as (y & Y1 & Y2). unfold b1 in Y1. cbn [fb_inputs] in Y1. rewrite freeze_inputs_nth in Y1.
      destruct (nth_error (combine amounts kps) i) as [[a k]|] eqn:EC; [|discriminate]. injection Y1 as <-. apply nth_combine in EC. destruct EC as [E1 E2]. cbn [fst snd] in E1, E2. exists a, k. auto. }
    assert (Lb : length (fb_inputs b') = length amounts) by (rewrite <- (map_length zi_ro (fb_inputs b')), B4, map_length; unfold b1; cbn [fb_inputs]; congruence).
    split.
    - apply nth_ext_opt. intros i. rewrite nth_error_map. destruct (nth_error (fb_inputs b') i) as [x|] eqn:Hx; cbn [option_map].
      + destruct (RO i x Hx) as (a & k & A1 & _ & ->). rewrite A1. reflexivity.
      + symmetry. apply nth_error_None. apply nth_error_None in Hx. lia.
    - intros i x Hx. destruct (RO i x Hx) as (a & k & A1 & A2 & A3). assert (Ek : zi_kp x = k).
      { apply (f_equal (fun l => nth_error l i)) in KP. rewrite nth_error_map, Hx in KP. cbn [option_map] in KP. congruence. }
      rewrite A3, Ek. repeat split.
  Qed.
  Lemma acalls_current : forall l b0 b, fb_room b0 -> freeze_current b0 b0 -> acalls l b0 = Ok b -> freeze_current b0 b /\ fb_room b.
  Proof.
    assert (G : forall l a b0 b, fb_room b0 -> freeze_current a b0 -> acalls l b0 = Ok b -> freeze_current a b /\ fb_room b).
    { induction l as [|c l IH]; intros a b0 b Ro Cu H; cbn [acalls] in H; [injection H as <-; auto|].
      destruct (acall c b0) as [b1| |] eqn:EC; cbn [bind] in H; try discriminate.
      destruct (acall_step c b0 Ro) as [A1 A2].
      assert (HA : aallowed c b0 \/ ~ aallowed c b0) by (destruct c; cbn [aallowed]; try (left; exact I); lia).
      destruct HA as [HA|HA]; [|rewrite (A2 HA) in EC; discriminate]. destruct (A1 HA) as (b2 & B1 & B2 & B3 & _). rewrite EC in B1. injection B1 as <-.
      exact (IH a b1 b B3 (freeze_current_trans _ _ _ Cu B2) H). }
    intros l b0 b Ro Cu H. exact (G l b0 b0 b Ro Cu H).
  Qed.
  Theorem acall_exact s depth amounts fee_in fee fee_kp kps b0 l b c :
    Z.of_nat (length kps) + 1 < 2 ^ 64 -> Z.of_nat (length kps) + 1 <= 3 ^ Z.of_nat depth ->
    fb_new s depth amounts fee_in fee fee_kp kps = Ok b0 -> acalls l b0 = Ok b ->
    freeze_current b0 b /\ (aallowed c b -> exists b', acall c b = Ok b' /\ aeffect c b b' /\ freeze_current b0 b') /\ (~ aallowed c b -> acall c b = Panic).
  Proof.
    intros R1 R2 HN HC. destruct (freeze_new_exact s depth amounts fee_in fee fee_kp kps R1 R2) as [A1 A2].
    destruct (Nat.eq_dec (length amounts) (length kps)) as [El|El]; [|rewrite (A2 El) in HN; discriminate].
    destruct (A1 El) as (b1 & B1 & B2 & B3 & _). rewrite HN in B1. injection B1 as <-.
    destruct (acalls_current l b0 b B3 B2 HC) as [D1 D2]. split; [exact D1|]. destruct (acall_step c b D2) as [E1 E2]. split; [|exact E2].
    intros HA. destruct (E1 HA) as (b' & G1 & G2 & G3 & G4). exists b'. split; [exact G1|]. split; [exact G4|]. exact (freeze_current_trans _ _ _ D1 G2).
  Qed.

  (** ** Mint builders *)
  Theorem mint_new_exact bl_fee seed bl_mint depth input_amount fee mint_amount minter receiver viewer :
    let c := new_domestic seed arbitrary_description in
    (c = native_asset_code \/ c = dummy_asset_code -> mb_new bl_fee seed bl_mint depth input_amount fee mint_amount minter receiver viewer = Panic) /\
    (c <> native_asset_code -> c <> dummy_asset_code -> exists b, mb_new bl_fee seed bl_mint depth input_amount fee mint_amount minter receiver viewer = Ok b /\
      mb_fee_ro b = mkRO input_amount asset_def_native (user_pub_key minter) Unfrozen bl_fee /\ mb_fee b = fee /\ mb_minter b = minter /\ mb_depth b = depth /\
      mb_mint_ro b = mkRO mint_amount (mb_def b) (user_pub_key receiver) Unfrozen bl_mint /\ mb_seed b = seed /\ mb_receiver b = receiver /\ mb_viewer b = viewer /\
      code (mb_def b) = new_domestic seed (mb_description b) /\ policy (mb_def b) = set_viewer_pub_key (viewer_pub_key viewer) policy_default /\
      acc_uid (mb_acc b) = w64 0 /\ proves depth (tree_root depth [derive_record_commitment (mb_fee_ro b)]) (mb_fee_ro b) (mb_acc b)).
  Proof.
    cbv zeta. unfold mb_new. cbv zeta. unfold asset_def_new. split; intros H.
    { destruct (zeqb _ _ || zeqb _ _) eqn:Q; [reflexivity|]. apply orb_false_iff in Q. destruct Q as [Q1 Q2]. destruct H as [H|H]; apply zeqb_spec in H; congruence. }
    intros H'. assert (Q : zeqb (new_domestic seed arbitrary_description) native_asset_code || zeqb (new_domestic seed arbitrary_description) dummy_asset_code = false).
    { apply orb_false_iff. split; apply not_true_iff_false; intros W; apply zeqb_spec in W; contradiction. }
    rewrite Q. cbn [unwrap bind code policy]. unfold mb_refresh. cbn [mb_depth mb_fee_ro ro_new].
    set (ro := ro_new bl_fee input_amount _ _ _).
    destruct (lookup_live depth [derive_record_commitment ro] 0) as (a & Ha); [cbn; lia|cbn; lia|]. change (w64 (Z.of_nat 0)) with (w64 0) in Ha. rewrite Ha. cbn [bind].
    eexists. split; [reflexivity|]. cbn [mb_set_acc mb_fee_ro mb_fee mb_minter mb_depth mb_mint_ro mb_seed mb_receiver mb_viewer mb_def mb_description mb_acc code policy].
    repeat (split; [reflexivity|]).
    apply (lookup_proves depth [derive_record_commitment ro] 0 ro a); [cbn; lia| |reflexivity|exact Ha].
    cbn [length]. change (Z.of_nat 1) with (3 ^ 0). apply Z.pow_le_mono_r; lia.
  Qed.
  Theorem mint_reveal_exact a b :
    (index_in_range a -> exists b', mb_policy_reveal a b = Ok b' /\ code (mb_def b') = code (mb_def b) /\ flags_added a (policy (mb_def b)) (policy (mb_def b')) /\
       mb_mint_ro b' = mkRO (amount (mb_mint_ro b)) (mb_def b') (pub_key (mb_mint_ro b)) (freeze_flag (mb_mint_ro b)) (blind (mb_mint_ro b)) /\
       mb_fee_ro b' = mb_fee_ro b /\ mb_fee b' = mb_fee b /\ mb_minter b' = mb_minter b /\ mb_depth b' = mb_depth b /\ mb_seed b' = mb_seed b /\
       mb_description b' = mb_description b /\ mb_receiver b' = mb_receiver b /\ mb_viewer b' = mb_viewer b /\ mb_acc b' = mb_acc b) /\
    (~ index_in_range a -> mb_policy_reveal a b = Panic).
  Proof.
    unfold mb_policy_reveal. split; intros HI; [|rewrite map_reveal_panics by exact HI; reflexivity].
    destruct (map_reveal_live a (policy (mb_def b)) HI) as (m & -> & M2). cbn [bind]. cbv zeta. eexists. split; [reflexivity|].
    cbn [mb_def code policy mb_mint_ro mb_fee_ro mb_fee mb_minter mb_depth mb_seed mb_description mb_receiver mb_viewer mb_acc]. split; [reflexivity|]. split; [exact M2|]. repeat split.
  Qed.
End BuilderCalls.
