(** Proofs about the transaction-building checks (properties C03, C17-C21). *)
From Coq Require Import ZifyBool ZifyNat Permutation.
From Verif Require Import Base Config Structs Keys Utils CodecProofs PolicyProofs.

Lemma existsb_false {A} (f : A -> bool) l : existsb f l = false <-> forall x, In x l -> f x = false.
Proof.
  induction l as [|a l IH]; cbn; [intuition|]. rewrite orb_false_iff, IH. split.
  - intros [H1 H2] x [<-|H]; auto.
  - intros H; split; [apply H; auto|intros; apply H; auto].
Qed.

Lemma filter_all {A} (f : A -> bool) l : (forall x, In x l -> f x = true) -> filter f l = l.
Proof. induction l as [|a l IH]; cbn; intros H; [reflexivity|]. rewrite H by auto. f_equal; auto. Qed.

Section U.
  Context {C : CapConfig}.

  (** ** C03 *)
  Lemma calculate_fee_spec :
    (forall fees f, calculate_fee fees = Ok f <-> zsum (map zv fees) = zv f) /\
    (forall fees, zsum (map zv fees) < 2 ^ 128 -> exists f, calculate_fee fees = Ok f) /\
    (forall fees, 2 ^ 128 <= zsum (map zv fees) -> calculate_fee fees = Err IncorrectFee) /\
    (forall fees fees', Permutation fees fees' -> calculate_fee fees = calculate_fee fees').
  Proof.
    conjs.
    - intros fees f. unfold calculate_fee. rewrite ok_or_ok. apply safe_sum_some.
    - intros fees H. unfold calculate_fee. rewrite safe_sum_spec. destruct (Z.ltb_spec (zsum (map zv fees)) (2 ^ 128)); [|lia]. cbn; eauto.
    - intros fees H. unfold calculate_fee. rewrite safe_sum_spec. destruct (Z.ltb_spec (zsum (map zv fees)) (2 ^ 128)); [lia|reflexivity].
    - intros fees fees' H. unfold calculate_fee. rewrite !safe_sum_spec.
      rewrite (zsum_perm _ (map zv fees')) by (apply Permutation_map, H). reflexivity.
  Qed.

  Lemma amount_sub_ok (a b : Amount) : zv b <= zv a -> amount_sub a b = Ok (w128 (zv a - zv b)).
  Proof. intros H. unfold amount_sub. destruct (Z.leb_spec (zv b) (zv a)); [reflexivity|lia]. Qed.
  Lemma zv_w128_small z : 0 <= z < 2 ^ 128 -> zv (w128 z) = z.
  Proof. intros. rewrite zv_w128. apply Z.mod_small; lia. Qed.

  Context (L : CapLaws C).

  (** ** C17 *)
  Lemma check_fee_iff f :
    check_fee f = Ok tt <->
      zv (fee_amount f) <= zv (amount (fi_ro (fee_input f))) /\
      zv (amount (fee_chg_ro f)) = zv (amount (fi_ro (fee_input f))) - zv (fee_amount f) /\
      asset_def (fi_ro (fee_input f)) = asset_def_native /\
      asset_def (fee_chg_ro f) = asset_def_native /\
      pub_key (fee_chg_ro f) = pub_key (fi_ro (fee_input f)) /\
      merkle_root_of (f_of_u64 (acc_uid (fi_acc (fee_input f)))) (derive_record_commitment (fi_ro (fee_input f)))
                     (acc_path (fi_acc (fee_input f))) = acc_root (fi_acc (fee_input f)).
  Proof.
    unfold check_fee. set (ro := fi_ro (fee_input f)). set (acc := fi_acc (fee_input f)).
    assert (Hlt : fail_if (amount_ltb (amount ro) (fee_amount f)) InvalidParameter = Ok tt <-> zv (fee_amount f) <= zv (amount ro)).
    { rewrite fail_if_ok. unfold amount_ltb. rewrite Z.ltb_ge. reflexivity. }
    rewrite bind_ok. split.
    - intros ([] & H1 & H). apply Hlt in H1. split; [exact H1|].
      rewrite amount_sub_ok in H by exact H1. cbn [bind] in H.
      apply bind_ok in H. destruct H as ([] & H2 & H). apply fail_if_ok in H2. rewrite negb_false_iff, zeqb_spec in H2.
      apply bind_ok in H. destruct H as ([] & H3 & H). apply fail_if_ok in H3. rewrite negb_false_iff, (is_native_iff L) in H3.
      apply bind_ok in H. destruct H as ([] & H4 & H). apply fail_if_ok in H4. rewrite negb_false_iff, (is_native_iff L) in H4.
      apply bind_ok in H. destruct H as ([] & H5 & H). apply fail_if_ok in H5. rewrite negb_false_iff, (user_pub_key_eqb_spec L) in H5.
      apply fail_if_ok in H. rewrite negb_false_iff in H. apply zeqb_spec in H.
      conjs; auto. rewrite <- H2. apply zv_w128_small. pose proof (amount_range (amount ro)). pose proof (amount_range (fee_amount f)). lia.
    - intros (H1 & H2 & H3 & H4 & H5 & H6). exists tt. split; [apply Hlt, H1|].
      rewrite amount_sub_ok by exact H1. cbn [bind].
      apply bind_ok; exists tt; split.
      { apply fail_if_ok. rewrite negb_false_iff. apply zeqb_spec, zmod_ext. rewrite H2. apply zv_w128_small.
        pose proof (amount_range (amount ro)). pose proof (amount_range (fee_amount f)). lia. }
      apply bind_ok; exists tt; split; [apply fail_if_ok; rewrite negb_false_iff; apply (is_native_iff L), H3|].
      apply bind_ok; exists tt; split; [apply fail_if_ok; rewrite negb_false_iff; apply (is_native_iff L), H4|].
      apply bind_ok; exists tt; split; [apply fail_if_ok; rewrite negb_false_iff; apply (user_pub_key_eqb_spec L), H5|].
      apply fail_if_ok. rewrite negb_false_iff. apply zeqb_spec, H6.
  Qed.

  Lemma txn_fee_info_spec :
    (forall blind fin fee, zv (amount (fi_ro fin)) < zv fee -> txn_fee_info_new blind fin fee = Err InvalidParameter) /\
    (forall blind fin fee, zv fee <= zv (amount (fi_ro fin)) ->
       exists info chg, txn_fee_info_new blind fin fee = Ok (info, chg) /\
         fee_input info = fin /\ fee_amount info = fee /\ fee_chg_ro info = chg /\
         zv (amount chg) = zv (amount (fi_ro fin)) - zv fee /\ asset_def chg = asset_def_native /\
         pub_key chg = pub_key (fi_ro fin) /\ freeze_flag chg = Unfrozen /\ Structs.blind chg = blind /\
         (asset_def (fi_ro fin) = asset_def_native ->
          merkle_root_of (f_of_u64 (acc_uid (fi_acc fin))) (derive_record_commitment (fi_ro fin)) (acc_path (fi_acc fin))
            = acc_root (fi_acc fin) ->
          check_fee info = Ok tt)).
  Proof.
    split.
    - intros blind fin fee H. unfold txn_fee_info_new, amount_ltb.
      destruct (Z.ltb_spec (zv (amount (fi_ro fin))) (zv fee)); [reflexivity|lia].
    - intros blind fin fee H. unfold txn_fee_info_new, amount_ltb.
      destruct (Z.ltb_spec (zv (amount (fi_ro fin))) (zv fee)); [lia|].
      rewrite amount_sub_ok by exact H. cbn [bind]. do 2 eexists. split; [reflexivity|].
      assert (Ha : zv (w128 (zv (amount (fi_ro fin)) - zv fee)) = zv (amount (fi_ro fin)) - zv fee).
      { apply zv_w128_small. pose proof (amount_range (amount (fi_ro fin))). pose proof (amount_range fee). lia. }
      conjs; try reflexivity; [exact Ha|].
      intros Hn Hm. apply check_fee_iff. cbn [fee_input fee_amount fee_chg_ro ro_new amount asset_def pub_key].
      conjs; auto.
  Qed.

  (** ** C19 *)
  (** the transferred definition: that of the first non-dummy input after the first, native if there is none *)
  Inductive transferred : list RecordOpening -> AssetDefinition -> Prop :=
  | tr_none : transferred [] asset_def_native
  | tr_skip r l d : asset_def r = asset_def_dummy -> transferred l d -> transferred (r :: l) d
  | tr_here r l : asset_def r <> asset_def_dummy -> transferred (r :: l) (asset_def r).

  Definition xfr_def (irest : list RecordOpening) : AssetDefinition :=
    match find (fun r => negb (asset_def_eqb (asset_def r) asset_def_dummy)) irest with
    | Some r => asset_def r | None => asset_def_native end.

  Lemma transferred_iff l d : transferred l d <-> d = xfr_def l.
  Proof.
    unfold xfr_def. induction l as [|r l IH]; cbn [find].
    - split; [intros H; inversion H; reflexivity|intros ->; constructor].
    - destruct (asset_def_eqb (asset_def r) asset_def_dummy) eqn:E; cbn [negb].
      + apply (asset_def_eqb_spec L) in E. split.
        * intros H; inversion H; subst; [apply IH; assumption|contradiction].
        * intros H. apply tr_skip; [exact E|apply IH; exact H].
      + apply (asset_def_eqb_false L) in E. split.
        * intros H; inversion H; subst; [contradiction|reflexivity].
        * intros ->. constructor; exact E.
  Qed.

  Lemma check_asset_def_iff inputs outputs :
    check_asset_def inputs outputs = Ok tt <->
    exists i0 irest o0 orest d,
      inputs = i0 :: irest /\ outputs = o0 :: orest /\
      asset_def i0 = asset_def_native /\ asset_def o0 = asset_def_native /\
      transferred irest d /\
      (forall r, In r irest -> asset_def r = asset_def_dummy \/ asset_def r = d) /\
      (forall r, In r orest -> asset_def r = d) /\
      (forall r, In r (inputs ++ outputs) ->
         freezer_pk (policy (asset_def r)) <> pt_id -> viewer_pk (policy (asset_def r)) <> pt_id).
  Proof.
    unfold check_asset_def. destruct inputs as [|i0 irest].
    { split; [discriminate|]. intros (? & ? & ? & ? & ? & H & _). discriminate H. }
    destruct outputs as [|o0 orest].
    { split; [discriminate|]. intros (? & ? & ? & ? & ? & _ & H & _). discriminate H. }
    fold (xfr_def irest).
    rewrite bind_ok. setoid_rewrite bind_ok. setoid_rewrite bind_ok. setoid_rewrite bind_ok.
    setoid_rewrite fail_if_ok. setoid_rewrite negb_false_iff.
    setoid_rewrite existsb_false.
    assert (FZ : forall r, negb (point_eqb (freezer_pk (policy (asset_def r))) pt_id) &&
                           point_eqb (viewer_pk (policy (asset_def r))) pt_id = false <->
              (freezer_pk (policy (asset_def r)) <> pt_id -> viewer_pk (policy (asset_def r)) <> pt_id)).
    { intros r. rewrite andb_false_iff, negb_false_iff, (point_eqb_neq L), (point_eqb_spec L).
      split; [intros [?|?] ?; congruence|]. intros H. destruct (point_eqb (freezer_pk (policy (asset_def r))) pt_id) eqn:E.
      - apply (point_eqb_spec L) in E; auto.
      - right. apply H. apply (point_eqb_neq L), E. }
    split.
    - intros ([] & H1 & [] & H2 & [] & H3 & [] & H4 & H5).
      apply (asset_def_eqb_spec L) in H1, H2.
      exists i0, irest, o0, orest, (xfr_def irest). conjs; auto.
      + apply transferred_iff; reflexivity.
      + intros r Hr. specialize (H3 r Hr). rewrite andb_false_iff, !negb_false_iff, !(asset_def_eqb_spec L) in H3. exact H3.
      + intros r Hr. specialize (H4 r Hr). rewrite negb_false_iff, (asset_def_eqb_spec L) in H4. exact H4.
      + intros r Hr. apply FZ, H5, Hr.
    - intros (i0' & ir' & o0' & or' & d & [= <- <-] & [= <- <-] & H1 & H2 & H3 & H4 & H5 & H6).
      apply transferred_iff in H3. subst d.
      exists tt; split; [apply (asset_def_eqb_spec L), H1|].
      exists tt; split; [apply (asset_def_eqb_spec L), H2|].
      exists tt; split; [|exists tt; split].
      + intros r Hr. rewrite andb_false_iff, !negb_false_iff, !(asset_def_eqb_spec L). apply H4, Hr.
      + intros r Hr. rewrite negb_false_iff, (asset_def_eqb_spec L). apply H5, Hr.
      + intros r Hr. apply FZ, H6, Hr.
  Qed.

  (** ** C20 *)
  Lemma all_insert_iff seen l : all_insert seen l = true <-> NoDup l /\ forall x, In x l -> ~ In x seen.
  Proof.
    revert seen; induction l as [|x l IH]; intros seen; cbn [all_insert].
    - split; [intros _; split; [constructor|intros ? []]|reflexivity].
    - assert (E : existsb (zeqb x) seen = true <-> In x seen).
      { rewrite existsb_exists. split; [intros (y & Hy & E); apply zeqb_spec in E; subst; exact Hy|].
        intros H; exists x; split; [exact H|apply zeqb_refl]. }
      destruct (existsb (zeqb x) seen).
      + split; [discriminate|]. intros [_ H]. exfalso. apply (H x); [left; reflexivity|apply E; reflexivity].
      + rewrite IH. assert (Hn : ~ In x seen) by (rewrite <- E; discriminate). split.
        * intros [Hd Hs]. split.
          -- constructor; [|exact Hd]. intros Hx. apply (Hs x Hx). left; reflexivity.
          -- intros y [<-|Hy]; [exact Hn|]. intros Hin. apply (Hs y Hy). right; exact Hin.
        * intros [Hd Hs]. inversion Hd as [|? ? Hx Hd']; subst. split; [exact Hd'|].
          intros y Hy [<-|Hin]; [contradiction|]. apply (Hs y); [right; exact Hy|exact Hin].
  Qed.

  Lemma check_distinct_iff l :
    (check_distinct_input_nullifiers l = Ok tt <-> NoDup l) /\
    (~ NoDup l -> check_distinct_input_nullifiers l = Err InvalidParameter).
  Proof.
    unfold check_distinct_input_nullifiers.
    destruct (all_insert [] l) eqn:E.
    - apply all_insert_iff in E. destruct E as [E _]. split; [split; auto|contradiction].
    - split; [|reflexivity]. split; [discriminate|]. intros H. exfalso.
      assert (all_insert [] l = true) by (apply all_insert_iff; split; [exact H|intros ? ? []]). congruence.
  Qed.

  (** ** C21 *)
  Lemma freeze_outputs_spec blinds inputs :
    length (freeze_get_output_ros blinds inputs) = length inputs /\
    forall i x y, nth_error inputs i = Some x -> nth_error (freeze_get_output_ros blinds inputs) i = Some y ->
      amount y = amount (zi_ro x) /\ asset_def y = asset_def (zi_ro x) /\ pub_key y = pub_key (zi_ro x) /\
      freeze_flag y = flip (freeze_flag (zi_ro x)) /\ blind y = blinds i.
  Proof.
    unfold freeze_get_output_ros. split.
    - rewrite map_length, combine_length, seq_length. lia.
    - assert (G : forall l k i x y, nth_error l i = Some x ->
         nth_error (map (fun ni => freeze_flip_ro (blinds (fst ni)) (zi_ro (snd ni))) (combine (seq k (length l)) l)) i = Some y ->
         amount y = amount (zi_ro x) /\ asset_def y = asset_def (zi_ro x) /\ pub_key y = pub_key (zi_ro x) /\
         freeze_flag y = flip (freeze_flag (zi_ro x)) /\ blind y = blinds (k + i)%nat).
      { induction l as [|a l IH]; intros k [|i] x y; cbn [nth_error length seq combine map]; try discriminate.
        - intros [= <-] [= <-]. cbn. rewrite Nat.add_0_r. auto.
        - intros Hx Hy. rewrite Nat.add_succ_r, <- Nat.add_succ_l. apply (IH (S k) i x y Hx Hy). }
      intros i x y Hx Hy. apply (G inputs 0%nat i x y Hx Hy).
  Qed.

  Lemma freeze_twice b b' r : freeze_flip_ro b' (freeze_flip_ro b r) = mkRO (amount r) (asset_def r) (pub_key r) (freeze_flag r) b'.
  Proof. unfold freeze_flip_ro; cbn. destruct (freeze_flag r); reflexivity. Qed.
End U.

(** ** C18 *)
Section Balance.
  Context {C : CapConfig}.

  (** Specification: sum of the amounts of the records with a given asset code. *)
  Definition code_sum (c : F) (l : list RecordOpening) : Z :=
    zsum (map (fun r => zv (amount r)) (filter (fun r => zeqb (code (asset_def r)) c) l)).
  Definition non_dummy (l : list RecordOpening) : list RecordOpening :=
    filter (fun r => negb (is_dummy_def (asset_def r))) l.

  Lemma code_sum_nil c : code_sum c [] = 0. Proof. reflexivity. Qed.
  Lemma code_sum_cons c r l : code_sum c (r :: l) = (if zeqb (code (asset_def r)) c then zv (amount r) else 0) + code_sum c l.
  Proof. unfold code_sum. cbn [filter]. destruct (zeqb _ c); cbn [map]; unfold zsum; cbn [fold_right]; lia. Qed.
  Lemma code_sum_app c l1 l2 : code_sum c (l1 ++ l2) = code_sum c l1 + code_sum c l2.
  Proof. induction l1 as [|r l IH]; [reflexivity|]. cbn [app]. rewrite !code_sum_cons, IH. lia. Qed.
  Lemma code_sum_nonneg c l : 0 <= code_sum c l.
  Proof. induction l as [|r l IH]; [reflexivity|]. rewrite code_sum_cons. pose proof (amount_range (amount r)). destruct (zeqb _ _); lia. Qed.

  Definition amt (r : RecordOpening) : Z := zv (amount r).

  (** *** exactness modulo 2^128 in every profile *)
  Definition eq128 (a b : Z) : Prop := a mod 2 ^ 128 = b mod 2 ^ 128.
  Lemma eq128_refl a : eq128 a a. Proof. reflexivity. Qed.
  Lemma eq128_trans a b c : eq128 a b -> eq128 b c -> eq128 a c. Proof. unfold eq128; congruence. Qed.
  Lemma eq128_add a b c d : eq128 a b -> eq128 c d -> eq128 (a + c) (b + d).
  Proof. unfold eq128; intros H1 H2. rewrite (Zplus_mod a), (Zplus_mod b), H1, H2. reflexivity. Qed.
  Lemma eq128_opp a b : eq128 a b -> eq128 (- a) (- b).
  Proof.
    unfold eq128. intros H. replace (- a) with (0 - a) by lia. replace (- b) with (0 - b) by lia.
    rewrite (Zminus_mod 0 a), (Zminus_mod 0 b), H. reflexivity.
  Qed.
  Lemma i128_wrap_eq z : eq128 (i128_wrap z) z.
  Proof.
    unfold eq128, i128_wrap. rewrite Zminus_mod_idemp_l. f_equal. lia.
  Qed.
  Lemma i128_res_eq z v : i128_res z = Ok v -> eq128 v z.
  Proof.
    unfold i128_res. destruct (i128_in z); [intros [= <-]; reflexivity|].
    destruct overflow_checks; [discriminate|]. intros [= <-]. apply i128_wrap_eq.
  Qed.
  Lemma i128_of_u128_eq x : eq128 (i128_of_u128 x) (zv x).
  Proof. apply i128_wrap_eq. Qed.

  Fixpoint bal_get (k : F) (m : balances) : Z :=
    match m with [] => 0 | (k', v) :: m' => if zeqb k k' then v else bal_get k m' end.

  Lemma zeqb_sym {m} (a b : zmod m) : zeqb a b = zeqb b a.
  Proof. unfold zeqb. apply Z.eqb_sym. Qed.

  Lemma bal_add_eq k d m m' : bal_add k d m = Ok m' ->
    forall j, eq128 (bal_get j m') (bal_get j m + (if zeqb k j then d else 0)).
  Proof.
    revert m'; induction m as [|[k' v] m IH]; intros m' H j; cbn [bal_add bal_get] in *.
    - injection H as <-. cbn [bal_get]. rewrite zeqb_sym. destruct (zeqb k j); reflexivity.
    - destruct (zeqb_reflect k k') as [->|Hn].
      + apply bind_ok in H. destruct H as (v' & Hv & H). injection H as <-. cbn [bal_get]. rewrite (zeqb_sym k' j).
        destruct (zeqb_reflect j k') as [->|]; [apply i128_res_eq, Hv|]. rewrite Z.add_0_r. reflexivity.
      + apply bind_ok in H. destruct H as (m'' & Hm & H). injection H as <-. cbn [bal_get].
        destruct (zeqb_reflect j k') as [->|Hj]; [|apply IH, Hm].
        destruct (zeqb_reflect k k'); [contradiction|]. rewrite Z.add_0_r. reflexivity.
  Qed.
  Lemma bal_sub_eq k d m m' : bal_sub k d m = Ok m' ->
    forall j, eq128 (bal_get j m') (bal_get j m - (if zeqb k j then d else 0)).
  Proof.
    revert m'; induction m as [|[k' v] m IH]; intros m' H j; cbn [bal_sub bal_get] in *.
    - apply bind_ok in H. destruct H as (nd & Hn & H). injection H as <-. cbn [bal_get]. rewrite zeqb_sym.
      destruct (zeqb k j); [apply i128_res_eq, Hn|reflexivity].
    - destruct (zeqb_reflect k k') as [->|Hn].
      + apply bind_ok in H. destruct H as (v' & Hv & H). injection H as <-. cbn [bal_get]. rewrite (zeqb_sym k' j).
        destruct (zeqb_reflect j k') as [->|]; [apply i128_res_eq, Hv|]. rewrite Z.sub_0_r. reflexivity.
      + apply bind_ok in H. destruct H as (m'' & Hm & H). injection H as <-. cbn [bal_get].
        destruct (zeqb_reflect j k') as [->|Hj]; [|apply IH, Hm].
        destruct (zeqb_reflect k k'); [contradiction|]. rewrite Z.sub_0_r. reflexivity.
  Qed.

  Lemma foldM_cons {A B} (f : A -> B -> res A) x l a : foldM f (x :: l) a = bind (f a x) (foldM f l).
  Proof.
    unfold foldM. cbn [fold_left bind]. destruct (f a x) as [y|e|]; cbn [bind]; [reflexivity| |].
    - induction l as [|b l IH]; cbn; auto.
    - induction l as [|b l IH]; cbn; auto.
  Qed.

  Lemma fold_add_eq l m m' :
    foldM (fun m r => bal_add (code (asset_def r)) (i128_of_u128 (amount r)) m) l m = Ok m' ->
    forall j, eq128 (bal_get j m') (bal_get j m + code_sum j l).
  Proof.
    revert m; induction l as [|r l IH]; intros m H j.
    - injection H as <-. rewrite code_sum_nil, Z.add_0_r. reflexivity.
    - rewrite foldM_cons in H. apply bind_ok in H. destruct H as (m1 & H1 & H).
      eapply eq128_trans; [apply IH, H|]. rewrite code_sum_cons, Z.add_assoc. apply eq128_add; [|reflexivity].
      eapply eq128_trans; [apply (bal_add_eq _ _ _ _ H1 j)|]. apply eq128_add; [reflexivity|].
      destruct (zeqb _ j); [apply i128_of_u128_eq|reflexivity].
  Qed.
  Lemma fold_sub_eq l m m' :
    foldM (fun m r => bal_sub (code (asset_def r)) (i128_of_u128 (amount r)) m) l m = Ok m' ->
    forall j, eq128 (bal_get j m') (bal_get j m - code_sum j l).
  Proof.
    revert m; induction l as [|r l IH]; intros m H j.
    - injection H as <-. rewrite code_sum_nil, Z.sub_0_r. reflexivity.
    - rewrite foldM_cons in H. apply bind_ok in H. destruct H as (m1 & H1 & H).
      eapply eq128_trans; [apply IH, H|]. rewrite code_sum_cons, Z.sub_add_distr.
      apply (eq128_add _ _ (- code_sum j l) (- code_sum j l)); [|reflexivity].
      eapply eq128_trans; [apply (bal_sub_eq _ _ _ _ H1 j)|].
      apply (eq128_add _ _ (- _) (- _)); [reflexivity|]. apply eq128_opp.
      destruct (zeqb _ j); [apply i128_of_u128_eq|reflexivity].
  Qed.

  Lemma bal_all_zero m : existsb (fun kv : F * Z => negb (snd kv =? 0)) m = false -> forall j, bal_get j m = 0.
  Proof.
    rewrite existsb_false. induction m as [|[k v] m IH]; intros H j; cbn [bal_get]; [reflexivity|].
    destruct (zeqb j k).
    - specialize (H (k, v) (or_introl eq_refl)). cbn in H. lia.
    - apply IH. intros x Hx; apply H; right; exact Hx.
  Qed.

  Lemma check_asset_amount_mod inputs outputs fee i0 rest :
    inputs = i0 :: rest -> check_asset_amount inputs outputs fee = Ok tt ->
    forall c, eq128 (code_sum c (non_dummy inputs))
                    (code_sum c outputs + (if zeqb (code (asset_def i0)) c then zv fee else 0)).
  Proof.
    intros Ei H c. unfold check_asset_amount in H. rewrite Ei in H. rewrite <- Ei in H.
    apply bind_ok in H. destruct H as (nf & Hnf & H). apply bind_ok in H. destruct H as (b1 & Hb1 & H).
    apply bind_ok in H. destruct H as (b2 & Hb2 & H).
    destruct (existsb _ b2) eqn:Eb; [discriminate H|]. pose proof (bal_all_zero _ Eb c) as Hz.
    pose proof (fold_add_eq _ _ _ Hb1 c) as A1. pose proof (fold_sub_eq _ _ _ Hb2 c) as A2.
    rewrite Hz in A2. cbn [bal_get] in A1. rewrite (zeqb_sym c) in A1. fold (non_dummy inputs) in A1.
    assert (Hnf' : eq128 nf (- zv fee)).
    { eapply eq128_trans; [apply i128_res_eq, Hnf|]. apply eq128_opp, i128_of_u128_eq. }
    unfold eq128 in *.
    assert (E : eq128 0 ((if zeqb (code (asset_def i0)) c then - zv fee else 0) + code_sum c (non_dummy inputs) - code_sum c outputs)).
    { eapply eq128_trans; [exact A2|]. apply (eq128_add _ _ (- _) (- _)); [|reflexivity].
      eapply eq128_trans; [exact A1|]. apply eq128_add; [|reflexivity]. destruct (zeqb _ c); [exact Hnf'|reflexivity]. }
    set (S := code_sum c outputs + (if zeqb (code (asset_def i0)) c then zv fee else 0)).
    assert (E2 : eq128 (0 + S) (code_sum c (non_dummy inputs))).
    { eapply eq128_trans; [apply eq128_add; [exact E|apply eq128_refl]|]. unfold eq128; f_equal. subst S. destruct (zeqb _ c); lia. }
    symmetry. exact E2.
  Qed.

  Lemma check_balance_mod inputs outputs fee i0 rest :
    inputs = i0 :: rest -> check_balance inputs outputs = Ok fee ->
    zv fee < 2 ^ 127 /\
    forall c, eq128 (code_sum c (non_dummy inputs))
                    (code_sum c outputs + (if zeqb (code (asset_def i0)) c then zv fee else 0)).
  Proof.
    intros Ei H. unfold check_balance in H. apply bind_ok in H. destruct H as (f & Hf & H).
    apply bind_ok in H. destruct H as ([] & Ha & H). injection H as <-. split.
    - unfold derive_fee in Hf. apply bind_ok in Hf. destruct Hf as (z & Hz & Hf).
      destruct (Z.ltb_spec z 0); [discriminate Hf|]. injection Hf as <-.
      assert (Hi : forall x v, i128_res x = Ok v -> v < 2 ^ 127).
      { intros x v. unfold i128_res, i128_in. destruct (_ && _) eqn:E; [intros [= <-]; lia|].
        destruct overflow_checks; [discriminate|]. intros [= <-]. unfold i128_wrap.
        pose proof (Z.mod_pos_bound (x + 2 ^ 127) (2 ^ 128)). lia. }
      assert (Hz' : z < 2 ^ 127).
      { destruct (forallb _ inputs).
        - apply bind_ok in Hz. destruct Hz as (si & _ & Hz). apply bind_ok in Hz. destruct Hz as (so & _ & Hz). eauto.
        - rewrite Ei in Hz. destruct outputs; [discriminate|]. eauto. }
      rewrite zv_w128, Z.mod_small; lia.
    - eapply check_asset_amount_mod; eauto.
  Qed.

  (** *** completeness under bounds *)
  Lemma i128_res_in z : - 2 ^ 127 <= z < 2 ^ 127 -> i128_res z = Ok z.
  Proof. intros H. unfold i128_res, i128_in. destruct (_ && _) eqn:E; [reflexivity|lia]. Qed.
  Lemma i128_of_small (x : u128) : zv x < 2 ^ 127 -> i128_of_u128 x = zv x.
  Proof.
    intros H. pose proof (amount_range x) as Hx. unfold i128_of_u128, i128_wrap. rewrite Z.mod_small; lia.
  Qed.

  Lemma bal_add_ok k d m : - 2 ^ 127 <= bal_get k m + d < 2 ^ 127 ->
    exists m', bal_add k d m = Ok m' /\ forall j, bal_get j m' = bal_get j m + (if zeqb k j then d else 0).
  Proof.
    induction m as [|[k' v] m IH]; cbn [bal_add bal_get]; intros H.
    - eexists; split; [reflexivity|]. intros j; cbn [bal_get]. rewrite zeqb_sym. destruct (zeqb k j); lia.
    - destruct (zeqb_reflect k k') as [->|Hn].
      + rewrite i128_res_in by exact H. cbn [bind]. eexists; split; [reflexivity|]. intros j; cbn [bal_get].
        rewrite (zeqb_sym k' j). destruct (zeqb_reflect j k'); lia.
      + destruct (IH H) as (m' & -> & Hm). cbn [bind]. eexists; split; [reflexivity|]. intros j; cbn [bal_get].
        destruct (zeqb_reflect j k') as [->|]; [|apply Hm]. destruct (zeqb_reflect k k'); [contradiction|lia].
  Qed.
  Lemma bal_sub_ok k d m : - 2 ^ 127 <= bal_get k m - d < 2 ^ 127 ->
    exists m', bal_sub k d m = Ok m' /\ forall j, bal_get j m' = bal_get j m - (if zeqb k j then d else 0).
  Proof.
    induction m as [|[k' v] m IH]; cbn [bal_sub bal_get]; intros H.
    - rewrite i128_res_in by lia. cbn [bind]. eexists; split; [reflexivity|]. intros j; cbn [bal_get]. rewrite zeqb_sym. destruct (zeqb k j); lia.
    - destruct (zeqb_reflect k k') as [->|Hn].
      + rewrite i128_res_in by exact H. cbn [bind]. eexists; split; [reflexivity|]. intros j; cbn [bal_get].
        rewrite (zeqb_sym k' j). destruct (zeqb_reflect j k'); lia.
      + destruct (IH H) as (m' & -> & Hm). cbn [bind]. eexists; split; [reflexivity|]. intros j; cbn [bal_get].
        destruct (zeqb_reflect j k') as [->|]; [|apply Hm]. destruct (zeqb_reflect k k'); [contradiction|lia].
  Qed.

  Definition small (r : RecordOpening) : Prop := zv (amount r) < 2 ^ 127.

  Lemma fold_add_ok l m : Forall small l ->
    (forall j, - 2 ^ 127 <= bal_get j m /\ bal_get j m + code_sum j l < 2 ^ 127) ->
    exists m', foldM (fun m r => bal_add (code (asset_def r)) (i128_of_u128 (amount r)) m) l m = Ok m' /\
      forall j, bal_get j m' = bal_get j m + code_sum j l.
  Proof.
    intros Hs. revert m; induction Hs as [|r l Hr Hl IH]; intros m Hb.
    - exists m. split; [reflexivity|]. intros; rewrite code_sum_nil; lia.
    - rewrite foldM_cons. rewrite i128_of_small by exact Hr.
      pose proof (Hb (code (asset_def r))) as Hk. rewrite code_sum_cons, zeqb_refl in Hk.
      pose proof (code_sum_nonneg (code (asset_def r)) l). pose proof (amount_range (amount r)).
      destruct (bal_add_ok (code (asset_def r)) (zv (amount r)) m) as (m1 & -> & H1); [lia|]. cbn [bind].
      destruct (IH m1) as (m' & -> & H').
      + intros j. rewrite H1. specialize (Hb j). rewrite code_sum_cons in Hb. destruct (zeqb _ j); lia.
      + exists m'. split; [reflexivity|]. intros j. rewrite H', H1, code_sum_cons. lia.
  Qed.
  Lemma fold_sub_ok l m : Forall small l ->
    (forall j, - 2 ^ 127 <= bal_get j m - code_sum j l /\ bal_get j m < 2 ^ 127) ->
    exists m', foldM (fun m r => bal_sub (code (asset_def r)) (i128_of_u128 (amount r)) m) l m = Ok m' /\
      forall j, bal_get j m' = bal_get j m - code_sum j l.
  Proof.
    intros Hs. revert m; induction Hs as [|r l Hr Hl IH]; intros m Hb.
    - exists m. split; [reflexivity|]. intros; rewrite code_sum_nil; lia.
    - rewrite foldM_cons. rewrite i128_of_small by exact Hr.
      pose proof (Hb (code (asset_def r))) as Hk. rewrite code_sum_cons, zeqb_refl in Hk.
      pose proof (code_sum_nonneg (code (asset_def r)) l). pose proof (amount_range (amount r)).
      destruct (bal_sub_ok (code (asset_def r)) (zv (amount r)) m) as (m1 & -> & H1); [lia|]. cbn [bind].
      destruct (IH m1) as (m' & -> & H').
      + intros j. rewrite H1. specialize (Hb j). rewrite code_sum_cons in Hb. destruct (zeqb _ j); lia.
      + exists m'. split; [reflexivity|]. intros j. rewrite H', H1, code_sum_cons. lia.
  Qed.

  Lemma bal_zero_exists m : NoDup (map fst m) -> (forall j, bal_get j m = 0) -> existsb (fun kv : F * Z => negb (snd kv =? 0)) m = false.
  Proof.
    intros Hn H. apply existsb_false. intros [k v] Hin. cbn [snd].
    assert (bal_get k m = v).
    { clear H. induction m as [|[k' v'] m IH]; [destruct Hin|]. cbn [bal_get]. inversion Hn as [|? ? Hk Hn']; subst.
      destruct Hin as [[= -> ->]|Hin].
      - rewrite zeqb_refl; reflexivity.
      - destruct (zeqb_reflect k k') as [->|]; [|apply IH; auto]. exfalso. apply Hk. apply in_map_iff. exists (k', v); auto. }
    rewrite H in H0. subst v. reflexivity.
  Qed.

  Lemma bal_add_keys k d m m' : bal_add k d m = Ok m' ->
    (forall x, In x (map fst m') -> In x (map fst m) \/ x = k) /\ (NoDup (map fst m) -> NoDup (map fst m')).
  Proof.
    revert m'; induction m as [|[k' v] m IH]; cbn [bal_add]; intros m' H.
    - injection H as <-. cbn. split; [intros x [<-|[]]; auto|]. intros _; constructor; [intros []|constructor].
    - destruct (zeqb_reflect k k') as [->|Hn].
      + apply bind_ok in H. destruct H as (v' & _ & H). injection H as <-. cbn. split; auto.
      + apply bind_ok in H. destruct H as (m'' & Hm & H). injection H as <-. destruct (IH _ Hm) as [H1 H2].
        cbn [map fst]. split.
        * intros x [<-|Hx]; [left; left; reflexivity|]. destruct (H1 x Hx); auto. left; right; auto.
        * intros Hd. inversion Hd as [|? ? Hk Hd']; subst. constructor; [|auto]. intros Hx. destruct (H1 _ Hx); [contradiction|congruence].
  Qed.
  Lemma bal_sub_keys k d m m' : bal_sub k d m = Ok m' ->
    (forall x, In x (map fst m') -> In x (map fst m) \/ x = k) /\ (NoDup (map fst m) -> NoDup (map fst m')).
  Proof.
    revert m'; induction m as [|[k' v] m IH]; cbn [bal_sub]; intros m' H.
    - apply bind_ok in H. destruct H as (nd & _ & H). injection H as <-. cbn. split; [intros x [<-|[]]; auto|].
      intros _; constructor; [intros []|constructor].
    - destruct (zeqb_reflect k k') as [->|Hn].
      + apply bind_ok in H. destruct H as (v' & _ & H). injection H as <-. cbn. split; auto.
      + apply bind_ok in H. destruct H as (m'' & Hm & H). injection H as <-. destruct (IH _ Hm) as [H1 H2].
        cbn [map fst]. split.
        * intros x [<-|Hx]; [left; left; reflexivity|]. destruct (H1 x Hx); auto. left; right; auto.
        * intros Hd. inversion Hd as [|? ? Hk Hd']; subst. constructor; [|auto]. intros Hx. destruct (H1 _ Hx); [contradiction|congruence].
  Qed.
  Lemma fold_add_nodup l m m' : foldM (fun m r => bal_add (code (asset_def r)) (i128_of_u128 (amount r)) m) l m = Ok m' ->
    NoDup (map fst m) -> NoDup (map fst m').
  Proof.
    revert m; induction l as [|r l IH]; intros m H; [injection H as <-; auto|].
    rewrite foldM_cons in H. apply bind_ok in H. destruct H as (m1 & H1 & H). intros Hd. eapply IH; [exact H|].
    apply (bal_add_keys _ _ _ _ H1), Hd.
  Qed.
  Lemma fold_sub_nodup l m m' : foldM (fun m r => bal_sub (code (asset_def r)) (i128_of_u128 (amount r)) m) l m = Ok m' ->
    NoDup (map fst m) -> NoDup (map fst m').
  Proof.
    revert m; induction l as [|r l IH]; intros m H; [injection H as <-; auto|].
    rewrite foldM_cons in H. apply bind_ok in H. destruct H as (m1 & H1 & H). intros Hd. eapply IH; [exact H|].
    apply (bal_sub_keys _ _ _ _ H1), Hd.
  Qed.

  Lemma check_asset_amount_complete inputs outputs fee i0 rest :
    inputs = i0 :: rest -> Forall small inputs -> Forall small outputs -> zv fee < 2 ^ 127 ->
    (forall c, code_sum c (non_dummy inputs) < 2 ^ 127) ->
    (forall c, code_sum c (non_dummy inputs) =
               code_sum c outputs + (if zeqb (code (asset_def i0)) c then zv fee else 0)) ->
    check_asset_amount inputs outputs fee = Ok tt.
  Proof.
    intros Ei Hi Ho Hf Hs Hb. unfold check_asset_amount. rewrite Ei. rewrite <- Ei.
    pose proof (amount_range fee) as Hfr.
    rewrite i128_of_small by exact Hf. rewrite i128_res_in by lia. cbn [bind].
    fold (non_dummy inputs).
    destruct (fold_add_ok (non_dummy inputs) [(code (asset_def i0), - zv fee)]) as (b1 & E1 & H1).
    { unfold non_dummy. apply Forall_forall. intros r Hr. apply filter_In in Hr. rewrite Forall_forall in Hi. apply Hi, Hr. }
    { intros j. cbn [bal_get]. pose proof (code_sum_nonneg j (non_dummy inputs)). specialize (Hs j). destruct (zeqb j _); lia. }
    rewrite E1. cbn [bind].
    destruct (fold_sub_ok outputs b1) as (b2 & E2 & H2).
    { exact Ho. }
    { intros j. rewrite H1. cbn [bal_get]. rewrite (zeqb_sym j). specialize (Hb j). specialize (Hs j).
      pose proof (code_sum_nonneg j outputs). destruct (zeqb _ j); lia. }
    rewrite E2. cbn [bind].
    rewrite bal_zero_exists; [reflexivity| |].
    - eapply fold_sub_nodup; [exact E2|]. eapply fold_add_nodup; [exact E1|]. cbn. constructor; [intros []|constructor].
    - intros j. rewrite H2, H1. cbn [bal_get]. rewrite (zeqb_sym j). specialize (Hb j). destruct (zeqb _ j); lia.
  Qed.

  Definition amt_sum (l : list RecordOpening) : Z := zsum (map (fun r => zv (amount r)) l).
  Lemma amt_sum_cons r l : amt_sum (r :: l) = zv (amount r) + amt_sum l. Proof. reflexivity. Qed.
  Lemma amt_sum_nonneg l : 0 <= amt_sum l.
  Proof. induction l as [|r l IH]; [reflexivity|]. rewrite amt_sum_cons. pose proof (amount_range (amount r)). lia. Qed.

  Lemma i128_sum_ok l acc : Forall small l -> 0 <= acc -> acc + amt_sum l < 2 ^ 127 ->
    fold_left (fun acc x => let* a := acc in i128_res (a + x)) (map (fun r => i128_of_u128 (amount r)) l) (Ok acc) = Ok (acc + amt_sum l).
  Proof.
    intros Hs; revert acc; induction Hs as [|r l Hr Hl IH]; intros acc Ha Hb; cbn [map fold_left].
    - f_equal. unfold amt_sum; cbn; lia.
    - cbn [bind]. rewrite i128_of_small by exact Hr. rewrite amt_sum_cons in Hb. pose proof (amount_range (amount r)).
      pose proof (amt_sum_nonneg l). rewrite i128_res_in by lia. rewrite IH by lia. rewrite amt_sum_cons. f_equal; lia.
  Qed.

  Lemma code_sum_le c l : code_sum c l <= amt_sum l.
  Proof. induction l as [|r l IH]; [reflexivity|]. rewrite code_sum_cons, amt_sum_cons. pose proof (amount_range (amount r)). destruct (zeqb _ c); lia. Qed.
  Lemma code_sum_all c l : (forall r, In r l -> code (asset_def r) = c) -> code_sum c l = amt_sum l.
  Proof.
    induction l as [|r l IH]; intros H; [reflexivity|]. rewrite code_sum_cons, amt_sum_cons.
    rewrite (H r) by (left; reflexivity). rewrite zeqb_refl. rewrite IH; [reflexivity|]. intros; apply H; right; auto.
  Qed.
  Lemma code_sum_none c l : (forall r, In r l -> code (asset_def r) <> c) -> code_sum c l = 0.
  Proof.
    induction l as [|r l IH]; intros H; [reflexivity|]. rewrite code_sum_cons.
    destruct (zeqb_reflect (code (asset_def r)) c) as [E|_]; [exfalso; apply (H r); [left; reflexivity|exact E]|].
    rewrite IH; [reflexivity|]. intros; apply H; right; auto.
  Qed.

  Context (L : CapLaws C).

  Lemma amt_sum_non_dummy l : (forall r, In r l -> asset_def r = asset_def_dummy -> zv (amount r) = 0) -> amt_sum (non_dummy l) = amt_sum l.
  Proof.
    induction l as [|r l IH]; intros H; [reflexivity|]. unfold non_dummy in *. cbn [filter].
    destruct (is_dummy_def (asset_def r)) eqn:E; cbn [negb].
    - apply (is_dummy_iff L) in E. rewrite amt_sum_cons, (H r (or_introl eq_refl) E). rewrite IH; [reflexivity|]. intros; apply H; auto. right; auto.
    - rewrite !amt_sum_cons. rewrite IH; [reflexivity|]. intros; apply H; auto. right; auto.
  Qed.

  (** With the other API checks passed and no amount or sum reaching 2^127, the check accepts exactly the balanced
      transfers and returns their fee.

      Native and dummy share no code, and the native records among the remaining inputs are only those of a native transfer, so that [derive_fee]
      takes the right branch. *)
  Lemma check_balance_exact inputs outputs fee :
    check_asset_def inputs outputs = Ok tt -> check_dummy_inputs inputs = Ok tt ->
    (forall r, In r inputs -> code (asset_def r) = native_asset_code -> asset_def r = asset_def_native) ->
    amt_sum inputs < 2 ^ 127 -> amt_sum outputs < 2 ^ 127 ->
    (check_balance inputs outputs = Ok fee <->
     forall c, code_sum c (non_dummy inputs) = code_sum c outputs + (if zeqb native_asset_code c then zv fee else 0)).
  Proof.
    intros Had Hdi Hwf Hin Hout.
    apply (check_asset_def_iff L) in Had.
    destruct Had as (i0 & irest & o0 & orest & d & Ei & Eo & Hi0 & Ho0 & Htr & Hir & Hor & _).
    assert (Hsi : Forall small inputs).
    { apply Forall_forall. intros r Hr. unfold small. clear -Hr Hin. induction inputs as [|a l IH]; [destruct Hr|].
      rewrite amt_sum_cons in Hin. pose proof (amt_sum_nonneg l). pose proof (amount_range (amount a)).
      destruct Hr as [->|Hr]; [lia|apply IH; [lia|exact Hr]]. }
    assert (Hso : Forall small outputs).
    { apply Forall_forall. intros r Hr. unfold small. clear -Hr Hout. induction outputs as [|a l IH]; [destruct Hr|].
      rewrite amt_sum_cons in Hout. pose proof (amt_sum_nonneg l). pose proof (amount_range (amount a)).
      destruct Hr as [->|Hr]; [lia|apply IH; [lia|exact Hr]]. }
    assert (Hcode0 : code (asset_def i0) = native_asset_code) by (rewrite Hi0; reflexivity).
    assert (Hdz : forall r, In r inputs -> asset_def r = asset_def_dummy -> zv (amount r) = 0).
    { intros r Hr Hd. unfold check_dummy_inputs in Hdi. rewrite Ei in Hdi, Hr.
      destruct (ro_is_dummy i0) eqn:E0; [discriminate Hdi|].
      destruct (existsb _ irest) eqn:E1; [discriminate Hdi|]. rewrite existsb_false in E1.
      destruct Hr as [<-|Hr].
      - exfalso. unfold ro_is_dummy in E0. apply (is_dummy_iff L) in Hd. congruence.
      - specialize (E1 r Hr). apply (is_dummy_iff L) in Hd. rewrite Hd in E1. cbn [andb] in E1. apply negb_false_iff, Z.eqb_eq in E1. exact E1. }
    assert (Hcs : forall c, code_sum c (non_dummy inputs) < 2 ^ 127).
    { intros c. pose proof (code_sum_le c (non_dummy inputs)). rewrite (amt_sum_non_dummy inputs Hdz) in H. lia. }
    assert (Hcs' : forall c, code_sum c outputs < 2 ^ 127).
    { intros c. pose proof (code_sum_le c outputs). lia. }
    split.
    - intros H. destruct (check_balance_mod inputs outputs fee i0 irest Ei H) as [Hf Hm].
      intros c. specialize (Hm c). rewrite Hcode0 in Hm. unfold eq128 in Hm.
      pose proof (code_sum_nonneg c (non_dummy inputs)). pose proof (code_sum_nonneg c outputs). pose proof (amount_range fee).
      specialize (Hcs c). specialize (Hcs' c). destruct (zeqb native_asset_code c);
        rewrite !Z.mod_small in Hm by lia; exact Hm.
    - intros Hb. unfold check_balance.
      assert (Hf : zv fee < 2 ^ 127).
      { specialize (Hb native_asset_code). rewrite zeqb_refl in Hb. specialize (Hcs native_asset_code).
        pose proof (code_sum_nonneg native_asset_code outputs). lia. }
      assert (Hfee : derive_fee inputs outputs = Ok fee).
      { unfold derive_fee.
        assert (Ed : asset_def_dummy <> asset_def_native).
        { intros E. apply (f_equal code) in E. apply native_neq_dummy. symmetry. exact E. }
        assert (Esum : amt_sum inputs = zv (amount i0) + amt_sum irest) by (rewrite Ei; apply amt_sum_cons).
        assert (Eosum : amt_sum outputs = zv (amount o0) + amt_sum orest) by (rewrite Eo; apply amt_sum_cons).
        assert (Eis : i128_sum (map (fun r => i128_of_u128 (amount r)) inputs) = Ok (amt_sum inputs)).
        { unfold i128_sum. rewrite (i128_sum_ok inputs 0); [reflexivity|exact Hsi|lia|lia]. }
        assert (Eos : i128_sum (map (fun r => i128_of_u128 (amount r)) outputs) = Ok (amt_sum outputs)).
        { unfold i128_sum. rewrite (i128_sum_ok outputs 0); [reflexivity|exact Hso|lia|lia]. }
        pose proof (amt_sum_nonneg inputs). pose proof (amt_sum_nonneg outputs). pose proof (amount_range fee).
        pose proof (amount_range (amount i0)). pose proof (amount_range (amount o0)).
        destruct (forallb _ inputs) eqn:En.
        + rewrite Eis, Eos. cbn [bind].
          assert (Hd : d = asset_def_native).
          { apply (transferred_iff L) in Htr. subst d. unfold xfr_def. destruct (find _ irest) as [r|] eqn:Ef; [|reflexivity].
            apply find_some in Ef. destruct Ef as [Hr Hnd]. rewrite forallb_forall in En.
            specialize (En r). rewrite Ei in En. specialize (En (or_intror Hr)).
            apply orb_true_iff in En. destruct En as [En|En]; [apply (is_native_iff L), En|].
            unfold is_dummy_def in En. rewrite En in Hnd. discriminate. }
          assert (E : amt_sum inputs = amt_sum outputs + zv fee).
          { specialize (Hb native_asset_code). rewrite zeqb_refl in Hb.
            rewrite (code_sum_all native_asset_code (non_dummy inputs)), (code_sum_all native_asset_code outputs) in Hb.
            - rewrite (amt_sum_non_dummy inputs Hdz) in Hb. exact Hb.
            - intros r Hr. rewrite Eo in Hr. destruct Hr as [<-|Hr]; [rewrite Ho0; reflexivity|]. rewrite (Hor r Hr), Hd. reflexivity.
            - intros r Hr. unfold non_dummy in Hr. apply filter_In in Hr. destruct Hr as [Hr Hn].
              rewrite Ei in Hr. destruct Hr as [<-|Hr]; [exact Hcode0|].
              destruct (Hir r Hr) as [E|E]; [|rewrite E, Hd; reflexivity].
              apply (is_dummy_iff L) in E. rewrite E in Hn. discriminate. }
          rewrite i128_res_in by lia. cbn [bind]. destruct (Z.ltb_spec (amt_sum inputs - amt_sum outputs) 0); [lia|].
          f_equal. rewrite <- (w128_zv fee). f_equal. lia.
        + assert (Si0 : zv (amount i0) < 2 ^ 127) by (rewrite Forall_forall in Hsi; apply Hsi; rewrite Ei; left; reflexivity).
          assert (So0 : zv (amount o0) < 2 ^ 127) by (rewrite Forall_forall in Hso; apply Hso; rewrite Eo; left; reflexivity).
          rewrite Ei, Eo. rewrite !i128_of_small by assumption.
          assert (Hd : d <> asset_def_native).
          { intros ->. apply not_true_iff_false in En. apply En. apply forallb_forall. intros r Hr. rewrite Ei in Hr.
            destruct Hr as [<-|Hr]; [rewrite (proj2 (is_native_iff L _) Hi0); reflexivity|].
            destruct (Hir r Hr) as [E|E]; [rewrite (proj2 (is_dummy_iff L _) E), orb_true_r; reflexivity|].
            rewrite (proj2 (is_native_iff L _) E); reflexivity. }
          assert (Hdc : code d <> native_asset_code).
          { intros Hc. apply Hd. apply (transferred_iff L) in Htr. subst d. revert Hc. unfold xfr_def.
            destruct (find _ irest) as [r|] eqn:Ef; [|reflexivity]. apply find_some in Ef.
            apply Hwf. rewrite Ei. right. apply Ef. }
          assert (E : zv (amount i0) = zv (amount o0) + zv fee).
          { specialize (Hb native_asset_code). rewrite zeqb_refl in Hb.
            rewrite Ei, Eo in Hb. unfold non_dummy in Hb. cbn [filter] in Hb.
            assert (Ed0 : is_dummy_def (asset_def i0) = false).
            { apply not_true_iff_false. rewrite (is_dummy_iff L). congruence. }
            rewrite Ed0 in Hb. cbn [negb] in Hb. rewrite !code_sum_cons, Hcode0 in Hb.
            assert (Hcode0' : code (asset_def o0) = native_asset_code) by (rewrite Ho0; reflexivity).
            rewrite Hcode0', zeqb_refl in Hb.
            rewrite (code_sum_none native_asset_code orest), (code_sum_none native_asset_code (filter _ irest)) in Hb; [lia| |].
            - intros r Hr. rewrite filter_In in Hr. destruct Hr as [Hr Hn].
              destruct (Hir r Hr) as [E|E]; [|rewrite E; exact Hdc].
              apply (is_dummy_iff L) in E. rewrite E in Hn. discriminate.
            - intros r Hr. rewrite (Hor r Hr). exact Hdc. }
          rewrite i128_res_in by lia. cbn [bind]. destruct (Z.ltb_spec (zv (amount i0) - zv (amount o0)) 0); [lia|].
          f_equal. rewrite <- (w128_zv fee). f_equal. lia. }
      rewrite Hfee. cbn [bind].
      rewrite (check_asset_amount_complete inputs outputs fee i0 irest); auto.
      rewrite Hcode0. exact Hb.
  Qed.
End Balance.
