(** Proofs about the wallet: membership paths, exactness of the unspent set. *)
From Verif Require Import Base Config Structs Keys Utils Memo Plonk Witness Circuits Snark Notes Serde CodecProofs PolicyProofs UtilsProofs MemoProofs
  Ledger Wallet WalletSpec.
From Coq Require Import Permutation.

(** ** Membership paths *)
Section TreeProofs.
  Context {C : CapConfig}.

  Lemma has_leaf_up leaves k i : has_leaf leaves k i = true -> has_leaf leaves (Datatypes.S k) (i / 3) = true.
  Proof.
    unfold has_leaf. rewrite !Z.ltb_lt. intros H. eapply Z.le_lt_trans; [|exact H].
    rewrite Nat2Z.inj_succ, Z.pow_succ_r by lia. rewrite Nat2Z.inj_div. change (Z.of_nat 3) with 3.
    pose proof (Z.mul_div_le (Z.of_nat i) 3 ltac:(lia)). pose proof (Z.pow_nonneg 3 (Z.of_nat k) ltac:(lia)). nia.
  Qed.
  Lemma path_node_up leaves k i : has_leaf leaves k i = true ->
    node_hash (subtree leaves k i) (path_node leaves k i) = subtree leaves (Datatypes.S k) (i / 3).
  Proof.
    intros H. apply has_leaf_up in H. cbn [subtree]. rewrite H. unfold path_node.
    pose proof (Nat.div_mod i 3 ltac:(lia)) as D. pose proof (Nat.mod_upper_bound i 3 ltac:(lia)) as B.
    destruct (i mod 3)%nat as [|[|[|m]]] eqn:M; [| | |lia]; cbn [node_hash n_pos n_sib1 n_sib2]; unfold node_hash; cbn [n_pos n_sib1 n_sib2].
    all: f_equal; f_equal; lia.
  Qed.
  Lemma tree_path_up leaves n : forall k i, has_leaf leaves k i = true ->
    fold_left node_hash (tree_path leaves k n i) (subtree leaves k i) = subtree leaves (k + n) (i / 3 ^ n).
  Proof.
    induction n as [|n IH]; intros k i H; cbn [tree_path fold_left].
    - rewrite Nat.add_0_r. cbn [Nat.pow]. rewrite Nat.div_1_r. reflexivity.
    - rewrite path_node_up by exact H. rewrite IH by (apply has_leaf_up, H).
      rewrite Nat.div_div by (try lia; apply Nat.pow_nonzero; lia). rewrite <- Nat.pow_succ_r'. f_equal. lia.
  Qed.
  Lemma tree_path_length leaves n : forall k i, length (tree_path leaves k n i) = n.
  Proof. induction n as [|n IH]; intros; cbn [tree_path length]; [reflexivity|]. rewrite IH. reflexivity. Qed.
  Lemma tree_path_root depth leaves i c : nth_error leaves i = Some c -> (i < 3 ^ depth)%nat ->
    merkle_root_of (fz (Z.of_nat i)) c (tree_path leaves 0 depth i) = tree_root depth leaves.
  Proof.
    intros Hn Hi. assert (Hl : (i < length leaves)%nat) by (apply nth_error_Some; congruence).
    unfold merkle_root_of. replace (merkle_leaf (fz (Z.of_nat i)) c) with (subtree leaves 0 i) by (cbn [subtree]; unfold leaf_value; rewrite Hn; reflexivity).
    rewrite tree_path_up; [|unfold has_leaf; apply Z.ltb_lt; cbn; lia].
    rewrite Nat.div_small by exact Hi. reflexivity.
  Qed.
  Lemma lookup_from_tree_spec depth leaves (uid : u64) :
    (forall a, lookup_from_tree depth leaves uid = Ok a <->
       zv uid < Z.of_nat (length leaves) /\ a = mkAcc uid (tree_path leaves 0 depth (Z.to_nat (zv uid))) (tree_root depth leaves)) /\
    (zv uid < Z.of_nat (length leaves) \/ lookup_from_tree depth leaves uid = Panic).
  Proof.
    unfold lookup_from_tree. destruct (Z.ltb_spec (zv uid) (Z.of_nat (length leaves))) as [H|H].
    - split; [|left; exact H]. intros a. split; [intros G; injection G as <-; auto|intros [_ ->]; reflexivity].
    - split; [|right; reflexivity]. intros a. split; [discriminate|]. intros [G _]; lia.
  Qed.
  Lemma tree_lookup depth leaves (uid : u64) c :
    nth_error leaves (Z.to_nat (zv uid)) = Some c -> (length leaves <= 3 ^ depth)%nat ->
    exists a, lookup_from_tree depth leaves uid = Ok a /\ acc_uid a = uid /\ length (acc_path a) = depth /\
      acc_root a = tree_root depth leaves /\ merkle_root_of (f_of_u64 uid) c (acc_path a) = tree_root depth leaves.
  Proof.
    intros Hn Hc. assert (Hl : (Z.to_nat (zv uid) < length leaves)%nat) by (apply nth_error_Some; congruence).
    pose proof (zv_range uid) as R. eexists. split.
    - apply lookup_from_tree_spec. split; [lia|reflexivity].
    - cbn [acc_uid acc_path acc_root]. rewrite tree_path_length. repeat split.
      unfold f_of_u64. rewrite <- (Z2Nat.id (zv uid)) at 1 by lia. apply tree_path_root; [exact Hn|lia].
  Qed.
End TreeProofs.

(** ** Sets and maps *)
Section Sets.
  Context {C : CapConfig} (L : CapLaws C).

  Lemma ro_eqb_iff a b : ro_eqb a b = true <-> a = b.
  Proof.
    unfold ro_eqb. rewrite !andb_true_iff, !zeqb_spec, (asset_def_eqb_spec L), (user_pub_key_eqb_spec L), flag_eqb_spec. destruct a, b; cbn.
    split; [intros [[[[-> ->] ->] ->] ->]; reflexivity|intros H; injection H; intros; subst; repeat split; reflexivity].
  Qed.
  Lemma owned_eqb_iff a b : owned_eqb a b = true <-> a = b.
  Proof.
    unfold owned_eqb. rewrite andb_true_iff, ro_eqb_iff, zeqb_spec. destruct a, b; cbn.
    split; [intros [-> ->]; reflexivity|intros H; injection H; intros; subst; auto].
  Qed.

  Section Eqb.
    Context {A : Type} (eqb : A -> A -> bool) (eqb_iff : forall a b, eqb a b = true <-> a = b).
    Lemma set_insert_in x l y : In y (set_insert eqb x l) <-> In y l \/ y = x.
    Proof.
      unfold set_insert. destruct (existsb (eqb x) l) eqn:H.
      - apply existsb_exists in H. destruct H as (z & Hz & Ez). apply eqb_iff in Ez. subst z. split; [auto|intros [?| ->]; auto].
      - rewrite in_app_iff. cbn. intuition congruence.
    Qed.
    Lemma set_insert_nodup x l : NoDup l -> NoDup (set_insert eqb x l).
    Proof.
      intros N. unfold set_insert. destruct (existsb (eqb x) l) eqn:H; [exact N|].
      apply (Permutation_NoDup (Permutation_cons_append l x)). constructor; [|exact N]. intros Hy.
      apply not_true_iff_false in H. apply H. apply existsb_exists. exists x. split; [exact Hy|]. apply eqb_iff. reflexivity.
    Qed.
    Lemma set_remove_in x l y : In y (set_remove eqb x l) <-> In y l /\ y <> x.
    Proof.
      unfold set_remove. rewrite filter_In. rewrite negb_true_iff, <- not_true_iff_false, eqb_iff. intuition congruence.
    Qed.
  End Eqb.

  Lemma map_get_in {V} k (m : list (F * V)) v : map_get k m = Some v -> In (k, v) m.
  Proof.
    induction m as [|[k' v'] m IH]; cbn [map_get]; [discriminate|]. destruct (zeqb k k') eqn:H.
    - intros G. injection G as ->. apply zeqb_spec in H. subst. left; reflexivity.
    - intros G. right. auto.
  Qed.
  Lemma map_get_none {V} k (m : list (F * V)) : map_get k m = None <-> ~ In k (map fst m).
  Proof.
    induction m as [|[k' v'] m IH]; cbn [map_get map fst]; [split; auto|]. destruct (zeqb k k') eqn:H.
    - apply zeqb_spec in H. subst. split; [discriminate|]. intros G. exfalso. apply G. left; reflexivity.
    - rewrite IH. apply not_true_iff_false in H. rewrite zeqb_spec in H. cbn. intuition congruence.
  Qed.
  Lemma map_get_unique {V} k (m : list (F * V)) v : NoDup (map fst m) -> In (k, v) m -> map_get k m = Some v.
  Proof.
    induction m as [|[k' v'] m IH]; cbn [map_get map fst]; intros N H; [destruct H|]. inversion N as [|? ? N1 N2]; subst.
    destruct H as [H|H].
    - injection H as -> ->. rewrite zeqb_refl. reflexivity.
    - destruct (zeqb k k') eqn:G; [|auto]. apply zeqb_spec in G. subst. exfalso. apply N1. apply in_map_iff. exists (k', v). auto.
  Qed.
  Lemma map_put_keys {V} k (v : V) m c : In c (map fst (map_put k v m)) <-> In c (map fst m) \/ c = k.
  Proof.
    induction m as [|[k' v'] m IH]; cbn [map_put map fst]; [cbn; intuition|]. destruct (zeqb k k') eqn:H; cbn [map fst In].
    - apply zeqb_spec in H. subst. intuition.
    - rewrite IH. intuition.
  Qed.
  Lemma map_put_nodup {V} k (v : V) m : NoDup (map fst m) -> NoDup (map fst (map_put k v m)).
  Proof.
    induction m as [|[k' v'] m IH]; cbn [map_put map fst]; intros N; [repeat constructor; intros []|].
    inversion N as [|? ? N1 N2]; subst. destruct (zeqb k k') eqn:H; cbn [map fst].
    - apply zeqb_spec in H. subst. constructor; auto.
    - constructor; [|auto]. rewrite map_put_keys. apply not_true_iff_false in H. rewrite zeqb_spec in H. intros [G|G]; auto.
  Qed.
  Lemma map_put_in {V} k (v : V) m c b : NoDup (map fst m) -> In (c, b) (map_put k v m) <-> (c = k /\ b = v) \/ (c <> k /\ In (c, b) m).
  Proof.
    induction m as [|[k' v'] m IH]; cbn [map_put map fst]; intros N.
    - cbn. split; [intros [G|[]]; injection G as <- <-; auto|intros [[-> ->]|[_ []]]; auto].
    - inversion N as [|? ? N1 N2]; subst. destruct (zeqb k k') eqn:H.
      + apply zeqb_spec in H. subst k'. cbn [In]. split.
        * intros [G|G]; [injection G as <- <-; auto|]. right. split; [|auto]. intros ->. apply N1. apply in_map_iff. exists (k, b). auto.
        * intros [[-> ->]|[Hc [G|G]]]; auto. injection G as -> ->. congruence.
      + apply not_true_iff_false in H. rewrite zeqb_spec in H. cbn [In]. rewrite IH by exact N2. split.
        * intros [G|[G|G]]; [injection G as <- <-|auto|]; [right; split; [congruence|auto]|destruct G; auto].
        * intros [[-> ->]|[Hc [G|G]]]; auto.
  Qed.
  Lemma map_del_in {V} k (m : list (F * V)) c b : In (c, b) (map_del k m) <-> In (c, b) m /\ c <> k.
  Proof. unfold map_del. rewrite filter_In. cbn [fst]. rewrite negb_true_iff, <- not_true_iff_false, zeqb_spec. intuition congruence. Qed.
  Lemma map_del_nodup {V} k (m : list (F * V)) : NoDup (map fst m) -> NoDup (map fst (map_del k m)).
  Proof.
    unfold map_del. induction m as [|[k' v'] m IH]; cbn [map fst filter]; intros N; [constructor|]. inversion N as [|? ? N1 N2]; subst.
    destruct (negb (zeqb k k')); [|auto]. cbn [map fst]. constructor; [|auto]. intros G. apply N1. apply in_map_iff in G. destruct G as ([a b] & <- & G).
    apply filter_In in G. apply in_map_iff. exists (a, b). split; [reflexivity|]. apply G.
  Qed.
End Sets.

(** ** Invariant of wallets *)
Section Ok.
  Context {C : CapConfig} (L : CapLaws C) {S : Snark C} {K : @RoCodec C} {E : MemoSer C}.

  Record wallet_ok (w : Wallet) : Prop := {
    wk_keys : NoDup (map fst (w_unspent w));
    wk_nodup : forall c b, In (c, b) (w_unspent w) -> NoDup b;
    wk_code : forall c b x, In (c, b) (w_unspent w) -> In x b -> code (asset_def (fst x)) = c;
    wk_pkeys : NoDup (map fst (w_pending w));
    wk_pending : forall n x, In (n, x) (w_pending w) -> n = w_nullify w x /\ In (code (asset_def (fst x))) (map fst (w_unspent w));
    wk_chg : forall ro, In ro (w_pending_chg w) ->
      asset_def ro = asset_def_native /\ pub_key ro = user_pub_key (w_kp w) /\ freeze_flag ro = Unfrozen
  }.
  (** what scanning does not change *)
  Definition same_keys (w w' : Wallet) : Prop := w_kp w' = w_kp w /\ w_cred w' = w_cred w.
  Lemma same_keys_nullify w w' x : same_keys w w' -> w_nullify w' x = w_nullify w x.
  Proof. intros [H _]. unfold w_nullify. rewrite H. reflexivity. Qed.
  Lemma same_keys_trans a b c : same_keys a b -> same_keys b c -> same_keys a c.
  Proof. intros [H1 H2] [H3 H4]. split; congruence. Qed.

  Lemma new_ok kp : wallet_ok (wallet_new kp).
  Proof. constructor; cbn; try (now constructor); try (now intros; contradiction). Qed.

  Lemma add_holds w ro uid x : wallet_ok w -> holds (add_record_opening w ro uid) x <-> holds w x \/ x = (ro, uid).
  Proof.
    intros W. unfold holds, add_record_opening, set_unspent. cbn [w_unspent]. set (c0 := code (asset_def ro)).
    split.
    - intros (c & b & H & Hx). apply map_put_in in H; [|apply W]. destruct H as [[-> ->]|[Hc H]].
      + apply (set_insert_in owned_eqb (owned_eqb_iff L)) in Hx. destruct Hx as [Hx| ->]; [|auto]. left.
        destruct (map_get c0 (w_unspent w)) as [b|] eqn:G; [|destruct Hx]. exists c0, b. split; [apply map_get_in, G|exact Hx].
      + left. exists c, b. auto.
    - intros [(c & b & H & Hx)| ->].
      + destruct (zeqb_reflect c c0) as [->|Hc].
        * rewrite (map_get_unique _ _ _ (wk_keys _ W) H). eexists c0, _. split; [apply map_put_in; [apply W|left; auto]|].
          apply (set_insert_in owned_eqb (owned_eqb_iff L)). left; exact Hx.
        * exists c, b. split; [apply map_put_in; [apply W|right; auto]|exact Hx].
      + eexists c0, _. split; [apply map_put_in; [apply W|left; auto]|]. apply (set_insert_in owned_eqb (owned_eqb_iff L)). right; reflexivity.
  Qed.
  Lemma add_ok w ro uid : wallet_ok w -> wallet_ok (add_record_opening w ro uid).
  Proof.
    intros W. constructor; cbn [add_record_opening set_unspent w_unspent w_pending w_pending_chg w_kp].
    - apply map_put_nodup, W.
    - intros c b H. apply map_put_in in H; [|apply W]. destruct H as [[-> ->]|[_ H]]; [|exact (wk_nodup _ W _ _ H)].
      apply (set_insert_nodup _ (owned_eqb_iff L)). destruct (map_get _ _) as [b|] eqn:G; [|constructor]. apply map_get_in in G. exact (wk_nodup _ W _ _ G).
    - intros c b x H Hx. apply map_put_in in H; [|apply W]. destruct H as [[-> ->]|[_ H]]; [|exact (wk_code _ W _ _ _ H Hx)].
      apply (set_insert_in owned_eqb (owned_eqb_iff L)) in Hx. destruct Hx as [Hx| ->]; [|reflexivity].
      destruct (map_get _ _) as [b|] eqn:G; [|destruct Hx]. apply map_get_in in G. exact (wk_code _ W _ _ _ G Hx).
    - apply W.
    - intros n x H. destruct (wk_pending _ W _ _ H) as [H1 H2]. split; [exact H1|]. apply map_put_keys. left; exact H2.
    - apply W.
  Qed.

  (** *** Marking spent records *)
  Lemma drop_keys w n m : map fst (drop_nullified w n m) = map fst m.
  Proof. induction m as [|[c b] m IH]; cbn [drop_nullified]; [reflexivity|]. destruct (find _ _); cbn [map fst]; [reflexivity|]. rewrite IH. reflexivity. Qed.
  Lemma drop_sub w n m c b' : In (c, b') (drop_nullified w n m) -> exists b, In (c, b) m /\ (b' = b \/ exists x, b' = set_remove owned_eqb x b).
  Proof.
    induction m as [|[c0 b] m IH]; cbn [drop_nullified]; [intros []|]. destruct (find _ _) as [x|]; intros [H|H].
    - injection H as -> <-. exists b. split; [left; reflexivity|right; exists x; reflexivity].
    - exists b'. split; [right; exact H|left; reflexivity].
    - injection H as -> <-. exists b. split; [left; reflexivity|left; reflexivity].
    - destruct (IH H) as (b1 & H1 & H2). exists b1. split; [right; exact H1|exact H2].
  Qed.
  Lemma drop_content w n m : NoDup (map fst m) -> (forall c b x, In (c, b) m -> In x b -> code (asset_def (fst x)) = c) ->
    (forall c b x c' b' x', In (c, b) m -> In x b -> In (c', b') m -> In x' b' -> w_nullify w x = w_nullify w x' -> x = x') ->
    forall y, (exists c b, In (c, b) (drop_nullified w n m) /\ In y b) <-> (exists c b, In (c, b) m /\ In y b) /\ w_nullify w y <> n.
  Proof.
    induction m as [|[c0 b0] m IH]; intros N HC HI y; cbn [drop_nullified].
    - split; [intros (? & ? & [] & _)|intros [(? & ? & [] & _) _]].
    - cbn [map fst] in N. inversion N as [|? ? N1 N2]; subst. destruct (find _ _) as [x|] eqn:F.
      + apply find_some in F. destruct F as [Fx Fn]. apply in_rev in Fx. apply zeqb_spec in Fn.
        assert (U : forall c b z, In (c, b) ((c0, b0) :: m) -> In z b -> w_nullify w z = n -> z = x).
        { intros c b z H Hz Hn. apply (HI c b z c0 b0 x); auto; [left; reflexivity|congruence]. }
        split.
        * intros (c & b & [H|H] & Hy).
          -- injection H as <- <-. apply (set_remove_in owned_eqb (owned_eqb_iff L)) in Hy. destruct Hy as [Hy Hne].
             split; [exists c0, b0; split; [left; reflexivity|exact Hy]|]. intros Hn. apply Hne. apply (U c0 b0); auto. left; reflexivity.
          -- split; [exists c, b; split; [right; exact H|exact Hy]|]. intros Hn. assert (y = x) by (apply (U c b); auto; right; exact H). subst y.
             assert (E1 : code (asset_def (fst x)) = c0) by (apply (HC c0 b0); auto; left; reflexivity).
             assert (E2 : code (asset_def (fst x)) = c) by (apply (HC c b); auto; right; exact H).
             apply N1. apply in_map_iff. exists (c, b). cbn. split; [congruence|exact H].
        * intros [(c & b & [H|H] & Hy) Hn].
          -- injection H as <- <-. exists c0, (set_remove owned_eqb x b0). split; [left; reflexivity|]. apply (set_remove_in owned_eqb (owned_eqb_iff L)).
             split; [exact Hy|]. intros ->. congruence.
          -- exists c, b. split; [right; exact H|exact Hy].
      + assert (F' : forall z, In z b0 -> w_nullify w z <> n).
        { intros z Hz Hn. apply in_rev in Hz. pose proof (find_none _ _ F z Hz) as G. cbn beta in G. rewrite Hn, zeqb_refl in G. discriminate G. }
        assert (IH' := IH N2 (fun c b x H => HC c b x (or_intror H)) (fun c b x c' b' x' H1 H2 H3 => HI c b x c' b' x' (or_intror H1) H2 (or_intror H3)) y).
        split.
        * intros (c & b & [H|H] & Hy).
          -- injection H as <- <-. split; [exists c0, b0; split; [left; reflexivity|exact Hy]|auto].
          -- destruct (proj1 IH' (ex_intro _ c (ex_intro _ b (conj H Hy)))) as [(c1 & b1 & H1 & H2) H3]. split; [|exact H3]. exists c1, b1. split; [right; exact H1|exact H2].
        * intros [(c & b & [H|H] & Hy) Hn].
          -- injection H as <- <-. exists c0, b0. split; [left; reflexivity|exact Hy].
          -- destruct (proj2 IH' (conj (ex_intro _ c (ex_intro _ b (conj H Hy))) Hn)) as (c1 & b1 & H1 & H2). exists c1, b1. split; [right; exact H1|exact H2].
  Qed.

  Definition inj_on (w : Wallet) (P : Owned -> Prop) : Prop := forall x y, P x -> P y -> w_nullify w x = w_nullify w y -> x = y.

  (** removing one record from its bucket *)
  Lemma remove_holds w x b : wallet_ok w -> map_get (code (asset_def (fst x))) (w_unspent w) = Some b ->
    forall y, (exists c r, In (c, r) (map_put (code (asset_def (fst x))) (set_remove owned_eqb x b) (w_unspent w)) /\ In y r) <->
              holds w y /\ y <> x.
  Proof.
    intros W G y. pose proof (map_get_in _ _ _ G) as Gi. split.
    - intros (c & r & H & Hy). apply map_put_in in H; [|apply W]. destruct H as [[-> ->]|[Hc H]].
      + apply (set_remove_in owned_eqb (owned_eqb_iff L)) in Hy. destruct Hy as [Hy Hn]. split; [|exact Hn]. exists (code (asset_def (fst x))), b. auto.
      + split; [exists c, r; auto|]. intros ->. apply Hc. symmetry. exact (wk_code _ W _ _ _ H Hy).
    - intros [(c & r & H & Hy) Hn]. destruct (zeqb_reflect c (code (asset_def (fst x)))) as [->|Hc].
      + exists (code (asset_def (fst x))), (set_remove owned_eqb x b). split; [apply map_put_in; [apply W|left; auto]|].
        apply (set_remove_in owned_eqb (owned_eqb_iff L)). split; [|exact Hn].
        pose proof (map_get_unique _ _ _ (wk_keys _ W) H) as G'. congruence.
      + exists c, r. split; [apply map_put_in; [apply W|right; auto]|exact Hy].
  Qed.

  Lemma mark_spec w n : wallet_ok w -> exists w', mark_spent_if_owned w n = Ok w' /\ wallet_ok w' /\ same_keys w w' /\
    w_pending_chg w' = w_pending_chg w /\
    (inj_on w (holds w) -> forall x, holds w' x <-> holds w x /\ w_nullify w x <> n).
  Proof.
    intros W. unfold mark_spent_if_owned.
    assert (A : exists w1, match map_get n (w_pending w) with
               | Some x =>
                   match map_get (code (asset_def (fst x))) (w_unspent w) with
                   | None => Panic
                   | Some b => Ok (set_pending (set_unspent w (map_put (code (asset_def (fst x))) (set_remove owned_eqb x b) (w_unspent w)))
                                               (map_del n (w_pending w)))
                   end
               | None => Ok w
               end = Ok w1 /\ wallet_ok w1 /\ same_keys w w1 /\ w_pending_chg w1 = w_pending_chg w /\
               (inj_on w (holds w) -> forall x, holds w1 x -> holds w x) /\
               (inj_on w (holds w) -> forall x, holds w x -> w_nullify w x <> n -> holds w1 x)).
    { destruct (map_get n (w_pending w)) as [x|] eqn:Gp; [|exists w; split; [reflexivity|]; split; [exact W|]; split; [split; reflexivity|]; split; [reflexivity|]; split; auto].
      apply map_get_in in Gp. destruct (wk_pending _ W _ _ Gp) as [Pn Pc].
      destruct (map_get (code (asset_def (fst x))) (w_unspent w)) as [b|] eqn:Gb; [|exfalso; apply map_get_none in Gb; auto].
      eexists. split; [reflexivity|]. pose proof (map_get_in _ _ _ Gb) as Gi. pose proof (remove_holds w x b W Gb) as RH.
      split; [|split; [split; reflexivity|split; [reflexivity|]]].
      - constructor; cbn [set_pending set_unspent w_unspent w_pending w_pending_chg w_kp].
        + apply map_put_nodup, W.
        + intros c r H. apply map_put_in in H; [|apply W]. destruct H as [[-> ->]|[_ H]]; [|exact (wk_nodup _ W _ _ H)].
          unfold set_remove. apply NoDup_filter. exact (wk_nodup _ W _ _ Gi).
        + intros c r y H Hy. apply map_put_in in H; [|apply W]. destruct H as [[-> ->]|[_ H]]; [|exact (wk_code _ W _ _ _ H Hy)].
          apply (set_remove_in owned_eqb (owned_eqb_iff L)) in Hy. exact (wk_code _ W _ _ _ Gi (proj1 Hy)).
        + apply map_del_nodup, W.
        + intros m y H. apply map_del_in in H. destruct (wk_pending _ W _ _ (proj1 H)) as [H1 H2]. split; [exact H1|]. apply map_put_keys. left; exact H2.
        + apply W.
      - split; intros HI y Hy.
        + apply RH in Hy. apply Hy.
        + intros Hn. apply RH. split; [exact Hy|]. intros ->. congruence. }
    destruct A as (w1 & -> & W1 & K1 & C1 & D1 & U1). cbn [bind].
    exists (set_unspent w1 (drop_nullified w1 n (w_unspent w1))). split; [reflexivity|]. split; [|split; [exact K1|split; [exact C1|]]].
    - constructor; cbn [set_unspent w_unspent w_pending w_pending_chg w_kp].
      + rewrite drop_keys. apply W1.
      + intros c b H. apply drop_sub in H. destruct H as (b0 & H & [-> |(x & ->)]); [exact (wk_nodup _ W1 _ _ H)|].
        unfold set_remove. apply NoDup_filter. exact (wk_nodup _ W1 _ _ H).
      + intros c b x H Hx. apply drop_sub in H. destruct H as (b0 & H & [-> |(y & ->)]); [exact (wk_code _ W1 _ _ _ H Hx)|].
        apply (set_remove_in owned_eqb (owned_eqb_iff L)) in Hx. exact (wk_code _ W1 _ _ _ H (proj1 Hx)).
      + apply W1.
      + intros m x H. rewrite drop_keys. apply (wk_pending _ W1), H.
      + apply W1.
    - intros HI x. unfold holds at 1. cbn [set_unspent w_unspent].
      assert (HN : forall y, w_nullify w1 y = w_nullify w y) by (intros; apply same_keys_nullify, K1).
      rewrite (drop_content w1 n (w_unspent w1) (wk_keys _ W1) (wk_code _ W1)).
      + rewrite HN. split; intros [H1 H2]; (split; [|exact H2]); [exact (D1 HI x H1)|exact (U1 HI x H1 H2)].
      + intros c b y c' b' y' H1 H2 H3 H4 H5. rewrite !HN in H5. apply HI; [apply D1; [exact HI|]|apply D1; [exact HI|]|exact H5]; [exists c, b|exists c', b']; auto.
  Qed.

  Lemma mark_all_spec l : forall w, wallet_ok w -> exists w', mark_all w l = Ok w' /\ wallet_ok w' /\ same_keys w w' /\
    w_pending_chg w' = w_pending_chg w /\ (inj_on w (holds w) -> forall x, holds w' x <-> holds w x /\ ~ In (w_nullify w x) l).
  Proof.
    induction l as [|n l IH]; intros w W; cbn [mark_all].
    - exists w. split; [reflexivity|]. split; [exact W|]. split; [split; reflexivity|]. split; [reflexivity|]. intros _ x. cbn. tauto.
    - destruct (mark_spec w n W) as (w1 & -> & W1 & K1 & C1 & H1). cbn [bind]. destruct (IH w1 W1) as (w2 & E2 & W2 & K2 & C2 & H2).
      exists w2. split; [exact E2|]. split; [exact W2|]. split; [exact (same_keys_trans _ _ _ K1 K2)|]. split; [congruence|].
      intros HI x. specialize (H1 HI).
      assert (HI1 : inj_on w1 (holds w1)).
      { intros a b Ha Hb Hab. rewrite !(same_keys_nullify _ _ _ K1) in Hab. apply H1 in Ha. apply H1 in Hb. apply HI; tauto. }
      rewrite (H2 HI1), H1, (same_keys_nullify _ _ _ K1). cbn [In]. split; [intros [[? ?] ?]; split; [auto|]; intros [?|?]; congruence || auto|].
      intros [? Hx]. split; [split; [auto|]|]; intros G; apply Hx; [left; congruence|right; exact G].
  Qed.
End Ok.

(** ** Scanning *)
Section Scan.
  Context {C : CapConfig} (L : CapLaws C) {S : Snark C} {K : @RoCodec C} {E : MemoSer C}.

  Definition memo_paid (kp : UserKeyPair) (outs : list RecordCommitment) (memos : list ReceiverMemo) (off : nat) (x : Owned) : Prop :=
    exists i rc m, nth_error outs i = Some rc /\ nth_error memos i = Some m /\ receiver_memo_decrypt m kp rc [] = Ok (fst x) /\
      freeze_flag (fst x) = Unfrozen /\ snd x = w64 (Z.of_nat (off + i)).

  Lemma memo_paid_cons kp rc outs m memos off x : memo_paid kp (rc :: outs) (m :: memos) off x <->
    (receiver_memo_decrypt m kp rc [] = Ok (fst x) /\ freeze_flag (fst x) = Unfrozen /\ snd x = w64 (Z.of_nat off)) \/
    memo_paid kp outs memos (off + 1) x.
  Proof.
    split.
    - intros (i & rc' & m' & H1 & H2 & H3 & H4 & H5). destruct i as [|i]; cbn [nth_error] in *.
      + injection H1 as <-. injection H2 as <-. rewrite Nat.add_0_r in H5. auto.
      + right. exists i, rc', m'. replace (off + 1 + i)%nat with (off + Datatypes.S i)%nat by lia. auto.
    - intros [(H3 & H4 & H5)|(i & rc' & m' & H1 & H2 & H3 & H4 & H5)].
      + exists 0%nat, rc, m. rewrite Nat.add_0_r. auto.
      + exists (Datatypes.S i), rc', m'. replace (off + Datatypes.S i)%nat with (off + 1 + i)%nat by lia. auto.
  Qed.
  Lemma memo_paid_nil kp outs memos off x : outs = [] \/ memos = [] -> ~ memo_paid kp outs memos off x.
  Proof. intros [-> | ->] (i & rc & m & H1 & H2 & _); destruct i; cbn in *; discriminate. Qed.

  Lemma scan_outputs_spec : forall outs memos w off, wallet_ok w ->
    wallet_ok (fst (scan_outputs w outs memos off)) /\ same_keys w (fst (scan_outputs w outs memos off)) /\
    w_pending_chg (fst (scan_outputs w outs memos off)) = w_pending_chg w /\
    (forall x, holds (fst (scan_outputs w outs memos off)) x <-> holds w x \/ memo_paid (w_kp w) outs memos off x) /\
    snd (scan_outputs w outs memos off) = opened (w_kp w) outs memos.
  Proof.
    induction outs as [|rc outs IH]; intros memos w off W.
    - cbn [scan_outputs fst snd]. split; [exact W|]. split; [split; reflexivity|]. split; [reflexivity|]. split; [|reflexivity].
      intros x. pose proof (memo_paid_nil (w_kp w) [] memos off x (or_introl eq_refl)). tauto.
    - destruct memos as [|m memos].
      + cbn [scan_outputs fst snd]. split; [exact W|]. split; [split; reflexivity|]. split; [reflexivity|]. split; [|reflexivity].
        intros x. pose proof (memo_paid_nil (w_kp w) (rc :: outs) [] off x (or_intror eq_refl)). tauto.
      + cbn [scan_outputs]. unfold opened. cbn [combine flat_map fst snd]. fold (opened (w_kp w) outs memos).
        destruct (receiver_memo_decrypt m (w_kp w) rc []) as [ro|e|] eqn:D.
        * set (w1 := match freeze_flag ro with Unfrozen => add_record_opening w ro (w64 (Z.of_nat off)) | Frozen => w end).
          assert (W1 : wallet_ok w1 /\ w_kp w1 = w_kp w /\ w_cred w1 = w_cred w /\ w_pending_chg w1 = w_pending_chg w /\
            forall x, holds w1 x <-> holds w x \/ (freeze_flag ro = Unfrozen /\ x = (ro, w64 (Z.of_nat off)))).
          { subst w1. destruct (freeze_flag ro).
            - split; [apply (add_ok L), W|]. split; [reflexivity|]. split; [reflexivity|]. split; [reflexivity|]. intros x. rewrite (add_holds L) by exact W. tauto.
            - split; [exact W|]. split; [reflexivity|]. split; [reflexivity|]. split; [reflexivity|]. intros x. split; [auto|]. intros [?|[? _]]; [auto|discriminate]. }
          destruct W1 as (W1 & K1 & Cr1 & C1 & H1). destruct (IH memos w1 (off + 1)%nat W1) as (W2 & [K2 Cr2] & C2 & H2 & F2).
          destruct (scan_outputs w1 outs memos (off + 1)) as [w2 l] eqn:SO. cbn [fst snd] in *.
          split; [exact W2|]. split; [split; congruence|]. split; [congruence|]. split.
          -- intros x. rewrite H2, H1, memo_paid_cons, K1, D. split.
             ++ intros [[?|[? ->]]|?]; cbn [fst snd]; auto 6.
             ++ intros [?|[(G & ? & ?)|?]]; auto. injection G as G. left. right. rewrite G. split; [auto|]. destruct x; cbn in *; congruence.
          -- rewrite F2, K1. reflexivity.
        * destruct (IH memos w (off + 1)%nat W) as (W2 & K2 & C2 & H2 & F2). split; [exact W2|]. split; [exact K2|]. split; [exact C2|]. split; [|exact F2].
          intros x. rewrite H2, memo_paid_cons, D. split; [tauto|]. intros [?|[[? _]|?]]; auto; discriminate.
        * destruct (IH memos w (off + 1)%nat W) as (W2 & K2 & C2 & H2 & F2). split; [exact W2|]. split; [exact K2|]. split; [exact C2|]. split; [|exact F2].
          intros x. rewrite H2, memo_paid_cons, D. split; [tauto|]. intros [?|[[? _]|?]]; auto; discriminate.
  Qed.

  Lemma chg_ok w l : wallet_ok w -> (forall ro, In ro l -> In ro (w_pending_chg w)) -> wallet_ok (set_chg w l).
  Proof. intros W H. destruct W. constructor; cbn [set_chg w_unspent w_pending w_pending_chg w_kp]; auto. Qed.
  Lemma confirm_spec w rc off : wallet_ok w ->
    wallet_ok (confirm_change w rc off) /\ same_keys w (confirm_change w rc off) /\
    (forall ro, In ro (w_pending_chg (confirm_change w rc off)) -> In ro (w_pending_chg w)) /\
    ((forall x, holds (confirm_change w rc off) x <-> holds w x) /\ (forall ro, In ro (w_pending_chg w) -> derive_record_commitment ro <> rc) \/
     exists ro, In ro (w_pending_chg w) /\ derive_record_commitment ro = rc /\
       forall x, holds (confirm_change w rc off) x <-> holds w x \/ x = (ro, w64 (Z.of_nat off))).
  Proof.
    intros W. unfold confirm_change. destruct (find _ _) as [ro|] eqn:F.
    - apply find_some in F. destruct F as [F1 F2]. apply zeqb_spec in F2.
      assert (W' : wallet_ok (set_chg w (set_remove ro_eqb ro (w_pending_chg w)))).
      { apply chg_ok; [exact W|]. intros r Hr. apply (set_remove_in ro_eqb (ro_eqb_iff L)) in Hr. apply Hr. }
      split; [apply (add_ok L), W'|]. split; [split; reflexivity|]. split.
      + intros r Hr. apply (set_remove_in ro_eqb (ro_eqb_iff L)) in Hr. apply Hr.
      + right. exists ro. split; [exact F1|]. split; [exact F2|]. intros x. rewrite (add_holds L) by exact W'. reflexivity.
    - split; [exact W|]. split; [split; reflexivity|]. split; [auto|]. left. split; [reflexivity|]. intros ro Hro Hc.
      pose proof (find_none _ _ F ro Hro) as G. cbn beta in G. rewrite Hc, zeqb_refl in G. discriminate G.
  Qed.

  Lemma paid_iff w t memos off rc0 outs x : tx_output_commitments t = rc0 :: outs ->
    paid w t memos off x <-> memo_paid (w_kp w) outs memos (off + 1) x \/
      (In (fst x) (w_pending_chg w) /\ derive_record_commitment (fst x) = rc0 /\ snd x = w64 (Z.of_nat off)).
  Proof.
    intros Ht. unfold paid. rewrite Ht. cbn [nth_error]. unfold memo_paid.
    split; (intros [H|(H1 & H2 & H3)]; [left; exact H|right; split; [exact H1|split; [|exact H3]]]).
    - injection H2 as H2. symmetry; exact H2.
    - rewrite H2. reflexivity.
  Qed.
  Lemma native_nullify w ro ro' uid : asset_def ro = asset_def_native -> asset_def ro' = asset_def_native ->
    derive_record_commitment ro = derive_record_commitment ro' -> w_nullify w (ro, uid) = w_nullify w (ro', uid).
  Proof. intros H H' Hc. unfold w_nullify. cbn [fst snd]. rewrite H, H', Hc. reflexivity. Qed.

  Lemma scan_txn_spec w t memos off w' found : wallet_ok w -> scan_txn w t memos off = Ok (w', found) ->
    wallet_ok w' /\ same_keys w w' /\ (forall ro, In ro (w_pending_chg w') -> In ro (w_pending_chg w)) /\
    found = opened (w_kp w) (tl (tx_output_commitments t)) memos /\
    (inj_on w (fun x => holds w x \/ paid w t memos off x) ->
     forall x, holds w' x <-> (holds w x \/ paid w t memos off x) /\ ~ In (w_nullify w x) (tx_nullifiers t)).
  Proof.
    intros W H. unfold scan_txn in H. destruct (tx_output_commitments t) as [|rc0 outs] eqn:Ht; [discriminate|].
    destruct (negb _) eqn:Hlen; [discriminate|].
    destruct (confirm_spec w rc0 off W) as (W1 & K1 & C1 & P1). set (w1 := confirm_change w rc0 off) in *.
    destruct (scan_outputs_spec outs memos w1 (off + 1)%nat W1) as (W2 & K2 & C2 & P2 & F2).
    destruct (scan_outputs w1 outs memos (off + 1)) as [w2 l]. cbn [fst snd] in *.
    destruct (mark_all_spec L (tx_nullifiers t) w2 W2) as (w3 & E3 & W3 & K3 & C3 & P3). rewrite E3 in H. cbn [bind] in H. injection H as <- <-.
    assert (K12 : same_keys w w2) by exact (same_keys_trans _ _ _ K1 K2).
    split; [exact W3|]. split; [exact (same_keys_trans _ _ _ K12 K3)|]. split; [intros ro Hro; rewrite C3, C2 in Hro; auto|].
    split; [cbn [tl]; rewrite F2; rewrite (proj1 K1); reflexivity|].
    intros HI.
    assert (P12 : forall x, holds w2 x <-> holds w x \/ paid w t memos off x).
    { intros x. rewrite P2, (proj1 K1), (paid_iff _ _ _ _ _ _ _ Ht). destruct P1 as [[P1 N1]|(ro & Hro & Hc & P1)]; rewrite P1.
      - split; [tauto|]. intros [?|[?|[? [? _]]]]; auto. exfalso. eapply N1; eauto.
      - split.
        + intros [[?| ->]|?]; cbn [fst snd]; auto 6.
        + intros [?|[?|(H1 & H2 & H3)]]; auto. left. right. destruct x as [rx ux]. cbn [fst snd] in *. subst ux.
          apply HI.
          * right. apply (paid_iff _ _ _ _ _ _ _ Ht). right. cbn [fst snd]. auto.
          * right. apply (paid_iff _ _ _ _ _ _ _ Ht). right. cbn [fst snd]. auto.
          * apply native_nullify; [apply (wk_chg _ W), H1|apply (wk_chg _ W), Hro|congruence]. }
    intros x. rewrite P3.
    - rewrite P12, (same_keys_nullify _ _ _ K12). reflexivity.
    - intros a b Ha Hb Hab. rewrite !(same_keys_nullify _ _ _ K12) in Hab. apply HI; [apply P12, Ha|apply P12, Hb|exact Hab].
  Qed.
  Lemma scan_txn_total w t memos off : wallet_ok w ->
    (length (tx_output_commitments t) = Datatypes.S (length memos) -> exists r, scan_txn w t memos off = Ok r) /\
    (length (tx_output_commitments t) <> Datatypes.S (length memos) -> scan_txn w t memos off = Panic).
  Proof.
    intros W. unfold scan_txn. destruct (tx_output_commitments t) as [|rc0 outs]; cbn [length].
    - split; [discriminate|reflexivity].
    - destruct (Nat.eqb_spec (length outs) (length memos)) as [Hl|Hl]; cbn [negb].
      + split; [|lia]. intros _.
        destruct (confirm_spec w rc0 off W) as (W1 & K1 & C1 & P1).
        destruct (scan_outputs_spec outs memos (confirm_change w rc0 off) (off + 1)%nat W1) as (W2 & K2 & C2 & P2 & F2).
        destruct (scan_outputs _ outs memos (off + 1)) as [w2 l]. cbn [fst snd] in *.
        destruct (mark_all_spec L (tx_nullifiers t) w2 W2) as (w3 & E3 & _). rewrite E3. eexists; reflexivity.
      + split; [lia|reflexivity].
  Qed.

  (** *** Iteration order *)
  Lemma same_buckets_spec m m' : same_buckets m m' ->
    Permutation (map fst m) (map fst m') /\
    (forall c b, In (c, b) m -> exists b', In (c, b') m' /\ Permutation b b') /\
    (forall c b', In (c, b') m' -> exists b, In (c, b) m /\ Permutation b b').
  Proof.
    induction 1 as [|c l l' m m' P H (I1 & I2 & I3)|x y m|m1 m2 m3 H1 (I1 & I2 & I3) H2 (J1 & J2 & J3)].
    - split; [constructor|]. split; intros ? ? [].
    - split; [constructor; exact I1|]. split.
      + intros c0 b [G|G]; [injection G as <- <-; exists l'; split; [left; reflexivity|exact P]|]. destruct (I2 _ _ G) as (b' & G1 & G2). exists b'. split; [right; exact G1|exact G2].
      + intros c0 b [G|G]; [injection G as <- <-; exists l; split; [left; reflexivity|exact P]|]. destruct (I3 _ _ G) as (b' & G1 & G2). exists b'. split; [right; exact G1|exact G2].
    - split; [constructor|]. split; intros c b G; exists b; (split; [cbn [In] in *; tauto|apply Permutation_refl]).
    - split; [exact (Permutation_trans I1 J1)|]. split.
      + intros c b G. destruct (I2 _ _ G) as (b' & G1 & G2). destruct (J2 _ _ G1) as (b'' & G3 & G4). exists b''. split; [exact G3|exact (Permutation_trans G2 G4)].
      + intros c b G. destruct (J3 _ _ G) as (b' & G1 & G2). destruct (I3 _ _ G1) as (b'' & G3 & G4). exists b''. split; [exact G3|exact (Permutation_trans G4 G2)].
  Qed.
  Lemma same_records_spec w w' : wallet_ok w -> same_records w w' -> wallet_ok w' /\ same_keys w w' /\ (forall x, holds w' x <-> holds w x).
  Proof.
    intros W (H1 & H2 & H3 & H4 & H5). destruct (same_buckets_spec _ _ H4) as (P1 & P2 & P3).
    split; [|split; [split; assumption|]].
    - constructor.
      + exact (Permutation_NoDup P1 (wk_keys _ W)).
      + intros c b G. destruct (P3 _ _ G) as (b' & G1 & G2). exact (Permutation_NoDup G2 (wk_nodup _ W _ _ G1)).
      + intros c b x G Hx. destruct (P3 _ _ G) as (b' & G1 & G2). apply (wk_code _ W _ _ _ G1). exact (Permutation_in x (Permutation_sym G2) Hx).
      + exact (Permutation_NoDup (Permutation_map fst H3) (wk_pkeys _ W)).
      + intros n x G. apply (Permutation_in _ (Permutation_sym H3)) in G. destruct (wk_pending _ W _ _ G) as [G1 G2].
        split; [unfold w_nullify in *; rewrite H1; exact G1|exact (Permutation_in _ P1 G2)].
      + intros ro G. apply (Permutation_in _ (Permutation_sym H5)) in G. rewrite H1. apply (wk_chg _ W), G.
    - intros x. split; intros (c & b & G & Hx).
      + destruct (P3 _ _ G) as (b' & G1 & G2). exists c, b'. split; [exact G1|exact (Permutation_in x (Permutation_sym G2) Hx)].
      + destruct (P2 _ _ G) as (b' & G1 & G2). exists c, b'. split; [exact G1|exact (Permutation_in x G2 Hx)].
  Qed.

  (** *** Making payments *)
  Lemma holds_code w x : wallet_ok w -> holds w x -> In (code (asset_def (fst x))) (map fst (w_unspent w)).
  Proof. intros W (c & b & H & Hx). rewrite (wk_code _ W _ _ _ H Hx). apply in_map_iff. exists (c, b). auto. Qed.
  Lemma mark_unconfirmed_ok w x : wallet_ok w -> holds w x -> wallet_ok (mark_unconfirmed_spent w (w_nullify w x) x).
  Proof.
    intros W Hx. destruct W as [A1 A2 A3 A4 A5 A6]. constructor; cbn [mark_unconfirmed_spent set_pending w_unspent w_pending w_pending_chg w_kp]; auto.
    - apply map_put_nodup, A4.
    - intros n y H. apply map_put_in in H; [|exact A4]. destruct H as [[-> ->]|[_ H]]; [|apply A5, H].
      split; [reflexivity|]. apply holds_code; [constructor; assumption|exact Hx].
  Qed.
  Lemma mark_inputs_ok l : forall w, wallet_ok w -> (forall x, In x l -> ro_is_dummy (fst x) = false -> holds w x) ->
    wallet_ok (mark_inputs w l) /\ w_kp (mark_inputs w l) = w_kp w /\ w_cred (mark_inputs w l) = w_cred w /\
    w_unspent (mark_inputs w l) = w_unspent w /\ w_pending_chg (mark_inputs w l) = w_pending_chg w.
  Proof.
    induction l as [|x l IH]; intros w W Hl; cbn [mark_inputs fold_left]; [split; [exact W|repeat split]|].
    fold (mark_inputs (if ro_is_dummy (fst x) then w else mark_unconfirmed_spent w (w_nullify w x) x) l).
    destruct (ro_is_dummy (fst x)) eqn:D.
    - apply IH; [exact W|]. intros; apply Hl; [right|]; auto.
    - destruct (IH (mark_unconfirmed_spent w (w_nullify w x) x)) as (A & B & B' & D' & E').
      + apply mark_unconfirmed_ok; [exact W|]. apply Hl; [left; reflexivity|exact D].
      + intros y Hy Dy. apply (Hl y (or_intror Hy) Dy).
      + split; [exact A|]. repeat split; [rewrite B|rewrite B'|rewrite D'|rewrite E']; reflexivity.
  Qed.
  Lemma take_records_sub l : forall cur amt r chg, take_records l cur amt = Ok (r, chg) -> exists rest, l = r ++ rest.
  Proof.
    induction l as [|x l IH]; intros cur amt r chg H; cbn [take_records] in H; [discriminate|].
    destruct (amount_add cur (amount (fst x))) as [c| |]; cbn [bind] in H; try discriminate.
    destruct (negb (amount_ltb c amt)).
    - destruct (amount_sub c amt) as [d| |]; cbn [bind] in H; try discriminate. injection H as <- <-. exists l. reflexivity.
    - destruct (take_records l c amt) as [[r' chg']| |] eqn:T; cbn [bind] in H; try discriminate. injection H as <- <-.
      destruct (IH _ _ _ _ T) as (rest & ->). exists rest. reflexivity.
  Qed.
  Lemma find_records_sub w c amt r chg : find_records w c amt = Ok (r, chg) ->
    exists b rest, map_get c (w_unspent w) = Some b /\ b = r ++ rest /\ forall x, In x r -> holds w x.
  Proof.
    unfold find_records. destruct (map_get c (w_unspent w)) as [b|] eqn:G; [|discriminate]. cbn [ok_or bind]. intros H.
    destruct (take_records_sub _ _ _ _ _ H) as (rest & ->). exists (r ++ rest), rest. split; [reflexivity|]. split; [reflexivity|].
    intros x Hx. exists c, (r ++ rest). split; [apply map_get_in, G|]. apply in_or_app. left; exact Hx.
  Qed.
  Lemma fee_record_holds w fee x : find_record_for_fee w fee = Ok x -> holds w x /\ exists b, map_get native_asset_code (w_unspent w) = Some b /\ In x b.
  Proof.
    unfold find_record_for_fee. destruct (map_get _ (w_unspent w)) as [b|] eqn:G; [|discriminate]. cbn [ok_or bind].
    intros H. apply ok_or_ok in H. rename H into F. apply find_some in F.
    split; [|exists b; split; [reflexivity|apply F]]. exists native_asset_code, b. split; [apply map_get_in, G|apply F].
  Qed.
  Lemma put_chg_ok w ro : wallet_ok w -> asset_def ro = asset_def_native -> pub_key ro = user_pub_key (w_kp w) -> freeze_flag ro = Unfrozen ->
    wallet_ok (set_chg w (set_insert ro_eqb ro (w_pending_chg w))).
  Proof.
    intros W H1 H2 H3. destruct W as [A1 A2 A3 A4 A5 A6]. constructor; cbn [set_chg w_unspent w_pending w_pending_chg w_kp]; auto.
    intros r Hr. apply (set_insert_in ro_eqb (ro_eqb_iff L)) in Hr. destruct Hr as [Hr| ->]; auto.
  Qed.
End Scan.

(** ** Histories *)
Section Runs.
  Context {C : CapConfig} (L : CapLaws C) {S : Snark C} {K : @RoCodec C} (KL : RoCodecLaws K) {E : MemoSer C}.

  Record run_inv (w : Wallet) (lv : list F) (se : list Owned) (sh : list (Nullifier * nat)) : Prop := {
    ri_ok : wallet_ok w;
    ri_shown : forall n k, In (n, k) sh -> (k <= length lv)%nat;
    ri_seen : forall x, In x se -> pub_key (fst x) = user_pub_key (w_kp w) /\ freeze_flag (fst x) = Unfrozen /\
      zv (snd x) < Z.of_nat (length lv) /\ nth_error lv (Z.to_nat (zv (snd x))) = Some (derive_record_commitment (fst x));
    ri_exact : forall x, holds w x <-> In x se /\ forall k, ~ In (w_nullify w x, k) sh
  }.
  Lemma ri_own w lv se sh x : run_inv w lv se sh -> holds w x -> pub_key (fst x) = user_pub_key (w_kp w) /\ freeze_flag (fst x) = Unfrozen.
  Proof. intros R H. apply (ri_exact _ _ _ _ R) in H. destruct (ri_seen _ _ _ _ R x (proj1 H)) as (A & B & _). auto. Qed.

  Lemma zv_w64 n : Z.of_nat n < 2 ^ 64 -> zv (w64 (Z.of_nat n)) = Z.of_nat n.
  Proof. intros H. unfold w64. rewrite zv_zred. apply Z.mod_small. change u64_mod with (2 ^ 64). lia. Qed.
  Lemma nth_app {A} (l l' : list A) i n : (length l <= n)%nat -> i = (n - length l)%nat -> nth_error (l ++ l') n = nth_error l' i.
  Proof. intros H ->. apply nth_error_app2, H. Qed.

  (** changes that leave the records of the wallet alone *)
  Lemma run_inv_same w w' lv se sh : run_inv w lv se sh -> wallet_ok w' -> w_kp w' = w_kp w -> (forall x, holds w' x <-> holds w x) -> run_inv w' lv se sh.
  Proof.
    intros [A B D F] W HK HH. constructor; [exact W|exact B| |].
    - intros x Hx. rewrite HK. apply D, Hx.
    - intros x. rewrite HH, F. assert (N : w_nullify w' x = w_nullify w x) by (unfold w_nullify; rewrite HK; reflexivity). rewrite N. reflexivity.
  Qed.
  Lemma run_inv_leaf w lv l se sh : run_inv w lv se sh -> run_inv w (lv ++ l) se sh.
  Proof.
    intros [A B D F]. constructor; [exact A| | |exact F].
    - intros n k H. rewrite app_length. specialize (B _ _ H). lia.
    - intros x Hx. destruct (D x Hx) as (D1 & D2 & D3 & D4). split; [exact D1|]. split; [exact D2|]. rewrite app_length. split; [lia|].
      rewrite nth_error_app1; [exact D4|]. apply nth_error_Some. congruence.
  Qed.

  (** a paid record sits in the tree *)
  Lemma paid_facts w t memos (lv : list F) x : wallet_ok w -> paid w t memos (length lv) x -> Z.of_nat (length (lv ++ tx_output_commitments t)) < 2 ^ 64 ->
    pub_key (fst x) = user_pub_key (w_kp w) /\ freeze_flag (fst x) = Unfrozen /\
    Z.of_nat (length lv) <= zv (snd x) < Z.of_nat (length (lv ++ tx_output_commitments t)) /\
    nth_error (lv ++ tx_output_commitments t) (Z.to_nat (zv (snd x))) = Some (derive_record_commitment (fst x)).
  Proof.
    intros W [(i & rc & m & H1 & H2 & H3 & H4 & H5)|(H1 & H2 & H3)] Hb; rewrite app_length in *; change (@length RecordCommitment) with (@length F) in *.
    - assert (Hi : (Datatypes.S i < @length F (tx_output_commitments t))%nat) by (apply (proj1 (nth_error_Some (A := F) _ _)); intros G; pose proof (eq_trans (eq_sym G) H1) as G'; discriminate G').
      destruct (receiver_memo_spec L K KL) as [_ R]. destruct (R _ _ _ _ _ H3) as [R1 R2].
      rewrite H5, zv_w64 by lia. split; [exact R1|]. split; [exact H4|]. split; [lia|]. rewrite Nat2Z.id.
      rewrite (nth_app lv _ (Datatypes.S i)) by lia. refine (eq_trans H1 _). f_equal. symmetry; exact R2.
    - assert (Hi : (0 < @length F (tx_output_commitments t))%nat) by (apply (proj1 (nth_error_Some (A := F) _ _)); intros G; pose proof (eq_trans (eq_sym G) H2) as G'; discriminate G').
      destruct (wk_chg _ W _ H1) as (C1 & C2 & C3).
      rewrite H3, zv_w64 by lia. split; [exact C2|]. split; [exact C3|]. split; [lia|]. rewrite Nat2Z.id.
      rewrite (nth_app lv _ 0%nat) by lia. exact H2.
  Qed.

  (** the change of a payment belongs to the wallet *)
  Lemma payment_inputs_map w depth leaves dkp cred l : forall is, payment_inputs w depth leaves dkp cred l = Ok is -> map ti_ro is = map fst l.
  Proof.
    induction l as [|[ro uid] l IH]; intros is H; cbn [payment_inputs] in H; [injection H as <-; reflexivity|].
    destruct (if ro_is_dummy ro then _ else _) as [i| |] eqn:G; cbn [bind] in H; try discriminate.
    destruct (payment_inputs w depth leaves dkp cred l) as [is'| |]; cbn [bind] in H; try discriminate. injection H as <-. cbn [map fst].
    rewrite (IH is' eq_refl). f_equal. destruct (ro_is_dummy ro); [injection G as <-; reflexivity|].
    destruct (lookup_from_tree depth leaves uid) as [a| |]; cbn [bind] in G; try discriminate. injection G as <-. reflexivity.
  Qed.
  Lemma generate_native_chg r inputs outputs fee vu pk n sk chg : transfer_generate_native r inputs outputs fee vu pk = Ok (n, sk, chg) ->
    exists i0 rest, inputs = i0 :: rest /\ asset_def chg = asset_def_native /\ pub_key chg = pub_key (ti_ro i0) /\ freeze_flag chg = Unfrozen.
  Proof.
    unfold transfer_generate_native. destruct inputs as [|i0 rest]; [discriminate|]. intros H.
    repeat (apply bind_ok in H; destruct H as (? & _ & H)). injection H as _ _ <-. exists i0, rest. repeat split.
  Qed.

  Lemma spend_native_inv g depth w r outs fee leaves lv se sh : run_inv w lv se sh -> run_inv (fst (spend_native g depth w r outs fee leaves)) lv se sh.
  Proof.
    intros R. unfold spend_native. destruct (let* t := total_amount outs in _) as [[records chg0]| |] eqn:F; [|exact R|exact R].
    apply bind_ok in F. destruct F as (t0 & _ & F). apply bind_ok in F. destruct F as (tot & _ & F).
    destruct (find_records_sub _ _ _ _ _ F) as (b & rest & Gb & _ & Hr). cbn [ro_dummy].
    set (dro := ro_new _ _ _ _ _).
    assert (M : wallet_ok (mark_inputs w (records ++ [(dro, w64 0)])) /\ w_kp (mark_inputs w (records ++ [(dro, w64 0)])) = w_kp w /\
      w_cred (mark_inputs w (records ++ [(dro, w64 0)])) = w_cred w /\ w_unspent (mark_inputs w (records ++ [(dro, w64 0)])) = w_unspent w /\
      w_pending_chg (mark_inputs w (records ++ [(dro, w64 0)])) = w_pending_chg w).
    { apply mark_inputs_ok; [apply R|]. intros x Hx Hd. apply in_app_iff in Hx. destruct Hx as [Hx|[<-|[]]]; [auto|].
      assert (D : ro_is_dummy dro = true) by (unfold ro_is_dummy; apply (is_dummy_iff L); reflexivity). cbn [fst] in Hd. congruence. }
    destruct M as (M1 & M2 & M3 & M4 & M5). set (w1 := mark_inputs w (records ++ [(dro, w64 0)])) in *.
    assert (R1 : run_inv w1 lv se sh).
    { apply (run_inv_same w); auto. intros x. unfold holds. rewrite M4. reflexivity. }
    destruct (let* inputs := _ in _) as [[[[note memos] sig] chg]| |] eqn:G; [|exact R1|exact R1]. cbn [fst].
    apply bind_ok in G. destruct G as (inputs & GI & G). apply bind_ok in G. destruct G as (keys & _ & G). apply bind_ok in G.
    destruct G as ([[n0 sk] chg'] & GG & G). apply bind_ok in G. destruct G as (ms & _ & G). apply bind_ok in G. destruct G as (sg & _ & G). injection G as _ _ _ <-.
    apply payment_inputs_map in GI. destruct (generate_native_chg _ _ _ _ _ _ _ _ _ GG) as (i0 & irest & -> & A1 & A2 & A3).
    apply (run_inv_same w1); [exact R1| |reflexivity|intros x; reflexivity].
    apply (put_chg_ok L); [exact M1|exact A1| |exact A3]. rewrite A2, M2.
    destruct records as [|x records].
    - exfalso. unfold find_records in F. rewrite Gb in F. cbn [ok_or bind] in F. clear - F.
      destruct b as [|y b]; cbn [take_records] in F; [discriminate|]. destruct (amount_add _ _) as [cu| |]; cbn [bind] in F; try discriminate.
      destruct (negb _); [destruct (amount_sub _ _) as [d| |]; cbn [bind] in F; discriminate|].
      destruct (take_records b cu tot) as [[u v]| |]; cbn [bind] in F; discriminate.
    - cbn [app map] in GI. injection GI as GI _. rewrite GI. apply (ri_own _ _ _ _ x R). apply Hr. left; reflexivity.
  Qed.
  Lemma fee_chg_own b f fee info chg : txn_fee_info_new b f fee = Ok (info, chg) ->
    asset_def chg = asset_def_native /\ pub_key chg = pub_key (fi_ro f) /\ freeze_flag chg = Unfrozen.
  Proof.
    unfold txn_fee_info_new. destruct (amount_ltb _ _); [discriminate|]. intros H. apply bind_ok in H. destruct H as (c & _ & H).
    injection H as _ <-. repeat split.
  Qed.
  Lemma unwrap_ok {A} (r : res A) a : unwrap r = Ok a -> r = Ok a.
  Proof. destruct r; cbn; congruence. Qed.
  Lemma spend_non_native_inv g depth w r d outs fee leaves lv se sh : run_inv w lv se sh ->
    run_inv (fst (spend_non_native g depth w r d outs fee leaves)) lv se sh.
  Proof.
    intros R. unfold spend_non_native. destruct (asset_def_eqb d asset_def_native); [exact R|].
    destruct (let* total := total_amount outs in _) as [[total frec]| |] eqn:F; [|exact R|exact R].
    apply bind_ok in F. destruct F as (t0 & _ & F). apply bind_ok in F. destruct F as (fr & FF & F). injection F as _ <-.
    destruct (fee_record_holds _ _ _ FF) as [Hf _].
    pose proof (mark_unconfirmed_ok w fr (ri_ok _ _ _ _ R) Hf) as W1. set (w1 := mark_unconfirmed_spent w (w_nullify w fr) fr) in *.
    assert (R1 : run_inv w1 lv se sh) by (apply (run_inv_same w); [exact R|exact W1|reflexivity|intros; reflexivity]).
    destruct (let* a := lookup_from_tree _ _ _ in _) as [[[[[note memos] sig] records] chg]| |] eqn:G; [|exact R1|exact R1]. cbn [fst].
    apply bind_ok in G. destruct G as (a & _ & G). apply bind_ok in G. destruct G as ([info fee_chg] & GF & G). apply unwrap_ok in GF.
    apply bind_ok in G. destruct G as ([records' change] & GR & G). cbn [ro_dummy] in G.
    apply bind_ok in G. destruct G as (inputs & _ & G). apply bind_ok in G. destruct G as (keys & _ & G).
    apply bind_ok in G. destruct G as ([n0 sk] & _ & G). apply bind_ok in G. destruct G as (ms & _ & G). apply bind_ok in G. destruct G as (sg & _ & G).
    injection G as _ _ _ <- <-.
    destruct (find_records_sub _ _ _ _ _ GR) as (b & rest & _ & _ & Hr).
    destruct (mark_inputs_ok records' w1 W1) as (M1 & M2 & M3 & M4 & M5); [intros x Hx _; apply Hr, Hx|].
    destruct (fee_chg_own _ _ _ _ _ GF) as (A1 & A2 & A3). cbn [fi_ro] in A2.
    apply (run_inv_same w1); [exact R1| |exact M2|intros x; unfold holds; cbn [set_chg w_unspent]; rewrite M4; reflexivity].
    apply (put_chg_ok L); [exact M1|exact A1| |exact A3]. rewrite A2, M2. apply (ri_own _ _ _ _ fr R Hf).
  Qed.

  (** ** The keys never change *)
  Lemma drop_kp w n w' : mark_spent_if_owned w n = Ok w' -> same_keys w w'.
  Proof.
    unfold mark_spent_if_owned. intros H. apply bind_ok in H. destruct H as (w1 & H1 & H). injection H as <-.
    destruct (map_get n (w_pending w)) as [x|]; [|injection H1 as <-; split; reflexivity].
    destruct (map_get _ (w_unspent w)) as [b|]; [|discriminate]. injection H1 as <-. split; reflexivity.
  Qed.
  Lemma mark_all_kp l : forall w w', mark_all w l = Ok w' -> same_keys w w'.
  Proof.
    induction l as [|n l IH]; intros w w' H; cbn [mark_all] in H; [injection H as <-; split; reflexivity|].
    apply bind_ok in H. destruct H as (w1 & H1 & H). exact (same_keys_trans _ _ _ (drop_kp _ _ _ H1) (IH _ _ H)).
  Qed.
  Lemma scan_outputs_kp : forall outs memos w off, same_keys w (fst (scan_outputs w outs memos off)).
  Proof.
    induction outs as [|rc outs IH]; intros [|m memos] w off; cbn [scan_outputs]; try (split; reflexivity).
    destruct (receiver_memo_decrypt m (w_kp w) rc []) as [ro| |]; [|apply IH|apply IH].
    set (w1 := match freeze_flag ro with Unfrozen => _ | Frozen => _ end).
    assert (K1 : same_keys w w1) by (subst w1; destruct (freeze_flag ro); split; reflexivity).
    specialize (IH memos w1 (off + 1)%nat). destruct (scan_outputs w1 outs memos (off + 1)) as [w2 l]. cbn [fst] in *.
    exact (same_keys_trans _ _ _ K1 IH).
  Qed.
  Lemma scan_txn_kp w t memos off w' found : scan_txn w t memos off = Ok (w', found) -> same_keys w w'.
  Proof.
    unfold scan_txn. destruct (tx_output_commitments t) as [|rc0 outs]; [discriminate|]. destruct (negb _); [discriminate|].
    pose proof (scan_outputs_kp outs memos (confirm_change w rc0 off) (off + 1)) as K2.
    destruct (scan_outputs (confirm_change w rc0 off) outs memos (off + 1)) as [w2 l]. cbn [fst] in K2. intros H.
    apply bind_ok in H. destruct H as (w3 & H3 & H). injection H as <- _. apply mark_all_kp in H3.
    assert (K1 : same_keys w (confirm_change w rc0 off)) by (unfold confirm_change; destruct (find _ _); split; reflexivity).
    exact (same_keys_trans _ _ _ K1 (same_keys_trans _ _ _ K2 H3)).
  Qed.
  Lemma mark_inputs_kp l : forall w, same_keys w (mark_inputs w l).
  Proof.
    induction l as [|x l IH]; intros w; [split; reflexivity|]. unfold mark_inputs. cbn [fold_left].
    destruct (ro_is_dummy (fst x)); [apply IH|]. refine (same_keys_trans _ _ _ _ (IH _)). split; reflexivity.
  Qed.
  Lemma spend_native_kp g depth w r outs fee leaves : same_keys w (fst (spend_native g depth w r outs fee leaves)).
  Proof.
    unfold spend_native. destruct (let* t := total_amount outs in _) as [[records chg0]| |]; try (split; reflexivity). cbn [ro_dummy].
    destruct (let* inputs := _ in _) as [[[[note memos] sig] chg]| |]; cbn [fst]; exact (mark_inputs_kp _ w).
  Qed.
  Lemma spend_non_native_kp g depth w r d outs fee leaves : same_keys w (fst (spend_non_native g depth w r d outs fee leaves)).
  Proof.
    unfold spend_non_native. destruct (asset_def_eqb d asset_def_native); [split; reflexivity|].
    destruct (let* total := total_amount outs in _) as [[total fr]| |]; try (split; reflexivity).
    destruct (let* a := lookup_from_tree _ _ _ in _) as [[[[[note memos] sig] records] chg]| |]; cbn [fst]; try (split; reflexivity).
    exact (mark_inputs_kp records (mark_unconfirmed_spent w (w_nullify w fr) fr)).
  Qed.

  Theorem runs_inv w lv se sh : runs w lv se sh -> Z.of_nat (length lv) < 2 ^ 64 -> distinct_nullifiers w se -> nullified_after_creation w se sh ->
    run_inv w lv se sh.
  Proof.
    induction 1 as [kp|w w' lv se sh H IH HO|w lv se sh c H IH|w lv se sh rc H IH|w lv se sh ro H IH HP HF|w lv se sh t memos w' found se' H IH HS Hse
      |w lv se sh x H IH Hx|w lv se sh ro H IH H1 H2 H3|w lv se sh g depth r outs fee leaves H IH|w lv se sh g depth r d outs fee leaves H IH]; intros Hb HD HC.
    - constructor; [apply new_ok|intros n k []|intros x []|]. intros x. split; [intros (? & ? & [] & _)|intros [[] _]].
    - assert (Kp : w_kp w' = w_kp w) by apply HO.
      assert (R : run_inv w lv se sh).
      { apply IH; [exact Hb| |].
        - intros x y Hx Hy Hxy. apply HD; auto. unfold w_nullify in *. rewrite Kp. exact Hxy.
        - intros x k Hx Hk. apply HC; auto. unfold w_nullify in *. rewrite Kp. exact Hk. }
      destruct (same_records_spec w w' (ri_ok _ _ _ _ R) HO) as (W' & _ & Hh). apply (run_inv_same w); auto.
    - assert (R : run_inv w lv se sh) by (apply IH; auto). apply (run_inv_same w); [exact R| |reflexivity|intros; reflexivity].
      destruct R as [[]]. constructor; auto.
    - apply run_inv_leaf. apply IH; auto. rewrite app_length in Hb. lia.
    - rewrite app_length in Hb. cbn [length] in Hb. set (u := w64 (Z.of_nat (length lv))) in *. assert (Zu : zv u = Z.of_nat (length lv)) by (apply zv_w64; lia).
      assert (R : run_inv w lv se sh).
      { apply IH; [lia| |].
        - intros x y Hx Hy Hxy. apply HD; [apply in_or_app; auto|apply in_or_app; auto|exact Hxy].
        - intros x k Hx Hk. apply HC; [apply in_or_app; auto|exact Hk]. }
      destruct R as [A B D F]. constructor.
      + apply (add_ok L), A.
      + intros n k Hk. rewrite app_length. specialize (B _ _ Hk). lia.
      + intros x Hx. rewrite app_length. cbn [length]. apply in_app_or in Hx. destruct Hx as [Hx|[<-|[]]].
        * destruct (D x Hx) as (D1 & D2 & D3 & D4). split; [exact D1|]. split; [exact D2|]. split; [lia|].
          rewrite nth_error_app1; [exact D4|]. apply nth_error_Some. congruence.
        * cbn [fst snd]. rewrite Zu. split; [exact HP|]. split; [exact HF|]. split; [lia|]. rewrite Nat2Z.id. rewrite (nth_app lv _ 0%nat) by lia. reflexivity.
      + intros x. rewrite (add_holds L) by exact A. rewrite F. rewrite in_app_iff. cbn [In]. split.
        * intros [[H1 H2]| ->]; [split; [auto|exact H2]|]. split; [auto|]. intros k Hk.
          specialize (HC (ro, u) k). cbn [snd] in HC. rewrite Zu in HC. specialize (B _ _ Hk). enough (Z.of_nat (length lv) < Z.of_nat k) by lia.
          apply HC; [apply in_or_app; right; left; reflexivity|exact Hk].
        * intros [[H1|[<-|[]]] H2]; auto.
    - pose proof (scan_txn_kp _ _ _ _ _ _ HS) as K'.
      assert (W0 : run_inv w lv se sh).
      { rewrite app_length in Hb. apply IH; [lia| |].
        - intros x y Hx Hy Hxy. apply HD; [apply Hse; auto|apply Hse; auto|]. rewrite !(same_keys_nullify _ _ _ K'). exact Hxy.
        - intros x k Hx Hk. apply HC; [apply Hse; auto|]. apply in_or_app. left. rewrite (same_keys_nullify _ _ _ K'). exact Hk. }
      pose proof (ri_ok _ _ _ _ W0) as WW. destruct (scan_txn_spec L w t memos (length lv) w' found WW HS) as (W' & _ & _ & _ & HX).
      destruct W0 as [A B D F].
      assert (HI : inj_on w (fun x => holds w x \/ paid w t memos (length lv) x)).
      { intros x y Hx Hy Hxy. apply HD; [apply Hse|apply Hse|rewrite !(same_keys_nullify _ _ _ K'); exact Hxy].
        - destruct Hx as [Hx|Hx]; [left; apply F, Hx|right; exact Hx].
        - destruct Hy as [Hy|Hy]; [left; apply F, Hy|right; exact Hy]. }
      specialize (HX HI).
      constructor; [exact W'| | |].
      + intros n k Hk. rewrite app_length. apply in_app_or in Hk. destruct Hk as [Hk|Hk]; [specialize (B _ _ Hk); lia|].
        apply in_map_iff in Hk. destruct Hk as (? & Hk & _). injection Hk as _ Hk. subst k. apply Nat.le_refl.
      + intros x Hx. rewrite (proj1 K'). apply Hse in Hx. destruct Hx as [Hx|Hx].
        * destruct (D x Hx) as (D1 & D2 & D3 & D4). rewrite app_length. split; [exact D1|]. split; [exact D2|]. split; [lia|].
          rewrite nth_error_app1; [exact D4|]. apply nth_error_Some. congruence.
        * destruct (paid_facts w t memos lv x WW Hx Hb) as (D1 & D2 & D3 & D4). split; [exact D1|]. split; [exact D2|]. split; [exact (proj2 D3)|exact D4].
      + intros x. rewrite (same_keys_nullify _ _ _ K'). rewrite HX, Hse, F. split.
        * intros [Hx Hn]. split; [tauto|]. intros k Hk. apply in_app_or in Hk. destruct Hk as [Hk|Hk].
          -- destruct Hx as [[_ Hx]|Hx]; [exact (Hx k Hk)|].
             destruct (paid_facts w t memos lv x WW Hx Hb) as (_ & _ & D3 & _). specialize (B _ _ Hk).
             specialize (HC x k). rewrite (same_keys_nullify _ _ _ K') in HC. enough (zv (snd x) < Z.of_nat k) by lia.
             apply HC; [apply Hse; right; exact Hx|apply in_or_app; left; exact Hk].
          -- apply in_map_iff in Hk. destruct Hk as (n & Hk & Hi). injection Hk as Hk _. subst n. exact (Hn Hi).
        * intros [Hx Hn]. split.
          -- destruct Hx as [Hx|Hx]; [left|right; exact Hx]. split; [exact Hx|]. intros k Hk. apply (Hn k). apply in_or_app. left; exact Hk.
          -- intros Hi. eapply Hn. apply in_or_app. right. apply in_map_iff. eexists. split; [reflexivity|exact Hi].
    - assert (R : run_inv w lv se sh) by (apply IH; auto). apply (run_inv_same w); [exact R| |reflexivity|intros; reflexivity].
      apply mark_unconfirmed_ok; [apply R|exact Hx].
    - assert (R : run_inv w lv se sh) by (apply IH; auto). apply (run_inv_same w); [exact R| |reflexivity|intros; reflexivity].
      apply (put_chg_ok L); auto. apply R.
    - pose proof (spend_native_kp g depth w r outs fee leaves) as K'. apply spend_native_inv. apply IH; [exact Hb| |].
      + intros x y Hx Hy Hxy. apply HD; auto. rewrite !(same_keys_nullify _ _ _ K'). exact Hxy.
      + intros x k Hx Hk. apply HC; auto. rewrite (same_keys_nullify _ _ _ K'). exact Hk.
    - pose proof (spend_non_native_kp g depth w r d outs fee leaves) as K'. apply spend_non_native_inv. apply IH; [exact Hb| |].
      + intros x y Hx Hy Hxy. apply HD; auto. rewrite !(same_keys_nullify _ _ _ K'). exact Hxy.
      + intros x k Hx Hk. apply HC; auto. rewrite (same_keys_nullify _ _ _ K'). exact Hk.
  Qed.
End Runs.
