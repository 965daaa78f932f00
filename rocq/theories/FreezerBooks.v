(** The books of a freezer: address-keyed maps of sets, and the confirmation of freeze notes. *)
From Coq Require Import ZifyBool ZifyNat.
From Verif Require Import Base Config Structs Keys Utils Memo Plonk Witness Circuits Relation GadgetProofs Snark Notes Serde Ledger Wallet WalletSpec Roles RolesSpec FreezerSpec UtilsProofs WalletProofs.
From Coq Require Import Permutation.

Ltac fcbn := cbn [fm_set_wallet fm_set_freezable fm_set_releasable fm_set_freezing fm_set_releasing fm_viewer fm_kp fm_wallet fm_freezable fm_releasable fm_freezing fm_releasing fm_users].

Section Books.
  Context {C : CapConfig} (L : CapLaws C) {S : Snark C} {K : @RoCodec C} {E : MemoSer C}.

  Lemma amap_get_put {V} a b (v : V) m : amap_get a (amap_put b v m) = if point_eqb a b then Some v else amap_get a m.
  Proof.
    induction m as [|[k w] m IH]; cbn [amap_get amap_put].
    - reflexivity.
    - destruct (point_eqb b k) eqn:Eb; cbn [amap_get].
      + apply (point_eqb_spec L) in Eb. subst k. destruct (point_eqb a b); reflexivity.
      + rewrite IH. destruct (point_eqb a k) eqn:Ea; [|reflexivity]. apply (point_eqb_spec L) in Ea. subst k.
        destruct (point_eqb a b) eqn:Eab; [|reflexivity]. apply (point_eqb_spec L) in Eab. subst b. rewrite (point_eqb_refl L) in Eb. discriminate.
  Qed.
  Lemma amap_get_in {V} a (m : list (point * V)) v : amap_get a m = Some v -> In (a, v) m.
  Proof.
    induction m as [|[k w] m IH]; cbn [amap_get]; [discriminate|]. destruct (point_eqb a k) eqn:Ea.
    - apply (point_eqb_spec L) in Ea. subst k. intros [= ->]. left; reflexivity.
    - intros H. right. auto.
  Qed.
  Lemma amap_get_unique {V} a (m : list (point * V)) v : NoDup (map fst m) -> In (a, v) m -> amap_get a m = Some v.
  Proof.
    induction m as [|[k w] m IH]; cbn [amap_get map fst]; intros N H; [destruct H|]. inversion N as [|? ? N1 N2]; subst. destruct H as [H|H].
    - injection H as -> ->. rewrite (point_eqb_refl L). reflexivity.
    - destruct (point_eqb a k) eqn:Ea; [|auto]. apply (point_eqb_spec L) in Ea. subst k. exfalso. apply N1. apply in_map_iff. exists (a, v). auto.
  Qed.
  Lemma amap_put_keys {V} k (v : V) m c : In c (map fst (amap_put k v m)) <-> In c (map fst m) \/ c = k.
  Proof.
    induction m as [|[k' v'] m IH]; cbn [amap_put map fst]; [cbn; intuition|]. destruct (point_eqb k k') eqn:H; cbn [map fst In].
    - apply (point_eqb_spec L) in H. subst. intuition.
    - rewrite IH. intuition.
  Qed.
  Lemma amap_put_nodup {V} k (v : V) m : NoDup (map fst m) -> NoDup (map fst (amap_put k v m)).
  Proof.
    induction m as [|[k' v'] m IH]; cbn [amap_put map fst]; intros N; [repeat constructor; intros []|].
    inversion N as [|? ? N1 N2]; subst. destruct (point_eqb k k') eqn:H; cbn [map fst].
    - apply (point_eqb_spec L) in H. subst. constructor; auto.
    - constructor; [|auto]. rewrite amap_put_keys. apply (point_eqb_neq L) in H. intros [G|G]; auto.
  Qed.
  Lemma map_get_del {V} k n (m : list (F * V)) : map_get k (map_del n m) = if zeqb n k then None else map_get k m.
  Proof.
    induction m as [|[k' v] m IH]; cbn [map_get map_del filter fst]; [destruct (zeqb n k); reflexivity|].
    unfold map_del in IH. destruct (zeqb_reflect n k') as [<-|Hn]; cbn [negb map_get].
    - rewrite IH. destruct (zeqb_reflect n k) as [<-|Hk]; [reflexivity|]. destruct (zeqb_reflect k n); [congruence|reflexivity].
    - rewrite IH. destruct (zeqb_reflect k k') as [<-|Hk]; [|reflexivity]. destruct (zeqb_reflect n k); [congruence|reflexivity].
  Qed.
  Lemma map_get_put {V} k n (v : V) m : map_get k (map_put n v m) = if zeqb k n then Some v else map_get k m.
  Proof.
    induction m as [|[k' w] m IH]; cbn [map_get map_put]; [reflexivity|]. destruct (zeqb_reflect n k') as [<-|Hn]; cbn [map_get].
    - destruct (zeqb k n); reflexivity.
    - rewrite IH. destruct (zeqb_reflect k k') as [<-|Hk]; [|reflexivity]. destruct (zeqb_reflect k n); [congruence|reflexivity].
  Qed.

  Lemma listed_put a b m c x : listed (amap_put b c m) a x <-> (a = b /\ In x c) \/ (a <> b /\ listed m a x).
  Proof.
    unfold listed. rewrite amap_get_put. destruct (point_eqb a b) eqn:Ea.
    - apply (point_eqb_spec L) in Ea. split; [intros (? & [= <-] & H); auto|]. intros [[_ H]|[H _]]; [exists c; auto|contradiction].
    - apply (point_eqb_neq L) in Ea. split; [auto|]. intros [[H _]|[_ H]]; [contradiction|exact H].
  Qed.
  Lemma listed_insert a b y m x : listed (book_insert b y m) a x <-> listed m a x \/ (a = b /\ x = y).
  Proof.
    unfold book_insert. rewrite listed_put, (set_insert_in _ (owned_eqb_iff L)). destruct (point_eqb a b) eqn:Ea.
    - apply (point_eqb_spec L) in Ea. subst b. unfold listed. destruct (amap_get a m) as [b|].
      + split; [intros [[_ [H|H]]|[H _]]; [left; exists b; auto|auto|contradiction]|]. intros [(b' & [= <-] & H)|[_ H]]; auto.
      + split; [intros [[_ [[]|H]]|[H _]]; [auto|contradiction]|]. intros [(b' & H & _)|[_ H]]; [discriminate|auto].
    - apply (point_eqb_neq L) in Ea. tauto.
  Qed.
  Lemma listed_remove a b y m c x : amap_get b m = Some c -> listed (amap_put b (set_remove owned_eqb y c) m) a x <-> listed m a x /\ ~ (a = b /\ x = y).
  Proof.
    intros Hb. rewrite listed_put, (set_remove_in _ (owned_eqb_iff L)). destruct (point_eqb a b) eqn:Ea.
    - apply (point_eqb_spec L) in Ea. subst b. unfold listed. rewrite Hb. split.
      + intros [[_ [H1 H2]]|[H _]]; [|contradiction]. split; [exists c; auto|tauto].
      + intros [(b' & [= <-] & H) H2]. left. tauto.
    - apply (point_eqb_neq L) in Ea. tauto.
  Qed.
  Lemma listed_add a b y m c x : amap_get b m = Some c -> listed (amap_put b (set_insert owned_eqb y c) m) a x <-> listed m a x \/ (a = b /\ x = y).
  Proof. intros Hb. pose proof (listed_insert a b y m x) as H. unfold book_insert in H. rewrite Hb in H. exact H. Qed.

  (** the book has a set for the address *)
  Definition has_book (m : list (point * list Owned)) (a : point) : Prop := exists b, amap_get a m = Some b.
  Lemma has_put m a b c : has_book (amap_put b c m) a <-> has_book m a \/ a = b.
  Proof.
    unfold has_book. rewrite amap_get_put. destruct (point_eqb a b) eqn:Ea.
    - apply (point_eqb_spec L) in Ea. split; [auto|]. intros _. exists c. reflexivity.
    - apply (point_eqb_neq L) in Ea. tauto.
  Qed.
  Lemma listed_has m a x : listed m a x -> has_book m a.
  Proof. intros (b & H & _). exists b. exact H. Qed.

  (** *** Iteration order *)
  Lemma same_books_perm m m' : same_books m m' -> Permutation (map fst m) (map fst m') /\
    (forall c b, In (c, b) m -> exists b', In (c, b') m' /\ Permutation b b') /\
    (forall c b', In (c, b') m' -> exists b, In (c, b) m /\ Permutation b b').
  Proof.
    induction 1 as [|c l l' m m' P H (I1 & I2 & I3)|x y m|m1 m2 m3 H1 (I1 & I2 & I3) H2 (J1 & J2 & J3)].
    - split; [constructor|]. split; intros ? ? [].
    - split; [constructor; exact I1|]. split.
      + intros c0 b [G|G]; [injection G as <- <-; exists l'; split; [left; reflexivity|exact P]|]. destruct (I2 _ _ G) as (b' & G1 & G2). exists b'. split; [right; exact G1|exact G2].
      + intros c0 b [G|G]; [injection G as <- <-; exists l; split; [left; reflexivity|exact P]|]. destruct (I3 _ _ G) as (b' & G1 & G2). exists b'. split; [right; exact G1|exact G2].
    - split; [constructor|]. split; intros c b G; exists b; (split; [cbn [In] in *; tauto|apply Permutation_refl]).
    - split; [exact (Permutation_trans I1 J1)|]. split.
      + intros c b G. destruct (I2 _ _ G) as (b' & G1 & G2). destruct (J2 _ _ G1) as (b'' & G3 & G4). exists b''. split; [exact G3|exact (Permutation_trans G2 G4)].
      + intros c b G. destruct (J3 _ _ G) as (b' & G1 & G2). destruct (I3 _ _ G1) as (b'' & G3 & G4). exists b''. split; [exact G3|exact (Permutation_trans G4 G2)].
  Qed.
  Lemma same_books_spec m m' : same_books m m' -> NoDup (map fst m) -> NoDup (map fst m') /\
    (forall a x, listed m' a x <-> listed m a x) /\ (forall a, has_book m' a <-> has_book m a).
  Proof.
    intros H N. destruct (same_books_perm _ _ H) as (P & Q1 & Q2). pose proof (Permutation_NoDup P N) as N'.
    split; [exact N'|]. split; [intros a x|intros a]; split.
    - intros (b & Hb & Hx). apply amap_get_in in Hb. destruct (Q2 _ _ Hb) as (b' & G1 & G2). exists b'.
      split; [apply amap_get_unique; auto|]. exact (Permutation_in _ (Permutation_sym G2) Hx).
    - intros (b & Hb & Hx). apply amap_get_in in Hb. destruct (Q1 _ _ Hb) as (b' & G1 & G2). exists b'.
      split; [apply amap_get_unique; auto|]. exact (Permutation_in _ G2 Hx).
    - intros (b & Hb). apply amap_get_in in Hb. destruct (Q2 _ _ Hb) as (b' & G1 & G2). exists b'. apply amap_get_unique; auto.
    - intros (b & Hb). apply amap_get_in in Hb. destruct (Q1 _ _ Hb) as (b' & G1 & G2). exists b'. apply amap_get_unique; auto.
  Qed.
  Lemma map_get_perm {V} (m m' : list (F * V)) k : NoDup (map fst m) -> Permutation m m' -> map_get k m' = map_get k m.
  Proof.
    intros N P. pose proof (Permutation_NoDup (Permutation_map fst P) N) as N'. destruct (map_get k m) as [v|] eqn:G.
    - apply map_get_unique; [exact N'|]. apply (Permutation_in _ P). apply map_get_in, G.
    - apply map_get_none. apply map_get_none in G. intros H. apply G. exact (Permutation_in _ (Permutation_sym (Permutation_map fst P)) H).
  Qed.
  Lemma amap_get_perm {V} (m m' : list (point * V)) k : NoDup (map fst m) -> Permutation m m' -> amap_get k m' = amap_get k m.
  Proof.
    intros N P. pose proof (Permutation_NoDup (Permutation_map fst P) N) as N'. destruct (amap_get k m) as [v|] eqn:G.
    - apply amap_get_unique; [exact N'|]. apply (Permutation_in _ P). apply amap_get_in, G.
    - destruct (amap_get k m') as [v|] eqn:G'; [|reflexivity]. apply amap_get_in in G'. apply (Permutation_in _ (Permutation_sym P)) in G'.
      rewrite (amap_get_unique _ _ _ N G') in G. discriminate.
  Qed.

  (** *** Confirming freeze notes *)
  (** what the freezer keeps apart from its books and pending changes *)
  Definition same_rest (f f' : Freezer) : Prop :=
    fm_viewer f' = fm_viewer f /\ fm_kp f' = fm_kp f /\ fm_wallet f' = fm_wallet f /\ fm_users f' = fm_users f.
  (** sets have no repetitions *)
  Definition sets_ok (m : list (point * list Owned)) : Prop := forall a b, amap_get a m = Some b -> NoDup b.
  Lemma sets_put m a b : sets_ok m -> NoDup b -> sets_ok (amap_put a b m).
  Proof. intros H N a' b'. rewrite amap_get_put. destruct (point_eqb a' a); [intros [= <-]; exact N|apply H]. Qed.
  Lemma sets_insert m a x : sets_ok m -> sets_ok (book_insert a x m).
  Proof.
    intros H. apply sets_put; [exact H|]. apply (set_insert_nodup _ (owned_eqb_iff L)). destruct (amap_get a m) as [b|] eqn:G; [exact (H _ _ G)|constructor].
  Qed.
  Lemma sets_same m m' : same_books m m' -> NoDup (map fst m) -> sets_ok m -> sets_ok m'.
  Proof.
    intros H N Hs a b Hb. destruct (same_books_perm _ _ H) as (P & _ & Q2). apply amap_get_in in Hb. destruct (Q2 _ _ Hb) as (b' & G1 & G2).
    exact (Permutation_NoDup G2 (Hs a b' (amap_get_unique _ _ _ N G1))).
  Qed.
  Record books_ok (f : Freezer) (pos : nat) : Prop := {
    bo_free_sets : sets_ok (fm_freezable f);
    bo_rel_sets : sets_ok (fm_releasable f);
    bo_free_keys : NoDup (map fst (fm_freezable f));
    bo_rel_keys : NoDup (map fst (fm_releasable f));
    bo_freezing_keys : NoDup (map fst (fm_freezing f));
    bo_releasing_keys : NoDup (map fst (fm_releasing f));
    bo_freezing : forall nl a old new, map_get nl (fm_freezing f) = Some (a, old, new) -> has_book (fm_freezable f) a /\ zv (snd old) < Z.of_nat pos;
    bo_releasing : forall nl a old new, map_get nl (fm_releasing f) = Some (a, old, new) ->
      has_book (fm_freezable f) a /\ has_book (fm_releasable f) a /\ zv (snd old) < Z.of_nat pos
  }.
  (** the effect on the books and on what is pending of nullifiers [l] at positions from [pos] on *)
  Record confirmed (f f' : Freezer) (l : list Nullifier) (pos : nat) : Prop := {
    cf_rest : same_rest f f';
    cf_free : forall a x, listed (fm_freezable f') a x <->
      (listed (fm_freezable f) a x /\ ~ exists nl new, In nl l /\ map_get nl (fm_freezing f) = Some (a, x, new)) \/
      (exists i nl old, nth_error l i = Some nl /\ map_get nl (fm_releasing f) = Some (a, old, fst x) /\ snd x = w64 (Z.of_nat (pos + i)));
    cf_rel : forall a x, listed (fm_releasable f') a x <->
      (listed (fm_releasable f) a x /\ ~ exists nl new, In nl l /\ map_get nl (fm_releasing f) = Some (a, x, new)) \/
      (exists i nl old, nth_error l i = Some nl /\ map_get nl (fm_freezing f) = Some (a, old, fst x) /\ snd x = w64 (Z.of_nat (pos + i)));
    cf_has_free : forall a, has_book (fm_freezable f') a <-> has_book (fm_freezable f) a;
    cf_has_rel : forall a, has_book (fm_releasable f) a -> has_book (fm_releasable f') a;
    cf_freezing : forall nl, map_get nl (fm_freezing f') = if existsb (zeqb nl) l then None else map_get nl (fm_freezing f);
    cf_releasing : forall nl, map_get nl (fm_releasing f') = if existsb (zeqb nl) l then None else map_get nl (fm_releasing f)
  }.

  Lemma confirm_frozen_step f nl pos : books_ok f pos -> Z.of_nat pos < 2 ^ 64 ->
    exists f', confirm_frozen f nl (w64 (Z.of_nat pos)) = Ok f' /\ books_ok f' pos /\ same_rest f f' /\
      fm_releasing f' = fm_releasing f /\ (forall k, map_get k (fm_freezing f') = if zeqb nl k then None else map_get k (fm_freezing f)) /\
      (forall a x, listed (fm_freezable f') a x <-> listed (fm_freezable f) a x /\ ~ exists new, map_get nl (fm_freezing f) = Some (a, x, new)) /\
      (forall a x, listed (fm_releasable f') a x <-> listed (fm_releasable f) a x \/
         exists old, map_get nl (fm_freezing f) = Some (a, old, fst x) /\ snd x = w64 (Z.of_nat pos)) /\
      (forall a, has_book (fm_freezable f') a <-> has_book (fm_freezable f) a) /\
      (forall a, has_book (fm_releasable f) a -> has_book (fm_releasable f') a).
  Proof.
    intros B Hp. unfold confirm_frozen. destruct (map_get nl (fm_freezing f)) as [[[a old] new]|] eqn:G.
    - destruct (bo_freezing _ _ B _ _ _ _ G) as [(b & Hb) Ho]. rewrite Hb. cbn [expect bind].
      eexists. split; [reflexivity|]. fcbn.
      assert (HF : forall a', has_book (amap_put a (set_remove owned_eqb old b) (fm_freezable f)) a' <-> has_book (fm_freezable f) a').
      { intros a'. rewrite has_put. split; [intros [H| ->]; [exact H|exists b; exact Hb]|auto]. }
      assert (HR : forall a', has_book (fm_releasable f) a' -> has_book (book_insert a (new, w64 (Z.of_nat pos)) (fm_releasable f)) a').
      { intros a' H. unfold book_insert. apply has_put. auto. }
      split; [constructor; fcbn|].
      + apply sets_put; [exact (bo_free_sets _ _ B)|]. apply NoDup_filter. exact (bo_free_sets _ _ B _ _ Hb).
      + apply sets_insert, (bo_rel_sets _ _ B).
      + apply amap_put_nodup, (bo_free_keys _ _ B).
      + unfold book_insert. apply amap_put_nodup, (bo_rel_keys _ _ B).
      + apply map_del_nodup, (bo_freezing_keys _ _ B).
      + exact (bo_releasing_keys _ _ B).
      + intros k a' o' n' H. rewrite map_get_del in H. destruct (zeqb nl k); [discriminate|]. rewrite HF. exact (bo_freezing _ _ B _ _ _ _ H).
      + intros k a' o' n' H. rewrite HF. destruct (bo_releasing _ _ B _ _ _ _ H) as (H1 & H2 & H3). auto.
      + split; [repeat split|]. split; [reflexivity|]. split; [intros k; apply map_get_del|]. split; [|split; [|split]]; auto.
        * intros a' x. rewrite (listed_remove _ _ _ _ _ _ Hb). split; intros [H1 H2]; (split; [exact H1|]).
          -- intros (n' & [= -> -> ->]). apply H2. auto.
          -- intros [-> ->]. apply H2. exists new. reflexivity.
        * intros a' x. rewrite listed_insert. split; (intros [H|H]; [left; exact H|right]).
          -- destruct H as [-> ->]. exists old. auto.
          -- destruct H as (o' & [= -> -> ->] & H). split; [reflexivity|]. destruct x; cbn in *; congruence.
    - exists f. split; [reflexivity|]. split; [exact B|]. split; [repeat split|]. split; [reflexivity|].
      split; [intros k; destruct (zeqb_reflect nl k) as [<-|]; [exact G|reflexivity]|].
      split; [intros a x; split; [intros H; split; [exact H|intros (n & Hn); discriminate]|intros [H _]; exact H]|].
      split; [intros a x; split; [auto|intros [H|(o & H & _)]; [exact H|discriminate]]|]. split; [tauto|auto].
  Qed.
  Lemma confirm_released_step f nl pos : books_ok f pos -> Z.of_nat pos < 2 ^ 64 ->
    exists f', confirm_released f nl (w64 (Z.of_nat pos)) = Ok f' /\ books_ok f' pos /\ same_rest f f' /\
      fm_freezing f' = fm_freezing f /\ (forall k, map_get k (fm_releasing f') = if zeqb nl k then None else map_get k (fm_releasing f)) /\
      (forall a x, listed (fm_releasable f') a x <-> listed (fm_releasable f) a x /\ ~ exists new, map_get nl (fm_releasing f) = Some (a, x, new)) /\
      (forall a x, listed (fm_freezable f') a x <-> listed (fm_freezable f) a x \/
         exists old, map_get nl (fm_releasing f) = Some (a, old, fst x) /\ snd x = w64 (Z.of_nat pos)) /\
      (forall a, has_book (fm_freezable f') a <-> has_book (fm_freezable f) a) /\
      (forall a, has_book (fm_releasable f) a -> has_book (fm_releasable f') a).
  Proof.
    intros B Hp. unfold confirm_released. destruct (map_get nl (fm_releasing f)) as [[[a old] new]|] eqn:G.
    - destruct (bo_releasing _ _ B _ _ _ _ G) as ((b' & Hb') & (b & Hb) & Ho). rewrite Hb. cbn [expect bind].
      cbn [fm_set_releasable fm_freezable]. rewrite Hb'. cbn [expect bind].
      eexists. split; [reflexivity|]. fcbn.
      assert (HF : forall a', has_book (amap_put a (set_insert owned_eqb (new, w64 (Z.of_nat pos)) b') (fm_freezable f)) a' <-> has_book (fm_freezable f) a').
      { intros a'. rewrite has_put. split; [intros [H| ->]; [exact H|exists b'; exact Hb']|auto]. }
      assert (HR : forall a', has_book (fm_releasable f) a' -> has_book (amap_put a (set_remove owned_eqb old b) (fm_releasable f)) a').
      { intros a' H. apply has_put. auto. }
      split; [constructor; fcbn|].
      + apply sets_put; [exact (bo_free_sets _ _ B)|]. apply (set_insert_nodup _ (owned_eqb_iff L)). exact (bo_free_sets _ _ B _ _ Hb').
      + apply sets_put; [exact (bo_rel_sets _ _ B)|]. apply NoDup_filter. exact (bo_rel_sets _ _ B _ _ Hb).
      + apply amap_put_nodup, (bo_free_keys _ _ B).
      + apply amap_put_nodup, (bo_rel_keys _ _ B).
      + exact (bo_freezing_keys _ _ B).
      + apply map_del_nodup, (bo_releasing_keys _ _ B).
      + intros k a' o' n' H. rewrite HF. exact (bo_freezing _ _ B _ _ _ _ H).
      + intros k a' o' n' H. rewrite map_get_del in H. destruct (zeqb nl k); [discriminate|]. rewrite HF. destruct (bo_releasing _ _ B _ _ _ _ H) as (H1 & H2 & H3). auto.
      + split; [repeat split|]. split; [reflexivity|]. split; [intros k; apply map_get_del|]. split; [|split; [|split]]; auto.
        * intros a' x. rewrite (listed_remove _ _ _ _ _ _ Hb). split; intros [H1 H2]; (split; [exact H1|]).
          -- intros (n' & [= -> -> ->]). apply H2. auto.
          -- intros [-> ->]. apply H2. exists new. reflexivity.
        * intros a' x. rewrite (listed_add _ _ _ _ _ _ Hb'). split; (intros [H|H]; [left; exact H|right]).
          -- destruct H as [-> ->]. exists old. auto.
          -- destruct H as (o' & [= -> -> ->] & H). split; [reflexivity|]. destruct x; cbn in *; congruence.
    - exists f. split; [reflexivity|]. split; [exact B|]. split; [repeat split|]. split; [reflexivity|].
      split; [intros k; destruct (zeqb_reflect nl k) as [<-|]; [exact G|reflexivity]|].
      split; [intros a x; split; [intros H; split; [exact H|intros (n & Hn); discriminate]|intros [H _]; exact H]|].
      split; [intros a x; split; [auto|intros [H|(o & H & _)]; [exact H|discriminate]]|]. split; [tauto|auto].
  Qed.
  Lemma books_later f pos pos' : books_ok f pos -> (pos <= pos')%nat -> books_ok f pos'.
  Proof.
    intros [S1 S2 B1 B2 B3 B4 B5 B6] H. constructor; auto.
    - intros nl a old new G. destruct (B5 _ _ _ _ G). split; [assumption|lia].
    - intros nl a old new G. destruct (B6 _ _ _ _ G) as (? & ? & ?). split; [assumption|]. split; [assumption|lia].
  Qed.
  Lemma confirm_all_spec l : forall f pos, books_ok f pos -> NoDup l -> Z.of_nat (pos + length l) <= 2 ^ 64 ->
    exists f', confirm_all f l pos = Ok f' /\ confirmed f f' l pos /\ books_ok f' (pos + length l).
  Proof.
    induction l as [|nl l IH]; intros f pos B N Hp.
    - exists f. split; [reflexivity|]. split; [constructor|cbn [length]; rewrite Nat.add_0_r; exact B].
      + repeat split.
      + intros a x. split; [intros H; left; split; [exact H|intros (n & ? & [] & _)]|intros [[H _]|(i & n & o & H & _)]; [exact H|destruct i; discriminate]].
      + intros a x. split; [intros H; left; split; [exact H|intros (n & ? & [] & _)]|intros [[H _]|(i & n & o & H & _)]; [exact H|destruct i; discriminate]].
      + tauto.
      + auto.
      + reflexivity.
      + reflexivity.
    - inversion N as [|? ? N1 N2]; subst. cbn [length] in Hp. cbn [confirm_all].
      destruct (confirm_frozen_step f nl pos B ltac:(lia)) as (f1 & H1 & B1 & R1 & P1 & P1' & F1 & G1 & A1 & A1'). rewrite H1. cbn [bind].
      destruct (confirm_released_step f1 nl pos B1 ltac:(lia)) as (f2 & H2 & B2 & R2 & P2 & P2' & F2 & G2 & A2 & A2'). rewrite H2. cbn [bind].
      destruct (IH f2 (pos + 1)%nat (books_later _ _ (pos + 1)%nat B2 ltac:(lia)) N2 ltac:(rewrite <- Nat.add_assoc; exact Hp)) as (f' & H3 & CF & B3).
      exists f'. split; [exact H3|]. split; [|replace (pos + length (nl :: l))%nat with (pos + 1 + length l)%nat by (cbn [length]; lia); exact B3].
      destruct CF as [Q1 Q2 Q3 Q4 Q5 Q6 Q7].
      assert (NE : forall k, In k l -> zeqb nl k = false).
      { intros k Hk. destruct (zeqb_reflect nl k) as [<-|]; [contradiction|reflexivity]. }
      assert (W : forall i (x : u64), x = w64 (Z.of_nat (pos + 1 + i)) <-> x = w64 (Z.of_nat (pos + Datatypes.S i))).
      { intros i x. replace (pos + 1 + i)%nat with (pos + Datatypes.S i)%nat by lia. tauto. }
      assert (W0 : forall x : u64, x = w64 (Z.of_nat (pos + 0)) <-> x = w64 (Z.of_nat pos)) by (intros x; rewrite Nat.add_0_r; tauto).
      assert (ZP : forall x : u64, x = w64 (Z.of_nat pos) -> zv x = Z.of_nat pos) by (intros x ->; apply zv_w64; lia).
      constructor.
      + destruct R1 as (? & ? & ? & ?), R2 as (? & ? & ? & ?), Q1 as (? & ? & ? & ?). repeat split; congruence.
      + intros a x. rewrite Q2, G2, F1, P2, P1. split.
        * intros [[[[H4 H5]|(o & H4 & H5)] H6]|(i & k & o & H4 & H5 & H6)].
          -- left. split; [exact H4|]. intros (k & new & [<-|Hk] & G); [apply H5; exists new; exact G|]. apply H6. exists k, new. split; [exact Hk|]. rewrite P1', (NE _ Hk). exact G.
          -- right. exists 0%nat, nl, o. split; [reflexivity|]. split; [exact H4|]. apply W0, H5.
          -- rewrite P2', P1, (NE _ (nth_error_In _ _ H4)) in H5. right. exists (Datatypes.S i), k, o. split; [exact H4|]. split; [exact H5|]. apply W, H6.
        * intros [[H4 H5]|(i & k & o & H4 & H5 & H6)].
          -- left. split; [left; split; [exact H4|]|].
             ++ intros (new & G). apply H5. exists nl, new. split; [left; reflexivity|exact G].
             ++ intros (k & new & Hk & G). rewrite P1', (NE _ Hk) in G. apply H5. exists k, new. split; [right; exact Hk|exact G].
          -- destruct i as [|i]; cbn [nth_error] in H4.
             ++ injection H4 as <-. apply W0 in H6. left. split; [right; exists o; auto|]. intros (k & new & Hk & G). rewrite P1', (NE _ Hk) in G.
                destruct (bo_freezing _ _ B _ _ _ _ G) as [_ HZ]. rewrite (ZP _ H6) in HZ. lia.
             ++ right. exists i, k, o. split; [exact H4|]. rewrite P2', P1, (NE _ (nth_error_In _ _ H4)). split; [exact H5|]. apply W, H6.
      + intros a x. rewrite Q3, F2, G1, P2, P1. split.
        * intros [[[[H4|(o & H4 & H4')] H5] H6]|(i & k & o & H4 & H5 & H6)].
          -- left. split; [exact H4|]. intros (k & new & [<-|Hk] & G); [apply H5; exists new; exact G|]. apply H6. exists k, new. split; [exact Hk|]. rewrite P2', P1, (NE _ Hk). exact G.
          -- right. exists 0%nat, nl, o. split; [reflexivity|]. split; [exact H4|]. apply W0, H4'.
          -- rewrite P1', (NE _ (nth_error_In _ _ H4)) in H5. right. exists (Datatypes.S i), k, o. split; [exact H4|]. split; [exact H5|]. apply W, H6.
        * intros [[H4 H5]|(i & k & o & H4 & H5 & H6)].
          -- left. split; [split; [left; exact H4|]|].
             ++ intros (new & G). apply H5. exists nl, new. split; [left; reflexivity|exact G].
             ++ intros (k & new & Hk & G). rewrite P2', P1, (NE _ Hk) in G. apply H5. exists k, new. split; [right; exact Hk|exact G].
          -- destruct i as [|i]; cbn [nth_error] in H4.
             ++ injection H4 as <-. apply W0 in H6. left. split; [split; [right; exists o; auto|]|].
                ** intros (new & G). destruct (bo_releasing _ _ B _ _ _ _ G) as (_ & _ & HZ). rewrite (ZP _ H6) in HZ. lia.
                ** intros (k & new & Hk & G). rewrite P2', P1, (NE _ Hk) in G.
                   destruct (bo_releasing _ _ B _ _ _ _ G) as (_ & _ & HZ). rewrite (ZP _ H6) in HZ. lia.
             ++ right. exists i, k, o. split; [exact H4|]. rewrite P1', (NE _ (nth_error_In _ _ H4)). split; [exact H5|]. apply W, H6.
      + intros a. rewrite Q4, A2, A1. tauto.
      + intros a H. apply Q5, A2', A1', H.
      + intros k. rewrite Q6, P2, P1'. cbn [existsb]. rewrite (zeqb_sym k nl). destruct (zeqb nl k); cbn [orb]; [destruct (existsb _ _); reflexivity|reflexivity].
      + intros k. rewrite Q7, P2', P1. cbn [existsb]. rewrite (zeqb_sym k nl). destruct (zeqb nl k); cbn [orb]; [destruct (existsb _ _); reflexivity|reflexivity].
  Qed.
End Books.
