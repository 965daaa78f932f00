(** Facts about Collections.v. *)
From Coq Require Import Znumtheory.
From Verif Require Import Base Config Structs Keys Utils Collections.

Section Inverse.
  Context {FC : FieldCfg}.
  Lemma eucl_ok a m k : forall n r0 r1 s0 s1, (2 * k + 1 <= n)%nat -> 0 <= r0 -> 0 <= r1 < 2 ^ Z.of_nat k -> Z.gcd r0 r1 = 1 ->
    (m | r0 - s0 * a) -> (m | r1 - s1 * a) -> (m | 1 - eucl n r0 r1 s0 s1 * a).
  Proof.
    assert (Z0 : forall r0 s0, 0 <= r0 -> Z.gcd r0 0 = 1 -> (m | r0 - s0 * a) -> (m | 1 - s0 * a)).
    { intros r0 s0 H0 HG D. rewrite Z.gcd_0_r, Z.abs_eq in HG by exact H0. subst r0. exact D. }
    assert (ST : forall r0 r1 s0 s1, (m | r0 - s0 * a) -> (m | r1 - s1 * a) -> 0 < r1 -> (m | r0 mod r1 - (s0 - r0 / r1 * s1) * a)).
    { intros r0 r1 s0 s1 (u & D0) (v & D1) HP. exists (u - r0 / r1 * v). rewrite Z.mod_eq by lia.
      replace ((u - r0 / r1 * v) * m) with (u * m - r0 / r1 * (v * m)) by ring. rewrite <- D0, <- D1. ring. }
    assert (GC : forall r0 r1, 0 < r1 -> Z.gcd r1 (r0 mod r1) = Z.gcd r0 r1).
    { intros r0 r1 HP. rewrite Z.gcd_comm, Z.gcd_mod by lia. apply Z.gcd_comm. }
    induction k as [|k IH]; intros n r0 r1 s0 s1 Hn H0 H1 HG D0 D1.
    - destruct n as [|n]; [lia|]. cbn [eucl]. change (2 ^ Z.of_nat 0) with 1 in H1. assert (r1 = 0) by lia. subst r1. cbn [Z.eqb]. eauto.
    - destruct n as [|[|n]]; try lia. cbn [eucl]. destruct (Z.eqb_spec r1 0) as [->|N1]; [eauto|].
      pose proof (Z.mod_pos_bound r0 r1) as B. destruct (Z.eqb_spec (r0 mod r1) 0) as [E2|N2].
      + apply (Z0 r1); [lia| |exact D1]. rewrite <- E2, GC by lia. exact HG.
      + pose proof (Z.mod_pos_bound r1 (r0 mod r1)) as B2. apply IH; [lia|lia| |rewrite !GC by lia; exact HG|apply ST; auto; lia|apply ST; auto; try lia; apply ST; auto; lia].
        split; [lia|]. rewrite Nat2Z.inj_succ, Z.pow_succ_r in H1 by lia.
        pose proof (Z.div_mod r1 (r0 mod r1) N2) as E. assert (1 <= r1 / (r0 mod r1)).
        { apply Z.div_le_lower_bound; lia. } nia.
  Qed.
  Lemma fmul_comm (a b : F) : fmul a b = fmul b a.
  Proof. unfold fmul. f_equal. apply Z.mul_comm. Qed.
  Lemma fmul_assoc (a b c : F) : fmul a (fmul b c) = fmul (fmul a b) c.
  Proof. apply zmod_ext. unfold fmul. rewrite !zv_fz, Zmult_mod_idemp_l, Zmult_mod_idemp_r. f_equal. ring. Qed.
  Lemma fmul_1 (a : F) : fmul a f1 = a.
  Proof. apply zmod_ext. unfold fmul. rewrite zv_fz, zv_f1, Z.mul_1_r. apply Z.mod_small, zv_range. Qed.
  Lemma fmul_0 (a : F) : fmul a f0 = f0.
  Proof. apply zmod_ext. unfold fmul. rewrite zv_fz, zv_f0, Z.mul_0_r. apply Z.mod_0_l. pose proof modulus_pos. lia. Qed.
  Lemma f1_nz : f1 <> f0.
  Proof. intros H. apply (f_equal zv) in H. rewrite zv_f0, zv_f1 in H. discriminate H. Qed.
  Lemma finv_law (x y : F) : fmul x y = f1 -> finv x = y.
  Proof.
    intros H.
    assert (I : fmul x (finv x) = f1).
    { assert (HG : Z.gcd modulus (zv x) = 1).
      { apply Zgcd_1_rel_prime, bezout_rel_prime. apply (f_equal zv) in H. unfold fmul in H. rewrite zv_fz, zv_f1 in H.
        apply (Bezout_intro _ _ _ (- (zv x * zv y / modulus)) (zv y)). pose proof (Z.div_mod (zv x * zv y) modulus) as E. pose proof modulus_pos.
        rewrite H in E. lia. }
      pose proof (eucl_ok (zv x) modulus 255 511 modulus (zv x) 0 1) as E. specialize (E ltac:(lia)).
      pose proof modulus_pos as MP. pose proof modulus_ub as MU. pose proof (zv_range x) as RX.
      specialize (E ltac:(lia)). change (Z.of_nat 255) with 255 in E. specialize (E ltac:(lia) HG).
      destruct E as (q & E); [exists 1; ring|exists 0; ring|].
      apply zmod_ext. unfold fmul, finv. rewrite zv_fz, zv_fz, Zmult_mod_idemp_r, zv_f1.
      set (e := eucl 511 modulus (zv x) 0 1) in *. replace (zv x * e) with (1 + (- q) * modulus) by lia. rewrite Z.mod_add by lia. apply Z.mod_1_l. pose proof modulus_lb. lia. }
    rewrite <- (fmul_1 (finv x)), <- H, fmul_assoc, (fmul_comm (finv x)), I, fmul_comm. apply fmul_1.
  Qed.
  Lemma cancel (z zi a b : F) : fmul z zi = f1 -> fmul a z = fmul b z -> a = b.
  Proof.
    intros U H. apply (f_equal (fun v => fmul v zi)) in H. rewrite <- !fmul_assoc, U, !fmul_1 in H. exact H.
  Qed.
End Inverse.

Section Projective.
  Context {FC : FieldCfg}.
  (** the same group element *)
  Definition same_point (p q : proj) : Prop := exists u ui, fmul u ui = f1 /\
    px q = fmul u (px p) /\ py q = fmul u (py p) /\ pt q = fmul u (pt p) /\ pz q = fmul u (pz p).

  (** for group elements all branches of the conversion divide by z *)
  Lemma into_affine_eq p : on_group p -> into_affine p = (fmul (px p) (finv (pz p)), fmul (py p) (finv (pz p))).
  Proof.
    intros [(zi & U) HT]. unfold into_affine. destruct (proj_is_zero p) eqn:EZ.
    - unfold proj_is_zero in EZ. apply andb_true_iff in EZ. destruct EZ as [EZ _]. apply andb_true_iff in EZ. destruct EZ as [EZ _].
      apply andb_true_iff in EZ. destruct EZ as [EX EY]. apply zeqb_spec in EX, EY. rewrite EX, EY, (finv_law _ _ U), U, fmul_comm, fmul_0. reflexivity.
    - destruct (zeqb (pz p) f1) eqn:E1; [|reflexivity]. apply zeqb_spec in E1.
      assert (EI : finv (pz p) = f1) by (apply finv_law; rewrite E1; apply fmul_1). rewrite EI, !fmul_1. reflexivity.
  Qed.
  Lemma same_iff p q : on_group p -> on_group q -> (into_affine p = into_affine q <-> same_point p q).
  Proof.
    intros Gp Gq. rewrite (into_affine_eq p Gp), (into_affine_eq q Gq). destruct Gp as [(zi & U) HT], Gq as [(zi' & U') HT'].
    rewrite (finv_law _ _ U), (finv_law _ _ U'). split.
    - intros E. pose proof (f_equal fst E) as EX; pose proof (f_equal snd E) as EY; cbn [fst snd] in EX, EY; clear E. exists (fmul (pz q) zi), (fmul (pz p) zi').
      assert (UU : fmul (fmul (pz q) zi) (fmul (pz p) zi') = f1).
      { rewrite (fmul_comm (pz p) zi'), fmul_assoc, <- (fmul_assoc (pz q) zi zi'), (fmul_comm zi zi'), fmul_assoc, U', (fmul_comm f1), fmul_1, fmul_comm. exact U. }
      assert (PX : px q = fmul (fmul (pz q) zi) (px p)).
      { rewrite <- fmul_assoc, (fmul_comm zi), EX, (fmul_comm (px q)), fmul_assoc, U', fmul_comm, fmul_1. reflexivity. }
      assert (PY : py q = fmul (fmul (pz q) zi) (py p)).
      { rewrite <- fmul_assoc, (fmul_comm zi), EY, (fmul_comm (py q)), fmul_assoc, U', fmul_comm, fmul_1. reflexivity. }
      assert (PZ : pz q = fmul (fmul (pz q) zi) (pz p)).
      { rewrite <- fmul_assoc, (fmul_comm zi), U, fmul_1. reflexivity. }
      conjs; auto. apply (cancel (pz q) zi'); [exact U'|]. rewrite HT', PX, PY. rewrite PZ at 4.
      generalize (fmul (pz q) zi). intros u.
      transitivity (fmul (fmul u u) (fmul (px p) (py p))).
      { rewrite <- !fmul_assoc. f_equal. rewrite !fmul_assoc. f_equal. apply fmul_comm. }
      rewrite <- HT. rewrite <- !fmul_assoc. f_equal. rewrite !fmul_assoc. f_equal. apply fmul_comm.
    - intros (u & ui & UU & PX & PY & PT & PZ).
      assert (EI : zi' = fmul ui zi).
      { rewrite <- (finv_law _ _ U'). apply finv_law. rewrite PZ, (fmul_comm u), <- fmul_assoc, (fmul_assoc u), UU, (fmul_comm f1), fmul_1. exact U. }
      rewrite EI, PX, PY, !(fmul_comm u), <- !fmul_assoc, !(fmul_assoc u ui zi), UU, (fmul_comm f1), fmul_1. reflexivity.
  Qed.
  Lemma affine_eqb_iff a b : affine_eqb a b = true <-> a = b.
  Proof.
    destruct a as [a1 a2], b as [b1 b2]. unfold affine_eqb. cbn [fst snd]. rewrite andb_true_iff, !zeqb_spec. split; [intros [-> ->]; reflexivity|intros E; split; [exact (f_equal fst E)|exact (f_equal snd E)]].
  Qed.
  (** ark_ec's own comparison is the same relation *)
  Lemma zero_affine p : on_group p -> (proj_is_zero p = true <-> into_affine p = (f0, f1)).
  Proof.
    intros G. split; [unfold into_affine; intros ->; reflexivity|]. rewrite (into_affine_eq p G). destruct G as [(zi & U) HT].
    rewrite (finv_law _ _ U). intros E. pose proof (f_equal fst E) as EX; pose proof (f_equal snd E) as EY; cbn [fst snd] in EX, EY; clear E.
    assert (X0 : px p = f0). { apply (cancel zi (pz p)); [rewrite fmul_comm; exact U|]. rewrite EX, fmul_comm, fmul_0. reflexivity. }
    assert (YZ : py p = pz p). { apply (cancel zi (pz p)); [rewrite fmul_comm; exact U|]. rewrite EY, U. reflexivity. }
    unfold proj_is_zero. rewrite X0, YZ, !(proj2 (zeqb_spec _ _) eq_refl). cbn [andb].
    assert (NZ : zeqb (pz p) f0 = false).
    { destruct (zeqb (pz p) f0) eqn:E0; [|reflexivity]. apply zeqb_spec in E0. rewrite E0, fmul_comm, fmul_0 in U. destruct f1_nz. auto. }
    rewrite NZ. cbn [negb andb]. apply zeqb_spec. apply (cancel (pz p) zi _ _ U). rewrite HT, X0, !(fmul_comm f0), !fmul_0. reflexivity.
  Qed.
  Lemma proj_eqb_iff p q : on_group p -> on_group q -> (proj_eqb p q = true <-> into_affine p = into_affine q).
  Proof.
    intros Gp Gq. pose proof (zero_affine p Gp) as Zp. pose proof (zero_affine q Gq) as Zq. unfold proj_eqb.
    destruct (proj_is_zero p) eqn:EP.
    - rewrite (proj1 Zp eq_refl). rewrite Zq. split; auto.
    - destruct (proj_is_zero q) eqn:EQ.
      + rewrite (proj1 Zq eq_refl). split; [discriminate|]. intros E. apply Zp in E. discriminate E.
      + rewrite (into_affine_eq p Gp), (into_affine_eq q Gq). destruct Gp as [(zi & U) HT], Gq as [(zi' & U') HT']. rewrite (finv_law _ _ U), (finv_law _ _ U').
        rewrite andb_true_iff, !zeqb_spec.
        assert (X : forall a b, fmul a (pz q) = fmul b (pz p) <-> fmul a zi = fmul b zi').
        { intros a b. split; intros E.
          - apply (cancel (pz q) zi' _ _ U'). apply (cancel (pz p) zi _ _ U).
            rewrite <- (fmul_assoc b), (fmul_comm zi'), U', fmul_1, <- E, <- !fmul_assoc. f_equal.
            rewrite (fmul_comm (pz q)), fmul_assoc, (fmul_comm zi), U, fmul_comm, fmul_1. reflexivity.
          - apply (cancel zi (pz p)); [rewrite fmul_comm; exact U|]. rewrite <- (fmul_assoc b), U, fmul_1.
            rewrite <- fmul_assoc, (fmul_comm (pz q)), fmul_assoc, E, <- fmul_assoc, (fmul_comm zi'), U', fmul_1. reflexivity. }
        rewrite (X (px p) (px q)), (X (py p) (py q)). split; [intros [-> ->]; reflexivity|intros E; split; [exact (f_equal fst E)|exact (f_equal snd E)]].
  Qed.
End Projective.

(** ** lawful implementations *)
Definition lawful {A} (h : HashEq A) : Prop :=
  (forall a, he_eqb h a a = true) /\ (forall a b, he_eqb h a b = true -> he_eqb h b a = true) /\
  (forall a b c, he_eqb h a b = true -> he_eqb h b c = true -> he_eqb h a c = true) /\
  (forall a b, he_eqb h a b = true -> he_hash h a = he_hash h b).

Section Lawful.
  Context {FC : FieldCfg} (hash_f : F -> list Z) (hash_s : Fj -> list Z).
  (** whatever is decided by comparing a view with [=], and hashed through the view *)
  Lemma by_view {A B} (h : HashEq A) (f : A -> B) (g : B -> list Z) : (forall a b, he_eqb h a b = true <-> f a = f b) -> (forall a, he_hash h a = g (f a)) -> lawful h.
  Proof.
    intros HE HH. unfold lawful. conjs; intros *; rewrite ?HE; try congruence; try (intros E; rewrite !HH, E; reflexivity); auto.
  Qed.
  Lemma lawful_freezer : lawful (he_freezer_pub_key hash_f).
  Proof. apply (by_view _ into_affine (hash_affine hash_f)); [intros; apply affine_eqb_iff|reflexivity]. Qed.
  Lemma lawful_freezer_kp : lawful (he_freezer_key_pair hash_f hash_s).
  Proof.
    apply (by_view _ (fun a => (rfk_sec a, into_affine (rfk_pub a))) (fun x => hash_s (fst x) ++ hash_affine hash_f (snd x))); [|reflexivity].
    intros a b. cbn [he_eqb he_freezer_key_pair]. rewrite andb_true_iff, zeqb_spec, affine_eqb_iff. split; [intros [-> ->]; reflexivity|intros E; split; [exact (f_equal fst E)|exact (f_equal snd E)]].
  Qed.
  Lemma lawful_field : lawful (he_field hash_f).
  Proof. apply (by_view _ (fun x => x) hash_f); [intros; apply zeqb_spec|reflexivity]. Qed.
  Lemma lawful_u128 : lawful he_u128.
  Proof. apply (by_view _ (fun x => x) (fun a : u128 => [zv a])); [intros; apply zeqb_spec|reflexivity]. Qed.
  Lemma lawful_u64 : lawful he_u64.
  Proof. apply (by_view _ (fun x => x) (fun a : u64 => [zv a])); [intros; apply zeqb_spec|reflexivity]. Qed.
  Lemma lawful_bool : lawful he_bool.
  Proof. apply (by_view _ (fun x => x) (fun b : bool => [if b then 1 else 0])); [intros; apply Bool.eqb_true_iff|reflexivity]. Qed.
  Lemma lawful_pair {A B} (a : HashEq A) (b : HashEq B) : lawful a -> lawful b -> lawful (he_pair a b).
  Proof.
    intros (A1 & A2 & A3 & A4) (B1 & B2 & B3 & B4). unfold lawful, he_pair. cbn [he_eqb he_hash].
    conjs; intros *; rewrite ?andb_true_iff; [auto|intuition|intros [] []; eauto|]. intros [E1 E2]. rewrite (A4 _ _ E1), (B4 _ _ E2). reflexivity.
  Qed.
  Lemma lawful_list {A} (a : HashEq A) : lawful a -> lawful (he_list a).
  Proof.
    intros (A1 & A2 & A3 & A4). unfold lawful. cbn [he_list he_eqb he_hash]. conjs.
    - induction a0; cbn; rewrite ?A1; auto.
    - induction a0; intros [|y m]; cbn; auto. rewrite !andb_true_iff. intros []. auto.
    - induction a0; intros [|y m] [|z n]; cbn; auto; try discriminate. rewrite !andb_true_iff. intros [] []. eauto.
    - intros l m H. assert (E : length l = length m /\ flat_map (he_hash a) l = flat_map (he_hash a) m); [|destruct E as [-> ->]; reflexivity].
      revert m H. induction l as [|x l IH]; intros [|y m]; cbn; auto; try discriminate. rewrite andb_true_iff. intros [E1 E2]. destruct (IH _ E2) as [E3 E4].
      rewrite (A4 _ _ E1), E3, E4. auto.
  Qed.
  Lemma lawful_via {A B} (f : A -> B) (b : HashEq B) : lawful b -> lawful (he_via f b).
  Proof. intros (B1 & B2 & B3 & B4). unfold lawful, he_via. cbn [he_eqb he_hash]. conjs; intros *; eauto. Qed.
  Context {EK VK AK : Type} (he_ek : HashEq EK) (he_vk : HashEq VK) (he_ak : HashEq AK).
  Hypothesis (LE : lawful he_ek) (LV : lawful he_vk) (LA : lawful he_ak).
  Lemma lawful_policy : lawful (he_policy hash_f he_ek he_vk).
  Proof. apply lawful_via. repeat apply lawful_pair; auto using lawful_freezer, lawful_list, lawful_bool, lawful_u128. Qed.
  Lemma lawful_def : lawful (he_def hash_f he_ek he_vk).
  Proof. apply lawful_via. apply lawful_pair; auto using lawful_field, lawful_policy. Qed.
  Lemma lawful_user : lawful (he_user_pub_key he_vk he_ak).
  Proof. apply lawful_via. apply lawful_pair; auto. Qed.
  Lemma lawful_flag : lawful he_flag.
  Proof. apply lawful_via, lawful_bool. Qed.
  Lemma lawful_opening : lawful (he_opening hash_f he_ek he_vk he_ak).
  Proof. apply lawful_via. repeat apply lawful_pair; auto using lawful_u128, lawful_def, lawful_user, lawful_flag, lawful_field. Qed.
  Lemma bools_eqb l m : list_he_eqb he_bool l m = true <-> l = m.
  Proof.
    revert m. induction l as [|x l IH]; intros [|y m]; cbn; try (split; auto; discriminate). rewrite andb_true_iff, Bool.eqb_true_iff, IH.
    split; [intros [-> ->]; reflexivity|intros E; injection E; auto].
  Qed.
  Lemma opening_eqb_iff a b : he_eqb (he_opening hash_f he_ek he_vk he_ak) a b = true <->
    rr_amount a = rr_amount b /\ rd_code (rr_def a) = rd_code (rr_def b) /\
    he_eqb he_ek (rp_viewer (rd_policy (rr_def a))) (rp_viewer (rd_policy (rr_def b))) = true /\
    he_eqb he_vk (rp_cred (rd_policy (rr_def a))) (rp_cred (rd_policy (rr_def b))) = true /\
    into_affine (rp_freezer (rd_policy (rr_def a))) = into_affine (rp_freezer (rd_policy (rr_def b))) /\
    rp_map (rd_policy (rr_def a)) = rp_map (rd_policy (rr_def b)) /\ rp_threshold (rd_policy (rr_def a)) = rp_threshold (rd_policy (rr_def b)) /\
    he_eqb he_vk (ru_address (rr_key a)) (ru_address (rr_key b)) = true /\ he_eqb he_ak (ru_enc (rr_key a)) (ru_enc (rr_key b)) = true /\
    rr_flag a = rr_flag b /\ rr_blind a = rr_blind b.
  Proof.
    unfold he_opening, he_via, he_pair, he_def, he_via, he_pair, he_policy, he_via, he_pair, he_user_pub_key, he_via, he_pair, he_flag, he_via.
    cbn [he_eqb fst snd he_u128 he_field he_freezer_pub_key he_list]. rewrite !andb_true_iff, !zeqb_spec, affine_eqb_iff, bools_eqb.
    assert (EF : Bool.eqb (match rr_flag a with Unfrozen => false | Frozen => true end) (match rr_flag b with Unfrozen => false | Frozen => true end) = true <-> rr_flag a = rr_flag b).
    { destruct (rr_flag a), (rr_flag b); cbn; split; auto; discriminate. }
    cbn [he_bool he_eqb]. rewrite EF. tauto.
  Qed.
End Lawful.

(** ** hash tables *)
Section HashMap.
  Context {K V : Type} (he : HashEq K) (hasher : list Z -> nat) (LW : lawful he).
  Notation map_op := (@map_op K V).
  (** what a lookup must return: the value of the last operation on an equal key; the latest operation is first *)
  Fixpoint last_value (hist : list map_op) (k : K) : option V :=
    match hist with
    | [] => None
    | Insert k' v :: h => if he_eqb he k' k then Some v else last_value h k
    | Remove k' :: h => if he_eqb he k' k then None else last_value h k
    end.
  Lemma eq_cong a b c : he_eqb he a b = true -> he_eqb he a c = he_eqb he b c.
  Proof.
    intros H. destruct LW as (R & S & T & _). destruct (he_eqb he a c) eqn:E1, (he_eqb he b c) eqn:E2; auto.
    - rewrite <- E2. symmetry. apply (T b a c); auto.
    - rewrite <- E1. apply (T a b c); auto.
  Qed.
  Lemma eq_cong_r a b c : he_eqb he b c = true -> he_eqb he a b = he_eqb he a c.
  Proof.
    intros H. destruct LW as (R & S & T & _). destruct (he_eqb he a b) eqn:E1, (he_eqb he a c) eqn:E2; auto.
    - rewrite <- E2. symmetry. eauto.
    - rewrite <- E1. apply (T a c b); auto.
  Qed.
  Lemma look_put k v (l : list (K * V)) k' : look he k' (put he k v l) = if he_eqb he k k' then Some v else look he k' l.
  Proof.
    induction l as [|[k0 v0] l IH]; cbn [put look].
    - reflexivity.
    - destruct (he_eqb he k0 k) eqn:E.
      + cbn [look]. rewrite (eq_cong _ _ k' E). destruct (he_eqb he k k'); reflexivity.
      + cbn [look]. rewrite IH. destruct (he_eqb he k0 k') eqn:E0; [|reflexivity].
        destruct (he_eqb he k k') eqn:E1; [|reflexivity]. rewrite (eq_cong_r k0 k k' E1) in E. congruence.
  Qed.
  (** keys of a bucket are pairwise different *)
  Lemma put_fo k v (l : list (K * V)) : ForallOrdPairs (fun a b => he_eqb he (fst a) (fst b) = false) l -> ForallOrdPairs (fun a b => he_eqb he (fst a) (fst b) = false) (put he k v l).
  Proof.
    induction 1 as [|[k0 v0] l HF HO IH]; cbn [put]; [constructor; constructor|]. destruct (he_eqb he k0 k) eqn:E.
    - constructor; [|exact HO]. exact HF.
    - constructor; [|exact IH]. clear IH HO. cbn [fst] in *. induction l as [|[k1 v1] l IH2]; cbn [put]; [constructor; auto|].
      inversion HF; subst. destruct (he_eqb he k1 k); constructor; auto.
  Qed.
  Lemma drop_sub k (l : list (K * V)) : incl (drop he k l) l.
  Proof. induction l as [|[k0 v0] l IH]; cbn [drop]; [apply incl_refl|]. destruct (he_eqb he k0 k); [apply incl_tl, incl_refl|]. intros x [<-|H]; [left; auto|right; auto]. Qed.
  Lemma drop_fo k (l : list (K * V)) : ForallOrdPairs (fun a b => he_eqb he (fst a) (fst b) = false) l -> ForallOrdPairs (fun a b => he_eqb he (fst a) (fst b) = false) (drop he k l).
  Proof.
    induction 1 as [|[k0 v0] l HF HO IH]; cbn [drop]; [constructor|]. destruct (he_eqb he k0 k) eqn:E; [exact HO|]. constructor; [|exact IH].
    apply Forall_forall. intros x Hx. apply drop_sub in Hx. rewrite Forall_forall in HF. auto.
  Qed.
  Lemma look_none k (l : list (K * V)) : Forall (fun b : K * V => he_eqb he k (fst b) = false) l -> look he k l = None.
  Proof.
    destruct LW as (R & S & T & _). induction 1 as [|[k0 v0] l H HF IH]; cbn [look]; auto. cbn [fst] in H. destruct (he_eqb he k0 k) eqn:E; auto. apply S in E. congruence.
  Qed.
  Lemma look_drop k (l : list (K * V)) k' : ForallOrdPairs (fun a b => he_eqb he (fst a) (fst b) = false) l ->
    look he k' (drop he k l) = if he_eqb he k k' then None else look he k' l.
  Proof.
    induction 1 as [|[k0 v0] l HF HO IH]; cbn [drop look]; [destruct (he_eqb he k k'); reflexivity|].
    destruct (he_eqb he k0 k) eqn:E.
    - rewrite (eq_cong _ _ k' E). destruct (he_eqb he k k') eqn:E1; [|reflexivity]. apply look_none.
      apply Forall_forall. intros x Hx. rewrite Forall_forall in HF. specialize (HF x Hx). cbn [fst] in HF.
      rewrite <- (eq_cong k0 k' (fst x)); auto. rewrite (eq_cong _ _ k' E). exact E1.
    - cbn [look]. rewrite IH. destruct (he_eqb he k0 k') eqn:E0; [|reflexivity].
      destruct (he_eqb he k k') eqn:E1; [|reflexivity]. rewrite (eq_cong_r k0 k k' E1) in E. congruence.
  Qed.
  Lemma upd_length {A} i (f : A -> A) l : length (upd i f l) = length l.
  Proof. revert i. induction l as [|x l IH]; intros [|i]; cbn; auto. Qed.
  Lemma nth_upd {A} i j (f : A -> A) l d : (i < length l)%nat -> nth j (upd i f l) d = if (i =? j)%nat then f (nth j l d) else nth j l d.
  Proof.
    revert i j. induction l as [|x l IH]; intros [|i] [|j] H; cbn in *; try lia; auto. apply IH. lia.
  Qed.
  Lemma ht_run_inv n (ops : list map_op) : (0 < n)%nat -> let t := ht_run he hasher n ops in
    length t = n /\ (forall i, ForallOrdPairs (fun a b => he_eqb he (fst a) (fst b) = false) (nth i t [])) /\
    forall k, ht_get he hasher t k = last_value (rev ops) k.
  Proof.
    intros Hn. cbv zeta. induction ops as [|o ops IH] using rev_ind.
    - unfold ht_run, ht_new. cbn [fold_left rev last_value]. split; [apply repeat_length|]. split.
      + intros i. rewrite nth_repeat. constructor.
      + intros k. unfold ht_get. rewrite nth_repeat. reflexivity.
    - unfold ht_run in *. rewrite fold_left_app, rev_app_distr. cbn [fold_left rev app]. set (t := fold_left _ _ _) in *. destruct IH as (HL & HU & HG).
      assert (B : forall k, (bucket_of he hasher (length t) k < length t)%nat) by (intros; apply Nat.mod_upper_bound; lia).
      assert (BE : forall k k', he_eqb he k k' = true -> bucket_of he hasher (length t) k = bucket_of he hasher (length t) k').
      { intros k k' E. unfold bucket_of. destruct LW as (_ & _ & _ & H). rewrite (H _ _ E). reflexivity. }
      destruct o as [k v|k]; cbn [ht_step last_value].
      + split; [unfold ht_insert; rewrite upd_length; exact HL|]. split.
        * intros i. unfold ht_insert. rewrite nth_upd by apply B. destruct (_ =? i)%nat; [apply put_fo, HU|apply HU].
        * intros k'. unfold ht_get, ht_insert. rewrite upd_length, nth_upd by apply B. destruct (Nat.eqb_spec (bucket_of he hasher (length t) k) (bucket_of he hasher (length t) k')) as [E|N].
          -- rewrite look_put. fold (ht_get he hasher t k'). rewrite HG. reflexivity.
          -- fold (ht_get he hasher t k'). rewrite HG. destruct (he_eqb he k k') eqn:E; [destruct N; auto|reflexivity].
      + split; [unfold ht_remove; rewrite upd_length; exact HL|]. split.
        * intros i. unfold ht_remove. rewrite nth_upd by apply B. destruct (_ =? i)%nat; [apply drop_fo, HU|apply HU].
        * intros k'. unfold ht_get, ht_remove. rewrite upd_length, nth_upd by apply B. destruct (Nat.eqb_spec (bucket_of he hasher (length t) k) (bucket_of he hasher (length t) k')) as [E|N].
          -- rewrite look_drop by apply HU. fold (ht_get he hasher t k'). rewrite HG. reflexivity.
          -- fold (ht_get he hasher t k'). rewrite HG. destruct (he_eqb he k k') eqn:E; [destruct N; auto|reflexivity].
  Qed.
End HashMap.

(** ** search trees *)
Section SearchTree.
  Context {FC : FieldCfg}.
  Lemma f_cmp_eq a b : f_cmp a b = Eq <-> a = b.
  Proof. unfold f_cmp. rewrite Z.compare_eq_iff. symmetry. apply zmod_ext_iff. Qed.
  Lemma f_cmp_lt a b : f_cmp a b = Lt <-> zv a < zv b.
  Proof. apply Z.compare_lt_iff. Qed.
  Lemma f_cmp_gt a b : f_cmp a b = Gt <-> zv b < zv a.
  Proof. unfold f_cmp. rewrite Z.compare_gt_iff. tauto. Qed.
  Lemma f_cmp_refl a : f_cmp a a = Eq.
  Proof. apply f_cmp_eq. reflexivity. Qed.
  Lemma t_get_put {V} k (v : V) t k' : t_get k' (t_put k v t) = if zeqb k k' then Some v else t_get k' t.
  Proof.
    induction t as [|l IHl k0 v0 r IHr]; cbn [t_put t_get].
    - destruct (zeqb k k') eqn:E; [apply zeqb_spec in E; subst; rewrite f_cmp_refl; reflexivity|].
      destruct (f_cmp k' k) eqn:E1; auto. apply f_cmp_eq in E1. subst. rewrite (proj2 (zeqb_spec _ _) eq_refl) in E. discriminate E.
    - destruct (f_cmp k k0) eqn:E0; cbn [t_get].
      + apply f_cmp_eq in E0. subst k0. destruct (zeqb k k') eqn:E; [apply zeqb_spec in E; subst; rewrite f_cmp_refl; reflexivity|].
        destruct (f_cmp k' k) eqn:E1; auto. apply f_cmp_eq in E1. subst. rewrite (proj2 (zeqb_spec _ _) eq_refl) in E. discriminate E.
      + rewrite IHl. destruct (zeqb k k') eqn:E; [apply zeqb_spec in E; subst; rewrite E0; reflexivity|reflexivity].
      + rewrite IHr. destruct (zeqb k k') eqn:E; [apply zeqb_spec in E; subst; rewrite E0; reflexivity|reflexivity].
  Qed.
  Fixpoint bst {V} (t : tree V) : Prop :=
    match t with
    | Leaf => True
    | Node l k _ r => bst l /\ bst r /\ (forall x, In x (t_iter l) -> zv (fst x) < zv k) /\ (forall x, In x (t_iter r) -> zv k < zv (fst x))
    end.
  Lemma t_put_in {V} k (v : V) t x : In x (t_iter (t_put k v t)) -> fst x = k \/ In x (t_iter t).
  Proof.
    induction t as [|l IHl k0 v0 r IHr]; cbn [t_put t_iter]; [intros [<-|[]]; auto|].
    destruct (f_cmp k k0) eqn:E0; cbn [t_iter]; rewrite !in_app_iff; cbn [In].
    - apply f_cmp_eq in E0. subst. intros [H|[<-|H]]; auto.
    - intros [H|[H|H]]; auto. destruct (IHl H); auto.
    - intros [H|[H|H]]; auto. destruct (IHr H); auto.
  Qed.
  Lemma bst_put {V} k (v : V) t : bst t -> bst (t_put k v t).
  Proof.
    induction t as [|l IHl k0 v0 r IHr]; cbn [t_put bst].
    - intros _. conjs; auto; intros x [].
    - intros (Bl & Br & Hl & Hr). destruct (f_cmp k k0) eqn:E0; cbn [bst]; conjs; auto.
      + intros x Hx. apply t_put_in in Hx. destruct Hx as [->|Hx]; [apply f_cmp_lt in E0; exact E0|auto].
      + intros x Hx. apply t_put_in in Hx. destruct Hx as [->|Hx]; [apply f_cmp_gt in E0; exact E0|auto].
  Qed.
  Lemma t_iter_get {V} (t : tree V) k v : bst t -> (In (k, v) (t_iter t) <-> t_get k t = Some v).
  Proof.
    induction t as [|l IHl k0 v0 r IHr]; cbn [bst t_iter t_get]; [intros _; split; [intros []|discriminate]|].
    intros (Bl & Br & Hl & Hr). rewrite in_app_iff. cbn [In]. destruct (f_cmp k k0) eqn:E0.
    - apply f_cmp_eq in E0. subst k0. split.
      + intros [H|[H|H]]; [apply Hl in H; exfalso; exact (Z.lt_irrefl _ H)|rewrite (f_equal snd H : v0 = v); reflexivity|apply Hr in H; exfalso; exact (Z.lt_irrefl _ H)].
      + intros H. injection H as ->. auto.
    - rewrite <- (IHl Bl). apply f_cmp_lt in E0. split; [|auto]. intros [H|[H|H]]; auto.
      + exfalso. apply (f_equal fst) in H. cbn [fst] in H. rewrite H in E0. exact (Z.lt_irrefl _ E0).
      + apply Hr in H. cbn [fst] in H. exfalso. exact (Z.lt_irrefl _ (Z.lt_trans _ _ _ E0 H)).
    - rewrite <- (IHr Br). apply f_cmp_gt in E0. split; [|auto]. intros [H|[H|H]]; auto.
      + apply Hl in H. cbn [fst] in H. exfalso. exact (Z.lt_irrefl _ (Z.lt_trans _ _ _ E0 H)).
      + exfalso. apply (f_equal fst) in H. cbn [fst] in H. rewrite H in E0. exact (Z.lt_irrefl _ E0).
  Qed.
  (** iteration is in order, so each key comes once *)
  Lemma t_iter_sorted {V} (t : tree V) : bst t -> ForallOrdPairs (fun a b => zv (fst a) < zv (fst b)) (t_iter t).
  Proof.
    assert (AP : forall l1 l2 : list (F * V), ForallOrdPairs (fun a b => zv (fst a) < zv (fst b)) l1 -> ForallOrdPairs (fun a b => zv (fst a) < zv (fst b)) l2 ->
      (forall a b, In a l1 -> In b l2 -> zv (fst a) < zv (fst b)) -> ForallOrdPairs (fun a b => zv (fst a) < zv (fst b)) (l1 ++ l2)).
    { induction 1 as [|x l1 HF HO IH]; intros H2 HX; cbn [app]; auto. constructor; [|apply IH; auto; intros; apply HX; auto; right; auto].
      apply Forall_app. split; auto. apply Forall_forall. intros b Hb. apply HX; auto. left; auto. }
    induction t as [|l IHl k0 v0 r IHr]; cbn [bst t_iter]; [constructor|]. intros (Bl & Br & Hl & Hr).
    apply AP; auto.
    - constructor; [apply Forall_forall; auto|auto].
    - intros a b Ha [<-|Hb]; [apply Hl, Ha|]. apply Hl in Ha. apply Hr in Hb. lia.
  Qed.
End SearchTree.

Section Checks.
  Context {C : CapConfig}.
  Lemma insert_all_eq l : forall seen t, (forall k, t_get k t = None <-> existsb (zeqb k) seen = false) -> insert_all t l = all_insert seen l.
  Proof.
    induction l as [|x l IH]; intros seen t H; cbn [insert_all all_insert]; auto.
    pose proof (H x) as Hx. destruct (t_get x t) as [u|] eqn:E.
    - destruct (existsb (zeqb x) seen); auto. destruct Hx as [_ Hx]. specialize (Hx eq_refl). discriminate Hx.
    - rewrite (proj1 Hx eq_refl). apply IH. intros k. rewrite t_get_put. cbn [existsb]. rewrite orb_false_iff, <- H.
      destruct (zeqb x k) eqn:E1.
      + apply zeqb_spec in E1. subst. rewrite (proj2 (zeqb_spec k k) eq_refl). split; [discriminate|intros []; discriminate].
      + assert (E2 : zeqb k x = false) by (destruct (zeqb k x) eqn:E2; auto; apply zeqb_spec in E2; subst; rewrite (proj2 (zeqb_spec x x) eq_refl) in E1; discriminate).
        rewrite E2. tauto.
  Qed.
  Lemma check_distinct_eq l : check_distinct_tree l = check_distinct_input_nullifiers l.
  Proof. unfold check_distinct_tree, check_distinct_input_nullifiers. rewrite (insert_all_eq l []); [reflexivity|]. intros k. cbn. tauto. Qed.

  Fixpoint assoc (k : F) (m : balances) : option Z :=
    match m with [] => None | (k', v) :: m => if zeqb k k' then Some v else assoc k m end.
  Fixpoint aput (k : F) (v : Z) (m : balances) : balances :=
    match m with [] => [(k, v)] | (k', v') :: m => if zeqb k k' then (k, v) :: m else (k', v') :: aput k v m end.
  Lemma bal_add_eq k d m : bal_add k d m = match assoc k m with Some x => let* x' := i128_res (x + d) in Ok (aput k x' m) | None => Ok (aput k d m) end.
  Proof.
    induction m as [|[k' v] m IH]; cbn [bal_add assoc aput]; auto. destruct (zeqb k k'); auto. rewrite IH.
    destruct (assoc k m); [|reflexivity]. destruct (i128_res (z + d)); reflexivity.
  Qed.
  Lemma bal_sub_eq k d m : bal_sub k d m = match assoc k m with Some x => let* x' := i128_res (x - d) in Ok (aput k x' m) | None => let* nd := i128_res (- d) in Ok (aput k nd m) end.
  Proof.
    induction m as [|[k' v] m IH]; cbn [bal_sub assoc aput]; auto. destruct (zeqb k k'); auto. rewrite IH.
    destruct (assoc k m).
    - destruct (i128_res (z - d)); reflexivity.
    - destruct (i128_res (- d)); reflexivity.
  Qed.
  Lemma zeqb_comm (a b : F) : zeqb a b = zeqb b a.
  Proof. unfold zeqb. apply Z.eqb_sym. Qed.
  Lemma assoc_aput k v m k' : assoc k' (aput k v m) = if zeqb k k' then Some v else assoc k' m.
  Proof.
    induction m as [|[k0 v0] m IH]; cbn [aput assoc].
    - rewrite zeqb_comm. reflexivity.
    - destruct (zeqb k k0) eqn:E; cbn [assoc].
      + apply zeqb_spec in E. subst k0. rewrite (zeqb_comm k' k). destruct (zeqb k k'); reflexivity.
      + rewrite IH. destruct (zeqb k' k0) eqn:E1; [|reflexivity]. destruct (zeqb k k') eqn:E2; [|reflexivity].
        apply zeqb_spec in E1, E2. subst. rewrite (proj2 (zeqb_spec _ _) eq_refl) in E. discriminate E.
  Qed.
  Lemma aput_keys k v m x : In x (map fst (aput k v m)) -> x = k \/ In x (map fst m).
  Proof.
    induction m as [|[k0 v0] m IH]; cbn [aput map fst In]; [intros [<-|[]]; auto|]. destruct (zeqb k k0); cbn [map fst In].
    - intros [<-|H]; auto.
    - intros [<-|H]; auto. destruct (IH H); auto.
  Qed.
  Lemma aput_nodup k v m : NoDup (map fst m) -> NoDup (map fst (aput k v m)).
  Proof.
    induction m as [|[k0 v0] m IH]; cbn [aput map fst]; intros H; [constructor; [intros []|constructor]|]. inversion H; subst. destruct (zeqb k k0) eqn:E; cbn [map fst].
    - apply zeqb_spec in E. subst. constructor; auto.
    - constructor; auto. intros HI. apply aput_keys in HI. destruct HI as [->|HI]; auto. rewrite (proj2 (zeqb_spec _ _) eq_refl) in E. discriminate E.
  Qed.
  Lemma assoc_in m k v : NoDup (map fst m) -> (In (k, v) m <-> assoc k m = Some v).
  Proof.
    induction m as [|[k0 v0] m IH]; cbn [map fst assoc In]; intros H; [split; [intros []|discriminate]|]. inversion H; subst. destruct (zeqb k k0) eqn:E.
    - apply zeqb_spec in E. subst k0. split.
      + intros [HE|HI]; [pose proof (f_equal snd HE) as HS; cbn in HS; subst; reflexivity|]. destruct H2. apply in_map_iff. exists (k, v). auto.
      + intros HE. injection HE as ->. auto.
    - rewrite <- (IH H3). split; auto. intros [HE|HI]; auto. pose proof (f_equal fst HE) as HF. cbn in HF. subst. rewrite (proj2 (zeqb_spec _ _) eq_refl) in E. discriminate E.
  Qed.
  Definition rel (t : tree Z) (m : balances) : Prop := bst t /\ NoDup (map fst m) /\ forall k, t_get k t = assoc k m.
  Definition res_rel (a : res (tree Z)) (b : res balances) : Prop :=
    match a, b with Ok t, Ok m => rel t m | Err e, Err e' => e = e' | Panic, Panic => True | _, _ => False end.
  Lemma rel_put k v t m : rel t m -> rel (t_put k v t) (aput k v m).
  Proof. intros (B & N & H). split; [apply bst_put, B|]. split; [apply aput_nodup, N|]. intros k'. rewrite t_get_put, assoc_aput, H. reflexivity. Qed.
  Lemma rel_add k d t m : rel t m -> res_rel (tree_add k d t) (bal_add k d m).
  Proof.
    intros R. rewrite bal_add_eq. unfold tree_add. rewrite (proj2 (proj2 R)). destruct (assoc k m) as [x|]; [|apply rel_put, R].
    destruct (i128_res (x + d)) as [y| |]; cbn; auto. apply rel_put, R.
  Qed.
  Lemma rel_sub k d t m : rel t m -> res_rel (tree_sub k d t) (bal_sub k d m).
  Proof.
    intros R. rewrite bal_sub_eq. unfold tree_sub. rewrite (proj2 (proj2 R)). destruct (assoc k m) as [x|].
    - destruct (i128_res (x - d)) as [y| |]; cbn; auto. apply rel_put, R.
    - destruct (i128_res (- d)) as [y| |]; cbn; auto. apply rel_put, R.
  Qed.
  Lemma rel_fold {A} (f : tree Z -> A -> res (tree Z)) (g : balances -> A -> res balances) l :
    (forall t m x, rel t m -> res_rel (f t x) (g m x)) -> forall t m, rel t m -> res_rel (foldM f l t) (foldM g l m).
  Proof.
    intros H. unfold foldM.
    assert (G : forall a b, res_rel a b -> res_rel (fold_left (fun acc x => let* y := acc in f y x) l a) (fold_left (fun acc x => let* y := acc in g y x) l b)).
    { induction l as [|x l IH]; cbn [fold_left]; auto. intros a b R. apply IH. destruct a, b; cbn in *; auto; try contradiction. }
    intros t m R. apply G. exact R.
  Qed.
  Lemma check_asset_amount_eq inputs outputs fee : check_asset_amount_tree inputs outputs fee = check_asset_amount inputs outputs fee.
  Proof.
    unfold check_asset_amount_tree, check_asset_amount. destruct inputs as [|i0 rest]; auto. set (inputs := i0 :: rest).
    destruct (i128_res (- i128_of_u128 fee)) as [nfee| |]; cbn [bind]; auto.
    set (m0 := [(code (asset_def i0), nfee)]).
    assert (R0 : rel (t_put (code (asset_def i0)) nfee Leaf) m0).
    { apply (rel_put (code (asset_def i0)) nfee Leaf []). split; [exact I|]. split; [constructor|reflexivity]. }
    pose proof (rel_fold (fun m r => tree_add (code (asset_def r)) (i128_of_u128 (amount r)) m) (fun m r => bal_add (code (asset_def r)) (i128_of_u128 (amount r)) m)
      (filter (fun r => negb (is_dummy_def (asset_def r))) inputs) (fun t m x R => rel_add _ _ t m R) _ _ R0) as R1.
    match type of R1 with res_rel ?a ?b => destruct a as [t1|e1|], b as [m1|e2|] end; cbn [res_rel] in R1; try contradiction; cbn [bind]; try congruence.
    pose proof (rel_fold (fun m r => tree_sub (code (asset_def r)) (i128_of_u128 (amount r)) m) (fun m r => bal_sub (code (asset_def r)) (i128_of_u128 (amount r)) m)
      outputs (fun t m x R => rel_sub _ _ t m R) _ _ R1) as R2.
    match type of R2 with res_rel ?a ?b => destruct a as [t2|e1|], b as [m2|e2|] end; cbn [res_rel] in R2; try contradiction; cbn [bind]; try congruence.
    destruct R2 as (B & N & H).
    assert (E : existsb (fun kv : F * Z => negb (snd kv =? 0)) (t_iter t2) = existsb (fun kv : F * Z => negb (snd kv =? 0)) m2); [|rewrite E; reflexivity].
    apply eq_true_iff_eq. rewrite !existsb_exists.
    split; intros ((k & v) & HI & HV); exists (k, v); split; auto.
    - apply (assoc_in m2 k v N). rewrite <- H. apply (t_iter_get t2 k v B). exact HI.
    - apply (t_iter_get t2 k v B). rewrite H. apply (assoc_in m2 k v N). exact HI.
  Qed.
End Checks.
