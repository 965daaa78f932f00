(** C80: values in collections. *)
From Verif Require Import Base Config Structs Keys Utils Collections CollectionsProofs Toy.

(** ** C80 *)
(** two freezer keys are equal exactly if their coordinates represent the same point; then they have the same hash and the
    same scalars, and this is also what the crate's own comparison of points says *)
Theorem C80_freezer_keys (FC : FieldCfg) hash_f (p q : proj) : on_group p -> on_group q ->
  (he_eqb (he_freezer_pub_key hash_f) p q = true <-> same_point p q) /\
  (same_point p q -> he_hash (he_freezer_pub_key hash_f) p = he_hash (he_freezer_pub_key hash_f) q) /\
  (freezer_to_scalars p = freezer_to_scalars q <-> same_point p q) /\ (proj_eqb p q = true <-> same_point p q).
Proof.
  intros Gp Gq. pose proof (same_iff p q Gp Gq) as S. conjs.
  - cbn [he_eqb he_freezer_pub_key]. rewrite affine_eqb_iff. exact S.
  - intros H. cbn [he_hash he_freezer_pub_key]. rewrite (proj2 S H). reflexivity.
  - rewrite <- S. unfold freezer_to_scalars. destruct (into_affine p) as [x y], (into_affine q) as [x' y']. cbn [fst snd]. split; intros E.
    + pose proof (f_equal (hd f0) E) as E1. pose proof (f_equal (fun l => hd f0 (tl l)) E) as E2. cbn [hd tl] in E1, E2. rewrite E1, E2. reflexivity.
    + rewrite (f_equal fst E : x = x'), (f_equal snd E : y = y'). reflexivity.
  - rewrite (proj_eqb_iff p q Gp Gq). exact S.
Qed.
Print Assumptions C80_freezer_keys.
(** equality of each type that can be a key of a collection is an equivalence, and equal values have equal hashes; keys of
    external crates are assumed to satisfy this *)
Theorem C80_lawful (FC : FieldCfg) hash_f hash_s (EK VK AK : Type) (he_ek : HashEq EK) (he_vk : HashEq VK) (he_ak : HashEq AK) :
  lawful he_ek -> lawful he_vk -> lawful he_ak ->
  lawful (he_freezer_pub_key hash_f) /\ lawful (he_freezer_key_pair hash_f hash_s) /\ lawful (he_field hash_f) /\ lawful he_u128 /\
  lawful (he_policy hash_f he_ek he_vk) /\ lawful (he_def hash_f he_ek he_vk) /\ lawful (he_user_pub_key he_vk he_ak) /\ lawful he_flag /\
  lawful (he_opening hash_f he_ek he_vk he_ak) /\ lawful (he_pair (he_opening hash_f he_ek he_vk he_ak) he_u64).
Proof.
  intros LE LV LA. exact (conj (lawful_freezer hash_f) (conj (lawful_freezer_kp hash_f hash_s) (conj (lawful_field hash_f) (conj lawful_u128
    (conj (lawful_policy hash_f he_ek he_vk LE LV) (conj (lawful_def hash_f he_ek he_vk LE LV) (conj (lawful_user he_vk he_ak LV LA) (conj lawful_flag
    (conj (lawful_opening hash_f he_ek he_vk he_ak LE LV LA) (lawful_pair _ _ (lawful_opening hash_f he_ek he_vk he_ak LE LV LA) lawful_u64)))))))))).
Qed.
Print Assumptions C80_lawful.
(** record openings are equal exactly if all their parts are *)
Theorem C80_openings (FC : FieldCfg) hash_f (EK VK AK : Type) (he_ek : HashEq EK) (he_vk : HashEq VK) (he_ak : HashEq AK) a b :
  he_eqb (he_opening hash_f he_ek he_vk he_ak) a b = true <->
  rr_amount a = rr_amount b /\ rd_code (rr_def a) = rd_code (rr_def b) /\
  he_eqb he_ek (rp_viewer (rd_policy (rr_def a))) (rp_viewer (rd_policy (rr_def b))) = true /\
  he_eqb he_vk (rp_cred (rd_policy (rr_def a))) (rp_cred (rd_policy (rr_def b))) = true /\
  into_affine (rp_freezer (rd_policy (rr_def a))) = into_affine (rp_freezer (rd_policy (rr_def b))) /\
  rp_map (rd_policy (rr_def a)) = rp_map (rd_policy (rr_def b)) /\ rp_threshold (rd_policy (rr_def a)) = rp_threshold (rd_policy (rr_def b)) /\
  he_eqb he_vk (ru_address (rr_key a)) (ru_address (rr_key b)) = true /\ he_eqb he_ak (ru_enc (rr_key a)) (ru_enc (rr_key b)) = true /\
  rr_flag a = rr_flag b /\ rr_blind a = rr_blind b.
Proof. exact (opening_eqb_iff hash_f he_ek he_vk he_ak a b). Qed.
Print Assumptions C80_openings.
(** after any sequence of insertions and removals a lookup returns the value last stored under an equal key, whatever the
    hasher and the size of the table *)
Theorem C80_hash_map (K V : Type) (he : HashEq K) (hasher : list Z -> nat) n (ops : list (@map_op K V)) k : lawful he -> (0 < n)%nat ->
  ht_get he hasher (ht_run he hasher n ops) k = last_value he (rev ops) k.
Proof. intros LW Hn. exact (proj2 (proj2 (ht_run_inv he hasher LW n ops Hn)) k). Qed.
Print Assumptions C80_hash_map.
(** with a derived hash of the stored coordinates this would fail: an entry stored under a key is not found under an equal key *)
Theorem C80_raw_hash_refuted : exists (FC : FieldCfg) (p q : proj), on_group p /\ on_group q /\ same_point p q /\
  let he := mkHE (he_eqb (he_freezer_pub_key (fun x => [zv x]))) (fun a => [zv (px a); zv (py a); zv (pt a); zv (pz a)]) in
  he_eqb he p q = true /\
  ht_get he (fun h => Z.to_nat (fold_right Z.add 0 h)) (ht_run he (fun h => Z.to_nat (fold_right Z.add 0 h)) 7 [Insert p true]) q = None /\
  ht_get (he_freezer_pub_key (fun x => [zv x])) (fun h => Z.to_nat (fold_right Z.add 0 h mod 7))
    (ht_run (he_freezer_pub_key (fun x => [zv x])) (fun h => Z.to_nat (fold_right Z.add 0 h mod 7)) 7 [Insert p true]) q = Some true.
Proof.
  exists toy_field, (mkProj (@fz toy_field 2) (@fz toy_field 3) (@fz toy_field 6) (@fz toy_field 1)),
    (mkProj (@fz toy_field 4) (@fz toy_field 6) (@fz toy_field 12) (@fz toy_field 2)).
  assert (Gp : on_group (mkProj (@fz toy_field 2) (@fz toy_field 3) (@fz toy_field 6) (@fz toy_field 1))).
  { split; [exists (@fz toy_field 1)|]; apply zmod_ext; vm_compute; reflexivity. }
  assert (Gq : on_group (mkProj (@fz toy_field 4) (@fz toy_field 6) (@fz toy_field 12) (@fz toy_field 2))).
  { split; [exists (finv (@fz toy_field 2))|]; apply zmod_ext; vm_compute; reflexivity. }
  split; [exact Gp|]. split; [exact Gq|]. split.
  { exists (@fz toy_field 2), (finv (@fz toy_field 2)). conjs; apply zmod_ext; vm_compute; reflexivity. }
  cbv zeta. conjs; vm_compute; reflexivity.
Qed.
Print Assumptions C80_raw_hash_refuted.
(** codes, nullifiers and amounts are totally ordered, and the order agrees with equality *)
Theorem C80_order (FC : FieldCfg) (a b c : F) :
  (f_cmp a b = Eq <-> a = b) /\ (f_cmp a b = Lt <-> f_cmp b a = Gt) /\ (f_cmp a b = Lt -> f_cmp b c = Lt -> f_cmp a c = Lt).
Proof.
  conjs; [apply f_cmp_eq|rewrite f_cmp_lt, f_cmp_gt; tauto|]. rewrite !f_cmp_lt. apply Z.lt_trans.
Qed.
Print Assumptions C80_order.
(** so the checks of the library, which keep nullifiers and balances in search trees, are those that the other properties are
    about *)
Theorem C80_checks (C : CapConfig) :
  (forall l, check_distinct_tree l = check_distinct_input_nullifiers l) /\
  (forall inputs outputs fee, check_asset_amount_tree inputs outputs fee = check_asset_amount inputs outputs fee).
Proof. exact (conj check_distinct_eq check_asset_amount_eq). Qed.
Print Assumptions C80_checks.
Example C80_example : @check_distinct_tree (toy true) (map (@fz toy_field) [5; 9; 1; 7; 2]) = Ok tt /\
  @check_distinct_tree (toy true) (map (@fz toy_field) [5; 9; 1; 7; 9; 2]) = Err InvalidParameter.
Proof. split; vm_compute; reflexivity. Qed.
