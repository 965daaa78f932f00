(** C87: which policies can be built; the random policies and records of the test helpers. *)
From Verif Require Import Base Config Structs Keys PolicyProofs Builder PolicyReach Toy Samples.

(** The policies that any sequence of builder calls with real keys can produce are exactly those that reveal fields only to a viewer,
    attributes only with an issuer, and both coordinates of the address or none. *)
Theorem C87_reachable (C : CapConfig) (L : CapLaws C) (p : AssetPolicy) :
  (exists calls, Forall real_key calls /\ builder_run calls = p) <->
  (forall i, rm_bit (reveal_map p) i = true -> viewer_pk p <> pt_id) /\
  (forall i, (4 <= i)%nat -> rm_bit (reveal_map p) i = true -> cred_pk p <> pt_id) /\
  rm_bit (reveal_map p) 0 = rm_bit (reveal_map p) 1.
Proof. exact (reachable_iff L p). Qed.
Print Assumptions C87_reachable.
(** A random policy (whatever the coins, for secrets other than zero) is one of them. *)
Theorem C87_random_policy (C : CapConfig) (L : CapLaws C) (v : ViewerKeyPair) (c : Fj) (f : FreezerKeyPair) (coins : nat -> bool) (t : u64) :
  zv v <> 0 -> zv c <> 0 -> exists calls, Forall real_key calls /\ builder_run calls = policy_rand v c f coins t.
Proof.
  intros Hv Hc. apply (reachable_iff L). apply rand_sound; intros E; rewrite <- (pt_mul_0 L pt_gen) in E; apply (pt_mul_gen L) in E;
    rewrite Z.mod_0_l in E by (pose proof (zv_range c); lia); rewrite Z.mod_small in E by apply zv_range; auto.
Qed.
Print Assumptions C87_random_policy.
(** Every reveal map with matching address flags is the outcome of some coins, and no other is. *)
Theorem C87_random_map (C : CapConfig) (m : RevealMap) : (exists coins, rm_rand coins = m) <-> rm_bit m 0 = rm_bit m 1.
Proof. split; [intros (b & <-); rewrite !rm_rand_bits by lia; reflexivity|exact (rand_all m)]. Qed.
Print Assumptions C87_random_map.
(** The amounts of up to 2^63 random records fit in one transaction. *)
Theorem C87_random_amounts (C : CapConfig) (l : list (u64 * AssetDefinition * UserPubKey * F)) : Z.of_nat (length l) <= 2 ^ 63 ->
  fold_right (fun r s => zv (amount r) + s) 0 (map (fun x => let '(a, d, pk, b) := x in ro_rand a d pk b) l) < 2 ^ 127.
Proof. exact (rand_sum l). Qed.
Print Assumptions C87_random_amounts.
Example C87_example : let p := @policy_rand (toy true) (@sz toy_field 5) (@sz toy_field 6) (@sz toy_field 7) Nat.even (w64 9) in
  zv (@sz toy_field 5) <> 0 /\ zv (@sz toy_field 6) <> 0 /\
  rm (reveal_map p) = [false; false; true; false; true; false; true; false; true; false; true; false] /\
  zeqb (reveal_threshold p) (w128 9) = true.
Proof. cbv zeta. split; [discriminate|]. split; [discriminate|]. split; reflexivity. Qed.
(** a map whose two address flags differ cannot be built *)
Example C87_unreachable : ~ exists calls, Forall (@real_key (toy true)) calls /\ rm (reveal_map (builder_run calls)) = true :: repeat false 11.
Proof.
  intros (calls & H & E). destruct (proj1 (reachable_iff (toy_laws true) (builder_run calls))) as (_ & _ & K); [eauto|].
  unfold rm_bit in K. rewrite E in K. discriminate K.
Qed.
