(** Proofs about the byte and integer encodings of src/structs.rs (properties C01-C05, C08, C09). *)
From Coq Require Import ZifyBool ZifyNat Permutation.
From Verif Require Import Base Config Structs.

Lemma nth_repeat_lt {A} (x d : A) n i : (i < n)%nat -> nth i (repeat x n) d = x.
Proof. revert i; induction n as [|n IH]; intros [|i] H; cbn; try lia; [reflexivity|apply IH; lia]. Qed.

(** ** C01 *)
Lemma amount_range (a : Amount) : 0 <= zv a < 2 ^ 128.
Proof. exact (zv_range a). Qed.

Lemma zv_w128 z : zv (w128 z) = z mod 2 ^ 128.
Proof. reflexivity. Qed.

Lemma w128_zv (a : Amount) : w128 (zv a) = a.
Proof. apply zred_zv. Qed.

Lemma amount_serialize_length a : length (amount_serialize a) = 16%nat.
Proof. apply le_bytes_length. Qed.

Lemma pow256_16 : 256 ^ Z.of_nat 16 = 2 ^ 128. Proof. reflexivity. Qed.

Lemma amount_deserialize_iff s a rest :
  amount_deserialize s = Ok (a, rest) <-> s = amount_serialize a ++ rest.
Proof.
  unfold amount_deserialize. rewrite bind_ok. split.
  - intros ([b r] & Hr & H). apply read_exact_ok in Hr. destruct Hr as [-> Hl].
    injection H as <- <-. f_equal. unfold amount_serialize. rewrite zv_w128, Z.mod_small.
    + rewrite <- Hl. symmetry; apply le_bytes_from_le.
    + rewrite <- pow256_16, <- Hl. apply from_le_bound.
  - intros ->. exists (amount_serialize a, rest). split.
    + apply read_exact_app_n, amount_serialize_length.
    + f_equal; f_equal. apply zmod_ext. rewrite zv_w128. unfold amount_serialize.
      rewrite from_le_le_bytes, pow256_16, Z.mod_mod by discriminate.
      apply Z.mod_small, amount_range.
Qed.

Lemma amount_codec :
  (forall a, length (amount_serialize a) = 16%nat) /\
  (forall a rest, amount_deserialize (amount_serialize a ++ rest) = Ok (a, rest)) /\
  (forall s a rest, amount_deserialize s = Ok (a, rest) -> s = amount_serialize a ++ rest) /\
  (forall s, (16 <= length s)%nat -> exists a rest, amount_deserialize s = Ok (a, rest)) /\
  (forall s, (length s < 16)%nat -> amount_deserialize s = Err SerIoError).
Proof.
  conjs.
  - apply amount_serialize_length.
  - intros a rest. apply amount_deserialize_iff. reflexivity.
  - intros s a rest H. apply amount_deserialize_iff, H.
  - intros s H. unfold amount_deserialize, read_exact.
    destruct (Nat.ltb_spec (length s) 16) as [?|_]; [lia|]. cbn. eauto.
  - intros s H. unfold amount_deserialize, read_exact.
    destruct (Nat.ltb_spec (length s) 16) as [_|?]; [reflexivity|lia].
Qed.

(** ** C02 *)
Lemma from_le_firstn n l : from_le (firstn n l) = from_le l mod 256 ^ Z.of_nat n.
Proof.
  revert l; induction n as [|n IH]; intros l.
  - cbn. rewrite Z.mod_1_r; reflexivity.
  - destruct l as [|b l]; cbn [firstn from_le].
    + rewrite Z.mod_0_l; [reflexivity|apply Z.pow_nonzero; lia].
    + rewrite IH, pow256_succ. pose proof (byte_range b).
      rewrite Z.rem_mul_r by (try apply Z.pow_nonzero; lia).
      replace (zv b + 256 * from_le l) with (zv b + from_le l * 256) by lia.
      rewrite Z.mod_add, Z.div_add, (Z.mod_small (zv b)), (Z.div_small (zv b)) by lia. rewrite Z.add_0_l. reflexivity.
Qed.

Lemma u256_range (v : u256) : 0 <= zv v < 2 ^ 256.
Proof. exact (zv_range v). Qed.

Lemma amount_u256 :
  (forall a, zv (u256_of_amount a) = zv a) /\
  (forall v a, amount_try_from_u256 v = Ok a <-> zv v = zv a) /\
  (forall v, zv v < 2 ^ 128 -> exists a, amount_try_from_u256 v = Ok a) /\
  (forall v, 2 ^ 128 <= zv v -> amount_try_from_u256 v = Err InvalidParameter).
Proof.
  assert (Hok : forall v : u256, zv v < 2 ^ 128 ->
            amount_try_from_u256 v = Ok (w128 (zv v))).
  { intros v Hv. unfold amount_try_from_u256. destruct (Z.leb_spec (zv v) (2 ^ 128 - 1)) as [_|?]; [|lia].
    f_equal. apply zmod_ext. rewrite !zv_w128, from_le_firstn, from_le_le_bytes, pow256_16.
    change (256 ^ Z.of_nat 32) with (2 ^ 256).
    rewrite (Z.mod_small (zv v) (2 ^ 256)) by (apply u256_range). rewrite Z.mod_mod by discriminate. reflexivity. }
  conjs.
  - intros a. unfold u256_of_amount. apply zred_small. pose proof (amount_range a).
    change u256_mod with (2 ^ 256). lia.
  - intros v a. split; intros E.
    + destruct (Z_lt_le_dec (zv v) (2 ^ 128)) as [Hv|Hv].
      * rewrite Hok in E by exact Hv. injection E as <-. rewrite zv_w128. pose proof (u256_range v). rewrite Z.mod_small; lia.
      * unfold amount_try_from_u256 in E. destruct (Z.leb_spec (zv v) (2 ^ 128 - 1)) as [?|_]; [lia|discriminate E].
    + pose proof (amount_range a). rewrite Hok by lia. f_equal. rewrite E. apply w128_zv.
  - intros v Hv. rewrite (Hok v Hv); eauto.
  - intros v Hv. unfold amount_try_from_u256. destruct (Z.leb_spec (zv v) (2 ^ 128 - 1)) as [?|_]; [lia|reflexivity].
Qed.

(** ** C03 *)
Definition zsum (l : list Z) : Z := fold_right Z.add 0 l.

Lemma zsum_app l1 l2 : zsum (l1 ++ l2) = zsum l1 + zsum l2.
Proof. induction l1; cbn in *; [reflexivity|]. unfold zsum in *; cbn; lia. Qed.

Lemma zsum_nonneg l : Forall (fun z => 0 <= z) l -> 0 <= zsum l.
Proof. induction 1; cbn; [lia|]. unfold zsum in *; cbn; lia. Qed.

Lemma zsum_zv_nonneg {m} (l : list (zmod m)) : 0 <= zsum (map zv l).
Proof. apply zsum_nonneg, Forall_map, Forall_forall. intros x _; pose proof (zv_range x); lia. Qed.

Lemma checked_add_eq (a b : Amount) :
  checked_add a b = if zv a + zv b <? 2 ^ 128 then Some (w128 (zv a + zv b)) else None.
Proof. reflexivity. Qed.

Lemma safe_sum_from_spec l acc :
  safe_sum_from acc l =
  if zv acc + zsum (map zv l) <? 2 ^ 128 then Some (w128 (zv acc + zsum (map zv l))) else None.
Proof.
  revert acc; induction l as [|x l IH]; intros acc; cbn [safe_sum_from map].
  - change (zsum []) with 0. rewrite Z.add_0_r. pose proof (amount_range acc).
    destruct (Z.ltb_spec (zv acc) (2 ^ 128)); [|lia]. rewrite w128_zv; reflexivity.
  - change (zsum (zv x :: map zv l)) with (zv x + zsum (map zv l)).
    rewrite checked_add_eq.
    pose proof (zsum_zv_nonneg l). pose proof (amount_range acc). pose proof (amount_range x).
    destruct (Z.ltb_spec (zv acc + zv x) (2 ^ 128)) as [Hlt|Hge].
    + rewrite IH. rewrite zv_w128, Z.mod_small by lia. rewrite Z.add_assoc. reflexivity.
    + destruct (Z.ltb_spec (zv acc + (zv x + zsum (map zv l))) (2 ^ 128)); [lia|reflexivity].
Qed.

Lemma safe_sum_spec l :
  safe_sum_amount l = if zsum (map zv l) <? 2 ^ 128 then Some (w128 (zsum (map zv l))) else None.
Proof. unfold safe_sum_amount. rewrite safe_sum_from_spec. change (zv (w128 0)) with 0. rewrite Z.add_0_l. reflexivity. Qed.

Lemma safe_sum_some l s : safe_sum_amount l = Some s <-> zsum (map zv l) = zv s.
Proof.
  rewrite safe_sum_spec. pose proof (zsum_zv_nonneg l). pose proof (amount_range s).
  destruct (Z.ltb_spec (zsum (map zv l)) (2 ^ 128)); split; intros E.
  - injection E as <-. rewrite zv_w128, Z.mod_small; lia.
  - f_equal. rewrite E. apply w128_zv.
  - discriminate.
  - lia.
Qed.

Lemma zsum_perm l l' : Permutation l l' -> zsum l = zsum l'.
Proof. induction 1; unfold zsum in *; cbn in *; lia. Qed.

(** ** C08 *)
Lemma freeze_flag_codec :
  (forall f, flip (flip f) = f) /\
  (forall f, flip f <> f) /\
  (forall f rest, flag_deserialize (flag_serialize f ++ rest) = Ok (f, rest)) /\
  (forall s f rest, flag_deserialize s = Ok (f, rest) -> s = flag_serialize f ++ rest) /\
  (forall (b : byte) s, zv b <> 0 -> zv b <> 1 -> flag_deserialize (b :: s) = Err SerInvalidData) /\
  flag_deserialize [] = Err SerIoError.
Proof.
  conjs.
  - intros []; reflexivity.
  - intros []; discriminate.
  - intros [] rest; reflexivity.
  - intros s f rest. unfold flag_deserialize. intros H. apply bind_ok in H.
    destruct H as ([a r] & Hr & H). apply read_exact_ok in Hr. destruct Hr as [-> Hl].
    destruct a as [|b [|? ?]]; try discriminate Hl.
    destruct (Z.eqb_spec (zv b) 0) as [E|_].
    + injection H as <- <-. cbn. f_equal. apply zmod_ext. exact E.
    + destruct (Z.eqb_spec (zv b) 1) as [E|_]; [|discriminate H].
      injection H as <- <-. cbn. f_equal. apply zmod_ext. exact E.
  - intros b s H0 H1.
    change (flag_deserialize (b :: s)) with (flag_deserialize ([b] ++ s)). unfold flag_deserialize. rewrite (read_exact_app_n 1 [b] s) by reflexivity. cbn [bind].
    destruct (Z.eqb_spec (zv b) 0); [contradiction|]. destruct (Z.eqb_spec (zv b) 1); [contradiction|]. reflexivity.
  - reflexivity.
Qed.

(** ** C04 *)
Lemma rm_length (m : RevealMap) : length (rm m) = 12%nat.
Proof. apply Nat.eqb_eq, rm_ok. Qed.

Lemma rm_serialize_length m : length (rm_serialize m) = 20%nat.
Proof. unfold rm_serialize. rewrite app_length, le_bytes_length, map_length, rm_length. reflexivity. Qed.

Definition flag_byte (b : bool) : byte := b8 (if b then 1 else 0).

Lemma mapM_flags l : mapM flag_of_byte (map flag_byte l) = Ok l.
Proof. induction l as [|[] l IH]; cbn [map mapM]; [reflexivity| |]; rewrite IH; reflexivity. Qed.

Lemma flag_of_byte_ok b f : flag_of_byte b = Ok f -> b = flag_byte f.
Proof.
  unfold flag_of_byte. destruct (Z.eqb_spec (zv b) 0) as [E|_].
  - intros [= <-]. apply zmod_ext. exact E.
  - destruct (Z.eqb_spec (zv b) 1) as [E|_]; [|discriminate]. intros [= <-]. apply zmod_ext. exact E.
Qed.

Lemma rm_make_ok l m : rm_make l = Some m <-> rm m = l.
Proof.
  unfold rm_make. destruct (bool_dec _ _) as [H|H].
  - split; [intros [= <-]; reflexivity|]. intros E. f_equal. apply rm_ext. symmetry; exact E.
  - split; [discriminate|]. intros E. exfalso. apply H. rewrite <- E. apply rm_ok.
Qed.

Lemma rm_codec :
  (forall m, length (rm_serialize m) = 20%nat) /\
  (forall m rest, rm_deserialize (rm_serialize m ++ rest) = Ok (m, rest)) /\
  (forall s m rest, rm_deserialize s = Ok (m, rest) -> s = rm_serialize m ++ rest).
Proof.
  conjs.
  - apply rm_serialize_length.
  - intros m rest. unfold rm_deserialize, rm_serialize. rewrite <- app_assoc.
    rewrite (read_exact_app_n 8) by apply le_bytes_length. cbn [bind].
    rewrite from_le_le_bytes. change (Z.of_nat VIEWABLE_DATA_LEN mod 256 ^ Z.of_nat 8) with (Z.of_nat VIEWABLE_DATA_LEN).
    rewrite Z.eqb_refl. cbn [negb].
    rewrite (read_exact_app_n 12) by (rewrite map_length; apply rm_length). cbn [bind].
    change (map (fun b : bool => b8 (if b then 1 else 0)) (rm m)) with (map flag_byte (rm m)).
    rewrite mapM_flags. cbn [bind].
    destruct (rm_make (rm m)) as [m'|] eqn:E.
    + apply rm_make_ok in E. do 2 f_equal. apply rm_ext; exact E.
    + exfalso. assert (H : rm_make (rm m) = Some m) by (apply rm_make_ok; reflexivity). congruence.
  - intros s m rest H. unfold rm_deserialize in H. apply bind_ok in H.
    destruct H as ([lb s1] & Hl & H). apply read_exact_ok in Hl. destruct Hl as [-> Hl].
    destruct (Z.eqb_spec (from_le lb) (Z.of_nat VIEWABLE_DATA_LEN)) as [E|?]; [|discriminate H]. cbn [negb] in H.
    apply bind_ok in H. destruct H as ([bf s2] & Hb & H). apply read_exact_ok in Hb. destruct Hb as [-> Hb].
    apply bind_ok in H. destruct H as (fl & Hfl & H).
    destruct (rm_make fl) as [m'|] eqn:Em; [|discriminate H]. injection H as <- <-.
    apply rm_make_ok in Em. apply mapM_ok in Hfl.
    unfold rm_serialize. rewrite <- app_assoc. f_equal.
    + rewrite <- E, <- Hl. symmetry; apply le_bytes_from_le.
    + f_equal. rewrite Em. clear -Hfl. induction Hfl as [|b f bl fl Hb Hrest IH]; [reflexivity|].
      cbn [map]. f_equal; [apply flag_of_byte_ok; exact Hb|exact IH].
Qed.

(** ** C05 *)
Lemma bits_fold l acc :
  fold_left (fun acc (x : bool) => if x then acc * 2 + 1 else acc * 2) l acc = acc * 2 ^ Z.of_nat (length l) + bits_to_Z l.
Proof.
  unfold bits_to_Z. revert acc. induction l as [|b l IH]; intros acc; cbn [fold_left length].
  - cbn. lia.
  - rewrite IH. rewrite (IH (if b then 0 * 2 + 1 else 0 * 2)).
    rewrite Nat2Z.inj_succ, Z.pow_succ_r by lia. destruct b; lia.
Qed.

Lemma bits_to_Z_cons b l : bits_to_Z (b :: l) = Z.b2z b * 2 ^ Z.of_nat (length l) + bits_to_Z l.
Proof. unfold bits_to_Z at 1. cbn [fold_left]. rewrite bits_fold. destruct b; cbn [Z.b2z]; lia. Qed.

Lemma bits_to_Z_range l : 0 <= bits_to_Z l < 2 ^ Z.of_nat (length l).
Proof.
  induction l as [|b l IH].
  - cbn. lia.
  - rewrite bits_to_Z_cons. cbn [length]. rewrite Nat2Z.inj_succ, Z.pow_succ_r by lia. destruct b; cbn [Z.b2z]; lia.
Qed.

Lemma bits_to_Z_testbit l i : (i < length l)%nat ->
  Z.testbit (bits_to_Z l) (Z.of_nat (length l - 1 - i)) = nth i l false.
Proof.
  revert i; induction l as [|b l IH]; intros i Hi; [cbn in Hi; lia|].
  rewrite bits_to_Z_cons. pose proof (bits_to_Z_range l) as Hr. cbn [length] in *.
  destruct i as [|i]; cbn [nth].
  - replace (Z.of_nat (S (length l) - 1 - 0)) with (Z.of_nat (length l)) by lia.
    rewrite Z.add_comm. rewrite Z.testbit_odd, Z.shiftr_div_pow2 by lia.
    rewrite Z.div_add by (apply Z.pow_nonzero; lia). rewrite Z.div_small by lia. destruct b; reflexivity.
  - assert (Hi' : (i < length l)%nat) by lia. rewrite <- (IH i Hi').
    replace (S (length l) - 1 - S i)%nat with (length l - 1 - i)%nat by lia.
    set (k := Z.of_nat (length l - 1 - i)).
    rewrite <- (Z.mod_pow2_bits_low _ (Z.of_nat (length l)) k) by (subst k; lia).
    rewrite Z.add_comm, Z.mod_add by (apply Z.pow_nonzero; lia).
    rewrite Z.mod_pow2_bits_low by (subst k; lia). reflexivity.
Qed.

Section WithCfg.
  Context {C : CapConfig}.

  Lemma zv_rm_to_scalar m : zv (rm_to_scalar m) = bits_to_Z (rm m).
  Proof.
    unfold rm_to_scalar. apply fz_small. pose proof (bits_to_Z_range (rm m)) as H. rewrite rm_length in H.
    pose proof modulus_lb. assert (2 ^ Z.of_nat 12 < 2 ^ 252) by reflexivity. lia.
  Qed.

  Lemma bits_to_Z_inj l l' : length l = length l' -> bits_to_Z l = bits_to_Z l' -> l = l'.
  Proof.
    revert l'; induction l as [|b l IH]; intros [|b' l']; cbn [length]; intros Hl E; try discriminate; [reflexivity|].
    injection Hl as Hl. rewrite !bits_to_Z_cons, Hl in E.
    pose proof (bits_to_Z_range l) as Hr. pose proof (bits_to_Z_range l') as Hr'. rewrite Hl in Hr.
    assert (Hb : b = b') by (destruct b, b'; cbn [Z.b2z] in E; try reflexivity; lia).
    subst. f_equal. apply IH; [exact Hl|lia].
  Qed.

  Lemma rm_scalar_spec :
    (forall m, 0 <= zv (rm_to_scalar m) < 2 ^ 12) /\
    (forall m m', rm_to_scalar m = rm_to_scalar m' -> m = m') /\
    (forall m i, (i < 12)%nat -> Z.testbit (zv (rm_to_scalar m)) (Z.of_nat (11 - i)) = rm_bit m i).
  Proof.
    conjs.
    - intros m. rewrite zv_rm_to_scalar. pose proof (bits_to_Z_range (rm m)) as H. rewrite rm_length in H. lia.
    - intros m m' H. apply (f_equal zv) in H. rewrite !zv_rm_to_scalar in H.
      apply rm_ext, bits_to_Z_inj; [rewrite !rm_length; reflexivity|exact H].
    - intros m i Hi. rewrite zv_rm_to_scalar. pose proof (bits_to_Z_testbit (rm m) i) as H.
      rewrite rm_length in H. unfold rm_bit. rewrite <- H by lia. f_equal.
  Qed.

  (** ** C09 *)
  Lemma from_le_app a b : from_le (a ++ b) = from_le a + 256 ^ Z.of_nat (length a) * from_le b.
  Proof.
    induction a as [|x a IH]; cbn [from_le app length].
    - cbn [length Z.of_nat]. rewrite Z.pow_0_r. lia.
    - rewrite IH, pow256_succ. ring.
  Qed.

  Definition attr_pad (v : bytes) : bytes := v ++ repeat (b8 (Z.of_nat (32 - length v))) (31 - length v).

  Lemma attr_new_eq v : (1 <= length v <= 30)%nat -> attr_new v = Ok (f_from_le_bytes_mod_order (attr_pad v)).
  Proof.
    intros H. unfold attr_new, PER_ATTR_BYTE_CAPACITY, SCALAR_REPR_BYTE_LEN, attr_pad, resize.
    destruct (Nat.ltb_spec 30 (length v)); [lia|]. destruct (Nat.eqb_spec (length v) 0); [lia|]. cbn [orb].
    do 3 f_equal. rewrite firstn_all2 by lia. reflexivity.
  Qed.

  Lemma attr_pad_length v : (length v <= 30)%nat -> length (attr_pad v) = 31%nat.
  Proof. intros; unfold attr_pad. rewrite app_length, repeat_length. lia. Qed.

  Lemma attr_bytes v : (1 <= length v <= 30)%nat ->
    f_to_bytes_le (f_from_le_bytes_mod_order (attr_pad v)) = attr_pad v ++ [b8 0].
  Proof.
    intros H. unfold f_to_bytes_le, f_from_le_bytes_mod_order.
    pose proof (from_le_bound (attr_pad v)) as Hb. rewrite attr_pad_length in Hb by lia.
    rewrite fz_small.
    - assert (E : from_le (attr_pad v) = from_le (attr_pad v ++ [b8 0])).
      { rewrite from_le_app. cbn [from_le]. change (zv (b8 0)) with 0. lia. }
      rewrite E. replace SCALAR_REPR_BYTE_LEN with (length (attr_pad v ++ [b8 0])).
      + apply le_bytes_from_le.
      + rewrite app_length, attr_pad_length by lia. reflexivity.
    - pose proof modulus_lb. assert (256 ^ Z.of_nat 31 < 2 ^ 252) by reflexivity. lia.
  Qed.

  Lemma attr_value_new v a : attr_new v = Ok a -> attr_value a = Ok v.
  Proof.
    intros H.
    assert (Hl : (1 <= length v <= 30)%nat).
    { unfold attr_new, PER_ATTR_BYTE_CAPACITY in H.
      destruct (Nat.ltb_spec 30 (length v)); [discriminate H|]. destruct (Nat.eqb_spec (length v) 0); [discriminate H|]. lia. }
    rewrite attr_new_eq in H by exact Hl. injection H as <-.
    unfold attr_value. rewrite attr_bytes by exact Hl. rewrite rev_app_distr. cbn [rev app].
    change (zv (b8 0) =? 0) with true. cbn [negb].
    rewrite app_length, attr_pad_length by lia. cbn [length Nat.add Nat.sub].
    assert (En : nth 30 (attr_pad v ++ [b8 0]) (b8 0) = b8 (Z.of_nat (32 - length v))).
    { rewrite app_nth1 by (rewrite attr_pad_length; lia). unfold attr_pad.
      rewrite app_nth2 by lia. apply nth_repeat_lt. lia. }
    rewrite En.
    assert (Ev : zv (b8 (Z.of_nat (32 - length v))) = Z.of_nat (32 - length v)).
    { change (Z.of_nat (32 - length v) mod 256 = Z.of_nat (32 - length v)). apply Z.mod_small. lia. }
    rewrite Ev. change (Z.of_nat SCALAR_REPR_BYTE_LEN) with 32.
    destruct (Z.leb_spec (Z.of_nat (32 - length v)) 32); [|lia]. f_equal.
    rewrite Nat2Z.id. unfold SCALAR_REPR_BYTE_LEN. replace (32 - (32 - length v))%nat with (length v) by lia.
    unfold attr_pad. rewrite <- app_assoc. rewrite firstn_app, firstn_all, Nat.sub_diag. cbn. apply app_nil_r.
  Qed.

  Lemma attr_codec :
    (forall v, (exists a, attr_new v = Ok a) <-> (1 <= length v <= 30)%nat) /\
    (forall v, ~ (1 <= length v <= 30)%nat -> attr_new v = Err InvalidParameter) /\
    (forall v a, attr_new v = Ok a -> attr_value a = Ok v) /\
    (forall v v' a, attr_new v = Ok a -> attr_new v' = Ok a -> v = v').
  Proof.
    assert (Hneg : forall v, ~ (1 <= length v <= 30)%nat -> attr_new v = Err InvalidParameter).
    { intros v H. unfold attr_new, PER_ATTR_BYTE_CAPACITY.
      destruct (Nat.ltb_spec 30 (length v)); [reflexivity|]. destruct (Nat.eqb_spec (length v) 0); [reflexivity|]. lia. }
    split; [|split; [|split]].
    - intros v; split.
      + intros [a Ha]. destruct (le_lt_dec 1 (length v)), (le_lt_dec (length v) 30); try lia;
          rewrite Hneg in Ha by lia; discriminate.
      + intros H. eexists. apply attr_new_eq; exact H.
    - exact Hneg.
    - apply attr_value_new.
    - intros v v' a H H'. apply attr_value_new in H, H'. congruence.
  Qed.

  Lemma le_bytes_nth n i z : (i < n)%nat -> 0 <= z -> zv (nth i (le_bytes n z) (b8 0)) = z / 256 ^ Z.of_nat i mod 256.
  Proof.
    revert i z; induction n as [|n IH]; intros i z Hi Hz; [lia|].
    destruct i as [|i]; cbn [le_bytes nth].
    - cbn [Z.of_nat]. rewrite Z.pow_0_r, Z.div_1_r. reflexivity.
    - rewrite IH by (try apply Z.div_pos; lia).
      rewrite pow256_succ, Z.div_div by (try apply Z.pow_pos_nonneg; lia). reflexivity.
  Qed.

  Lemma le_bytes_last n z : rev (le_bytes (S n) z) = nth n (le_bytes (S n) z) (b8 0) :: rev (le_bytes n z).
  Proof.
    revert z; induction n as [|n IH]; intros z; [reflexivity|].
    cbn [le_bytes rev nth]. cbn [le_bytes rev nth] in IH. rewrite IH. reflexivity.
  Qed.

  (** Exact panic condition of [value()] *)
  Lemma attr_value_panic a :
    attr_value a = Panic <-> overflow_checks = true /\ zv a < 2 ^ 248 /\ 32 < zv a / 2 ^ 240.
  Proof.
    unfold attr_value, f_to_bytes_le, SCALAR_REPR_BYTE_LEN. rewrite le_bytes_last, le_bytes_length.
    pose proof (zv_range a) as Hr. pose proof modulus_ub as Hub.
    rewrite !le_bytes_nth by lia. cbn [Nat.sub].
    change (256 ^ Z.of_nat 31) with (2 ^ 248). change (256 ^ Z.of_nat 30) with (2 ^ 240).
    assert (Hq : 0 <= zv a / 2 ^ 248 < 256).
    { split; [apply Z.div_pos; lia|]. apply Z.div_lt_upper_bound; [lia|]. lia. }
    rewrite (Z.mod_small (zv a / 2 ^ 248)) by lia.
    destruct (Z.eqb_spec (zv a / 2 ^ 248) 0) as [E|E]; cbn [negb].
    - assert (Hs : zv a < 2 ^ 248) by (apply Z.div_small_iff in E; lia).
      assert (Hq2 : 0 <= zv a / 2 ^ 240 < 256).
      { split; [apply Z.div_pos; lia|]. apply Z.div_lt_upper_bound; lia. }
      rewrite (Z.mod_small (zv a / 2 ^ 240)) by lia. change (Z.of_nat 32) with 32.
      destruct (Z.leb_spec (zv a / 2 ^ 240) 32).
      + split; [discriminate|]. intros (_ & _ & ?). lia.
      + destruct overflow_checks; split; intros Hx; try discriminate; auto. destruct Hx as (? & _); discriminate.
    - split; [discriminate|]. intros (_ & Hs & _). exfalso. apply E. apply Z.div_small. lia.
  Qed.
End WithCfg.
