(** The configurations that src/config.rs 71-114 offers (cargo features bn254, bls12_377, bls12_381) and the constants
    that src/config.rs 50-57 computes from the field.

    The orders of the fields are those of the external crates (ark_bn254, ark_ed_on_bn254, and so on): [curve_p] of
    [C::ScalarField], [curve_l] of [C::EmbeddedCurveScalarField].  That they are prime is not used. *)
From Verif Require Import Base Config Toy.

(** src/config.rs 72, 87, 102 *)
Inductive Curve := Bn254 | Bls12_377 | Bls12_381.

(** src/config.rs 82-83, 97-98, 112-113: [ScalarField] *)
Definition curve_p (c : Curve) : Z :=
  match c with
  | Bn254 => 21888242871839275222246405745257275088548364400416034343698204186575808495617
  | Bls12_377 => 8444461749428370424248824938781546531375899335154063827935233455917409239041
  | Bls12_381 => 52435875175126190479447740508185965837690552500527637822603658699938581184513
  end.
(** the same lines: [EmbeddedCurveScalarField] *)
Definition curve_l (c : Curve) : Z :=
  match c with
  | Bn254 => 2736030358979909402780800718157159386076813972158567259200215660948447373041
  | Bls12_377 => 2111115437357092606062206234695386632838870926408408195193685246394721360383
  | Bls12_381 => 6554484396890773809930967563523245729705921265872317281365359162392183254199
  end.

(** arkworks' [FpParameters]: MODULUS_BITS and CAPACITY = MODULUS_BITS - 1 of a field of order p *)
Definition modulus_bits (p : Z) : Z := Z.log2 p + 1.
Definition capacity_bits (p : Z) : Z := modulus_bits p - 1.
(** src/config.rs 50-52; u32 arithmetic, which does not overflow *)
Definition scalar_repr_byte_len (p : Z) : Z := (modulus_bits p + 7) / 8.
(** src/config.rs 55-57 *)
Definition per_attr_byte_capacity (p : Z) : Z := capacity_bits p / 8 - 1.

(** the field parameters of each configuration: the bounds that every theorem of this development assumes of
    them hold *)
Definition curve_field (c : Curve) : FieldCfg.
Proof. refine {| modulus := curve_p c; sub_order := curve_l c |}; destruct c; reflexivity. Defined.

Lemma field_bits {FC : FieldCfg} : 252 <= Z.log2 modulus <= 254.
Proof.
  pose proof modulus_lb as H1. pose proof modulus_ub as H2. split.
  - change 252 with (Z.log2 (2 ^ 252)). apply Z.log2_le_mono. lia.
  - assert (Z.log2 modulus < 255); [|lia]. apply Z.log2_lt_pow2; [apply modulus_pos|exact H2].
Qed.
Lemma repr_len {FC : FieldCfg} : scalar_repr_byte_len modulus = Z.of_nat SCALAR_REPR_BYTE_LEN.
Proof.
  unfold scalar_repr_byte_len, modulus_bits, SCALAR_REPR_BYTE_LEN. pose proof (@field_bits FC) as H.
  symmetry. apply (Z.div_unique _ 8 _ (Z.log2 modulus + 1 + 7 - 256)); lia.
Qed.
Lemma attr_capacity {FC : FieldCfg} : per_attr_byte_capacity modulus = Z.of_nat PER_ATTR_BYTE_CAPACITY.
Proof.
  unfold per_attr_byte_capacity, capacity_bits, modulus_bits, PER_ATTR_BYTE_CAPACITY. pose proof (@field_bits FC) as H.
  rewrite <- (Z.div_unique (Z.log2 modulus + 1 - 1) 8 31 (Z.log2 modulus - 248)); lia.
Qed.
Lemma short_fits {FC : FieldCfg} (b : bytes) : (length b <= 31)%nat -> zv (f_from_le_bytes_mod_order b) = from_le b.
Proof.
  intros H. apply fz_small. pose proof (from_le_bound b) as [H0 H1]. split; [exact H0|]. pose proof modulus_lb as HM.
  assert (256 ^ Z.of_nat (length b) <= 256 ^ 31) by (apply Z.pow_le_mono_r; lia).
  assert (256 ^ 31 < 2 ^ 252) by reflexivity. lia.
Qed.
Lemma repr_back {FC : FieldCfg} (x : F) : f_from_le_bytes_mod_order (f_to_bytes_le x) = x.
Proof.
  apply zmod_ext. unfold f_from_le_bytes_mod_order, f_to_bytes_le, SCALAR_REPR_BYTE_LEN. rewrite from_le_le_bytes.
  pose proof (zv_range x) as Hx. pose proof modulus_ub as HM. assert (2 ^ 255 < 256 ^ 32) by reflexivity.
  rewrite Z.mod_small; [apply fz_small, Hx|]. change (Z.of_nat 32) with 32. lia.
Qed.
(** the largest element does not fit into 31 bytes, and 32 bytes may exceed the field *)
Lemma shorter_loses {FC : FieldCfg} (m : nat) : (m < 32)%nat -> exists x : F, from_le (le_bytes m (zv x)) <> zv x.
Proof.
  intros H. pose proof modulus_lb as HM. exists (fz (modulus - 1)). rewrite fz_small by lia. rewrite from_le_le_bytes.
  pose proof (Z.mod_pos_bound (modulus - 1) (256 ^ Z.of_nat m)) as B.
  assert (0 < 256 ^ Z.of_nat m) by (apply Z.pow_pos_nonneg; lia).
  assert (256 ^ Z.of_nat m <= 256 ^ 31) by (apply Z.pow_le_mono_r; lia).
  assert (256 ^ 31 < 2 ^ 252) by reflexivity. lia.
Qed.
Lemma full_wraps {FC : FieldCfg} : exists b b' : bytes, length b = 32%nat /\ length b' = 32%nat /\ b <> b' /\
  f_from_le_bytes_mod_order b = f_from_le_bytes_mod_order b'.
Proof.
  exists (le_bytes 32 0), (le_bytes 32 modulus). pose proof modulus_lb as HL. pose proof modulus_ub as HU.
  assert (2 ^ 255 < 256 ^ 32) by reflexivity. rewrite !le_bytes_length. conjs; auto.
  - intros E. apply le_bytes_inj in E; [lia| |]; change (Z.of_nat 32) with 32; lia.
  - apply zmod_ext. unfold f_from_le_bytes_mod_order. rewrite !from_le_le_bytes, !zv_fz. change (Z.of_nat 32) with 32.
    rewrite !(Z.mod_small _ (256 ^ 32)) by lia. rewrite Z.mod_same by lia. apply Z.mod_0_l. lia.
Qed.
(** sums of amounts in the circuit's field *)
Lemma amounts_sum {FC : FieldCfg} (l : list u128) : Z.of_nat (length l) <= 2 ^ 124 ->
  zv (fsum (map f_of_u128 l)) = fold_right Z.add 0 (map zv l).
Proof.
  intros H. rewrite zv_fsum, map_map. rewrite (map_ext _ (fun x : u128 => zv x)) by (intros; apply zv_f_of_u128).
  change (fold_right Z.add 0 (map (fun x : u128 => zv x) l)) with (fold_right Z.add 0 (map zv l)).
  assert (B : 0 <= fold_right Z.add 0 (map zv l) <= Z.of_nat (length l) * (2 ^ 128 - 1)).
  { clear H. induction l as [|x l IH]; [cbn; lia|]. cbn [map fold_right length]. assert (Hx : 0 <= zv x < 2 ^ 128) by apply (zv_range x).
    lia. }
  apply Z.mod_small. pose proof modulus_lb. assert (2 ^ 124 * (2 ^ 128 - 1) < 2 ^ 252) by reflexivity.
  assert (Z.of_nat (length l) * (2 ^ 128 - 1) <= 2 ^ 124 * (2 ^ 128 - 1)) by (apply Z.mul_le_mono_nonneg_r; [discriminate|exact H]). lia.
Qed.
