(** C78: the constants taken from the curve.  C79: keys and parameter sizes for every shape. *)
From Verif Require Import Base Config Structs Keys Utils Memo Plonk Witness Circuits CircuitLogic CodecProofs CircuitFacts Snark Notes NoPanic Curves ParamSize Toy.

(** ** C78: the three supported configurations *)
(** the fields of every supported configuration satisfy all that this development assumes of a field; the byte lengths
    computed from them are 32 and 30 *)
Theorem C78_supported (c : Curve) :
  2 ^ 252 < curve_p c < 2 ^ 255 /\ 2 < curve_l c < curve_p c /\ @modulus (curve_field c) = curve_p c /\ @sub_order (curve_field c) = curve_l c /\
  modulus_bits (curve_p c) = match c with Bn254 => 254 | Bls12_377 => 253 | Bls12_381 => 255 end /\
  scalar_repr_byte_len (curve_p c) = 32 /\ per_attr_byte_capacity (curve_p c) = 30.
Proof. destruct c; conjs; reflexivity. Qed.
Print Assumptions C78_supported.
(** for any field of 253 to 255 bits the constants are those that the rest of the model uses *)
Theorem C78_constants (FC : FieldCfg) :
  scalar_repr_byte_len modulus = Z.of_nat SCALAR_REPR_BYTE_LEN /\ per_attr_byte_capacity modulus = Z.of_nat PER_ATTR_BYTE_CAPACITY.
Proof. exact (conj repr_len attr_capacity). Qed.
Print Assumptions C78_constants.
(** the scalar length is exact: every element is read back from that many bytes, and no smaller number of bytes suffices *)
Theorem C78_scalar_bytes (FC : FieldCfg) :
  (forall x : F, length (f_to_bytes_le x) = Z.to_nat (scalar_repr_byte_len modulus) /\ f_from_le_bytes_mod_order (f_to_bytes_le x) = x) /\
  (forall m, Z.of_nat m < scalar_repr_byte_len modulus -> exists x : F, from_le (le_bytes m (zv x)) <> zv x).
Proof.
  rewrite repr_len, Nat2Z.id. split; [|intros m H; apply shorter_loses; apply Nat2Z.inj_lt; exact H].
  intros x. split; [apply le_bytes_length|apply repr_back].
Qed.
Print Assumptions C78_scalar_bytes.
(** the attribute capacity leaves room for the padding byte: capacity plus one byte are below every field, so nothing is
    reduced, different byte strings give different elements; with a full 32 bytes that fails *)
Theorem C78_attribute_fits (FC : FieldCfg) :
  (forall b : bytes, Z.of_nat (length b) <= per_attr_byte_capacity modulus + 1 -> zv (f_from_le_bytes_mod_order b) = from_le b) /\
  (forall b b' : bytes, Z.of_nat (length b) <= per_attr_byte_capacity modulus + 1 -> length b = length b' ->
     f_from_le_bytes_mod_order b = f_from_le_bytes_mod_order b' -> b = b') /\
  (exists b b' : bytes, Z.of_nat (length b) = scalar_repr_byte_len modulus /\ length b = length b' /\ b <> b' /\
     f_from_le_bytes_mod_order b = f_from_le_bytes_mod_order b').
Proof.
  rewrite attr_capacity, repr_len. change (Z.of_nat PER_ATTR_BYTE_CAPACITY + 1) with 31. conjs.
  - intros b H. apply short_fits. lia.
  - intros b b' H E HE. apply (f_equal zv) in HE. rewrite !short_fits in HE by lia. rewrite <- (le_bytes_from_le b), <- (le_bytes_from_le b'), E, HE. reflexivity.
  - destruct full_wraps as (b & b' & L1 & L2 & HN & HE). exists b, b'. rewrite L1, L2. conjs; auto.
Qed.
Print Assumptions C78_attribute_fits.
(** native, dummy and default asset code are three different codes in every configuration *)
Theorem C78_codes (FC : FieldCfg) : native_asset_code <> dummy_asset_code /\ native_asset_code <> f0 /\ dummy_asset_code <> f0.
Proof.
  pose proof modulus_lb as H. assert (2 ^ 252 > 2) by reflexivity. unfold native_asset_code, dummy_asset_code, f0.
  conjs; intros E; apply (f_equal zv) in E; revert E; rewrite !zv_fz, !Z.mod_small by lia; discriminate.
Qed.
Print Assumptions C78_codes.
(** amounts are added in the field without wrapping round, for any number of records that can occur *)
Theorem C78_amount_sums (FC : FieldCfg) (l : list u128) : Z.of_nat (length l) <= 2 ^ 124 ->
  zv (fsum (map f_of_u128 l)) = fold_right Z.add 0 (map zv l).
Proof. exact (amounts_sum l). Qed.
Print Assumptions C78_amount_sums.

(** ** C79: shapes *)
(** keys can be made exactly for transfers with at least one input and one output, for mints, and for freezes with at least
    two inputs (the fee and one record), for any depth of the tree; the hypothesis is that the parameters are large enough *)
Theorem C79_keys (C : CapConfig) (L : CapLaws C) (S : Snark C) g fk n_in n_out d :
  (forall s, exists k, snark_preprocess g s = Ok k) ->
  ((exists k, transfer_preprocess g n_in n_out d = Ok k) <-> (1 <= n_in /\ 1 <= n_out)%nat) /\
  (exists k, mint_preprocess g d = Ok k) /\
  ((exists k, freeze_preprocess g fk n_in d = Ok k) <-> (2 <= n_in)%nat).
Proof. exact (preprocess_iff L g fk n_in n_out d). Qed.
Print Assumptions C79_keys.
(** the same shapes have a parameter size *)
Theorem C79_sized (C : CapConfig) (L : CapLaws C) dom fk t n_in n_out d : (forall s, exists m, dom s = Ok m) ->
  (exists k, compute_universal_param_size dom fk t n_in n_out d = Ok k) <->
  match t with NTransfer => (1 <= n_in /\ 1 <= n_out)%nat | NMint => True | NFreeze => (2 <= n_in)%nat end.
Proof. exact (size_iff L dom fk t n_in n_out d). Qed.
Print Assumptions C79_sized.
(** what is computed is two more than the domain of the circuit of *every* note of that shape, whatever its records, keys,
    policy and position in the tree *)
Theorem C79_size_of_notes (C : CapConfig) (L : CapLaws C) dom (dom_shape : forall s s', sim s s' -> dom s = dom s') fk t n_in n_out d k :
  compute_universal_param_size dom fk t n_in n_out d = Ok k ->
  match t with
  | NTransfer => forall w vu p, transfer_from_witness w vu = Ok p -> length (tw_inputs w) = n_in -> length (tw_outputs w) = n_out ->
      (forall i, In i (tw_inputs w) -> length (acc_path (is_acc i)) = d /\ length (cr_attrs (is_cred i)) = ATTRS_LEN) ->
      exists s m, transfer_circuit w p = Ok s /\ dom s = Ok m /\ k = (m + 2)%nat
  | NMint => forall w p, mint_from_witness w = Ok p -> length (acc_path (mw_acc w)) = d ->
      exists s m, mint_circuit w p = Ok s /\ dom s = Ok m /\ k = (m + 2)%nat
  | NFreeze => forall w p, freeze_from_witness w = Ok p -> length (fw_inputs w) = n_in -> (forall a, In a (fw_accs w) -> length (acc_path a) = d) ->
      exists s m, freeze_circuit_unchecked w p = Ok s /\ dom s = Ok m /\ k = (m + 2)%nat
  end.
Proof.
  intros H. destruct t.
  - intros w vu p. exact (size_transfer L dom fk dom_shape n_in n_out d k w vu p H).
  - intros w p. exact (size_mint dom fk dom_shape n_in n_out d k w p H).
  - intros w p. exact (size_freeze dom fk dom_shape n_in n_out d k w p H).
Qed.
Print Assumptions C79_size_of_notes.
(** the arguments documented as ignored are ignored, and so is the freezer key drawn for the sample circuit *)
Theorem C79_ignored (C : CapConfig) dom (dom_shape : forall s s', sim s s' -> dom s = dom s') fk fk' a b a' b' d :
  compute_universal_param_size dom fk NMint a b d = compute_universal_param_size dom fk' NMint a' b' d /\
  ((2 <= a)%nat -> compute_universal_param_size dom fk NFreeze a b d = compute_universal_param_size dom fk' NFreeze a b' d) /\
  compute_universal_param_size dom fk NTransfer a b d = compute_universal_param_size dom fk' NTransfer a b d.
Proof.
  conjs; try reflexivity. intros H. rewrite (size_key dom dom_shape fk fk' NFreeze a b d H). reflexivity.
Qed.
Print Assumptions C79_ignored.
(** the other shapes are refused with an error, except that a freeze without any input panics *)
Theorem C79_refused (C : CapConfig) dom fk n d :
  compute_universal_param_size dom fk NTransfer 0 n d = Err InvalidParameter /\
  compute_universal_param_size dom fk NTransfer n 0 d = Err InvalidParameter /\
  compute_universal_param_size dom fk NFreeze 0 n d = Panic /\
  compute_universal_param_size dom fk NFreeze 1 n d = Err InvalidParameter.
Proof. exact (size_refused dom fk n d). Qed.
Print Assumptions C79_refused.
(** Non-vacuity: sizes for the toy configuration, if the domain were the number of the model's constraints *)
Example C79_example :
  let dom := fun s : @cs (toy true) => Ok (length (gates s)) in
  (forall s s', sim s s' -> dom s = dom s') /\
  get (@compute_universal_param_size (toy true) dom (sz 0) NTransfer 2 3 2) (fun k => k =? 213)%nat = true /\
  get (@compute_universal_param_size (toy true) dom (sz 0) NTransfer 1 1 0) (fun k => k =? 63)%nat = true /\
  get (@compute_universal_param_size (toy true) dom (sz 0) NMint 0 0 2) (fun k => k =? 72)%nat = true /\
  get (@compute_universal_param_size (toy true) dom (sz 0) NFreeze 2 0 2) (fun k => k =? 88)%nat = true.
Proof.
  cbv zeta. split; [intros s s' (_ & E & _); rewrite E; reflexivity|]. conjs; vm_compute; reflexivity.
Qed.
