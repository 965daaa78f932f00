(** Model of src/structs.rs: amounts, asset codes, reveal maps, policies, records, attributes, credentials.
    (Memos are in Memo.v, keys in Keys.v.)  Only definitions; proofs are in the *Proofs.v files. *)
From Verif Require Import Base Config.

(** ** Amount (structs.rs 134-219) *)

(** structs.rs 161 [struct Amount(u128)] *)
Definition Amount := u128.

(** structs.rs 176-178: [(self.0).to_le_bytes()] *)
Definition amount_serialize (a : Amount) : bytes := le_bytes 16 (zv a).

(** structs.rs 188-193: read 16 bytes, [u128::from_le_bytes]; returns the rest of the reader too *)
Definition amount_deserialize (s : bytes) : res (Amount * bytes) :=
  let* (b, rest) := read_exact 16 s in
  Ok (w128 (from_le b), rest).

(** structs.rs 196-200 *)
Definition u256_of_amount (a : Amount) : u256 := w256 (zv a).

(** structs.rs 202-219: bound check, then the low 16 of the 32 little-endian bytes *)
Definition amount_try_from_u256 (v : u256) : res Amount :=
  if zv v <=? 2 ^ 128 - 1 then
    Ok (w128 (from_le (firstn 16 (le_bytes 32 (zv v)))))
  else Err InvalidParameter.

Section Arith.
  Context {C : CapConfig}.
  (** derive_more [Add]/[Sub] on Amount (structs.rs 141-151): plain u128 [+]/[-] *)
  Definition amount_add (a b : Amount) : res Amount :=
    if zv a + zv b <? u128_mod then Ok (w128 (zv a + zv b))
    else if overflow_checks then Panic else Ok (w128 (zv a + zv b)).
  Definition amount_sub (a b : Amount) : res Amount :=
    if zv b <=? zv a then Ok (w128 (zv a - zv b))
    else if overflow_checks then Panic else Ok (w128 (zv a - zv b)).
End Arith.

Definition amount_ltb (a b : Amount) : bool := zv a <? zv b.

(** utils/mod.rs 73-78 [safe_sum_amount]: [try_fold(0u128, checked_add)] *)
Definition checked_add (a b : Amount) : option Amount :=
  if zv a + zv b <? u128_mod then Some (w128 (zv a + zv b)) else None.
Fixpoint safe_sum_from (acc : Amount) (l : list Amount) : option Amount :=
  match l with
  | [] => Some acc
  | x :: xs => match checked_add acc x with Some acc' => safe_sum_from acc' xs | None => None end
  end.
Definition safe_sum_amount (l : list Amount) : option Amount := safe_sum_from (w128 0) l.

Section Structs.
  Context {C : CapConfig}.

  (** ** Asset codes (structs.rs 68-319) *)

  (** structs.rs 69, 85, 107, 234: newtypes around a scalar *)
  Definition AssetCodeSeed := F.
  Definition AssetCodeDigest := F.
  Definition InternalAssetCode := F.
  Definition AssetCode := F.

  (** structs.rs 89-93 *)
  Definition digest_from_description (description : bytes) : AssetCodeDigest :=
    rescue_sponge1 (hash_to_f description).
  (** structs.rs 120-124 *)
  Definition internal_new_internal (seed : AssetCodeSeed) (digest : AssetCodeDigest) : InternalAssetCode :=
    prf_eval seed [digest].
  (** structs.rs 114-117 *)
  Definition internal_new (seed : AssetCodeSeed) (description : bytes) : InternalAssetCode :=
    internal_new_internal seed (digest_from_description description).

  (** the byte string hashed by structs.rs 279-286 *)
  Definition domestic_preimage (internal : InternalAssetCode) : bytes :=
    DOM_SEP_DOMESTIC_ASSET ++ f_to_bytes_le internal.
  (** structs.rs 279-286 *)
  Definition new_domestic_from_internal (internal : InternalAssetCode) : AssetCode :=
    keccak_f (domestic_preimage internal).
  (** structs.rs 270-276 *)
  Definition new_domestic_from_digest (seed : AssetCodeSeed) (digest : AssetCodeDigest) : AssetCode :=
    new_domestic_from_internal (internal_new_internal seed digest).
  (** structs.rs 262-265 *)
  Definition new_domestic (seed : AssetCodeSeed) (description : bytes) : AssetCode :=
    new_domestic_from_internal (internal_new seed description).
  (** the byte string hashed by structs.rs 290-296 *)
  Definition foreign_preimage (description : bytes) : bytes := DOM_SEP_FOREIGN_ASSET ++ description.
  (** structs.rs 290-296 *)
  Definition new_foreign (description : bytes) : AssetCode := keccak_f (foreign_preimage description).
  (** structs.rs 300-309 *)
  Definition verify_domestic (code : AssetCode) (internal : InternalAssetCode) : res unit :=
    if zeqb (new_domestic_from_internal internal) code then Ok tt else Err FailedAssetCodeVerification.
  (** structs.rs 313-319 *)
  Definition verify_foreign (code : AssetCode) (description : bytes) : res unit :=
    if zeqb (new_foreign description) code then Ok tt else Err FailedAssetCodeVerification.

  (** ** RevealMap (structs.rs 321-483) *)

  (** structs.rs 327 [struct RevealMap([bool; 12])] *)
  Record RevealMap := mkRM { rm : list bool; rm_ok : (length rm =? VIEWABLE_DATA_LEN)%nat = true }.

  (** [self.0[i]] (all uses have i < 12) *)
  Definition rm_bit (m : RevealMap) (i : nat) : bool := nth i (rm m) false.

  Fixpoint upd (i : nat) (l : list bool) : list bool :=
    match l, i with
    | [], _ => []
    | _ :: t, O => true :: t
    | b :: t, S i' => b :: upd i' t
    end.
  Lemma upd_length i l : length (upd i l) = length l.
  Proof. revert i; induction l; intros [|i]; cbn; auto. Qed.
  Lemma rm_set_ok m i : (length (upd i (rm m)) =? VIEWABLE_DATA_LEN)%nat = true.
  Proof. rewrite upd_length; apply rm_ok. Qed.
  (** [self.0[i] = true] *)
  Definition rm_set (i : nat) (m : RevealMap) : RevealMap := mkRM (upd i (rm m)) (rm_set_ok m i).

  (** [derive(Default)]: all false *)
  Definition rm_default : RevealMap := mkRM (repeat false VIEWABLE_DATA_LEN) eq_refl.

  Lemma rm_ext (a b : RevealMap) : rm a = rm b -> a = b.
  Proof.
    destruct a as [x Hx], b as [y Hy]; cbn; intros ->. f_equal. apply Eqdep_dec.UIP_dec, bool_dec.
  Qed.
  Fixpoint bools_eqb (a b : list bool) : bool :=
    match a, b with
    | [], [] => true
    | x :: a', y :: b' => Bool.eqb x y && bools_eqb a' b'
    | _, _ => false
    end.
  Definition rm_eqb (a b : RevealMap) : bool := bools_eqb (rm a) (rm b).

  (** structs.rs 331-345: 8-byte little-endian length, then one byte per flag *)
  Definition rm_serialize (m : RevealMap) : bytes :=
    le_bytes 8 (Z.of_nat VIEWABLE_DATA_LEN) ++ map (fun b : bool => b8 (if b then 1 else 0)) (rm m).

  Definition flag_of_byte (b : byte) : res bool :=
    if zv b =? 0 then Ok false else if zv b =? 1 then Ok true else Err SerInvalidData.

  Definition rm_make (l : list bool) : option RevealMap :=
    match bool_dec (length l =? VIEWABLE_DATA_LEN)%nat true with left H => Some (mkRM l H) | right _ => None end.

  (** structs.rs 347-372 ([usize] is 64 bits) *)
  Definition rm_deserialize (s : bytes) : res (RevealMap * bytes) :=
    let* (len_buf, s1) := read_exact 8 s in
    let len := from_le len_buf in
    if negb (len =? Z.of_nat VIEWABLE_DATA_LEN) then Err SerInvalidData else
    let* (buf, s2) := read_exact VIEWABLE_DATA_LEN s1 in
    let* map := mapM flag_of_byte buf in
    match rm_make map with
    | Some m => Ok (m, s2)
    | None => Err SerInvalidData (* unreachable: the array has 12 entries *)
    end.

  (** structs.rs 390-393 *)
  Definition rm_reveal_user_address (m : RevealMap) : RevealMap := rm_set 1 (rm_set 0 m).
  (** structs.rs 396-398 *)
  Definition rm_is_user_address_revealed (m : RevealMap) : bool := rm_bit m 0.
  (** structs.rs 401-403 *)
  Definition rm_reveal_amount (m : RevealMap) : RevealMap := rm_set 2 m.
  (** structs.rs 406-408 *)
  Definition rm_is_amount_revealed (m : RevealMap) : bool := rm_bit m 2.
  (** structs.rs 411-413 *)
  Definition rm_reveal_blinding_factor (m : RevealMap) : RevealMap := rm_set 3 m.
  (** structs.rs 416-418 *)
  Definition rm_is_blinding_factor_revealed (m : RevealMap) : bool := rm_bit m 3.
  (** structs.rs 423-432 *)
  Definition rm_reveal_ith_id_attribute (i : nat) (m : RevealMap) : res RevealMap :=
    if (ATTRS_LEN <=? i)%nat then Err InvalidParameter else Ok (rm_set (ASSET_TRACING_MAP_LEN + i) m).
  (** structs.rs 436-444 *)
  Definition rm_is_ith_attribute_revealed (m : RevealMap) (i : nat) : res bool :=
    if (ATTRS_LEN <=? i)%nat then Err InvalidParameter else Ok (rm_bit m (ASSET_TRACING_MAP_LEN + i)).
  (** structs.rs 447-451: for i in 0..8 *)
  Definition rm_reveal_all_id_attributes (m : RevealMap) : RevealMap :=
    fold_left (fun m i => rm_set (ASSET_TRACING_MAP_LEN + i) m) (seq 0 ATTRS_LEN) m.

  (** structs.rs 454-460: fold over the flags, first flag most significant, in u64 (12 flags: no overflow) *)
  Definition bits_to_Z (l : list bool) : Z :=
    fold_left (fun acc (x : bool) => if x then acc * 2 + 1 else acc * 2) l 0.
  Definition rm_to_scalar (m : RevealMap) : F := fz (bits_to_Z (rm m)).

  (** structs.rs 469-482 *)
  Definition rm_hadamard_product (m : RevealMap) (vals : list F) : res (list F) :=
    if (length vals <=? VIEWABLE_DATA_LEN)%nat
    then Ok (map (fun bv : bool * F => if fst bv then snd bv else f0) (combine (rm m) vals))
    else Panic.

  (** ** AssetPolicy (structs.rs 500-716) *)

  (** structs.rs 500-507; viewer, credential-issuer and freezer keys are points, default = neutral point *)
  Record AssetPolicy := mkPolicy {
    viewer_pk : point;
    cred_pk : point;
    freezer_pk : point;
    reveal_map : RevealMap;
    reveal_threshold : Amount
  }.
  Definition policy_default : AssetPolicy := mkPolicy pt_id pt_id pt_id rm_default (w128 0).
  (** derived PartialEq *)
  Definition policy_eqb (a b : AssetPolicy) : bool :=
    point_eqb (viewer_pk a) (viewer_pk b) && point_eqb (cred_pk a) (cred_pk b) &&
    point_eqb (freezer_pk a) (freezer_pk b) && rm_eqb (reveal_map a) (reveal_map b) &&
    zeqb (reveal_threshold a) (reveal_threshold b).

  (** structs.rs 541-544 *)
  Definition set_reveal_map_for_test (m : RevealMap) (p : AssetPolicy) : AssetPolicy :=
    mkPolicy (viewer_pk p) (cred_pk p) (freezer_pk p) m (reveal_threshold p).
  (** structs.rs 547-550 *)
  Definition set_reveal_threshold (t : Amount) (p : AssetPolicy) : AssetPolicy :=
    mkPolicy (viewer_pk p) (cred_pk p) (freezer_pk p) (reveal_map p) t.
  (** structs.rs 553-555 *)
  Definition is_reveal_threshold_set (p : AssetPolicy) : bool := negb (zv (reveal_threshold p) =? 0).
  (** structs.rs 558-561 *)
  Definition set_viewer_pub_key (k : point) (p : AssetPolicy) : AssetPolicy :=
    mkPolicy k (cred_pk p) (freezer_pk p) (reveal_map p) (reveal_threshold p).
  (** structs.rs 564-566 *)
  Definition is_viewer_pub_key_set (p : AssetPolicy) : bool := negb (point_eqb (viewer_pk p) pt_id).
  (** structs.rs 569-572 *)
  Definition set_cred_creator_pub_key (k : point) (p : AssetPolicy) : AssetPolicy :=
    mkPolicy (viewer_pk p) k (freezer_pk p) (reveal_map p) (reveal_threshold p).
  (** structs.rs 575-577 *)
  Definition is_cred_creator_pub_key_set (p : AssetPolicy) : bool := negb (point_eqb (cred_pk p) pt_id).
  (** structs.rs 580-583 *)
  Definition set_freezer_pub_key (k : point) (p : AssetPolicy) : AssetPolicy :=
    mkPolicy (viewer_pk p) (cred_pk p) k (reveal_map p) (reveal_threshold p).
  (** structs.rs 586-588 *)
  Definition is_freezer_pub_key_set (p : AssetPolicy) : bool := negb (point_eqb (freezer_pk p) pt_id).
  (** structs.rs 593-601 *)
  Definition reveal_user_address (p : AssetPolicy) : res AssetPolicy :=
    if negb (is_viewer_pub_key_set p) then Err InvalidParameter
    else Ok (set_reveal_map_for_test (rm_reveal_user_address (reveal_map p)) p).
  (** structs.rs 611-621 *)
  Definition reveal_amount (p : AssetPolicy) : res AssetPolicy :=
    if negb (is_viewer_pub_key_set p) then Err InvalidParameter
    else Ok (set_reveal_map_for_test (rm_reveal_amount (reveal_map p)) p).
  (** structs.rs 631-641 *)
  Definition reveal_blinding_factor (p : AssetPolicy) : res AssetPolicy :=
    if negb (is_viewer_pub_key_set p) then Err InvalidParameter
    else Ok (set_reveal_map_for_test (rm_reveal_blinding_factor (reveal_map p)) p).
  (** structs.rs 652-664 *)
  Definition reveal_ith_attribute (i : nat) (p : AssetPolicy) : res AssetPolicy :=
    if negb (is_viewer_pub_key_set p) then Err InvalidParameter else
    if negb (is_cred_creator_pub_key_set p) then Err InvalidParameter else
    let* m := rm_reveal_ith_id_attribute i (reveal_map p) in
    Ok (set_reveal_map_for_test m p).
  (** structs.rs 669-681 *)
  Definition reveal_all_attributes (p : AssetPolicy) : res AssetPolicy :=
    if negb (is_viewer_pub_key_set p) then Err InvalidParameter else
    if negb (is_cred_creator_pub_key_set p) then Err InvalidParameter else
    Ok (set_reveal_map_for_test (rm_reveal_all_id_attributes (reveal_map p)) p).
  (** structs.rs 686-693 *)
  Definition reveal_record_opening (p : AssetPolicy) : res AssetPolicy :=
    let* p := reveal_user_address p in
    let* p := reveal_amount p in
    let* p := reveal_blinding_factor p in
    Ok p.
  (** structs.rs 699-705 *)
  Definition reveal_all (p : AssetPolicy) : res AssetPolicy :=
    let* p := reveal_record_opening p in
    reveal_all_attributes p.
  (** structs.rs 709-716 *)
  Definition policy_to_scalars (p : AssetPolicy) : list F :=
    [ rm_to_scalar (reveal_map p);
      fst (pt_xy (viewer_pk p)); snd (pt_xy (viewer_pk p));
      fst (pt_xy (cred_pk p)); snd (pt_xy (cred_pk p));
      fst (pt_xy (freezer_pk p)); snd (pt_xy (freezer_pk p));
      f_of_u128 (reveal_threshold p) ].

  (** ** AssetDefinition (structs.rs 732-783) *)
  Record AssetDefinition := mkDef { code : AssetCode; policy : AssetPolicy }.
  Definition asset_def_eqb (a b : AssetDefinition) : bool :=
    zeqb (code a) (code b) && policy_eqb (policy a) (policy b).
  (** structs.rs 743-751 *)
  Definition asset_def_new (c : AssetCode) (p : AssetPolicy) : res AssetDefinition :=
    if zeqb c native_asset_code || zeqb c dummy_asset_code then Err InvalidParameter else Ok (mkDef c p).
  (** structs.rs 754-759 *)
  Definition asset_def_native : AssetDefinition := mkDef native_asset_code policy_default.
  (** structs.rs 762-767 *)
  Definition asset_def_dummy : AssetDefinition := mkDef dummy_asset_code policy_default.
  (** structs.rs 770-772 *)
  Definition is_native (d : AssetDefinition) : bool := asset_def_eqb d asset_def_native.
  (** structs.rs 775-777 *)
  Definition is_dummy_def (d : AssetDefinition) : bool := asset_def_eqb d asset_def_dummy.

  (** ** FreezeFlag (structs.rs 874-941) *)
  Inductive FreezeFlag := Unfrozen | Frozen.
  (** structs.rs 885-890 *)
  Definition flip (f : FreezeFlag) : FreezeFlag := match f with Unfrozen => Frozen | Frozen => Unfrozen end.
  Definition flag_eqb (a b : FreezeFlag) : bool :=
    match a, b with Unfrozen, Unfrozen => true | Frozen, Frozen => true | _, _ => false end.
  (** structs.rs 899-906 *)
  Definition flag_u8 (f : FreezeFlag) : byte := match f with Unfrozen => b8 0 | Frozen => b8 1 end.
  (** structs.rs 908-915 *)
  Definition flag_bool (f : FreezeFlag) : bool := match f with Unfrozen => false | Frozen => true end.
  (** structs.rs 916-926 *)
  Definition flag_serialize (f : FreezeFlag) : bytes := [flag_u8 f].
  (** structs.rs 928-941 *)
  Definition flag_deserialize (s : bytes) : res (FreezeFlag * bytes) :=
    let* (buf, rest) := read_exact 1 s in
    match buf with
    | b :: _ => if zv b =? 0 then Ok (Unfrozen, rest) else if zv b =? 1 then Ok (Frozen, rest) else Err SerInvalidData
    | [] => Panic (* unreachable *)
    end.

  (** ** RecordOpening (structs.rs 955-1055) *)

  (** keys.rs 93-96 [UserPubKey] *)
  Record UserPubKey := mkUserPubKey { address : point; uenc_key : enc_key }.
  Definition user_pub_key_eqb (a b : UserPubKey) : bool :=
    point_eqb (address a) (address b) && enc_key_eqb (uenc_key a) (uenc_key b).

  Record RecordOpening := mkRO {
    amount : Amount;
    asset_def : AssetDefinition;
    pub_key : UserPubKey;
    freeze_flag : FreezeFlag;
    blind : F
  }.
  (** structs.rs 1014-1016 *)
  Definition ro_is_dummy (r : RecordOpening) : bool := is_dummy_def (asset_def r).

  (** structs.rs 1028-1047: the 12 committed scalars, in order *)
  Definition ro_scalars (r : RecordOpening) : list F :=
    let p := policy (asset_def r) in
    [ f_of_u128 (amount r);
      code (asset_def r);
      fst (pt_xy (address (pub_key r))); snd (pt_xy (address (pub_key r)));
      fst (pt_xy (viewer_pk p)); snd (pt_xy (viewer_pk p));
      fst (pt_xy (cred_pk p)); snd (pt_xy (cred_pk p));
      fst (pt_xy (freezer_pk p)); snd (pt_xy (freezer_pk p));
      fadd (fadd (rm_to_scalar (reveal_map p)) (rm_to_scalar (reveal_map p))) (fz (zv (flag_u8 (freeze_flag r))));
      f_of_u128 (reveal_threshold p) ].
  (** structs.rs 1021-1055 *)
  Definition derive_record_commitment (r : RecordOpening) : F := commit (ro_scalars r) (blind r).

  (** ** IdentityAttribute (structs.rs 1082-1145) *)
  Definition IdentityAttribute := F.

  (** [Vec::resize(n, v)] *)
  Definition resize {A} (n : nat) (v : A) (l : list A) : list A :=
    firstn n l ++ repeat v (n - length l).

  (** structs.rs 1086-1102 *)
  Definition attr_new (v : bytes) : res IdentityAttribute :=
    if (PER_ATTR_BYTE_CAPACITY <? length v)%nat || (length v =? 0)%nat then Err InvalidParameter else
    let pad_val := (SCALAR_REPR_BYTE_LEN - length v)%nat in
    let padded := resize (SCALAR_REPR_BYTE_LEN - 1) (b8 (Z.of_nat pad_val)) v in
    Ok (f_from_le_bytes_mod_order padded).

  (** structs.rs 1105-1120.  [usize] subtraction: underflow panics with overflow checks; without them it wraps
      to a value above the length and [truncate] does nothing. *)
  Definition attr_value (a : IdentityAttribute) : res bytes :=
    let padded := f_to_bytes_le a in
    match rev padded with
    | [] => Err InvalidAttribute
    | p :: _ =>
      if negb (zv p =? 0) then Err InvalidAttribute else
      let pad_len := zv (nth (length padded - 2) padded (b8 0)) in
      if pad_len <=? Z.of_nat SCALAR_REPR_BYTE_LEN
      then Ok (firstn (SCALAR_REPR_BYTE_LEN - Z.to_nat pad_len) padded)
      else if overflow_checks then Panic else Ok padded
    end.

  (** structs.rs 1142-1146 *)
  Definition attr_default_vector : list IdentityAttribute := repeat f0 ATTRS_LEN.

  (** ** ExpirableCredential (structs.rs 1151-1257) *)
  Record ExpirableCredential := mkCred {
    cr_user_addr : point;
    cr_attrs : list IdentityAttribute;
    cr_expiry : u64;
    cr_cred : Fj * point;          (* Schnorr signature, structs.rs 1067 *)
    cr_creator_pk : point
  }.

  (** structs.rs 1193-1198, 1226-1230: msg := (expiry || upk || attrs) *)
  Definition cred_msg (expiry : u64) (user_addr : point) (attrs : list IdentityAttribute) : list F :=
    [f_of_u64 expiry; fst (pt_xy user_addr); snd (pt_xy user_addr)] ++ attrs.

  (** structs.rs 1179-1208; the issuer's key pair is its secret scalar (keys.rs 292-315) *)
  Definition cred_create (user_addr : point) (attrs : list IdentityAttribute) (expiry : u64) (issuer_sk : Fj)
    : res ExpirableCredential :=
    if negb (length attrs =? ATTRS_LEN)%nat then Err FailedCredentialCreation else
    Ok (mkCred user_addr attrs expiry (sig_sign issuer_sk (cred_msg expiry user_addr attrs))
               (pt_mul (zv issuer_sk) pt_gen)).
  (** structs.rs 1211-1213 *)
  Definition cred_is_expired (c : ExpirableCredential) (now : u64) : bool := zv (cr_expiry c) <? zv now.
  (** structs.rs 1219-1233 with keys.rs 258-274 *)
  Definition cred_verify (c : ExpirableCredential) (now : u64) : res unit :=
    if cred_is_expired c now then Err FailedCredentialVerification else
    if sig_ok (cr_creator_pk c) (cred_msg (cr_expiry c) (cr_user_addr c) (cr_attrs c)) (cr_cred c)
    then Ok tt else Err FailedCredentialVerification.
  (** structs.rs 1236-1248; default key pairs have secret 0 and the neutral point *)
  Definition cred_dummy_unexpired : res ExpirableCredential :=
    map_err (cred_create pt_id attr_default_vector (w64 (2 ^ Z.of_nat MAX_TIMESTAMP_LEN - 1)) (sz 0)) InternalError.

  (** ** Membership witnesses (external jf_primitives::merkle_tree, used at structs.rs 1662) *)
  Inductive NodePos := PLeft | PMiddle | PRight.
  Record MerklePathNode := mkNode { n_pos : NodePos; n_sib1 : F; n_sib2 : F }.
  Record AccMemberWitness := mkAcc { acc_uid : u64; acc_path : list MerklePathNode; acc_root : F }.

  (** ternary Merkle tree: leaf hash over (0, uid, element), then one hash per level *)
  Definition node_hash (cur : F) (n : MerklePathNode) : F :=
    match n_pos n with
    | PLeft => rescue3 cur (n_sib1 n) (n_sib2 n)
    | PMiddle => rescue3 (n_sib1 n) cur (n_sib2 n)
    | PRight => rescue3 (n_sib1 n) (n_sib2 n) cur
    end.
  Definition merkle_leaf (uid elem : F) : F := rescue3 f0 uid elem.
  Definition merkle_root_of (uid elem : F) (path : list MerklePathNode) : F :=
    fold_left node_hash path (merkle_leaf uid elem).
End Structs.
