(** Property theorems: values, codecs, policies, codes, commitments (C01, C02, C04-C12, C14).
    Every theorem is closed by a lemma proved elsewhere; examples show the hypotheses are met by concrete values. *)
From Coq Require Strings.String Strings.Ascii.
From Verif Require Import Base Config Structs Keys Utils Memo Toy Samples CodecProofs PolicyProofs.
Import String.StringSyntax.
Delimit Scope string_scope with string.

(** ** C01: Amount byte encoding *)
Theorem C01_amount_bytes :
  (forall a, length (amount_serialize a) = 16%nat) /\
  (forall a rest, amount_deserialize (amount_serialize a ++ rest) = Ok (a, rest)) /\
  (forall s a rest, amount_deserialize s = Ok (a, rest) -> s = amount_serialize a ++ rest) /\
  (forall s, (16 <= length s)%nat -> exists a rest, amount_deserialize s = Ok (a, rest)) /\
  (forall s, (length s < 16)%nat -> amount_deserialize s = Err SerIoError).
Proof. exact amount_codec. Qed.
Print Assumptions C01_amount_bytes.
(** the encoding is the little-endian one: 258 = 2 + 1 * 256 *)
Example C01_example : map zv (amount_serialize (w128 258)) = [2; 1; 0; 0; 0; 0; 0; 0; 0; 0; 0; 0; 0; 0; 0; 0].
Proof. reflexivity. Qed.

(** ** C02: Amount and 256-bit integers *)
Theorem C02_amount_u256 :
  (forall a, zv (u256_of_amount a) = zv a) /\
  (forall v a, amount_try_from_u256 v = Ok a <-> zv v = zv a) /\
  (forall v, zv v < 2 ^ 128 -> exists a, amount_try_from_u256 v = Ok a) /\
  (forall v, 2 ^ 128 <= zv v -> amount_try_from_u256 v = Err InvalidParameter).
Proof. exact amount_u256. Qed.
Print Assumptions C02_amount_u256.
Example C02_example : zv (w256 (2 ^ 128)) = 2 ^ 128 /\ amount_try_from_u256 (w256 (2 ^ 128)) = Err InvalidParameter.
Proof. split; reflexivity. Qed.

(** ** C04: RevealMap byte encoding *)
Theorem C04_reveal_map_bytes :
  (forall m, length (rm_serialize m) = 20%nat) /\
  (forall m rest, rm_deserialize (rm_serialize m ++ rest) = Ok (m, rest)) /\
  (forall s m rest, rm_deserialize s = Ok (m, rest) -> s = rm_serialize m ++ rest).
Proof. exact rm_codec. Qed.
Print Assumptions C04_reveal_map_bytes.
Example C04_example : map zv (rm_serialize (rm_set 2 rm_default)) =
  [12; 0; 0; 0; 0; 0; 0; 0; 0; 0; 1; 0; 0; 0; 0; 0; 0; 0; 0; 0].
Proof. reflexivity. Qed.

(** ** C05: RevealMap as a scalar: 12 bits, injective, flag i is bit 11 - i *)
Theorem C05_reveal_map_scalar (C : CapConfig) :
  (forall m, 0 <= zv (rm_to_scalar m) < 2 ^ 12) /\
  (forall m m', rm_to_scalar m = rm_to_scalar m' -> m = m') /\
  (forall m i, (i < 12)%nat -> Z.testbit (zv (rm_to_scalar m)) (Z.of_nat (11 - i)) = rm_bit m i).
Proof. exact rm_scalar_spec. Qed.
Print Assumptions C05_reveal_map_scalar.
Example C05_example : zv (@rm_to_scalar (toy true) (rm_set 2 rm_default)) = 2 ^ 9.
Proof. reflexivity. Qed.

(** ** C06: policy builder *)
(** one reveal call: accepted exactly when the keys it needs are set and the index is in range; sets exactly the flags
    it names and nothing else *)
Theorem C06_reveal_call (C : CapConfig) (L : CapLaws C) op p : needs_viewer op = true ->
  if is_viewer_pub_key_set p && (negb (needs_cred op) || is_cred_creator_pub_key_set p) && index_ok op then
    exists p', builder_call op p = Ok p' /\
      viewer_pk p' = viewer_pk p /\ cred_pk p' = cred_pk p /\ freezer_pk p' = freezer_pk p /\
      reveal_threshold p' = reveal_threshold p /\
      forall i, rm_bit (reveal_map p') i = selects op i || rm_bit (reveal_map p) i
  else builder_call op p = Err InvalidParameter.
Proof. exact (reveal_call_exact op p). Qed.
Print Assumptions C06_reveal_call.
(** every sequence of builder calls with non-default keys: no revealed field without a viewer key, no revealed
    attribute without an issuer key, the two address flags agree *)
Theorem C06_builder_invariant (C : CapConfig) (L : CapLaws C) ops :
  Forall real_key ops ->
  let p := builder_run ops in
  (forall i, rm_bit (reveal_map p) i = true -> viewer_pk p <> pt_id) /\
  (forall i, (4 <= i)%nat -> rm_bit (reveal_map p) i = true -> cred_pk p <> pt_id) /\
  rm_bit (reveal_map p) 0 = rm_bit (reveal_map p) 1.
Proof. exact (builder_inv_run L ops). Qed.
Print Assumptions C06_builder_invariant.
(** the keys and the threshold of the policy are those of the last call that set them *)
Theorem C06_last_set (C : CapConfig) (L : CapLaws C) (before after : list builder_op) :
  (forall k, (forall k', ~ In (SetViewer k') after) -> viewer_pk (builder_run (before ++ SetViewer k :: after)) = k) /\
  (forall k, (forall k', ~ In (SetCred k') after) -> cred_pk (builder_run (before ++ SetCred k :: after)) = k) /\
  (forall k, (forall k', ~ In (SetFreezer k') after) -> freezer_pk (builder_run (before ++ SetFreezer k :: after)) = k) /\
  (forall t, (forall t', ~ In (SetThreshold t') after) -> reveal_threshold (builder_run (before ++ SetThreshold t :: after)) = t) /\
  ((forall k', ~ In (SetViewer k') after) -> viewer_pk (builder_run after) = pt_id) /\
  ((forall k', ~ In (SetCred k') after) -> cred_pk (builder_run after) = pt_id) /\
  ((forall k', ~ In (SetFreezer k') after) -> freezer_pk (builder_run after) = pt_id) /\
  ((forall t', ~ In (SetThreshold t') after) -> zv (reveal_threshold (builder_run after)) = 0).
Proof.
  assert (R : forall op p, needs_viewer op = true -> let q := builder_step p op in
    viewer_pk q = viewer_pk p /\ cred_pk q = cred_pk p /\ freezer_pk q = freezer_pk p /\ reveal_threshold q = reveal_threshold p).
  { intros op p Hn. pose proof (reveal_call_exact op p Hn) as H. unfold builder_step.
    destruct (is_viewer_pub_key_set p && (negb (needs_cred op) || is_cred_creator_pub_key_set p) && index_ok op).
    - destruct H as (p' & -> & H1 & H2 & H3 & H4 & _). cbn. auto.
    - rewrite H. cbn. auto. }
  assert (K : forall ops p,
    ((forall k', ~ In (SetViewer k') ops) -> viewer_pk (fold_left builder_step ops p) = viewer_pk p) /\
    ((forall k', ~ In (SetCred k') ops) -> cred_pk (fold_left builder_step ops p) = cred_pk p) /\
    ((forall k', ~ In (SetFreezer k') ops) -> freezer_pk (fold_left builder_step ops p) = freezer_pk p) /\
    ((forall k', ~ In (SetThreshold k') ops) -> reveal_threshold (fold_left builder_step ops p) = reveal_threshold p)).
  { induction ops as [|op ops IH]; intros p; cbn [fold_left]; [conjs; auto|].
    destruct (IH (builder_step p op)) as (I1 & I2 & I3 & I4).
    assert (S : needs_viewer op = true -> viewer_pk (builder_step p op) = viewer_pk p /\ cred_pk (builder_step p op) = cred_pk p /\
      freezer_pk (builder_step p op) = freezer_pk p /\ reveal_threshold (builder_step p op) = reveal_threshold p) by apply R.
    conjs; intros HN; [rewrite I1|rewrite I2|rewrite I3|rewrite I4]; try (intros k' Hk; exact (HN k' (or_intror Hk)));
      (destruct op; try reflexivity; try (exfalso; exact (HN _ (or_introl eq_refl))); destruct (S eq_refl) as (E1 & E2 & E3 & E4); assumption). }
  unfold builder_run. conjs; intros; rewrite ?fold_left_app; cbn [fold_left];
    match goal with |- context [fold_left builder_step after ?p] => destruct (K after p) as (K1 & K2 & K3 & K4) end;
    first [rewrite K1 by assumption | rewrite K2 by assumption | rewrite K3 by assumption | rewrite K4 by assumption]; reflexivity.
Qed.
Print Assumptions C06_last_set.
(** the four queries say whether the field differs from the default *)
Theorem C06_queries (C : CapConfig) (L : CapLaws C) p :
  (is_viewer_pub_key_set p = true <-> viewer_pk p <> pt_id) /\ (is_cred_creator_pub_key_set p = true <-> cred_pk p <> pt_id) /\
  (is_freezer_pub_key_set p = true <-> freezer_pk p <> pt_id) /\ (is_reveal_threshold_set p = true <-> zv (reveal_threshold p) <> 0).
Proof.
  unfold is_viewer_pub_key_set, is_cred_creator_pub_key_set, is_freezer_pub_key_set, is_reveal_threshold_set.
  conjs; rewrite negb_true_iff; [| | |rewrite Z.eqb_neq; tauto];
    (match goal with |- point_eqb ?a ?b = false <-> _ => pose proof (point_eqb_spec L a b) as E; destruct (point_eqb a b) end;
     [split; [discriminate|intros N; destruct N; apply E; reflexivity]|split; [intros _ N; apply E in N; discriminate N|reflexivity]]).
Qed.
Print Assumptions C06_queries.
Example C06_example :
  let ops := [@RevealAmount (toy true); @SetViewer (toy true) (tpz 5); RevealAmount; RevealAllAttrs; @SetCred (toy true) (tpz 6); RevealAttr 3; RevealAttr 8] in
  Forall (@real_key (toy true)) ops /\
  rm (reveal_map (@builder_run (toy true) ops)) =
    [false; false; true; false; false; false; false; true; false; false; false; false].
Proof.
  split; [|reflexivity]. repeat constructor; cbn; intros H; apply (f_equal zv) in H; discriminate H.
Qed.
(** with the default key allowed as an argument the invariant fails *)
Theorem C06_builder_invariant_default_key_refuted :
  exists (C : CapConfig) (L : CapLaws C) ops i,
    rm_bit (reveal_map (builder_run ops)) i = true /\ viewer_pk (builder_run ops) = pt_id.
Proof.
  exists (toy true), (toy_laws true), [@SetViewer (toy true) (tpz 1); RevealAmount; @SetViewer (toy true) (tpz 0)], 2%nat.
  split; reflexivity.
Qed.
Print Assumptions C06_builder_invariant_default_key_refuted.

(** ** C07: asset definitions *)
Theorem C07_asset_definition (C : CapConfig) (L : CapLaws C) :
  (forall c p, asset_def_new c p = Err InvalidParameter <-> c = native_asset_code \/ c = dummy_asset_code) /\
  (forall c p d, asset_def_new c p = Ok d ->
     code d = c /\ policy d = p /\ is_native d = false /\ is_dummy_def d = false) /\
  (forall c p, c <> native_asset_code -> c <> dummy_asset_code -> exists d, asset_def_new c p = Ok d) /\
  is_native asset_def_native = true /\ is_dummy_def asset_def_dummy = true /\
  is_native asset_def_dummy = false /\ is_dummy_def asset_def_native = false.
Proof. exact (asset_definition_new_spec L). Qed.
Print Assumptions C07_asset_definition.
Example C07_example : is_ok (@asset_def_new (toy true) (fz 3) (s_policy true)) = true /\
  zeqb (@native_asset_code toy_field) (fz 1) = true /\ zeqb (@dummy_asset_code toy_field) (fz 2) = true.
Proof. repeat split. Qed.

(** ** C08: FreezeFlag *)
Theorem C08_freeze_flag :
  (forall f, flip (flip f) = f) /\
  (forall f, flip f <> f) /\
  (forall f rest, flag_deserialize (flag_serialize f ++ rest) = Ok (f, rest)) /\
  (forall s f rest, flag_deserialize s = Ok (f, rest) -> s = flag_serialize f ++ rest) /\
  (forall (b : byte) s, zv b <> 0 -> zv b <> 1 -> flag_deserialize (b :: s) = Err SerInvalidData) /\
  flag_deserialize [] = Err SerIoError.
Proof. exact freeze_flag_codec. Qed.
Print Assumptions C08_freeze_flag.
Example C08_example : map zv (flag_serialize Frozen) = [1] /\ map zv (flag_serialize Unfrozen) = [0].
Proof. split; reflexivity. Qed.

(** ** C09: identity attributes *)
Theorem C09_identity_attribute (C : CapConfig) :
  (forall v, (exists a, attr_new v = Ok a) <-> (1 <= length v <= 30)%nat) /\
  (forall v, ~ (1 <= length v <= 30)%nat -> attr_new v = Err InvalidParameter) /\
  (forall v a, attr_new v = Ok a -> attr_value a = Ok v) /\
  (forall v v' a, attr_new v = Ok a -> attr_new v' = Ok a -> v = v').
Proof. exact attr_codec. Qed.
Print Assumptions C09_identity_attribute.
Example C09_example : exists a, @attr_new (toy true) (map b8 [1; 2; 3; 4]) = Ok a.
Proof. eexists; reflexivity. Qed.
(** exactly which attribute scalars make [value] panic *)
Theorem C09_value_panics_iff (C : CapConfig) (a : F) :
  attr_value a = Panic <-> overflow_checks = true /\ zv a < 2 ^ 248 /\ 32 < zv a / 2 ^ 240.
Proof. exact (attr_value_panic a). Qed.
Print Assumptions C09_value_panics_iff.
Theorem C09_value_total_refuted : exists (C : CapConfig) (L : CapLaws C) (a : F), attr_value a = Panic.
Proof. exists (toy true), (toy_laws true), (fz (33 * 2 ^ 240)). apply attr_value_panic. repeat split. Qed.
Print Assumptions C09_value_total_refuted.

(** ** C10: credentials *)
(** what the issuer signs: the expiry, the user's address and the attributes *)
Definition signed_data {C : CapConfig} (c : ExpirableCredential) : list F :=
  f_of_u64 (cr_expiry c) :: fst (pt_xy (cr_user_addr c)) :: snd (pt_xy (cr_user_addr c)) :: cr_attrs c.
Theorem C10_credential (C : CapConfig) (L : CapLaws C) :
  (forall addr attrs expiry sk, length attrs = 8%nat ->
     exists c, cred_create addr attrs expiry sk = Ok c /\
       cr_user_addr c = addr /\ cr_attrs c = attrs /\ cr_expiry c = expiry /\ cr_creator_pk c = ver_key sk /\
       forall now, (zv now <= zv expiry -> cred_verify c now = Ok tt) /\
                   (zv expiry < zv now -> cred_verify c now = Err FailedCredentialVerification)) /\
  (forall addr attrs expiry sk, length attrs <> 8%nat ->
     cred_create addr attrs expiry sk = Err FailedCredentialCreation) /\
  (forall c now, cred_verify c now = Ok tt <->
     zv now <= zv (cr_expiry c) /\ sig_ok (cr_creator_pk c) (signed_data c) (cr_cred c) = true) /\
  (forall c c' now now', cred_verify c now = Ok tt -> cred_verify c' now' = Ok tt ->
     cr_cred c' = cr_cred c -> cr_creator_pk c' = cr_creator_pk c ->
     (cr_expiry c', cr_user_addr c', cr_attrs c') <> (cr_expiry c, cr_user_addr c, cr_attrs c) ->
     (* one signature for two different messages *)
     signed_data c <> signed_data c' /\ sig_ok (cr_creator_pk c) (signed_data c) (cr_cred c) = true /\
     sig_ok (cr_creator_pk c) (signed_data c') (cr_cred c) = true).
Proof. exact (credential_spec L). Qed.
Print Assumptions C10_credential.
Example C10_example : @cred_verify (toy true) (s_cred true 5 6 100) (w64 100) = Ok tt /\
  @cred_verify (toy true) (s_cred true 5 6 100) (w64 101) = Err FailedCredentialVerification.
Proof. split; vm_compute; reflexivity. Qed.

(** ** C11: asset codes *)
Definition text (s : String.string) : bytes := map (fun c => b8 (Z.of_nat (Ascii.nat_of_ascii c))) (String.list_ascii_of_string s).
Definition domestic_string {C : CapConfig} (i : F) : bytes := text "DOMESTIC_ASSET"%string ++ le_bytes 32 (zv i).
Definition foreign_string (d : bytes) : bytes := text "FOREIGN_ASSET"%string ++ d.
Theorem C11_asset_code (C : CapConfig) :
  (forall c i, verify_domestic c i = Ok tt <-> c = new_domestic_from_internal i) /\
  (forall c i, verify_domestic c i <> Ok tt -> verify_domestic c i = Err FailedAssetCodeVerification) /\
  (forall c d, verify_foreign c d = Ok tt <-> c = new_foreign d) /\
  (forall c d, verify_foreign c d <> Ok tt -> verify_foreign c d = Err FailedAssetCodeVerification) /\
  (forall seed d, verify_domestic (new_domestic seed d) (internal_new seed d) = Ok tt) /\
  (forall seed d, new_domestic seed d = new_domestic_from_digest seed (digest_from_description d)) /\
  (* codes are hashes of byte strings that are different for different internal codes, for different descriptions, and
     for an internal code and a description: equal codes are collisions of the hash on these two strings *)
  (forall i, new_domestic_from_internal i = keccak_f (domestic_string i)) /\
  (forall d, new_foreign d = keccak_f (foreign_string d)) /\
  (forall i d, domestic_string i <> foreign_string d) /\
  (forall i j, domestic_string i = domestic_string j -> i = j) /\
  (forall d e, foreign_string d = foreign_string e -> d = e).
Proof. exact asset_code_spec. Qed.
Print Assumptions C11_asset_code.
(** the seed is the key of the pseudorandom function and the digest of the description its input: a code can be checked
    against the internal code without revealing the seed *)
Theorem C11_derivation (C : CapConfig) seed (description : bytes) :
  internal_new seed description = prf_eval seed [rescue_sponge1 (hash_to_f description)] /\
  new_domestic seed description = keccak_f (domestic_string (prf_eval seed [rescue_sponge1 (hash_to_f description)])).
Proof. split; reflexivity. Qed.
Print Assumptions C11_derivation.
Example C11_example : @verify_domestic (toy true) (@new_domestic (toy true) (fz 9) (map b8 [65])) (fz 1) = Err FailedAssetCodeVerification.
Proof. vm_compute; reflexivity. Qed.

(** ** C12: record commitments *)
(** the committed message; the reveal map and the flag share one scalar *)
Definition committed {C : CapConfig} (r : RecordOpening) : list F :=
  let p := policy (asset_def r) in let xy P := [fst (pt_xy P); snd (pt_xy P)] in
  [f_of_u128 (amount r); code (asset_def r)] ++ xy (address (pub_key r)) ++ xy (viewer_pk p) ++ xy (cred_pk p) ++ xy (freezer_pk p) ++
  [fz (2 * zv (rm_to_scalar (reveal_map p)) + match freeze_flag r with Frozen => 1 | Unfrozen => 0 end); f_of_u128 (reveal_threshold p)].
(** the message determines everything but the encryption key, so equal commitments of different records are a collision
    of the commitment function on these two messages *)
Theorem C12_commitment_binding (C : CapConfig) (L : CapLaws C) :
  (forall r, derive_record_commitment r = commit (committed r) (blind r) /\ length (committed r) = 12%nat) /\
  (forall a b, committed a = committed b -> amount a = amount b /\ asset_def a = asset_def b /\
     address (pub_key a) = address (pub_key b) /\ freeze_flag a = freeze_flag b).
Proof.
  assert (E : forall r, committed r = ro_scalars r).
  { intros r. unfold committed, ro_scalars. cbn [app]. do 10 f_equal. f_equal. apply packed_scalar. }
  split.
  - intros r. split; [|reflexivity]. rewrite E. reflexivity.
  - intros a b H. rewrite !E in H. apply (ro_scalars_inj L) in H. destruct H as (H1 & H2 & H3 & H4). auto.
Qed.
Print Assumptions C12_commitment_binding.
(** the encryption key is not committed *)
Theorem C12_commitment_binds_enc_key_refuted :
  exists (C : CapConfig) (L : CapLaws C) (a b : RecordOpening),
    uenc_key (pub_key a) <> uenc_key (pub_key b) /\ derive_record_commitment a = derive_record_commitment b.
Proof.
  exists (toy true), (toy_laws true), (@mkRO (toy true) (w128 5) (s_def true) (@mkUserPubKey (toy true) (tpz 4) 1) Unfrozen f1),
    (@mkRO (toy true) (w128 5) (s_def true) (@mkUserPubKey (toy true) (tpz 4) 2) Unfrozen f1).
  split; [cbn; discriminate|]. apply (commitment_ignores_enc_key (toy_laws true)); [repeat split|reflexivity].
Qed.
Print Assumptions C12_commitment_binds_enc_key_refuted.
(** the concrete case: two records that differ have different commitments in the toy instance *)
Example C12_example :
  zeqb (@derive_record_commitment (toy true) (s_ro true 5 (s_def true) 4 Unfrozen 1))
       (@derive_record_commitment (toy true) (s_ro true 5 (s_def true) 4 Frozen 1)) = false.
Proof. vm_compute; reflexivity. Qed.

(** ** C14: the owner and the freezer compute the same nullifier *)
Theorem C14_owner_freezer_nullifier (C : CapConfig) (L : CapLaws C) (kp : UserKeyPair) (fk : FreezerKeyPair) uid rc :
  freezer_pub_key fk <> pt_id ->
  user_nullify kp (freezer_pub_key fk) uid rc = freezer_nullify fk (user_address kp) uid rc.
Proof. exact (owner_freezer_same_nullifier L kp fk uid rc). Qed.
Print Assumptions C14_owner_freezer_nullifier.
(** a nullifier is the keyed function of the position and the commitment, so equal nullifiers for different positions or
    commitments are a collision of the keyed function on these two messages *)
Theorem C14_nullifier_binds (C : CapConfig) :
  (forall kp fpk, exists k, forall uid rc, user_nullify kp fpk uid rc = prf_eval k [f_of_u64 uid; rc]) /\
  (forall fk addr, exists k, forall uid rc, freezer_nullify fk addr uid rc = prf_eval k [f_of_u64 uid; rc]) /\
  (forall (uid uid' : u64) (rc rc' : F), [f_of_u64 uid; rc] = [f_of_u64 uid'; rc'] -> uid = uid' /\ rc = rc').
Proof. exact nullifier_binds. Qed.
Print Assumptions C14_nullifier_binds.
Example C14_example : @freezer_pub_key (toy true) (sz 11) <> @pt_id (toy true) /\
  zeqb (@user_nullify (toy true) (s_user true 3) (@freezer_pub_key (toy true) (sz 11)) (w64 1) (fz 8))
       (@user_nullify (toy true) (s_user true 3) (@freezer_pub_key (toy true) (sz 12)) (w64 1) (fz 8)) = false.
Proof. split; [intros H; apply (f_equal zv) in H; discriminate H|vm_compute; reflexivity]. Qed.
