(** Proofs about policies, asset definitions, credentials, asset codes, commitments and nullifiers
    (properties C06, C07, C10, C11, C12, C14). *)
From Coq Require Import ZifyBool ZifyNat.
From Verif Require Import Base Config Structs Keys CodecProofs.

Section P.
  Context {C : CapConfig}.

  (** ** Bits of a reveal map *)
  Lemma upd_nth j l i : (j < length l)%nat -> nth i (upd j l) false = (i =? j)%nat || nth i l false.
  Proof.
    revert j i; induction l as [|b l IH]; intros j i Hj; [cbn in Hj; lia|].
    destruct j as [|j]; destruct i as [|i]; cbn [upd nth]; auto.
    rewrite IH by (cbn in Hj; lia). f_equal.
  Qed.
  Lemma rm_bit_set j m i : (j < 12)%nat -> rm_bit (rm_set j m) i = (i =? j)%nat || rm_bit m i.
  Proof. intros H. unfold rm_bit, rm_set; cbn [rm]. apply upd_nth. rewrite rm_length; exact H. Qed.
  Lemma rm_bit_default i : rm_bit rm_default i = false.
  Proof. unfold rm_bit, rm_default; cbn [rm]. do 13 (destruct i as [|i]; [reflexivity|]). destruct i; reflexivity. Qed.
  Lemma rm_bit_over m i : (12 <= i)%nat -> rm_bit m i = false.
  Proof. intros H. unfold rm_bit. apply nth_overflow. rewrite rm_length; exact H. Qed.

  Lemma rm_bit_all_attrs m i : rm_bit (rm_reveal_all_id_attributes m) i = ((4 <=? i)%nat && (i <? 12)%nat) || rm_bit m i.
  Proof.
    unfold rm_reveal_all_id_attributes, ATTRS_LEN, ASSET_TRACING_MAP_LEN. cbn [seq fold_left Nat.add].
    rewrite !rm_bit_set by lia.
    do 12 (destruct i as [|i]; [cbn; rewrite ?orb_true_r; reflexivity|]).
    rewrite !rm_bit_over by lia. cbn. destruct i; reflexivity.
  Qed.

  (** ** Policy builder *)
  Inductive builder_op :=
  | SetThreshold (t : Amount) | SetViewer (k : point) | SetCred (k : point) | SetFreezer (k : point)
  | RevealAddress | RevealAmount | RevealBlind | RevealAttr (i : nat) | RevealAllAttrs
  | RevealRecordOpening | RevealAll.

  Definition builder_call (op : builder_op) (p : AssetPolicy) : res AssetPolicy :=
    match op with
    | SetThreshold t => Ok (set_reveal_threshold t p)
    | SetViewer k => Ok (set_viewer_pub_key k p)
    | SetCred k => Ok (set_cred_creator_pub_key k p)
    | SetFreezer k => Ok (set_freezer_pub_key k p)
    | RevealAddress => reveal_user_address p
    | RevealAmount => reveal_amount p
    | RevealBlind => reveal_blinding_factor p
    | RevealAttr i => reveal_ith_attribute i p
    | RevealAllAttrs => reveal_all_attributes p
    | RevealRecordOpening => reveal_record_opening p
    | RevealAll => reveal_all p
    end.
  (** A caller keeps the policy it had when a call fails. *)
  Definition builder_step (p : AssetPolicy) (op : builder_op) : AssetPolicy :=
    match builder_call op p with Ok p' => p' | _ => p end.
  Definition builder_run (ops : list builder_op) : AssetPolicy := fold_left builder_step ops policy_default.

  (** the call passes a key other than the default one *)
  Definition real_key (op : builder_op) : Prop :=
    match op with SetViewer k => k <> pt_id | SetCred k => k <> pt_id | SetFreezer k => k <> pt_id | _ => True end.

  (** which flags a reveal call selects (specification) *)
  Definition selects (op : builder_op) (i : nat) : bool :=
    match op with
    | RevealAddress => (i <? 2)%nat
    | RevealAmount => (i =? 2)%nat
    | RevealBlind => (i =? 3)%nat
    | RevealAttr j => (i =? 4 + j)%nat
    | RevealAllAttrs => (4 <=? i)%nat && (i <? 12)%nat
    | RevealRecordOpening => (i <? 4)%nat
    | RevealAll => (i <? 12)%nat
    | _ => false
    end.
  (** whether the call needs a viewer key, an issuer key (specification) *)
  Definition needs_viewer (op : builder_op) : bool :=
    match op with SetThreshold _ | SetViewer _ | SetCred _ | SetFreezer _ => false | _ => true end.
  Definition needs_cred (op : builder_op) : bool :=
    match op with RevealAttr _ | RevealAllAttrs | RevealAll => true | _ => false end.
  Definition index_ok (op : builder_op) : bool := match op with RevealAttr i => (i <? 8)%nat | _ => true end.

  Context (L : CapLaws C).

  Lemma viewer_set_iff p : is_viewer_pub_key_set p = true <-> viewer_pk p <> pt_id.
  Proof. unfold is_viewer_pub_key_set. rewrite negb_true_iff. apply (point_eqb_neq L). Qed.
  Lemma cred_set_iff p : is_cred_creator_pub_key_set p = true <-> cred_pk p <> pt_id.
  Proof. unfold is_cred_creator_pub_key_set. rewrite negb_true_iff. apply (point_eqb_neq L). Qed.

  Definition set_map (m : RevealMap) (p : AssetPolicy) := set_reveal_map_for_test m p.

  (** Exact outcome of a reveal call. *)
  Lemma reveal_call_exact op p : needs_viewer op = true ->
    if is_viewer_pub_key_set p && (negb (needs_cred op) || is_cred_creator_pub_key_set p) && index_ok op then
      exists p', builder_call op p = Ok p' /\
        viewer_pk p' = viewer_pk p /\ cred_pk p' = cred_pk p /\ freezer_pk p' = freezer_pk p /\
        reveal_threshold p' = reveal_threshold p /\
        forall i, rm_bit (reveal_map p') i = selects op i || rm_bit (reveal_map p) i
    else builder_call op p = Err InvalidParameter.
  Proof.
    assert (Hattr : forall j, (j < 8)%nat -> (ATTRS_LEN <=? j)%nat = false) by (intros; apply Nat.leb_gt; exact H).
    destruct op as [| | | | | | |j| | |]; cbn [needs_viewer needs_cred index_ok negb orb andb builder_call]; intros E; try discriminate E;
      unfold reveal_user_address, reveal_amount, reveal_blinding_factor, reveal_ith_attribute, reveal_all_attributes,
        reveal_record_opening, reveal_all, rm_reveal_ith_id_attribute.
    - destruct (is_viewer_pub_key_set p) eqn:V; cbn [negb andb]; [|reflexivity].
      eexists; conjs; try reflexivity. intros i. cbn [set_reveal_map_for_test reveal_map selects].
      unfold rm_reveal_user_address. rewrite !rm_bit_set by lia.
      do 2 (destruct i as [|i]; [reflexivity|]). reflexivity.
    - destruct (is_viewer_pub_key_set p) eqn:V; cbn [negb andb]; [|reflexivity].
      eexists; conjs; try reflexivity. intros i. cbn [set_reveal_map_for_test reveal_map selects].
      unfold rm_reveal_amount. rewrite !rm_bit_set by lia. reflexivity.
    - destruct (is_viewer_pub_key_set p) eqn:V; cbn [negb andb]; [|reflexivity].
      eexists; conjs; try reflexivity. intros i. cbn [set_reveal_map_for_test reveal_map selects].
      unfold rm_reveal_blinding_factor. rewrite !rm_bit_set by lia. reflexivity.
    - destruct (is_viewer_pub_key_set p) eqn:V; cbn [negb andb]; [|reflexivity].
      destruct (is_cred_creator_pub_key_set p) eqn:Cr; cbn [negb andb]; [|reflexivity].
      destruct (Nat.ltb_spec j 8) as [Hj|Hj].
      + rewrite Hattr by exact Hj. cbn [bind]. eexists; conjs; try reflexivity. intros i.
        cbn [set_reveal_map_for_test reveal_map selects]. rewrite rm_bit_set by (unfold ASSET_TRACING_MAP_LEN; lia). reflexivity.
      + destruct (Nat.leb_spec ATTRS_LEN j) as [_|H]; [reflexivity|unfold ATTRS_LEN in H; lia].
    - destruct (is_viewer_pub_key_set p) eqn:V; cbn [negb andb]; [|reflexivity].
      destruct (is_cred_creator_pub_key_set p) eqn:Cr; cbn [negb andb]; [|reflexivity].
      eexists; conjs; try reflexivity. intros i. cbn [set_reveal_map_for_test reveal_map selects]. apply rm_bit_all_attrs.
    - unfold reveal_user_address, reveal_amount, reveal_blinding_factor.
      destruct (is_viewer_pub_key_set p) eqn:V; cbn [negb andb]; [|reflexivity].
      cbn [bind]. unfold is_viewer_pub_key_set in *.
      do 5 (cbn [set_reveal_map_for_test bind viewer_pk negb]; rewrite ?V). cbn [negb bind].
      eexists; conjs; try reflexivity. intros i. cbn [set_reveal_map_for_test reveal_map selects].
      unfold rm_reveal_user_address, rm_reveal_amount, rm_reveal_blinding_factor. rewrite !rm_bit_set by lia.
      do 4 (destruct i as [|i]; [reflexivity|]). reflexivity.
    - unfold reveal_record_opening, reveal_user_address, reveal_amount, reveal_blinding_factor, reveal_all_attributes.
      destruct (is_viewer_pub_key_set p) eqn:V; cbn [negb andb]; [|reflexivity].
      cbn [bind]. unfold is_viewer_pub_key_set, is_cred_creator_pub_key_set in *.
      do 5 (cbn [set_reveal_map_for_test bind viewer_pk cred_pk negb]; rewrite ?V).
      destruct (point_eqb (cred_pk p) pt_id) eqn:Cr; cbn [negb]; [reflexivity|].
      eexists; conjs; try reflexivity. intros i. cbn [set_reveal_map_for_test reveal_map selects].
      rewrite rm_bit_all_attrs.
      unfold rm_reveal_user_address, rm_reveal_amount, rm_reveal_blinding_factor. rewrite !rm_bit_set by lia.
      do 12 (destruct i as [|i]; [reflexivity|]). reflexivity.
  Qed.

  Definition builder_inv (p : AssetPolicy) : Prop :=
    (forall i, rm_bit (reveal_map p) i = true -> viewer_pk p <> pt_id) /\
    (forall i, (4 <= i)%nat -> rm_bit (reveal_map p) i = true -> cred_pk p <> pt_id) /\
    rm_bit (reveal_map p) 0 = rm_bit (reveal_map p) 1.

  Lemma builder_inv_default : builder_inv policy_default.
  Proof.
    unfold builder_inv; conjs; cbn [policy_default reveal_map]; intros; try (rewrite rm_bit_default in *; discriminate).
    reflexivity.
  Qed.

  Lemma builder_inv_step p op : real_key op -> builder_inv p -> builder_inv (builder_step p op).
  Proof.
    intros Hk (Hv & Hc & Ha). destruct (needs_viewer op) eqn:N.
    - pose proof (reveal_call_exact op p N) as H.
      destruct (is_viewer_pub_key_set p && (negb (needs_cred op) || is_cred_creator_pub_key_set p) && index_ok op) eqn:G.
      + destruct H as (p' & E & Ev & Ec & Ef & Et & Hb). unfold builder_step. rewrite E.
        apply andb_true_iff in G. destruct G as [G Gi]. apply andb_true_iff in G. destruct G as [G1 G2].
        apply viewer_set_iff in G1. unfold builder_inv. rewrite Ev, Ec. conjs.
        * intros i _. exact G1.
        * intros i Hi B. rewrite Hb in B. apply orb_true_iff in B. destruct B as [B|B]; [|apply (Hc i Hi B)].
          destruct (needs_cred op) eqn:Nc; cbn [negb orb] in G2.
          -- apply cred_set_iff; exact G2.
          -- exfalso. destruct op; cbn in B, Nc, N; try discriminate; lia.
        * rewrite !Hb, Ha. destruct op as [| | | | | | |j| | |]; try reflexivity.
      + unfold builder_step. rewrite H. unfold builder_inv; auto.
    - destruct op; cbn in N; try discriminate; unfold builder_step, builder_inv; cbn in *; conjs; auto.
  Qed.

  Lemma builder_inv_run ops : Forall real_key ops -> builder_inv (builder_run ops).
  Proof.
    unfold builder_run. assert (G : forall p, builder_inv p -> Forall real_key ops -> builder_inv (fold_left builder_step ops p)).
    { induction ops as [|op ops IH]; intros p Hp HF; cbn [fold_left]; [exact Hp|].
      inversion HF; subst. apply IH; auto. apply builder_inv_step; auto. }
    intros HF. apply G; [apply builder_inv_default|exact HF].
  Qed.

  (** ** Equality tests *)
  Lemma bools_eqb_spec a b : bools_eqb a b = true <-> a = b.
  Proof.
    revert b; induction a as [|x a IH]; intros [|y b]; cbn [bools_eqb]; split; intros H; try discriminate; auto.
    - apply andb_true_iff in H. destruct H as [H1 H2]. apply Bool.eqb_prop in H1. apply IH in H2. congruence.
    - injection H as -> ->. rewrite Bool.eqb_reflx. cbn. apply IH; reflexivity.
  Qed.
  Lemma rm_eqb_spec a b : rm_eqb a b = true <-> a = b.
  Proof. unfold rm_eqb. rewrite bools_eqb_spec. split; [apply rm_ext|intros ->; reflexivity]. Qed.
  Lemma policy_eqb_spec a b : policy_eqb a b = true <-> a = b.
  Proof.
    unfold policy_eqb. rewrite !andb_true_iff, !(point_eqb_spec L), rm_eqb_spec, zeqb_spec.
    destruct a, b; cbn. split; [intros ((((-> & ->) & ->) & ->) & ->); reflexivity|]. intros [= -> -> -> -> ->]; auto.
  Qed.
  Lemma asset_def_eqb_spec a b : asset_def_eqb a b = true <-> a = b.
  Proof.
    unfold asset_def_eqb. rewrite andb_true_iff, zeqb_spec, policy_eqb_spec.
    destruct a, b; cbn. split; [intros (-> & ->); reflexivity|]. intros [= -> ->]; auto.
  Qed.
  Lemma asset_def_eqb_refl a : asset_def_eqb a a = true.
  Proof. apply asset_def_eqb_spec; reflexivity. Qed.
  Lemma asset_def_eqb_false a b : asset_def_eqb a b = false <-> a <> b.
  Proof.
    rewrite <- not_true_iff_false, asset_def_eqb_spec. reflexivity.
  Qed.
  Lemma is_native_iff d : is_native d = true <-> d = asset_def_native.
  Proof. apply asset_def_eqb_spec. Qed.
  Lemma is_dummy_iff d : is_dummy_def d = true <-> d = asset_def_dummy.
  Proof. apply asset_def_eqb_spec. Qed.
  Lemma user_pub_key_eqb_spec a b : user_pub_key_eqb a b = true <-> a = b.
  Proof.
    unfold user_pub_key_eqb. rewrite andb_true_iff, (point_eqb_spec L), (enc_key_eqb_spec L).
    destruct a, b; cbn. split; [intros (-> & ->); reflexivity|]. intros [= -> ->]; auto.
  Qed.
  Lemma flag_eqb_spec a b : flag_eqb a b = true <-> a = b.
  Proof. destruct a, b; cbn; split; congruence. Qed.

  (** ** C07 *)
  Lemma asset_definition_new_spec :
    (forall c p, asset_def_new c p = Err InvalidParameter <-> c = native_asset_code \/ c = dummy_asset_code) /\
    (forall c p d, asset_def_new c p = Ok d ->
       code d = c /\ policy d = p /\ is_native d = false /\ is_dummy_def d = false) /\
    (forall c p, c <> native_asset_code -> c <> dummy_asset_code -> exists d, asset_def_new c p = Ok d) /\
    is_native asset_def_native = true /\ is_dummy_def asset_def_dummy = true /\
    is_native asset_def_dummy = false /\ is_dummy_def asset_def_native = false.
  Proof.
    assert (D : forall c p, asset_def_new c p = if zeqb c native_asset_code || zeqb c dummy_asset_code
                                                 then Err InvalidParameter else Ok (mkDef c p)) by reflexivity.
    conjs.
    - intros c p. rewrite D. destruct (zeqb_reflect c native_asset_code), (zeqb_reflect c dummy_asset_code); cbn;
        split; intros H; auto; try discriminate; destruct H; contradiction.
    - intros c p d. rewrite D. destruct (zeqb_reflect c native_asset_code), (zeqb_reflect c dummy_asset_code); cbn [orb];
        try discriminate. intros [= <-]. cbn [code policy]. conjs; auto.
      + apply not_true_iff_false. rewrite is_native_iff. intros E; apply (f_equal code) in E. contradiction.
      + apply not_true_iff_false. rewrite is_dummy_iff. intros E; apply (f_equal code) in E. contradiction.
    - intros c p H1 H2. rewrite D. destruct (zeqb_reflect c native_asset_code), (zeqb_reflect c dummy_asset_code); cbn [orb];
        try contradiction. eauto.
    - apply is_native_iff; reflexivity.
    - apply is_dummy_iff; reflexivity.
    - apply not_true_iff_false. rewrite is_native_iff. intros E; apply (f_equal code) in E. apply native_neq_dummy; symmetry; exact E.
    - apply not_true_iff_false. rewrite is_dummy_iff. intros E; apply (f_equal code) in E. apply native_neq_dummy; exact E.
  Qed.

  (** ** C10 *)
  Lemma cred_msg_inj e a l e' a' l' : cred_msg e a l = cred_msg e' a' l' -> e = e' /\ a = a' /\ l = l'.
  Proof.
    unfold cred_msg. cbn [app]. intros H. apply cons_inj in H. destruct H as [He H]. injection H as Hx Hy Hl. conjs.
    - apply f_of_u64_inj, He.
    - apply (pt_xy_inj L). destruct (pt_xy a), (pt_xy a'); cbn in *; congruence.
    - exact Hl.
  Qed.

  Lemma credential_spec :
    (forall addr attrs expiry sk, length attrs = 8%nat ->
       exists c, cred_create addr attrs expiry sk = Ok c /\
         cr_user_addr c = addr /\ cr_attrs c = attrs /\ cr_expiry c = expiry /\ cr_creator_pk c = ver_key sk /\
         forall now, (zv now <= zv expiry -> cred_verify c now = Ok tt) /\
                     (zv expiry < zv now -> cred_verify c now = Err FailedCredentialVerification)) /\
    (forall addr attrs expiry sk, length attrs <> 8%nat ->
       cred_create addr attrs expiry sk = Err FailedCredentialCreation) /\
    (forall c now, cred_verify c now = Ok tt <->
       zv now <= zv (cr_expiry c) /\
       sig_ok (cr_creator_pk c) (cred_msg (cr_expiry c) (cr_user_addr c) (cr_attrs c)) (cr_cred c) = true) /\
    (** reusing the signature on other signed data means one signature valid on two messages *)
    (forall c c' now now', cred_verify c now = Ok tt -> cred_verify c' now' = Ok tt ->
       cr_cred c' = cr_cred c -> cr_creator_pk c' = cr_creator_pk c ->
       (cr_expiry c', cr_user_addr c', cr_attrs c') <> (cr_expiry c, cr_user_addr c, cr_attrs c) ->
       let msg c := cred_msg (cr_expiry c) (cr_user_addr c) (cr_attrs c) in
       msg c <> msg c' /\ sig_ok (cr_creator_pk c) (msg c) (cr_cred c) = true /\ sig_ok (cr_creator_pk c) (msg c') (cr_cred c) = true).
  Proof.
    assert (V : forall c now, cred_verify c now = Ok tt <->
       zv now <= zv (cr_expiry c) /\
       sig_ok (cr_creator_pk c) (cred_msg (cr_expiry c) (cr_user_addr c) (cr_attrs c)) (cr_cred c) = true).
    { intros c now. unfold cred_verify, cred_is_expired.
      destruct (Z.ltb_spec (zv (cr_expiry c)) (zv now)).
      - split; [discriminate|]. intros [? _]; lia.
      - destruct (sig_ok _ _ _); split; intros H'; try discriminate; auto. destruct H'; discriminate. }
    conjs.
    - intros addr attrs expiry sk Hl. unfold cred_create. rewrite Hl. cbn [negb Nat.eqb ATTRS_LEN].
      eexists; split; [reflexivity|]. cbn [cr_user_addr cr_attrs cr_expiry cr_creator_pk cr_cred]. conjs; auto.
      intros now. split; intros Hn.
      + apply V. cbn [cr_user_addr cr_attrs cr_expiry cr_creator_pk cr_cred]. split; [exact Hn|apply (sig_correct L)].
      + unfold cred_verify, cred_is_expired. cbn [cr_expiry]. destruct (Z.ltb_spec (zv expiry) (zv now)); [reflexivity|lia].
    - intros addr attrs expiry sk Hl. unfold cred_create, ATTRS_LEN.
      destruct (Nat.eqb_spec (length attrs) 8); [contradiction|reflexivity].
    - exact V.
    - intros c c' now now' H H' Es Ek Hne. apply V in H, H'. destruct H as [_ H], H' as [_ H'].
      rewrite Es, Ek in H'.
      cbv zeta. conjs; auto. intros E. apply cred_msg_inj in E. destruct E as (E1 & E2 & E3). apply Hne. congruence.
  Qed.

  (** ** C11 *)
  Lemma f_to_bytes_le_inj a b : f_to_bytes_le a = f_to_bytes_le b -> a = b.
  Proof.
    intros H. apply zmod_ext. pose proof (zv_range a). pose proof (zv_range b). pose proof modulus_ub.
    assert (2 ^ 255 < 256 ^ Z.of_nat SCALAR_REPR_BYTE_LEN) by reflexivity.
    apply (le_bytes_inj SCALAR_REPR_BYTE_LEN); [lia|lia|exact H].
  Qed.

  Lemma preimages_apart i d : domestic_preimage i <> foreign_preimage d.
  Proof. unfold domestic_preimage, foreign_preimage. intros H. apply (f_equal (fun l => zv (hd (b8 0) l))) in H. discriminate H. Qed.
  Lemma domestic_preimage_inj i j : domestic_preimage i = domestic_preimage j -> i = j.
  Proof. unfold domestic_preimage. intros H. apply app_inv_head in H. apply f_to_bytes_le_inj, H. Qed.
  Lemma foreign_preimage_inj i j : foreign_preimage i = foreign_preimage j -> i = j.
  Proof. unfold foreign_preimage. intros H. apply app_inv_head in H. exact H. Qed.

  Lemma asset_code_spec :
    (forall c i, verify_domestic c i = Ok tt <-> c = new_domestic_from_internal i) /\
    (forall c i, verify_domestic c i <> Ok tt -> verify_domestic c i = Err FailedAssetCodeVerification) /\
    (forall c d, verify_foreign c d = Ok tt <-> c = new_foreign d) /\
    (forall c d, verify_foreign c d <> Ok tt -> verify_foreign c d = Err FailedAssetCodeVerification) /\
    (forall seed d, verify_domestic (new_domestic seed d) (internal_new seed d) = Ok tt) /\
    (forall seed d, new_domestic seed d = new_domestic_from_digest seed (digest_from_description d)) /\
    (** the same code twice is a hash collision *)
    (forall i, new_domestic_from_internal i = keccak_f (domestic_preimage i)) /\
    (forall d, new_foreign d = keccak_f (foreign_preimage d)) /\
    (forall i d, domestic_preimage i <> foreign_preimage d) /\
    (forall i j, domestic_preimage i = domestic_preimage j -> i = j) /\
    (forall d e, foreign_preimage d = foreign_preimage e -> d = e).
  Proof.
    conjs.
    - intros c i. unfold verify_domestic. destruct (zeqb_reflect (new_domestic_from_internal i) c); split; intros; congruence.
    - intros c i. unfold verify_domestic. destruct (zeqb _ _); congruence.
    - intros c d. unfold verify_foreign. destruct (zeqb_reflect (new_foreign d) c); split; intros; congruence.
    - intros c d. unfold verify_foreign. destruct (zeqb _ _); congruence.
    - intros seed d. unfold verify_domestic, new_domestic. rewrite zeqb_refl; reflexivity.
    - reflexivity.
    - reflexivity.
    - reflexivity.
    - apply preimages_apart.
    - apply domestic_preimage_inj.
    - apply foreign_preimage_inj.
  Qed.

  (** ** C12 *)
  (** everything in an opening but the owner's encryption key and the blind *)
  Definition same_record (a b : RecordOpening) : Prop :=
    amount a = amount b /\ asset_def a = asset_def b /\ address (pub_key a) = address (pub_key b) /\
    freeze_flag a = freeze_flag b.

  Lemma packed_scalar (m : RevealMap) (f : FreezeFlag) :
    fz (2 * zv (rm_to_scalar m) + match f with Frozen => 1 | Unfrozen => 0 end) =
    fadd (fadd (rm_to_scalar m) (rm_to_scalar m)) (fz (zv (flag_u8 f))).
  Proof.
    pose proof (proj1 rm_scalar_spec m) as Hr. pose proof modulus_lb as Hm. assert (2 ^ 14 < 2 ^ 252) by reflexivity. assert (2 ^ 12 * 4 = 2 ^ 14) by reflexivity.
    apply zmod_ext. unfold fadd. rewrite (fz_small (zv (rm_to_scalar m) + zv (rm_to_scalar m))) by lia.
    assert (Hf : zv (fz (zv (flag_u8 f))) = match f with Frozen => 1 | Unfrozen => 0 end) by (destruct f; cbn [flag_u8]; apply fz_small; cbn; lia).
    rewrite Hf. f_equal. f_equal. lia.
  Qed.
  Lemma packed_flag_inj (m m' : RevealMap) (f f' : FreezeFlag) :
    fadd (fadd (rm_to_scalar m) (rm_to_scalar m)) (fz (zv (flag_u8 f))) =
    fadd (fadd (rm_to_scalar m') (rm_to_scalar m')) (fz (zv (flag_u8 f'))) -> m = m' /\ f = f'.
  Proof.
    assert (Z : forall m f, zv (fadd (fadd (rm_to_scalar m) (rm_to_scalar m)) (fz (zv (flag_u8 f))))
                            = 2 * zv (rm_to_scalar m) + (if flag_bool f then 1 else 0)).
    { intros m0 f0. pose proof (proj1 rm_scalar_spec m0) as Hr. pose proof modulus_lb as Hm.
      assert (2 ^ 14 < 2 ^ 252) by reflexivity. assert (2 ^ 12 * 4 = 2 ^ 14) by reflexivity.
      assert (Hf : zv (fz (zv (flag_u8 f0))) = if flag_bool f0 then 1 else 0).
      { destruct f0; cbn [flag_u8 flag_bool]; apply fz_small; cbn; lia. }
      unfold fadd. rewrite (fz_small (zv (rm_to_scalar m0) + zv (rm_to_scalar m0))) by lia.
      rewrite Hf. rewrite fz_small; destruct f0; cbn [flag_bool]; lia. }
    intros H. apply (f_equal zv) in H. rewrite !Z in H.
    assert (Hf : f = f') by (destruct f, f'; cbn [flag_bool] in H; try reflexivity; lia).
    subst. split; [|reflexivity]. apply (proj1 (proj2 rm_scalar_spec)). apply zmod_ext. lia.
  Qed.

  Lemma pt_xy_pair_inj P Q : fst (pt_xy P) = fst (pt_xy Q) -> snd (pt_xy P) = snd (pt_xy Q) -> P = Q.
  Proof. intros H1 H2. apply (pt_xy_inj L). destruct (pt_xy P), (pt_xy Q); cbn in *; congruence. Qed.

  Lemma ro_scalars_inj a b : ro_scalars a = ro_scalars b <-> same_record a b.
  Proof.
    split.
    - unfold ro_scalars. intros H.
      apply cons_inj in H; destruct H as [H1 H].
      apply cons_inj in H; destruct H as [H2 H].
      apply cons_inj in H; destruct H as [H3 H].
      apply cons_inj in H; destruct H as [H4 H].
      apply cons_inj in H; destruct H as [H5 H].
      apply cons_inj in H; destruct H as [H6 H].
      apply cons_inj in H; destruct H as [H7 H].
      apply cons_inj in H; destruct H as [H8 H].
      apply cons_inj in H; destruct H as [H9 H].
      apply cons_inj in H; destruct H as [H10 H].
      apply cons_inj in H; destruct H as [H11 H].
      apply cons_inj in H; destruct H as [H12 H].
      clear H.
      apply f_of_u128_inj in H1, H12.
      pose proof (pt_xy_pair_inj _ _ H3 H4) as Hu. pose proof (pt_xy_pair_inj _ _ H5 H6) as Hv.
      pose proof (pt_xy_pair_inj _ _ H7 H8) as Hc. pose proof (pt_xy_pair_inj _ _ H9 H10) as Hf.
      apply packed_flag_inj in H11. destruct H11 as [Hm Hg].
      unfold same_record. conjs; auto.
      destruct (asset_def a) as [ca [? ? ? ? ?]], (asset_def b) as [cb [? ? ? ? ?]]; cbn in *. congruence.
    - intros (H1 & H2 & H3 & H4). unfold ro_scalars. rewrite H1, H2, H3, H4. reflexivity.
  Qed.

  Lemma commitment_ignores_enc_key a b :
    same_record a b -> blind a = blind b -> derive_record_commitment a = derive_record_commitment b.
  Proof. intros H1 H2. unfold derive_record_commitment. apply ro_scalars_inj in H1. rewrite H1, H2. reflexivity. Qed.

  (** ** C14 *)
  Lemma nullifier_binds :
    (forall kp fpk, exists k, forall uid rc, user_nullify kp fpk uid rc = prf_eval k [f_of_u64 uid; rc]) /\
    (forall fk addr, exists k, forall uid rc, freezer_nullify fk addr uid rc = prf_eval k [f_of_u64 uid; rc]) /\
    (forall (uid uid' : u64) (rc rc' : F), [f_of_u64 uid; rc] = [f_of_u64 uid'; rc'] -> uid = uid' /\ rc = rc').
  Proof.
    conjs.
    - intros kp fpk. exists (user_derive_nullifier_key kp fpk). reflexivity.
    - intros fk addr. exists (freezer_derive_nullifier_key fk addr). reflexivity.
    - intros uid uid' rc rc' H. apply cons_inj in H. destruct H as [H1 H]. apply cons_inj in H. split; [apply f_of_u64_inj, H1|apply H].
  Qed.
  Lemma owner_freezer_same_nullifier (kp : UserKeyPair) (fk : FreezerKeyPair) uid rc :
    freezer_pub_key fk <> pt_id ->
    user_nullify kp (freezer_pub_key fk) uid rc = freezer_nullify fk (user_address kp) uid rc.
  Proof.
    intros Hf. unfold user_nullify, freezer_nullify, user_derive_nullifier_key, freezer_derive_nullifier_key.
    apply (point_eqb_neq L) in Hf. rewrite Hf. unfold compute_nullifier_key, freezer_pub_key, user_address, ver_key.
    rewrite (pt_mul_comm L). reflexivity.
  Qed.
End P.
