(** Generation of mint and freeze notes: contents and verification. *)
From Verif Require Import Base Config Structs Keys Utils Memo Plonk Witness Circuits Relation CircuitLogic CodecProofs PolicyProofs
  UtilsProofs MemoProofs GadgetProofs StructGadgetProofs SpendGadgetProofs TransferCircuitProofs MintCircuitProofs
  FreezeCircuitProofs CircuitShape CircuitTheorems Snark Notes NoteProofs NoteGen.

(** ** API values as circuit values *)
Section Values.
  Context {C : CapConfig} (L : CapLaws C).

  Lemma scalar_ok_fr (x : Fj) : scalar_ok (fr_to_fq x) = true.
  Proof. unfold scalar_ok. rewrite zv_fr_to_fq. apply Z.ltb_lt. pose proof (zv_range x). pose proof sub_order_bits. lia. Qed.
  Lemma owns_key (sk : Fj) : owns (fr_to_fq sk) (pt_xy (ver_key sk)).
  Proof. split; [apply scalar_ok_fr|]. rewrite zv_fr_to_fq. reflexivity. Qed.
  Lemma owns_iff (sk : Fj) P : owns (fr_to_fq sk) (pt_xy P) <-> P = ver_key sk.
  Proof.
    split; [|intros ->; apply owns_key]. intros [_ H]. rewrite zv_fr_to_fq in H. apply (pt_xy_inj L) in H. exact H.
  Qed.
  Lemma xy_eqb_point P Q : xy_eqb (pt_xy P) (pt_xy Q) = point_eqb P Q.
  Proof.
    destruct (point_eqb P Q) eqn:E.
    - apply (point_eqb_spec L) in E. subst. apply xy_eqb_refl.
    - apply xy_eqb_false. apply (point_eqb_neq L) in E. intros H; apply E, (pt_xy_inj L), H.
  Qed.
  Lemma no_key_id : no_key = pt_xy pt_id.
  Proof. unfold no_key, neutral_xy. symmetry. apply (pt_xy_id L). Qed.
  Lemma is_no_key P : pt_xy P = no_key <-> P = pt_id.
  Proof. rewrite no_key_id. split; [apply (pt_xy_inj L)|congruence]. Qed.
  Lemma spending_key_user kp fpk :
    spending_key (fr_to_fq (addr_sk kp)) (pt_xy fpk) = user_derive_nullifier_key kp fpk.
  Proof.
    unfold spending_key, user_derive_nullifier_key, nullifier_key_from, compute_nullifier_key.
    change neutral_xy with no_key. rewrite no_key_id, xy_eqb_point. destruct (point_eqb fpk pt_id); auto.
    rewrite (cmul_xy L), zv_fr_to_fq. reflexivity.
  Qed.
  (** the freezer's API never takes the secret itself as the key; the circuit does for an owner at the identity *)
  Lemma spending_key_freezer (fk : FreezerKeyPair) addr : addr <> pt_id ->
    spending_key (fr_to_fq fk) (pt_xy addr) = freezer_derive_nullifier_key fk addr.
  Proof.
    intros H. unfold spending_key, freezer_derive_nullifier_key, compute_nullifier_key.
    change neutral_xy with no_key. rewrite no_key_id, xy_eqb_point. apply (point_eqb_neq L) in H. rewrite H.
    rewrite (cmul_xy L), zv_fr_to_fq. reflexivity.
  Qed.
  Lemma celgamal_honest pk r msg : celgamal_encrypt (pt_xy pk) (fr_to_fq r) msg = memo_value (memo_of (viewer_encrypt pk r msg)).
  Proof. unfold celgamal_encrypt, memo_value, memo_of, viewer_encrypt, elgamal_encrypt. cbn [fst snd vm_ephemeral vm_data]. rewrite (cmul_xy L), zv_fr_to_fq. reflexivity. Qed.
  Lemma policy_empty_native d : d = asset_def_native -> policy_empty (pol_value (policy d)) /\ code d = native_asset_code.
  Proof.
    intros ->. unfold policy_empty. cbn. rewrite <- no_key_id. conjs; auto.
  Qed.
  Lemma fadd_u128 (a b c : u128) : zv a + zv b = zv c -> fadd (f_of_u128 a) (f_of_u128 b) = f_of_u128 c.
  Proof.
    intros H. apply zmod_ext. unfold fadd. rewrite zv_fz, !zv_f_of_u128, H. apply Z.mod_small, u128_lt_modulus.
  Qed.
  Lemma in_range_amount (a : u128) : in_range AMOUNT_LEN (f_of_u128 a) = true <-> zv a < 2 ^ 127.
  Proof. unfold in_range. rewrite zv_f_of_u128, Z.ltb_lt. reflexivity. Qed.
End Values.

Lemma fee_paid {C : CapConfig} (a b f fe : Amount) : zv a = zv f + zv b -> amount_sub a b = Ok fe -> fe = f.
Proof.
  intros E H. pose proof (amount_range b). pose proof (amount_range f). rewrite amount_sub_ok in H by lia.
  apply (f_equal (fun x => match x with Ok v => v | _ => f end)) in H. cbv beta iota in H.
  rewrite <- H. apply zmod_ext. rewrite zv_w128_small; lia.
Qed.

(** ** Mint *)
Section MintGen.
  Context {C : CapConfig} {S : Snark C} (L : CapLaws C).

  Definition mint_witness_of (r : MintRand) (mint_ro : RecordOpening) (seed : AssetCodeSeed) (description : bytes) (fee : TxnFeeInfo) : MintWitness :=
    mkMW (fi_kp (fee_input fee)) (fi_acc (fee_input fee)) (fi_ro (fee_input fee)) mint_ro (fee_chg_ro fee) seed
         (digest_from_description description) (mrd_enc r).

  Record mint_generated (r : MintRand) (mint_ro : RecordOpening) (seed : AssetCodeSeed) (description : bytes) (fee : TxnFeeInfo)
      (pk : MintProvingKey) (n : MintNote) (sk : Fj) (p : MintPublicInput) (s : cs) : Prop := {
    mg_sk : sk = mrd_sig r;
    mg_depth : length (acc_path (fi_acc (fee_input fee))) = mpk_depth pk;
    mg_owner : pub_key (fi_ro (fee_input fee)) = user_pub_key (fi_kp (fee_input fee));
    mg_code : code (asset_def mint_ro) = new_domestic seed description;
    mg_fee : check_fee fee = Ok tt;
    mg_unfrozen : freeze_flag (fi_ro (fee_input fee)) = Unfrozen /\ freeze_flag (fee_chg_ro fee) = Unfrozen /\ freeze_flag mint_ro = Unfrozen;
    mg_public : mint_from_witness (mint_witness_of r mint_ro seed description fee) = Ok p;
    mg_note : mint_note_public n = p;
    mg_nullifier : mn_nullifier n = user_nullify (fi_kp (fee_input fee)) pt_id (acc_uid (fi_acc (fee_input fee)))
                                                 (derive_record_commitment (fi_ro (fee_input fee)));
    mg_outputs : mn_chg n = derive_record_commitment (fee_chg_ro fee) /\ mn_mint n = derive_record_commitment mint_ro;
    mg_amount : mn_amount n = amount mint_ro /\ mn_def n = asset_def mint_ro /\ mn_internal n = internal_new seed description;
    mg_memo : mn_memo n = memo_for_mint_note mint_ro (mrd_enc r);
    mg_circuit : mint_circuit (mint_witness_of r mint_ro seed description fee) p = Ok s;
    mg_prove : snark_prove (mrd_prand r) s (mpk_key pk) (ser_verkey (ver_key (mrd_sig r))) = Ok (mn_proof n);
    mg_aux : ma_root (mn_aux n) = acc_root (fi_acc (fee_input fee)) /\ ma_fee (mn_aux n) = fee_amount fee /\ ma_memo_vk (mn_aux n) = ver_key sk
  }.

  Lemma mint_prove_ok r pk w p memo_vk prf : mint_prove r pk w p memo_vk = Ok prf ->
    exists s, mint_circuit w p = Ok s /\ snark_prove r s (mpk_key pk) (ser_verkey memo_vk) = Ok prf.
  Proof.
    unfold mint_prove. intros H. apply bind_ok in H. destruct H as (s & Hs & H). apply map_err_ok in Hs. apply map_err_ok in H. eauto.
  Qed.
  Lemma mint_generate_inv r mint_ro seed description fee pk n sk :
    mint_generate r mint_ro seed description fee pk = Ok (n, sk) ->
    exists p s, mint_generated r mint_ro seed description fee pk n sk p s.
  Proof.
    unfold mint_generate. cbv zeta. intros H. bindH H u1 Hk. bindH H u2 Ho. bindH H u3 Hc. bindH H u4 Hfee. bindH H u5 Hfz. bindH H p Hp.
    bindH H prf Hprf. injection H as <- <-. apply mint_prove_ok in Hprf. destruct Hprf as (s & Hs & Hprf).
    destruct u1, u2, u3, u4, u5. exists p, s.
    unfold mint_check_proving_key_consistency in Hk. apply fail_if_ok, negb_false_iff, Nat.eqb_eq in Hk.
    unfold mint_check_input_pub_key in Ho. apply fail_if_ok, negb_false_iff, (user_pub_key_eqb_spec L) in Ho.
    unfold check_mint_asset_code in Hc. apply fail_if_ok, negb_false_iff, zeqb_spec in Hc.
    pose proof Hfee as Hfee'. apply (check_fee_iff L) in Hfee'. destruct Hfee' as (F1 & F2 & F3 & F4 & F5 & F6).
    unfold check_unfrozen in Hfz. apply fail_if_ok in Hfz. rewrite existsb_false in Hfz. cbn [app] in Hfz.
    assert (HU : forall x, In x [fi_ro (fee_input fee); fee_chg_ro fee; mint_ro] -> freeze_flag x = Unfrozen).
    { intros x Hx. specialize (Hfz x Hx). destruct (freeze_flag x); [reflexivity||discriminate Hfz|discriminate Hfz||reflexivity]. }
    change (mkMW _ _ _ _ _ _ _ _) with (mint_witness_of r mint_ro seed description fee) in *.
    pose proof Hp as Hp'. unfold mint_from_witness in Hp'. failH Hp'. failH Hp'. failH Hp'. bindH Hp' fe Hfe. injection Hp' as Hp'.
    cbn [mint_witness_of mw_kp mw_acc mw_fee_ro mw_mint_ro mw_chg_ro mw_seed mw_digest mw_rand] in *.
    assert (Efe : fe = fee_amount fee) by (eapply fee_paid; [|exact Hfe]; lia).
    assert (E : mint_note_public (mkMNote (mp_nullifier p) (mp_chg_rc p) (mp_mint_rc p) (amount mint_ro) (asset_def mint_ro)
                (internal_new seed description) prf (mp_memo p)
                (mkMAux (acc_root (fi_acc (fee_input fee))) (fee_amount fee) (ver_key (mrd_sig r)))) = p).
    { rewrite <- Hp', Efe. unfold mint_note_public. cbn [mn_nullifier mn_chg mn_mint mn_amount mn_def mn_internal mn_proof mn_memo mn_aux ma_root ma_fee ma_memo_vk
        mp_nullifier mp_chg_rc mp_mint_rc mp_memo]. rewrite Hc. reflexivity. }
    assert (HC : code (asset_def mint_ro) = new_domestic seed description) by exact Hc.
    assert (HN : mp_nullifier p = user_nullify (fi_kp (fee_input fee)) pt_id (acc_uid (fi_acc (fee_input fee)))
                                                 (derive_record_commitment (fi_ro (fee_input fee)))).
    { rewrite <- Hp'. cbn [mp_nullifier]. rewrite F3. reflexivity. }
    assert (HM : mp_chg_rc p = derive_record_commitment (fee_chg_ro fee) /\ mp_mint_rc p = derive_record_commitment mint_ro /\
      mp_memo p = memo_for_mint_note mint_ro (mrd_enc r)) by (rewrite <- Hp'; conjs; reflexivity).
    destruct HM as (M1 & M2 & M3).
    exact (Build_mint_generated _ _ _ _ _ _ _ _ _ _ eq_refl Hk Ho HC Hfee
      (conj (HU _ (or_introl eq_refl)) (conj (HU _ (or_intror (or_introl eq_refl))) (HU _ (or_intror (or_intror (or_introl eq_refl))))))
      Hp E HN (conj M1 M2) (conj eq_refl (conj eq_refl eq_refl)) M3 Hs Hprf (conj eq_refl (conj eq_refl eq_refl))).
  Qed.

  (** the honest witness satisfies the relation exactly when the amount is in range *)
  Lemma mint_generated_relation r mint_ro seed description fee pk n sk p s :
    mint_generated r mint_ro seed description fee pk n sk p s ->
    (mint_relation (mint_pub_value p) (mint_value (mint_witness_of r mint_ro seed description fee)) <-> zv (amount mint_ro) < 2 ^ 127).
  Proof.
    intros G. split.
    - intros HR. pose proof (mr_range _ _ HR) as H. apply in_range_amount in H. exact H.
    - intros Ha.
      pose proof (mg_fee _ _ _ _ _ _ _ _ _ _ G) as Hfee. apply (check_fee_iff L) in Hfee. destruct Hfee as (F1 & F2 & F3 & F4 & F5 & F6).
      pose proof (mg_unfrozen _ _ _ _ _ _ _ _ _ _ G) as (U1 & U2 & U3). pose proof (mg_owner _ _ _ _ _ _ _ _ _ _ G) as HO.
      pose proof (mg_code _ _ _ _ _ _ _ _ _ _ G) as HC. pose proof (mg_amount _ _ _ _ _ _ _ _ _ _ G) as (A1 & A2 & A3).
      pose proof (mg_outputs _ _ _ _ _ _ _ _ _ _ G) as (O1 & O2). pose proof (mg_aux _ _ _ _ _ _ _ _ _ _ G) as (X1 & X2 & X3).
      rewrite <- (mg_note _ _ _ _ _ _ _ _ _ _ G).
      destruct (policy_empty_native L _ F3) as [E1 C1]. destruct (policy_empty_native L _ F4) as [E2 C2].
      constructor; cbn [mint_pub_value mint_note_public mint_value mint_witness_of mq_root mq_native mq_nullifier mq_fee mq_mint_rc mq_chg_rc mq_amount mq_code
        mq_internal mq_pol mq_memo mp_root mp_native mp_nullifier mp_fee mp_mint_rc mp_chg_rc mp_mint_amount mp_mint_ac mp_mint_internal_ac
        mp_policy mp_memo mv_mint mv_sk mv_fee_ro mv_place mv_chg mv_seed mv_digest mv_rand mw_kp mw_acc mw_fee_ro mw_mint_ro mw_chg_ro mw_seed mw_digest mw_rand];
        rewrite ?commitment_of_ro_value; auto.
      + cbn [ro_amount ro_value]. apply fadd_u128. rewrite X2. lia.
      + cbn [ro_owner ro_value]. rewrite HO. apply owns_key.
      + rewrite X1. exact F6.
      + rewrite (mg_nullifier _ _ _ _ _ _ _ _ _ _ G). cbn [ro_pol ro_value pol_value po_freezer]. rewrite F3. cbn [policy asset_def_native].
        rewrite (spending_key_user L). reflexivity.
      + cbn [ro_flag ro_value]. rewrite U1, U2, U3. cbn. auto.
      + apply in_range_amount. exact Ha.
      + rewrite A1. reflexivity.
      + rewrite A2. reflexivity.
      + rewrite A2. reflexivity.
      + cbn [ro_owner ro_value]. rewrite F5. reflexivity.
      + apply scalar_ok_fr.
      + cbn [pol_value po_viewer ro_pol ro_value]. rewrite A2, (mg_memo _ _ _ _ _ _ _ _ _ _ G).
        destruct (point_eqb (viewer_pk (policy (asset_def mint_ro))) pt_id) eqn:Ev.
        * left. apply (point_eqb_spec L) in Ev. apply (is_no_key L). exact Ev.
        * right. rewrite (celgamal_honest L). f_equal. unfold memo_for_mint_note. rewrite Ev. reflexivity.
  Qed.

  Lemma mint_generate_verifies (SL : SnarkLaws S) g d pk vk r mint_ro seed description fee n sk :
    mint_preprocess g d = Ok (pk, vk) -> mint_generate r mint_ro seed description fee pk = Ok (n, sk) ->
    zv (amount mint_ro) < 2 ^ 127 -> mint_verify n vk (ma_root (mn_aux n)) = Ok tt.
  Proof.
    intros HP HG Ha. apply mint_preprocess_keys in HP. destruct HP as (s0 & Hb & Hk & E1 & _).
    destruct (mint_generate_inv _ _ _ _ _ _ _ _ HG) as (p & s & G).
    pose proof (mg_amount _ _ _ _ _ _ _ _ _ _ G) as (A1 & A2 & A3). pose proof (mg_aux _ _ _ _ _ _ _ _ _ _ G) as (X1 & X2 & X3).
    apply mint_verify_iff. conjs; auto.
    - rewrite A2, A3. apply (mg_code _ _ _ _ _ _ _ _ _ _ G).
    - rewrite (mg_note _ _ _ _ _ _ _ _ _ _ G), X3.
      destruct (mint_honest_circuit _ _ _ _ Hb (mg_public _ _ _ _ _ _ _ _ _ _ G)) as (s' & Hs & Hsim).
      { cbn. rewrite <- E1. apply (mg_depth _ _ _ _ _ _ _ _ _ _ G). }
      rewrite (mg_circuit _ _ _ _ _ _ _ _ _ _ G) in Hs. injection Hs as <-.
      pose proof (proj2 (mint_generated_relation _ _ _ _ _ _ _ _ _ _ G) Ha) as HR.
      apply (mint_honest _ _ _ (mg_circuit _ _ _ _ _ _ _ _ _ _ G)) in HR.
      destruct (snark_complete _ SL _ _ _ _ (mrd_prand r) _ _ (ser_verkey (ver_key (mrd_sig r))) Hk Hsim HR) as (prf & Hprf & Hv).
      rewrite (mg_prove _ _ _ _ _ _ _ _ _ _ G) in Hprf. injection Hprf as <-. rewrite (mg_sk _ _ _ _ _ _ _ _ _ _ G). exact Hv.
  Qed.
End MintGen.

(** ** Freeze *)
Section FreezeGen.
  Context {C : CapConfig} {S : Snark C} (L : CapLaws C).

  Record freeze_generated (r : FreezeRand) (inputs : list FreezeNoteInput) (fee : TxnFeeInfo) (pk : FreezeProvingKey)
      (n : FreezeNote) (sk : Fj) (outs : list RecordOpening) (p : FreezePublicInput) (s : cs) : Prop := {
    fg_sk : sk = frd_sig r;
    fg_len : inputs <> [] /\ (length inputs + 1)%nat = fpk_num_input pk /\
             Z.of_nat (fpk_depth pk) = Z.of_nat (length (acc_path (fi_acc (fee_input fee)))) mod 256;
    fg_roots : forall i, In i inputs -> asset_def (zi_ro i) <> asset_def_dummy -> acc_root (zi_acc i) = fa_root (fn_aux n);
    fg_freezable : forall i, In i inputs -> asset_def (zi_ro i) <> asset_def_dummy -> freezer_pk (policy (asset_def (zi_ro i))) <> pt_id;
    fg_fee : check_fee fee = Ok tt;
    fg_outs : outs = freeze_get_output_ros (frd_blinds r) inputs;
    fg_public : freeze_from_witness (freeze_new_unchecked inputs outs fee) = Ok p;
    fg_note : freeze_note_public n = p;
    fg_nullifiers : fn_nullifiers n =
      user_nullify (fi_kp (fee_input fee)) pt_id (acc_uid (fi_acc (fee_input fee))) (derive_record_commitment (fi_ro (fee_input fee)))
      :: map (fun i => freezer_nullify (zi_kp i) (address (pub_key (zi_ro i))) (acc_uid (zi_acc i)) (derive_record_commitment (zi_ro i))) inputs;
    fg_commitments : fn_commitments n = derive_record_commitment (fee_chg_ro fee) :: map derive_record_commitment outs;
    fg_distinct : NoDup (fn_nullifiers n);
    fg_circuit : freeze_circuit_unchecked (freeze_new_unchecked inputs outs fee) p = Ok s;
    fg_sat : check_circuit_satisfiability s (freeze_to_scalars p) = true;
    fg_prove : snark_prove (frd_prand r) s (fpk_key pk) (ser_verkey (ver_key (frd_sig r))) = Ok (fn_proof n);
    fg_aux : fa_root (fn_aux n) = acc_root (fi_acc (fee_input fee)) /\ fa_fee (fn_aux n) = fee_amount fee /\ fa_memo_vk (fn_aux n) = ver_key sk
  }.

  Lemma map_freeze_nullifiers inputs :
    map freeze_input_nullifier (combine (combine (map zi_ro inputs) (map zi_acc inputs)) (map zi_kp inputs)) =
    map (fun i => freezer_nullify (zi_kp i) (address (pub_key (zi_ro i))) (acc_uid (zi_acc i)) (derive_record_commitment (zi_ro i))) inputs.
  Proof. induction inputs as [|i l IH]; cbn; congruence. Qed.

  Lemma freeze_prove_ok r pk w p memo_vk prf : freeze_prove r pk w p memo_vk = Ok prf ->
    exists s, freeze_circuit_unchecked w p = Ok s /\ check_circuit_satisfiability s (freeze_to_scalars p) = true /\
              snark_prove r s (fpk_key pk) (ser_verkey memo_vk) = Ok prf.
  Proof.
    unfold freeze_prove. intros H. apply bind_ok in H. destruct H as (s & Hs & H). apply map_err_ok in Hs. apply freeze_circuit_ok in Hs.
    apply bind_ok in H. destruct H as (u & Hu & H). apply fail_if_ok, negb_false_iff in Hu. apply map_err_ok in H. eauto.
  Qed.
  Lemma freeze_generate_inv r inputs fee pk n sk outs :
    freeze_generate r inputs fee pk = Ok (n, sk, outs) -> exists p s, freeze_generated r inputs fee pk n sk outs p s.
  Proof.
    unfold freeze_generate. cbv zeta. intros H. bindH H u1 Hl. bindH H u2 Hk. bindH H root Hroot. bindH H u3 Hpol. bindH H u4 Hfee. bindH H p Hp.
    bindH H u5 Hnd. bindH H prf Hprf. injection H as <- <- <-. apply freeze_prove_ok in Hprf. destruct Hprf as (s & Hs & K & Hprf). destruct u1, u2, u3, u4, u5. exists p, s.
    unfold check_inputs_len in Hl. apply fail_if_ok, Nat.eqb_neq in Hl.
    unfold freeze_check_proving_key_consistency in Hk. apply fail_if_ok, orb_false_iff in Hk. destruct Hk as [Hk1 Hk2].
    apply negb_false_iff, Nat.eqb_eq in Hk1. apply negb_false_iff, Z.eqb_eq in Hk2.
    unfold freeze_check_and_get_root in Hroot. destruct (existsb _ _) eqn:Hex in Hroot; [discriminate|]. injection Hroot as Hroot. rewrite existsb_false in Hex.
    unfold check_freezing_policies_are_not_dummy in Hpol. rewrite forM_ok in Hpol.
    pose proof Hfee as Hfee'. apply (check_fee_iff L) in Hfee'. destruct Hfee' as (F1 & F2 & F3 & F4 & F5 & F6).
    pose proof Hp as Hp'. unfold freeze_from_witness in Hp'. cbn [freeze_new_unchecked fw_inputs fw_accs fw_outputs fw_fee_kp fw_keys] in Hp'.
    do 5 failH Hp'. bindH Hp' fe Hfe. injection Hp' as Hp'.
    assert (Efe : fe = fee_amount fee) by (eapply fee_paid; [|exact Hfe]; lia).
    rewrite map_freeze_nullifiers in Hp'.
    constructor; cbn [fn_nullifiers fn_commitments fn_proof fn_aux fa_root fa_fee fa_memo_vk]; auto.
    - conjs; auto. intros ->. apply Hl; reflexivity.
    - intros i Hi Hd. assert (HF : In i (filter (fun i => negb (ro_is_dummy (zi_ro i))) inputs)).
      { apply filter_In. split; auto. unfold ro_is_dummy. apply negb_true_iff, not_true_iff_false. rewrite (is_dummy_iff L). auto. }
      apply Hex, negb_false_iff, zeqb_spec in HF. congruence.
    - intros i Hi Hd. specialize (Hpol i Hi). apply fail_if_ok, andb_false_iff in Hpol. unfold ro_is_dummy in Hpol.
      rewrite negb_false_iff, (is_dummy_iff L), (point_eqb_neq L) in Hpol. destruct Hpol; [contradiction|auto].
    - rewrite <- Hp'. unfold freeze_note_public. cbn. rewrite Hroot, Efe. reflexivity.
    - rewrite <- Hp'. reflexivity.
    - rewrite <- Hp'. reflexivity.
    - apply check_distinct_iff; auto.
  Qed.

  Lemma fg_relation r inputs fee pk n sk outs p s : freeze_generated r inputs fee pk n sk outs p s ->
    freeze_relation (freeze_pub_value p) (freeze_value (freeze_new_unchecked inputs outs fee)).
  Proof.
    intros G. eapply freeze_honest; [apply (freeze_from_witness_lengths _ _ (fg_public _ _ _ _ _ _ _ _ _ G))|
      apply (fg_circuit _ _ _ _ _ _ _ _ _ G)|apply (fg_sat _ _ _ _ _ _ _ _ _ G)].
  Qed.

  Lemma freeze_generate_verifies (SL : SnarkLaws S) g fk num d pk vk r inputs fee n sk outs :
    freeze_preprocess g fk num d = Ok (pk, vk) -> freeze_generate r inputs fee pk = Ok (n, sk, outs) ->
    length (acc_path (fi_acc (fee_input fee))) = d -> (forall i, In i inputs -> length (acc_path (zi_acc i)) = d) ->
    freeze_verify n vk (fa_root (fn_aux n)) = Ok tt.
  Proof.
    intros HP HG Hd Hds. apply freeze_preprocess_keys in HP. destruct HP as (s0 & Hb & Hk & E1 & _ & E3 & _).
    destruct (freeze_generate_inv _ _ _ _ _ _ _ HG) as (p & s & G).
    pose proof (fg_aux _ _ _ _ _ _ _ _ _ G) as (X1 & X2 & X3). destruct (fg_len _ _ _ _ _ _ _ _ _ G) as (_ & LN & _).
    apply freeze_verify_iff. split; auto. rewrite (fg_note _ _ _ _ _ _ _ _ _ G), X3.
    destruct (freeze_honest_circuit _ _ _ _ _ _ Hb (fg_public _ _ _ _ _ _ _ _ _ G)) as (s' & Hs & Hsim).
    { cbn [freeze_new_unchecked fw_inputs length]. rewrite map_length. lia. }
    { cbn [freeze_new_unchecked fw_accs]. constructor; auto. rewrite Forall_map. apply Forall_forall. auto. }
    rewrite (fg_circuit _ _ _ _ _ _ _ _ _ G) in Hs. injection Hs as <-.
    destruct (snark_complete _ SL _ _ _ _ (frd_prand r) _ _ (ser_verkey (ver_key (frd_sig r))) Hk Hsim (fg_sat _ _ _ _ _ _ _ _ _ G)) as (prf & Hprf & Hv).
    rewrite (fg_prove _ _ _ _ _ _ _ _ _ G) in Hprf. injection Hprf as <-. rewrite (fg_sk _ _ _ _ _ _ _ _ _ G). exact Hv.
  Qed.
End FreezeGen.
