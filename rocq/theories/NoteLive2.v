(** Liveness of mint and freeze generation, and of the two wrappers around transfer generation. *)
From Verif Require Import Base Config Structs Keys Utils Memo Plonk Witness Circuits Relation CircuitLogic CodecProofs PolicyProofs
  UtilsProofs MemoProofs GadgetProofs StructGadgetProofs SpendGadgetProofs TransferCircuitProofs MintCircuitProofs
  FreezeCircuitProofs CircuitShape CircuitTheorems Snark Notes NoteProofs NoteGen NoteGen2 Security NoteLive.

Section Live2.
  Context {C : CapConfig} {S : Snark C} (L : CapLaws C).

  (** ** Specification *)

  (** A fee that its payer can pay from a native record in a tree of the given depth. *)
  Record payable (depth : nat) (f : TxnFeeInfo) : Prop := {
    py_path : length (acc_path (fi_acc (fee_input f))) = depth;
    py_owner : pub_key (fi_ro (fee_input f)) = user_pub_key (fi_kp (fee_input f));
    py_native : asset_def (fi_ro (fee_input f)) = asset_def_native /\ asset_def (fee_chg_ro f) = asset_def_native;
    py_amount : zv (amount (fi_ro (fee_input f))) = zv (fee_amount f) + zv (amount (fee_chg_ro f));
    py_change : pub_key (fee_chg_ro f) = pub_key (fi_ro (fee_input f));
    py_unfrozen : freeze_flag (fi_ro (fee_input f)) = Unfrozen /\ freeze_flag (fee_chg_ro f) = Unfrozen;
    py_member : merkle_root_of (f_of_u64 (acc_uid (fi_acc (fee_input f)))) (derive_record_commitment (fi_ro (fee_input f)))
                               (acc_path (fi_acc (fee_input f))) = acc_root (fi_acc (fee_input f))
  }.

  (** A record that the holder of the given freezer key may freeze or release. *)
  Record freezable (depth : nat) (root : F) (i : FreezeNoteInput) : Prop := {
    fz_path : length (acc_path (zi_acc i)) = depth;
    fz_key : freezer_pk (policy (asset_def (zi_ro i))) = freezer_pub_key (zi_kp i);
    fz_policy : asset_def (zi_ro i) <> asset_def_dummy -> freezer_pk (policy (asset_def (zi_ro i))) <> pt_id;
    fz_holder : address (pub_key (zi_ro i)) <> pt_id;
    fz_member : asset_def (zi_ro i) <> asset_def_dummy ->
      acc_root (zi_acc i) = root /\
      merkle_root_of (f_of_u64 (acc_uid (zi_acc i))) (derive_record_commitment (zi_ro i)) (acc_path (zi_acc i)) = root
  }.

  Definition freeze_nullifiers (inputs : list FreezeNoteInput) (f : TxnFeeInfo) : list Nullifier :=
    user_nullify (fi_kp (fee_input f)) pt_id (acc_uid (fi_acc (fee_input f))) (derive_record_commitment (fi_ro (fee_input f)))
    :: map (fun i => freezer_nullify (zi_kp i) (address (pub_key (zi_ro i))) (acc_uid (zi_acc i)) (derive_record_commitment (zi_ro i))) inputs.

  (** ** Mint *)
  Lemma payable_fee depth f : payable depth f -> check_fee f = Ok tt.
  Proof.
    intros P. apply (check_fee_iff L). destruct (py_native _ _ P) as [N1 N2]. pose proof (py_amount _ _ P).
    pose proof (amount_range (amount (fee_chg_ro f))). conjs; auto; try lia; apply P.
  Qed.
  Lemma fee_diff (a b c : Amount) : zv a = zv b + zv c -> amount_sub a c = Ok b /\ amount_ltb a c = false.
  Proof.
    intros E. pose proof (amount_range b). split.
    - rewrite amount_sub_ok by lia. f_equal. apply zmod_ext. rewrite zv_w128_small; lia.
    - unfold amount_ltb. apply Z.ltb_ge. lia.
  Qed.

  Section M.
    Variables (r : MintRand) (mint_ro : RecordOpening) (seed : AssetCodeSeed) (description : bytes) (f : TxnFeeInfo) (depth : nat).
    Hypothesis P : payable depth f.
    Hypothesis HC : code (asset_def mint_ro) = new_domestic seed description.
    Hypothesis HU : freeze_flag mint_ro = Unfrozen.
    Hypothesis HA : zv (amount mint_ro) < 2 ^ 127.
    Let w := mint_witness_of r mint_ro seed description f.
    Let p : MintPublicInput :=
      mkMPI (acc_root (fi_acc (fee_input f))) (code asset_def_native)
            (user_nullify (fi_kp (fee_input f)) pt_id (acc_uid (fi_acc (fee_input f))) (derive_record_commitment (fi_ro (fee_input f))))
            (fee_amount f) (derive_record_commitment mint_ro) (derive_record_commitment (fee_chg_ro f)) (amount mint_ro)
            (new_domestic seed description) (internal_new seed description) (policy (asset_def mint_ro)) (memo_for_mint_note mint_ro (mrd_enc r)).

    Lemma m_public : mint_from_witness w = Ok p.
    Proof.
      unfold mint_from_witness, w, mint_witness_of. cbn [mw_kp mw_acc mw_fee_ro mw_mint_ro mw_chg_ro mw_seed mw_digest mw_rand].
      destruct (fee_diff _ _ _ (py_amount _ _ P)) as [E1 E2]. destruct (py_native _ _ P) as [N1 N2].
      rewrite E1, E2, N1, N2. cbn [fail_if bind]. rewrite (proj2 (is_native_iff L _) eq_refl). reflexivity.
    Qed.
    Lemma m_relation : mint_relation (mint_pub_value p) (mint_value w).
    Proof.
      destruct (py_native _ _ P) as [N1 N2]. destruct (py_unfrozen _ _ P) as [U1 U2].
      destruct (policy_empty_native L _ N1) as [E1 C1]. destruct (policy_empty_native L _ N2) as [E2 C2].
      unfold p, w.
      constructor; cbn [mint_pub_value mint_value mint_witness_of mq_root mq_native mq_nullifier mq_fee mq_mint_rc mq_chg_rc mq_amount mq_code
        mq_internal mq_pol mq_memo mp_root mp_native mp_nullifier mp_fee mp_mint_rc mp_chg_rc mp_mint_amount mp_mint_ac mp_mint_internal_ac
        mp_policy mp_memo mv_mint mv_sk mv_fee_ro mv_place mv_chg mv_seed mv_digest mv_rand mw_kp mw_acc mw_fee_ro mw_mint_ro mw_chg_ro mw_seed mw_digest mw_rand];
        rewrite ?commitment_of_ro_value; auto.
      - cbn [ro_amount ro_value]. apply fadd_u128. symmetry. exact (py_amount _ _ P).
      - cbn [ro_owner ro_value]. rewrite (py_owner _ _ P). apply owns_key.
      - exact (py_member _ _ P).
      - cbn [ro_pol ro_value pol_value po_freezer]. rewrite N1. cbn [policy asset_def_native].
        rewrite (spending_key_user L). reflexivity.
      - cbn [ro_flag ro_value]. rewrite U1, U2, HU. cbn. auto.
      - apply in_range_amount. exact HA.
      - cbn [ro_owner ro_value]. rewrite (py_change _ _ P). reflexivity.
      - apply scalar_ok_fr.
      - cbn [pol_value po_viewer ro_pol ro_value].
        destruct (point_eqb (viewer_pk (policy (asset_def mint_ro))) pt_id) eqn:Ev.
        + left. apply (point_eqb_spec L) in Ev. apply (is_no_key L). exact Ev.
        + right. rewrite (celgamal_honest L). f_equal. unfold memo_for_mint_note. rewrite Ev. reflexivity.
    Qed.
  End M.

  Lemma mint_generate_live (SL : SnarkLaws S) g depth pk vk r mint_ro seed description f :
    mint_preprocess g depth = Ok (pk, vk) -> payable depth f -> code (asset_def mint_ro) = new_domestic seed description ->
    freeze_flag mint_ro = Unfrozen -> zv (amount mint_ro) < 2 ^ 127 ->
    exists n, mint_generate r mint_ro seed description f pk = Ok (n, mrd_sig r) /\
      mint_verify n vk (acc_root (fi_acc (fee_input f))) = Ok tt.
  Proof.
    intros HPre P HC HU HA. pose proof HPre as HPre'. apply mint_preprocess_keys in HPre. destruct HPre as (s0 & Hb & Hk & E1 & _).
    pose proof (m_public r mint_ro seed description f depth P) as Hp.
    pose proof (m_relation r mint_ro seed description f depth P HC HU HA) as HR.
    destruct (mint_honest_circuit _ _ _ _ Hb Hp) as (s & Hs & Hsim); [exact (py_path _ _ P)|].
    apply (mint_honest _ _ _ Hs) in HR.
    destruct (snark_complete _ SL _ _ _ _ (mrd_prand r) _ _ (ser_verkey (ver_key (mrd_sig r))) Hk Hsim HR) as (prf & Hprf & _).
    assert (HG : exists n, mint_generate r mint_ro seed description f pk = Ok (n, mrd_sig r)).
    { unfold mint_generate. cbv zeta. eexists.
      unfold mint_check_proving_key_consistency. rewrite E1, (py_path _ _ P), Nat.eqb_refl. cbn [negb fail_if bind].
      unfold mint_check_input_pub_key. rewrite (proj2 (user_pub_key_eqb_spec L _ _) (py_owner _ _ P)). cbn [negb fail_if bind].
      assert (EC : check_mint_asset_code mint_ro seed (digest_from_description description) = Ok tt)
        by (unfold check_mint_asset_code; apply fail_if_ok, negb_false_iff, zeqb_spec; exact HC).
      rewrite EC. cbn [bind].
      rewrite (payable_fee _ _ P). cbn [bind].
      destruct (py_unfrozen _ _ P) as [U1 U2]. unfold check_unfrozen. cbn [app existsb]. rewrite U1, U2, HU. cbn [flag_eqb negb orb fail_if bind].
      change (mkMW _ _ _ _ _ _ _ _) with (mint_witness_of r mint_ro seed description f). rewrite Hp. cbn [bind].
      unfold mint_prove. rewrite Hs. cbn [map_err bind]. rewrite Hprf. cbn [map_err bind]. reflexivity. }
    destruct HG as (n & HG). exists n. split; auto.
    pose proof (mint_generate_verifies L SL _ _ _ _ _ _ _ _ _ _ _ HPre' HG HA) as HV.
    destruct (mint_generate_inv L _ _ _ _ _ _ _ _ HG) as (pp & ss & G). destruct (mg_aux _ _ _ _ _ _ _ _ _ _ G) as (X1 & _).
    rewrite X1 in HV. exact HV.
  Qed.

  (** ** Freeze *)
  Lemma outputs_cons (inputs : list FreezeNoteInput) b :
    freeze_get_output_ros b inputs = map (fun ni => freeze_flip_ro (b (fst ni)) (zi_ro (snd ni))) (combine (seq 0 (length inputs)) inputs).
  Proof. reflexivity. Qed.
  Lemma flipped (b : F) (x : RecordOpening) : flag_eqb (freeze_flag x) (freeze_flag (freeze_flip_ro b x)) = false.
  Proof. unfold freeze_flip_ro. cbn [freeze_flag]. destruct (freeze_flag x); reflexivity. Qed.

  Section Z.
    Variables (b : nat -> F) (inputs : list FreezeNoteInput) (f : TxnFeeInfo) (depth : nat).
    Hypothesis P : payable depth f.
    Hypothesis HF : forall i, In i inputs -> freezable depth (acc_root (fi_acc (fee_input f))) i.
    Hypothesis HN : inputs <> [].
    Let outs := freeze_get_output_ros b inputs.
    Let w := freeze_new_unchecked inputs outs f.
    Let p : FreezePublicInput :=
      mkFPI (acc_root (fi_acc (fee_input f))) native_asset_code (fee_amount f) (freeze_nullifiers inputs f)
            (map derive_record_commitment (fee_chg_ro f :: outs)).

    Lemma z_outs_length : length outs = length inputs.
    Proof. unfold outs, freeze_get_output_ros. rewrite map_length, combine_length, seq_length. lia. Qed.
    Lemma z_public : freeze_from_witness w = Ok p.
    Proof.
      unfold freeze_from_witness, w, freeze_new_unchecked. cbn [fw_inputs fw_accs fw_outputs fw_fee_kp fw_keys length].
      rewrite !map_length, z_outs_length, Nat.eqb_refl, (Nat.add_comm (length inputs) 1). cbn [Nat.add]. rewrite Nat.eqb_refl.
      destruct (fee_diff _ _ _ (py_amount _ _ P)) as [E1 E2].
      assert (E0 : (Datatypes.S (length inputs) <=? 1)%nat = false) by (apply Nat.leb_gt; destruct inputs; [congruence|cbn; lia]).
      rewrite E0, E1, E2. cbn [negb fail_if bind]. rewrite map_freeze_nullifiers. reflexivity.
    Qed.
    Lemma z_pair q i n : fq_root q = acc_root (fi_acc (fee_input f)) -> In i inputs ->
      pair_ok q (mkPairV (ro_value (zi_ro i)) (place_value (zi_acc i)) (fr_to_fq (zi_kp i)) (ro_value (freeze_flip_ro (b n) (zi_ro i))))
        (freezer_nullify (zi_kp i) (address (pub_key (zi_ro i))) (acc_uid (zi_acc i)) (derive_record_commitment (zi_ro i)))
        (derive_record_commitment (freeze_flip_ro (b n) (zi_ro i))).
    Proof.
      intros Hq Hi. specialize (HF i Hi). constructor; cbn [fz_in fz_place fz_sk fz_out]; rewrite ?commitment_of_ro_value; auto.
      - cbn [ro_flag ro_value freeze_flip_ro freeze_flag]. destruct (freeze_flag (zi_ro i)); cbn [flip flag_bool fbool]; [apply fadd_0_l || apply fadd_0_r|apply fadd_0_r || apply fadd_0_l].
      - cbn [ro_flag ro_value freeze_flip_ro freeze_flag]. split; apply is_bool_fbool.
      - cbn [ro_pol ro_value pol_value po_freezer ro_code]. intros E. apply (is_no_key L) in E.
        destruct (asset_def_eqb (asset_def (zi_ro i)) asset_def_dummy) eqn:Ed.
        + apply (asset_def_eqb_spec L) in Ed. rewrite Ed. reflexivity.
        + exfalso. apply (fz_policy _ _ _ HF); auto. intros E'. apply (asset_def_eqb_spec L) in E'. congruence.
      - cbn [ro_pol ro_value pol_value po_freezer]. rewrite (fz_key _ _ _ HF). apply owns_key.
      - cbn [ro_code ro_value]. intros Hd. rewrite Hq. apply (fz_member _ _ _ HF). intros E. apply Hd. rewrite E. reflexivity.
      - cbn [ro_owner ro_value]. rewrite (spending_key_freezer L) by apply (fz_holder _ _ _ HF). reflexivity.
    Qed.
    Lemma z_pairs q : fq_root q = acc_root (fi_acc (fee_input f)) -> forall l k, (forall i, In i l -> In i inputs) ->
      Forall3 (pair_ok q)
        (pair_up (map ro_value (map zi_ro l)) (map place_value (map zi_acc l)) (map fr_to_fq (map zi_kp l))
                 (map ro_value (map (fun ni => freeze_flip_ro (b (fst ni)) (zi_ro (snd ni))) (combine (seq k (length l)) l))))
        (map (fun i => freezer_nullify (zi_kp i) (address (pub_key (zi_ro i))) (acc_uid (zi_acc i)) (derive_record_commitment (zi_ro i))) l)
        (map derive_record_commitment (map (fun ni => freeze_flip_ro (b (fst ni)) (zi_ro (snd ni))) (combine (seq k (length l)) l))).
    Proof.
      intros Hq. induction l as [|i l IH]; intros k Hl; cbn [map pair_up length seq combine fst snd]; constructor.
      - apply z_pair; auto. apply Hl; left; auto.
      - apply IH. intros; apply Hl; right; auto.
    Qed.
    Lemma z_relation : freeze_relation (freeze_pub_value p) (freeze_value w).
    Proof.
      destruct (py_native _ _ P) as [N1 N2]. destruct (py_unfrozen _ _ P) as [U1 U2].
      destruct (policy_empty_native L _ N1) as [E1 C1]. destruct (policy_empty_native L _ N2) as [E2 C2].
      unfold p, w, freeze_value, freeze_new_unchecked, freeze_of_lists, freeze_nullifiers.
      cbn [fw_inputs fw_accs fw_outputs fw_fee_kp fw_keys map hd tl].
      constructor; cbn [freeze_pub_value fp_root fp_native fp_fee fp_nullifiers fp_commitments fq_root fq_native fq_fee fq_nullifiers fq_commitments
        fv_fee_ro fv_place fv_sk fv_chg fv_pairs hd_error tl]; rewrite ?commitment_of_ro_value; auto.
      - cbn [ro_flag ro_value]. rewrite U1, U2. auto.
      - cbn [ro_amount ro_value]. apply fadd_u128. pose proof (py_amount _ _ P). lia.
      - cbn [ro_owner ro_value]. rewrite (py_owner _ _ P). apply owns_key.
      - exact (py_member _ _ P).
      - cbn [ro_pol ro_value pol_value po_freezer]. rewrite N1. cbn [policy asset_def_native].
        rewrite (spending_key_user L). reflexivity.
      - apply z_pairs; auto.
    Qed.
    Lemma z_flags : existsb (fun io => flag_eqb (freeze_flag (fst io)) (freeze_flag (snd io)))
                            (combine (skipn 1 (fw_inputs w)) (skipn 1 (fw_outputs w))) = false.
    Proof.
      unfold w, freeze_new_unchecked, outs, freeze_get_output_ros. cbn [fw_inputs fw_outputs skipn]. generalize 0%nat as k. clear.
      induction inputs as [|i l IH]; intros k; cbn [map combine length seq existsb fst snd]; auto. rewrite flipped, IH. reflexivity.
    Qed.
  End Z.

  Lemma freeze_generate_live (SL : SnarkLaws S) g fk num depth pk vk r inputs f :
    freeze_preprocess g fk num depth = Ok (pk, vk) -> (depth < 256)%nat -> (length inputs + 1)%nat = num -> inputs <> [] ->
    payable depth f -> (forall i, In i inputs -> freezable depth (acc_root (fi_acc (fee_input f))) i) ->
    NoDup (freeze_nullifiers inputs f) ->
    exists n, freeze_generate r inputs f pk = Ok (n, frd_sig r, freeze_get_output_ros (frd_blinds r) inputs) /\
      freeze_verify n vk (acc_root (fi_acc (fee_input f))) = Ok tt.
  Proof.
    intros HPre HD Hlen HN P HF Hnd. pose proof HPre as HPre'. apply freeze_preprocess_keys in HPre. destruct HPre as (s0 & Hb & Hk & E1 & _ & E3 & _).
    pose proof (z_public (frd_blinds r) inputs f depth P HF HN) as Hp.
    pose proof (z_relation (frd_blinds r) inputs f depth P HF) as HR.
    destruct (freeze_honest_circuit _ _ _ _ _ _ Hb Hp) as (s & Hs & Hsim).
    { cbn [freeze_new_unchecked fw_inputs length]. rewrite map_length. lia. }
    { cbn [freeze_new_unchecked fw_accs]. constructor; [apply P|]. rewrite Forall_map. apply Forall_forall. intros i Hi. apply (HF i Hi). }
    apply (freeze_honest _ _ _ (proj1 (freeze_from_witness_lengths _ _ Hp)) Hs) in HR.
    destruct (snark_complete _ SL _ _ _ _ (frd_prand r) _ _ (ser_verkey (ver_key (frd_sig r))) Hk Hsim HR) as (prf & Hprf & _).
    assert (HG : exists n, freeze_generate r inputs f pk = Ok (n, frd_sig r, freeze_get_output_ros (frd_blinds r) inputs)).
    { unfold freeze_generate. cbv zeta. eexists.
      unfold check_inputs_len. assert (E0 : (length inputs =? 0)%nat = false) by (apply Nat.eqb_neq; destruct inputs; [congruence|discriminate]).
      rewrite E0. cbn [fail_if bind].
      unfold freeze_check_proving_key_consistency. rewrite E1, E3, <- Hlen, Nat.eqb_refl, (py_path _ _ P).
      rewrite (Z.mod_small (Z.of_nat depth) 256) by lia. rewrite Z.eqb_refl. cbn [negb orb fail_if bind].
      unfold freeze_check_and_get_root.
      match goal with |- context [existsb ?g ?l] => assert (EX : existsb g l = false) end.
      { apply existsb_false. intros i Hi. apply filter_In in Hi. destruct Hi as [Hi Hd]. apply negb_true_iff, not_true_iff_false in Hd.
        unfold ro_is_dummy in Hd. rewrite (is_dummy_iff L) in Hd. apply negb_false_iff, zeqb_spec. apply (fz_member _ _ _ (HF i Hi) Hd). }
      rewrite EX. cbn [bind].
      assert (EP : check_freezing_policies_are_not_dummy inputs = Ok tt).
      { unfold check_freezing_policies_are_not_dummy. apply forM_ok. intros i Hi. apply fail_if_ok, andb_false_iff.
        unfold ro_is_dummy. destruct (is_dummy_def (asset_def (zi_ro i))) eqn:Ed; [left; reflexivity|right].
        apply not_true_iff_false in Ed. rewrite (is_dummy_iff L) in Ed. apply (point_eqb_neq L), (fz_policy _ _ _ (HF i Hi) Ed). }
      rewrite EP. cbn [bind]. rewrite (payable_fee _ _ P). cbn [bind]. rewrite Hp. cbn [bind fp_nullifiers].
      rewrite (proj2 (proj1 (check_distinct_iff _)) Hnd). cbn [bind].
      unfold freeze_prove, freeze_circuit. rewrite z_flags, Hs. cbn [map_err bind]. rewrite HR. cbn [negb fail_if bind]. rewrite Hprf. cbn [map_err bind].
      reflexivity. }
    destruct HG as (n & HG). exists n. split; auto.
    pose proof (freeze_generate_verifies L SL _ _ _ _ _ _ _ _ _ _ _ _ HPre' HG (py_path _ _ P) (fun i Hi => fz_path _ _ _ (HF i Hi))) as HV.
    destruct (freeze_generate_inv L _ _ _ _ _ _ _ HG) as (pp & ss & G). destruct (fg_aux _ _ _ _ _ _ _ _ _ G) as (X1 & _).
    rewrite X1 in HV. exact HV.
  Qed.

  (** ** The two wrappers *)
  Lemma transfer_non_native_live (SL : SnarkLaws S) g n_in n_out depth pk vk root vu inputs outputs f d r extra :
    transfer_preprocess g n_in n_out depth = Ok (pk, vk) -> (length inputs + 1)%nat = n_in -> (length outputs + 1)%nat = n_out ->
    payable depth f ->
    transferable depth root vu (fee_to_transfer_input (fee_input f) :: inputs) (fee_chg_ro f :: outputs) (fee_amount f) d ->
    exists n, transfer_generate_non_native r inputs outputs f vu pk extra = Ok (n, tr_sig r) /\
      ta_root (tn_aux n) = root /\ ta_fee (tn_aux n) = fee_amount f.
  Proof.
    intros HPre Li Lo P Q. unfold transfer_generate_non_native. rewrite (payable_fee _ _ P). cbn [bind].
    eapply (transfer_generate_live L SL); eauto; cbn [length]; lia.
  Qed.
  (** [chg] is the record the wrapper makes for the change *)
  Lemma transfer_native_live (SL : SnarkLaws S) g n_in n_out depth pk vk root vu i0 irest outputs fee chg r :
    transfer_preprocess g n_in n_out depth = Ok (pk, vk) -> (length irest + 1)%nat = n_in -> (length outputs + 1)%nat = n_out ->
    chg = mkRO (amount chg) asset_def_native (pub_key (ti_ro i0)) Unfrozen (tr_chg_blind r) ->
    transferable depth root vu (i0 :: irest) (chg :: outputs) fee asset_def_native ->
    exists n, transfer_generate_native r (i0 :: irest) outputs fee vu pk = Ok (n, tr_sig r, chg) /\
      ta_root (tn_aux n) = root /\ ta_fee (tn_aux n) = fee.
  Proof.
    intros HPre Li Lo Echg Q.
    destruct (transfer_generate_live L SL g n_in n_out depth pk vk root vu (i0 :: irest) (chg :: outputs) fee asset_def_native r [] HPre) as (n & HG & Hr & Hf);
      [cbn [length]; lia|cbn [length]; lia|exact Q|].
    exists n. split; [|split; assumption]. unfold transfer_generate_native.
    destruct (tq_assets _ _ _ _ _ _ _ Q) as (j0 & jrest & o0 & orest & Ei & Eo & Di & Do & HT & HI & HO & HV).
    injection Ei as E1 E2. injection Eo as E3 E4. rewrite <- E1 in Di. rewrite <- E2 in HI. rewrite <- E4 in HO. clear E1 E2 E3 E4 j0 jrest o0 orest Do HT HV.
    assert (EB : negb (is_native (asset_def (ti_ro i0)))
               || existsb (fun i => negb (ro_is_dummy (ti_ro i) || is_native (asset_def (ti_ro i)))) irest
               || existsb (fun o => negb (is_native (asset_def o))) outputs = false).
    { rewrite (proj2 (is_native_iff L _) Di). cbn [negb orb]. apply orb_false_iff. split; apply existsb_false.
      - intros i Hi. apply negb_false_iff, orb_true_iff. unfold ro_is_dummy. rewrite (is_dummy_iff L), (is_native_iff L). auto.
      - intros o Ho. apply negb_false_iff, (is_native_iff L). auto. }
    rewrite EB. cbn [fail_if bind].
    pose proof (q_sums L _ _ _ _ _ _ _ Q) as HS. pose proof (tq_amounts _ _ _ _ _ _ _ Q) as HA. rewrite amt_sum_cons in HS.
    pose proof (amt_sum_nonneg (map ti_ro (i0 :: irest))). pose proof (amt_sum_nonneg outputs). pose proof (amount_range fee).
    pose proof (amount_range (amount chg)).
    assert (S1 : safe_sum_amount (map (fun i => amount (ti_ro i)) (filter (fun i => negb (ro_is_dummy (ti_ro i))) (i0 :: irest))) =
                 Some (w128 (amt_sum (map ti_ro (i0 :: irest))))).
    { apply safe_sum_some. rewrite zv_w128_small by lia. rewrite <- (q_amt L _ _ _ _ _ _ _ Q). unfold amt_sum, non_dummy.
      rewrite <- (filter_map_comm ti_ro (fun r => negb (is_dummy_def (asset_def r)))), !map_map. reflexivity. }
    assert (S2 : safe_sum_amount (map amount outputs) = Some (w128 (amt_sum outputs))).
    { apply safe_sum_some. rewrite zv_w128_small by lia. unfold amt_sum. rewrite map_map. reflexivity. }
    rewrite S1, S2. cbn [ok_or bind].
    assert (EA : amount_add (w128 (amt_sum outputs)) fee = Ok (w128 (amt_sum outputs + zv fee))).
    { unfold amount_add. rewrite zv_w128_small by lia. destruct (Z.ltb_spec (amt_sum outputs + zv fee) u128_mod) as [_|K]; [reflexivity|].
      exfalso. assert (2 ^ 128 <= amt_sum outputs + zv fee) by exact K. lia. }
    rewrite EA. cbn [bind].
    assert (EL : amount_ltb (w128 (amt_sum (map ti_ro (i0 :: irest)))) (w128 (amt_sum outputs + zv fee)) = false).
    { unfold amount_ltb. rewrite !zv_w128_small by lia. apply Z.ltb_ge. lia. }
    rewrite EL. cbn [fail_if bind].
    rewrite amount_sub_ok by (rewrite !zv_w128_small by lia; lia). cbn [bind]. rewrite !zv_w128_small by lia.
    rewrite amount_sub_ok by (rewrite !zv_w128_small by lia; lia). cbn [bind]. rewrite !zv_w128_small by lia.
    assert (EC : w128 (amt_sum (map ti_ro (i0 :: irest)) - amt_sum outputs - zv fee) = amount chg) by (apply zmod_ext; rewrite zv_w128_small; lia).
    rewrite EC. unfold ro_new. rewrite <- Echg, HG. reflexivity.
  Qed.
End Live2.
