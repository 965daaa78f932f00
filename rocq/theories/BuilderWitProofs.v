(** The witnesses and public inputs of the mint and freeze builders satisfy the circuits exactly under the stated conditions. *)
From Verif Require Import Base Config Structs Keys Utils Memo Plonk Witness Circuits Relation CircuitLogic CodecProofs PolicyProofs
  UtilsProofs MemoProofs GadgetProofs StructGadgetProofs SpendGadgetProofs TransferCircuitProofs MintCircuitProofs
  FreezeCircuitProofs CircuitShape CircuitTheorems Snark Notes NoteProofs NoteGen NoteGen2 NoteFacts Security NoteLive NoteLive2 NoteThms
  Serde Ledger Wallet Builder BuilderSpec BuilderWit.

Section WitProofs.
  Context {C : CapConfig} {S : Snark C} {K : @RoCodec C} {E : MemoSer C} (L : CapLaws C).

  Lemma policy_empty_default (q : AssetPolicy) : policy_empty (pol_value q) -> q = policy_default.
  Proof.
    intros H. apply (pol_value_inj L). destruct (policy_empty_native L _ eq_refl) as [H0 _]. cbn [policy asset_def_native] in H0.
    destruct (pol_value q) as [a b c d e], (pol_value policy_default) as [a' b' c' d' e']. unfold policy_empty in *. cbn in *.
    destruct H as (-> & -> & -> & -> & ->), H0 as (-> & -> & -> & -> & ->). reflexivity.
  Qed.
  Lemma flag_zero (r : RecordOpening) : ro_flag (ro_value r) = f0 -> freeze_flag r = Unfrozen.
  Proof. cbn [ro_flag ro_value]. destruct (freeze_flag r); auto. intros H. symmetry in H. apply f0_neq_f1 in H. destruct H. Qed.
  Lemma unfrozen_flag (r : RecordOpening) : freeze_flag r = Unfrozen -> ro_flag (ro_value r) = f0.
  Proof. cbn [ro_flag ro_value]. intros ->. reflexivity. Qed.

  (** ** Mint *)
  Definition mint_paid (bl : F) (b : MintBuilder) : RecordOpening :=
    ro_new bl (w128 (zv (amount (mb_fee_ro b)) - zv (mb_fee b))) (asset_def (mb_fee_ro b)) (pub_key (mb_fee_ro b)) Unfrozen.

  Lemma mb_build_ok bl enc b : mint_payable b -> exists w p, mb_build_witness_and_public_input bl enc b = Ok (w, p) /\
      w = mkMW (mb_minter b) (mb_acc b) (mb_fee_ro b) (mb_mint_ro b) (mint_paid bl b) (mb_seed b) (digest_from_description (mb_description b)) enc /\
      p = mkMPI (acc_root (mb_acc b)) native_asset_code
            (user_nullify (mb_minter b) pt_id (acc_uid (mb_acc b)) (derive_record_commitment (mb_fee_ro b)))
            (mb_fee b) (derive_record_commitment (mb_mint_ro b)) (derive_record_commitment (mint_paid bl b)) (amount (mb_mint_ro b))
            (new_domestic (mb_seed b) (mb_description b)) (internal_new (mb_seed b) (mb_description b)) (policy (asset_def (mb_mint_ro b)))
            (memo_for_mint_note (mb_mint_ro b) enc).
  Proof.
    intros (HN & HF). pose proof (amount_range (amount (mb_fee_ro b))) as R1. pose proof (amount_range (mb_fee b)) as R2.
    do 2 eexists. split; [|split; reflexivity].
    unfold mb_build_witness_and_public_input, mb_build_witness.
    assert (E1 : amount_ltb (amount (mb_fee_ro b)) (mb_fee b) = false) by (unfold amount_ltb; apply Z.ltb_ge; lia).
    rewrite E1. cbn [negb]. rewrite amount_sub_ok by lia. cbn [bind].
    unfold mint_from_witness. cbn [mw_kp mw_acc mw_fee_ro mw_mint_ro mw_chg_ro mw_seed mw_digest mw_rand].
    assert (EA : zv (amount (mb_fee_ro b)) = zv (mb_fee b) + zv (amount (mint_paid bl b))).
    { unfold mint_paid, ro_new. cbn [amount]. rewrite zv_w128_small by lia. lia. }
    destruct (fee_diff _ _ _ EA) as [E2 E3]. fold (mint_paid bl b). rewrite E2, E3. cbn [fail_if bind].
    replace (asset_def (mint_paid bl b)) with (asset_def (mb_fee_ro b)) by reflexivity. rewrite HN.
    rewrite (proj2 (is_native_iff L _) eq_refl). cbn [negb fail_if bind]. reflexivity.
  Qed.
  Lemma mb_build_err bl enc b : ~ mint_payable b -> mb_build_witness_and_public_input bl enc b = Err InvalidParameter.
  Proof.
    intros HN. unfold mb_build_witness_and_public_input, mb_build_witness.
    pose proof (amount_range (amount (mb_fee_ro b))) as R1. pose proof (amount_range (mb_fee b)) as R2.
    destruct (amount_ltb (amount (mb_fee_ro b)) (mb_fee b)) eqn:E1; cbn [negb].
    - cbn [bind]. unfold mint_from_witness. cbn [mw_fee_ro mw_chg_ro ro_new amount].
      assert (E2 : amount_ltb (amount (mb_fee_ro b)) (w128 (2 ^ 128 - 1)) = true).
      { unfold amount_ltb in *. apply Z.ltb_lt in E1. apply Z.ltb_lt. rewrite zv_w128_small by lia. lia. }
      rewrite E2. reflexivity.
    - unfold amount_ltb in E1. apply Z.ltb_ge in E1. rewrite amount_sub_ok by lia. cbn [bind].
      unfold mint_from_witness. cbn [mw_kp mw_acc mw_fee_ro mw_mint_ro mw_chg_ro mw_seed mw_digest mw_rand ro_new amount asset_def].
      assert (E2 : amount_ltb (amount (mb_fee_ro b)) (w128 (zv (amount (mb_fee_ro b)) - zv (mb_fee b))) = false)
        by (unfold amount_ltb; apply Z.ltb_ge; rewrite zv_w128_small by lia; lia).
      rewrite E2. cbn [fail_if bind].
      destruct (is_native (asset_def (mb_fee_ro b))) eqn:E3; [|reflexivity]. exfalso. apply HN. split; [apply (is_native_iff L); auto|lia].
  Qed.

  Lemma mb_circuit g depth pk vk bl enc b w p : mint_preprocess g depth = Ok (pk, vk) -> length (acc_path (mb_acc b)) = depth ->
    mb_build_witness_and_public_input bl enc b = Ok (w, p) ->
    exists s, mint_circuit w p = Ok s /\ (check_circuit_satisfiability s (mint_to_scalars p) = true <-> mint_holds b).
  Proof.
    intros HPre HD HB.
    assert (HN : mint_payable b).
    { assert (D : mint_payable b \/ ~ mint_payable b).
      { unfold mint_payable. destruct (asset_def_eqb (asset_def (mb_fee_ro b)) asset_def_native) eqn:E1.
        - apply (asset_def_eqb_spec L) in E1. destruct (Z_le_gt_dec (zv (mb_fee b)) (zv (amount (mb_fee_ro b)))); [left|right]; intuition lia.
        - right. intros [E2 _]. apply (asset_def_eqb_spec L) in E2. congruence. }
      destruct D as [D|D]; auto. rewrite (mb_build_err bl enc b D) in HB. discriminate. }
    destruct (mb_build_ok bl enc b HN) as (w' & p' & HB' & Ew & Ep). rewrite HB in HB'.
    assert (w' = w /\ p' = p) as [-> ->] by (split; congruence). clear HB'.
    assert (Hp : mint_from_witness w = Ok p).
    { unfold mb_build_witness_and_public_input in HB. apply bind_ok in HB. destruct HB as (w1 & _ & HB). apply bind_ok in HB.
      destruct HB as (p1 & Hp & HB). injection HB as <- <-. exact Hp. }
    apply mint_preprocess_keys in HPre. destruct HPre as (s0 & Hb & _).
    destruct (mint_honest_circuit _ _ _ _ Hb Hp) as (s & Hs & _); [rewrite Ew; exact HD|].
    exists s. split; auto. rewrite (mint_honest _ _ _ Hs). clear Hs Hp HB Hb s0 s.
    destruct HN as (N1 & HF). pose proof (amount_range (amount (mb_fee_ro b))) as R1. pose proof (amount_range (mb_fee b)) as R2.
    rewrite Ew, Ep. clear Ew Ep w p. split.
    - intros HR. destruct HR.
      cbn [mint_pub_value mint_value mq_root mq_native mq_nullifier mq_fee mq_mint_rc mq_chg_rc mq_amount mq_code
        mq_internal mq_pol mq_memo mp_root mp_native mp_nullifier mp_fee mp_mint_rc mp_chg_rc mp_mint_amount mp_mint_ac mp_mint_internal_ac
        mp_policy mp_memo mv_mint mv_sk mv_fee_ro mv_place mv_chg mv_seed mv_digest mv_rand mw_kp mw_acc mw_fee_ro mw_mint_ro mw_chg_ro mw_seed mw_digest mw_rand] in *.
      constructor.
      + apply (owns_iff L) in mr_owner. exact mr_owner.
      + rewrite commitment_of_ro_value in mr_member. exact mr_member.
      + destruct mr_unfrozen as (U1 & U2 & _). split; apply flag_zero; auto.
      + apply in_range_amount. exact mr_range.
      + exact mr_code.
    - intros [O M [U1 U2] A CD].
      destruct (policy_empty_native L _ N1) as [E1 C1].
      constructor; cbn [mint_pub_value mint_value mq_root mq_native mq_nullifier mq_fee mq_mint_rc mq_chg_rc mq_amount mq_code
        mq_internal mq_pol mq_memo mp_root mp_native mp_nullifier mp_fee mp_mint_rc mp_chg_rc mp_mint_amount mp_mint_ac mp_mint_internal_ac
        mp_policy mp_memo mv_mint mv_sk mv_fee_ro mv_place mv_chg mv_seed mv_digest mv_rand mw_kp mw_acc mw_fee_ro mw_mint_ro mw_chg_ro mw_seed mw_digest mw_rand];
        rewrite ?commitment_of_ro_value; auto.
      + cbn [ro_amount ro_value]. apply fadd_u128. unfold mint_paid, ro_new. cbn [amount]. rewrite zv_w128_small by lia. lia.
      + cbn [ro_owner ro_value]. apply (owns_iff L). exact O.
      + cbn [ro_pol ro_value pol_value po_freezer]. rewrite N1. cbn [policy asset_def_native].
        rewrite (spending_key_user L). reflexivity.
      + repeat split; apply unfrozen_flag; auto.
      + apply in_range_amount. exact A.
      + apply scalar_ok_fr.
      + cbn [pol_value po_viewer ro_pol ro_value].
        destruct (point_eqb (viewer_pk (policy (asset_def (mb_mint_ro b)))) pt_id) eqn:Ev.
        * left. apply (point_eqb_spec L) in Ev. apply (is_no_key L). exact Ev.
        * right. rewrite (celgamal_honest L). f_equal. unfold memo_for_mint_note. rewrite Ev. reflexivity.
  Qed.

  (** ** Freeze *)
  Definition freeze_paid (bl : F) (b : FreezeBuilder) : TxnFeeInfo :=
    mkFeeInfo (fb_fee_in b) (fb_fee b)
      (ro_new bl (w128 (zv (amount (fb_fee_ro b)) - zv (fb_fee b))) asset_def_native (pub_key (fb_fee_ro b)) Unfrozen).

  Lemma fb_outs_length blinds (l : list FreezeNoteInput) : length (freeze_get_output_ros blinds l) = length l.
  Proof. unfold freeze_get_output_ros. rewrite map_length, combine_length, seq_length. lia. Qed.

  Lemma fb_fee_info bl b : zv (fb_fee b) <= zv (amount (fb_fee_ro b)) ->
    txn_fee_info_new bl (fb_fee_in b) (fb_fee b) = Ok (freeze_paid bl b, fee_chg_ro (freeze_paid bl b)).
  Proof.
    intros H. unfold txn_fee_info_new. fold (fb_fee_ro b).
    assert (E1 : amount_ltb (amount (fb_fee_ro b)) (fb_fee b) = false) by (unfold amount_ltb; apply Z.ltb_ge; lia).
    rewrite E1, amount_sub_ok by lia. reflexivity.
  Qed.
  Lemma fb_build_ok bl blinds b : zv (fb_fee b) <= zv (amount (fb_fee_ro b)) -> fb_inputs b <> [] ->
    exists w p, fb_build_witness_and_public_input bl blinds b = Ok (w, p) /\
      w = freeze_new_unchecked (fb_inputs b) (freeze_get_output_ros blinds (fb_inputs b)) (freeze_paid bl b) /\
      freeze_from_witness w = Ok p /\
      p = mkFPI (acc_root (fi_acc (fb_fee_in b))) native_asset_code (fb_fee b) (fb_nullifiers b)
            (map derive_record_commitment (fee_chg_ro (freeze_paid bl b) :: freeze_get_output_ros blinds (fb_inputs b))).
  Proof.
    intros HF HN. pose proof (amount_range (amount (fb_fee_ro b))) as R1. pose proof (amount_range (fb_fee b)) as R2.
    set (w := freeze_new_unchecked (fb_inputs b) (freeze_get_output_ros blinds (fb_inputs b)) (freeze_paid bl b)).
    set (p := mkFPI (acc_root (fi_acc (fb_fee_in b))) native_asset_code (fb_fee b) (fb_nullifiers b)
            (map derive_record_commitment (fee_chg_ro (freeze_paid bl b) :: freeze_get_output_ros blinds (fb_inputs b)))).
    assert (HP : freeze_from_witness w = Ok p).
    { unfold freeze_from_witness, w, freeze_new_unchecked. cbn [fw_inputs fw_accs fw_outputs fw_fee_kp fw_keys length].
      rewrite !map_length, fb_outs_length, Nat.eqb_refl, (Nat.add_comm (length (fb_inputs b)) 1). cbn [Nat.add]. rewrite Nat.eqb_refl.
      assert (EA : zv (amount (fi_ro (fee_input (freeze_paid bl b)))) = zv (fb_fee b) + zv (amount (fee_chg_ro (freeze_paid bl b)))).
      { unfold freeze_paid, ro_new. cbn [fee_input fee_chg_ro amount]. fold (fb_fee_ro b). rewrite zv_w128_small by lia. lia. }
      destruct (fee_diff _ _ _ EA) as [E1 E2].
      assert (E0 : (Datatypes.S (length (fb_inputs b)) <=? 1)%nat = false) by (apply Nat.leb_gt; destruct (fb_inputs b); [congruence|cbn; lia]).
      rewrite E0, E1, E2. cbn [negb fail_if bind]. rewrite map_freeze_nullifiers. reflexivity. }
    exists w, p. conjs; auto. unfold fb_build_witness_and_public_input, fb_build_witness.
    rewrite (fb_fee_info bl b HF). cbn [unwrap bind fst]. unfold fb_output_ros. fold w. rewrite HP. reflexivity.
  Qed.
  Lemma fb_build_panic bl blinds b : ~ (zv (fb_fee b) <= zv (amount (fb_fee_ro b)) /\ fb_inputs b <> []) ->
    fb_build_witness_and_public_input bl blinds b = Panic.
  Proof.
    intros HN. unfold fb_build_witness_and_public_input, fb_build_witness.
    destruct (Z_le_gt_dec (zv (fb_fee b)) (zv (amount (fb_fee_ro b)))) as [H|H].
    - rewrite (fb_fee_info bl b H). cbn [unwrap bind fst]. destruct (fb_inputs b) as [|i l] eqn:Ei.
      + unfold fb_output_ros. rewrite Ei. reflexivity.
      + exfalso. apply HN. split; [lia|discriminate].
    - unfold txn_fee_info_new. fold (fb_fee_ro b).
      assert (E1 : amount_ltb (amount (fb_fee_ro b)) (fb_fee b) = true) by (unfold amount_ltb; apply Z.ltb_lt; lia).
      rewrite E1. reflexivity.
  Qed.

  (** the pairs of the circuit *)
  Lemma fb_pair b (blinds : nat -> F) q i n : freeze_holds b -> (forall j, In j (fb_inputs b) -> address (pub_key (zi_ro j)) <> pt_id) ->
    fq_root q = acc_root (fi_acc (fb_fee_in b)) -> In i (fb_inputs b) ->
    pair_ok q (mkPairV (ro_value (zi_ro i)) (place_value (zi_acc i)) (fr_to_fq (zi_kp i)) (ro_value (freeze_flip_ro (blinds n) (zi_ro i))))
      (freezer_nullify (zi_kp i) (address (pub_key (zi_ro i))) (acc_uid (zi_acc i)) (derive_record_commitment (zi_ro i)))
      (derive_record_commitment (freeze_flip_ro (blinds n) (zi_ro i))).
  Proof.
    intros HF HA Hq Hi. constructor; cbn [fz_in fz_place fz_sk fz_out]; rewrite ?commitment_of_ro_value; auto.
    - cbn [ro_flag ro_value freeze_flip_ro freeze_flag]. destruct (freeze_flag (zi_ro i)); cbn [flip flag_bool fbool]; [apply fadd_0_l || apply fadd_0_r|apply fadd_0_r || apply fadd_0_l].
    - cbn [ro_flag ro_value freeze_flip_ro freeze_flag]. split; apply is_bool_fbool.
    - cbn [ro_pol ro_value pol_value po_freezer ro_code]. intros EE. apply (is_no_key L) in EE. unfold is_dummy_code.
      destruct (zeqb (code (asset_def (zi_ro i))) dummy_asset_code) eqn:Ed; [apply zeqb_spec in Ed; exact Ed|].
      exfalso. apply (fh_freezable _ HF i Hi); auto. intros E'. apply zeqb_spec in E'. congruence.
    - cbn [ro_pol ro_value pol_value po_freezer]. rewrite (fh_freezer _ HF i Hi). apply owns_key.
    - cbn [ro_code ro_value]. intros Hd. rewrite Hq. exact (proj2 (fh_freezable _ HF i Hi Hd)).
    - cbn [ro_owner ro_value]. rewrite (spending_key_freezer L) by (apply HA; auto). reflexivity.
  Qed.
  Lemma fb_pairs b (blinds : nat -> F) q : freeze_holds b -> (forall j, In j (fb_inputs b) -> address (pub_key (zi_ro j)) <> pt_id) ->
    fq_root q = acc_root (fi_acc (fb_fee_in b)) -> forall l k, (forall i, In i l -> In i (fb_inputs b)) ->
    Forall3 (pair_ok q)
      (pair_up (map ro_value (map zi_ro l)) (map place_value (map zi_acc l)) (map fr_to_fq (map zi_kp l))
               (map ro_value (map (fun ni => freeze_flip_ro (blinds (fst ni)) (zi_ro (snd ni))) (combine (seq k (length l)) l))))
      (map (fun i => freezer_nullify (zi_kp i) (address (pub_key (zi_ro i))) (acc_uid (zi_acc i)) (derive_record_commitment (zi_ro i))) l)
      (map derive_record_commitment (map (fun ni => freeze_flip_ro (blinds (fst ni)) (zi_ro (snd ni))) (combine (seq k (length l)) l))).
  Proof.
    intros HF HA Hq. induction l as [|i l IH]; intros k Hl; cbn [map pair_up length seq combine fst snd]; constructor.
    - eapply fb_pair; eauto. apply Hl; left; auto.
    - apply IH. intros; apply Hl; right; auto.
  Qed.

  Lemma fb_circuit g fk num depth pk vk bl blinds b w p :
    freeze_preprocess g fk num depth = Ok (pk, vk) -> (length (fb_inputs b) + 1)%nat = num ->
    length (acc_path (fi_acc (fb_fee_in b))) = depth -> (forall i, In i (fb_inputs b) -> length (acc_path (zi_acc i)) = depth) ->
    (forall i, In i (fb_inputs b) -> address (pub_key (zi_ro i)) <> pt_id) ->
    fb_build_witness_and_public_input bl blinds b = Ok (w, p) ->
    exists s, freeze_circuit_unchecked w p = Ok s /\ (check_circuit_satisfiability s (freeze_to_scalars p) = true <-> freeze_holds b).
  Proof.
    intros HPre HNum HD HDs HA HB.
    assert (HN : zv (fb_fee b) <= zv (amount (fb_fee_ro b)) /\ fb_inputs b <> []).
    { destruct (Z_le_gt_dec (zv (fb_fee b)) (zv (amount (fb_fee_ro b)))) as [H|H].
      - split; auto. intros E1. rewrite (fb_build_panic bl blinds b) in HB; [discriminate|]. intros [_ E2]. auto.
      - rewrite (fb_build_panic bl blinds b) in HB; [discriminate|]. intros [E2 _]. lia. }
    destruct HN as [HF HN].
    destruct (fb_build_ok bl blinds b HF HN) as (w' & p' & HB' & Ew & Hp & Ep). rewrite HB in HB'.
    assert (w' = w /\ p' = p) as [-> ->] by (split; congruence). clear HB'.
    apply freeze_preprocess_keys in HPre. destruct HPre as (s0 & Hb & _).
    destruct (freeze_honest_circuit _ _ _ _ _ _ Hb Hp) as (s & Hs & _).
    { rewrite Ew. cbn [freeze_new_unchecked fw_inputs length]. rewrite map_length. lia. }
    { rewrite Ew. cbn [freeze_new_unchecked fw_accs]. constructor; [exact HD|]. rewrite Forall_map. apply Forall_forall. exact HDs. }
    exists s. split; auto. rewrite (freeze_honest _ _ _ (proj1 (freeze_from_witness_lengths _ _ Hp)) Hs). clear Hs Hp HB Hb s0 s.
    pose proof (amount_range (amount (fb_fee_ro b))) as R1. pose proof (amount_range (fb_fee b)) as R2.
    rewrite Ew, Ep. clear Ew Ep w p.
    unfold freeze_value, freeze_new_unchecked, freeze_of_lists. cbn [fw_inputs fw_accs fw_outputs fw_fee_kp fw_keys map hd tl].
    split.
    - intros HR. destruct HR.
      cbn [freeze_pub_value fp_root fp_native fp_fee fp_nullifiers fp_commitments fq_root fq_native fq_fee fq_nullifiers fq_commitments
        fv_fee_ro fv_place fv_sk fv_chg fv_pairs hd_error tl] in *.
      cbn [freeze_paid fee_input fee_chg_ro fee_amount] in *. change (fi_ro (fb_fee_in b)) with (fb_fee_ro b) in *.
      assert (HX : forall i, In i (fb_inputs b) -> exists x nl rc, fz_in x = ro_value (zi_ro i) /\ fz_place x = place_value (zi_acc i) /\
                fz_sk x = fr_to_fq (zi_kp i) /\
                pair_ok (freeze_pub_value (mkFPI (acc_root (fi_acc (fb_fee_in b))) native_asset_code (fb_fee b) (fb_nullifiers b)
                   (map derive_record_commitment (fee_chg_ro (freeze_paid bl b) :: freeze_get_output_ros blinds (fb_inputs b))))) x nl rc).
      { intros i Hi. destruct (pair_up_In (fb_inputs b) (freeze_get_output_ros blinds (fb_inputs b)) i (fb_outs_length _ _) Hi) as (x & Hx & X1 & X2 & X3).
        destruct (Forall3_In _ _ _ _ _ fr_pairs Hx) as (nl & rc & HP). exists x, nl, rc. conjs; auto. }
      constructor.
      + destruct fr_native as [F1 _], fr_empty as [F2 _]. apply policy_empty_default in F2. cbn [ro_code ro_value] in F1.
        destruct (asset_def (fb_fee_ro b)) as [c q]. cbn [code policy] in *. unfold asset_def_native. congruence.
      + apply flag_zero. apply fr_unfrozen.
      + apply (owns_iff L) in fr_owner. exact fr_owner.
      + rewrite commitment_of_ro_value in fr_member. exact fr_member.
      + intros i Hi. destruct (HX i Hi) as (x & nl & rc & X1 & X2 & X3 & HP). pose proof (po_owner _ _ _ _ HP) as HO. rewrite X3, X1 in HO.
        apply (owns_iff L) in HO. exact HO.
      + intros i Hi Hd. destruct (HX i Hi) as (x & nl & rc & X1 & X2 & X3 & HP). split.
        * intros E1. apply Hd. pose proof (po_freezable _ _ _ _ HP) as HO. rewrite X1 in HO. apply HO. cbn [ro_pol ro_value pol_value po_freezer].
          apply (is_no_key L). exact E1.
        * pose proof (po_member _ _ _ _ HP) as HO. rewrite X1, X2, commitment_of_ro_value in HO. apply HO. exact Hd.
    - intros HH. pose proof HH as [N1 U1 O M FK FZ].
      destruct (policy_empty_native L _ N1) as [E1 C1]. destruct (policy_empty_native L _ eq_refl) as [E2 C2].
      unfold fb_nullifiers.
      constructor; cbn [freeze_pub_value fp_root fp_native fp_fee fp_nullifiers fp_commitments fq_root fq_native fq_fee fq_nullifiers fq_commitments
        fv_fee_ro fv_place fv_sk fv_chg fv_pairs hd_error tl map]; cbn [freeze_paid fee_input fee_chg_ro fee_amount]; change (fi_ro (fb_fee_in b)) with (fb_fee_ro b);
        rewrite ?commitment_of_ro_value; auto.
      + split; apply unfrozen_flag; auto.
      + cbn [ro_amount ro_value]. apply fadd_u128. unfold ro_new. cbn [amount]. rewrite zv_w128_small by lia. lia.
      + cbn [ro_owner ro_value]. apply (owns_iff L). exact O.
      + cbn [ro_pol ro_value pol_value po_freezer]. rewrite N1. cbn [policy asset_def_native]. rewrite (spending_key_user L). reflexivity.
      + apply (fb_pairs b blinds _ HH HA); auto.
  Qed.
End WitProofs.
