(** Proofs about note verification and generation: what an accepted note establishes, what a generated note contains,
    and that generated notes verify. *)
From Verif Require Import Base Config Structs Keys Utils Memo Plonk Witness Circuits Relation CircuitLogic CodecProofs PolicyProofs
  UtilsProofs MemoProofs GadgetProofs StructGadgetProofs SpendGadgetProofs TransferCircuitProofs MintCircuitProofs
  FreezeCircuitProofs CircuitShape CircuitTheorems Snark Notes.

Ltac bindH H x Hx := apply bind_ok in H; destruct H as (x & Hx & H).
Ltac failH H := let u := fresh "u" in let Hx := fresh "K" in
  apply bind_ok in H; destruct H as (u & Hx & H); apply fail_if_ok in Hx; clear u.

Section Verify.
  Context {C : CapConfig} {S : Snark C}.

  Definition transfer_note_public (n : TransferNote) : TransferPublicInput :=
    mkTPI (ta_root (tn_aux n)) native_asset_code (ta_valid_until (tn_aux n)) (ta_fee (tn_aux n)) (tn_nullifiers n)
          (tn_commitments n) (tn_memo n).
  Definition mint_note_public (n : MintNote) : MintPublicInput :=
    mkMPI (ma_root (mn_aux n)) native_asset_code (mn_nullifier n) (ma_fee (mn_aux n)) (mn_mint n) (mn_chg n) (mn_amount n)
          (code (mn_def n)) (mn_internal n) (policy (mn_def n)) (mn_memo n).
  Definition freeze_note_public (n : FreezeNote) : FreezePublicInput :=
    mkFPI (fa_root (fn_aux n)) native_asset_code (fa_fee (fn_aux n)) (fn_nullifiers n) (fn_commitments n).

  Lemma transfer_check_instance_iff n root ts p :
    transfer_check_instance n root ts = Ok p <->
    root = ta_root (tn_aux n) /\ zv ts <= zv (ta_valid_until (tn_aux n)) /\ p = transfer_note_public n.
  Proof.
    unfold transfer_check_instance. split.
    - intros H. failH H. failH H. apply negb_false_iff, zeqb_spec in K. apply Z.ltb_ge in K0. injection H as <-.
      subst. auto.
    - intros (-> & Ht & ->). rewrite zeqb_refl. cbn [negb fail_if bind].
      destruct (Z.ltb_spec (zv (ta_valid_until (tn_aux n))) (zv ts)); [lia|]. reflexivity.
  Qed.
  Lemma transfer_verify_iff n vk root ts :
    transfer_verify n vk root ts = Ok tt <->
    root = ta_root (tn_aux n) /\ zv ts <= zv (ta_valid_until (tn_aux n)) /\
    snark_verify (tvk_key vk) (transfer_to_scalars (transfer_note_public n)) (tn_proof n)
                 (ser_verkey (ta_memo_vk (tn_aux n)) ++ ta_extra (tn_aux n)) = true.
  Proof.
    unfold transfer_verify. rewrite bind_ok. split.
    - intros (p & Hp & H). apply transfer_check_instance_iff in Hp. destruct Hp as (-> & Ht & ->).
      apply fail_if_ok, negb_false_iff in H. auto.
    - intros (-> & Ht & H). exists (transfer_note_public n). split; [apply transfer_check_instance_iff; auto|].
      unfold transfer_proof_verify. rewrite H. reflexivity.
  Qed.
  Lemma mint_check_instance_iff n root p :
    mint_check_instance n root = Ok p <-> root = ma_root (mn_aux n) /\ p = mint_note_public n.
  Proof.
    unfold mint_check_instance. split.
    - intros H. failH H. apply negb_false_iff, zeqb_spec in K. injection H as <-. subst. auto.
    - intros (-> & ->). rewrite zeqb_refl. reflexivity.
  Qed.
  Lemma mint_verify_iff n vk root :
    mint_verify n vk root = Ok tt <->
    root = ma_root (mn_aux n) /\ code (mn_def n) = new_domestic_from_internal (mn_internal n) /\
    snark_verify (mvk_key vk) (mint_to_scalars (mint_note_public n)) (mn_proof n) (ser_verkey (ma_memo_vk (mn_aux n))) = true.
  Proof.
    unfold mint_verify. rewrite bind_ok. split.
    - intros (p & Hp & H). apply mint_check_instance_iff in Hp. destruct Hp as (-> & ->).
      bindH H u Hd. unfold verify_domestic in Hd.
      destruct (zeqb_reflect (new_domestic_from_internal (mn_internal n)) (code (mn_def n))) as [E|]; [|discriminate].
      apply fail_if_ok, negb_false_iff in H. auto.
    - intros (-> & E & H). exists (mint_note_public n). split; [apply mint_check_instance_iff; auto|].
      unfold verify_domestic. rewrite E, zeqb_refl. cbn [bind]. unfold mint_proof_verify. rewrite H. reflexivity.
  Qed.
  Lemma freeze_check_instance_iff n root p :
    freeze_check_instance n root = Ok p <-> root = fa_root (fn_aux n) /\ p = freeze_note_public n.
  Proof.
    unfold freeze_check_instance. split.
    - intros H. failH H. apply negb_false_iff, zeqb_spec in K. injection H as <-. subst. auto.
    - intros (-> & ->). rewrite zeqb_refl. reflexivity.
  Qed.
  Lemma freeze_verify_iff n vk root :
    freeze_verify n vk root = Ok tt <->
    root = fa_root (fn_aux n) /\
    snark_verify (fvk_key vk) (freeze_to_scalars (freeze_note_public n)) (fn_proof n) (ser_verkey (fa_memo_vk (fn_aux n))) = true.
  Proof.
    unfold freeze_verify. rewrite bind_ok. split.
    - intros (p & Hp & H). apply freeze_check_instance_iff in Hp. destruct Hp as (-> & ->).
      apply fail_if_ok, negb_false_iff in H. auto.
    - intros (-> & H). exists (freeze_note_public n). split; [apply freeze_check_instance_iff; auto|].
      unfold freeze_proof_verify. rewrite H. reflexivity.
  Qed.

  (** keys come from circuits *)
  Lemma transfer_preprocess_keys g n_in n_out d pk vk : transfer_preprocess g n_in n_out d = Ok (pk, vk) ->
    exists s0, transfer_build_for_preprocessing n_in n_out d = Ok s0 /\
      snark_preprocess g s0 = Ok (tpk_key pk, tvk_key vk) /\
      tpk_n_in pk = n_in /\ tpk_n_out pk = n_out /\ tpk_depth pk = d /\ tvk_n_in vk = n_in /\ tvk_n_out vk = n_out /\ tvk_depth vk = d.
  Proof.
    unfold transfer_preprocess. intros H. bindH H s0 H0. bindH H k Hk. apply map_err_ok in Hk. injection H as <- <-.
    exists s0. cbn. rewrite Hk. destruct k. conjs; auto.
  Qed.
  Lemma mint_preprocess_keys g d pk vk : mint_preprocess g d = Ok (pk, vk) ->
    exists s0, mint_build_for_preprocessing d = Ok s0 /\ snark_preprocess g s0 = Ok (mpk_key pk, mvk_key vk) /\
      mpk_depth pk = d /\ mvk_depth vk = d.
  Proof.
    unfold mint_preprocess. intros H. bindH H s0 H0. bindH H k Hk. apply map_err_ok in Hk. injection H as <- <-.
    exists s0. cbn. rewrite Hk. destruct k. conjs; auto.
  Qed.
  Lemma freeze_preprocess_keys g fk n d pk vk : freeze_preprocess g fk n d = Ok (pk, vk) ->
    exists s0, freeze_build_for_preprocessing fk d n = Ok s0 /\ snark_preprocess g s0 = Ok (fpk_key pk, fvk_key vk) /\
      fpk_depth pk = d /\ fvk_depth vk = d /\ fpk_num_input pk = n /\ fvk_num_input vk = n.
  Proof.
    unfold freeze_preprocess. intros H. bindH H s0 H0. bindH H k Hk. apply map_err_ok in Hk. injection H as <- <-.
    exists s0. cbn. rewrite Hk. destruct k. conjs; auto.
  Qed.

  Context (L : CapLaws C) (SL : SnarkLaws S).

  (** What an accepted note establishes.  The verifier itself does not compare the numbers of nullifiers and
      commitments with the key, so that is a hypothesis. *)
  Lemma transfer_verify_sound g n_in n_out d pk vk n root ts :
    transfer_preprocess g n_in n_out d = Ok (pk, vk) -> transfer_verify n vk root ts = Ok tt ->
    length (tn_nullifiers n) = n_in -> length (tn_commitments n) = n_out ->
    root = ta_root (tn_aux n) /\ zv ts <= zv (ta_valid_until (tn_aux n)) /\
    length (vm_data (tn_memo n)) = (1 + (n_in - 1) * 12 + (n_out - 1) * 4)%nat /\
    exists t, length (tv_ins t) = n_in /\ length (tv_outs t) = n_out /\ transfer_depth d t /\
              transfer_relation (transfer_pub_value (transfer_note_public n)) t.
  Proof.
    intros HP HV L1 L2. apply transfer_preprocess_keys in HP. destruct HP as (s0 & Hb & Hk & _).
    apply transfer_verify_iff in HV. destruct HV as (-> & Ht & HV).
    destruct (snark_sound _ SL _ _ _ _ _ _ _ Hk HV) as (rho & Hs).
    destruct (transfer_key_sound L _ _ _ _ _ _ Hb Hs) as (q & t & E & M1 & M2 & M3 & HD & HR).
    rewrite <- transfer_scalars_api in E. apply transfer_scalars_inj in E; [|exact (eq_trans L1 (eq_sym M1))|exact (eq_trans L2 (eq_sym M2))].
    subst q. conjs; auto. exists t.
    assert (HF : forall A B (P : bool -> A -> B -> Prop) l k, Forall2_first P l k -> length l = length k).
    { clear. intros A B P [|x l] [|y k] H; cbn in *; try tauto. destruct H as [_ H]. f_equal. induction H; cbn; congruence. }
    conjs; auto.
    - rewrite (HF _ _ _ _ _ (tr_inputs _ _ HR)). exact L1.
    - rewrite (HF _ _ _ _ _ (tr_outputs _ _ HR)). exact L2.
  Qed.
  Lemma mint_verify_sound g d pk vk n root : mint_preprocess g d = Ok (pk, vk) -> mint_verify n vk root = Ok tt ->
    root = ma_root (mn_aux n) /\ code (mn_def n) = new_domestic_from_internal (mn_internal n) /\
    length (vm_data (mn_memo n)) = 3%nat /\
    exists t, length (pl_path (mv_place t)) = d /\ mint_relation (mint_pub_value (mint_note_public n)) t.
  Proof.
    intros HP HV. apply mint_preprocess_keys in HP. destruct HP as (s0 & Hb & Hk & _).
    apply mint_verify_iff in HV. destruct HV as (-> & Hc & HV).
    destruct (snark_sound _ SL _ _ _ _ _ _ _ Hk HV) as (rho & Hs).
    destruct (mint_key_sound _ _ _ _ Hb Hs) as (q & t & E & M1 & M2 & HR).
    rewrite <- mint_scalars_api in E. apply mint_scalars_inj in E. subst q. conjs; auto. exists t. auto.
  Qed.
  (** the part of the previous statement that batch verification keeps *)
  Lemma mint_proof_sound g d pk vk n msg : mint_preprocess g d = Ok (pk, vk) ->
    snark_verify (mvk_key vk) (mint_to_scalars (mint_note_public n)) (mn_proof n) msg = true ->
    exists t, length (pl_path (mv_place t)) = d /\ mint_relation (mint_pub_value (mint_note_public n)) t.
  Proof.
    intros HP HV. apply mint_preprocess_keys in HP. destruct HP as (s0 & Hb & Hk & _).
    destruct (snark_sound _ SL _ _ _ _ _ _ _ Hk HV) as (rho & Hs).
    destruct (mint_key_sound _ _ _ _ Hb Hs) as (q & t & E & M1 & M2 & HR).
    rewrite <- mint_scalars_api in E. apply mint_scalars_inj in E. subst q. exists t; auto.
  Qed.
  Lemma freeze_verify_sound g fk num d pk vk n root : freeze_preprocess g fk num d = Ok (pk, vk) ->
    freeze_verify n vk root = Ok tt -> length (fn_nullifiers n) = num ->
    root = fa_root (fn_aux n) /\ length (fn_commitments n) = num /\
    exists t, freeze_depth d t /\ freeze_relation (freeze_pub_value (freeze_note_public n)) t.
  Proof.
    intros HP HV L1. apply freeze_preprocess_keys in HP. destruct HP as (s0 & Hb & Hk & _).
    apply freeze_verify_iff in HV. destruct HV as (-> & HV).
    destruct (snark_sound _ SL _ _ _ _ _ _ _ Hk HV) as (rho & Hs).
    destruct (freeze_key_sound _ _ _ _ _ _ Hb Hs) as (q & t & E & M1 & M2 & HD & HR).
    rewrite <- freeze_scalars_api in E. apply freeze_scalars_inj in E; [|exact (eq_trans L1 (eq_sym M1))]. subst q. conjs; auto. eauto.
  Qed.
End Verify.
