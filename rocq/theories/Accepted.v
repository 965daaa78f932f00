(** What an accepted note establishes, fact by fact.  The statements about the values behind a note say "every
    opening of the note", where an opening is a tuple of values related to the note's public data by the relations of
    Relation.v; soundness says that an accepted note has one. *)
From Verif Require Import Base Config Structs Keys Utils Memo Plonk Witness Circuits Relation CircuitLogic CodecProofs PolicyProofs
  UtilsProofs MemoProofs GadgetProofs StructGadgetProofs SpendGadgetProofs TransferCircuitProofs MintCircuitProofs
  FreezeCircuitProofs CircuitShape CircuitTheorems Snark Notes NoteProofs NoteGen NoteGen2 NoteThms Security.

Section Accepted.
  Context {C : CapConfig} {S : Snark C}.

  (** the note is accepted under a key preprocessed for the note's own numbers of inputs and outputs *)
  Definition transfer_accepted (n_in n_out depth : nat) (n : TransferNote) (root : F) (ts : u64) : Prop :=
    exists g pk vk, transfer_preprocess g n_in n_out depth = Ok (pk, vk) /\ transfer_verify n vk root ts = Ok tt /\
      length (tn_nullifiers n) = n_in /\ length (tn_commitments n) = n_out.
  Definition mint_accepted (depth : nat) (n : MintNote) (root : F) : Prop :=
    exists g pk vk, mint_preprocess g depth = Ok (pk, vk) /\ mint_verify n vk root = Ok tt.
  Definition freeze_accepted (num depth : nat) (n : FreezeNote) (root : F) : Prop :=
    exists g fk pk vk, freeze_preprocess g fk num depth = Ok (pk, vk) /\ freeze_verify n vk root = Ok tt /\
      length (fn_nullifiers n) = num.

  Definition transfer_opens (depth : nat) (n : TransferNote) (t : TransferV) : Prop :=
    tn_nullifiers n <> [] /\ tn_commitments n <> [] /\ transfer_depth depth t /\
    transfer_relation (transfer_pub_value (transfer_note_public n)) t.
  Definition mint_opens (depth : nat) (n : MintNote) (t : MintV) : Prop :=
    length (pl_path (mv_place t)) = depth /\ mint_relation (mint_pub_value (mint_note_public n)) t.
  Definition freeze_opens (depth : nat) (n : FreezeNote) (t : FreezeV) : Prop :=
    freeze_depth depth t /\ freeze_relation (freeze_pub_value (freeze_note_public n)) t.

  (** ** Facts about openings of transfer notes *)
  Lemma first_all {A B} (P : bool -> A -> B -> Prop) (Q : A -> B -> Prop) l k :
    Forall2_first P l k -> (forall b x y, P b x y -> Q x y) -> Forall2 Q l k.
  Proof.
    destruct l, k; cbn; intros H HQ; try tauto; [constructor|]. destruct H as [H0 H]. constructor; [eauto|]. eapply Forall2_imp; [|exact H]. eauto.
  Qed.
  Lemma opens_lengths d n t : transfer_opens d n t -> length (tv_ins t) = length (tn_nullifiers n) /\ length (tv_outs t) = length (tn_commitments n).
  Proof.
    intros (_ & _ & _ & R). split.
    - apply (Forall2_len (fun _ _ => True)). eapply first_all; [apply (tr_inputs _ _ R)|auto].
    - apply (Forall2_len (fun _ _ => True)). eapply first_all; [apply (tr_outputs _ _ R)|auto].
  Qed.
  Lemma opens_spends d n t : transfer_opens d n t ->
    Forall2 (fun i nl =>
      owns (in_sk i) (ro_owner (in_ro i)) /\ ro_flag (in_ro i) = f0 /\
      nl = nullifier_of (spending_key (in_sk i) (po_freezer (ro_pol (in_ro i)))) (pl_uid (in_place i)) (commitment_of (in_ro i)) /\
      (ro_code (in_ro i) = dummy_asset_code -> ro_amount (in_ro i) = f0) /\
      (ro_code (in_ro i) <> dummy_asset_code ->
       length (pl_path (in_place i)) = d /\
       merkle_root_of (pl_uid (in_place i)) (commitment_of (in_ro i)) (pl_path (in_place i)) = ta_root (tn_aux n)))
      (tv_ins t) (tn_nullifiers n) /\
    Forall2 (fun o rc => rc = commitment_of o /\ ro_flag o = f0 /\ zv (ro_amount o) < 2 ^ 127) (tv_outs t) (tn_commitments n).
  Proof.
    intros (_ & _ & D & R). split.
    - assert (H : Forall2 (fun i nl => owns (in_sk i) (ro_owner (in_ro i)) /\ ro_flag (in_ro i) = f0 /\
      nl = nullifier_of (spending_key (in_sk i) (po_freezer (ro_pol (in_ro i)))) (pl_uid (in_place i)) (commitment_of (in_ro i)) /\
      (ro_code (in_ro i) = dummy_asset_code -> ro_amount (in_ro i) = f0) /\
      (ro_code (in_ro i) <> dummy_asset_code ->
       merkle_root_of (pl_uid (in_place i)) (commitment_of (in_ro i)) (pl_path (in_place i)) = ta_root (tn_aux n))) (tv_ins t) (tn_nullifiers n)).
      { eapply first_all; [apply (tr_inputs _ _ R)|]. intros b i nl K. conjs.
        - apply (io_owner _ _ _ _ _ K).
        - apply (io_unfrozen _ _ _ _ _ K).
        - apply (io_nullifier _ _ _ _ _ K).
        - apply (io_dummy_amount _ _ _ _ _ K).
        - apply (io_member _ _ _ _ _ K). }
      clear R. unfold transfer_depth in D. induction H as [|i nl l k H K IH]; constructor; inversion D; subst.
      + destruct H as (K1 & K2 & K3 & K4 & K5). conjs; auto.
      + apply IH; auto.
    - eapply first_all; [apply (tr_outputs _ _ R)|]. intros b o rc K. conjs.
      + apply (oo_commitment _ _ _ _ _ K).
      + apply (oo_unfrozen _ _ _ _ _ K).
      + pose proof (oo_range _ _ _ _ _ K) as H. unfold in_range in H. apply Z.ltb_lt in H. exact H.
  Qed.

  Lemma Forall2_ex_l {A B} (P : A -> B -> Prop) l k x : Forall2 P l k -> In x l -> exists y, In y k /\ P x y.
  Proof. intros H. induction H as [|a b l k H K IH]; [intros []|]. intros [->|Hx]; [exists b; cbn; auto|]. destruct (IH Hx) as (y & ? & ?). exists y. cbn. auto. Qed.
  (** the asset types of an opening: native fee pair, and one code and one policy for what else leaves the note *)
  Lemma opens_assets d n t : transfer_opens d n t ->
    exists i0 is o0 os, tv_ins t = i0 :: is /\ tv_outs t = o0 :: os /\
      ro_code (in_ro i0) = native_asset_code /\ policy_empty (ro_pol (in_ro i0)) /\
      ro_code o0 = native_asset_code /\ policy_empty (ro_pol o0) /\
      (forall o, In o os -> ro_code o = tv_code t /\ ro_pol o = tv_pol t) /\
      (forall i, In i is -> ro_code (in_ro i) <> dummy_asset_code -> ro_pol (in_ro i) = tv_pol t) /\
      (forall i, In i is -> ro_code (in_ro i) = dummy_asset_code -> policy_empty_weak (ro_pol (in_ro i))).
  Proof.
    intros (N1 & N2 & _ & R). pose proof (tr_inputs _ _ R) as HI. pose proof (tr_outputs _ _ R) as HO.
    change (tq_nullifiers (transfer_pub_value (transfer_note_public n))) with (tn_nullifiers n) in HI.
    change (tq_commitments (transfer_pub_value (transfer_note_public n))) with (tn_commitments n) in HO.
    destruct (tn_nullifiers n) as [|nl nls]; [congruence|]. destruct (tn_commitments n) as [|rc rcs]; [congruence|].
    destruct (tv_ins t) as [|i0 is]; [destruct HI|]. destruct (tv_outs t) as [|o0 os]; [destruct HO|].
    exists i0, is, o0, os. destruct HI as [HI0 HI], HO as [HO0 HO].
    pose proof (io_policy _ _ _ _ _ HI0) as [A1 A2]. pose proof (oo_asset _ _ _ _ _ HO0) as [B1 B2]. conjs; auto.
    - intros o Ho. destruct (Forall2_ex_l _ _ _ _ HO Ho) as (y & _ & K). apply (oo_asset _ _ _ _ _ K).
    - intros i Hi. destruct (Forall2_ex_l _ _ _ _ HI Hi) as (y & _ & K). apply (io_policy _ _ _ _ _ K).
    - intros i Hi. destruct (Forall2_ex_l _ _ _ _ HI Hi) as (y & _ & K). apply (io_policy _ _ _ _ _ K).
  Qed.
  (** conservation, in the field and over the integers *)
  Lemma opens_amounts d n t : transfer_opens d n t ->
    Forall (fun o => zv (ro_amount o) < 2 ^ 127) (tv_outs t) /\
    (if zeqb native_asset_code (tv_code t)
     then fsum (in_amounts t) = fadd (fsum (out_amounts t)) (f_of_u128 (ta_fee (tn_aux n)))
     else fsum (tl (in_amounts t)) = fsum (tl (out_amounts t)) /\
          hd f0 (in_amounts t) = fadd (hd f0 (out_amounts t)) (f_of_u128 (ta_fee (tn_aux n)))) /\
    (Forall (fun i => zv (ro_amount (in_ro i)) < 2 ^ 128) (tv_ins t) ->
     Z.of_nat (length (tv_ins t)) < 2 ^ 64 -> Z.of_nat (length (tv_outs t)) < 2 ^ 64 ->
     if zeqb native_asset_code (tv_code t)
     then isum (in_amounts t) = isum (out_amounts t) + zv (ta_fee (tn_aux n))
     else isum (tl (in_amounts t)) = isum (tl (out_amounts t)) /\
          zv (hd f0 (in_amounts t)) = zv (hd f0 (out_amounts t)) + zv (ta_fee (tn_aux n))).
  Proof.
    intros HOp. pose proof (opens_assets _ _ _ HOp) as (i0 & is & o0 & os & EI & EO & _). destruct HOp as (_ & _ & _ & R).
    assert (HFee : zv (f_of_u128 (ta_fee (tn_aux n)) : F) = zv (ta_fee (tn_aux n))).
    { apply zv_f_of_u128. }
    conjs.
    - pose proof (out_range _ _ R) as H. unfold out_amounts in H. rewrite Forall_map in H. exact H.
    - pose proof (tr_balanced _ _ R) as H. unfold balanced, transfer_in, transfer_out, fee_in, fee_change, tail_sum in H.
      fold (in_amounts t) in H. fold (out_amounts t) in H.
      change (tq_native (transfer_pub_value (transfer_note_public n))) with (native_asset_code : F) in H.
      change (tq_fee (transfer_pub_value (transfer_note_public n))) with (f_of_u128 (ta_fee (tn_aux n)) : F) in H.
      destruct (zeqb native_asset_code (tv_code t)); [|exact H].
      unfold in_amounts, out_amounts in *. rewrite EI, EO in *. cbn [map hd tl] in *. cbn [fsum fold_right].
      fold (fsum (map (fun i => ro_amount (in_ro i)) is)) in *. fold (fsum (map ro_amount os)) in *.
      rewrite (fadd_comm (ro_amount (in_ro i0))), H, (fadd_comm (ro_amount o0) (fsum _)), fadd_assoc. reflexivity.
    - intros HI LI LO. pose proof (conservation _ _ R) as H.
      change (tq_native (transfer_pub_value (transfer_note_public n))) with (native_asset_code : F) in H.
      change (tq_fee (transfer_pub_value (transfer_note_public n))) with (f_of_u128 (ta_fee (tn_aux n)) : F) in H.
      rewrite HFee in H. unfold in_amounts in H at 1. rewrite Forall_map in H.
      specialize (H HI). assert (zv (ta_fee (tn_aux n)) < 2 ^ 128) by (apply zv_range). specialize (H ltac:(auto) LI LO).
      destruct (zeqb native_asset_code (tv_code t)); [exact H|]. destruct H as [H1 H2]. split; [exact H1|].
      revert H2. unfold in_amounts, out_amounts. rewrite EI, EO. cbn. lia.
  Qed.

  (** credentials: signed by the key the credential itself names, and in their validity window *)
  Lemma opens_credentials d n t : transfer_opens d n t ->
    (forall i, In i (tv_ins t) -> po_cred (ro_pol (in_ro i)) <> no_key ->
       csig_ok (cr_v_creator (in_cred i)) ([cr_v_expiry (in_cred i); fst (cr_v_addr (in_cred i)); snd (cr_v_addr (in_cred i))] ++ cr_v_attrs (in_cred i))
               (cr_v_sig (in_cred i)) = true) /\
    (forall i, In i (tv_ins t) -> length (cr_v_attrs (in_cred i)) = ATTRS_LEN /\
       zv (ta_valid_until (tn_aux n)) <= zv (cr_v_expiry (in_cred i)) < zv (ta_valid_until (tn_aux n)) + 2 ^ 20).
  Proof.
    intros (_ & _ & _ & R).
    assert (H : forall i, In i (tv_ins t) -> exists b nl, input_ok t (transfer_pub_value (transfer_note_public n)) b i nl).
    { intros i Hi. pose proof (tr_inputs _ _ R) as H. destruct (tv_ins t) as [|i0 is]; [destruct Hi|].
      destruct (tq_nullifiers _) as [|nl nls]; [destruct H|]. destruct H as [H0 H]. destruct Hi as [<-|Hi]; [eauto|].
      destruct (Forall2_ex_l _ _ _ _ H Hi) as (y & _ & K). eauto. }
    split; intros i Hi.
    - intros HP. destruct (H i Hi) as (b & nl & K). apply (io_cred _ _ _ _ _ K HP).
    - destruct (H i Hi) as (b & nl & K). split; [apply (io_cred_len _ _ _ _ _ K)|].
      pose proof (io_cred_time _ _ _ _ _ K) as T. unfold in_range in T. apply Z.ltb_lt in T. unfold fsub in T. rewrite zv_fz in T.
      change (tq_valid_until (transfer_pub_value (transfer_note_public n))) with (f_of_u64 (ta_valid_until (tn_aux n)) : F) in T.
      assert (V : 0 <= zv (ta_valid_until (tn_aux n)) < 2 ^ 64) by apply (zv_range (ta_valid_until (tn_aux n))).
      rewrite zv_f_of_u64 in T. pose proof (zv_range (cr_v_expiry (in_cred i))) as E. pose proof big_modulus as BM.
      change (2 ^ Z.of_nat MAX_TIMESTAMP_LEN) with (2 ^ 20) in T.
      assert (2 ^ 64 + 2 ^ 20 < 2 ^ 200) by reflexivity.
      destruct (Z.le_gt_cases (zv (ta_valid_until (tn_aux n))) (zv (cr_v_expiry (in_cred i)))) as [G|G].
      + rewrite Z.mod_small in T by lia. lia.
      + exfalso. rewrite <- (Z_mod_plus_full _ 1), Z.mul_1_l, Z.mod_small in T by lia. lia.
  Qed.

  Context (L : CapLaws C) (SL : SnarkLaws S).

  Lemma transfer_accepted_opens n_in n_out d n root ts : transfer_accepted n_in n_out d n root ts ->
    root = ta_root (tn_aux n) /\ zv ts <= zv (ta_valid_until (tn_aux n)) /\
    length (vm_data (tn_memo n)) = (1 + (n_in - 1) * 12 + (n_out - 1) * 4)%nat /\ exists t, transfer_opens d n t.
  Proof.
    intros (g & pk & vk & HP & HV & L1 & L2). destruct (transfer_verify_sound L SL _ _ _ _ _ _ _ _ _ HP HV L1 L2) as (A & B & D & t & E1 & E2 & HD & HR).
    conjs; auto. exists t. apply transfer_preprocess_keys in HP. destruct HP as (s0 & Hb & _).
    apply (transfer_preprocess_inv L) in Hb. destruct Hb as (w0 & p0 & Hc & _ & M1 & M2 & _). apply transfer_circuit_inv in Hc.
    destruct Hc as (wv & pv & Hc). unfold transfer_build in Hc. rewrite M1, M2 in Hc.
    destruct n_in; [discriminate|]. destruct n_out; [discriminate|].
    unfold transfer_opens. split; [intros E; rewrite E in L1; discriminate|]. split; [intros E; rewrite E in L2; discriminate|]. auto.
  Qed.
  Lemma mint_accepted_opens d n root : mint_accepted d n root ->
    root = ma_root (mn_aux n) /\ code (mn_def n) = new_domestic_from_internal (mn_internal n) /\
    length (vm_data (mn_memo n)) = 3%nat /\ exists t, mint_opens d n t.
  Proof. intros (g & pk & vk & HP & HV). exact (mint_verify_sound SL _ _ _ _ _ _ HP HV). Qed.
  Lemma freeze_accepted_opens num d n root : freeze_accepted num d n root ->
    root = fa_root (fn_aux n) /\ length (fn_commitments n) = num /\ exists t, freeze_opens d n t.
  Proof. intros (g & fk & pk & vk & HP & HV & L1). exact (freeze_verify_sound SL _ _ _ _ _ _ _ _ HP HV L1). Qed.

  (** the viewing policy: above the threshold the note carries the selected data encrypted for the viewer, who reads it back *)
  Lemma opens_viewing d n t : transfer_opens d n t -> po_viewer (tv_pol t) <> no_key ->
    Forall (fun i => zv (ro_amount (in_ro i)) < 2 ^ 128) (tl (tv_ins t)) -> Z.of_nat (length (tv_ins t)) < 2 ^ 64 ->
    zv (po_threshold (tv_pol t)) < isum (tl (in_amounts t)) ->
    (pt_xy (vm_ephemeral (tn_memo n)), vm_data (tn_memo n)) =
      celgamal_encrypt (po_viewer (tv_pol t)) (tv_rand t) (transfer_message t) /\
    (forall viewer : ViewerKeyPair, po_viewer (tv_pol t) = pt_xy (viewer_pub_key viewer) ->
       elgamal_decrypt viewer (vm_ephemeral (tn_memo n), vm_data (tn_memo n)) = transfer_message t).
  Proof.
    intros (_ & _ & _ & R) HV HI LI HT.
    assert (E : memo_value (tn_memo n) = celgamal_encrypt (po_viewer (tv_pol t)) (tv_rand t) (transfer_message t)).
    { apply (viewing _ _ R); auto. unfold in_amounts. replace (tl (map (fun i => ro_amount (in_ro i)) (tv_ins t)))
        with (map (fun i => ro_amount (in_ro i)) (tl (tv_ins t))) by (destruct (tv_ins t); reflexivity). rewrite Forall_map. exact HI. }
    split; [exact E|]. intros viewer EV. unfold memo_value in E. rewrite EV in E. unfold celgamal_encrypt in E. rewrite (cmul_xy L) in E.
    injection E as E1 E2. unfold elgamal_decrypt. cbn [fst snd].
    assert (E0 : vm_ephemeral (tn_memo n) = pt_mul (zv (tv_rand t)) pt_gen) by (apply (pt_xy_inj L); destruct (pt_xy (vm_ephemeral (tn_memo n))), (pt_xy (pt_mul (zv (tv_rand t)) pt_gen)); cbn in *; congruence).
    rewrite E0, E2. unfold viewer_pub_key. rewrite (pt_mul_comm L (zv viewer)). apply unmask_mask.
  Qed.

  (** ** Mint *)
  Lemma mint_opens_facts d n t : mint_opens d n t ->
    (* the minted record *)
    mn_mint n = commitment_of (mv_mint t) /\ ro_amount (mv_mint t) = f_of_u128 (mn_amount n) /\ zv (mn_amount n) < 2 ^ 127 /\
    ro_code (mv_mint t) = code (mn_def n) /\ ro_pol (mv_mint t) = pol_value (policy (mn_def n)) /\ ro_flag (mv_mint t) = f0 /\
    (* its code *)
    mn_internal n = prf_eval (mv_seed t) [mv_digest t] /\
    (* the spent record *)
    ro_code (mv_fee_ro t) = native_asset_code /\ policy_empty (ro_pol (mv_fee_ro t)) /\ ro_flag (mv_fee_ro t) = f0 /\
    owns (mv_sk t) (ro_owner (mv_fee_ro t)) /\ length (pl_path (mv_place t)) = d /\
    merkle_root_of (pl_uid (mv_place t)) (commitment_of (mv_fee_ro t)) (pl_path (mv_place t)) = ma_root (mn_aux n) /\
    mn_nullifier n = nullifier_of (mv_sk t) (pl_uid (mv_place t)) (commitment_of (mv_fee_ro t)) /\
    (* the change record *)
    mn_chg n = commitment_of (mv_chg t) /\ ro_code (mv_chg t) = native_asset_code /\ policy_empty (ro_pol (mv_chg t)) /\
    ro_flag (mv_chg t) = f0 /\ ro_owner (mv_chg t) = ro_owner (mv_fee_ro t) /\
    ro_amount (mv_fee_ro t) = fadd (f_of_u128 (ma_fee (mn_aux n))) (ro_amount (mv_chg t)) /\
    (* the viewer *)
    (forall viewer : ViewerKeyPair, viewer_pk (policy (mn_def n)) = viewer_pub_key viewer -> viewer_pub_key viewer <> pt_id ->
       elgamal_decrypt viewer (vm_ephemeral (mn_memo n), vm_data (mn_memo n)) =
       [fst (ro_owner (mv_mint t)); snd (ro_owner (mv_mint t)); ro_blind (mv_mint t)]).
  Proof.
    intros [D R]. pose proof (mr_unfrozen _ _ R) as (U1 & U2 & U3). pose proof (mr_native _ _ R) as (N1 & N2). pose proof (mr_empty _ _ R) as (E1 & E2).
    conjs; auto.
    - apply (mr_mint_rc _ _ R).
    - apply (mr_amount _ _ R).
    - pose proof (mr_range _ _ R) as H. rewrite (mr_amount _ _ R) in H. unfold in_range in H. apply Z.ltb_lt in H.
      change (mq_amount (mint_pub_value (mint_note_public n))) with (f_of_u128 (mn_amount n) : F) in H. rewrite zv_f_of_u128 in H. exact H.
    - apply (mr_code _ _ R).
    - apply (mr_policy _ _ R).
    - apply (mr_internal _ _ R).
    - apply (mr_owner _ _ R).
    - apply (mr_member _ _ R).
    - pose proof (mr_nullifier _ _ R) as H. destruct E2 as (_ & _ & EF & _). rewrite EF in H. unfold spending_key, no_key in H. rewrite xy_eqb_refl in H. exact H.
    - apply (mr_chg_rc _ _ R).
    - symmetry. apply (mr_same_owner _ _ R).
    - symmetry. apply (mr_balance _ _ R).
    - intros viewer EV HN. destruct (mr_viewing _ _ R) as [H|H].
      + exfalso. apply HN. rewrite <- EV. apply (proj1 (is_no_key L _)). exact H.
      + rewrite (mr_policy _ _ R) in H. cbn [mq_pol mq_memo mint_pub_value mint_note_public po_viewer pol_value mp_policy mp_memo] in H.
        rewrite EV in H. unfold celgamal_encrypt, memo_value in H. rewrite (cmul_xy L) in H. injection H as H1 H2.
        unfold elgamal_decrypt. cbn [fst snd].
        assert (E0 : vm_ephemeral (mn_memo n) = pt_mul (zv (mv_rand t)) pt_gen) by (apply (pt_xy_inj L); destruct (pt_xy (vm_ephemeral (mn_memo n))), (pt_xy (pt_mul (zv (mv_rand t)) pt_gen)); cbn in *; congruence).
        rewrite E0, H2. unfold viewer_pub_key. rewrite (pt_mul_comm L (zv viewer)). apply unmask_mask.
  Qed.
  Lemma mint_opens_fee d n t : mint_opens d n t -> zv (ro_amount (mv_chg t)) < 2 ^ 128 ->
    zv (ro_amount (mv_fee_ro t)) = zv (ma_fee (mn_aux n)) + zv (ro_amount (mv_chg t)).
  Proof.
    intros [_ R] H. pose proof (mint_fee_covered _ _ R) as K. cbn [mq_fee mint_pub_value mint_note_public mp_fee] in K. rewrite zv_f_of_u128 in K.
    apply K; auto. apply zv_range.
  Qed.

  (** ** Freeze *)
  Lemma Forall3_imp {A B D} (P Q : A -> B -> D -> Prop) l k m : (forall a b d, In a l -> P a b d -> Q a b d) -> Forall3 P l k m -> Forall3 Q l k m.
  Proof. intros H K. induction K; constructor; [apply H; cbn; auto|apply IHK; intros; apply H; cbn; auto]. Qed.
  Lemma freeze_opens_facts d n t : freeze_opens d n t ->
    exists nl nls rc rcs, fn_nullifiers n = nl :: nls /\ fn_commitments n = rc :: rcs /\
    (* the fee pair *)
    ro_code (fv_fee_ro t) = native_asset_code /\ policy_empty (ro_pol (fv_fee_ro t)) /\ ro_flag (fv_fee_ro t) = f0 /\
    owns (fv_sk t) (ro_owner (fv_fee_ro t)) /\ length (pl_path (fv_place t)) = d /\
    merkle_root_of (pl_uid (fv_place t)) (commitment_of (fv_fee_ro t)) (pl_path (fv_place t)) = fa_root (fn_aux n) /\
    nl = nullifier_of (fv_sk t) (pl_uid (fv_place t)) (commitment_of (fv_fee_ro t)) /\
    rc = commitment_of (fv_chg t) /\ ro_code (fv_chg t) = native_asset_code /\ policy_empty (ro_pol (fv_chg t)) /\ ro_flag (fv_chg t) = f0 /\
    ro_amount (fv_fee_ro t) = fadd (ro_amount (fv_chg t)) (f_of_u128 (fa_fee (fn_aux n))) /\
    (* the frozen or released records *)
    Forall3 (fun x nl rc =>
      rc = commitment_of (fz_out x) /\
      ro_amount (fz_out x) = ro_amount (fz_in x) /\ ro_owner (fz_out x) = ro_owner (fz_in x) /\
      ro_code (fz_out x) = ro_code (fz_in x) /\ ro_pol (fz_out x) = ro_pol (fz_in x) /\
      (ro_flag (fz_in x) = f0 /\ ro_flag (fz_out x) = f1 \/ ro_flag (fz_in x) = f1 /\ ro_flag (fz_out x) = f0) /\
      owns (fz_sk x) (po_freezer (ro_pol (fz_in x))) /\
      (ro_code (fz_in x) <> dummy_asset_code ->
       po_freezer (ro_pol (fz_in x)) <> no_key /\ length (pl_path (fz_place x)) = d /\
       merkle_root_of (pl_uid (fz_place x)) (commitment_of (fz_in x)) (pl_path (fz_place x)) = fa_root (fn_aux n)) /\
      nl = nullifier_of (spending_key (fz_sk x) (ro_owner (fz_in x))) (pl_uid (fz_place x)) (commitment_of (fz_in x)))
      (fv_pairs t) nls rcs.
  Proof.
    intros [[D1 D2] R]. pose proof (fr_fee_nullifier _ _ R) as HN. pose proof (fr_chg_rc _ _ R) as HC. pose proof (fr_pairs _ _ R) as HP.
    change (fq_nullifiers (freeze_pub_value (freeze_note_public n))) with (fn_nullifiers n) in *.
    change (fq_commitments (freeze_pub_value (freeze_note_public n))) with (fn_commitments n) in *.
    destruct (fn_nullifiers n) as [|nl nls]; [discriminate|]. destruct (fn_commitments n) as [|rc rcs]; [discriminate|].
    cbn [hd_error tl] in *. apply (f_equal (fun o => match o with Some x => x | None => nl end)) in HN. apply (f_equal (fun o => match o with Some x => x | None => rc end)) in HC.
    pose proof (fr_native _ _ R) as (N1 & N2). pose proof (fr_empty _ _ R) as (E1 & E2). pose proof (fr_unfrozen _ _ R) as (U1 & U2).
    exists nl, nls, rc, rcs. conjs; auto.
    - apply (fr_owner _ _ R).
    - apply (fr_member _ _ R).
    - rewrite <- HN. destruct E1 as (_ & _ & EF & _). rewrite EF. unfold spending_key, no_key. rewrite xy_eqb_refl. reflexivity.
    - symmetry. apply (fr_balance _ _ R).
    - eapply Forall3_imp; [|exact HP]. intros x a b Hx K. cbv beta. destruct (po_same _ _ _ _ K) as (S1 & S2 & S3 & S4).
      rewrite Forall_forall in D2. conjs; auto; try congruence.
      + apply (po_rc _ _ _ _ K).
      + destruct (po_flags _ _ _ _ K) as [B1 B2]. pose proof (po_flip _ _ _ _ K) as HF. unfold is_bool in B1, B2.
        apply orb_true_iff in B1. apply orb_true_iff in B2. rewrite !zeqb_spec in B1, B2.
        destruct B1 as [B1|B1], B2 as [B2|B2]; rewrite B1, B2 in HF; [exfalso|auto|auto|exfalso].
        * rewrite fadd_0_l in HF. apply f0_neq_f1 in HF. exact HF.
        * apply (f_equal zv) in HF. rewrite fadd_small in HF; rewrite !zv_f1 in *; lia.
      + apply (po_owner _ _ _ _ K).
      + intros H. conjs; auto.
        * intros E. apply H, (po_freezable _ _ _ _ K E).
        * apply (po_member _ _ _ _ K). auto.
      + apply (po_nullifier _ _ _ _ K).
  Qed.
  Lemma freeze_opens_fee d n t : freeze_opens d n t -> zv (ro_amount (fv_chg t)) < 2 ^ 128 ->
    zv (ro_amount (fv_fee_ro t)) = zv (fa_fee (fn_aux n)) + zv (ro_amount (fv_chg t)).
  Proof.
    intros [_ R] H. pose proof (freeze_fee_covered _ _ R) as K. cbn [fq_fee freeze_pub_value freeze_note_public fp_fee] in K. rewrite zv_f_of_u128 in K.
    apply K; auto. apply zv_range.
  Qed.

  (** ** Spending: [tx], under one of its openings, spends record [r] at position [uid] with secret [sk] and nullifier [nl] *)
  Inductive spends (r : RoV) (uid sk nl : F) : TransactionNote -> Prop :=
  | spends_transfer d n t i : transfer_opens d n t -> In (i, nl) (combine (tv_ins t) (tn_nullifiers n)) ->
      r = in_ro i -> uid = pl_uid (in_place i) -> sk = in_sk i -> spends r uid sk nl (TxTransfer n)
  | spends_mint d n t : mint_opens d n t -> r = mv_fee_ro t -> uid = pl_uid (mv_place t) -> sk = mv_sk t -> nl = mn_nullifier n ->
      spends r uid sk nl (TxMint n)
  | spends_freeze_fee d n t : freeze_opens d n t -> r = fv_fee_ro t -> uid = pl_uid (fv_place t) -> sk = fv_sk t ->
      hd_error (fn_nullifiers n) = Some nl -> spends r uid sk nl (TxFreeze n)
  | spends_freeze d n t x : freeze_opens d n t -> In (x, nl) (combine (fv_pairs t) (tl (fn_nullifiers n))) ->
      r = fz_in x -> uid = pl_uid (fz_place x) -> sk = fz_sk x -> spends r uid sk nl (TxFreeze n).

  Lemma Forall2_combine {A B} (P : A -> B -> Prop) l k x y : Forall2 P l k -> In (x, y) (combine l k) -> P x y.
  Proof. intros H. induction H as [|a b l k H K IH]; [intros []|]. intros [[= <- <-]|Hx]; auto. Qed.
  Lemma Forall3_combine {A B D} (P : A -> B -> D -> Prop) l k m x y : Forall3 P l k m -> In (x, y) (combine l k) -> exists z, In z m /\ P x y z.
  Proof.
    intros H. induction H as [|a b e l k m H K IH]; [intros []|]. intros [[= <- <-]|Hx]; [exists e; cbn; auto|].
    destruct (IH Hx) as (z & Hz & HP). exists z. cbn. auto.
  Qed.
  (** an owner's or a freezer's spend *)
  Lemma spends_forms r uid sk nl tx : spends r uid sk nl tx ->
    owner_spend r uid sk nl \/ (freezer_spend r uid sk nl /\ (ro_code r <> dummy_asset_code -> po_freezer (ro_pol r) <> no_key)).
  Proof.
    intros H. destruct H as [d n t i HO HI -> -> ->|d n t HO -> -> -> ->|d n t HO -> -> -> HN|d n t x HO HI -> -> ->].
    - left. destruct (opens_spends _ _ _ HO) as [H _]. apply (Forall2_combine _ _ _ _ _ H) in HI. destruct HI as (K1 & K2 & K3 & _). split; auto.
    - left. destruct HO as [_ R]. split; [apply (mr_owner _ _ R)|apply (mr_nullifier _ _ R)].
    - left. destruct HO as [_ R]. split; [apply (fr_owner _ _ R)|]. pose proof (fr_fee_nullifier _ _ R) as K.
      pose proof (eq_trans K HN) as K'. apply (f_equal (fun o => match o with Some x => x | None => nl end)) in K'. symmetry. exact K'.
    - right. destruct (freeze_opens_facts _ _ _ HO) as (nl0 & nls & rc0 & rcs & E1 & E2 & H). rewrite E1 in HI. cbn [tl] in HI.
      destruct H as (_ & _ & _ & _ & _ & _ & _ & _ & _ & _ & _ & _ & H).
      destruct (Forall3_combine _ _ _ _ _ _ H HI) as (z & _ & HP). cbv beta in HP. destruct HP as (_ & _ & _ & _ & _ & _ & K1 & K2 & K3).
      split; [split; auto|]. intros Hd. apply K2, Hd.
  Qed.
  Lemma spends_one_nullifier r uid sk nl tx sk' nl' tx' :
    spends r uid sk nl tx -> spends r uid sk' nl' tx' ->
    zv sk < sub_order -> zv sk' < sub_order -> ro_owner r <> no_key -> ro_code r <> dummy_asset_code -> nl = nl'.
  Proof.
    intros H1 H2 C1 C2 HO HD. apply spends_forms in H1. apply spends_forms in H2.
    destruct H1 as [[O1 ->]|[[O1 ->] F1]], H2 as [[O2 ->]|[[O2 ->] F2]].
    - rewrite (owns_canonical L _ _ _ O1 O2 C1 C2). reflexivity.
    - rewrite (owner_freezer_key L sk sk' _ _ O1 O2); auto.
    - rewrite (owner_freezer_key L sk' sk _ _ O2 O1); auto.
    - rewrite (owns_canonical L _ _ _ O1 O2 C1 C2). reflexivity.
  Qed.
End Accepted.
