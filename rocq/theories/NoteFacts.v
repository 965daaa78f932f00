(** The facts about generated and accepted notes in the form in which PropsNotes.v states them. *)
From Verif Require Import Base Config Structs Keys Utils Memo Plonk Witness Circuits CircuitLogic Relation CodecProofs PolicyProofs
  UtilsProofs MemoProofs GadgetProofs TransferCircuitProofs MintCircuitProofs FreezeCircuitProofs CircuitShape CircuitTheorems
  Snark Notes NoteProofs NoteGen NoteGen2 NoteThms Security Accepted CircuitFacts Toy ToySnark Samples NoteSamples Serde SerdeProofs.

Section Facts.
  Context {C : CapConfig} {S : Snark C} (L : CapLaws C).

  Lemma generated_transfer r inputs outputs pk vu extra n sk :
    transfer_generate r inputs outputs pk vu extra = Ok (n, sk) ->
    (* value *)
    (forall c, code_sum c (non_dummy (map ti_ro inputs)) =
               code_sum c outputs + (if zeqb native_asset_code c then zv (ta_fee (tn_aux n)) else 0)) /\
    amt_sum (non_dummy (map ti_ro inputs)) < 2 ^ 128 /\ amt_sum outputs < 2 ^ 128 /\
    (* one asset besides the native fee pair *)
    (exists i0 irest o0 orest d, inputs = i0 :: irest /\ outputs = o0 :: orest /\
      asset_def (ti_ro i0) = asset_def_native /\ asset_def o0 = asset_def_native /\
      (forall i, In i irest -> asset_def (ti_ro i) = asset_def_dummy \/ asset_def (ti_ro i) = d) /\
      (forall o, In o orest -> asset_def o = d)) /\
    (* records *)
    (forall i, In i inputs -> freeze_flag (ti_ro i) = Unfrozen) /\ (forall o, In o outputs -> freeze_flag o = Unfrozen) /\
    (forall i, In i inputs -> asset_def (ti_ro i) = asset_def_dummy -> zv (amount (ti_ro i)) = 0) /\
    (forall i, In i inputs -> address (pub_key (ti_ro i)) = user_address (ti_kp i)) /\
    (forall i, In i inputs -> asset_def (ti_ro i) <> asset_def_dummy ->
       pub_key (ti_ro i) = user_pub_key (ti_kp i) /\
       acc_root (ti_acc i) = ta_root (tn_aux n) /\ length (acc_path (ti_acc i)) = tpk_depth pk /\
       merkle_root_of (f_of_u64 (acc_uid (ti_acc i))) (derive_record_commitment (ti_ro i)) (acc_path (ti_acc i)) = ta_root (tn_aux n)) /\
    (forall i, In i inputs -> cred_pk (policy (asset_def (ti_ro i))) <> pt_id ->
       exists c, ti_cred i = Some c /\ cred_verify c vu = Ok tt) /\
    (* the note *)
    tn_nullifiers n = map (fun i => user_nullify (ti_kp i) (freezer_pk (policy (asset_def (ti_ro i))))
                                      (acc_uid (ti_acc i)) (derive_record_commitment (ti_ro i))) inputs /\
    NoDup (tn_nullifiers n) /\
    tn_commitments n = map derive_record_commitment outputs /\
    ta_valid_until (tn_aux n) = vu /\ ta_memo_vk (tn_aux n) = ver_key sk /\ ta_extra (tn_aux n) = extra /\
    length inputs = tpk_n_in pk /\ length outputs = tpk_n_out pk.
  Proof.
    intros H. destruct (transfer_generate_inv L _ _ _ _ _ _ _ _ H) as (w & p & s & G).
    destruct (tg_assets _ _ _ _ _ _ _ _ _ _ _ G) as (i0 & irest & o0 & orest & d & A1 & A2 & A3 & A4 & _ & A5 & A6 & _).
    destruct (tg_lens _ _ _ _ _ _ _ _ _ _ _ G) as (L1 & L2 & L3).
    destruct (tg_unfrozen _ _ _ _ _ _ _ _ _ _ _ G) as (U1 & U2). destruct (tg_sums _ _ _ _ _ _ _ _ _ _ _ G) as (S1 & S2).
    destruct (tg_aux _ _ _ _ _ _ _ _ _ _ _ G) as (X1 & X2 & X3).
    split; [exact (tg_balance _ _ _ _ _ _ _ _ _ _ _ G)|]. split; [exact S1|]. split; [exact S2|].
    split; [exists i0, irest, o0, orest, d; conjs; auto|]. split; [exact U1|]. split; [exact U2|].
    split; [exact (tg_dummy _ _ _ _ _ _ _ _ _ _ _ G)|].
    split; [exact (tg_owner L _ _ _ _ _ _ _ _ _ _ _ G)|].
    split.
    { intros i Hi Hd. split; [apply (tg_keys _ _ _ _ _ _ _ _ _ _ _ G); auto|]. split; [apply (tg_roots _ _ _ _ _ _ _ _ _ _ _ G); auto|].
      split; [auto|]. apply (tg_member L _ _ _ _ _ _ _ _ _ _ _ G); auto. }
    split; [exact (tg_creds _ _ _ _ _ _ _ _ _ _ _ G)|]. split; [exact (tg_nullifiers _ _ _ _ _ _ _ _ _ _ _ G)|].
    split; [exact (tg_distinct _ _ _ _ _ _ _ _ _ _ _ G)|]. split; [exact (tg_commitments _ _ _ _ _ _ _ _ _ _ _ G)|]. conjs; auto.
  Qed.

  Lemma generated_non_native r inputs outputs fee vu pk extra n sk :
    transfer_generate_non_native r inputs outputs fee vu pk extra = Ok (n, sk) ->
    check_fee fee = Ok tt /\
    transfer_generate r (fee_to_transfer_input (fee_input fee) :: inputs) (fee_chg_ro fee :: outputs) pk vu extra = Ok (n, sk).
  Proof. unfold transfer_generate_non_native. intros H. bindH H u Hu. destruct u. auto. Qed.

  Lemma asset_dummy_not_native : asset_def_native <> @asset_def_dummy C.
  Proof. intros H. apply (f_equal (fun d => zv (code d))) in H. cbn in H. revert H. pose proof modulus_lb. unfold fz. cbn.
    change (zv (@fz cap_field 1) = zv (@fz cap_field 2) -> False). rewrite !fz_small by lia. discriminate. Qed.

  (** the fee of a transfer of another asset is the stated fee *)
  Lemma non_native_fee r inputs outputs fee vu pk extra n sk :
    transfer_generate_non_native r inputs outputs fee vu pk extra = Ok (n, sk) ->
    (forall i, In i inputs -> code (asset_def (ti_ro i)) <> native_asset_code) ->
    (forall o, In o outputs -> code (asset_def o) <> native_asset_code) ->
    ta_fee (tn_aux n) = fee_amount fee.
  Proof.
    intros H HI HO. apply generated_non_native in H. destruct H as [Hf HG]. apply (check_fee_iff L) in Hf.
    destruct Hf as (F1 & F2 & F3 & F4 & _). destruct (generated_transfer _ _ _ _ _ _ _ _ HG) as (HB & _).
    specialize (HB native_asset_code). rewrite zeqb_refl in HB.
    assert (Z1 : forall l : list RecordOpening, (forall x, In x l -> code (asset_def x) <> native_asset_code) -> code_sum native_asset_code l = 0).
    { induction l as [|x l IH]; intros Hl; [reflexivity|]. rewrite code_sum_cons, IH by (intros; apply Hl; cbn; auto).
      destruct (zeqb_reflect (code (asset_def x)) native_asset_code) as [E|E]; [destruct (Hl x (or_introl eq_refl) E)|lia]. }
    cbn [map] in HB. unfold non_dummy in HB. cbn [filter] in HB.
    destruct (is_dummy_def (asset_def (ti_ro (fee_to_transfer_input (fee_input fee))))) eqn:Ed.
    - apply (is_dummy_iff L) in Ed. change (ti_ro (fee_to_transfer_input (fee_input fee))) with (fi_ro (fee_input fee)) in Ed.
      rewrite F3 in Ed. destruct (asset_dummy_not_native Ed).
    - cbn [negb] in HB. rewrite !code_sum_cons in HB. change (ti_ro (fee_to_transfer_input (fee_input fee))) with (fi_ro (fee_input fee)) in HB.
      rewrite F3, F4 in HB. change (code asset_def_native) with native_asset_code in HB. rewrite zeqb_refl in HB.
      rewrite (Z1 outputs HO), Z1 in HB.
      + apply zmod_ext. lia.
      + intros x Hx. apply filter_In in Hx. destruct Hx as [Hx _]. apply in_map_iff in Hx. destruct Hx as (i & <- & Hi). auto.
  Qed.

  Lemma generated_mint r mint_ro seed desc fee pk n sk :
    mint_generate r mint_ro seed desc fee pk = Ok (n, sk) ->
    mn_internal n = internal_new seed desc /\
    code (mn_def n) = new_domestic_from_internal (mn_internal n) /\ code (mn_def n) = new_domestic seed desc /\
    mn_def n = asset_def mint_ro /\ mn_amount n = amount mint_ro /\
    mn_mint n = derive_record_commitment mint_ro /\ freeze_flag mint_ro = Unfrozen /\
    (* the fee record and the change *)
    asset_def (fi_ro (fee_input fee)) = asset_def_native /\ freeze_flag (fi_ro (fee_input fee)) = Unfrozen /\
    pub_key (fi_ro (fee_input fee)) = user_pub_key (fi_kp (fee_input fee)) /\
    ma_fee (mn_aux n) = fee_amount fee /\ zv (fee_amount fee) <= zv (amount (fi_ro (fee_input fee))) /\
    zv (amount (fee_chg_ro fee)) = zv (amount (fi_ro (fee_input fee))) - zv (fee_amount fee) /\
    asset_def (fee_chg_ro fee) = asset_def_native /\ freeze_flag (fee_chg_ro fee) = Unfrozen /\
    pub_key (fee_chg_ro fee) = pub_key (fi_ro (fee_input fee)) /\
    mn_chg n = derive_record_commitment (fee_chg_ro fee) /\
    mn_nullifier n = user_nullify (fi_kp (fee_input fee)) pt_id (acc_uid (fi_acc (fee_input fee)))
                                  (derive_record_commitment (fi_ro (fee_input fee))) /\
    merkle_root_of (f_of_u64 (acc_uid (fi_acc (fee_input fee)))) (derive_record_commitment (fi_ro (fee_input fee)))
                   (acc_path (fi_acc (fee_input fee))) = ma_root (mn_aux n) /\
    length (acc_path (fi_acc (fee_input fee))) = mpk_depth pk /\ ma_memo_vk (mn_aux n) = ver_key sk.
  Proof.
    intros H. destruct (mint_generate_inv L _ _ _ _ _ _ _ _ H) as (p & s & G).
    pose proof (mg_fee _ _ _ _ _ _ _ _ _ _ G) as Hf. apply (check_fee_iff L) in Hf. destruct Hf as (F1 & F2 & F3 & F4 & F5 & F6).
    destruct (mg_unfrozen _ _ _ _ _ _ _ _ _ _ G) as (U1 & U2 & U3). destruct (mg_outputs _ _ _ _ _ _ _ _ _ _ G) as (O1 & O2).
    destruct (mg_amount _ _ _ _ _ _ _ _ _ _ G) as (A1 & A2 & A3). destruct (mg_aux _ _ _ _ _ _ _ _ _ _ G) as (X1 & X2 & X3).
    pose proof (mg_code _ _ _ _ _ _ _ _ _ _ G) as HC.
    conjs; auto; try (rewrite A2, A3, HC; reflexivity); try (rewrite A2; exact HC).
    - apply (mg_owner _ _ _ _ _ _ _ _ _ _ G).
    - apply (mg_nullifier _ _ _ _ _ _ _ _ _ _ G).
    - rewrite X1. exact F6.
    - apply (mg_depth _ _ _ _ _ _ _ _ _ _ G).
  Qed.

  Lemma pair_up_In (ins : list FreezeNoteInput) : forall outs i, length outs = length ins -> In i ins ->
    exists x, In x (pair_up (map ro_value (map zi_ro ins)) (map place_value (map zi_acc ins)) (map fr_to_fq (map zi_kp ins)) (map ro_value outs)) /\
      fz_in x = ro_value (zi_ro i) /\ fz_place x = place_value (zi_acc i) /\ fz_sk x = fr_to_fq (zi_kp i).
  Proof.
    induction ins as [|j ins IH]; intros [|o outs] i Hl []; try discriminate Hl; cbn [map pair_up].
    - subst j. eexists. split; [left; reflexivity|]. auto.
    - destruct (IH outs i) as (x & Hx & K); [cbn in Hl; lia|auto|]. exists x. split; [right; exact Hx|exact K].
  Qed.
  Lemma Forall3_In {A B D} (P : A -> B -> D -> Prop) l k m x : Forall3 P l k m -> In x l -> exists y z, P x y z.
  Proof. induction 1 as [|a b d l k m H0 H IH]; intros []; subst; eauto. Qed.

  Lemma generated_freeze r inputs fee pk n sk outs :
    freeze_generate r inputs fee pk = Ok (n, sk, outs) ->
    inputs <> [] /\ (length inputs + 1)%nat = fpk_num_input pk /\
    (* outputs are the inputs with the flag flipped and fresh blinding factors *)
    length outs = length inputs /\
    (forall k i o, nth_error inputs k = Some i -> nth_error outs k = Some o ->
       amount o = amount (zi_ro i) /\ asset_def o = asset_def (zi_ro i) /\ pub_key o = pub_key (zi_ro i) /\
       freeze_flag o = flip (freeze_flag (zi_ro i)) /\ blind o = frd_blinds r k) /\
    (forall i, In i inputs -> asset_def (zi_ro i) <> asset_def_dummy ->
       freezer_pk (policy (asset_def (zi_ro i))) <> pt_id /\ acc_root (zi_acc i) = fa_root (fn_aux n)) /\
    (* the circuit check of the prover: the freezer's key, the records' places *)
    (forall i, In i inputs -> freezer_pub_key (zi_kp i) = freezer_pk (policy (asset_def (zi_ro i)))) /\
    (forall i, In i inputs -> code (asset_def (zi_ro i)) <> dummy_asset_code ->
       merkle_root_of (f_of_u64 (acc_uid (zi_acc i))) (derive_record_commitment (zi_ro i)) (acc_path (zi_acc i)) = fa_root (fn_aux n)) /\
    (* the fee record and the change *)
    asset_def (fi_ro (fee_input fee)) = asset_def_native /\ freeze_flag (fi_ro (fee_input fee)) = Unfrozen /\
    address (pub_key (fi_ro (fee_input fee))) = user_address (fi_kp (fee_input fee)) /\
    zv (fee_amount fee) <= zv (amount (fi_ro (fee_input fee))) /\
    zv (amount (fee_chg_ro fee)) = zv (amount (fi_ro (fee_input fee))) - zv (fee_amount fee) /\
    asset_def (fee_chg_ro fee) = asset_def_native /\ freeze_flag (fee_chg_ro fee) = Unfrozen /\
    pub_key (fee_chg_ro fee) = pub_key (fi_ro (fee_input fee)) /\
    (* the note *)
    fn_nullifiers n = user_nullify (fi_kp (fee_input fee)) pt_id (acc_uid (fi_acc (fee_input fee)))
                                   (derive_record_commitment (fi_ro (fee_input fee)))
      :: map (fun i => freezer_nullify (zi_kp i) (address (pub_key (zi_ro i))) (acc_uid (zi_acc i))
                                       (derive_record_commitment (zi_ro i))) inputs /\
    NoDup (fn_nullifiers n) /\
    fn_commitments n = derive_record_commitment (fee_chg_ro fee) :: map derive_record_commitment outs /\
    fa_root (fn_aux n) = acc_root (fi_acc (fee_input fee)) /\ fa_fee (fn_aux n) = fee_amount fee /\ fa_memo_vk (fn_aux n) = ver_key sk.
  Proof.
    intros H. destruct (freeze_generate_inv L _ _ _ _ _ _ _ H) as (p & s & G).
    pose proof (fg_fee _ _ _ _ _ _ _ _ _ G) as Hf. apply (check_fee_iff L) in Hf. destruct Hf as (F1 & F2 & F3 & F4 & F5 & F6).
    destruct (fg_len _ _ _ _ _ _ _ _ _ G) as (N1 & N2 & N3). destruct (fg_aux _ _ _ _ _ _ _ _ _ G) as (X1 & X2 & X3).
    pose proof (fg_relation _ _ _ _ _ _ _ _ _ G) as R. destruct (freeze_outputs_spec (frd_blinds r) inputs) as [O1 O2].
    rewrite <- (fg_outs _ _ _ _ _ _ _ _ _ G) in O1, O2.
    assert (HP : forall i, In i inputs -> exists nl rc x, fz_in x = ro_value (zi_ro i) /\ fz_place x = place_value (zi_acc i) /\
              fz_sk x = fr_to_fq (zi_kp i) /\ pair_ok (freeze_pub_value p) x nl rc).
    { intros i Hi. destruct (pair_up_In inputs outs i O1 Hi) as (x & Hx & K1 & K2 & K3).
      destruct (Forall3_In _ _ _ _ _ (fr_pairs _ _ R) Hx) as (y & z & K4). exists y, z, x. conjs; auto. }
    assert (HU : forall q, ro_flag (ro_value q) = f0 -> freeze_flag q = Unfrozen).
    { intros q. cbn [ro_flag ro_value]. destruct (freeze_flag q); [reflexivity||(cbn; intros E; destruct (f0_neq_f1 (eq_sym E)))|
        reflexivity||(cbn; intros E; destruct (f0_neq_f1 (eq_sym E)))]. }
    destruct (fr_unfrozen _ _ R) as (U1 & U2). apply HU in U1. apply HU in U2.
    split; [exact N1|]. split; [exact N2|]. split; [exact O1|]. split; [exact O2|].
    split; [intros i Hi Hd; split; [apply (fg_freezable _ _ _ _ _ _ _ _ _ G)|apply (fg_roots _ _ _ _ _ _ _ _ _ G)]; auto|].
    split.
    { intros i Hi. destruct (HP i Hi) as (nl & rc & x & K1 & K2 & K3 & K4). destruct (po_owner _ _ _ _ K4) as [_ E]. rewrite K1, K3 in E.
      cbn [ro_pol ro_value po_freezer pol_value] in E. rewrite zv_fr_to_fq in E. apply (pt_xy_inj L) in E. symmetry. exact E. }
    split.
    { intros i Hi Hd. destruct (HP i Hi) as (nl & rc & x & K1 & K2 & K3 & K4). pose proof (po_member _ _ _ _ K4) as E. rewrite K1, K2 in E.
      rewrite commitment_of_ro_value in E. unfold root_from in E. cbn [place_value pl_uid pl_path] in E.
      rewrite E by exact Hd. rewrite <- (fg_note _ _ _ _ _ _ _ _ _ G). reflexivity. }
    split; [exact F3|]. split; [exact U1|].
    split. { destruct (fr_owner _ _ R) as [_ E]. change (pt_xy (address (pub_key (fi_ro (fee_input fee)))) = pt_xy (pt_mul (zv (fr_to_fq (addr_sk (fi_kp (fee_input fee))))) pt_gen)) in E. rewrite zv_fr_to_fq in E. apply (pt_xy_inj L) in E. exact E. }
    split; [exact F1|]. split; [exact F2|]. split; [exact F4|]. split; [exact U2|]. split; [exact F5|].
    split; [apply (fg_nullifiers _ _ _ _ _ _ _ _ _ G)|]. split; [apply (fg_distinct _ _ _ _ _ _ _ _ _ G)|].
    split; [apply (fg_commitments _ _ _ _ _ _ _ _ _ G)|]. conjs; auto.
  Qed.

  (** field elements have one encoding: a value at or above the modulus is refused *)
  Lemma field_codec_canonical s :
    (forall x r, dec c_f s = Ok (x, r) -> s = enc c_f x ++ r /\ length (enc c_f x) = 32%nat) /\
    (forall b r, s = b ++ r -> length b = 32%nat -> modulus <= from_le b -> dec c_f s = Err SerInvalidData) /\
    ((length s < 32)%nat -> dec c_f s = Err SerIoError).
  Proof.
    unfold c_f, c_int. cbn [enc dec]. conjs.
    - intros x r H. bindH H br Hb. destruct br as [b r0]. apply read_exact_ok in Hb. destruct Hb as [-> Hl].
      destruct (Z.ltb_spec (from_le b) modulus) as [Hm|Hm]; [|discriminate H]. injection H as <- <-.
      rewrite fz_small by (pose proof (from_le_bound b); lia). rewrite <- Hl at 1 2. rewrite le_bytes_from_le. auto.
    - intros b r -> Hl Hm. rewrite (read_exact_app_n 32) by auto. cbn [bind]. destruct (Z.ltb_spec (from_le b) modulus); [lia|reflexivity].
    - intros H. unfold read_exact. destruct (Nat.ltb_spec (length s) 32); [reflexivity|lia].
  Qed.
End Facts.
