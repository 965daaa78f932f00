(** Property theorems: circuits and what accepted transfers establish (C13, C15, C22-C29).

    [transfer_opens d n t] says that the values [t] (Relation.v) explain the public data of note [n]; the first half of
    C25-C29 says that an accepted note has an opening, the second half what holds of every opening. *)
From Verif Require Import Base Config Structs Keys Utils Memo Plonk Witness Circuits CircuitLogic Relation GadgetProofs
  TransferCircuitProofs MintCircuitProofs FreezeCircuitProofs CircuitShape CircuitTheorems Snark Notes NoteProofs NoteGen NoteGen2
  NoteThms Security Accepted CircuitFacts Toy ToySnark Samples NoteSamples.

(** ** C13: the commitment computed in the circuit is the API's *)
Theorem C13_circuit_commitment (C : CapConfig) (r : RecordOpening) (s0 s1 s2 : cs) v c :
  ro_var_new r s0 = Ok (v, s1) -> compute_record_commitment v s1 = Ok (c, s2) -> sat (env_of (wit s2)) s0 ->
  sat (env_of (wit s2)) s2 /\ env_of (wit s2) c = derive_record_commitment r.
Proof. exact (commitment_exposed r s0 v s1 c s2). Qed.
Print Assumptions C13_circuit_commitment.
(** and for every assignment, honest or not, it is the commitment of the values of the record's variables *)
Theorem C13_circuit_commitment_sound (C : CapConfig) (v : RoVar) (s s' : cs) (c : var) (rho : env) :
  compute_record_commitment v s = Ok (c, s') -> sat rho s' ->
  rho c = commit [rho (rv_amount v); rho (rv_code v); rho (px (rv_owner v)); rho (py (rv_owner v));
                  rho (px (pv_viewer (rv_policy v))); rho (py (pv_viewer (rv_policy v)));
                  rho (px (pv_cred (rv_policy v))); rho (py (pv_cred (rv_policy v)));
                  rho (px (pv_freezer (rv_policy v))); rho (py (pv_freezer (rv_policy v)));
                  fadd (fadd (rho (pv_map (rv_policy v))) (rho (pv_map (rv_policy v)))) (rho (rv_flag v));
                  rho (pv_threshold (rv_policy v))] (rho (rv_blind v)).
Proof. exact (commitment_sound v s s' c rho). Qed.
Print Assumptions C13_circuit_commitment_sound.
Example C13_example :
  let r := h_in1 true in
  match @ro_var_new T r (@new_circuit T) with
  | Ok (v, s1) => match @compute_record_commitment T v s1 with
                  | Ok (c, s2) => zeqb (@env_of T (wit s2) c) (@derive_record_commitment T r)
                                  && forallb (@gate_ok T (@env_of T (wit s2))) (gates s2)
                  | _ => false
                  end
  | _ => false
  end = true.
Proof. vm_compute. reflexivity. Qed.

(** ** C15: one nullifier per record and position *)
Theorem C15_one_nullifier (C : CapConfig) (L : CapLaws C) (S : Snark C) r uid sk nl tx sk' nl' tx' :
  spends r uid sk nl tx -> spends r uid sk' nl' tx' ->
  zv sk < sub_order -> zv sk' < sub_order -> ro_owner r <> no_key -> ro_code r <> dummy_asset_code -> nl = nl'.
Proof. exact (spends_one_nullifier L r uid sk nl tx sk' nl' tx'). Qed.
Print Assumptions C15_one_nullifier.
(** the nullifier is the keyed function of exactly the position and the record's commitment, so one nullifier for two
    positions or two records is a collision of the keyed function *)
Theorem C15_nullifier_binds (C : CapConfig) (S : Snark C) r uid sk nl tx :
  spends r uid sk nl tx -> exists k, nl = prf_eval k [uid; commitment_of r].
Proof.
  intros H. apply spends_forms in H. destruct H as [[_ ->]|[[_ ->] _]]; eexists; reflexivity.
Qed.
Print Assumptions C15_nullifier_binds.
(** with a freezer key that is a point of the group the canonicity of the secrets is not needed for owners *)
Theorem C15_owner_with_freezer (C : CapConfig) (L : CapLaws C) (r : RoV) (uid sk nl sk' nl' : F) (fpk : point) :
  owner_spend r uid sk nl -> owner_spend r uid sk' nl' -> po_freezer (ro_pol r) = pt_xy fpk -> fpk <> pt_id -> nl = nl'.
Proof. exact (owner_with_freezer L r uid sk nl sk' nl' fpk). Qed.
Print Assumptions C15_owner_with_freezer.
(** without canonicity: two accepted mint notes spend the same record at the same position with different nullifiers *)
Theorem C15_two_nullifiers_refuted :
  exists n1 n2 root, @mint_accepted T TS 2 n1 root /\ @mint_accepted T TS 2 n2 root /\
    mn_nullifier n1 <> mn_nullifier n2 /\
    exists r uid, @spends T TS r uid (@fz toy_field 11) (mn_nullifier n1) (TxMint n1) /\
                  @spends T TS r uid (@fz toy_field (11 + bn_l)) (mn_nullifier n2) (TxMint n2).
Proof. exact two_nullifiers. Qed.
Print Assumptions C15_two_nullifiers_refuted.
(** an owner at the identity: the freezer's nullifier differs from the owner's *)
Theorem C15_identity_owner_refuted :
  exists (r : @RoV T) uid sk nl sk' nl',
    @owner_spend T r uid sk nl /\ @freezer_spend T r uid sk' nl' /\
    zv sk < bn_l /\ zv sk' < bn_l /\ @po_freezer T (ro_pol r) <> @no_key T /\ nl <> nl'.
Proof. exact identity_owner. Qed.
Print Assumptions C15_identity_owner_refuted.
Example C15_example :
  exists n sk n' sk' outs nl nl', h_transfer true = Ok (n, sk) /\ h_freeze true = Ok (n', sk', outs) /\
    let r := @ro_value T (h_in1 true) in
    @spends T TS r (@fz toy_field 1) (@fz toy_field 12) nl (TxTransfer n) /\
    @spends T TS r (@fz toy_field 1) (@fz toy_field 9) nl' (TxFreeze n') /\
    @ro_owner T r <> @no_key T /\ @ro_code T r <> dummy_asset_code.
Proof. exact spend_sample. Qed.

(** ** C22: the public values exposed by the circuits, in the verifier's order *)
Theorem C22_public_input_order (C : CapConfig) :
  (forall w p s, transfer_circuit w p = Ok s -> map (env_of (wit s)) (pubs s) = transfer_to_scalars p) /\
  (forall w p s, mint_circuit w p = Ok s -> map (env_of (wit s)) (pubs s) = mint_to_scalars p) /\
  (forall w p s, freeze_circuit_unchecked w p = Ok s -> map (env_of (wit s)) (pubs s) = freeze_to_scalars p).
Proof. exact (conj transfer_exposed (conj mint_exposed freeze_exposed)). Qed.
Print Assumptions C22_public_input_order.
(** for a generated note: what the proving circuit exposes is what the verifier passes to the proof system *)
Theorem C22_generated_note (C : CapConfig) (L : CapLaws C) (S : Snark C) :
  (forall r inputs outputs pk vu extra n sk, transfer_generate r inputs outputs pk vu extra = Ok (n, sk) ->
     exists w s, transfer_circuit w (transfer_note_public n) = Ok s /\
       snark_prove (tr_prand r) s (tpk_key pk) (ser_verkey (ver_key sk) ++ extra) = Ok (tn_proof n) /\
       forall vk root ts, transfer_verify n vk root ts = Ok tt ->
         snark_verify (tvk_key vk) (map (env_of (wit s)) (pubs s)) (tn_proof n) (ser_verkey (ver_key sk) ++ extra) = true) /\
  (forall r mint_ro seed desc fee pk n sk, mint_generate r mint_ro seed desc fee pk = Ok (n, sk) ->
     exists w s, mint_circuit w (mint_note_public n) = Ok s /\
       snark_prove (mrd_prand r) s (mpk_key pk) (ser_verkey (ver_key sk)) = Ok (mn_proof n) /\
       forall vk root, mint_verify n vk root = Ok tt ->
         snark_verify (mvk_key vk) (map (env_of (wit s)) (pubs s)) (mn_proof n) (ser_verkey (ver_key sk)) = true) /\
  (forall r inputs fee pk n sk outs, freeze_generate r inputs fee pk = Ok (n, sk, outs) ->
     exists w s, freeze_circuit_unchecked w (freeze_note_public n) = Ok s /\
       snark_prove (frd_prand r) s (fpk_key pk) (ser_verkey (ver_key sk)) = Ok (fn_proof n) /\
       forall vk root, freeze_verify n vk root = Ok tt ->
         snark_verify (fvk_key vk) (map (env_of (wit s)) (pubs s)) (fn_proof n) (ser_verkey (ver_key sk)) = true).
Proof. exact (generated_exposed L). Qed.
Print Assumptions C22_generated_note.
Example C22_example : exists n sk, h_transfer true = Ok (n, sk) /\ @transfer_accepted T TS 2 3 2 n h_root (w64 500).
Proof. destruct h_transfer_good as (n & sk & H1 & H2 & _). exists n, sk. auto. Qed.

(** ** C23: the verifier's public values determine the note's public data *)
Theorem C23_public_input_injective (C : CapConfig) (L : CapLaws C) (S : Snark C) :
  (forall n n', length (tn_nullifiers n) = length (tn_nullifiers n') -> length (tn_commitments n) = length (tn_commitments n') ->
     transfer_to_scalars (transfer_note_public n) = transfer_to_scalars (transfer_note_public n') ->
     ta_root (tn_aux n) = ta_root (tn_aux n') /\ ta_fee (tn_aux n) = ta_fee (tn_aux n') /\ ta_valid_until (tn_aux n) = ta_valid_until (tn_aux n') /\
     tn_nullifiers n = tn_nullifiers n' /\ tn_commitments n = tn_commitments n' /\ tn_memo n = tn_memo n') /\
  (forall n n', mint_to_scalars (mint_note_public n) = mint_to_scalars (mint_note_public n') ->
     ma_root (mn_aux n) = ma_root (mn_aux n') /\ ma_fee (mn_aux n) = ma_fee (mn_aux n') /\ mn_nullifier n = mn_nullifier n' /\
     mn_mint n = mn_mint n' /\ mn_chg n = mn_chg n' /\ mn_amount n = mn_amount n' /\ mn_def n = mn_def n' /\
     mn_internal n = mn_internal n' /\ mn_memo n = mn_memo n') /\
  (forall n n', length (fn_nullifiers n) = length (fn_nullifiers n') ->
     freeze_to_scalars (freeze_note_public n) = freeze_to_scalars (freeze_note_public n') ->
     fa_root (fn_aux n) = fa_root (fn_aux n') /\ fa_fee (fn_aux n) = fa_fee (fn_aux n') /\
     fn_nullifiers n = fn_nullifiers n' /\ fn_commitments n = fn_commitments n').
Proof. exact (note_public_injective L). Qed.
Print Assumptions C23_public_input_injective.
(** without the numbers of nullifiers and commitments: one proof serves two notes *)
Theorem C23_boundary_refuted : exists pk vk n n' root ts,
  @transfer_preprocess T TS tt 2 3 2 = Ok (pk, vk) /\
  @transfer_verify T TS n vk root ts = Ok tt /\ @transfer_verify T TS n' vk root ts = Ok tt /\
  tn_proof n' = tn_proof n /\ tn_memo n' = tn_memo n /\ tn_aux n' = tn_aux n /\
  length (tn_nullifiers n) = 2%nat /\ length (tn_nullifiers n') = 3%nat /\
  @transfer_to_scalars T (@transfer_note_public T TS n') = @transfer_to_scalars T (@transfer_note_public T TS n).
Proof. exact moved_boundary. Qed.
Print Assumptions C23_boundary_refuted.
(** the notes compared have the same numbers of nullifiers and commitments, so a changed fee changes what the proof is checked against *)
Example C23_example : exists n sk, h_transfer true = Ok (n, sk) /\ length (tn_nullifiers n) = 2%nat /\ length (tn_commitments n) = 3%nat /\
  forall f, f <> ta_fee (tn_aux n) ->
    let a := tn_aux n in
    let n' := @mkTNote T TS (tn_nullifiers n) (tn_commitments n) (tn_proof n) (tn_memo n)
                (mkTAux (ta_root a) f (ta_valid_until a) (ta_memo_vk a) (ta_extra a)) in
    @transfer_to_scalars T (@transfer_note_public T TS n') <> @transfer_to_scalars T (@transfer_note_public T TS n).
Proof.
  destruct h_transfer_good as (n & sk & H1 & H2 & _). exists n, sk. split; [exact H1|].
  destruct H2 as (g & pk & vk & H2). split; [apply H2|]. split; [apply H2|]. intros f Hf a n' E.
  apply (proj1 (C23_public_input_injective T (toy_laws true) TS) n' n eq_refl eq_refl) in E. destruct E as (_ & E & _). exact (Hf E).
Qed.

(** ** C24: the circuit of a witness is the circuit of the key *)
Theorem C24_circuit_independent_of_secrets (C : CapConfig) (L : CapLaws C) :
  (forall n_in n_out d s0 w vu p,
     transfer_build_for_preprocessing n_in n_out d = Ok s0 -> transfer_from_witness w vu = Ok p ->
     length (tw_inputs w) = n_in -> length (tw_outputs w) = n_out ->
     (forall i, In i (tw_inputs w) -> length (acc_path (is_acc i)) = d /\ length (cr_attrs (is_cred i)) = ATTRS_LEN) ->
     exists s, transfer_circuit w p = Ok s /\ length (wit s) = length (wit s0) /\ gates s = gates s0 /\ pubs s = pubs s0) /\
  (forall d s0 w p, mint_build_for_preprocessing d = Ok s0 -> mint_from_witness w = Ok p -> length (acc_path (mw_acc w)) = d ->
     exists s, mint_circuit w p = Ok s /\ length (wit s) = length (wit s0) /\ gates s = gates s0 /\ pubs s = pubs s0) /\
  (forall fk d n s0 w p, freeze_build_for_preprocessing fk d n = Ok s0 -> freeze_from_witness w = Ok p ->
     length (fw_inputs w) = n -> (forall a, In a (fw_accs w) -> length (acc_path a) = d) ->
     exists s, freeze_circuit_unchecked w p = Ok s /\ length (wit s) = length (wit s0) /\ gates s = gates s0 /\ pubs s = pubs s0).
Proof. exact (conj (transfer_key_circuit L) (conj mint_key_circuit freeze_key_circuit)). Qed.
Print Assumptions C24_circuit_independent_of_secrets.
Example C24_example :
  exists s0 s p, @transfer_build_for_preprocessing T 2 2 2 = Ok s0 /\ @transfer_from_witness T (x_witness true) (w64 500) = Ok p /\
    @transfer_circuit T (x_witness true) p = Ok s /\ (length (gates s0) =? length (gates s))%nat = true /\ (100 <? length (gates s))%nat = true.
Proof. exact circuit_sample. Qed.

(** ** C25: conservation *)
Theorem C25_transfer_conserves (C : CapConfig) (L : CapLaws C) (S : Snark C) (SL : SnarkLaws S) :
  (forall n_in n_out d n root ts, transfer_accepted n_in n_out d n root ts -> exists t, transfer_opens d n t) /\
  (forall d n t, transfer_opens d n t ->
     Forall (fun o => zv (ro_amount o) < 2 ^ 127) (tv_outs t) /\
     (if zeqb native_asset_code (tv_code t)
      then fsum (in_amounts t) = fadd (fsum (out_amounts t)) (f_of_u128 (ta_fee (tn_aux n)))
      else fsum (tl (in_amounts t)) = fsum (tl (out_amounts t)) /\
           hd f0 (in_amounts t) = fadd (hd f0 (out_amounts t)) (f_of_u128 (ta_fee (tn_aux n)))) /\
     (Forall (fun i => zv (ro_amount (in_ro i)) < 2 ^ 128) (tv_ins t) ->
      Z.of_nat (length (tv_ins t)) < 2 ^ 64 -> Z.of_nat (length (tv_outs t)) < 2 ^ 64 ->
      if zeqb native_asset_code (tv_code t)
      then isum (in_amounts t) = isum (out_amounts t) + zv (ta_fee (tn_aux n))
      else isum (tl (in_amounts t)) = isum (tl (out_amounts t)) /\
           zv (hd f0 (in_amounts t)) = zv (hd f0 (out_amounts t)) + zv (ta_fee (tn_aux n)))).
Proof. exact (conj (accepted_has_opening L SL) opens_amounts). Qed.
Print Assumptions C25_transfer_conserves.
Example C25_example : exists n sk, h_transfer true = Ok (n, sk) /\ @transfer_accepted T TS 2 3 2 n h_root (w64 500) /\
  @transfer_opens T TS 2 n h_opening /\ map zv (in_amounts h_opening) = [20; 30] /\ map zv (out_amounts h_opening) = [15; 18; 12].
Proof. destruct h_transfer_good as (n & sk & H1 & H2 & H3). exists n, sk. repeat (split; [assumption|]). split; vm_compute; reflexivity. Qed.

(** ** C26: asset types.  One code and one policy for everything but the fee pair; the codes of the inputs are not tied to it *)
Theorem C26_transfer_assets (C : CapConfig) (L : CapLaws C) (S : Snark C) (SL : SnarkLaws S) :
  (forall n_in n_out d n root ts, transfer_accepted n_in n_out d n root ts -> exists t, transfer_opens d n t) /\
  (forall d n t, transfer_opens d n t ->
     exists i0 is o0 os, tv_ins t = i0 :: is /\ tv_outs t = o0 :: os /\
       ro_code (in_ro i0) = native_asset_code /\ policy_empty (ro_pol (in_ro i0)) /\
       ro_code o0 = native_asset_code /\ policy_empty (ro_pol o0) /\
       (forall o, In o os -> ro_code o = tv_code t /\ ro_pol o = tv_pol t) /\
       (forall i, In i is -> ro_code (in_ro i) <> dummy_asset_code -> ro_pol (in_ro i) = tv_pol t) /\
       (forall i, In i is -> ro_code (in_ro i) = dummy_asset_code -> policy_empty_weak (ro_pol (in_ro i)))).
Proof. exact (conj (accepted_has_opening L SL) opens_assets). Qed.
Print Assumptions C26_transfer_assets.
Theorem C26_asset_code_refuted :
  exists n root ts t i o, @transfer_accepted T TS 2 2 2 n root ts /\ @transfer_opens T TS 2 n t /\
    In i (tl (tv_ins t)) /\ In o (tl (tv_outs t)) /\
    ro_code (in_ro i) <> dummy_asset_code /\ zv (ro_amount (in_ro i)) = 30 /\ zv (ro_amount o) = 30 /\ ro_code (in_ro i) <> ro_code o.
Proof. exact asset_switch. Qed.
Print Assumptions C26_asset_code_refuted.
(** an accepted transfer of an asset that is neither the native nor the dummy one: code 1234, with a fee record in front *)
Example C26_example : exists n sk, h_transfer true = Ok (n, sk) /\ @transfer_accepted T TS 2 3 2 n h_root (w64 500) /\
  @transfer_opens T TS 2 n h_opening /\ map (fun i => zv (ro_code (in_ro i))) (tv_ins h_opening) = [1; 1234] /\
  map (fun o => zv (ro_code o)) (tv_outs h_opening) = [1; 1234; 1234] /\ zv (tv_code h_opening) = 1234.
Proof. destruct h_transfer_good as (n & sk & H1 & H2 & H3). exists n, sk. repeat (split; [assumption|]). vm_compute. auto. Qed.

(** ** C27: ownership, freezing, membership, nullifiers, outputs *)
Theorem C27_transfer_spends (C : CapConfig) (L : CapLaws C) (S : Snark C) (SL : SnarkLaws S) :
  (forall n_in n_out d n root ts, transfer_accepted n_in n_out d n root ts ->
     root = ta_root (tn_aux n) /\ exists t, transfer_opens d n t) /\
  (forall d n t, transfer_opens d n t ->
     Forall2 (fun i nl =>
       owns (in_sk i) (ro_owner (in_ro i)) /\ ro_flag (in_ro i) = f0 /\
       nl = nullifier_of (spending_key (in_sk i) (po_freezer (ro_pol (in_ro i)))) (pl_uid (in_place i)) (commitment_of (in_ro i)) /\
       (ro_code (in_ro i) = dummy_asset_code -> ro_amount (in_ro i) = f0) /\
       (ro_code (in_ro i) <> dummy_asset_code ->
        length (pl_path (in_place i)) = d /\
        merkle_root_of (pl_uid (in_place i)) (commitment_of (in_ro i)) (pl_path (in_place i)) = ta_root (tn_aux n)))
       (tv_ins t) (tn_nullifiers n) /\
     Forall2 (fun o rc => rc = commitment_of o /\ ro_flag o = f0 /\ zv (ro_amount o) < 2 ^ 127) (tv_outs t) (tn_commitments n)).
Proof. exact (conj (accepted_root_opening L SL) opens_spends). Qed.
Print Assumptions C27_transfer_spends.
(** the same for every satisfying assignment of the circuit a key was made from *)
Theorem C27_every_assignment (C : CapConfig) (L : CapLaws C) n_in n_out d s0 rho pub :
  transfer_build_for_preprocessing n_in n_out d = Ok s0 -> circuit_sat s0 rho pub = true ->
  exists q t, pub = transfer_scalars q /\ length (tq_nullifiers q) = n_in /\ length (tq_commitments q) = n_out /\
    length (snd (tq_memo q)) = (1 + (n_in - 1) * 12 + (n_out - 1) * 4)%nat /\ transfer_depth d t /\ transfer_relation q t.
Proof. exact (transfer_key_sound L n_in n_out d s0 rho pub). Qed.
Print Assumptions C27_every_assignment.
(** its inputs are real records, in the tree at positions 0 and 1; the second has a freezer *)
Example C27_example : exists n sk, h_transfer true = Ok (n, sk) /\ @transfer_accepted T TS 2 3 2 n h_root (w64 500) /\
  @transfer_opens T TS 2 n h_opening /\ map (fun i => zv (pl_uid (in_place i))) (tv_ins h_opening) = [0; 1] /\
  zv (@dummy_asset_code toy_field) = 2 /\ map (fun i => zv (ro_code (in_ro i))) (tv_ins h_opening) = [1; 1234] /\
  map (fun i => xy_eqb (po_freezer (ro_pol (in_ro i))) (@no_key T)) (tv_ins h_opening) = [true; false].
Proof. destruct h_transfer_good as (n & sk & H1 & H2 & H3). exists n, sk. repeat (split; [assumption|]). vm_compute. auto. Qed.

(** ** C28: credentials *)
Theorem C28_transfer_credentials (C : CapConfig) (L : CapLaws C) (S : Snark C) (SL : SnarkLaws S) :
  (forall n_in n_out d n root ts, transfer_accepted n_in n_out d n root ts ->
     zv ts <= zv (ta_valid_until (tn_aux n)) /\ exists t, transfer_opens d n t) /\
  (forall d n t, transfer_opens d n t ->
     (forall i, In i (tv_ins t) -> po_cred (ro_pol (in_ro i)) <> no_key ->
        csig_ok (cr_v_creator (in_cred i))
                ([cr_v_expiry (in_cred i); fst (cr_v_addr (in_cred i)); snd (cr_v_addr (in_cred i))] ++ cr_v_attrs (in_cred i))
                (cr_v_sig (in_cred i)) = true) /\
     (forall i, In i (tv_ins t) -> length (cr_v_attrs (in_cred i)) = ATTRS_LEN /\
        zv (ta_valid_until (tn_aux n)) <= zv (cr_v_expiry (in_cred i)) < zv (ta_valid_until (tn_aux n)) + 2 ^ 20)).
Proof. exact (conj (accepted_time_opening L SL) opens_credentials). Qed.
Print Assumptions C28_transfer_credentials.
(** the issuer and the subject of the credential are not compared with the policy and the owner, even by the API *)
Theorem C28_issuer_refuted :
  exists pk vk r inputs outputs vu n sk i c,
    @transfer_preprocess T TS tt 2 3 2 = Ok (pk, vk) /\
    @transfer_generate T TS r inputs outputs pk vu [] = Ok (n, sk) /\ @transfer_verify T TS n vk (ta_root (tn_aux n)) vu = Ok tt /\
    In i inputs /\ ti_cred i = Some c /\ cred_pk (policy (asset_def (ti_ro i))) <> @pt_id T /\
    cr_creator_pk c <> cred_pk (policy (asset_def (ti_ro i))) /\ cr_user_addr c <> address (pub_key (ti_ro i)).
Proof. exact foreign_credential. Qed.
Print Assumptions C28_issuer_refuted.
(** an accepted transfer whose second input needs a credential, and has one that expires at 900 *)
Example C28_example : exists n sk, h_transfer true = Ok (n, sk) /\ @transfer_accepted T TS 2 3 2 n h_root (w64 500) /\
  @transfer_opens T TS 2 n h_opening /\
  map (fun i => xy_eqb (po_cred (ro_pol (in_ro i))) (@no_key T)) (tv_ins h_opening) = [true; false] /\
  map (fun i => zv (cr_v_expiry (in_cred i))) (tv_ins h_opening) = [1048575; 900].
Proof. destruct h_transfer_good as (n & sk & H1 & H2 & H3). exists n, sk. repeat (split; [assumption|]). vm_compute. auto. Qed.

(** ** C29: the viewing policy *)
Theorem C29_viewing_policy (C : CapConfig) (L : CapLaws C) (S : Snark C) (SL : SnarkLaws S) :
  (forall n_in n_out d n root ts, transfer_accepted n_in n_out d n root ts -> exists t, transfer_opens d n t) /\
  (forall d n t, transfer_opens d n t -> po_viewer (tv_pol t) <> no_key ->
     Forall (fun i => zv (ro_amount (in_ro i)) < 2 ^ 128) (tl (tv_ins t)) -> Z.of_nat (length (tv_ins t)) < 2 ^ 64 ->
     zv (po_threshold (tv_pol t)) < isum (tl (in_amounts t)) ->
     (pt_xy (vm_ephemeral (tn_memo n)), vm_data (tn_memo n)) =
       celgamal_encrypt (po_viewer (tv_pol t)) (tv_rand t) (transfer_message t) /\
     (forall viewer : ViewerKeyPair, po_viewer (tv_pol t) = pt_xy (viewer_pub_key viewer) ->
        elgamal_decrypt viewer (vm_ephemeral (tn_memo n), vm_data (tn_memo n)) = transfer_message t)).
Proof. exact (conj (accepted_has_opening L SL) (opens_viewing L)). Qed.
Print Assumptions C29_viewing_policy.
Example C29_example :
  xy_eqb (po_viewer (tv_pol h_opening)) (@no_key T) = false /\ zv (po_threshold (tv_pol h_opening)) = 10 /\
  isum (tl (in_amounts h_opening)) = 30 /\ length (@transfer_message T h_opening) = 21%nat.
Proof. vm_compute. auto. Qed.
