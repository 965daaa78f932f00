(** Property theorems: generation succeeds when it should (C30, C35).

    [spendable], [transferable] (NoteLive.v), [payable] and [freezable] (NoteLive2.v) are the specification: plain
    conditions on the records, keys, membership paths and credentials that the caller passes. *)
From Verif Require Import Base Config Structs Keys Utils Memo Plonk Witness Circuits CircuitLogic Relation UtilsProofs GadgetProofs
  TransferCircuitProofs MintCircuitProofs FreezeCircuitProofs CircuitShape CircuitTheorems Snark Notes NoteProofs NoteGen NoteGen2
  NoteThms Security Accepted CircuitFacts Toy ToySnark Samples NoteSamples NoteLive NoteLive2.
#[local] Notation T := (toy true).
#[local] Notation TS := (toy_snark true).

(** ** The sample transfer, fee and freeze inputs meet the specification *)
Definition h_rt : @F toy_field := n_root true (h_fee true) (h_in1 true) (h_in2 true).
Lemma sample_transferable :
  @transferable T 2 h_rt (w64 500) (h_inputs true) (h_outputs true) (s_amount 5) (s_def true).
Proof.
  constructor.
  - exists (@mkTIn T (h_fee true) (h_acc true 0) (s_user true 11) None),
      [@mkTIn T (h_in1 true) (h_acc true 1) (s_user true 12) (Some (s_cred true 12 8 900))],
      (s_native true 15 11 200), [s_ro true 18 (s_def true) 13 Unfrozen 201; s_ro true 12 (s_def true) 12 Unfrozen 202].
    split; [reflexivity|]. split; [reflexivity|]. split; [reflexivity|]. split; [reflexivity|].
    split; [cbn [map ti_ro]; refine (@tr_here T (h_in1 true) [] _); intros E; apply (f_equal (fun d => zv (@code T d))) in E; vm_compute in E; discriminate E|].
    split; [intros i [<-|[]]; right; reflexivity|]. split; [intros o [<-|[<-|[]]]; reflexivity|].
    intros _. split; vm_compute; reflexivity.
  - split; [intros E; apply (f_equal zv) in E; vm_compute in E; discriminate E|].
    split; [intros E; apply (f_equal zv) in E; vm_compute in E; discriminate E|].
    intros _ E. vm_compute in E. discriminate E.
  - intros i [<-|[<-|[]]]; constructor.
    + reflexivity.
    + reflexivity.
    + intros _. reflexivity.
    + intros E; apply (f_equal (fun d => zv (@code T d))) in E; vm_compute in E; discriminate E.
    + reflexivity.
    + intros _. split; [reflexivity|]. apply zmod_ext. vm_compute. reflexivity.
    + intros E. exfalso. apply E. reflexivity.
    + reflexivity.
    + reflexivity.
    + intros _. reflexivity.
    + intros E; apply (f_equal (fun d => zv (@code T d))) in E; vm_compute in E; discriminate E.
    + reflexivity.
    + intros _. split; [reflexivity|]. apply zmod_ext. vm_compute. reflexivity.
    + intros _. exists (s_cred true 12 8 900). split; [reflexivity|]. split; [vm_compute; reflexivity|]. split; vm_compute; reflexivity.
  - intros o [<-|[<-|[<-|[]]]]; reflexivity.
  - vm_compute. reflexivity.
  - intros c.
    assert (E : non_dummy (map ti_ro (h_inputs true)) = [h_fee true; h_in1 true]).
    { unfold non_dummy. cbn [map h_inputs ti_ro filter].
      assert (K1 : @is_dummy_def T (asset_def (h_fee true)) = false) by (vm_compute; reflexivity).
      assert (K2 : @is_dummy_def T (asset_def (h_in1 true)) = false) by (vm_compute; reflexivity).
      rewrite K1, K2. reflexivity. }
    rewrite E. unfold h_outputs. rewrite !code_sum_cons, !code_sum_nil.
    change (code (asset_def (h_fee true))) with (@native_asset_code toy_field).
    change (code (asset_def (s_native true 15 11 200))) with (@native_asset_code toy_field).
    change (code (asset_def (h_in1 true))) with (@fz toy_field 1234).
    change (code (asset_def (s_ro true 18 (s_def true) 13 Unfrozen 201))) with (@fz toy_field 1234).
    change (code (asset_def (s_ro true 12 (s_def true) 12 Unfrozen 202))) with (@fz toy_field 1234).
    change (zv (amount (h_fee true))) with 20. change (zv (amount (s_native true 15 11 200))) with 15.
    change (zv (amount (h_in1 true))) with 30. change (zv (amount (s_ro true 18 (s_def true) 13 Unfrozen 201))) with 18.
    change (zv (amount (s_ro true 12 (s_def true) 12 Unfrozen 202))) with 12. change (zv (s_amount 5)) with 5.
    assert (H : forall a b : bool, (if a then 20 else 0) + ((if b then 30 else 0) + 0) =
      (if a then 15 else 0) + ((if b then 18 else 0) + ((if b then 12 else 0) + 0)) + (if a then 5 else 0)) by (intros [] []; reflexivity).
    exact (H (zeqb (@native_asset_code toy_field) c) (zeqb (@fz toy_field 1234) c)).
  - vm_compute. reflexivity.
  - constructor; [|constructor; [intros []|constructor]]. cbn [map h_inputs In]. intros [E|[]]. apply (f_equal zv) in E. vm_compute in E. discriminate E.
Qed.
Lemma sample_payable : @payable T 2 (h_fee_info true).
Proof.
  constructor; [reflexivity|reflexivity|split; reflexivity|vm_compute; reflexivity|reflexivity|split; reflexivity|].
  apply zmod_ext. vm_compute. reflexivity.
Qed.
Lemma sample_freezable i : In i (f_inputs true) -> @freezable T 2 h_rt i.
Proof.
  intros [<-|[<-|[]]]; (constructor; [reflexivity|apply zmod_ext; vm_compute; reflexivity|intros _ E; apply (f_equal zv) in E; vm_compute in E; discriminate E|
    intros E; apply (f_equal zv) in E; vm_compute in E; discriminate E|intros _; split; [reflexivity|apply zmod_ext; vm_compute; reflexivity]]).
Qed.

(** ** C30: the viewing memo made by the API is the one the circuit asks for *)
Theorem C30_memo_agrees (C : CapConfig) (L : CapLaws C) depth root vu inputs outputs fee d (r : Fj) :
  transferable depth root vu inputs outputs fee d ->
  exists w p, transfer_new_unchecked r inputs outputs = Ok w /\ transfer_from_witness w vu = Ok p /\
    memo_for_transfer_note (map ti_ro inputs) outputs (map is_cred (tw_inputs w)) r = Ok (tp_memo p) /\
    (* the condition of the transfer circuit on the memo *)
    (in_range 127 (fsub (f_of_u128 (reveal_threshold (policy d))) (transfer_in (transfer_value w))) = true \/
     viewer_pk (policy d) = pt_id \/
     memo_value (tp_memo p) =
       celgamal_encrypt (pt_xy (viewer_pk (policy d))) (fr_to_fq r) (transfer_message (transfer_value w))).
Proof.
  intros Q. destruct (q_witness L _ _ _ _ _ _ _ Q r) as (w & W).
  destruct (w_public L _ _ _ _ _ _ _ Q _ _ W) as (p & Hp & HM & HP).
  exists w, p. split; [exact W|]. split; [exact Hp|]. split; [exact HM|].
  pose proof (p_viewing L _ _ _ _ _ _ _ Q _ _ W p HM) as HV.
  unfold under_limit, transfer_memo_ok in HV. cbn [transfer_value tv_pol tv_rand pol_value po_threshold po_viewer transfer_pub_value tq_memo] in HV.
  rewrite (w_def L _ _ _ _ _ _ _ Q _ _ W) in HV. rewrite (is_no_key L) in HV.
  destruct (new_unchecked_inv L _ _ _ _ W) as (_ & _ & Wr & _). rewrite Wr in HV. exact HV.
Qed.
Print Assumptions C30_memo_agrees.
(** Different flags for the two coordinates of the address: the API reads flag 0 for both coordinates, the circuit one flag
    each, and no transfer above the threshold can be generated. *)
Theorem C30_address_flags_refuted :
  (exists n sk, u_transfer true (u_map true true) 10 500 = Ok (n, sk)) /\
  (exists n sk, u_transfer true (u_map false false) 10 500 = Ok (n, sk)) /\
  u_transfer true (u_map true false) 10 500 = Err FailedSnark /\
  u_transfer true (u_map false true) 10 500 = Err FailedSnark.
Proof.
  assert (G : forall r : res (@TransferNote T TS * @Fj toy_field), match r with Ok _ => true | _ => false end = true ->
    exists n sk, r = Ok (n, sk)) by (intros [[n sk]| |] H; [exists n, sk; reflexivity|discriminate H|discriminate H]).
  assert (B : forall r : res (@TransferNote T TS * @Fj toy_field), match r with Err FailedSnark => true | _ => false end = true ->
    r = Err FailedSnark) by (intros [x|[]|] H; try discriminate H; reflexivity).
  split; [refine (G _ _)|split; [refine (G _ _)|split; refine (B _ _)]]; vm_compute; reflexivity.
Qed.
Print Assumptions C30_address_flags_refuted.
(** A transfer of 30 units: the largest threshold with which it can be generated is 2^127 + 29. *)
Theorem C30_threshold_refuted :
  (exists n sk, u_transfer true (u_map true true) (2 ^ 127 + 29) 500 = Ok (n, sk)) /\
  u_transfer true (u_map true true) (2 ^ 127 + 30) 500 = Err FailedSnark.
Proof.
  assert (G : forall r : res (@TransferNote T TS * @Fj toy_field), match r with Ok _ => true | _ => false end = true ->
    exists n sk, r = Ok (n, sk)) by (intros [[n sk]| |] H; [exists n, sk; reflexivity|discriminate H|discriminate H]).
  assert (B : forall r : res (@TransferNote T TS * @Fj toy_field), match r with Err FailedSnark => true | _ => false end = true ->
    r = Err FailedSnark) by (intros [x|[]|] H; try discriminate H; reflexivity).
  split; [refine (G _ _)|refine (B _ _)]; vm_compute; reflexivity.
Qed.
Print Assumptions C30_threshold_refuted.
(** the sample transfer is over the threshold of a policy with a viewer, so that the memo is the part that counts *)
Example C30_example :
  @transferable T 2 h_rt (w64 500) (h_inputs true) (h_outputs true) (s_amount 5) (s_def true) /\
  viewer_pk (policy (s_def true)) <> @pt_id T /\ zv (reveal_threshold (policy (s_def true))) = 10.
Proof. split; [apply sample_transferable|]. split; [intros E; vm_compute in E; discriminate E|reflexivity]. Qed.

(** ** C35: generation succeeds *)
Theorem C35_transfer_generation_succeeds (C : CapConfig) (L : CapLaws C) (S : Snark C) (SL : SnarkLaws S)
    g n_in n_out depth pk vk root vu inputs outputs fee d r extra :
  transfer_preprocess g n_in n_out depth = Ok (pk, vk) -> length inputs = n_in -> length outputs = n_out ->
  transferable depth root vu inputs outputs fee d ->
  exists n, transfer_generate r inputs outputs pk vu extra = Ok (n, tr_sig r) /\ ta_root (tn_aux n) = root /\ ta_fee (tn_aux n) = fee /\
    forall ts : u64, zv ts <= zv vu -> transfer_verify n vk root ts = Ok tt.
Proof.
  intros HP Li Lo Q. destruct (transfer_generate_live L SL _ _ _ _ _ _ _ _ _ _ _ _ r extra HP Li Lo Q) as (n & HG & Hr & Hf).
  exists n. split; [exact HG|]. split; [exact Hr|]. split; [exact Hf|]. intros ts Ht. rewrite <- Hr.
  exact (transfer_generate_verifies L SL _ _ _ _ _ _ _ _ _ _ _ _ _ ts HP HG Ht).
Qed.
Print Assumptions C35_transfer_generation_succeeds.
Theorem C35_non_native_generation_succeeds (C : CapConfig) (L : CapLaws C) (S : Snark C) (SL : SnarkLaws S)
    g n_in n_out depth pk vk root vu inputs outputs f d r extra :
  transfer_preprocess g n_in n_out depth = Ok (pk, vk) -> (length inputs + 1)%nat = n_in -> (length outputs + 1)%nat = n_out ->
  payable depth f ->
  transferable depth root vu (fee_to_transfer_input (fee_input f) :: inputs) (fee_chg_ro f :: outputs) (fee_amount f) d ->
  exists n, transfer_generate_non_native r inputs outputs f vu pk extra = Ok (n, tr_sig r) /\
    ta_root (tn_aux n) = root /\ ta_fee (tn_aux n) = fee_amount f.
Proof. exact (transfer_non_native_live L SL g n_in n_out depth pk vk root vu inputs outputs f d r extra). Qed.
Print Assumptions C35_non_native_generation_succeeds.
Theorem C35_native_generation_succeeds (C : CapConfig) (L : CapLaws C) (S : Snark C) (SL : SnarkLaws S)
    g n_in n_out depth pk vk root vu i0 irest outputs fee chg r :
  transfer_preprocess g n_in n_out depth = Ok (pk, vk) -> (length irest + 1)%nat = n_in -> (length outputs + 1)%nat = n_out ->
  chg = mkRO (amount chg) asset_def_native (pub_key (ti_ro i0)) Unfrozen (tr_chg_blind r) ->
  transferable depth root vu (i0 :: irest) (chg :: outputs) fee asset_def_native ->
  exists n, transfer_generate_native r (i0 :: irest) outputs fee vu pk = Ok (n, tr_sig r, chg) /\
    ta_root (tn_aux n) = root /\ ta_fee (tn_aux n) = fee.
Proof. exact (transfer_native_live L SL g n_in n_out depth pk vk root vu i0 irest outputs fee chg r). Qed.
Print Assumptions C35_native_generation_succeeds.
Theorem C35_mint_generation_succeeds (C : CapConfig) (L : CapLaws C) (S : Snark C) (SL : SnarkLaws S)
    g depth pk vk r mint_ro seed description f :
  mint_preprocess g depth = Ok (pk, vk) -> payable depth f -> code (asset_def mint_ro) = new_domestic seed description ->
  freeze_flag mint_ro = Unfrozen -> zv (amount mint_ro) < 2 ^ 127 ->
  exists n, mint_generate r mint_ro seed description f pk = Ok (n, mrd_sig r) /\
    mint_verify n vk (acc_root (fi_acc (fee_input f))) = Ok tt.
Proof. exact (mint_generate_live L SL g depth pk vk r mint_ro seed description f). Qed.
Print Assumptions C35_mint_generation_succeeds.
Theorem C35_freeze_generation_succeeds (C : CapConfig) (L : CapLaws C) (S : Snark C) (SL : SnarkLaws S)
    g fk num depth pk vk r inputs f :
  freeze_preprocess g fk num depth = Ok (pk, vk) -> (depth < 256)%nat -> (length inputs + 1)%nat = num -> inputs <> [] ->
  payable depth f -> (forall i, In i inputs -> freezable depth (acc_root (fi_acc (fee_input f))) i) ->
  NoDup (user_nullify (fi_kp (fee_input f)) pt_id (acc_uid (fi_acc (fee_input f))) (derive_record_commitment (fi_ro (fee_input f)))
         :: map (fun i => freezer_nullify (zi_kp i) (address (pub_key (zi_ro i))) (acc_uid (zi_acc i)) (derive_record_commitment (zi_ro i))) inputs) ->
  exists n, freeze_generate r inputs f pk = Ok (n, frd_sig r, freeze_get_output_ros (frd_blinds r) inputs) /\
    freeze_verify n vk (acc_root (fi_acc (fee_input f))) = Ok tt.
Proof. exact (freeze_generate_live L SL g fk num depth pk vk r inputs f). Qed.
Print Assumptions C35_freeze_generation_succeeds.
Example C35_live_example :
  @transferable T 2 h_rt (w64 500) (h_inputs true) (h_outputs true) (s_amount 5) (s_def true) /\
  @payable T 2 (h_fee_info true) /\ (forall i, In i (f_inputs true) -> @freezable T 2 h_rt i) /\
  @freeze_nullifiers T (f_inputs true) (h_fee_info true) <> [] /\ NoDup (map zv (@freeze_nullifiers T (f_inputs true) (h_fee_info true))).
Proof.
  split; [apply sample_transferable|]. split; [apply sample_payable|]. split; [apply sample_freezable|]. split; [discriminate|].
  vm_compute. repeat constructor; cbn; intuition discriminate.
Qed.
