(** C67: the witnesses and public inputs the parameter builders make, and when they satisfy the circuits (utils/params_builder.rs). *)
From Verif Require Import Base Config Structs Keys Utils Memo Plonk Witness Circuits Relation PolicyProofs CodecProofs UtilsProofs Snark Notes NoteProofs Serde Ledger Wallet CircuitFacts Toy ToySnark Samples NoteSamples WalletSamples
  Builder BuilderSpec BuilderProofs BuilderChain BuilderLive BuilderRand BuilderOther BuilderCallSpec BuilderCalls BuilderTxns BuilderWit BuilderWitProofs BuilderWitTransfer BuilderWitList BuilderSamples.
#[local] Existing Instance toy_snark.
#[local] Existing Instance w_codec.
#[local] Existing Instance toy_memo_i.
#[local] Existing Instance toy_w.

(** ** Mints *)

(** The witness and public input of a mint builder, if its fee record is native and pays the fee; an error otherwise *)
Theorem C67_mint_inputs (C : CapConfig) (L : CapLaws C) (bl : F) (enc : Fj) (b : MintBuilder) :
  (mint_payable b -> exists w p chg, mb_build_witness_and_public_input bl enc b = Ok (w, p) /\
     zv (amount chg) = zv (amount (mb_fee_ro b)) - zv (mb_fee b) /\ asset_def chg = asset_def_native /\ pub_key chg = pub_key (mb_fee_ro b) /\
     freeze_flag chg = Unfrozen /\ blind chg = bl /\
     w = mkMW (mb_minter b) (mb_acc b) (mb_fee_ro b) (mb_mint_ro b) chg (mb_seed b) (digest_from_description (mb_description b)) enc /\
     p = mkMPI (acc_root (mb_acc b)) native_asset_code (user_nullify (mb_minter b) pt_id (acc_uid (mb_acc b)) (derive_record_commitment (mb_fee_ro b)))
           (mb_fee b) (derive_record_commitment (mb_mint_ro b)) (derive_record_commitment chg) (amount (mb_mint_ro b))
           (new_domestic (mb_seed b) (mb_description b)) (internal_new (mb_seed b) (mb_description b)) (policy (asset_def (mb_mint_ro b)))
           (memo_for_mint_note (mb_mint_ro b) enc)) /\
  (~ mint_payable b -> mb_build_witness_and_public_input bl enc b = Err InvalidParameter).
Proof.
  split; [|exact (mb_build_err L bl enc b)]. intros H. destruct (mb_build_ok L bl enc b H) as (w & p & H1 & H2 & H3). exists w, p, (mint_paid bl b).
  split; [exact H1|]. destruct H as [Hd Ha]. split; [|split; [exact Hd|]; auto].
  cbn [mint_paid ro_new amount]. pose proof (amount_range (amount (mb_fee_ro b))). pose proof (amount_range (mb_fee b)). apply zv_w128_small. lia.
Qed.
Print Assumptions C67_mint_inputs.
(** The mint circuit is satisfied exactly when the builder's records are in order *)
Theorem C67_mint_circuit (C : CapConfig) (L : CapLaws C) (S : Snark C) g depth pk vk bl enc (b : MintBuilder) w p :
  mint_preprocess g depth = Ok (pk, vk) -> length (acc_path (mb_acc b)) = depth -> mb_build_witness_and_public_input bl enc b = Ok (w, p) ->
  exists s, mint_circuit w p = Ok s /\ (check_circuit_satisfiability s (mint_to_scalars p) = true <-> mint_holds b).
Proof. exact (mb_circuit L g depth pk vk bl enc b w p). Qed.
Print Assumptions C67_mint_circuit.

(** ** Freezes *)
Theorem C67_freeze_inputs (C : CapConfig) (bl : F) (blinds : nat -> F) (b : FreezeBuilder) :
  (zv (fb_fee b) <= zv (amount (fb_fee_ro b)) -> fb_inputs b <> [] -> exists w p chg outs, fb_build_witness_and_public_input bl blinds b = Ok (w, p) /\
     zv (amount chg) = zv (amount (fb_fee_ro b)) - zv (fb_fee b) /\ asset_def chg = asset_def_native /\ pub_key chg = pub_key (fb_fee_ro b) /\
     freeze_flag chg = Unfrozen /\ blind chg = bl /\ length outs = length (fb_inputs b) /\
     (forall i x y, nth_error (fb_inputs b) i = Some x -> nth_error outs i = Some y ->
        amount y = amount (zi_ro x) /\ asset_def y = asset_def (zi_ro x) /\ pub_key y = pub_key (zi_ro x) /\ freeze_flag y = flip (freeze_flag (zi_ro x)) /\ blind y = blinds i) /\
     w = mkFW (fb_fee_ro b :: map zi_ro (fb_inputs b)) (fi_acc (fb_fee_in b) :: map zi_acc (fb_inputs b)) (chg :: outs) (fi_kp (fb_fee_in b)) (map zi_kp (fb_inputs b)) /\
     p = mkFPI (acc_root (fi_acc (fb_fee_in b))) native_asset_code (fb_fee b) (fb_nullifiers b) (map derive_record_commitment (chg :: outs))) /\
  (~ (zv (fb_fee b) <= zv (amount (fb_fee_ro b)) /\ fb_inputs b <> []) -> fb_build_witness_and_public_input bl blinds b = Panic).
Proof.
  split; [|exact (fb_build_panic bl blinds b)]. intros Ha Hi. destruct (fb_build_ok bl blinds b Ha Hi) as (w & p & H1 & H2 & _ & H3).
  destruct (freeze_outputs_spec blinds (fb_inputs b)) as [O1 O2].
  exists w, p, (fee_chg_ro (freeze_paid bl b)), (freeze_get_output_ros blinds (fb_inputs b)). split; [exact H1|].
  split; [|split; [reflexivity|]; auto 10].
  cbn [freeze_paid fee_chg_ro ro_new amount]. pose proof (amount_range (amount (fb_fee_ro b))). pose proof (amount_range (fb_fee b)). apply zv_w128_small. lia.
Qed.
Print Assumptions C67_freeze_inputs.
(** The freeze circuit is satisfied exactly when the fee record and the frozen records are in order *)
Theorem C67_freeze_circuit (C : CapConfig) (L : CapLaws C) (S : Snark C) g fk num depth pk vk bl (blinds : nat -> F) (b : FreezeBuilder) w p :
  freeze_preprocess g fk num depth = Ok (pk, vk) -> (length (fb_inputs b) + 1)%nat = num ->
  length (acc_path (fi_acc (fb_fee_in b))) = depth -> (forall i, In i (fb_inputs b) -> length (acc_path (zi_acc i)) = depth) ->
  (forall i, In i (fb_inputs b) -> address (pub_key (zi_ro i)) <> pt_id) ->
  fb_build_witness_and_public_input bl blinds b = Ok (w, p) ->
  exists s, freeze_circuit_unchecked w p = Ok s /\ (check_circuit_satisfiability s (freeze_to_scalars p) = true <-> freeze_holds b).
Proof. exact (fb_circuit L g fk num depth pk vk bl blinds b w p). Qed.
Print Assumptions C67_freeze_circuit.

(** ** Transfers *)

(** A satisfied transfer circuit: what it says of the builder's records *)
Theorem C67_transfer_sound (C : CapConfig) (L : CapLaws C) enc (b : TransferBuilder) vu w p s :
  tb_build_witness enc b = Ok w -> transfer_from_witness w vu = Ok p -> transfer_circuit w p = Ok s ->
  check_circuit_satisfiability s (transfer_to_scalars p) = true -> transfer_says b vu (tp_root p) (tp_native p) (tp_fee p) (tw_asset_def w).
Proof. exact (transfer_builder_says L enc b vu w p s). Qed.
Print Assumptions C67_transfer_sound.
(** and the builders that give a note also satisfy it *)
Theorem C67_transfer_satisfied (C : CapConfig) (L : CapLaws C) (S : Snark C) g pk vk (b : TransferBuilder) root vu d enc :
  transfer_preprocess g (tb_num_in b) (tb_num_out b) (tb_depth b) = Ok (pk, vk) -> non_native_ready b root vu d ->
  exists w p s, tb_build_witness enc b = Ok w /\ transfer_from_witness w vu = Ok p /\ transfer_circuit w p = Ok s /\
    check_circuit_satisfiability s (transfer_to_scalars p) = true /\ tp_root p = root /\ tp_native p = native_asset_code /\ tw_asset_def w = d.
Proof. exact (non_native_satisfies L g pk vk b root vu d enc). Qed.
Print Assumptions C67_transfer_satisfied.
Theorem C67_native_satisfied (C : CapConfig) (L : CapLaws C) (S : Snark C) g pk vk (b : TransferBuilder) root vu enc :
  transfer_preprocess g (tb_num_in b) (tb_num_out b) (tb_depth b) = Ok (pk, vk) -> native_balanced b root vu ->
  exists w p s, tb_build_witness enc b = Ok w /\ transfer_from_witness w vu = Ok p /\ transfer_circuit w p = Ok s /\
    check_circuit_satisfiability s (transfer_to_scalars p) = true /\ tp_root p = root /\ tp_native p = native_asset_code /\ tw_asset_def w = asset_def_native.
Proof. exact (native_satisfies L g pk vk b root vu enc). Qed.
Print Assumptions C67_native_satisfied.

(** ** The memo key of a transaction in a list *)

(** The call changes that key in that transaction and nothing else; an index out of range panics *)
Theorem C67_memo_key (C : CapConfig) (S : Snark C) (idx : nat) (vk : point) (p : TxnsParams) :
  ((idx < length (tp_txns p))%nat -> exists p', update_recv_memos_ver_key idx vk p = Ok p' /\
     changed_at idx (memo_key_replaced vk) (tp_txns p) (tp_txns p') /\ tp_vks p' = tp_vks p /\ tp_until p' = tp_until p /\ tp_tree_root p' = tp_tree_root p /\
     get_merkle_roots p' = get_merkle_roots p /\ get_verifying_keys p' = get_verifying_keys p) /\
  (~ (idx < length (tp_txns p))%nat -> update_recv_memos_ver_key idx vk p = Panic).
Proof. exact (rekey_exact idx vk p). Qed.
Print Assumptions C67_memo_key.
(** In a generated list that transaction then fails, alone and in every batch; the others still verify *)
Theorem C67_memo_key_rejected (C : CapConfig) (L : CapLaws C) (S : Snark C) (SL : SnarkLaws S) (K : @RoCodec C) (E : MemoSer C) g fk start depth kps tj mj fj p idx vk t p' :
  (forall j, In j tj -> transfer_job_ok j) -> (forall j, In j mj -> mint_job_ok j) -> (forall j, In j fj -> freeze_job_ok j) -> jobs_fit depth tj mj fj ->
  generate_txns g fk start depth kps tj mj fj = Ok p ->
  nth_error (tp_txns p) idx = Some t -> vk <> tx_memo_vk t -> update_recv_memos_ver_key idx vk p = Ok p' ->
  exists keys, get_verifying_keys p' = Ok keys /\
  (forall t' k root ts, nth_error (tp_txns p') idx = Some t' -> nth_error keys idx = Some k -> tx_verify t' k root ts <> Ok tt) /\
  (forall roots ts, txn_batch_verify (tp_txns p') roots ts keys <> Ok tt) /\
  (forall ts i t' k, zv ts <= zv (tp_until p') -> i <> idx -> nth_error (tp_txns p') i = Some t' -> nth_error keys i = Some k -> tx_verify t' k (tp_tree_root p') ts = Ok tt).
Proof. exact (rekeyed_fails L SL g fk start depth kps tj mj fj p idx vk t p'). Qed.
Print Assumptions C67_memo_key_rejected.

(** ** The hypotheses can be met *)

(** A mint builder in order; with a larger fee it is not payable; with too large an amount the circuit fails *)
Definition bx_mint (fee amt : Z) : res (@MintBuilder T) :=
  @mb_new T (@fz toy_field 801) (@fz toy_field 802) (@fz toy_field 803) 3 (s_amount 20) (s_amount fee) (s_amount amt) (s_user true 14) (s_user true 15) (@sz toy_field 7).
Example C67_mint_example : exists b1 b2 b3, bx_mint 3 77 = Ok b1 /\ bx_mint 21 77 = Ok b2 /\ bx_mint 3 (2 ^ 127) = Ok b3 /\
  (@mint_payable T b1 /\ @mint_holds T b1 /\ length (acc_path (mb_acc b1)) = 3%nat) /\ ~ @mint_payable T b2 /\ (@mint_payable T b3 /\ ~ @mint_holds T b3).
Proof.
  assert (D : @new_domestic T (@fz toy_field 802) arbitrary_description <> @native_asset_code toy_field /\ @new_domestic T (@fz toy_field 802) arbitrary_description <> @dummy_asset_code toy_field).
  { split; (intros Q; apply (f_equal zv) in Q; vm_compute in Q; discriminate Q). } destruct D as [D1 D2].
  destruct (proj2 (@mint_new_exact T (@fz toy_field 801) (@fz toy_field 802) (@fz toy_field 803) 3 (s_amount 20) (s_amount 3) (s_amount 77) (s_user true 14) (s_user true 15) (@sz toy_field 7)) D1 D2)
    as (b1 & B0 & B1 & B2 & B3 & B4 & B5 & B6 & B7 & B8 & B9 & B10 & B11 & P1 & P2 & P3).
  destruct (proj2 (@mint_new_exact T (@fz toy_field 801) (@fz toy_field 802) (@fz toy_field 803) 3 (s_amount 20) (s_amount 21) (s_amount 77) (s_user true 14) (s_user true 15) (@sz toy_field 7)) D1 D2)
    as (b2 & E0 & E1 & E2 & _).
  destruct (proj2 (@mint_new_exact T (@fz toy_field 801) (@fz toy_field 802) (@fz toy_field 803) 3 (s_amount 20) (s_amount 3) (s_amount (2 ^ 127)) (s_user true 14) (s_user true 15) (@sz toy_field 7)) D1 D2)
    as (b3 & G0 & G1 & G2 & G3 & G4 & G5 & _).
  exists b1, b2, b3. split; [exact B0|]. split; [exact E0|]. split; [exact G0|]. unfold mint_payable. rewrite B1, B2, E1, E2, G1, G2.
  cbn [asset_def amount]. change (zv (s_amount 3)) with 3. change (zv (s_amount 20)) with 20. change (zv (s_amount 21)) with 21.
  split; [split; [split; [reflexivity|lia]|split; [|exact P1]]|]. 
  - constructor.
    + rewrite B1, B3. reflexivity.
    + unfold in_tree. rewrite P2. exact P3.
    + rewrite B1, B5. split; reflexivity.
    + rewrite B5. cbn [amount]. change (zv (s_amount 77)) with 77. lia.
    + rewrite B5, B6. cbn [asset_def]. exact B9.
  - split; [intros [_ Q]; lia|]. split; [split; [reflexivity|lia]|]. intros Q. destruct Q as [_ _ _ Q _]. rewrite G5 in Q. cbn [amount] in Q. vm_compute in Q. discriminate Q.
Qed.

(** A freeze builder in order; after taking the freezer out of a policy the circuit fails *)
Definition bx_freeze : res (@FreezeBuilder T) :=
  @fb_new T bx_fsample 3 [s_amount 10; s_amount 11] (s_amount 30) (s_amount 2) (s_user true 16) [@sz toy_field 9; @sz toy_field 10].
Example C67_freeze_example : exists b1 b2, bx_freeze = Ok b1 /\ @acalls T [AnyPolicy 0 (@policy_default T)] b1 = Ok b2 /\
  zv (fb_fee b1) <= zv (amount (@fb_fee_ro T b1)) /\ fb_inputs b1 <> [] /\ @freeze_holds T b1 /\ ~ @freeze_holds T b2 /\
  (forall i, In i (fb_inputs b1) -> address (pub_key (zi_ro i)) <> @pt_id T) /\
  length (acc_path (fi_acc (fb_fee_in b1))) = 3%nat /\ (forall i, In i (fb_inputs b1) -> length (acc_path (zi_acc i)) = 3%nat).
Proof.
  assert (G : get (let* b := bx_freeze in @acalls T [AnyPolicy 0 (@policy_default T)] b)
    (fun b => existsb (fun i => negb (@point_eqb T (freezer_pk (policy (asset_def (zi_ro i)))) (@freezer_pub_key T (zi_kp i)))) (fb_inputs b)) = true) by (vm_compute; reflexivity).
  destruct (get_ok _ _ G) as (b2 & HB & H). apply bind_inv in HB. destruct HB as (b1 & H0 & HB). exists b1, b2. split; [exact H0|]. split; [exact HB|].
  assert (G1 : get bx_freeze (fun b => forallb (fun i => negb (@point_eqb T (address (pub_key (zi_ro i))) (@pt_id T)) && negb (@point_eqb T (@freezer_pub_key T (zi_kp i)) (@pt_id T))) (fb_inputs b)) = true) by (vm_compute; reflexivity).
  destruct (get_ok _ _ G1) as (b & Hb & HA). rewrite H0 in Hb. injection Hb as <-. rewrite forallb_forall in HA.
  assert (S1 : Z.of_nat (length [@sz toy_field 9; @sz toy_field 10]) + 1 < 2 ^ 64) by (cbn [length]; lia).
  assert (S2 : Z.of_nat (length [@sz toy_field 9; @sz toy_field 10]) + 1 <= 3 ^ Z.of_nat 3) by (cbn [length]; lia).
  destruct (proj1 (@freeze_new_exact T bx_fsample 3 [s_amount 10; s_amount 11] (s_amount 30) (s_amount 2) (s_user true 16) [@sz toy_field 9; @sz toy_field 10] S1 S2) eq_refl)
    as (b & Hb & (_ & _ & _ & _ & Cf & _ & Ci) & _ & D1 & D2 & D3 & D4 & D5 & D6 & D7). assert (b = b1) by (unfold bx_freeze in H0; congruence). subst b. clear Hb.
  assert (Np : forall i, In i (fb_inputs b1) -> address (pub_key (zi_ro i)) <> @pt_id T /\ @freezer_pub_key T (zi_kp i) <> @pt_id T).
  { intros i Hi. pose proof (HA i Hi) as Q. apply andb_true_iff in Q. destruct Q as [Q1 Q2]. apply negb_true_iff in Q1, Q2.
    split; intros Z; [rewrite Z in Q1; assert (@point_eqb T pt_id pt_id = true) by (apply (point_eqb_spec (toy_laws true)); reflexivity); congruence|].
    rewrite Z in Q2; assert (@point_eqb T pt_id pt_id = true) by (apply (point_eqb_spec (toy_laws true)); reflexivity); congruence. }
  rewrite D2, D5. cbn [amount]. split; [change (zv (s_amount 2)) with 2; change (zv (s_amount 30)) with 30; lia|].
  split; [intros Q; rewrite Q in D3; discriminate D3|]. destruct Cf as (C1 & C2 & C3).
  assert (Fz : forall i, In i (fb_inputs b1) -> freezer_pk (policy (asset_def (zi_ro i))) = @freezer_pub_key T (zi_kp i)).
  { intros i Hi. apply In_nth_error in Hi. destruct Hi as (k & Hk). destruct (D7 k i Hk) as (_ & _ & _ & _ & ->). reflexivity. }
  split; [|split; [|split; [intros i Hi; exact (proj1 (Np i Hi))|split; [rewrite C1; exact D1|]]]].
  - constructor.
    + rewrite D5. reflexivity.
    + rewrite D5. reflexivity.
    + rewrite D5, D4. reflexivity.
    + unfold in_tree. rewrite C2. exact C3.
    + exact Fz.
    + intros i Hi _. rewrite (Fz i Hi). split; [exact (proj2 (Np i Hi))|]. apply In_nth_error in Hi. destruct Hi as (k & Hk). destruct (Ci k i Hk) as [(_ & _ & Q) _].
      unfold in_tree. rewrite C2. exact Q.
  - intros Q. apply existsb_exists in H. destruct H as (i & I1 & I2). apply negb_true_iff in I2. destruct Q as [_ _ _ _ Q _].
    assert (@point_eqb T (freezer_pk (policy (asset_def (zi_ro i)))) (freezer_pub_key (zi_kp i)) = true) by (apply (point_eqb_spec (toy_laws true)), Q, I1). congruence.
  - intros i Hi. apply In_nth_error in Hi. destruct Hi as (k & Hk). destruct (Ci k i Hk) as [(Q & _) _]. rewrite Q. exact D1.
Qed.

(** The transfer builders of C65 *)
Example C67_transfer_example : (exists b0 b, bx_new = Ok b0 /\ @calls T bx_chain b0 = Ok b /\ @non_native_ready T b (tb_root b) (w64 500) (@tb_def T b)) /\
  (exists b0 b, @tb_new T 1 2 3 None bx_kps None = Ok b0 /\ @calls T bx_native b0 = Ok b /\ @native_balanced T b (tb_root b) (w64 500)).
Proof.
  split; [destruct bx_chain_ready as (b0 & b & H1 & H2 & _ & H3 & _); exists b0, b; auto|].
  destruct bx_native_ready as (b0 & b & H1 & H2 & _ & H3 & _). exists b0, b. split; [exact H1|]. split; [exact H2|]. destruct H3 as [R A B F' M D].
  assert (G : get (let* b := @tb_new T 1 2 3 None bx_kps None in @calls T bx_native b) (fun b => zv (amount (tb_chg b)) + @total T (tb_outs b) <=? @total T (tb_ins b)) = true) by (vm_compute; reflexivity).
  destruct (get_ok _ _ G) as (b' & Hb & H). rewrite H1 in Hb. cbn [bind] in Hb. rewrite H2 in Hb. injection Hb as <-. constructor; auto; [reflexivity|apply Z.leb_le, H].
Qed.
