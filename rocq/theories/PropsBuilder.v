(** C64: the builder of transfers of the public parameter builders (utils/params_builder.rs).  C65: random builders, those of mints
    and freezes, and the generator of lists of transactions. *)
From Verif Require Import Base Config Structs Keys Utils Memo Plonk Witness Circuits Relation PolicyProofs Snark Notes NoteProofs Serde Ledger Wallet CircuitFacts Toy ToySnark Samples NoteSamples WalletSamples
  Builder BuilderSpec BuilderProofs BuilderChain BuilderLive BuilderRand BuilderOther BuilderTxns BuilderEnd BuilderSamples.
#[local] Existing Instance toy_snark.
#[local] Existing Instance w_codec.
#[local] Existing Instance toy_memo_i.
#[local] Existing Instance toy_w.

(** ** C64 *)

(** After any chain of calls every input record belongs to the key pair at its position and has a current membership witness *)
Theorem C64_witnesses_current (C : CapConfig) (L : CapLaws C) start n_in n_out depth kps asset b0 l b :
  size_ok start n_in n_out depth -> tb_new start n_in n_out depth kps asset = Ok b0 -> calls l b0 = Ok b ->
  tb_kps b = kps /\ tb_depth b = tb_depth b0 /\
  forall i r, nth_error (tb_ins b) i = Some r -> exists a k, nth_error (tb_accs b) i = Some a /\ nth_error kps i = Some k /\
    pub_key r = user_pub_key k /\ acc_uid a = w64 (Z.of_nat i) /\ proves (tb_depth b) (tb_root b) r a.
Proof. exact (witnesses_current start n_in n_out depth kps asset b0 l b). Qed.
Print Assumptions C64_witnesses_current.

(** the depth chosen without a wish has room for all records, up to 3^38 of them *)
Theorem C64_depth start n_in n_out depth : size_ok start n_in n_out depth ->
  (forall d, calculate_tree_depth start n_in n_out depth = Ok d ->
     (1 <= n_in)%nat /\ (1 <= n_out)%nat /\ Z.of_nat n_in + Z.of_nat n_out <= 3 ^ zv d /\ (forall d0, depth = Some d0 -> d = d0)) /\
  (depth = None -> (1 <= n_in)%nat -> (1 <= n_out)%nat -> exists d, calculate_tree_depth start n_in n_out depth = Ok d).
Proof.
  intros HS. split.
  - intros d H. destruct (tree_depth_room _ _ _ _ _ HS H) as (H1 & H2 & H3 & _ & H4). auto.
  - intros -> H1 H2. exact (tree_depth_found _ _ _ H1 H2 HS).
Qed.
Print Assumptions C64_depth.
(** above, the power of three that is taken for the depth does not fit a byte and the tree is too small *)
Theorem C64_depth_refuted : exists start n_in n_out d, start_ok start (Z.of_nat n_in + Z.of_nat n_out) /\
  calculate_tree_depth start n_in n_out None = Ok d /\ 3 ^ zv d < Z.of_nat n_in + Z.of_nat n_out.
Proof.
  exists 38%nat, (Z.to_nat (3 ^ 38)), 1%nat, (b8 (3 ^ 39)). exact depth_too_small.
Qed.
Print Assumptions C64_depth_refuted.

(** a chain that makes an ordinary transfer leaves a builder whose inputs and outputs fit together, with credentials good until they expire *)
Theorem C64_chain_ready (C : CapConfig) (L : CapLaws C) start n_in n_out depth kps asset b0 l b :
  size_ok start n_in n_out depth -> tb_new start n_in n_out depth kps asset = Ok b0 -> plain false l -> calls l b0 = Ok b ->
  tb_ins b <> [] -> tb_outs b <> [] ->
  tb_ready b (tb_root b) /\ tb_num_in b = n_in /\ tb_num_out b = n_out /\ tb_depth b = tb_depth b0 /\ same_asset b0 b /\
  forall x, chain_expiry None l = Some x -> cred_pk (policy (tb_def b)) <> pt_id ->
    forall i r, nth_error (skipn 1 (tb_ins b)) i = Some r -> asset_def r = tb_def b ->
      exists c, nth_error (tb_creds b) (Datatypes.S i) = Some (Some c) /\ cr_expiry c = x /\
        forall vu : u64, zv vu <= zv x < zv vu + 2 ^ 20 -> good_cred vu c.
Proof. exact (chain_ready L start n_in n_out depth kps asset b0 l b). Qed.
Print Assumptions C64_chain_ready.

(** such a builder gives a note that verifies against the builder's root, with memos signed for it *)
Theorem C64_builds (C : CapConfig) (L : CapLaws C) (S : Snark C) (SL : SnarkLaws S) (K : @RoCodec C) (E : MemoSer C) g pk vk b root vu d r extra (ts : u64) :
  transfer_preprocess g (tb_num_in b) (tb_num_out b) (tb_depth b) = Ok (pk, vk) ->
  non_native_ready b root vu d -> can_encrypt (br_enc r) (tb_outs b) -> zv ts <= zv vu ->
  exists n memos sg, tb_build_note r pk vu extra b = Ok (n, memos, sg) /\ transfer_verify n vk root ts = Ok tt /\
    verify_receiver_memos_signature (TxTransfer n) memos sg = Ok tt /\
    payment_memos (br_enc r) 0 (tb_outs b) = Ok memos /\
    tn_nullifiers n = tb_nullifiers b /\ tn_commitments n = map derive_record_commitment (tb_chg b :: tb_outs b) /\
    ta_valid_until (tn_aux n) = vu /\ ta_extra (tn_aux n) = extra /\
    forall in0, nth_error (tb_ins b) 0 = Some in0 -> zv (ta_fee (tn_aux n)) = zv (amount in0) - zv (amount (tb_chg b)).
Proof. exact (non_native_builds L SL g pk vk b root vu d r extra ts). Qed.
Print Assumptions C64_builds.
(** a builder of native transfers does, too; it ignores the given expiry and bound data and makes its own change *)
Theorem C64_builds_native (C : CapConfig) (L : CapLaws C) (S : Snark C) (SL : SnarkLaws S) (K : @RoCodec C) (E : MemoSer C) g pk vk b root vu r extra (ts : u64) :
  transfer_preprocess g (tb_num_in b) (tb_num_out b) (tb_depth b) = Ok (pk, vk) ->
  native_ready b root -> can_encrypt (br_enc r) (tb_outs b) -> zv ts < 2 ^ 20 ->
  exists n memos sg, tb_build_note r pk vu extra b = Ok (n, memos, sg) /\ transfer_verify n vk root ts = Ok tt /\
    verify_receiver_memos_signature (TxTransfer n) memos sg = Ok tt /\
    payment_memos (br_enc r) 0 (tb_outs b) = Ok memos /\
    tn_nullifiers n = tb_nullifiers b /\
    (exists chg, tn_commitments n = map derive_record_commitment (chg :: tb_outs b) /\
       asset_def chg = asset_def_native /\ pub_key chg = pub_key (tb_chg b) /\
       zv (amount chg) = zv (amount (tb_chg b)) + total (skipn 1 (tb_ins b)) - total (tb_outs b)) /\
    zv (ta_valid_until (tn_aux n)) = 2 ^ 20 - 1 /\ ta_extra (tn_aux n) = [] /\
    forall in0, nth_error (tb_ins b) 0 = Some in0 -> zv (ta_fee (tn_aux n)) = zv (amount in0) - zv (amount (tb_chg b)).
Proof. exact (native_builds L SL g pk vk b root vu r extra ts). Qed.
Print Assumptions C64_builds_native.

(** the three calls that number the inputs without the fee input check their index against all inputs: the last index that passes the check panics *)
Theorem C64_last_index_refuted (C : CapConfig) (b : TransferBuilder) d a : tb_ins b <> [] ->
  let i := (length (tb_ins b) - 1)%nat in
  (i < length (tb_ins b))%nat /\ call (CInputDef i d) b = Panic /\ call (CDummyInput i) b = Panic /\ call (CInputAmount i a) b = Panic.
Proof. exact (last_index_panics b d a). Qed.
Print Assumptions C64_last_index_refuted.
(** a dummy does not survive a change of the policy: the order of [plain] is needed *)
Theorem C64_dummy_order_refuted : exists b0 l b r, bx_new3 = Ok b0 /\ @calls T l b0 = Ok b /\
  (exists l0 t, l = l0 ++ [CRevealThreshold t] /\ @plain T false l0) /\ In r (skipn 1 (tb_ins b)) /\ asset_def r <> @tb_def T b /\ asset_def r <> @asset_def_dummy T.
Proof. exact bx_dummy_lost. Qed.
Print Assumptions C64_dummy_order_refuted.

(** two chains whose builders meet the hypotheses of all theorems above *)
Example C64_chain_example : exists b0 b, bx_new = Ok b0 /\ @calls T bx_chain b0 = Ok b /\ @plain T false bx_chain /\
  @non_native_ready T b (tb_root b) (w64 500) (@tb_def T b) /\ tb_num_in b = 2%nat /\ tb_num_out b = 3%nat.
Proof. exact bx_chain_ready. Qed.
Example C64_dummy_example : exists b0 b, bx_new3 = Ok b0 /\ @calls T bx_chain3 b0 = Ok b /\ @plain T false bx_chain3 /\
  @non_native_ready T b (tb_root b) (w64 500) (@tb_def T b) /\ tb_num_in b = 3%nat /\ tb_num_out b = 3%nat.
Proof. exact bx_chain3_ready. Qed.
Example C64_native_example : exists b0 b, @tb_new T 1 2 3 None bx_kps None = Ok b0 /\ @calls T bx_native b0 = Ok b /\ @plain T false bx_native /\
  @native_ready T b (tb_root b) /\ tb_num_in b = 2%nat /\ tb_num_out b = 3%nat.
Proof. exact bx_native_ready. Qed.

(** ** C65 *)

(** a random builder of transfers gives a note that verifies, also when its records have been given other positions in a larger tree *)
Theorem C65_random_transfer (C : CapConfig) (L : CapLaws C) (S : Snark C) (SL : SnarkLaws S) (K : @RoCodec C) (E : MemoSer C)
    s start n_in n_out depth kps vu b g pk vk r extra (ts : u64) :
  size_ok start n_in n_out depth -> transfer_sample_ok vu s ->
  Z.of_nat n_in <= 2 ^ 32 -> Z.of_nat n_out <= 2 ^ 32 ->
  (freezer_pub_key (ts_freezer s) <> pt_id -> viewer_pub_key (ts_viewer s) <> pt_id) ->
  tb_rand s start n_in n_out depth kps vu = Ok b ->
  forall b' root, tb_asset b' = tb_asset b /\ tb_ins b' = tb_ins b /\ tb_outs b' = tb_outs b /\ tb_chg b' = tb_chg b /\ tb_kps b' = tb_kps b /\
    tb_creds b' = tb_creds b /\ tb_num_in b' = tb_num_in b /\ tb_num_out b' = tb_num_out b /\ tb_depth b' = tb_depth b ->
  length (tb_accs b') = n_in -> (forall i r a, nth_error (tb_ins b') i = Some r -> nth_error (tb_accs b') i = Some a -> proves (tb_depth b') root r a) ->
  transfer_preprocess g n_in n_out (tb_depth b) = Ok (pk, vk) -> can_encrypt (br_enc r) (tb_outs b) -> NoDup (tb_nullifiers b') -> zv ts <= zv vu ->
  exists n memos sg, tb_build_note r pk vu extra b' = Ok (n, memos, sg) /\ transfer_verify n vk root ts = Ok tt /\
    verify_receiver_memos_signature (TxTransfer n) memos sg = Ok tt /\ tn_nullifiers n = tb_nullifiers b'.
Proof. exact (rand_builds L SL s start n_in n_out depth kps vu b g pk vk r extra ts). Qed.
Print Assumptions C65_random_transfer.

(** a builder of mints, with any part of the policy revealed, gives a note that verifies *)
Theorem C65_mint (C : CapConfig) (L : CapLaws C) (S : Snark C) (SL : SnarkLaws S) bl_fee seed bl_mint depth input_amount fee mint_amount minter receiver viewer b0 attrs b :
  mb_new bl_fee seed bl_mint depth input_amount fee mint_amount minter receiver viewer = Ok b0 ->
  fold_left (fun acc a => let* x := acc in mb_policy_reveal a x) attrs (Ok b0) = Ok b ->
  zv fee <= zv input_amount -> zv mint_amount < 2 ^ 127 ->
  forall g pk vk bl r, mint_preprocess g depth = Ok (pk, vk) ->
  exists n chg, mb_build_note bl r pk b = Ok (n, mrd_sig r, chg) /\ mint_verify n vk (tree_root depth [derive_record_commitment (mb_fee_ro b)]) = Ok tt /\
    zv (amount chg) = zv input_amount - zv fee /\ mn_amount n = mint_amount /\ mn_def n = mb_def b /\ ma_fee (mn_aux n) = fee.
Proof. exact (mint_chain_builds L SL bl_fee seed bl_mint depth input_amount fee mint_amount minter receiver viewer b0 attrs b). Qed.
Print Assumptions C65_mint.

(** a builder of freezes, with any flags, gives a note that verifies and flips the flags *)
Theorem C65_freeze (C : CapConfig) (L : CapLaws C) (S : Snark C) (SL : SnarkLaws S) s depth amounts fee_in fee fee_kp kps b0 l b :
  fb_new s depth amounts fee_in fee fee_kp kps = Ok b0 -> fcalls l b0 = Ok b ->
  kps <> [] -> (depth < 256)%nat -> Z.of_nat (length kps) + 1 < 2 ^ 64 -> Z.of_nat (length kps) + 1 <= 3 ^ Z.of_nat depth ->
  (forall k, In k kps -> freezer_pub_key k <> pt_id) -> (forall i, user_address (fs_user s i) <> pt_id) ->
  zv (fb_fee b) <= zv (amount (fb_fee_ro b)) -> NoDup (fb_nullifiers b) ->
  forall g fk pk vk bl r, freeze_preprocess g fk (length kps + 1) depth = Ok (pk, vk) ->
  exists n chg outs, fb_build_note bl r pk b = Ok (n, frd_sig r, chg, outs) /\
    freeze_verify n vk (tree_root depth (map derive_record_commitment (map zi_ro (fb_inputs b)) ++ [derive_record_commitment (fb_fee_ro b)])) = Ok tt /\
    fn_nullifiers n = fb_nullifiers b /\ zv (amount chg) = zv (amount (fb_fee_ro b)) - zv fee /\ length outs = length kps /\
    fn_commitments n = map derive_record_commitment (chg :: outs) /\
    forall k i o, nth_error (fb_inputs b) k = Some i -> nth_error outs k = Some o ->
      amount o = amount (zi_ro i) /\ asset_def o = asset_def (zi_ro i) /\ pub_key o = pub_key (zi_ro i) /\ freeze_flag o = flip (freeze_flag (zi_ro i)).
Proof. exact (freeze_chain_builds L SL s depth amounts fee_in fee fee_kp kps b0 l b). Qed.
Print Assumptions C65_freeze.

(** a generated list of transactions: kinds in order, a key for each, and all verify, one by one and as a batch *)
Theorem C65_list_verifies (C : CapConfig) (L : CapLaws C) (S : Snark C) (SL : SnarkLaws S) (K : @RoCodec C) (E : MemoSer C) g fk start depth kps tj mj fj p :
  (forall j, In j tj -> transfer_job_ok j) -> (forall j, In j mj -> mint_job_ok j) -> (forall j, In j fj -> freeze_job_ok j) -> jobs_fit depth tj mj fj ->
  generate_txns g fk start depth kps tj mj fj = Ok p ->
  map kind_of (tp_txns p) = repeat 0%nat (length tj) ++ repeat 1%nat (length mj) ++ repeat 2%nat (length fj) /\ zv (tp_until p) = 1000 /\
  exists keys, get_verifying_keys p = Ok keys /\ Forall2 (key_for p) (tp_txns p) keys /\
  forall ts : u64, zv ts <= zv (tp_until p) ->
    (forall i t k, nth_error (tp_txns p) i = Some t -> nth_error keys i = Some k -> tx_verify t k (tp_tree_root p) ts = Ok tt) /\
    (tp_txns p <> [] -> txn_batch_verify (tp_txns p) (get_merkle_roots p) ts keys = Ok tt).
Proof. exact (generated_list_verifies L SL g fk start depth kps tj mj fj p). Qed.
Print Assumptions C65_list_verifies.
(** and the list is made *)
Theorem C65_list_made (C : CapConfig) (L : CapLaws C) (S : Snark C) (SL : SnarkLaws S) (K : @RoCodec C) (E : MemoSer C) g fk start depth kps tj mj fj bs tk mk zk :
  (forall j, In j tj -> transfer_job_ok j) -> (forall j, In j mj -> mint_job_ok j) -> (forall j, In j fj -> freeze_job_ok j) -> jobs_fit depth tj mj fj ->
  transfer_preprocess g 2 3 (Z.to_nat (zv depth)) = Ok tk -> mint_preprocess g (Z.to_nat (zv depth)) = Ok mk -> freeze_preprocess g fk 3 (Z.to_nat (zv depth)) = Ok zk ->
  generate_builders start depth kps tj mj fj = Ok bs ->
  (forall b j, In (b, j) (combine (bs_transfers bs) tj) -> NoDup (tb_nullifiers b) /\ can_encrypt (br_enc (tj_rand j)) (tb_outs b)) ->
  (forall b, In b (bs_freezes bs) -> NoDup (fb_nullifiers b)) ->
  exists p, generate_txns g fk start depth kps tj mj fj = Ok p.
Proof. exact (list_generated L SL g fk start depth kps tj mj fj bs tk mk zk). Qed.
Print Assumptions C65_list_made.

(** two transfers, a mint and a freeze: all hypotheses but the keys, which are computed in other examples *)
Example C65_list_example :
  (forall j, In j bx_tj -> @transfer_job_ok T TS j) /\ (forall j, In j bx_mj -> @mint_job_ok T TS j) /\ (forall j, In j bx_fj -> @freeze_job_ok T TS j) /\
  @jobs_fit T TS (b8 3) bx_tj bx_mj bx_fj /\
  exists bs, @generate_builders T TS 1 (b8 3) bx_kps bx_tj bx_mj bx_fj = Ok bs /\
    (forall b j, In (b, j) (combine (bs_transfers bs) bx_tj) -> NoDup (@tb_nullifiers T b) /\ @can_encrypt T w_codec (br_enc (tj_rand j)) (tb_outs b)) /\
    (forall b, In b (bs_freezes bs) -> NoDup (@fb_nullifiers T b)).
Proof. exact bx_list. Qed.
