(** C73-C74: notes are generated exactly for valid requests; a record filed under a wrong position cannot be spent, and
    where the fee record of a block is.

    The specification is ExactSpec.v: [usual_transfer] and [usual_freeze] are limits on the request, [valid_transfer],
    [valid_fee] and [valid_freeze] say what a valid request is; [misfiled] is a record filed under a wrong position. *)
From Verif Require Import Base Config Structs Keys Utils Memo Plonk Witness Circuits Relation UtilsProofs Snark Notes Serde Accepted Ledger LedgerSpec
  Wallet WalletSpec WalletProofs ExactSpec Exact Proposer Misfiled
  NoteProofs NoteFacts NoteLive NoteLive2 CircuitFacts Toy ToySnark Samples NoteSamples WalletSamples LedgerSamples WorldSamples PropsLive PropsWallet.

(** ** C73: generation succeeds exactly for valid requests *)

(** a transfer that is generated was valid, and a valid one is generated, with the root and the fee that make it valid *)
Theorem C73_transfer (C : CapConfig) (L : CapLaws C) (S : Snark C) (SL : SnarkLaws S) g n_in n_out depth pk vk r inputs outputs vu extra :
  transfer_preprocess g n_in n_out depth = Ok (pk, vk) -> length inputs = n_in -> length outputs = n_out -> usual_transfer depth vu inputs outputs ->
  (forall n sk, transfer_generate r inputs outputs pk vu extra = Ok (n, sk) -> valid_transfer (ta_root (tn_aux n)) vu inputs outputs (ta_fee (tn_aux n))) /\
  (forall root fee, valid_transfer root vu inputs outputs fee ->
     exists n sk, transfer_generate r inputs outputs pk vu extra = Ok (n, sk) /\ ta_root (tn_aux n) = root /\ ta_fee (tn_aux n) = fee).
Proof. exact (transfer_exact L SL g n_in n_out depth pk vk r inputs outputs vu extra). Qed.
Print Assumptions C73_transfer.
Theorem C73_mint (C : CapConfig) (L : CapLaws C) (S : Snark C) (SL : SnarkLaws S) g depth pk vk r mint_ro seed description f :
  mint_preprocess g depth = Ok (pk, vk) -> zv (amount mint_ro) < 2 ^ 127 ->
  (exists n sk, mint_generate r mint_ro seed description f pk = Ok (n, sk)) <->
  length (acc_path (fi_acc (fee_input f))) = depth /\ valid_fee f /\ code (asset_def mint_ro) = new_domestic seed description /\ freeze_flag mint_ro = Unfrozen.
Proof. exact (mint_exact L SL g depth pk vk r mint_ro seed description f). Qed.
Print Assumptions C73_mint.
Theorem C73_freeze (C : CapConfig) (L : CapLaws C) (S : Snark C) (SL : SnarkLaws S) g fk num depth pk vk r inputs f :
  freeze_preprocess g fk num depth = Ok (pk, vk) -> (depth < 256)%nat -> (length inputs + 1)%nat = num -> usual_freeze depth inputs f ->
  (exists n sk outs, freeze_generate r inputs f pk = Ok (n, sk, outs)) <-> valid_freeze inputs f.
Proof. exact (freeze_exact L SL g fk num depth pk vk r inputs f). Qed.
Print Assumptions C73_freeze.
(** what is sampled does not matter *)
Theorem C73_randomness (C : CapConfig) (L : CapLaws C) (S : Snark C) (SL : SnarkLaws S) g n_in n_out depth pk vk r r' inputs outputs vu extra extra' n sk :
  transfer_preprocess g n_in n_out depth = Ok (pk, vk) -> length inputs = n_in -> length outputs = n_out -> usual_transfer depth vu inputs outputs ->
  transfer_generate r inputs outputs pk vu extra = Ok (n, sk) ->
  exists n' sk', transfer_generate r' inputs outputs pk vu extra' = Ok (n', sk') /\
    ta_root (tn_aux n') = ta_root (tn_aux n) /\ ta_fee (tn_aux n') = ta_fee (tn_aux n).
Proof.
  intros HP Li Lo U HG. pose proof (proj1 (transfer_exact L SL g n_in n_out depth pk vk r inputs outputs vu extra HP Li Lo U) n sk HG) as V.
  exact (proj2 (transfer_exact L SL g n_in n_out depth pk vk r' inputs outputs vu extra' HP Li Lo U) _ _ V).
Qed.
Print Assumptions C73_randomness.

(** the sample requests are usual and valid; with one more unit in an output, the transfer is usual and not valid *)
#[local] Notation h_more := [s_native true 15 11 200; s_ro true 19 (s_def true) 13 Unfrozen 201; s_ro true 12 (s_def true) 12 Unfrozen 202].
Lemma usual_native : @usual_definition T (@asset_def_native T).
Proof.
  split; [intros E; apply (f_equal zv) in E; vm_compute in E; discriminate E|]. split; [reflexivity|]. intros E. exfalso. apply E. reflexivity.
Qed.
Lemma usual_sample : @usual_definition T (s_def true).
Proof.
  split; [intros E; apply (f_equal zv) in E; vm_compute in E; discriminate E|].
  split; [intros E; apply (f_equal zv) in E; vm_compute in E; discriminate E|]. intros _. split; vm_compute; reflexivity.
Qed.
Lemma usual_samples outputs : (forall o, In o outputs -> asset_def o = @asset_def_native T \/ asset_def o = s_def true) ->
  @usual_transfer T 2 (w64 500) (h_inputs true) outputs.
Proof.
  intros H. constructor.
  - intros i [<-|[<-|[]]]; reflexivity.
  - intros o Ho. apply in_app_or in Ho. destruct Ho as [[<-|[<-|[]]]|Ho]; [exact usual_native|exact usual_sample|].
    destruct (H o Ho) as [E|E]; rewrite E; [exact usual_native|exact usual_sample].
  - intros i c [<-|[<-|[]]] E; [discriminate E|]. injection E as <-. split; vm_compute; reflexivity.
  - vm_compute. reflexivity.
  - vm_compute. reflexivity.
Qed.
Example C73_example :
  @usual_transfer T 2 (w64 500) (h_inputs true) (h_outputs true) /\ @valid_transfer T h_rt (w64 500) (h_inputs true) (h_outputs true) (s_amount 5) /\
  @usual_transfer T 2 (w64 500) (h_inputs true) h_more /\ (forall root fee, ~ @valid_transfer T root (w64 500) (h_inputs true) h_more fee) /\
  @valid_fee T (h_fee_info true) /\ @usual_freeze T 2 (f_inputs true) (h_fee_info true) /\ @valid_freeze T (f_inputs true) (h_fee_info true).
Proof.
  split; [apply usual_samples; intros o [<-|[<-|[<-|[]]]]; auto|]. split; [exact (transferable_valid _ _ _ _ _ _ _ sample_transferable)|].
  split; [apply usual_samples; intros o [<-|[<-|[<-|[]]]]; auto|]. split.
  { intros root fee V. pose proof (vt_balance _ _ _ _ _ V (code (s_def true))) as H.
    vm_compute in H. discriminate H. }
  split; [exact (payable_valid _ _ sample_payable)|]. split.
  - constructor.
    + split; [reflexivity|]. intros i [<-|[<-|[]]]; reflexivity.
    + intros i [<-|[<-|[]]] E; apply (f_equal zv) in E; vm_compute in E; discriminate E.
    + intros i Hi. apply (fz_holder _ _ _ (sample_freezable i Hi)).
    + reflexivity.
  - constructor.
    + discriminate.
    + exact (payable_valid _ _ sample_payable).
    + intros i Hi. destruct (sample_freezable i Hi) as [Z1 Z2 Z3 Z4 Z5]. constructor; [symmetry; exact Z2|exact Z3|exact Z5].
    + assert (ND : NoDup (map zv (@freeze_nullifiers T (f_inputs true) (h_fee_info true)))) by (vm_compute; repeat constructor; cbn; intuition discriminate).
      exact (NoDup_map_inv _ _ ND).
Qed.

(** ** C74: misfiled records *)

(** What a payment spends is where the wallet filed it: a payment that succeeds spends records that the wallet holds, and
    if no hash of the tree and of the path collides, each is the leaf at its position. *)
Theorem C74_native (C : CapConfig) (L : CapLaws C) (S : Snark C) (K : @RoCodec C) (E : MemoSer C) g depth w r outs fee leaves w1 n memos sg :
  wallet_ok w -> Z.of_nat (length leaves) < 2 ^ 64 -> spend_native g depth w r outs fee leaves = (w1, Ok (n, memos, sg)) ->
  exists records dn, records <> [] /\ tn_nullifiers n = map (w_nullify w) records ++ [dn] /\
    forall x, In x records -> holds w x /\ code (asset_def (fst x)) = native_asset_code /\
      (hash_collision_free (lookup_hashes depth leaves (snd x) (derive_record_commitment (fst x))) -> ~ misfiled leaves x).
Proof. exact (native_in_place L g depth w r outs fee leaves w1 n memos sg). Qed.
Print Assumptions C74_native.
Theorem C74_non_native (C : CapConfig) (L : CapLaws C) (S : Snark C) (K : @RoCodec C) (E : MemoSer C) g depth w r d outs fee leaves w1 n memos sg :
  wallet_ok w -> Z.of_nat (length leaves) < 2 ^ 64 -> code d <> native_asset_code -> code d <> dummy_asset_code ->
  spend_non_native g depth w r d outs fee leaves = (w1, Ok (n, memos, sg)) ->
  exists fee_rec records dn, records <> [] /\ tn_nullifiers n = map (w_nullify w) (fee_rec :: records) ++ [dn] /\
    code (asset_def (fst fee_rec)) = native_asset_code /\
    forall x, In x (fee_rec :: records) -> holds w x /\
      (hash_collision_free (lookup_hashes depth leaves (snd x) (derive_record_commitment (fst x))) -> ~ misfiled leaves x).
Proof. exact (non_native_in_place L g depth w r d outs fee leaves w1 n memos sg). Qed.
Print Assumptions C74_non_native.
(** a wallet whose native records are all misfiled makes no payment, of whatever amount, with whatever fee *)
Theorem C74_misfiled (C : CapConfig) (L : CapLaws C) (S : Snark C) (K : @RoCodec C) (E : MemoSer C) g depth w r outs fee leaves :
  wallet_ok w -> Z.of_nat (length leaves) < 2 ^ 64 ->
  (forall x, holds w x -> code (asset_def (fst x)) = native_asset_code ->
     misfiled leaves x /\ hash_collision_free (lookup_hashes depth leaves (snd x) (derive_record_commitment (fst x)))) ->
  (forall p, snd (spend_native g depth w r outs fee leaves) <> Ok p) /\
  (forall d p, code d <> native_asset_code -> code d <> dummy_asset_code -> snd (spend_non_native g depth w r d outs fee leaves) <> Ok p).
Proof.
  intros W HL HM. split.
  - intros [[n memos] sg] H. destruct (spend_native g depth w r outs fee leaves) as [w1 res] eqn:HS. cbn [snd] in H. subst res.
    destruct (native_in_place L _ _ _ _ _ _ _ _ _ _ _ W HL HS) as ([|x records] & dn & NE & _ & HX); [contradiction|].
    destruct (HX x (or_introl eq_refl)) as (X1 & X2 & X3). destruct (HM x X1 X2) as [M1 M2]. exact (X3 M2 M1).
  - intros d [[n memos] sg] Dn Dd H. destruct (spend_non_native g depth w r d outs fee leaves) as [w1 res] eqn:HS. cbn [snd] in H. subst res.
    destruct (non_native_in_place L _ _ _ _ _ _ _ _ _ _ _ _ W HL Dn Dd HS) as (x & records & dn & _ & _ & X2 & HX).
    destruct (HX x (or_introl eq_refl)) as (X1 & X3). destruct (HM x X1 X2) as [M1 M2]. exact (X3 M2 M1).
Qed.
Print Assumptions C74_misfiled.
(** The fee record of a block is the last leaf that the block adds.  The test's proposer files it under another position:
    for a block of transactions with outputs, under that of an output of the transactions. *)
Theorem C74_fee_position (C : CapConfig) (L : CapLaws C) (S : Snark C) (Z0 : Ser C S) v l wallet bl txns ro b sig :
  collect_fee_and_build_block wallet bl txns = Ok (ro, b, sig) ->
  exists l', insert_block (vd_depth v) l b = (l', Ok tt) /\
    nth_error (lg_leaves l') (length (lg_leaves l) + length (flat_map tx_output_commitments txns)) = Some (derive_record_commitment ro) /\
    length (lg_leaves l') = Datatypes.S (length (lg_leaves l) + length (flat_map tx_output_commitments txns)) /\
    (txns <> [] -> (forall t, In t txns -> tx_output_commitments t <> []) ->
     claimed_position (length (lg_leaves l)) b < Z.of_nat (length (lg_leaves l) + length (flat_map tx_output_commitments txns)) /\
     exists c, nth_error (lg_leaves l') (Z.to_nat (claimed_position (length (lg_leaves l)) b)) = Some c /\ In c (flat_map tx_output_commitments txns)).
Proof. exact (fee_position L v l wallet bl txns ro b sig). Qed.
Print Assumptions C74_fee_position.
(** the proposer who files as the test does: the fee record is misfiled, unless it has the commitment of an output *)
Theorem C74_claimed (C : CapConfig) (L : CapLaws C) (S : Snark C) (Z0 : Ser C S) v l wallet bl txns ro b sig w :
  collect_fee_and_build_block wallet bl txns = Ok (ro, b, sig) -> txns <> [] -> (forall t, In t txns -> tx_output_commitments t <> []) ->
  ~ In (derive_record_commitment ro) (flat_map tx_output_commitments txns) -> wallet_ok w ->
  Z.of_nat (length (lg_leaves l) + length (flat_map tx_output_commitments txns)) < 2 ^ 64 ->
  exists l' x, insert_block (vd_depth v) l b = (l', Ok tt) /\ fst x = ro /\ holds (claim_fee w ro (length (lg_leaves l)) b) x /\
    misfiled (lg_leaves l') x.
Proof.
  intros H HN HO HC W HL. destruct (fee_position L v l wallet bl txns ro b sig H) as (l' & HI & _ & _ & HP). destruct (HP HN HO) as (H1 & c & H2 & H3).
  exists l', (ro, w64 (claimed_position (length (lg_leaves l)) b)). split; [exact HI|]. split; [reflexivity|]. split.
  - apply (add_holds L); [exact W|]. right. reflexivity.
  - unfold misfiled. cbn [fst snd]. assert (E : zv (w64 (claimed_position (length (lg_leaves l)) b)) = claimed_position (length (lg_leaves l)) b).
    { apply zred_small. unfold claimed_position in *. change u64_mod with (2 ^ 64). 
      assert (0 < length (bk_txns b))%nat; [|lia]. unfold collect_fee_and_build_block in H. apply bind_ok in H. destruct H as (f & _ & H). injection H as _ <- _.
      cbn [bk_txns]. destruct txns; [contradiction|cbn [length]; lia]. }
    rewrite E, H2. intros G. injection G as ->. exact (HC H3).
Qed.
Print Assumptions C74_claimed.

(** A proposer with an accepted block whose fee is 5: the test's filing shows the 5 units and lets none of them be paid,
    while the record is in the tree, at another position. *)
Definition p_leaves : list (@F toy_field) :=
  map (@derive_record_commitment T) ([h_fee true; h_in1 true; h_in2 true] ++ h_outputs true ++ [ww_fee]).
Definition p_wallet : @Wallet T := @add_record_opening T (@wallet_new T (s_user true 20)) ww_fee (w64 3).
Lemma p_misfiled x : @holds T p_wallet x -> @misfiled T p_leaves x /\
  @hash_collision_free T (@lookup_hashes T 2 p_leaves (snd x) (@derive_record_commitment T (fst x))).
Proof.
  intros Hx. apply (@add_holds T (toy_laws true)) in Hx; [|apply new_ok]. destruct Hx as [(c & b & [] & _)| ->]. cbn [fst snd]. split.
  - unfold misfiled. cbn [fst snd]. intros E. apply (f_equal (fun o => match o with Some c => zv c | None => 0 end)) in E. vm_compute in E. discriminate E.
  - apply hashes_b_ok. vm_compute. reflexivity.
Qed.
Theorem C74_proposer_refuted : exists n sk, h_transfer true = Ok (n, sk) /\ exists b sig l',
  @collect_fee_and_build_block T TS l_ser (s_user true 20) (@fz toy_field 777) [TxTransfer n] = Ok (ww_fee, b, sig) /\
  @validate_block T TS l_ser l_validator (l_after ww_mints) b sig (w64 500) l_proposer = Ok tt /\
  @insert_block T TS 2 (l_after ww_mints) b = (l', Ok tt) /\
  let w := @claim_fee T TS (@wallet_new T (s_user true 20)) ww_fee (length (lg_leaves (l_after ww_mints))) b in
  funds w (@native_asset_code toy_field) = 5 /\
  (forall g r outs fee p, snd (@spend_native T TS w_codec world_memo g 2 w r outs fee (lg_leaves l')) <> Ok p) /\
  nth_error (lg_leaves l') 6 = Some (@derive_record_commitment T ww_fee).
Proof.
  destruct honest_history as (n & sk & m & sk' & En & Em & H). cbv zeta in H. destruct H as (HA & _).
  exists n, sk. split; [exact En|].
  pose proof (ww_facts n (world_check n sk En)) as (_ & HF & HL & _).
  assert (HB : @collect_fee_and_build_block T TS l_ser (s_user true 20) (@fz toy_field 777) [TxTransfer n] =
    Ok (ww_fee, l_block [TxTransfer n], @user_sign T (s_user true 20) (@enc _ (@c_block T TS l_ser) (l_block [TxTransfer n])))).
  { unfold block_fee_record in HF. unfold collect_fee_and_build_block. change (bk_txns (l_block [TxTransfer n])) with [@TxTransfer T TS n] in HF.
    apply bind_ok in HF. destruct HF as (f & Hf & HF). rewrite Hf. cbn [bind].
    pose proof (f_equal (fun r => match r with Ok a => a | _ => ww_fee end) HF) as HF'. cbv beta iota in HF'. rewrite <- HF'. reflexivity. }
  assert (HC : @tn_commitments T TS n = map (@derive_record_commitment T) (h_outputs true)).
  { pose proof En as G. unfold h_transfer in G. apply bind_ok in G. destruct G as (k & _ & G). apply (@generated_transfer T TS (toy_laws true)) in G.
    destruct G as (_ & _ & _ & _ & _ & _ & _ & _ & _ & _ & _ & _ & G & _). exact G. }
  destruct (@LedgerBlocks.built_block T (toy_laws true) TS l_ser l_validator (l_after ww_mints) _ _ _ _ _ _ (w64 0) HB) as (_ & _ & _ & _ & _ & _ & _ & l' & HI & HV & _).
  assert (EL : lg_leaves l' = p_leaves).
  { rewrite HV. cbn [flat_map tx_output_commitments]. rewrite HC, app_nil_r. reflexivity. }
  eexists _, _, l'. split; [exact HB|]. split; [exact (ww_first n m HA)|]. split; [exact HI|].
  intros w. change w with p_wallet. rewrite EL. split; [vm_compute; reflexivity|]. split; [|reflexivity].
  intros g r outs fee. refine (proj1 (C74_misfiled T (toy_laws true) TS w_codec world_memo g 2 p_wallet r outs fee p_leaves _ _ _)).
  - apply (add_ok (toy_laws true)), new_ok.
  - reflexivity.
  - intros x Hx _. exact (p_misfiled x Hx).
Qed.
Print Assumptions C74_proposer_refuted.

(** a wallet that pays 14 of its 27 native units and a fee of 3: what C74_native needs of the call *)
Example C74_example : wallet_ok ws_w /\ Z.of_nat (length (lg_leaves ws_l)) < 2 ^ 64 /\ length (lg_leaves ws_l) = 3%nat /\
  exists w1 n memos sg, @spend_native T TS w_codec world_memo tt 2 ws_w ws_rand ws_outs (s_amount 3) (lg_leaves ws_l) = (w1, Ok (n, memos, sg)).
Proof.
  split. { assert (W : wallet_ok ws_w3) by (repeat apply (add_ok (toy_laws true)); apply new_ok). destruct W as [K1 K2 K3 K4 K5 K6]. exact (Build_wallet_ok ws_w K1 K2 K3 K4 K5 K6). } split; [reflexivity|]. split; [reflexivity|].
  destruct C58_example as (H1 & H2 & H3 & H4 & H5 & (H6 & H7) & H8 & H9 & H10 & H11 & H12).
  assert (NE : ws_outs <> []) by (unfold ws_outs; intros E; discriminate E). assert (TS0 : zv (w64 500) < 2 ^ 20) by reflexivity.
  destruct (C58_native_payment T (toy_laws true) TS (toy_snark_laws true) w_codec w_codec_laws world_memo tt (fun _ => @sz toy_field 55) 2
              ws_w ws_l ws_seen [] ws_rand ws_outs (s_amount 3) (w64 500) H1 H2 H3 H4 H5 NE H6 H7 H8 H9 H10 H11 H12 TS0)
    as (w1 & n & memos & sg & H & _).
  exists w1, n, memos, sg. exact H.
Qed.
