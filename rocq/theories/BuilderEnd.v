(** Chains of calls of the builders of mints and freezes; indices and depths that fail. *)
From Verif Require Import Base Config Structs Keys Utils Memo Plonk Witness Circuits Relation PolicyProofs UtilsProofs Snark Notes NoteProofs Serde Ledger Wallet
  Builder BuilderSpec BuilderProofs BuilderRand BuilderOther BuilderTxns.

Lemma depth_too_small : start_ok 38 (Z.of_nat (Z.to_nat (3 ^ 38)) + Z.of_nat 1) /\
  calculate_tree_depth 38 (Z.to_nat (3 ^ 38)) 1 None = Ok (b8 (3 ^ 39)) /\ 3 ^ zv (b8 (3 ^ 39)) < Z.of_nat (Z.to_nat (3 ^ 38)) + Z.of_nat 1.
Proof.
  rewrite Z2Nat.id by (vm_compute; discriminate). split; [right; vm_compute; reflexivity|]. split; [|vm_compute; reflexivity].
  unfold calculate_tree_depth. destruct (Nat.eqb_spec (Z.to_nat (3 ^ 38)) 0) as [G|_].
  { exfalso. assert (Z.of_nat (Z.to_nat (3 ^ 38)) = 0) by (rewrite G; reflexivity). rewrite Z2Nat.id in H by (vm_compute; discriminate). vm_compute in H. discriminate H. }
  change (1 =? 0)%nat with false. cbv iota. rewrite Z2Nat.id by (vm_compute; discriminate).
  replace (next_power_of_three 38 (3 ^ 38 + Z.of_nat 1)) with (Ok (3 ^ 39)) by (vm_compute; reflexivity). reflexivity.
Qed.

Section BuilderEnd.
  Context {C : CapConfig}.
  Lemma change_past_end i f (b : TransferBuilder) : (length (tb_ins b) <= i)%nat -> tb_change_input i f b = Panic.
  Proof. intros H. unfold tb_change_input, vec_get. replace (nth_error (tb_ins b) i) with (@None RecordOpening); [reflexivity|]. symmetry. apply nth_error_None, H. Qed.
  Lemma last_index_panics (b : TransferBuilder) d a : tb_ins b <> [] ->
    let i := (length (tb_ins b) - 1)%nat in
    (i < length (tb_ins b))%nat /\ call (CInputDef i d) b = Panic /\ call (CDummyInput i) b = Panic /\ call (CInputAmount i a) b = Panic.
  Proof.
    intros H i. assert (Hi : (i < length (tb_ins b))%nat) by (unfold i; destruct (tb_ins b); [contradiction|cbn [length]; lia]).
    split; [exact Hi|]. cbn [call]. unfold tb_update_input_asset_def, tb_set_dummy_input_record, tb_update_input_amount, assert_index.
    destruct (Nat.ltb_spec i (length (tb_ins b))) as [_|]; [|lia]. cbn [bind]. rewrite !change_past_end by (unfold i; lia). auto.
  Qed.

  Context {S : Snark C} (L : CapLaws C) (SL : SnarkLaws S).
  Lemma reveals_keep root : forall attrs (b0 b : MintBuilder), fold_left (fun acc a => let* x := acc in mb_policy_reveal a x) attrs (Ok b0) = Ok b ->
    mint_ready b0 root -> asset_def (mb_mint_ro b0) = mb_def b0 ->
    mint_ready b root /\ asset_def (mb_mint_ro b) = mb_def b /\ mb_depth b = mb_depth b0 /\ mb_fee_ro b = mb_fee_ro b0 /\ mb_fee b = mb_fee b0 /\ amount (mb_mint_ro b) = amount (mb_mint_ro b0).
  Proof.
    induction attrs as [|a l IH]; intros b0 b H R D; cbn [fold_left bind] in H; [injection H as <-; auto 10|].
    destruct (mb_policy_reveal a b0) as [b1| |] eqn:E.
    - destruct (mb_reveal_ready _ _ _ _ E R D) as [R1 D1]. destruct (IH _ _ H R1 D1) as (Q1 & Q2 & Q3 & Q4 & Q5 & Q6).
      unfold mb_policy_reveal in E. apply bind_inv in E. destruct E as (m & _ & E). cbv zeta in E. injection E as <-. auto 10.
    - exfalso. clear - H. induction l as [|a l IH]; cbn [fold_left bind] in H; [discriminate|auto].
    - exfalso. clear - H. induction l as [|a l IH]; cbn [fold_left bind] in H; [discriminate|auto].
  Qed.
  Lemma mint_chain_builds bl_fee seed bl_mint depth input_amount fee mint_amount minter receiver viewer b0 attrs b :
    mb_new bl_fee seed bl_mint depth input_amount fee mint_amount minter receiver viewer = Ok b0 ->
    fold_left (fun acc a => let* x := acc in mb_policy_reveal a x) attrs (Ok b0) = Ok b ->
    zv fee <= zv input_amount -> zv mint_amount < 2 ^ 127 ->
    forall g pk vk bl r, mint_preprocess g depth = Ok (pk, vk) ->
    exists n chg, mb_build_note bl r pk b = Ok (n, mrd_sig r, chg) /\ mint_verify n vk (tree_root depth [derive_record_commitment (mb_fee_ro b)]) = Ok tt /\
      zv (amount chg) = zv input_amount - zv fee /\ mn_amount n = mint_amount /\ mn_def n = mb_def b /\ ma_fee (mn_aux n) = fee.
  Proof.
    intros HN HA Hf Hm g pk vk bl r HP. destruct (mb_new_ready _ _ _ _ _ _ _ _ _ _ _ HN Hf Hm) as (R & A1 & A2 & A3 & A4 & A5 & A6 & A7).
    destruct (reveals_keep _ _ _ _ HA R A6) as (R' & B1 & B2 & B3 & B4 & B5). rewrite <- A1, <- B2 in HP.
    destruct (mint_builds L SL g pk vk b _ bl r HP R') as (n & chg & Z1 & Z2 & Z3 & Z4 & Z5 & _ & _ & Z8). exists n, chg. rewrite B3.
    split; [exact Z1|]. split; [exact Z2|]. split; [rewrite Z3, B3, A2, B4, A5; reflexivity|]. split; [congruence|]. split; congruence.
  Qed.

  Lemma freeze_chain_builds s depth amounts fee_in fee fee_kp kps b0 l b :
    fb_new s depth amounts fee_in fee fee_kp kps = Ok b0 -> fcalls l b0 = Ok b ->
    kps <> [] -> (depth < 256)%nat -> Z.of_nat (length kps) + 1 < 2 ^ 64 -> Z.of_nat (length kps) + 1 <= 3 ^ Z.of_nat depth ->
    (forall k, In k kps -> freezer_pub_key k <> pt_id) -> (forall i, user_address (fs_user s i) <> pt_id) ->
    zv (fb_fee b) <= zv (amount (fb_fee_ro b)) -> NoDup (fb_nullifiers b) ->
    forall g fk pk vk bl r, freeze_preprocess g fk (length kps + 1) depth = Ok (pk, vk) ->
    exists n chg outs, fb_build_note bl r pk b = Ok (n, frd_sig r, chg, outs) /\
      freeze_verify n vk (tree_root depth (map derive_record_commitment (map zi_ro (fb_inputs b)) ++ [derive_record_commitment (fb_fee_ro b)])) = Ok tt /\
      fn_nullifiers n = fb_nullifiers b /\ zv (amount chg) = zv (amount (fb_fee_ro b)) - zv fee /\ length outs = length kps /\
      fn_commitments n = map derive_record_commitment (chg :: outs) /\
      forall k i o, nth_error (fb_inputs b) k = Some i -> nth_error outs k = Some o ->
        amount o = amount (zi_ro i) /\ asset_def o = asset_def (zi_ro i) /\ pub_key o = pub_key (zi_ro i) /\ freeze_flag o = flip (freeze_flag (zi_ro i)).
  Proof.
    intros HN HC Hk HD R1 R2 K1 K2 Hf ND g fk pk vk bl r HP.
    destruct (fb_new_ready _ _ _ _ _ _ _ _ HN Hk HD R1 R2) as (A1 & A2 & A3 & A4 & A5 & A6 & A7 & A8 & A9).
    destruct (fcalls_ready _ _ _ A1 A2 ltac:(rewrite A4; exact HD) HC ltac:(rewrite A4; exact A3)) as (B1 & B2 & B3 & B4 & B5 & B6 & B7 & B8 & B9).
    assert (Ln : length (fb_inputs b) = length kps) by (rewrite <- (map_length zi_kp (fb_inputs b)), B6, A6; reflexivity).
    assert (PY : freeze_payable b).
    { constructor; [|exact Hf|exact ND]. intros i Hi. split.
      - apply K1. rewrite <- A6, <- B6. apply in_map, Hi.
      - assert (Hp : In (pub_key (zi_ro i)) (map (fun i => pub_key (zi_ro i)) (fb_inputs b))) by (apply (in_map (fun i => pub_key (zi_ro i))), Hi).
        rewrite B8, <- (map_map zi_ro pub_key), A9, map_map in Hp. apply in_map_iff in Hp. destruct Hp as (x & X1 & X2).
        destruct (freeze_users _ _ _ _ X2) as (n & G). rewrite <- X1, G. apply K2. }
    assert (Dp : fb_depth b = depth) by congruence. rewrite <- Dp, <- Ln in HP.
    destruct (freeze_builds L SL g fk pk vk b _ bl r HP B3 PY) as (n & chg & outs & Z1 & Z2 & Z3 & Z4 & Z5 & Z6 & Z7).
    exists n, chg, outs. split; [exact Z1|]. split; [rewrite Dp in Z2; exact Z2|]. split; [exact Z3|]. split; [rewrite Z4, B5, A5; reflexivity|]. split; [congruence|]. auto.
  Qed.
End BuilderEnd.
