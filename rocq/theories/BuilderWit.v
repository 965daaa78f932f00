(** Model of what the parameter builders make for tests of the circuits (utils/params_builder.rs): witnesses and public inputs, and the
    change of the memo key in a list of transactions.  And the conditions under which the circuits hold, in terms of the builders. *)
From Verif Require Import Base Config Structs Keys Utils Memo Plonk Witness Circuits Snark Notes NoteProofs UtilsProofs Serde Ledger Wallet Builder BuilderSpec.

Section BuilderWit.
  Context {C : CapConfig} {S : Snark C} {K : @RoCodec C} {E : MemoSer C}.

  (** params_builder.rs 1026-1051; [bl] is the blinding factor of the change, [enc] the randomness of the viewing memo *)
  Definition mb_build_witness (bl : F) (enc : Fj) (b : MintBuilder) : res MintWitness :=
    let* chg := if negb (amount_ltb (amount (mb_fee_ro b)) (mb_fee b)) then amount_sub (amount (mb_fee_ro b)) (mb_fee b) else Ok (w128 (2 ^ 128 - 1)) in
    let chg_ro := ro_new bl chg (asset_def (mb_fee_ro b)) (pub_key (mb_fee_ro b)) Unfrozen in
    Ok (mkMW (mb_minter b) (mb_acc b) (mb_fee_ro b) (mb_mint_ro b) chg_ro (mb_seed b) (digest_from_description (mb_description b)) enc).
  (** params_builder.rs 1084-1095 *)
  Definition mb_build_witness_and_public_input (bl : F) (enc : Fj) (b : MintBuilder) : res (MintWitness * MintPublicInput) :=
    let* w := mb_build_witness bl enc b in
    let* p := mint_from_witness w in
    Ok (w, p).

  (** params_builder.rs 1346-1349; [blinds] are the blinding factors of the outputs *)
  Definition fb_output_ros (blinds : nat -> F) (b : FreezeBuilder) : list RecordOpening := freeze_get_output_ros blinds (fb_inputs b).
  (** params_builder.rs 1352-1356; [bl] is the blinding factor of the change *)
  Definition fb_build_witness (bl : F) (blinds : nat -> F) (b : FreezeBuilder) : res FreezeWitness :=
    let* fi := unwrap (txn_fee_info_new bl (fb_fee_in b) (fb_fee b)) in
    Ok (freeze_new_unchecked (fb_inputs b) (fb_output_ros blinds b) (fst fi)).
  (** params_builder.rs 1358-1364 *)
  Definition fb_build_witness_and_public_input (bl : F) (blinds : nat -> F) (b : FreezeBuilder) : res (FreezeWitness * FreezePublicInput) :=
    let* w := fb_build_witness bl blinds b in
    let* p := unwrap (freeze_from_witness w) in
    Ok (w, p).

  (** the assignments of params_builder.rs 265-275 *)
  Definition tx_set_memo_vk (vk : point) (t : TransactionNote) : TransactionNote :=
    match t with
    | TxTransfer n => let a := tn_aux n in
        TxTransfer (mkTNote (tn_nullifiers n) (tn_commitments n) (tn_proof n) (tn_memo n) (mkTAux (ta_root a) (ta_fee a) (ta_valid_until a) vk (ta_extra a)))
    | TxMint n => let a := mn_aux n in
        TxMint (mkMNote (mn_nullifier n) (mn_chg n) (mn_mint n) (mn_amount n) (mn_def n) (mn_internal n) (mn_proof n) (mn_memo n) (mkMAux (ma_root a) (ma_fee a) vk))
    | TxFreeze n => let a := fn_aux n in
        TxFreeze (mkFNote (fn_nullifiers n) (fn_commitments n) (fn_proof n) (mkFAux (fa_root a) (fa_fee a) vk))
    end.
  (** params_builder.rs 259-277 *)
  Definition update_recv_memos_ver_key (idx : nat) (vk : point) (p : TxnsParams) : res TxnsParams :=
    assert_index idx (tp_txns p) ;;;
    let* t := vec_get (tp_txns p) idx in
    let* l := vec_set idx (tx_set_memo_vk vk t) (tp_txns p) in
    Ok (mkTP l (tp_vks p) (tp_until p) (tp_tree_root p)).

  (** [t'] is the transaction [t] with [vk] as the key of its memos *)
  Definition memo_key_replaced (vk : point) (t t' : TransactionNote) : Prop :=
    match t, t' with
    | TxTransfer n, TxTransfer n' => tn_nullifiers n' = tn_nullifiers n /\ tn_commitments n' = tn_commitments n /\ tn_proof n' = tn_proof n /\ tn_memo n' = tn_memo n /\
        ta_root (tn_aux n') = ta_root (tn_aux n) /\ ta_fee (tn_aux n') = ta_fee (tn_aux n) /\ ta_valid_until (tn_aux n') = ta_valid_until (tn_aux n) /\
        ta_extra (tn_aux n') = ta_extra (tn_aux n) /\ ta_memo_vk (tn_aux n') = vk
    | TxMint n, TxMint n' => mn_nullifier n' = mn_nullifier n /\ mn_chg n' = mn_chg n /\ mn_mint n' = mn_mint n /\ mn_amount n' = mn_amount n /\ mn_def n' = mn_def n /\
        mn_internal n' = mn_internal n /\ mn_proof n' = mn_proof n /\ mn_memo n' = mn_memo n /\
        ma_root (mn_aux n') = ma_root (mn_aux n) /\ ma_fee (mn_aux n') = ma_fee (mn_aux n) /\ ma_memo_vk (mn_aux n') = vk
    | TxFreeze n, TxFreeze n' => fn_nullifiers n' = fn_nullifiers n /\ fn_commitments n' = fn_commitments n /\ fn_proof n' = fn_proof n /\
        fa_root (fn_aux n') = fa_root (fn_aux n) /\ fa_fee (fn_aux n') = fa_fee (fn_aux n) /\ fa_memo_vk (fn_aux n') = vk
    | _, _ => False
    end.

  (** ** When the circuits hold *)

  (** the record is in the tree with this root, at the place its witness says *)
  Definition in_tree (root : F) (r : RecordOpening) (a : AccMemberWitness) : Prop :=
    merkle_root_of (f_of_u64 (acc_uid a)) (derive_record_commitment r) (acc_path a) = root.

  (** the fee record is of the native asset and pays the fee *)
  Definition mint_payable (b : MintBuilder) : Prop :=
    asset_def (mb_fee_ro b) = asset_def_native /\ zv (mb_fee b) <= zv (amount (mb_fee_ro b)).
  Record mint_holds (b : MintBuilder) : Prop := {
    mh_owner : address (pub_key (mb_fee_ro b)) = user_address (mb_minter b);
    mh_member : in_tree (acc_root (mb_acc b)) (mb_fee_ro b) (mb_acc b);
    mh_unfrozen : freeze_flag (mb_fee_ro b) = Unfrozen /\ freeze_flag (mb_mint_ro b) = Unfrozen;
    mh_amount : zv (amount (mb_mint_ro b)) < 2 ^ 127;
    mh_code : code (asset_def (mb_mint_ro b)) = new_domestic (mb_seed b) (mb_description b)
  }.
  Record freeze_holds (b : FreezeBuilder) : Prop := {
    fh_fee_def : asset_def (fb_fee_ro b) = asset_def_native;
    fh_fee_unfrozen : freeze_flag (fb_fee_ro b) = Unfrozen;
    fh_fee_owner : address (pub_key (fb_fee_ro b)) = user_address (fi_kp (fb_fee_in b));
    fh_fee_member : in_tree (acc_root (fi_acc (fb_fee_in b))) (fb_fee_ro b) (fi_acc (fb_fee_in b));
    fh_freezer : forall i, In i (fb_inputs b) -> freezer_pk (policy (asset_def (zi_ro i))) = freezer_pub_key (zi_kp i);
    fh_freezable : forall i, In i (fb_inputs b) -> code (asset_def (zi_ro i)) <> dummy_asset_code ->
      freezer_pk (policy (asset_def (zi_ro i))) <> pt_id /\ in_tree (acc_root (fi_acc (fb_fee_in b))) (zi_ro i) (zi_acc i)
  }.
  (** What a satisfied circuit says of a transfer builder: [d] is the definition of the transferred asset, [native] the code that the
      public input calls native.  The codes of the inputs after the first are not compared with that of [d] (see C26). *)
  Record transfer_says (b : TransferBuilder) (vu : u64) (root native : F) (fee : Amount) (d : AssetDefinition) : Prop := {
    ty_unfrozen : forall r, In r (tb_ins b ++ tb_chg b :: tb_outs b) -> freeze_flag r = Unfrozen;
    ty_fee_def : forall r, nth_error (tb_ins b) 0 = Some r -> asset_def r = mkDef native policy_default /\ asset_def (tb_chg b) = mkDef native policy_default;
    ty_rest : forall r, In r (skipn 1 (tb_ins b)) ->
      (asset_def r = asset_def_dummy /\ zv (amount r) = 0) \/ (code (asset_def r) <> dummy_asset_code /\ policy (asset_def r) = policy d);
    ty_outs : forall o, In o (tb_outs b) -> asset_def o = d;
    ty_small : forall o, In o (tb_chg b :: tb_outs b) -> zv (amount o) < 2 ^ 127;
    ty_owner : forall i r k, nth_error (tb_ins b) i = Some r -> nth_error (tb_kps b) i = Some k -> address (pub_key r) = user_address k;
    ty_member : forall i r a, nth_error (tb_ins b) i = Some r -> nth_error (tb_accs b) i = Some a -> code (asset_def r) <> dummy_asset_code ->
      in_tree root r a;
    ty_cred : forall i r, nth_error (tb_ins b) i = Some r -> cred_pk (policy (asset_def r)) <> pt_id ->
      exists c, nth_error (tb_creds b) i = Some (Some c) /\ cred_verify c vu = Ok tt /\ zv (cr_expiry c) < zv vu + 2 ^ 20;
    ty_balance : total (tb_ins b) = zv (amount (tb_chg b)) + total (tb_outs b) + zv fee;
    ty_asset : code d <> native -> total (skipn 1 (tb_ins b)) = total (tb_outs b)
  }.
  (** A builder of a native transfer whose records balance as they are *)
  Record native_balanced (b : TransferBuilder) (root : F) (vu : u64) : Prop := {
    nb_ready : tb_ready b root;
    nb_def : tb_asset b = None;
    nb_expiry : zv vu < 2 ^ 20;
    nb_balance : zv (amount (tb_chg b)) + total (tb_outs b) <= total (tb_ins b);
    nb_amounts : total (tb_ins b) < 2 ^ 127;
    nb_distinct : NoDup (tb_nullifiers b)
  }.
End BuilderWit.
