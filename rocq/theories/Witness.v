(** Model of the witnesses and public inputs of src/proof/{transfer,mint,freeze}.rs: construction, derivation of the
    public input from the witness, and flattening into scalars.  (Preprocessing, proving and verifying are in Snark.v.) *)
From Verif Require Import Base Config Structs Keys Utils Memo.

Section Witness.
  Context {C : CapConfig}.

  (** derive(Default) of UserPubKey, AssetDefinition and RecordOpening: identity address, default encryption key,
      asset code zero, empty policy, amount zero, unfrozen, blind zero *)
  Definition user_pub_key_default : UserPubKey := mkUserPubKey pt_id enc_key_default.
  Definition asset_def_default : AssetDefinition := mkDef f0 policy_default.
  Definition ro_default : RecordOpening := mkRO (w128 0) asset_def_default user_pub_key_default Unfrozen f0.
  Definition node_default : MerklePathNode := mkNode PLeft f0 f0.
  (** The membership witness of leaf 0 in a tree with the single leaf [elem] (external MerkleTree::push and
      lookup_from_tree): all siblings empty. *)
  Definition single_leaf_acc (depth : nat) (elem : F) : AccMemberWitness :=
    mkAcc (w64 0) (repeat node_default depth) (merkle_root_of f0 elem (repeat node_default depth)).

  (** ** Transfer (proof/transfer.rs) *)

  (** proof/transfer.rs 309-314 *)
  Record InputSecret := mkIS {
    is_kp : UserKeyPair; is_ro : RecordOpening; is_acc : AccMemberWitness; is_cred : ExpirableCredential }.
  (** proof/transfer.rs 216-221 *)
  Record TransferWitness := mkTW {
    tw_asset_def : AssetDefinition; tw_inputs : list InputSecret; tw_outputs : list RecordOpening; tw_rand : Fj }.

  (** proof/transfer.rs 224-262.  The membership witness has default uid and root and a default path. *)
  Definition transfer_witness_dummy (n_in n_out depth : nat) (kp : UserKeyPair) : res TransferWitness :=
    match cred_dummy_unexpired with
    | Ok cred =>
      let ro := mkRO (w128 0) asset_def_native user_pub_key_default Unfrozen f0 in
      let sec := mkIS kp ro (mkAcc (w64 0) (repeat node_default depth) f0) cred in
      Ok (mkTW asset_def_native (repeat sec n_in) (repeat ro_default n_out) (sz 0))
    | _ => Panic (* unwrap *)
    end.

  (** proof/transfer.rs 274-279: the last input definition that is neither native nor dummy, else native *)
  Definition witness_asset_def (inputs : list TransferNoteInput) : AssetDefinition :=
    fold_left (fun ad i => if negb (is_native (asset_def (ti_ro i))) && negb (is_dummy_def (asset_def (ti_ro i)))
                           then asset_def (ti_ro i) else ad) inputs asset_def_native.
  (** proof/transfer.rs 281-295 *)
  Definition input_secret_of (i : TransferNoteInput) : res InputSecret :=
    let* cred := if point_eqb (cred_pk (policy (asset_def (ti_ro i)))) pt_id then cred_dummy_unexpired
                 else ok_or (ti_cred i) InvalidParameter in
    Ok (mkIS (ti_kp i) (ti_ro i) (ti_acc i) cred).
  (** proof/transfer.rs 269-305; [r] is the sampled encryption randomness *)
  Definition transfer_new_unchecked (r : Fj) (inputs : list TransferNoteInput) (outputs : list RecordOpening)
    : res TransferWitness :=
    let* secs := mapM input_secret_of inputs in
    Ok (mkTW (witness_asset_def inputs) secs outputs r).

  (** proof/transfer.rs 319-334 *)
  Record TransferPublicInput := mkTPI {
    tp_root : F; tp_native : AssetCode; tp_valid_until : u64; tp_fee : Amount;
    tp_nullifiers : list Nullifier; tp_commitments : list RecordCommitment; tp_memo : ViewableMemo }.

  (** proof/transfer.rs 391-399 *)
  Definition input_nullifier (s : InputSecret) : Nullifier :=
    nk_nullify (user_derive_nullifier_key (is_kp s) (freezer_pk (policy (asset_def (is_ro s)))))
               (acc_uid (is_acc s)) (derive_record_commitment (is_ro s)).
  (** proof/transfer.rs 338-439 *)
  Definition transfer_from_witness (w : TransferWitness) (valid_until : u64) : res TransferPublicInput :=
    let* s0 := ok_or (hd_error (tw_inputs w)) InvalidParameter in
    let root := acc_root (is_acc s0) in
    let* o0 := ok_or (hd_error (tw_outputs w)) InvalidParameter in
    let native := code (asset_def o0) in
    let* si := ok_or (safe_sum_amount (map (fun s => amount (is_ro s))
                        (filter (fun s => negb (is_dummy_def (asset_def (is_ro s)))) (tw_inputs w)))) InvalidParameter in
    let* so := ok_or (safe_sum_amount (map amount (tw_outputs w))) InvalidParameter in
    let* fee := if zv so <=? zv si then Ok (w128 (zv si - zv so)) else Err InvalidParameter in
    let* memo := memo_for_transfer_note (map is_ro (tw_inputs w)) (tw_outputs w) (map is_cred (tw_inputs w)) (tw_rand w) in
    Ok (mkTPI root native valid_until fee (map input_nullifier (tw_inputs w))
              (map derive_record_commitment (tw_outputs w)) memo).

  (** external elgamal::Ciphertext::to_scalars: the two coordinates of the ephemeral key, then the data *)
  Definition memo_to_scalars (m : ViewableMemo) : list F :=
    fst (pt_xy (vm_ephemeral m)) :: snd (pt_xy (vm_ephemeral m)) :: vm_data m.
  (** proof/transfer.rs 443-458 *)
  Definition transfer_to_scalars (p : TransferPublicInput) : list F :=
    [tp_root p; tp_native p; f_of_u64 (tp_valid_until p); f_of_u128 (tp_fee p)]
    ++ tp_nullifiers p ++ tp_commitments p ++ memo_to_scalars (tp_memo p).

  (** ** Mint (proof/mint.rs) *)

  (** proof/mint.rs 143-152 *)
  Record MintWitness := mkMW {
    mw_kp : UserKeyPair; mw_acc : AccMemberWitness; mw_fee_ro : RecordOpening; mw_mint_ro : RecordOpening;
    mw_chg_ro : RecordOpening; mw_seed : AssetCodeSeed; mw_digest : AssetCodeDigest; mw_rand : Fj }.
  (** proof/mint.rs 155-178 *)
  Definition mint_witness_dummy (depth : nat) (kp : UserKeyPair) : MintWitness :=
    let fee_ro := mkRO (w128 0) asset_def_native user_pub_key_default Unfrozen f0 in
    mkMW kp (single_leaf_acc depth (derive_record_commitment fee_ro)) fee_ro ro_default fee_ro f0 f0 (sz 0).
  (** proof/mint.rs 183-206 *)
  Record MintPublicInput := mkMPI {
    mp_root : F; mp_native : AssetCode; mp_nullifier : Nullifier; mp_fee : Amount; mp_mint_rc : RecordCommitment;
    mp_chg_rc : RecordCommitment; mp_mint_amount : Amount; mp_mint_ac : AssetCode;
    mp_mint_internal_ac : InternalAssetCode; mp_policy : AssetPolicy; mp_memo : ViewableMemo }.
  (** proof/mint.rs 210-256 *)
  Definition mint_from_witness (w : MintWitness) : res MintPublicInput :=
    fail_if (amount_ltb (amount (mw_fee_ro w)) (amount (mw_chg_ro w))) InvalidParameter ;;;
    fail_if (negb (is_native (asset_def (mw_chg_ro w)))) InvalidParameter ;;;
    fail_if (negb (is_native (asset_def (mw_fee_ro w)))) InvalidParameter ;;;
    let* fee := amount_sub (amount (mw_fee_ro w)) (amount (mw_chg_ro w)) in
    let nl := nk_nullify (user_derive_nullifier_key (mw_kp w) (freezer_pk (policy (asset_def (mw_fee_ro w)))))
                         (acc_uid (mw_acc w)) (derive_record_commitment (mw_fee_ro w)) in
    let internal := internal_new_internal (mw_seed w) (mw_digest w) in
    Ok (mkMPI (acc_root (mw_acc w)) (code asset_def_native) nl fee (derive_record_commitment (mw_mint_ro w))
              (derive_record_commitment (mw_chg_ro w)) (amount (mw_mint_ro w)) (new_domestic_from_internal internal)
              internal (policy (asset_def (mw_mint_ro w))) (memo_for_mint_note (mw_mint_ro w) (mw_rand w))).
  (** proof/mint.rs 262-277 *)
  Definition mint_to_scalars (p : MintPublicInput) : list F :=
    [mp_root p; mp_native p; mp_nullifier p; f_of_u128 (mp_fee p); mp_mint_rc p; mp_chg_rc p;
     f_of_u128 (mp_mint_amount p); mp_mint_ac p; mp_mint_internal_ac p]
    ++ policy_to_scalars (mp_policy p) ++ memo_to_scalars (mp_memo p).

  (** ** Freeze (proof/freeze.rs) *)

  (** proof/freeze.rs 182-188 *)
  Record FreezeWitness := mkFW {
    fw_inputs : list RecordOpening; fw_accs : list AccMemberWitness; fw_outputs : list RecordOpening;
    fw_fee_kp : UserKeyPair; fw_keys : list FreezerKeyPair }.
  (** proof/freeze.rs 191-216.  Simplification: the membership witnesses, looked up in a tree holding all the inputs,
      are replaced by those of a one-leaf tree; C24 shows that the preprocessed circuit does not depend on them.
      [num_input - 1] underflows for 0 and panics (capacity overflow in a release build). *)
  Definition freeze_witness_dummy (depth num_input : nat) (fee_kp : UserKeyPair) (fk : FreezerKeyPair)
    : res FreezeWitness :=
    match num_input with
    | O => Panic
    | S n => Ok (mkFW (repeat ro_default num_input)
                      (repeat (single_leaf_acc depth (derive_record_commitment ro_default)) num_input)
                      (repeat ro_default num_input) fee_kp (repeat fk n))
    end.
  (** proof/freeze.rs 218-242 *)
  Definition freeze_new_unchecked (inputs : list FreezeNoteInput) (outputs : list RecordOpening) (fee : TxnFeeInfo)
    : FreezeWitness :=
    mkFW (fi_ro (fee_input fee) :: map zi_ro inputs) (fi_acc (fee_input fee) :: map zi_acc inputs)
         (fee_chg_ro fee :: outputs) (fi_kp (fee_input fee)) (map zi_kp inputs).
  (** proof/freeze.rs 247-258 *)
  Record FreezePublicInput := mkFPI {
    fp_root : F; fp_native : AssetCode; fp_fee : Amount; fp_nullifiers : list Nullifier;
    fp_commitments : list RecordCommitment }.
  (** proof/freeze.rs 292-311 for the inputs after the first *)
  Definition freeze_input_nullifier (x : (RecordOpening * AccMemberWitness) * FreezerKeyPair) : Nullifier :=
    let '((ro, acc), k) := x in
    freezer_nullify k (address (pub_key ro)) (acc_uid acc) (derive_record_commitment ro).
  (** proof/freeze.rs 262-326 *)
  Definition freeze_from_witness (w : FreezeWitness) : res FreezePublicInput :=
    fail_if (length (fw_inputs w) <=? 1)%nat InvalidParameter ;;;
    fail_if (negb (length (fw_inputs w) =? length (fw_outputs w))%nat) InvalidParameter ;;;
    fail_if (negb (length (fw_inputs w) =? length (fw_keys w) + 1)%nat) InvalidParameter ;;;
    match fw_inputs w, fw_outputs w with
    | i0 :: irest, o0 :: _ =>
      fail_if (amount_ltb (amount i0) (amount o0)) InvalidParameter ;;;
      fail_if (negb (length (fw_inputs w) =? length (fw_accs w))%nat) InvalidParameter ;;;
      match fw_accs w with
      | a0 :: arest =>
        let* fee := amount_sub (amount i0) (amount o0) in
        Ok (mkFPI (acc_root a0) native_asset_code fee
              (user_nullify (fw_fee_kp w) pt_id (acc_uid a0) (derive_record_commitment i0)
               :: map freeze_input_nullifier (combine (combine irest arest) (fw_keys w)))
              (map derive_record_commitment (fw_outputs w)))
      | [] => Panic (* unreachable *)
      end
    | _, _ => Panic (* unreachable *)
    end.
  (** proof/freeze.rs 331-344 *)
  Definition freeze_to_scalars (p : FreezePublicInput) : list F :=
    [fp_root p; fp_native p; f_of_u128 (fp_fee p)] ++ fp_nullifiers p ++ fp_commitments p.
End Witness.
