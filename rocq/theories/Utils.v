(** Model of the transaction-building checks of src/utils/mod.rs, and of the input structures they take. *)
From Verif Require Import Base Config Structs Keys.

Section Inputs.
  Context {C : CapConfig}.

  (** structs.rs 1660-1668 *)
  Record FeeInput := mkFeeInput { fi_ro : RecordOpening; fi_acc : AccMemberWitness; fi_kp : UserKeyPair }.
  (** structs.rs 1682-1689 *)
  Record TxnFeeInfo := mkFeeInfo { fee_input : FeeInput; fee_amount : Amount; fee_chg_ro : RecordOpening }.
  (** transfer.rs 97-110 *)
  Record TransferNoteInput := mkTIn {
    ti_ro : RecordOpening; ti_acc : AccMemberWitness; ti_kp : UserKeyPair; ti_cred : option ExpirableCredential }.
  (** transfer.rs 123-132 *)
  Definition fee_to_transfer_input (f : FeeInput) : TransferNoteInput := mkTIn (fi_ro f) (fi_acc f) (fi_kp f) None.
  (** freeze.rs 72-82 *)
  Record FreezeNoteInput := mkFIn { zi_ro : RecordOpening; zi_acc : AccMemberWitness; zi_kp : FreezerKeyPair }.

  (** structs.rs 1692-1717; [blind] is the sampled blinding factor *)
  Definition txn_fee_info_new (blind : F) (fin : FeeInput) (fee : Amount) : res (TxnFeeInfo * RecordOpening) :=
    if amount_ltb (amount (fi_ro fin)) fee then Err InvalidParameter else
    let* chg := amount_sub (amount (fi_ro fin)) fee in
    let ro := ro_new blind chg asset_def_native (pub_key (fi_ro fin)) Unfrozen in
    Ok (mkFeeInfo fin fee ro, ro).
End Inputs.

Section Utils.
  Context {C : CapConfig}.

  (** utils/mod.rs 36-57 *)
  Definition get_asset_def_in_transfer_txn (input_ros : list RecordOpening) : res AssetDefinition :=
    match input_ros with
    | [] => Err InternalError
    | r0 :: rest =>
      if negb (is_native (asset_def r0)) then Err InternalError else
      match find (fun r => negb (is_dummy_def (asset_def r))) rest with
      | Some r => Ok (asset_def r)
      | None => Ok (asset_def r0)
      end
    end.

  (** utils/mod.rs 300-311; a BTreeSet insert returns whether the value is new *)
  Fixpoint all_insert (seen : list Nullifier) (l : list Nullifier) : bool :=
    match l with
    | [] => true
    | x :: xs => if existsb (zeqb x) seen then false else all_insert (x :: seen) xs
    end.
  Definition check_distinct_input_nullifiers (l : list Nullifier) : res unit :=
    if all_insert [] l then Ok tt else Err InvalidParameter.

  (** utils/mod.rs 322-334 *)
  Definition mint_check_proving_key_consistency (depth : nat) (acc : AccMemberWitness) : res unit :=
    fail_if (negb (length (acc_path acc) =? depth)%nat) InvalidParameter.
  (** utils/mod.rs 336-346 *)
  Definition mint_check_input_pub_key (ro_fee : RecordOpening) (kp : UserKeyPair) : res unit :=
    fail_if (negb (user_pub_key_eqb (pub_key ro_fee) (user_pub_key kp))) InvalidParameter.
  (** utils/mod.rs 348-359 *)
  Definition check_mint_asset_code (ro_mint : RecordOpening) (seed : AssetCodeSeed) (digest : AssetCodeDigest) : res unit :=
    fail_if (negb (zeqb (code (asset_def ro_mint)) (new_domestic_from_digest seed digest))) InvalidParameter.

  (** utils/mod.rs 369-396; the three key parameters are (n_inputs, n_outputs, tree_depth) *)
  Definition transfer_check_proving_key_consistency (n_in n_out depth : nat)
      (inputs : list TransferNoteInput) (output_len : nat) : res unit :=
    fail_if (negb (n_in =? length inputs)%nat) InvalidParameter ;;;
    fail_if (negb (n_out =? output_len)%nat) InvalidParameter ;;;
    fail_if (negb (forallb (fun i => length (acc_path (ti_acc i)) =? depth)%nat inputs)) InvalidParameter.
  (** utils/mod.rs 398-411 *)
  Definition check_input_pub_keys (inputs : list TransferNoteInput) : res unit :=
    fail_if (negb (forallb (fun i => user_pub_key_eqb (pub_key (ti_ro i)) (user_pub_key (ti_kp i)))
                           (filter (fun i => negb (is_dummy_def (asset_def (ti_ro i)))) inputs)))
            InvalidParameter.

  (** utils/mod.rs 420-472 *)
  Definition check_asset_def (inputs outputs : list RecordOpening) : res unit :=
    match inputs, outputs with
    | i0 :: irest, o0 :: orest =>
      fail_if (negb (asset_def_eqb (asset_def i0) asset_def_native)) InvalidParameter ;;;
      fail_if (negb (asset_def_eqb (asset_def o0) asset_def_native)) InvalidParameter ;;;
      let xfr := match find (fun r => negb (asset_def_eqb (asset_def r) asset_def_dummy)) irest with
                 | Some r => asset_def r | None => asset_def_native end in
      fail_if (existsb (fun r => negb (asset_def_eqb (asset_def r) asset_def_dummy) &&
                                 negb (asset_def_eqb (asset_def r) xfr)) irest) InvalidParameter ;;;
      fail_if (existsb (fun r => negb (asset_def_eqb (asset_def r) xfr)) orest) InvalidParameter ;;;
      fail_if (existsb (fun r => negb (point_eqb (freezer_pk (policy (asset_def r))) pt_id) &&
                                 point_eqb (viewer_pk (policy (asset_def r))) pt_id) (inputs ++ outputs))
              InvalidParameter
    | _, _ => Panic
    end.

  (** utils/mod.rs 477-499 *)
  Definition check_and_get_roots (inputs : list TransferNoteInput) : res F :=
    match inputs with
    | [] => Err InternalError
    | i0 :: _ =>
      let root := acc_root (ti_acc i0) in
      if existsb (fun i => negb (zeqb (acc_root (ti_acc i)) root))
                 (filter (fun i => negb (ro_is_dummy (ti_ro i))) inputs)
      then Err InvalidParameter else Ok root
    end.

  (** utils/mod.rs 503-519 *)
  Definition check_creds (inputs : list TransferNoteInput) (valid_until : u64) : res unit :=
    forM inputs (fun i =>
      if negb (point_eqb (cred_pk (policy (asset_def (ti_ro i)))) pt_id) then
        match ti_cred i with
        | Some c => cred_verify c valid_until
        | None => Err InvalidParameter
        end
      else Ok tt).

  (** utils/mod.rs 528-543 *)
  Definition check_freezing_policies_are_not_dummy (inputs : list FreezeNoteInput) : res unit :=
    forM inputs (fun i =>
      fail_if (negb (ro_is_dummy (zi_ro i)) && point_eqb (freezer_pk (policy (asset_def (zi_ro i)))) pt_id)
              InvalidParameter).
  (** utils/mod.rs 546-561 *)
  Definition freeze_check_and_get_root (fin : FeeInput) (inputs : list FreezeNoteInput) : res F :=
    let root := acc_root (fi_acc fin) in
    if existsb (fun i => negb (zeqb (acc_root (zi_acc i)) root))
               (filter (fun i => negb (ro_is_dummy (zi_ro i))) inputs)
    then Err InvalidParameter else Ok root.
  (** utils/mod.rs 563-571 *)
  Definition check_inputs_len (n : nat) : res unit := fail_if (n =? 0)%nat InvalidParameter.
  (** utils/mod.rs 572-584; [depth] and the key's depth are u8 values *)
  Definition freeze_check_proving_key_consistency (key_num_input : nat) (key_depth : Z) (num_input : nat) (depth : Z) : res unit :=
    fail_if (negb (key_num_input =? num_input)%nat || negb (key_depth =? depth)) InvalidParameter.
  (** utils/mod.rs 586-599; the sampled blinding factors are explicit, one per input *)
  Definition freeze_flip_ro (blind : F) (r : RecordOpening) : RecordOpening :=
    mkRO (amount r) (asset_def r) (pub_key r) (flip (freeze_flag r)) blind.
  Definition freeze_get_output_ros (blinds : nat -> F) (inputs : list FreezeNoteInput) : list RecordOpening :=
    map (fun ni => freeze_flip_ro (blinds (fst ni)) (zi_ro (snd ni))) (combine (seq 0 (length inputs)) inputs).

  (** External MerkleTree::check_proof (utils/mod.rs 631-647): recompute the root from leaf, uid and path. *)
  Definition merkle_check_proof (root : F) (uid : u64) (leaf : F) (path : list MerklePathNode) : bool :=
    zeqb (merkle_root_of (f_of_u64 uid) leaf path) root.

  (** utils/mod.rs 602-648 *)
  Definition check_fee (f : TxnFeeInfo) : res unit :=
    let ro := fi_ro (fee_input f) in
    let acc := fi_acc (fee_input f) in
    fail_if (amount_ltb (amount ro) (fee_amount f)) InvalidParameter ;;;
    let* d := amount_sub (amount ro) (fee_amount f) in
    fail_if (negb (zeqb d (amount (fee_chg_ro f)))) InvalidParameter ;;;
    fail_if (negb (is_native (asset_def ro))) InvalidParameter ;;;
    fail_if (negb (is_native (asset_def (fee_chg_ro f)))) InvalidParameter ;;;
    fail_if (negb (user_pub_key_eqb (pub_key (fee_chg_ro f)) (pub_key ro))) InvalidParameter ;;;
    fail_if (negb (merkle_check_proof (acc_root acc) (acc_uid acc) (derive_record_commitment ro) (acc_path acc)))
            InvalidParameter.

  (** ** i128 arithmetic *)
  Definition i128_wrap (z : Z) : Z := (z + 2 ^ 127) mod 2 ^ 128 - 2 ^ 127.
  Definition i128_in (z : Z) : bool := (- 2 ^ 127 <=? z) && (z <? 2 ^ 127).
  (** result of an i128 operation whose exact value is [z] *)
  Definition i128_res (z : Z) : res Z :=
    if i128_in z then Ok z else if overflow_checks then Panic else Ok (i128_wrap z).
  (** [x as i128] for x : u128 (reinterpretation, never panics) *)
  Definition i128_of_u128 (x : u128) : Z := i128_wrap (zv x).
  (** [Iterator::sum::<i128>()] *)
  Definition i128_sum (l : list Z) : res Z :=
    fold_left (fun acc x => let* a := acc in i128_res (a + x)) l (Ok 0).

  (** utils/mod.rs 664-693 *)
  Definition derive_fee (inputs outputs : list RecordOpening) : res Amount :=
    let is_native_xfr :=
      forallb (fun r => is_native (asset_def r) || is_dummy_def (asset_def r)) inputs in
    let* fee :=
      if is_native_xfr then
        let* si := i128_sum (map (fun r => i128_of_u128 (amount r)) inputs) in
        let* so := i128_sum (map (fun r => i128_of_u128 (amount r)) outputs) in
        i128_res (si - so)
      else match inputs, outputs with
           | i0 :: _, o0 :: _ => i128_res (i128_of_u128 (amount i0) - i128_of_u128 (amount o0))
           | _, _ => Panic
           end in
    if fee <? 0 then Err InvalidParameter else Ok (w128 fee).

  (** BTreeMap<AssetCode, i128> as an association list with unique keys *)
  Definition balances := list (F * Z).
  Fixpoint bal_add (k : F) (d : Z) (m : balances) : res balances :=
    match m with
    | [] => Ok [(k, d)]
    | (k', v) :: m' => if zeqb k k' then let* v' := i128_res (v + d) in Ok ((k, v') :: m')
                       else let* m'' := bal_add k d m' in Ok ((k', v) :: m'')
    end.
  (** [*x -= a] or insert [-a] *)
  Fixpoint bal_sub (k : F) (d : Z) (m : balances) : res balances :=
    match m with
    | [] => let* nd := i128_res (- d) in Ok [(k, nd)]
    | (k', v) :: m' => if zeqb k k' then let* v' := i128_res (v - d) in Ok ((k, v') :: m')
                       else let* m'' := bal_sub k d m' in Ok ((k', v) :: m'')
    end.
  Definition foldM {A B} (f : A -> B -> res A) (l : list B) (a : A) : res A :=
    fold_left (fun acc x => let* y := acc in f y x) l (Ok a).

  (** utils/mod.rs 714-752 *)
  Definition check_asset_amount (inputs outputs : list RecordOpening) (fee : Amount) : res unit :=
    match inputs with
    | [] => Panic
    | i0 :: _ =>
      let* nfee := i128_res (- i128_of_u128 fee) in
      let* b1 := foldM (fun m r => bal_add (code (asset_def r)) (i128_of_u128 (amount r)) m)
                       (filter (fun r => negb (is_dummy_def (asset_def r))) inputs)
                       [(code (asset_def i0), nfee)] in
      let* b2 := foldM (fun m r => bal_sub (code (asset_def r)) (i128_of_u128 (amount r)) m) outputs b1 in
      if existsb (fun kv : F * Z => negb (snd kv =? 0)) b2 then Err InvalidParameter else Ok tt
    end.

  (** utils/mod.rs 652-659 *)
  Definition check_balance (inputs outputs : list RecordOpening) : res Amount :=
    let* fee := derive_fee inputs outputs in
    check_asset_amount inputs outputs fee ;;;
    Ok fee.

  (** utils/mod.rs 696-711 *)
  Definition check_unfrozen (inputs outputs : list RecordOpening) : res unit :=
    fail_if (existsb (fun r => flag_eqb (freeze_flag r) Frozen) (inputs ++ outputs)) InvalidParameter.

  (** utils/mod.rs 756-775 *)
  Definition check_dummy_inputs (inputs : list RecordOpening) : res unit :=
    match inputs with
    | [] => Panic
    | i0 :: rest =>
      if ro_is_dummy i0 then Err InvalidParameter else
      if existsb (fun r => is_dummy_def (asset_def r) && negb (zv (amount r) =? 0)) rest
      then Err InvalidParameter else Ok tt
    end.

  (** lib.rs 575-586 [calculate_fee]: sum of the fees, error on overflow *)
  Definition calculate_fee (fees : list Amount) : res Amount := ok_or (safe_sum_amount fees) IncorrectFee.
End Utils.
