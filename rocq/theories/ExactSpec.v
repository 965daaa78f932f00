(** Which requests for a note are valid, and which are of the usual kind: everything that generation decides by, and the
    limits within which it decides by nothing else. *)
From Verif Require Import Base Config Structs Keys Utils UtilsProofs Memo Plonk Witness Circuits Relation Snark Notes Serde GadgetProofs NoteProofs Accepted Ledger LedgerSpec Wallet.

Section ExactSpec.
  Context {C : CapConfig}.

  (** ** Transfers *)

  (** a definition such as [AssetDefinition::new] makes (C07), with a policy on which API and circuit agree (C30) *)
  Definition usual_definition (d : AssetDefinition) : Prop :=
    (code d = dummy_asset_code -> d = asset_def_dummy) /\ (code d = native_asset_code -> d = asset_def_native) /\
    (viewer_pk (policy d) <> pt_id -> rm_bit (reveal_map (policy d)) 0 = rm_bit (reveal_map (policy d)) 1 /\ zv (reveal_threshold (policy d)) < 2 ^ 127).
  (** the limits: paths as long as the tree is deep, credentials with eight attributes, times below 2^20, amounts that add
      up to less than 2^127 *)
  Record usual_transfer (depth : nat) (vu : u64) (inputs : list TransferNoteInput) (outputs : list RecordOpening) : Prop := {
    ut_paths : forall i, In i inputs -> length (acc_path (ti_acc i)) = depth;
    ut_definitions : forall o, In o (map ti_ro inputs ++ outputs) -> usual_definition (asset_def o);
    ut_credentials : forall i c, In i inputs -> ti_cred i = Some c -> length (cr_attrs c) = 8%nat /\ zv (cr_expiry c) < zv vu + 2 ^ 20;
    ut_expiry : zv vu < 2 ^ 20;
    ut_amounts : amt_sum (map ti_ro inputs) < 2 ^ 127
  }.
  (** the record of the input is its holder's, unfrozen and in the tree with the given root, and the holder has the
      credential that its policy asks for; dummies need be none of this, but are worth nothing *)
  Record valid_input (root : F) (vu : u64) (i : TransferNoteInput) : Prop := {
    vi_unfrozen : freeze_flag (ti_ro i) = Unfrozen;
    vi_address : address (pub_key (ti_ro i)) = user_address (ti_kp i);
    vi_dummy : asset_def (ti_ro i) = asset_def_dummy -> zv (amount (ti_ro i)) = 0;
    vi_owner : asset_def (ti_ro i) <> asset_def_dummy -> pub_key (ti_ro i) = user_pub_key (ti_kp i);
    vi_member : asset_def (ti_ro i) <> asset_def_dummy -> acc_root (ti_acc i) = root /\
      merkle_root_of (f_of_u64 (acc_uid (ti_acc i))) (derive_record_commitment (ti_ro i)) (acc_path (ti_acc i)) = root;
    vi_credential : cred_pk (policy (asset_def (ti_ro i))) <> pt_id -> exists c, ti_cred i = Some c /\ cred_verify c vu = Ok tt
  }.
  (** native first, one definition [d] besides, whose freezer is also a viewer *)
  Definition valid_assets (inputs : list TransferNoteInput) (outputs : list RecordOpening) : Prop :=
    exists i0 irest o0 orest d, inputs = i0 :: irest /\ outputs = o0 :: orest /\
      asset_def (ti_ro i0) = asset_def_native /\ asset_def o0 = asset_def_native /\
      (forall i, In i irest -> asset_def (ti_ro i) = asset_def_dummy \/ asset_def (ti_ro i) = d) /\ (forall o, In o orest -> asset_def o = d) /\
      (d = asset_def_native \/ d <> asset_def_dummy /\ exists i, In i irest /\ asset_def (ti_ro i) = d) /\
      (freezer_pk (policy d) <> pt_id -> viewer_pk (policy d) <> pt_id).
  Record valid_transfer (root : F) (vu : u64) (inputs : list TransferNoteInput) (outputs : list RecordOpening) (fee : Amount) : Prop := {
    vt_assets : valid_assets inputs outputs;
    vt_inputs : forall i, In i inputs -> valid_input root vu i;
    vt_outputs : forall o, In o outputs -> freeze_flag o = Unfrozen;
    (** each asset: what goes in comes out, but for the fee in the native one *)
    vt_balance : forall c, code_sum c (non_dummy (map ti_ro inputs)) = code_sum c outputs + (if zeqb native_asset_code c then zv fee else 0);
    vt_distinct : NoDup (map (fun i => user_nullify (ti_kp i) (freezer_pk (policy (asset_def (ti_ro i)))) (acc_uid (ti_acc i))
                                                    (derive_record_commitment (ti_ro i))) inputs)
  }.

  (** ** The fee of mints and freezes *)
  Record valid_fee (f : TxnFeeInfo) : Prop := {
    vf_native : asset_def (fi_ro (fee_input f)) = asset_def_native /\ asset_def (fee_chg_ro f) = asset_def_native;
    vf_unfrozen : freeze_flag (fi_ro (fee_input f)) = Unfrozen /\ freeze_flag (fee_chg_ro f) = Unfrozen;
    vf_owner : pub_key (fi_ro (fee_input f)) = user_pub_key (fi_kp (fee_input f));
    vf_change : pub_key (fee_chg_ro f) = pub_key (fi_ro (fee_input f)) /\
                zv (amount (fi_ro (fee_input f))) = zv (fee_amount f) + zv (amount (fee_chg_ro f));
    vf_member : merkle_root_of (f_of_u64 (acc_uid (fi_acc (fee_input f)))) (derive_record_commitment (fi_ro (fee_input f)))
                               (acc_path (fi_acc (fee_input f))) = acc_root (fi_acc (fee_input f))
  }.

  (** ** Freezes *)
  (** the limits: paths as long as the tree is deep, no other definition with the dummy code, no record of the neutral
      address, and the encryption key of the fee record is that of the payer *)
  Record usual_freeze (depth : nat) (inputs : list FreezeNoteInput) (f : TxnFeeInfo) : Prop := {
    uf_paths : length (acc_path (fi_acc (fee_input f))) = depth /\ forall i, In i inputs -> length (acc_path (zi_acc i)) = depth;
    uf_definitions : forall i, In i inputs -> code (asset_def (zi_ro i)) = dummy_asset_code -> asset_def (zi_ro i) = asset_def_dummy;
    uf_addresses : forall i, In i inputs -> address (pub_key (zi_ro i)) <> pt_id;
    uf_key : uenc_key (pub_key (fi_ro (fee_input f))) = uenc_key (user_pub_key (fi_kp (fee_input f)))
  }.
  (** the freezer of the record's policy asks, and the record is in the tree with the given root *)
  Record valid_frozen (root : F) (i : FreezeNoteInput) : Prop := {
    vz_key : freezer_pub_key (zi_kp i) = freezer_pk (policy (asset_def (zi_ro i)));
    vz_policy : asset_def (zi_ro i) <> asset_def_dummy -> freezer_pk (policy (asset_def (zi_ro i))) <> pt_id;
    vz_member : asset_def (zi_ro i) <> asset_def_dummy -> acc_root (zi_acc i) = root /\
      merkle_root_of (f_of_u64 (acc_uid (zi_acc i))) (derive_record_commitment (zi_ro i)) (acc_path (zi_acc i)) = root
  }.
  Record valid_freeze (inputs : list FreezeNoteInput) (f : TxnFeeInfo) : Prop := {
    vz_some : inputs <> [];
    vz_fee : valid_fee f;
    vz_inputs : forall i, In i inputs -> valid_frozen (acc_root (fi_acc (fee_input f))) i;
    vz_distinct : NoDup (user_nullify (fi_kp (fee_input f)) pt_id (acc_uid (fi_acc (fee_input f))) (derive_record_commitment (fi_ro (fee_input f)))
      :: map (fun i => freezer_nullify (zi_kp i) (address (pub_key (zi_ro i))) (acc_uid (zi_acc i)) (derive_record_commitment (zi_ro i))) inputs)
  }.

  (** ** Filing records *)

  (** the record is filed under a position that holds something else, or nothing *)
  Definition misfiled (leaves : list F) (x : Owned) : Prop :=
    nth_error leaves (Z.to_nat (zv (snd x))) <> Some (derive_record_commitment (fst x)).
  (** the hashes of the tree and those of the path from the commitment, at the position, to the root *)
  Definition lookup_hashes (depth : nat) (leaves : list F) (uid : u64) (com : F) : list (F * F * F) :=
    tree_hashes leaves depth 0 ++ place_hashes (f_of_u64 uid) com (tree_path leaves 0 depth (Z.to_nat (zv uid))).
End ExactSpec.
