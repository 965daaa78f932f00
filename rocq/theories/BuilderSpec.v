(** What the users of the parameter builders rely on.  Stated with records, trees and amounts only. *)
From Verif Require Import Base Config Structs Keys Utils Memo Plonk Witness Circuits Snark Notes NoteProofs UtilsProofs Serde Ledger Wallet Builder.

Section BuilderSpec.
  Context {C : CapConfig} {S : Snark C} {K : @RoCodec C} {E : MemoSer C}.

  (** ** Calls *)
  Inductive BuilderCall :=
  | CPolicyReveal (a : PolicyRevealAttr)
  | CRevealThreshold (t : Amount)
  | CRevealMap (m : RevealMap)
  | CInputAmounts (bl : nat -> F) (fee : Amount) (amounts : list Amount)
  | COutputAmounts (kps : nat -> UserKeyPair) (bl : nat -> F) (chg : Amount) (amounts : list Amount)
  | CInputCreds (attrs : nat -> nat -> F) (expiry : u64)
  | CInputFlag (i : nat) (f : FreezeFlag)
  | CFeeInputDef (d : AssetDefinition)
  | CInputDef (i : nat) (d : AssetDefinition)
  | CDummyInput (i : nat)
  | CFeeChangeDef (d : AssetDefinition)
  | COutputDef (i : nat) (d : AssetDefinition)
  | CFeeInputAmount (a : Amount)
  | CInputAmount (i : nat) (a : Amount).

  Definition call (c : BuilderCall) (b : TransferBuilder) : res TransferBuilder :=
    match c with
    | CPolicyReveal a => tb_policy_reveal a b
    | CRevealThreshold t => tb_set_reveal_threshold t b
    | CRevealMap m => tb_set_reveal_map m b
    | CInputAmounts bl fee l => tb_set_input_amounts bl fee l b
    | COutputAmounts kps bl chg l => tb_set_output_amounts kps bl chg l b
    | CInputCreds attrs expiry => tb_set_input_creds attrs expiry b
    | CInputFlag i f => tb_update_input_freeze_flag i f b
    | CFeeInputDef d => tb_update_fee_input_asset_def d b
    | CInputDef i d => tb_update_input_asset_def i d b
    | CDummyInput i => tb_set_dummy_input_record i b
    | CFeeChangeDef d => tb_update_fee_chg_asset_def d b
    | COutputDef i d => tb_update_output_asset_def i d b
    | CFeeInputAmount a => tb_update_fee_input_amount a b
    | CInputAmount i a => tb_update_input_amount i a b
    end.
  (** a chain of calls *)
  Fixpoint calls (l : list BuilderCall) (b : TransferBuilder) : res TransferBuilder :=
    match l with [] => Ok b | c :: l' => let* b1 := call c b in calls l' b1 end.

  (** Chains of calls that make an ordinary transfer: no flag is set and no definition is replaced.  Records may be turned
      into dummies, after which neither the policy nor the amounts of the inputs may be set any more. *)
  Fixpoint plain (dummies : bool) (l : list BuilderCall) : Prop :=
    match l with
    | [] => True
    | CInputFlag _ _ :: _ | CFeeInputDef _ :: _ | CInputDef _ _ :: _ | CFeeChangeDef _ :: _ | COutputDef _ _ :: _ => False
    | CRevealThreshold _ :: l' | CRevealMap _ :: l' | CInputAmount _ _ :: l' => dummies = false /\ plain dummies l'
    | CDummyInput _ :: l' => plain true l'
    | _ :: l' => plain dummies l'
    end.
  (** the expiry of the credentials of a chain *)
  Fixpoint chain_expiry (e : option u64) (l : list BuilderCall) : option u64 :=
    match l with [] => e | CInputCreds _ x :: l' => chain_expiry (Some x) l' | _ :: l' => chain_expiry e l' end.

  (** The starting exponent computed in floating point is not above the right one (it may be one too small, or one too
      large between two powers). *)
  Definition start_ok (start : nat) (current : Z) : Prop := start = 0%nat \/ 3 ^ (Z.of_nat start - 1) < current.

  (** without a wish for the depth: at most 3^38 records *)
  Definition size_ok (start n_in n_out : nat) (depth : option byte) : Prop :=
    depth = None -> Z.of_nat n_in + Z.of_nat n_out <= 3 ^ 38 /\ start_ok start (Z.of_nat n_in + Z.of_nat n_out).

  (** the same asset: the code and the keys of the policy *)
  Definition same_asset (b b' : TransferBuilder) : Prop :=
    (tb_asset b' = None <-> tb_asset b = None) /\ code (tb_def b') = code (tb_def b) /\ viewer_pk (policy (tb_def b')) = viewer_pk (policy (tb_def b)) /\
    cred_pk (policy (tb_def b')) = cred_pk (policy (tb_def b)) /\ freezer_pk (policy (tb_def b')) = freezer_pk (policy (tb_def b)).

  (** the memos of the receivers can be encrypted *)
  Definition can_encrypt (enc : nat -> aead_rand) (outs : list RecordOpening) : Prop :=
    forall i ro, nth_error outs i = Some ro -> exists m, receiver_memo_from_ro (enc i) ro [] = Ok m.

  (** ** Membership *)

  (** the witness shows that the record is in the tree with this root *)
  Definition proves (depth : nat) (root : F) (r : RecordOpening) (a : AccMemberWitness) : Prop :=
    length (acc_path a) = depth /\ acc_root a = root /\
    merkle_root_of (f_of_u64 (acc_uid a)) (derive_record_commitment r) (acc_path a) = root.

  (** the nullifiers of the inputs *)
  Definition tb_nullifiers (b : TransferBuilder) : list Nullifier :=
    map (fun x => user_nullify (snd x) (freezer_pk (policy (asset_def (fst (fst x))))) (acc_uid (snd (fst x)))
                               (derive_record_commitment (fst (fst x))))
        (combine (combine (tb_ins b) (tb_accs b)) (tb_kps b)).

  Definition total (l : list RecordOpening) : Z := fold_right (fun r s => zv (amount r) + s) 0 l.

  (** Every input is in the tree with root [root] and belongs to the key pair at its position; nothing is frozen; the
      first input and the change are native; the others have the definition of the builder or are dummies worth 0. *)
  Record tb_ready (b : TransferBuilder) (root : F) : Prop := {
    rd_kps : length (tb_kps b) = tb_num_in b;
    rd_creds : length (tb_creds b) = tb_num_in b;
    rd_accs : length (tb_accs b) = tb_num_in b;
    rd_ins : tb_ins b <> [] /\ length (tb_ins b) = tb_num_in b;
    rd_outs : tb_outs b <> [] /\ (length (tb_outs b) + 1)%nat = tb_num_out b;
    rd_member : forall i r a, nth_error (tb_ins b) i = Some r -> nth_error (tb_accs b) i = Some a -> proves (tb_depth b) root r a;
    rd_owner : forall i r k, nth_error (tb_ins b) i = Some r -> nth_error (tb_kps b) i = Some k -> pub_key r = user_pub_key k;
    rd_first : forall r, nth_error (tb_ins b) 0 = Some r -> asset_def r = asset_def_native /\ pub_key (tb_chg b) = pub_key r;
    rd_chg : asset_def (tb_chg b) = asset_def_native /\ freeze_flag (tb_chg b) = Unfrozen;
    rd_rest : forall r, In r (skipn 1 (tb_ins b)) ->
      asset_def r = tb_def b \/ (asset_def r = asset_def_dummy /\ zv (amount r) = 0);
    rd_out_defs : forall o, In o (tb_outs b) -> asset_def o = tb_def b /\ freeze_flag o = Unfrozen;
    rd_unfrozen : forall r, In r (tb_ins b) -> freeze_flag r = Unfrozen
  }.

  (** A credential that is good until [vu]; the circuit wants it to expire less than 2^20 later. *)
  Definition good_cred (vu : u64) (c : ExpirableCredential) : Prop :=
    cred_verify c vu = Ok tt /\ length (cr_attrs c) = 8%nat /\ zv (cr_expiry c) < zv vu + 2 ^ 20.

  (** A builder of a transfer of its own asset that should give a note *)
  Record non_native_ready (b : TransferBuilder) (root : F) (vu : u64) (d : AssetDefinition) : Prop := {
    nr_ready : tb_ready b root;
    nr_def : exists nn, tb_asset b = Some nn /\ nn_def nn = d;
    nr_code : code d <> native_asset_code /\ code d <> dummy_asset_code;
    nr_keys : freezer_pk (policy d) <> pt_id -> viewer_pk (policy d) <> pt_id;
    nr_viewer : viewer_pk (policy d) <> pt_id ->
      rm_bit (reveal_map (policy d)) 0 = rm_bit (reveal_map (policy d)) 1 /\
      zv (reveal_threshold (policy d)) < 2 ^ 127 + total (skipn 1 (tb_ins b));
    nr_some : exists r, In r (skipn 1 (tb_ins b)) /\ asset_def r = d;
    nr_creds : cred_pk (policy d) <> pt_id -> forall i r, nth_error (skipn 1 (tb_ins b)) i = Some r -> asset_def r = d ->
      exists c, nth_error (tb_creds b) (Datatypes.S i) = Some (Some c) /\ good_cred vu c;
    nr_expiry : zv vu < 2 ^ 20;
    nr_balance : total (skipn 1 (tb_ins b)) = total (tb_outs b);
    nr_fee : forall r, nth_error (tb_ins b) 0 = Some r -> zv (amount (tb_chg b)) <= zv (amount r);
    nr_amounts : total (tb_ins b) < 2 ^ 127;
    nr_distinct : NoDup (tb_nullifiers b)
  }.
  (** The same for the native asset: what is not paid goes to the change. *)
  Record native_ready (b : TransferBuilder) (root : F) : Prop := {
    ar_ready : tb_ready b root;
    ar_def : tb_asset b = None;
    ar_balance : total (tb_outs b) <= total (skipn 1 (tb_ins b)) + zv (amount (tb_chg b));
    ar_fee : forall r, nth_error (tb_ins b) 0 = Some r -> zv (amount (tb_chg b)) <= zv (amount r);
    ar_amounts : total (tb_ins b) < 2 ^ 127;
    ar_distinct : NoDup (tb_nullifiers b)
  }.

  (** ** Random builders *)

  (** the ranges [rand] samples from *)
  Definition transfer_sample_ok (vu : u64) (s : TransferSample) : Prop :=
    zv vu < zv (ts_expiry s) < 2000 /\ 1 <= zv (ts_fee s) < 20 /\ 1 <= zv (ts_chg s) <= zv (ts_fee s) /\ 1 <= zv (ts_factor s) < 50.
  Definition mint_sample_ok (s : MintSample) : Prop := 1 <= zv (msm_in s) < 50 /\ 1 <= zv (msm_fee s) <= zv (msm_in s) /\ 1 <= zv (msm_amount s) < 100.

  (** ** Mints *)
  Record mint_ready (b : MintBuilder) (root : F) : Prop := {
    mr_member : proves (mb_depth b) root (mb_fee_ro b) (mb_acc b);
    mr_fee_ro : asset_def (mb_fee_ro b) = asset_def_native /\ freeze_flag (mb_fee_ro b) = Unfrozen /\ pub_key (mb_fee_ro b) = user_pub_key (mb_minter b);
    mr_fee : zv (mb_fee b) <= zv (amount (mb_fee_ro b));
    mr_code : code (asset_def (mb_mint_ro b)) = new_domestic (mb_seed b) (mb_description b);
    mr_mint : freeze_flag (mb_mint_ro b) = Unfrozen /\ zv (amount (mb_mint_ro b)) < 2 ^ 127
  }.

  (** ** Freezes *)

  (** calls that keep the note buildable: flags of the inputs and the amount of the fee record *)
  Inductive FreezeCall := FInputFlag (i : nat) (f : FreezeFlag) | FFeeAmount (a : Amount).
  Definition fcall (c : FreezeCall) (b : FreezeBuilder) : res FreezeBuilder :=
    match c with FInputFlag i f => fb_update_input_freeze_flag i f b | FFeeAmount a => fb_update_fee_input_amount a b end.
  Fixpoint fcalls (l : list FreezeCall) (b : FreezeBuilder) : res FreezeBuilder :=
    match l with [] => Ok b | c :: l' => let* b1 := fcall c b in fcalls l' b1 end.

  Definition fb_nullifiers (b : FreezeBuilder) : list Nullifier :=
    user_nullify (fi_kp (fb_fee_in b)) pt_id (acc_uid (fi_acc (fb_fee_in b))) (derive_record_commitment (fb_fee_ro b))
    :: map (fun i => freezer_nullify (zi_kp i) (address (pub_key (zi_ro i))) (acc_uid (zi_acc i)) (derive_record_commitment (zi_ro i))) (fb_inputs b).
  Record freeze_ready (b : FreezeBuilder) (root : F) : Prop := {
    fe_some : fb_inputs b <> [];
    fe_depth : (fb_depth b < 256)%nat;
    fe_inputs : forall i, In i (fb_inputs b) -> proves (fb_depth b) root (zi_ro i) (zi_acc i) /\
      freezer_pk (policy (asset_def (zi_ro i))) = freezer_pub_key (zi_kp i);
    fe_fee_member : proves (fb_depth b) root (fb_fee_ro b) (fi_acc (fb_fee_in b));
    fe_fee_ro : asset_def (fb_fee_ro b) = asset_def_native /\ freeze_flag (fb_fee_ro b) = Unfrozen /\ pub_key (fb_fee_ro b) = user_pub_key (fi_kp (fb_fee_in b))
  }.
  (** Real keys: neither a freezer nor a holder has the neutral point.  And the fee can be paid. *)
  Record freeze_payable (b : FreezeBuilder) : Prop := {
    fp_freezers : forall i, In i (fb_inputs b) -> freezer_pub_key (zi_kp i) <> pt_id /\ address (pub_key (zi_ro i)) <> pt_id;
    fp_enough : zv (fb_fee b) <= zv (amount (fb_fee_ro b));
    fp_distinct : NoDup (fb_nullifiers b)
  }.

  (** ** Lists of transactions *)

  (** What the code samples for its jobs: amounts in their ranges, keys that are not the neutral point *)
  Definition transfer_job_ok (j : TransferJob) : Prop :=
    transfer_sample_ok (w64 1000) (tj_sample j) /\ viewer_pub_key (ts_viewer (tj_sample j)) <> pt_id.
  Definition mint_job_ok (j : MintJob) : Prop := mint_sample_ok (mj_sample j).
  Definition freeze_job_ok (j : FreezeJob) : Prop :=
    length (fj_kps j) = 2%nat /\ zv (fj_fee j) <= zv (fj_fee_in j) /\ (forall k, In k (fj_kps j) -> freezer_pub_key k <> pt_id) /\
    (forall i, user_address (fs_user (fj_sample j) i) <> pt_id).
  (** all records fit *)
  Definition jobs_fit (depth : byte) (tj : list TransferJob) (mj : list MintJob) (fj : list FreezeJob) : Prop :=
    let n := 2 * Z.of_nat (length tj) + Z.of_nat (length mj) + 3 * Z.of_nat (length fj) in n < 2 ^ 64 /\ n <= 3 ^ zv depth.
  (** transfer, mint or freeze *)
  Definition kind_of (t : TransactionNote) : nat := match t with TxTransfer _ => 0%nat | TxMint _ => 1%nat | TxFreeze _ => 2%nat end.
  (** the key for a note *)
  Definition key_for (p : TxnsParams) (t : TransactionNote) (k : TransactionVerifyingKey) : Prop :=
    match t, k with
    | TxTransfer _, VkTransfer _ | TxMint _, VkMint _ | TxFreeze _, VkFreeze _ => In k (tp_vks p)
    | _, _ => False
    end.
End BuilderSpec.
