(** What every call of a parameter builder does, and when it panics.  Stated with the fields of the builders only. *)
From Verif Require Import Base Config Structs Keys Utils Memo Plonk Witness Circuits Snark Notes NoteProofs UtilsProofs Serde Ledger Wallet Builder BuilderSpec.

Section BuilderCallSpec.
  Context {C : CapConfig} {S : Snark C} {K : @RoCodec C} {E : MemoSer C}.

  (** ** Policies *)

  (** the flags a wish to reveal names: 0 and 1 the address, 2 the amount, 3 the blinding factor, 4 to 11 the attributes *)
  Definition reveals (a : PolicyRevealAttr) (i : nat) : bool :=
    match a with
    | UserAddr => (i <? 2)%nat
    | RevAmount => (i =? 2)%nat
    | BlindFactor => (i =? 3)%nat
    | IdAttr k => (i =? 4 + k)%nat
    | AllIdAttr => (4 <=? i)%nat && (i <? 12)%nat
    end.
  (** a policy with a viewer, and an issuer for attributes *)
  Definition may_reveal (a : PolicyRevealAttr) (p : AssetPolicy) : Prop :=
    viewer_pk p <> pt_id /\ match a with IdAttr _ | AllIdAttr => cred_pk p <> pt_id | _ => True end.
  Definition index_in_range (a : PolicyRevealAttr) : Prop := match a with IdAttr i => (i < 8)%nat | _ => True end.

  Definition same_keys (p p' : AssetPolicy) : Prop := viewer_pk p' = viewer_pk p /\ cred_pk p' = cred_pk p /\ freezer_pk p' = freezer_pk p.
  (** exactly the named flags are added *)
  Definition flags_added (a : PolicyRevealAttr) (p p' : AssetPolicy) : Prop :=
    same_keys p p' /\ reveal_threshold p' = reveal_threshold p /\ forall i, rm_bit (reveal_map p') i = reveals a i || rm_bit (reveal_map p) i.
  Definition threshold_set (t : Amount) (p p' : AssetPolicy) : Prop := same_keys p p' /\ reveal_threshold p' = t /\ reveal_map p' = reveal_map p.
  Definition map_set_to (m : RevealMap) (p p' : AssetPolicy) : Prop := same_keys p p' /\ reveal_threshold p' = reveal_threshold p /\ reveal_map p' = m.

  (** ** Records *)

  Definition policy_changed_by (R : AssetPolicy -> AssetPolicy -> Prop) (r r' : RecordOpening) : Prop :=
    amount r' = amount r /\ pub_key r' = pub_key r /\ freeze_flag r' = freeze_flag r /\ blind r' = blind r /\ code (asset_def r') = code (asset_def r) /\
    R (policy (asset_def r)) (policy (asset_def r')).
  (** one element is changed, the others are the same *)
  Definition changed_at {A} (i : nat) (R : A -> A -> Prop) (l l' : list A) : Prop :=
    length l' = length l /\ (exists x x', nth_error l i = Some x /\ nth_error l' i = Some x' /\ R x x') /\ forall j, j <> i -> nth_error l' j = nth_error l j.
  Definition amount_set (a : Amount) (r r' : RecordOpening) : Prop := r' = mkRO a (asset_def r) (pub_key r) (freeze_flag r) (blind r).
  Definition def_set (d : AssetDefinition) (r r' : RecordOpening) : Prop := r' = mkRO (amount r) d (pub_key r) (freeze_flag r) (blind r).
  Definition flag_set (f : FreezeFlag) (r r' : RecordOpening) : Prop := r' = mkRO (amount r) (asset_def r) (pub_key r) f (blind r).
  Definition dummy_set (r r' : RecordOpening) : Prop := r' = mkRO (w128 0) asset_def_dummy (pub_key r) (freeze_flag r) (blind r).

  (** ** Transfers *)

  (** the definition of the builder, its inputs but the first and its outputs get the new policy *)
  Definition policies_changed (R : AssetPolicy -> AssetPolicy -> Prop) (b b' : TransferBuilder) : Prop :=
    (exists nn nn', tb_asset b = Some nn /\ tb_asset b' = Some nn' /\ nn_viewer nn' = nn_viewer nn /\ nn_minter nn' = nn_minter nn /\ nn_freezer nn' = nn_freezer nn /\
       code (nn_def nn') = code (nn_def nn) /\ R (policy (nn_def nn)) (policy (nn_def nn'))) /\
    firstn 1 (tb_ins b') = firstn 1 (tb_ins b) /\ Forall2 (policy_changed_by R) (skipn 1 (tb_ins b)) (skipn 1 (tb_ins b')) /\
    Forall2 (policy_changed_by R) (tb_outs b) (tb_outs b') /\ tb_chg b' = tb_chg b /\ tb_creds b' = tb_creds b.
  (** only the inputs change *)
  Definition only_ins (b b' : TransferBuilder) : Prop :=
    tb_asset b' = tb_asset b /\ tb_outs b' = tb_outs b /\ tb_chg b' = tb_chg b /\ tb_creds b' = tb_creds b.

  Definition effect (c : BuilderCall) (b b' : TransferBuilder) : Prop :=
    match c with
    | CPolicyReveal a => policies_changed (flags_added a) b b'
    | CRevealThreshold t => policies_changed (threshold_set t) b b'
    | CRevealMap m => policies_changed (map_set_to m) b b'
    | CInputAmounts bl fee amounts =>
        only_ins b b' /\ map amount (tb_ins b') = fee :: amounts /\ map pub_key (tb_ins b') = map user_pub_key (tb_kps b) /\
        map asset_def (tb_ins b') = asset_def_native :: repeat (tb_def b) (length amounts) /\
        forall i r, nth_error (tb_ins b') i = Some r -> freeze_flag r = Unfrozen /\ blind r = bl i
    | COutputAmounts kps bl chg amounts =>
        tb_asset b' = tb_asset b /\ tb_ins b' = tb_ins b /\ tb_creds b' = tb_creds b /\
        amount (tb_chg b') = chg /\ asset_def (tb_chg b') = asset_def_native /\ freeze_flag (tb_chg b') = Unfrozen /\ blind (tb_chg b') = bl 0%nat /\
        (exists k, nth_error (tb_kps b) 0 = Some k /\ pub_key (tb_chg b') = user_pub_key k) /\
        map amount (tb_outs b') = amounts /\
        forall i o, nth_error (tb_outs b') i = Some o ->
          asset_def o = tb_def b /\ pub_key o = user_pub_key (kps i) /\ freeze_flag o = Unfrozen /\ blind o = bl (Datatypes.S i)
    | CInputCreds attrs expiry =>
        tb_asset b' = tb_asset b /\ tb_ins b' = tb_ins b /\ tb_outs b' = tb_outs b /\ tb_chg b' = tb_chg b /\ length (tb_creds b') = length (tb_ins b) /\
        forall i r o, nth_error (tb_ins b) i = Some r -> nth_error (tb_creds b') i = Some o ->
          (cred_pk (policy (asset_def r)) = pt_id -> o = None) /\
          (cred_pk (policy (asset_def r)) <> pt_id -> exists c nn, o = Some c /\ tb_asset b = Some nn /\ cr_expiry c = expiry /\
             cr_user_addr c = address (pub_key r) /\ cr_attrs c = map (attrs i) (seq 0 8) /\ cr_creator_pk c = ver_key (nn_minter nn) /\
             forall now : u64, zv now <= zv expiry -> cred_verify c now = Ok tt)
    | CInputFlag i f => only_ins b b' /\ changed_at i (flag_set f) (tb_ins b) (tb_ins b')
    | CFeeInputDef d => only_ins b b' /\ changed_at 0 (def_set d) (tb_ins b) (tb_ins b')
    | CInputDef i d => only_ins b b' /\ changed_at (Datatypes.S i) (def_set d) (tb_ins b) (tb_ins b')
    | CDummyInput i => only_ins b b' /\ changed_at (Datatypes.S i) dummy_set (tb_ins b) (tb_ins b')
    | CFeeChangeDef d => tb_asset b' = tb_asset b /\ tb_ins b' = tb_ins b /\ tb_outs b' = tb_outs b /\ tb_creds b' = tb_creds b /\ def_set d (tb_chg b) (tb_chg b')
    | COutputDef i d => tb_asset b' = tb_asset b /\ tb_ins b' = tb_ins b /\ tb_chg b' = tb_chg b /\ tb_creds b' = tb_creds b /\
        changed_at i (def_set d) (tb_outs b) (tb_outs b')
    | CFeeInputAmount a => only_ins b b' /\ changed_at 0 (amount_set a) (tb_ins b) (tb_ins b')
    | CInputAmount i a => only_ins b b' /\ changed_at (Datatypes.S i) (amount_set a) (tb_ins b) (tb_ins b')
    end.

  (** when a call does not panic *)
  Definition allowed (c : BuilderCall) (b : TransferBuilder) : Prop :=
    match c with
    | CPolicyReveal a => tb_asset b <> None /\ index_in_range a /\ forall r, In r (skipn 1 (tb_ins b) ++ tb_outs b) -> may_reveal a (policy (asset_def r))
    | CRevealThreshold _ | CRevealMap _ => tb_asset b <> None
    | CInputAmounts _ _ amounts => tb_ins b = [] /\ (length amounts + 1)%nat = tb_num_in b
    | COutputAmounts _ _ _ amounts => tb_outs b = [] /\ (length amounts + 1)%nat = tb_num_out b
    | CInputCreds _ _ => tb_ins b <> [] /\ (forall r, In r (tb_ins b) -> cred_pk (policy (asset_def r)) <> pt_id -> tb_asset b <> None)
    | CInputFlag i _ => (i < length (tb_ins b))%nat
    | CFeeInputDef _ | CFeeInputAmount _ => tb_ins b <> []
    | CInputDef i _ | CDummyInput i | CInputAmount i _ => (i + 1 < length (tb_ins b))%nat
    | CFeeChangeDef _ => True
    | COutputDef i _ => (i < length (tb_outs b))%nat
    end.

  (** ** Freezes *)

  Inductive FreezeCallAny := AnyFlag (i : nat) (f : FreezeFlag) | AnyPolicy (i : nat) (p : AssetPolicy) | AnyFeeAmount (a : Amount) | AnyFeeDef (d : AssetDefinition) | AnyFeeFlag (f : FreezeFlag).
  Definition acall (c : FreezeCallAny) (b : FreezeBuilder) : res FreezeBuilder :=
    match c with
    | AnyFlag i f => fb_update_input_freeze_flag i f b
    | AnyPolicy i p => fb_update_input_policy i p b
    | AnyFeeAmount a => fb_update_fee_input_amount a b
    | AnyFeeDef d => fb_update_fee_asset_def d b
    | AnyFeeFlag f => fb_update_fee_freeze_flag f b
    end.
  Fixpoint acalls (l : list FreezeCallAny) (b : FreezeBuilder) : res FreezeBuilder :=
    match l with [] => Ok b | c :: l' => let* b1 := acall c b in acalls l' b1 end.
  Definition policy_replaced (p : AssetPolicy) (r r' : RecordOpening) : Prop :=
    r' = mkRO (amount r) (mkDef (code (asset_def r)) p) (pub_key r) (freeze_flag r) (blind r).
  Definition fee_record_changed (R : RecordOpening -> RecordOpening -> Prop) (b b' : FreezeBuilder) : Prop :=
    map zi_ro (fb_inputs b') = map zi_ro (fb_inputs b) /\ R (fb_fee_ro b) (fb_fee_ro b').
  Definition input_record_changed (i : nat) (R : RecordOpening -> RecordOpening -> Prop) (b b' : FreezeBuilder) : Prop :=
    changed_at i R (map zi_ro (fb_inputs b)) (map zi_ro (fb_inputs b')) /\ fb_fee_ro b' = fb_fee_ro b.
  Definition aeffect (c : FreezeCallAny) : FreezeBuilder -> FreezeBuilder -> Prop :=
    match c with
    | AnyFlag i f => input_record_changed i (flag_set f)
    | AnyPolicy i p => input_record_changed i (policy_replaced p)
    | AnyFeeAmount a => fee_record_changed (amount_set a)
    | AnyFeeDef d => fee_record_changed (def_set d)
    | AnyFeeFlag f => fee_record_changed (flag_set f)
    end.
  Definition aallowed (c : FreezeCallAny) (b : FreezeBuilder) : Prop :=
    match c with AnyFlag i _ | AnyPolicy i _ => (i < length (fb_inputs b))%nat | _ => True end.
  (** what is never changed, and current witnesses of all records *)
  Definition freeze_current (b0 b : FreezeBuilder) : Prop :=
    fb_depth b = fb_depth b0 /\ fb_fee b = fb_fee b0 /\ map zi_kp (fb_inputs b) = map zi_kp (fb_inputs b0) /\ fi_kp (fb_fee_in b) = fi_kp (fb_fee_in b0) /\
    let root := tree_root (fb_depth b) (map derive_record_commitment (map zi_ro (fb_inputs b)) ++ [derive_record_commitment (fb_fee_ro b)]) in
    proves (fb_depth b) root (fb_fee_ro b) (fi_acc (fb_fee_in b)) /\ acc_uid (fi_acc (fb_fee_in b)) = w64 (Z.of_nat (length (fb_inputs b))) /\
    forall i x, nth_error (fb_inputs b) i = Some x -> proves (fb_depth b) root (zi_ro x) (zi_acc x) /\ acc_uid (zi_acc x) = w64 (Z.of_nat i).
End BuilderCallSpec.
