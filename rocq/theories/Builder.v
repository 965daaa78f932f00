(** Model of the parameter builders of src/utils/params_builder.rs, a public module ([utils::params_builder], lib.rs 168)
    with which the unit tests and the benchmarks make their notes.

    What the code samples is explicit: every call takes what it draws from its random number generator.  The builders'
    own generator (field [rng]) and the fixed one of [ark_std::test_rng] are such arguments, too, so the theorems hold
    whatever they yield.  [MerkleTree::new(depth).unwrap()] always returns a tree (as in Ledger.v).  Indices out of
    range, failed assertions and [unwrap] of an error are [Panic]. *)
From Verif Require Import Base Config Structs Keys Utils Memo Plonk Witness Circuits Snark Notes Serde Ledger Wallet.

(** ** The depth of the tree *)

(** [3usize.pow(e)]; overflow panics (development profile) *)
Definition usize_pow3 (e : nat) : res Z := if 3 ^ Z.of_nat e <? 2 ^ 64 then Ok (3 ^ Z.of_nat e) else Panic.
(** utils/mod.rs 61-69, the loop *)
Fixpoint pow3_from (fuel e : nat) (current : Z) : res Z :=
  match fuel with
  | O => Panic
  | Datatypes.S fuel' => let* r := usize_pow3 e in if r <? current then pow3_from fuel' (Datatypes.S e) current else Ok r
  end.
(** utils/mod.rs 61-69.  [start] is [floor(log10(current)/log10(3))] in floating point, whose rounding is not modelled;
    41 steps are enough as 3^41 does not fit. *)
Definition next_power_of_three (start : nat) (current : Z) : res Z := pow3_from 42 start current.
(** params_builder.rs 883-896 *)
Definition calculate_tree_depth (start : nat) (n_in n_out : nat) (depth : option byte) : res byte :=
  if (n_in =? 0)%nat then Panic else
  if (n_out =? 0)%nat then Panic else
  match depth with
  | Some d => let* cap := usize_pow3 (Z.to_nat (zv d)) in
              if Z.of_nat n_in + Z.of_nat n_out <=? cap then Ok d else Panic
  | None => let* p := next_power_of_three start (Z.of_nat n_in + Z.of_nat n_out) in Ok (b8 p)
  end.

(** [l[i] = v] *)
Fixpoint list_set {A} (i : nat) (v : A) (l : list A) : list A :=
  match i, l with
  | _, [] => []
  | O, _ :: l' => v :: l'
  | Datatypes.S i', x :: l' => x :: list_set i' v l'
  end.
Definition vec_set {A} (i : nat) (v : A) (l : list A) : res (list A) :=
  if (i <? length l)%nat then Ok (list_set i v l) else Panic.
Definition vec_get {A} (l : list A) (i : nat) : res A := match nth_error l i with Some x => Ok x | None => Panic end.

Section Builder.
  Context {C : CapConfig} {S : Snark C} {K : @RoCodec C} {E : MemoSer C}.

  (** records with one field changed *)
  Definition ro_set_amount (a : Amount) (r : RecordOpening) := mkRO a (asset_def r) (pub_key r) (freeze_flag r) (blind r).
  Definition ro_set_def (d : AssetDefinition) (r : RecordOpening) := mkRO (amount r) d (pub_key r) (freeze_flag r) (blind r).
  Definition ro_set_flag (f : FreezeFlag) (r : RecordOpening) := mkRO (amount r) (asset_def r) (pub_key r) f (blind r).
  Definition ro_set_policy (p : AssetPolicy) (r : RecordOpening) := ro_set_def (mkDef (code (asset_def r)) p) r.

  (** derived [Default] of a record opening (structs.rs 943-963); the encryption key of the default user is an argument
      of nothing here and is that of the default key pair *)
  Definition ro_default : RecordOpening :=
    mkRO (w128 0) (mkDef f0 policy_default) (user_pub_key user_kp_default) Unfrozen f0.
  (** derived [Default] of a membership witness (external) *)
  Definition acc_default : AccMemberWitness := mkAcc (w64 0) [] f0.

  (** ** Random asset definitions *)

  (** params_builder.rs 904-910; a credential issuer's key pair is its secret *)
  Record NonNativeAssetDefinition := mkNN {
    nn_def : AssetDefinition; nn_viewer : ViewerKeyPair; nn_minter : Fj; nn_freezer : FreezerKeyPair }.
  (** params_builder.rs 913-929 with structs.rs 251-257 *)
  Definition nn_generate (v : ViewerKeyPair) (m : Fj) (f : FreezerKeyPair) (seed : AssetCodeSeed) : res NonNativeAssetDefinition :=
    let p := set_freezer_pub_key (freezer_pub_key f)
               (set_cred_creator_pub_key (ver_key m) (set_viewer_pub_key (viewer_pub_key v) policy_default)) in
    let* d := unwrap (asset_def_new (new_domestic seed []) p) in
    Ok (mkNN d v m f).
  Definition nn_set_policy (p : AssetPolicy) (a : NonNativeAssetDefinition) : NonNativeAssetDefinition :=
    mkNN (mkDef (code (nn_def a)) p) (nn_viewer a) (nn_minter a) (nn_freezer a).

  (** params_builder.rs 1408-1415 *)
  Definition rm_rand (bits : nat -> bool) : RevealMap :=
    match rm_make (bits 1%nat :: map bits (seq 1 (VIEWABLE_DATA_LEN - 1))) with Some m => m | None => rm_default end.
  (** params_builder.rs 1434-1445; the threshold is a [u64] *)
  Definition policy_rand (v : ViewerKeyPair) (c : Fj) (f : FreezerKeyPair) (bits : nat -> bool) (t : u64) : AssetPolicy :=
    mkPolicy (viewer_pub_key v) (ver_key c) (freezer_pub_key f) (rm_rand bits) (w128 (zv t)).
  (** params_builder.rs 1420-1429 *)
  Definition def_rand (seed : AssetCodeSeed) (p : AssetPolicy) : AssetDefinition := mkDef (new_domestic seed []) p.

  (** ** Revealing through the policy *)

  (** params_builder.rs 279-285 *)
  Inductive PolicyRevealAttr := UserAddr | RevAmount | BlindFactor | IdAttr (i : nat) | AllIdAttr.
  (** params_builder.rs 373-402 and 1056-1076: on the reveal map itself *)
  Definition map_reveal (a : PolicyRevealAttr) (m : RevealMap) : res RevealMap :=
    match a with
    | UserAddr => Ok (rm_reveal_user_address m)
    | RevAmount => Ok (rm_reveal_amount m)
    | BlindFactor => Ok (rm_reveal_blinding_factor m)
    | IdAttr i => unwrap (rm_reveal_ith_id_attribute i m)
    | AllIdAttr => Ok (rm_reveal_all_id_attributes m)
    end.
  (** params_builder.rs 409-433: through the methods of the policy, which refuse without a viewer or an issuer *)
  Definition policy_reveal (a : PolicyRevealAttr) (p : AssetPolicy) : res AssetPolicy :=
    unwrap (match a with
            | UserAddr => reveal_user_address p
            | RevAmount => reveal_amount p
            | BlindFactor => reveal_blinding_factor p
            | IdAttr i => reveal_ith_attribute i p
            | AllIdAttr => reveal_all_attributes p
            end).
  Definition ro_reveal (a : PolicyRevealAttr) (r : RecordOpening) : res RecordOpening :=
    let* p := policy_reveal a (policy (asset_def r)) in Ok (ro_set_policy p r).

  (** ** Transfers *)

  (** params_builder.rs 287-307 *)
  Record TransferBuilder := mkTB {
    tb_num_in : nat; tb_num_out : nat; tb_depth : nat;
    tb_asset : option NonNativeAssetDefinition;
    tb_ins : list RecordOpening; tb_outs : list RecordOpening; tb_chg : RecordOpening;
    tb_kps : list UserKeyPair; tb_creds : list (option ExpirableCredential); tb_accs : list AccMemberWitness; tb_root : F }.
  Definition tb_set_asset (b : TransferBuilder) a :=
    mkTB (tb_num_in b) (tb_num_out b) (tb_depth b) a (tb_ins b) (tb_outs b) (tb_chg b) (tb_kps b) (tb_creds b) (tb_accs b) (tb_root b).
  Definition tb_set_ins (b : TransferBuilder) l :=
    mkTB (tb_num_in b) (tb_num_out b) (tb_depth b) (tb_asset b) l (tb_outs b) (tb_chg b) (tb_kps b) (tb_creds b) (tb_accs b) (tb_root b).
  Definition tb_set_outs (b : TransferBuilder) l :=
    mkTB (tb_num_in b) (tb_num_out b) (tb_depth b) (tb_asset b) (tb_ins b) l (tb_chg b) (tb_kps b) (tb_creds b) (tb_accs b) (tb_root b).
  Definition tb_set_chg (b : TransferBuilder) r :=
    mkTB (tb_num_in b) (tb_num_out b) (tb_depth b) (tb_asset b) (tb_ins b) (tb_outs b) r (tb_kps b) (tb_creds b) (tb_accs b) (tb_root b).
  Definition tb_set_creds (b : TransferBuilder) l :=
    mkTB (tb_num_in b) (tb_num_out b) (tb_depth b) (tb_asset b) (tb_ins b) (tb_outs b) (tb_chg b) (tb_kps b) l (tb_accs b) (tb_root b).
  Definition tb_set_accs (b : TransferBuilder) l r :=
    mkTB (tb_num_in b) (tb_num_out b) (tb_depth b) (tb_asset b) (tb_ins b) (tb_outs b) (tb_chg b) (tb_kps b) (tb_creds b) l r.

  (** params_builder.rs 310-332, 339-364: without and with an asset of its own *)
  Definition tb_new (start n_in n_out : nat) (depth : option byte) (kps : list UserKeyPair) (asset : option NonNativeAssetDefinition)
    : res TransferBuilder :=
    if negb (length kps =? n_in)%nat then Panic else
    let* d := calculate_tree_depth start n_in n_out depth in
    Ok (mkTB n_in n_out (Z.to_nat (zv d)) asset [] [] ro_default kps (repeat None n_in) (repeat acc_default n_in) f0).
  Definition tb_new_native (start n_in n_out : nat) (depth : option byte) (kps : list UserKeyPair) : res TransferBuilder :=
    tb_new start n_in n_out depth kps None.
  Definition tb_new_non_native (v : ViewerKeyPair) (m : Fj) (f : FreezerKeyPair) (seed : AssetCodeSeed)
      (start n_in n_out : nat) (depth : option byte) (kps : list UserKeyPair) : res TransferBuilder :=
    if negb (length kps =? n_in)%nat then Panic else
    let* _ := calculate_tree_depth start n_in n_out depth in
    let* a := nn_generate v m f seed in
    tb_new start n_in n_out depth kps (Some a).

  (** params_builder.rs 617-622: the loop over the positions *)
  Fixpoint put_accs (depth : nat) (leaves : list F) (idx : nat) (uids : list u64) (accs : list AccMemberWitness)
    : res (list AccMemberWitness) :=
    match uids with
    | [] => Ok accs
    | uid :: l => let* a := lookup_from_tree depth leaves uid in
                  let* accs1 := vec_set idx a accs in
                  put_accs depth leaves (idx + 1) l accs1
    end.
  (** the positions [from .. from + n - 1] *)
  Definition uids_from (from n : nat) : list u64 := map (fun i => w64 (Z.of_nat i)) (seq from n).
  (** params_builder.rs 601-625; the tree is its depth and its leaves *)
  Definition tb_update_accs (depth : nat) (leaves : list F) (uids : option (list u64)) (b : TransferBuilder) : res TransferBuilder :=
    let* l := match uids with
              | Some l => if (length l =? length (tb_ins b))%nat then Ok l else Panic
              | None => Ok (uids_from 0 (length (tb_ins b)))
              end in
    let* accs := put_accs depth leaves 0 l (tb_accs b) in
    Ok (tb_set_accs b accs (tree_root depth leaves)).
  (** params_builder.rs 590-597 *)
  Definition tb_refresh (b : TransferBuilder) : res TransferBuilder :=
    tb_update_accs (tb_depth b) (map derive_record_commitment (tb_ins b)) None b.

  (** [iter_mut().skip(1)] *)
  Definition map_rest {A} (f : A -> A) (l : list A) : list A := match l with [] => [] | x :: l' => x :: map f l' end.
  Definition mapM_rest {A} (f : A -> res A) (l : list A) : res (list A) :=
    match l with [] => Ok [] | x :: l' => let* l2 := mapM f l' in Ok (x :: l2) end.

  (** params_builder.rs 366-435 *)
  Definition tb_policy_reveal (a : PolicyRevealAttr) (b : TransferBuilder) : res TransferBuilder :=
    match tb_asset b with
    | None => Panic
    | Some nn =>
        let* m := map_reveal a (reveal_map (policy (nn_def nn))) in
        let b1 := tb_set_asset b (Some (nn_set_policy (set_reveal_map_for_test m (policy (nn_def nn))) nn)) in
        let* ins := mapM_rest (ro_reveal a) (tb_ins b1) in
        let* outs := mapM (ro_reveal a) (tb_outs b1) in
        tb_refresh (tb_set_outs (tb_set_ins b1 ins) outs)
    end.
  (** params_builder.rs 437-455 and 457-475: a change of the policy of the definition, of the inputs but the first and of
      the outputs *)
  Definition tb_change_policy (f : AssetPolicy -> AssetPolicy) (b : TransferBuilder) : res TransferBuilder :=
    match tb_asset b with
    | None => Panic
    | Some nn =>
        let b1 := tb_set_asset b (Some (nn_set_policy (f (policy (nn_def nn))) nn)) in
        let g r := ro_set_policy (f (policy (asset_def r))) r in
        tb_refresh (tb_set_outs (tb_set_ins b1 (map_rest g (tb_ins b1))) (map g (tb_outs b1)))
    end.
  Definition tb_set_reveal_threshold (t : Amount) (b : TransferBuilder) : res TransferBuilder :=
    tb_change_policy (set_reveal_threshold t) b.
  Definition tb_set_reveal_map (m : RevealMap) (b : TransferBuilder) : res TransferBuilder :=
    tb_change_policy (set_reveal_map_for_test m) b.

  (** params_builder.rs 898-901 *)
  Definition input_upk_at (b : TransferBuilder) (i : nat) : res UserPubKey :=
    let* k := vec_get (tb_kps b) i in Ok (user_pub_key k).
  (** the asset a record is made of, params_builder.rs 502-517, 545-560 *)
  Definition tb_def (b : TransferBuilder) : AssetDefinition :=
    match tb_asset b with Some nn => nn_def nn | None => asset_def_native end.
  (** the loop of params_builder.rs 500-519 *)
  Fixpoint input_records (b : TransferBuilder) (bl : nat -> F) (i : nat) (amounts : list Amount) : res (list RecordOpening) :=
    match amounts with
    | [] => Ok []
    | a :: l => let* k := input_upk_at b (i + 1) in
                let* rs := input_records b bl (i + 1) l in
                Ok (ro_new (bl (i + 1)%nat) a (tb_def b) k Unfrozen :: rs)
    end.
  (** params_builder.rs 483-521; [bl] are the sampled blinding factors *)
  Definition tb_set_input_amounts (bl : nat -> F) (fee : Amount) (amounts : list Amount) (b : TransferBuilder) : res TransferBuilder :=
    if negb (length (tb_ins b) =? 0)%nat then Panic else
    if negb (length amounts + 1 =? tb_num_in b)%nat then Panic else
    let* k := input_upk_at b 0 in
    let* rs := input_records b bl 0 amounts in
    tb_refresh (tb_set_ins b (ro_new (bl 0%nat) fee asset_def_native k Unfrozen :: rs)).
  (** the loop of params_builder.rs 543-562; every receiver is a new user *)
  Fixpoint output_records (d : AssetDefinition) (kps : nat -> UserKeyPair) (bl : nat -> F) (i : nat) (amounts : list Amount)
    : list RecordOpening :=
    match amounts with
    | [] => []
    | a :: l => ro_new (bl (i + 1)%nat) a d (user_pub_key (kps i)) Unfrozen :: output_records d kps bl (i + 1) l
    end.
  (** params_builder.rs 526-564 *)
  Definition tb_set_output_amounts (kps : nat -> UserKeyPair) (bl : nat -> F) (chg : Amount) (amounts : list Amount)
      (b : TransferBuilder) : res TransferBuilder :=
    if negb (length (tb_outs b) =? 0)%nat then Panic else
    if negb (length amounts + 1 =? tb_num_out b)%nat then Panic else
    let* k := input_upk_at b 0 in
    Ok (tb_set_outs (tb_set_chg b (ro_new (bl 0%nat) chg asset_def_native k Unfrozen)) (output_records (tb_def b) kps bl 0 amounts)).

  (** structs.rs 1133-1140: a random attribute vector *)
  Definition attr_random_vector (r : nat -> F) : list IdentityAttribute := map r (seq 0 ATTRS_LEN).
  (** the body of the loop of params_builder.rs 569-586 *)
  Definition input_cred (attrs : nat -> nat -> F) (expiry : u64) (b : TransferBuilder) (i : nat) : res (option ExpirableCredential) :=
    let* ro := vec_get (tb_ins b) i in
    if point_eqb (cred_pk (policy (asset_def ro))) pt_id then Ok None else
    match tb_asset b with
    | None => Panic
    | Some nn => let* k := input_upk_at b i in
                 let* c := unwrap (cred_create (address k) (attr_random_vector (attrs i)) expiry (nn_minter nn)) in
                 Ok (Some c)
    end.
  Fixpoint put_creds (attrs : nat -> nat -> F) (expiry : u64) (b : TransferBuilder) (l : list nat) (creds : list (option ExpirableCredential))
    : res (list (option ExpirableCredential)) :=
    match l with
    | [] => Ok creds
    | i :: l' => let* c := input_cred attrs expiry b i in
                 let* creds1 := vec_set i c creds in
                 put_creds attrs expiry b l' creds1
    end.
  (** params_builder.rs 568-588 *)
  Definition tb_set_input_creds (attrs : nat -> nat -> F) (expiry : u64) (b : TransferBuilder) : res TransferBuilder :=
    let* creds := put_creds attrs expiry b (seq 0 (tb_num_in b)) (tb_creds b) in
    Ok (tb_set_creds b creds).

  (** a change of the record at a position, with the tree refreshed *)
  Definition tb_change_input (i : nat) (f : RecordOpening -> RecordOpening) (b : TransferBuilder) : res TransferBuilder :=
    let* r := vec_get (tb_ins b) i in
    let* l := vec_set i (f r) (tb_ins b) in
    tb_refresh (tb_set_ins b l).
  Definition assert_index {A} (i : nat) (l : list A) : res unit := if (i <? length l)%nat then Ok tt else Panic.
  (** params_builder.rs 627-635 *)
  Definition tb_update_input_freeze_flag (i : nat) (f : FreezeFlag) (b : TransferBuilder) : res TransferBuilder :=
    assert_index i (tb_ins b) ;;; tb_change_input i (ro_set_flag f) b.
  (** params_builder.rs 637-640 *)
  Definition tb_update_fee_input_asset_def (d : AssetDefinition) (b : TransferBuilder) : res TransferBuilder :=
    tb_change_input 0 (ro_set_def d) b.
  (** params_builder.rs 642-650: asserts that [i] is an index, uses [i + 1] *)
  Definition tb_update_input_asset_def (i : nat) (d : AssetDefinition) (b : TransferBuilder) : res TransferBuilder :=
    assert_index i (tb_ins b) ;;; tb_change_input (i + 1) (ro_set_def d) b.
  (** params_builder.rs 652-658 *)
  Definition tb_set_dummy_input_record (i : nat) (b : TransferBuilder) : res TransferBuilder :=
    assert_index i (tb_ins b) ;;; tb_change_input (i + 1) (fun r => ro_set_amount (w128 0) (ro_set_def asset_def_dummy r)) b.
  (** params_builder.rs 660-663 *)
  Definition tb_update_fee_chg_asset_def (d : AssetDefinition) (b : TransferBuilder) : res TransferBuilder :=
    Ok (tb_set_chg b (ro_set_def d (tb_chg b))).
  (** params_builder.rs 665-673 *)
  Definition tb_update_output_asset_def (i : nat) (d : AssetDefinition) (b : TransferBuilder) : res TransferBuilder :=
    let* r := vec_get (tb_outs b) i in
    let* l := vec_set i (ro_set_def d r) (tb_outs b) in
    Ok (tb_set_outs b l).
  (** params_builder.rs 675-678 *)
  Definition tb_update_fee_input_amount (a : Amount) (b : TransferBuilder) : res TransferBuilder :=
    tb_change_input 0 (ro_set_amount a) b.
  (** params_builder.rs 680-684 *)
  Definition tb_update_input_amount (i : nat) (a : Amount) (b : TransferBuilder) : res TransferBuilder :=
    assert_index i (tb_ins b) ;;; tb_change_input (i + 1) (ro_set_amount a) b.

  (** params_builder.rs 726-734 *)
  Definition len_check (b : TransferBuilder) : res unit :=
    if (length (tb_ins b) =? tb_num_in b)%nat && (length (tb_accs b) =? tb_num_in b)%nat &&
       (length (tb_kps b) =? tb_num_in b)%nat && (length (tb_creds b) =? tb_num_in b)%nat then Ok tt else Panic.
  (** the loops of params_builder.rs 739-746, 796-803, 852-859 (the lists have been checked to be of one length) *)
  Definition tb_inputs (b : TransferBuilder) (creds : list (option ExpirableCredential)) : list TransferNoteInput :=
    map (fun x => mkTIn (fst (fst (fst x))) (snd (fst (fst x))) (snd (fst x)) (snd x))
        (combine (combine (combine (tb_ins b) (tb_accs b)) (tb_kps b)) creds).
  (** params_builder.rs 736-751 *)
  Definition tb_build_witness (enc : Fj) (b : TransferBuilder) : res TransferWitness :=
    len_check b ;;;
    unwrap (transfer_new_unchecked enc (tb_inputs b (tb_creds b)) (tb_chg b :: tb_outs b)).
  (** what a call of [build_transfer_note] samples *)
  Record BuildRand := mkBRand { br_note : TransferRand; br_enc : nat -> aead_rand }.
  (** params_builder.rs 782-822: the given expiry and bound data are not used *)
  Definition tb_build_native (r : BuildRand) (pk : TransferProvingKey) (b : TransferBuilder)
    : res (TransferNote * list ReceiverMemo * (Fj * point)) :=
    len_check b ;;;
    let* in0 := vec_get (tb_ins b) 0 in
    let* fee := amount_sub (amount in0) (amount (tb_chg b)) in
    let* nkc := transfer_generate_native (br_note r) (tb_inputs b (repeat None (tb_num_in b))) (tb_outs b) fee
                  (w64 (2 ^ Z.of_nat MAX_TIMESTAMP_LEN - 1)) pk in
    let* memos := payment_memos (br_enc r) 0 (tb_outs b) in
    let* sig := sign_receiver_memos (snd (fst nkc)) memos in
    Ok (fst (fst nkc), memos, sig).
  (** params_builder.rs 825-878 *)
  Definition tb_build_non_native (r : BuildRand) (pk : TransferProvingKey) (vu : u64) (extra : bytes) (b : TransferBuilder)
    : res (TransferNote * list ReceiverMemo * (Fj * point)) :=
    len_check b ;;;
    let* in0 := vec_get (tb_ins b) 0 in
    let* acc0 := vec_get (tb_accs b) 0 in
    let* kp0 := vec_get (tb_kps b) 0 in
    let* fee := amount_sub (amount in0) (amount (tb_chg b)) in
    let info := mkFeeInfo (mkFeeInput in0 acc0 kp0) fee (tb_chg b) in
    let* nk := transfer_generate_non_native (br_note r) (skipn 1 (tb_inputs b (tb_creds b))) (tb_outs b) info vu pk extra in
    let* memos := payment_memos (br_enc r) 0 (tb_outs b) in
    let* sig := sign_receiver_memos (snd nk) memos in
    Ok (fst nk, memos, sig).
  (** params_builder.rs 755-779 *)
  Definition tb_build_note (r : BuildRand) (pk : TransferProvingKey) (vu : u64) (extra : bytes) (b : TransferBuilder)
    : res (TransferNote * list ReceiverMemo * (Fj * point)) :=
    match tb_asset b with None => tb_build_native r pk b | Some _ => tb_build_non_native r pk vu extra b end.

  (** what [rand] samples: numbers for the amounts, whether the asset is native, and what the builder's generator yields *)
  Record TransferSample := mkTS {
    ts_expiry : u64; ts_fee : Amount; ts_chg : Amount; ts_factor : Amount; ts_native : bool;
    ts_viewer : ViewerKeyPair; ts_minter : Fj; ts_freezer : FreezerKeyPair; ts_seed : AssetCodeSeed;
    ts_bl_in : nat -> F; ts_bl_out : nat -> F; ts_kps_out : nat -> UserKeyPair; ts_attrs : nat -> nat -> F }.
  (** params_builder.rs 688-724; [gen_range] on an empty range and division by zero panic.  The amounts are in range, so
      the multiplication does not overflow for any real number of inputs (not modelled). *)
  Definition tb_rand (s : TransferSample) (start n_in n_out : nat) (depth : option byte) (kps : list UserKeyPair) (vu : u64)
    : res TransferBuilder :=
    if 2000 <=? zv vu + 1 then Panic else
    if (n_in <=? 1)%nat || (n_out <=? 1)%nat then Panic else
    let total := zv (ts_factor s) * (Z.of_nat n_in - 1) * (Z.of_nat n_out - 1) in
    let* b := (if ts_native s then tb_new_native start n_in n_out depth kps
               else tb_new_non_native (ts_viewer s) (ts_minter s) (ts_freezer s) (ts_seed s) start n_in n_out depth kps) in
    let* b := tb_set_input_amounts (ts_bl_in s) (ts_fee s) (repeat (w128 (total / (Z.of_nat n_in - 1))) (n_in - 1)) b in
    let* b := tb_set_output_amounts (ts_kps_out s) (ts_bl_out s) (ts_chg s) (repeat (w128 (total / (Z.of_nat n_out - 1))) (n_out - 1)) b in
    tb_set_input_creds (ts_attrs s) (ts_expiry s) b.

  (** ** Mints *)

  (** params_builder.rs 932-946 *)
  Record MintBuilder := mkMB {
    mb_depth : nat; mb_minter : UserKeyPair; mb_fee_ro : RecordOpening; mb_fee : Amount; mb_mint_ro : RecordOpening;
    mb_seed : AssetCodeSeed; mb_description : bytes; mb_def : AssetDefinition; mb_viewer : ViewerKeyPair; mb_receiver : UserKeyPair;
    mb_acc : AccMemberWitness }.
  Definition mb_set_acc (b : MintBuilder) a :=
    mkMB (mb_depth b) (mb_minter b) (mb_fee_ro b) (mb_fee b) (mb_mint_ro b) (mb_seed b) (mb_description b) (mb_def b)
         (mb_viewer b) (mb_receiver b) a.
  (** params_builder.rs 1018-1024 *)
  Definition mb_update_acc (depth : nat) (leaves : list F) (uid : option u64) (b : MintBuilder) : res MintBuilder :=
    let* a := lookup_from_tree depth leaves (match uid with Some u => u | None => w64 0 end) in Ok (mb_set_acc b a).
  (** params_builder.rs 1009-1016 *)
  Definition mb_refresh (b : MintBuilder) : res MintBuilder :=
    let* a := lookup_from_tree (mb_depth b) [derive_record_commitment (mb_fee_ro b)] (w64 0) in Ok (mb_set_acc b a).
  (** b"arbitrary description" *)
  Definition arbitrary_description : bytes :=
    map b8 [97; 114; 98; 105; 116; 114; 97; 114; 121; 32; 100; 101; 115; 99; 114; 105; 112; 116; 105; 111; 110].
  (** params_builder.rs 951-1007; the sampled values are the two blinding factors and the seed *)
  Definition mb_new (bl_fee : F) (seed : AssetCodeSeed) (bl_mint : F) (depth : nat) (input_amount fee mint_amount : Amount)
      (minter receiver : UserKeyPair) (viewer : ViewerKeyPair) : res MintBuilder :=
    let fee_ro := ro_new bl_fee input_amount asset_def_native (user_pub_key minter) Unfrozen in
    let* d0 := unwrap (asset_def_new (new_domestic seed arbitrary_description) policy_default) in
    let d := mkDef (code d0) (set_viewer_pub_key (viewer_pub_key viewer) (policy d0)) in
    let mint_ro := ro_new bl_mint mint_amount d (user_pub_key receiver) Unfrozen in
    mb_refresh (mkMB depth minter fee_ro fee mint_ro seed arbitrary_description d viewer receiver acc_default).
  (** params_builder.rs 1053-1082 *)
  Definition mb_policy_reveal (a : PolicyRevealAttr) (b : MintBuilder) : res MintBuilder :=
    let* m := map_reveal a (reveal_map (policy (mb_def b))) in
    let d := mkDef (code (mb_def b)) (set_reveal_map_for_test m (policy (mb_def b))) in
    Ok (mkMB (mb_depth b) (mb_minter b) (mb_fee_ro b) (mb_fee b) (ro_set_def d (mb_mint_ro b)) (mb_seed b) (mb_description b) d
             (mb_viewer b) (mb_receiver b) (mb_acc b)).
  (** params_builder.rs 1098-1125; [bl] is the blinding factor of the change *)
  Definition mb_build_note (bl : F) (r : MintRand) (pk : MintProvingKey) (b : MintBuilder) : res (MintNote * Fj * RecordOpening) :=
    let* fi := txn_fee_info_new bl (mkFeeInput (mb_fee_ro b) (mb_acc b) (mb_minter b)) (mb_fee b) in
    let* nk := mint_generate r (mb_mint_ro b) (mb_seed b) (mb_description b) (fst fi) pk in
    Ok (fst nk, snd nk, snd fi).

  (** ** Freezes *)

  (** params_builder.rs 1154-1161 *)
  Record FreezeBuilder := mkFB { fb_depth : nat; fb_inputs : list FreezeNoteInput; fb_fee_in : FeeInput; fb_fee : Amount }.
  (** params_builder.rs 1219-1225 *)
  Definition fb_input_ros (b : FreezeBuilder) : list RecordOpening := map zi_ro (fb_inputs b).
  Definition fb_fee_ro (b : FreezeBuilder) : RecordOpening := fi_ro (fb_fee_in b).
  Definition zi_set_acc (a : AccMemberWitness) (i : FreezeNoteInput) := mkFIn (zi_ro i) a (zi_kp i).
  Definition zi_set_ro (r : RecordOpening) (i : FreezeNoteInput) := mkFIn r (zi_acc i) (zi_kp i).
  (** the loop of params_builder.rs 1297-1302 *)
  Fixpoint put_freeze_accs (depth : nat) (leaves : list F) (idx : nat) (uids : list u64) (l : list FreezeNoteInput)
    : res (list FreezeNoteInput) :=
    match uids with
    | [] => Ok l
    | uid :: us => let* i := vec_get l idx in
                   let* a := lookup_from_tree depth leaves uid in
                   let* l1 := vec_set idx (zi_set_acc a i) l in
                   put_freeze_accs depth leaves (idx + 1) us l1
    end.
  (** params_builder.rs 1272-1307 *)
  Definition fb_update_accs (depth : nat) (leaves : list F) (uids : option (list u64)) (fee_uid : option u64) (b : FreezeBuilder)
    : res FreezeBuilder :=
    let* l := match uids with
              | Some l => if (length l =? length (fb_inputs b))%nat then Ok l else Panic
              | None => Ok (uids_from 0 (length (fb_inputs b)))
              end in
    let fu := match fee_uid with Some u => u | None => w64 (Z.of_nat (length (fb_inputs b))) end in
    let* ins := put_freeze_accs depth leaves 0 l (fb_inputs b) in
    let* a := lookup_from_tree depth leaves fu in
    Ok (mkFB (fb_depth b) ins (mkFeeInput (fi_ro (fb_fee_in b)) a (fi_kp (fb_fee_in b))) (fb_fee b)).
  (** params_builder.rs 1263-1270 *)
  Definition fb_refresh (b : FreezeBuilder) : res FreezeBuilder :=
    fb_update_accs (fb_depth b) (map derive_record_commitment (fb_input_ros b) ++ [derive_record_commitment (fb_fee_ro b)]) None None b.
  (** what [new] samples for every input: an asset definition, a user and a blinding factor *)
  Record FreezeSample := mkFS { fs_def : nat -> AssetDefinition; fs_user : nat -> UserKeyPair; fs_blind : nat -> F; fs_fee_blind : F }.
  (** the closure of params_builder.rs 1182-1193 *)
  Fixpoint freeze_inputs (s : FreezeSample) (i : nat) (l : list (Amount * FreezerKeyPair)) : list FreezeNoteInput :=
    match l with
    | [] => []
    | (a, k) :: l' =>
        let d := mkDef (code (fs_def s i)) (set_freezer_pub_key (freezer_pub_key k) (policy (fs_def s i))) in
        mkFIn (ro_new (fs_blind s i) a d (user_pub_key (fs_user s i)) Unfrozen) acc_default k :: freeze_inputs s (i + 1) l'
    end.
  (** params_builder.rs 1165-1217 *)
  Definition fb_new (s : FreezeSample) (depth : nat) (amounts : list Amount) (fee_in fee : Amount) (fee_kp : UserKeyPair)
      (kps : list FreezerKeyPair) : res FreezeBuilder :=
    if negb (length amounts =? length kps)%nat then Panic else
    fb_refresh (mkFB depth (freeze_inputs s 0 (combine amounts kps))
                     (mkFeeInput (ro_new (fs_fee_blind s) fee_in asset_def_native (user_pub_key fee_kp) Unfrozen) acc_default fee_kp) fee).
  (** a change of the fee record or of an input, with the tree refreshed *)
  Definition fb_change_fee (f : RecordOpening -> RecordOpening) (b : FreezeBuilder) : res FreezeBuilder :=
    fb_refresh (mkFB (fb_depth b) (fb_inputs b) (mkFeeInput (f (fi_ro (fb_fee_in b))) (fi_acc (fb_fee_in b)) (fi_kp (fb_fee_in b))) (fb_fee b)).
  Definition fb_change_input (i : nat) (f : RecordOpening -> RecordOpening) (b : FreezeBuilder) : res FreezeBuilder :=
    let* x := vec_get (fb_inputs b) i in
    let* l := vec_set i (zi_set_ro (f (zi_ro x)) x) (fb_inputs b) in
    fb_refresh (mkFB (fb_depth b) l (fb_fee_in b) (fb_fee b)).
  (** params_builder.rs 1309-1325 *)
  Definition fb_update_fee_asset_def (d : AssetDefinition) (b : FreezeBuilder) : res FreezeBuilder := fb_change_fee (ro_set_def d) b.
  Definition fb_update_fee_input_amount (a : Amount) (b : FreezeBuilder) : res FreezeBuilder := fb_change_fee (ro_set_amount a) b.
  Definition fb_update_fee_freeze_flag (f : FreezeFlag) (b : FreezeBuilder) : res FreezeBuilder := fb_change_fee (ro_set_flag f) b.
  (** params_builder.rs 1327-1343 *)
  Definition fb_update_input_freeze_flag (i : nat) (f : FreezeFlag) (b : FreezeBuilder) : res FreezeBuilder :=
    assert_index i (fb_inputs b) ;;; fb_change_input i (ro_set_flag f) b.
  Definition fb_update_input_policy (i : nat) (p : AssetPolicy) (b : FreezeBuilder) : res FreezeBuilder :=
    assert_index i (fb_inputs b) ;;; fb_change_input i (ro_set_policy p) b.
  (** params_builder.rs 1370-1387 *)
  Definition fb_build_note (bl : F) (r : FreezeRand) (pk : FreezeProvingKey) (b : FreezeBuilder)
    : res (FreezeNote * Fj * RecordOpening * list RecordOpening) :=
    let* fi := txn_fee_info_new bl (fb_fee_in b) (fb_fee b) in
    let* nko := freeze_generate r (fb_inputs b) (fst fi) pk in
    Ok (fst (fst nko), snd (fst nko), snd fi, snd nko).
  (** params_builder.rs 1229-1261; [flags] are the coins *)
  Definition fb_rand (s : FreezeSample) (flags : nat -> bool) (depth : nat) (amounts : nat -> Amount) (fee_in fee : Amount)
      (fee_kp : UserKeyPair) (kps : list FreezerKeyPair) : res FreezeBuilder :=
    if (length kps =? 0)%nat then Panic else
    let* b := fb_new s depth (map amounts (seq 0 (length kps))) fee_in fee fee_kp kps in
    fold_left (fun acc i => let* b := acc in if flags i then fb_update_input_freeze_flag i Frozen b else Ok b) (seq 0 (length kps)) (Ok b).

  (** ** A list of transactions *)

  (** what [MintParamsBuilder::rand] samples *)
  Record MintSample := mkMSm {
    msm_in : Amount; msm_fee : Amount; msm_amount : Amount; msm_fee_blind : F; msm_seed : AssetCodeSeed; msm_blind : F }.
  (** params_builder.rs 1128-1152 *)
  Definition mb_rand (s : MintSample) (depth : nat) (minter receiver : UserKeyPair) (viewer : ViewerKeyPair) : res MintBuilder :=
    mb_new (msm_fee_blind s) (msm_seed s) (msm_blind s) depth (msm_in s) (msm_fee s) (msm_amount s) minter receiver viewer.

  (** params_builder.rs 49-60 *)
  Record TxnsParams := mkTP { tp_txns : list TransactionNote; tp_vks : list TransactionVerifyingKey; tp_until : u64; tp_tree_root : F }.
  (** What is sampled for one transaction.  The code gives every job the same fixed generator. *)
  Record TransferJob := mkTJ { tj_sample : TransferSample; tj_rand : BuildRand; tj_extra : bytes }.
  Record MintJob := mkMJ { mj_sample : MintSample; mj_minter : UserKeyPair; mj_receiver : UserKeyPair; mj_viewer : ViewerKeyPair; mj_chg : F; mj_rand : MintRand }.
  Record FreezeJob := mkFJ {
    fj_sample : FreezeSample; fj_flags : nat -> bool; fj_amounts : nat -> Amount; fj_fee_in : Amount; fj_fee : Amount; fj_fee_kp : UserKeyPair;
    fj_kps : list FreezerKeyPair; fj_chg : F; fj_rand : FreezeRand }.
  (** the loops of params_builder.rs 171-193; [off] is the running offset, whose overflow is not modelled *)
  Fixpoint offset_transfers (depth : nat) (leaves : list F) (off : nat) (bs : list TransferBuilder) : res (list TransferBuilder * nat) :=
    match bs with
    | [] => Ok ([], off)
    | b :: l => let* b1 := tb_update_accs depth leaves (Some (uids_from off (length (tb_ins b)))) b in
                let* r := offset_transfers depth leaves (off + length (tb_ins b)) l in
                Ok (b1 :: fst r, snd r)
    end.
  Fixpoint offset_mints (depth : nat) (leaves : list F) (off : nat) (bs : list MintBuilder) : res (list MintBuilder * nat) :=
    match bs with
    | [] => Ok ([], off)
    | b :: l => let* b1 := mb_update_acc depth leaves (Some (w64 (Z.of_nat off))) b in
                let* r := offset_mints depth leaves (off + 1) l in
                Ok (b1 :: fst r, snd r)
    end.
  Fixpoint offset_freezes (depth : nat) (leaves : list F) (off : nat) (bs : list FreezeBuilder) : res (list FreezeBuilder * nat) :=
    match bs with
    | [] => Ok ([], off)
    | b :: l => let n := length (fb_inputs b) in
                let* b1 := fb_update_accs depth leaves (Some (uids_from off n)) (Some (w64 (Z.of_nat (off + n)))) b in
                let* r := offset_freezes depth leaves (off + n + 1) l in
                Ok (b1 :: fst r, snd r)
    end.
  Definition builder_leaves (ts : list TransferBuilder) (ms : list MintBuilder) (fs : list FreezeBuilder) : list F :=
    flat_map (fun b => map derive_record_commitment (tb_ins b)) ts ++
    map (fun b => derive_record_commitment (mb_fee_ro b)) ms ++
    flat_map (fun b => map derive_record_commitment (fb_input_ros b) ++ [derive_record_commitment (fb_fee_ro b)]) fs.
  (** params_builder.rs 93-193: the builders with their witnesses, and the tree *)
  Record Builders := mkBs { bs_transfers : list TransferBuilder; bs_mints : list MintBuilder; bs_freezes : list FreezeBuilder; bs_leaves : list F }.
  Definition generate_builders (start : nat) (depth : byte) (kps : list UserKeyPair)
      (tj : list TransferJob) (mj : list MintJob) (fj : list FreezeJob) : res Builders :=
    let d := Z.to_nat (zv depth) in
    let* ts := mapM (fun j => tb_rand (tj_sample j) start 2 3 (Some depth) kps (w64 1000)) tj in
    let* ms := mapM (fun j => mb_rand (mj_sample j) d (mj_minter j) (mj_receiver j) (mj_viewer j)) mj in
    let* fs := mapM (fun j => fb_rand (fj_sample j) (fj_flags j) d (fj_amounts j) (fj_fee_in j) (fj_fee j) (fj_fee_kp j) (fj_kps j)) fj in
    let leaves := builder_leaves ts ms fs in
    let* ts1 := offset_transfers d leaves 0 ts in
    let* ms1 := offset_mints d leaves (snd ts1) ms in
    let* fs1 := offset_freezes d leaves (snd ms1) fs in
    Ok (mkBs (fst ts1) (fst ms1) (fst fs1) leaves).
  (** params_builder.rs 64-241.  The parameters [g] are those of [universal_setup_for_staging] (external), [fk] is the
      freezer key that preprocessing samples for its dummy circuit.  Threads run the jobs in any order and share nothing. *)
  Definition generate_txns (g : srs) (fk : FreezerKeyPair) (start : nat) (depth : byte) (kps : list UserKeyPair)
      (tj : list TransferJob) (mj : list MintJob) (fj : list FreezeJob) : res TxnsParams :=
    let d := Z.to_nat (zv depth) in
    let until := w64 1000 in
    let* tk := unwrap (transfer_preprocess g 2 3 d) in
    let* mk := unwrap (mint_preprocess g d) in
    let* zk := unwrap (freeze_preprocess g fk 3 d) in
    let* bs := generate_builders start depth kps tj mj fj in
    let* tn := mapM (fun x => let* n := unwrap (tb_build_note (tj_rand (snd x)) (fst tk) until (tj_extra (snd x)) (fst x)) in
                              Ok (TxTransfer (fst (fst n)))) (combine (bs_transfers bs) tj) in
    let* mn := mapM (fun x => let* n := unwrap (mb_build_note (mj_chg (snd x)) (mj_rand (snd x)) (fst mk) (fst x)) in
                              Ok (TxMint (fst (fst n)))) (combine (bs_mints bs) mj) in
    let* fn := mapM (fun x => let* n := unwrap (fb_build_note (fj_chg (snd x)) (fj_rand (snd x)) (fst zk) (fst x)) in
                              Ok (TxFreeze (fst (fst (fst n))))) (combine (bs_freezes bs) fj) in
    Ok (mkTP (tn ++ mn ++ fn) [VkTransfer (snd tk); VkMint (snd mk); VkFreeze (snd zk)] until (tree_root d (bs_leaves bs))).
  (** params_builder.rs 243-253 *)
  Definition get_verifying_keys (p : TxnsParams) : res (list TransactionVerifyingKey) :=
    mapM (fun t => vec_get (tp_vks p) (match t with TxTransfer _ => 0%nat | TxMint _ => 1%nat | TxFreeze _ => 2%nat end)) (tp_txns p).
  (** params_builder.rs 255-257 *)
  Definition get_merkle_roots (p : TxnsParams) : list F := repeat (tp_tree_root p) (length (tp_txns p)).
End Builder.
