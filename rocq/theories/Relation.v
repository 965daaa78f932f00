(** What the three transaction circuits are meant to establish, stated on values and without any reference to gates or
    variables.  The circuit proofs show that every satisfying assignment satisfies these relations and that the honest
    assignment satisfies the circuit exactly when they hold.

    Values are circuit values: field elements and pairs of coordinates chosen by the prover.  Nothing here says that
    an owner is a point on the curve or that an amount is small unless the relation demands it. *)
From Verif Require Import Base Config Structs Keys Utils Memo Plonk.

Section Relation.
  Context {C : CapConfig}.

  (** ** Values *)
  Record PolV := mkPolV { po_viewer : xy; po_cred : xy; po_freezer : xy; po_map : F; po_threshold : F }.
  Record RoV := mkRoV {
    ro_amount : F; ro_code : F; ro_owner : xy; ro_pol : PolV; ro_flag : F; ro_blind : F }.
  Record CredV := mkCredV {
    cr_v_attrs : list F; cr_v_expiry : F; cr_v_sig : F * xy; cr_v_addr : xy; cr_v_creator : xy }.
  (** place of a record in the record tree: uid and authentication path *)
  Record PlaceV := mkPlaceV { pl_uid : F; pl_path : list MerklePathNode }.
  Record InV := mkInV { in_sk : F; in_ro : RoV; in_place : PlaceV; in_cred : CredV }.
  Definition MemoV := (xy * list F)%type.

  (** ** Derived values *)
  Definition commitment_of (r : RoV) : F :=
    let p := ro_pol r in
    commit [ro_amount r; ro_code r; fst (ro_owner r); snd (ro_owner r);
            fst (po_viewer p); snd (po_viewer p); fst (po_cred p); snd (po_cred p);
            fst (po_freezer p); snd (po_freezer p); fadd (fadd (po_map p) (po_map p)) (ro_flag r); po_threshold p]
           (ro_blind r).
  (** the key under which a record is nullified: the spender's secret alone, or combined with the other party's key *)
  Definition spending_key (sk : F) (other : xy) : F :=
    if xy_eqb other neutral_xy then sk
    else rescue3 (fst (cmul (zv sk) other)) (snd (cmul (zv sk) other)) f0.
  Definition nullifier_of (key uid com : F) : F := prf_eval key [uid; com].
  Definition root_from (pl : PlaceV) (com : F) : F := merkle_root_of (pl_uid pl) com (pl_path pl).
  (** public key of a secret scalar *)
  Definition owns (sk : F) (owner : xy) : Prop :=
    scalar_ok sk = true /\ owner = pt_xy (pt_mul (zv sk) pt_gen).

  Definition no_key : xy := neutral_xy.
  Definition policy_empty (p : PolV) : Prop :=
    po_viewer p = no_key /\ po_cred p = no_key /\ po_freezer p = no_key /\ po_map p = f0 /\ po_threshold p = f0.
  (** what the circuit checks for dummy records: the sum of map and threshold is zero *)
  Definition policy_empty_weak (p : PolV) : Prop :=
    po_viewer p = no_key /\ po_cred p = no_key /\ po_freezer p = no_key /\ fadd (po_map p) (po_threshold p) = f0.
  Definition is_dummy_code (c : F) : Prop := c = dummy_asset_code.

  (** ** Transfer *)
  Record TransferV := mkTransferV {
    tv_code : F; tv_pol : PolV; tv_ins : list InV; tv_outs : list RoV; tv_rand : F }.
  Record TransferPubV := mkTransferPubV {
    tq_root : F; tq_native : F; tq_valid_until : F; tq_fee : F;
    tq_nullifiers : list F; tq_commitments : list F; tq_memo : MemoV }.

  Definition cred_message (c : CredV) : list F :=
    [cr_v_expiry c; fst (cr_v_addr c); snd (cr_v_addr c)] ++ cr_v_attrs c.
  (** the signature equation of a credential, under the key named in the credential *)
  Definition cred_signed (c : CredV) : Prop := csig_ok (cr_v_creator c) (cred_message c) (cr_v_sig c) = true.

  Record input_ok (t : TransferV) (p : TransferPubV) (first : bool) (i : InV) (nl : F) : Prop := {
    io_unfrozen : ro_flag (in_ro i) = f0;
    io_dummy_amount : is_dummy_code (ro_code (in_ro i)) -> ro_amount (in_ro i) = f0;
    io_policy : if first then ro_code (in_ro i) = tq_native p /\ policy_empty (ro_pol (in_ro i))
                else (is_dummy_code (ro_code (in_ro i)) -> policy_empty_weak (ro_pol (in_ro i))) /\
                     (~ is_dummy_code (ro_code (in_ro i)) -> ro_pol (in_ro i) = tv_pol t);
    io_owner : owns (in_sk i) (ro_owner (in_ro i));
    io_nullifier : nl = nullifier_of (spending_key (in_sk i) (po_freezer (ro_pol (in_ro i))))
                                     (pl_uid (in_place i)) (commitment_of (in_ro i));
    io_member : ~ is_dummy_code (ro_code (in_ro i)) -> root_from (in_place i) (commitment_of (in_ro i)) = tq_root p;
    io_cred_len : length (cr_v_attrs (in_cred i)) = ATTRS_LEN;
    io_cred_time : in_range MAX_TIMESTAMP_LEN (fsub (cr_v_expiry (in_cred i)) (tq_valid_until p)) = true;
    io_cred_scalar : scalar_ok (fst (cr_v_sig (in_cred i))) = true;
    io_cred : po_cred (ro_pol (in_ro i)) <> no_key -> cred_signed (in_cred i)
  }.
  Record output_ok (t : TransferV) (p : TransferPubV) (first : bool) (o : RoV) (rc : F) : Prop := {
    oo_unfrozen : ro_flag o = f0;
    oo_asset : if first then ro_code o = tq_native p /\ policy_empty (ro_pol o)
               else ro_code o = tv_code t /\ ro_pol o = tv_pol t;
    oo_commitment : rc = commitment_of o;
    oo_range : in_range AMOUNT_LEN (ro_amount o) = true
  }.

  (** sum of the amounts after the first *)
  Definition tail_sum (l : list F) : F := fsum (tl l).
  Definition transfer_in (t : TransferV) : F := tail_sum (map (fun i => ro_amount (in_ro i)) (tv_ins t)).
  Definition transfer_out (t : TransferV) : F := tail_sum (map ro_amount (tv_outs t)).
  Definition fee_in (t : TransferV) : F := hd f0 (map (fun i => ro_amount (in_ro i)) (tv_ins t)).
  Definition fee_change (t : TransferV) : F := hd f0 (map ro_amount (tv_outs t)).
  Definition balanced (t : TransferV) (p : TransferPubV) : Prop :=
    if zeqb (tq_native p) (tv_code t)
    then fadd (transfer_in t) (fee_in t) = fadd (transfer_out t) (fadd (fee_change t) (tq_fee p))
    else transfer_in t = transfer_out t /\ fee_in t = fadd (fee_change t) (tq_fee p).

  (** ** The viewing memo of a transfer *)
  (** flag [i] of the reveal map, flag 0 being the most significant of 12 bits *)
  Definition reveal_bit (m : F) (i : nat) : bool := Z.testbit (zv m) (Z.of_nat (VIEWABLE_DATA_LEN - 1 - i)).
  Definition shown (b : bool) (x : F) : F := if b then x else f0.
  Definition memo_of_input (m : F) (i : InV) : list F :=
    let r := in_ro i in
    (if zeqb (ro_code r) dummy_asset_code then [fst no_key; snd no_key]
     else [shown (reveal_bit m 0) (fst (ro_owner r)); shown (reveal_bit m 0) (snd (ro_owner r))])
    ++ [shown (reveal_bit m 2) (ro_amount r); shown (reveal_bit m 3) (ro_blind r)]
    ++ map (fun ka => shown (reveal_bit m (4 + fst ka)) (snd ka))
           (combine (seq 0 ATTRS_LEN) (cr_v_attrs (in_cred i))).
  Definition memo_of_output (m : F) (r : RoV) : list F :=
    [shown (reveal_bit m 0) (fst (ro_owner r)); shown (reveal_bit m 1) (snd (ro_owner r));
     shown (reveal_bit m 2) (ro_amount r); shown (reveal_bit m 3) (ro_blind r)].
  Definition transfer_message (t : TransferV) : list F :=
    tv_code t :: concat (map (memo_of_input (po_map (tv_pol t))) (tl (tv_ins t)))
              ++ concat (map (memo_of_output (po_map (tv_pol t))) (tl (tv_outs t))).
  Definition transfer_memo_ok (t : TransferV) (memo : MemoV) : Prop :=
    memo = celgamal_encrypt (po_viewer (tv_pol t)) (tv_rand t) (transfer_message t).
  Definition under_limit (t : TransferV) : Prop :=
    in_range AMOUNT_LEN (fsub (po_threshold (tv_pol t)) (transfer_in t)) = true.

  (** [Forall2] with a flag that is true for the first pair only *)
  Definition Forall2_first {A B} (P : bool -> A -> B -> Prop) (l : list A) (k : list B) : Prop :=
    match l, k with
    | [], [] => True
    | x :: xs, y :: ys => P true x y /\ Forall2 (P false) xs ys
    | _, _ => False
    end.

  Record transfer_relation (p : TransferPubV) (t : TransferV) : Prop := {
    tr_inputs : Forall2_first (input_ok t p) (tv_ins t) (tq_nullifiers p);
    tr_outputs : Forall2_first (output_ok t p) (tv_outs t) (tq_commitments p);
    tr_balanced : balanced t p;
    tr_map : in_range VIEWABLE_DATA_LEN (po_map (tv_pol t)) = true;
    tr_rand : scalar_ok (tv_rand t) = true;
    tr_viewing : under_limit t \/ po_viewer (tv_pol t) = no_key \/ transfer_memo_ok t (tq_memo p)
  }.

  (** ** Mint *)
  Record MintV := mkMintV {
    mv_mint : RoV; mv_sk : F; mv_fee_ro : RoV; mv_place : PlaceV; mv_chg : RoV; mv_seed : F; mv_digest : F; mv_rand : F }.
  Record MintPubV := mkMintPubV {
    mq_root : F; mq_native : F; mq_nullifier : F; mq_fee : F; mq_mint_rc : F; mq_chg_rc : F;
    mq_amount : F; mq_code : F; mq_internal : F; mq_pol : PolV; mq_memo : MemoV }.
  Definition mint_message (w : MintV) : list F := [fst (ro_owner (mv_mint w)); snd (ro_owner (mv_mint w)); ro_blind (mv_mint w)].

  Record mint_relation (p : MintPubV) (w : MintV) : Prop := {
    mr_mint_rc : mq_mint_rc p = commitment_of (mv_mint w);
    mr_chg_rc : mq_chg_rc p = commitment_of (mv_chg w);
    mr_internal : mq_internal p = prf_eval (mv_seed w) [mv_digest w];
    mr_balance : fadd (mq_fee p) (ro_amount (mv_chg w)) = ro_amount (mv_fee_ro w);
    mr_owner : owns (mv_sk w) (ro_owner (mv_fee_ro w));
    mr_member : root_from (mv_place w) (commitment_of (mv_fee_ro w)) = mq_root p;
    mr_nullifier : mq_nullifier p = nullifier_of (spending_key (mv_sk w) (po_freezer (ro_pol (mv_fee_ro w))))
                                                 (pl_uid (mv_place w)) (commitment_of (mv_fee_ro w));
    mr_unfrozen : ro_flag (mv_mint w) = f0 /\ ro_flag (mv_fee_ro w) = f0 /\ ro_flag (mv_chg w) = f0;
    mr_range : in_range AMOUNT_LEN (ro_amount (mv_mint w)) = true;
    mr_amount : ro_amount (mv_mint w) = mq_amount p;
    mr_code : ro_code (mv_mint w) = mq_code p;
    mr_policy : ro_pol (mv_mint w) = mq_pol p;
    mr_native : ro_code (mv_chg w) = mq_native p /\ ro_code (mv_fee_ro w) = mq_native p;
    mr_empty : policy_empty (ro_pol (mv_chg w)) /\ policy_empty (ro_pol (mv_fee_ro w));
    mr_same_owner : ro_owner (mv_fee_ro w) = ro_owner (mv_chg w);
    mr_rand : scalar_ok (mv_rand w) = true;
    mr_viewing : po_viewer (mq_pol p) = no_key \/
                 mq_memo p = celgamal_encrypt (po_viewer (ro_pol (mv_mint w))) (mv_rand w) (mint_message w)
  }.

  (** ** Freeze *)
  (** one frozen or released record: input, place, freezer's secret, output *)
  Record PairV := mkPairV { fz_in : RoV; fz_place : PlaceV; fz_sk : F; fz_out : RoV }.
  Record FreezeV := mkFreezeV {
    fv_fee_ro : RoV; fv_place : PlaceV; fv_sk : F; fv_chg : RoV; fv_pairs : list PairV }.
  Record FreezePubV := mkFreezePubV {
    fq_root : F; fq_native : F; fq_fee : F; fq_nullifiers : list F; fq_commitments : list F }.

  Record pair_ok (p : FreezePubV) (x : PairV) (nl rc : F) : Prop := {
    po_flip : fadd (ro_flag (fz_in x)) (ro_flag (fz_out x)) = f1;
    po_flags : is_bool (ro_flag (fz_in x)) = true /\ is_bool (ro_flag (fz_out x)) = true;
    po_same : ro_amount (fz_in x) = ro_amount (fz_out x) /\ ro_owner (fz_in x) = ro_owner (fz_out x) /\
              ro_code (fz_in x) = ro_code (fz_out x) /\ ro_pol (fz_in x) = ro_pol (fz_out x);
    po_rc : rc = commitment_of (fz_out x);
    po_freezable : po_freezer (ro_pol (fz_in x)) = no_key -> is_dummy_code (ro_code (fz_in x));
    po_owner : owns (fz_sk x) (po_freezer (ro_pol (fz_in x)));
    po_member : ~ is_dummy_code (ro_code (fz_in x)) -> root_from (fz_place x) (commitment_of (fz_in x)) = fq_root p;
    po_nullifier : nl = nullifier_of (spending_key (fz_sk x) (ro_owner (fz_in x)))
                                     (pl_uid (fz_place x)) (commitment_of (fz_in x))
  }.
  Inductive Forall3 {A B D} (P : A -> B -> D -> Prop) : list A -> list B -> list D -> Prop :=
  | Forall3_nil : Forall3 P [] [] []
  | Forall3_cons a b d l k m : P a b d -> Forall3 P l k m -> Forall3 P (a :: l) (b :: k) (d :: m).

  Record freeze_relation (p : FreezePubV) (w : FreezeV) : Prop := {
    fr_native : ro_code (fv_fee_ro w) = fq_native p /\ ro_code (fv_chg w) = fq_native p;
    fr_empty : policy_empty (ro_pol (fv_fee_ro w)) /\ policy_empty (ro_pol (fv_chg w));
    fr_unfrozen : ro_flag (fv_fee_ro w) = f0 /\ ro_flag (fv_chg w) = f0;
    fr_balance : fadd (ro_amount (fv_chg w)) (fq_fee p) = ro_amount (fv_fee_ro w);
    fr_owner : owns (fv_sk w) (ro_owner (fv_fee_ro w));
    fr_member : root_from (fv_place w) (commitment_of (fv_fee_ro w)) = fq_root p;
    fr_fee_nullifier : Some (nullifier_of (spending_key (fv_sk w) (po_freezer (ro_pol (fv_fee_ro w))))
                                          (pl_uid (fv_place w)) (commitment_of (fv_fee_ro w))) = hd_error (fq_nullifiers p);
    fr_chg_rc : Some (commitment_of (fv_chg w)) = hd_error (fq_commitments p);
    fr_pairs : Forall3 (pair_ok p) (fv_pairs w) (tl (fq_nullifiers p)) (tl (fq_commitments p))
  }.
End Relation.
