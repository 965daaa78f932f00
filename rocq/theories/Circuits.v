(** Model of src/circuit/{structs,gadgets_helper,gadgets,transfer,mint,freeze}.rs: the three transaction circuits, built
    gadget call by gadget call with the constraint system of Plonk.v. *)
From Verif Require Import Base Config Structs Keys Utils Memo Plonk Witness.

Section CStructs.
  Context {C : CapConfig}.

  (** ** circuit/structs.rs *)

  (** 32-42: ephemeral point and ciphertext variables *)
  Definition MemoVar := (ptv * list var)%type.
  (** 36-42 with the external [create_ciphertext_variable] *)
  Definition memo_var_new (m : ViewableMemo) : M MemoVar :=
    do e <- create_point_variable (pt_xy (vm_ephemeral m));
    do d <- mmap create_variable (vm_data m);
    ret (e, d).
  (** 45-55 *)
  Definition memo_var_set_public (m : MemoVar) : M unit :=
    run set_variable_public (px (fst m));
    run set_variable_public (py (fst m));
    mfor (snd m) set_variable_public.
  (** 72-79: the loop over the ciphertext entries *)
  Fixpoint memo_eq_loop (acc : var) (l : list (var * var)) : M var :=
    match l with
    | [] => ret acc
    | (a, b) :: l' => do flag <- is_equal a b; do acc' <- logic_and acc flag; memo_eq_loop acc' l'
    end.
  (** 59-81 *)
  Definition memo_var_check_equal (m m' : MemoVar) : M var :=
    if negb (length (snd m') =? length (snd m))%nat then mfail CircuitError else
    do e <- is_point_equal (fst m) (fst m');
    memo_eq_loop e (combine (snd m) (snd m')).
  (** 84-95 *)
  Definition memo_var_derive (pk : ptv) (data : list var) (r : var) : M MemoVar := elgamal_encrypt_gadget pk data r.

  (** 196-202 *)
  Record PolicyVar := mkPV { pv_viewer : ptv; pv_cred : ptv; pv_freezer : ptv; pv_map : var; pv_threshold : var }.
  (** 206-224 *)
  Definition policy_var_new (p : AssetPolicy) : M PolicyVar :=
    do m <- create_variable (rm_to_scalar (reveal_map p));
    do v <- create_point_variable (pt_xy (viewer_pk p));
    do c <- create_point_variable (pt_xy (cred_pk p));
    do f <- create_point_variable (pt_xy (freezer_pk p));
    do t <- create_variable (f_of_u128 (reveal_threshold p));
    ret (mkPV v c f m t).
  (** 229-242 *)
  Definition policy_var_set_public (p : PolicyVar) : M unit :=
    run set_variable_public (pv_map p);
    run set_variable_public (px (pv_viewer p));
    run set_variable_public (py (pv_viewer p));
    run set_variable_public (px (pv_cred p));
    run set_variable_public (py (pv_cred p));
    run set_variable_public (px (pv_freezer p));
    run set_variable_public (py (pv_freezer p));
    set_variable_public (pv_threshold p).
  (** 245-256 *)
  Definition enforce_dummy_policy (p : PolicyVar) : M unit :=
    run enforce_point_equal (pv_viewer p) neutral_point_variable;
    run enforce_point_equal (pv_cred p) neutral_point_variable;
    run enforce_point_equal (pv_freezer p) neutral_point_variable;
    run enforce_constant (pv_map p) f0;
    enforce_constant (pv_threshold p) f0.
  (** 311-334 *)
  Definition is_dummy_cred_pk (p : PolicyVar) : M var := is_neutral_point (pv_cred p).
  Definition is_dummy_viewing_pk (p : PolicyVar) : M var := is_neutral_point (pv_viewer p).
  Definition is_dummy_freezer_pk (p : PolicyVar) : M var := is_neutral_point (pv_freezer p).
  (** 259-277 *)
  Definition is_dummy_policy (p : PolicyVar) : M var :=
    do dv <- is_dummy_viewing_pk p;
    do dc <- is_dummy_cred_pk p;
    do df <- is_dummy_freezer_pk p;
    do s <- add (pv_map p) (pv_threshold p);
    do z <- is_zero s;
    logic_and_all [dv; dc; df; z].
  (** 280-291 *)
  Definition enforce_equal_policy (p q : PolicyVar) : M unit :=
    run enforce_equal (pv_map p) (pv_map q);
    run enforce_equal (pv_threshold p) (pv_threshold q);
    run enforce_point_equal (pv_viewer p) (pv_viewer q);
    run enforce_point_equal (pv_cred p) (pv_cred q);
    enforce_point_equal (pv_freezer p) (pv_freezer q).
  (** 295-307 *)
  Definition check_equal_policy (p q : PolicyVar) : M var :=
    do a <- is_equal (pv_map p) (pv_map q);
    do b <- is_point_equal (pv_viewer p) (pv_viewer q);
    do c <- is_point_equal (pv_cred p) (pv_cred q);
    do d <- is_point_equal (pv_freezer p) (pv_freezer q);
    do e <- is_equal (pv_threshold p) (pv_threshold q);
    logic_and_all [a; b; c; d; e].

  (** 108-115 *)
  Record RoVar := mkROV {
    rv_amount : var; rv_code : var; rv_owner : ptv; rv_policy : PolicyVar; rv_flag : var; rv_blind : var }.
  (** 119-140 *)
  Definition ro_var_new (r : RecordOpening) : M RoVar :=
    do a <- create_variable (f_of_u128 (amount r));
    do c <- create_variable (code (asset_def r));
    do o <- create_point_variable (pt_xy (address (pub_key r)));
    do p <- policy_var_new (policy (asset_def r));
    do f <- create_boolean_variable (flag_bool (freeze_flag r));
    do b <- create_variable (blind r);
    ret (mkROV a c o p f b).
  (** 144-182 *)
  Definition compute_record_commitment (r : RoVar) : M var :=
    do rf <- lc [pv_map (rv_policy r); rv_flag r; zero_var; zero_var] [fz 2; f1; f0; f0];
    let p := rv_policy r in
    commit_gadget [rv_amount r; rv_code r; px (rv_owner r); py (rv_owner r); px (pv_viewer p); py (pv_viewer p);
                   px (pv_cred p); py (pv_cred p); px (pv_freezer p); py (pv_freezer p); rf; pv_threshold p]
                  (rv_blind r).
  (** 185-192 *)
  Definition check_asset_code_dummy (r : RoVar) : M var :=
    do d <- add_constant (rv_code r) (fneg dummy_asset_code);
    is_zero d.

  (** 353-359 *)
  Record CredVar := mkCV { cv_attrs : list var; cv_expiry : var; cv_sig : var * ptv; cv_addr : ptv; cv_creator : ptv }.
  (** 363-385 with the external [create_signature_variable] (s, then R) *)
  Definition cred_var_new (c : ExpirableCredential) : M CredVar :=
    do e <- create_variable (f_of_u64 (cr_expiry c));
    do s <- create_variable (fr_to_fq (fst (cr_cred c)));
    do R <- create_point_variable (pt_xy (snd (cr_cred c)));
    do a <- create_point_variable (pt_xy (cr_user_addr c));
    do k <- create_point_variable (pt_xy (cr_creator_pk c));
    do attrs <- mmap create_variable (cr_attrs c);
    ret (mkCV attrs e (s, R) a k).
  (** 397-430 *)
  Definition cred_var_verify (c : CredVar) (valid_until : var) : M var :=
    if negb (length (cv_attrs c) =? ATTRS_LEN)%nat then mfail CircuitError else
    do d <- sub (cv_expiry c) valid_until;
    run enforce_in_range d MAX_TIMESTAMP_LEN;
    check_signature_validity (cv_creator c) ([cv_expiry c; px (cv_addr c); py (cv_addr c)] ++ cv_attrs c) (cv_sig c).

  (** ** circuit/gadgets_helper.rs *)

  (** 44-50 *)
  Definition derive_internal_asset_code (seed aux : var) : M var := eval_prf seed [aux].
  (** 52-59 *)
  Definition derive_user_address (sk : var) : M ptv := fixed_base_scalar_mul sk.
  (** 61-73 *)
  Definition derive_nullifier_key (sk : var) (pk : ptv) : M var :=
    do shared <- variable_base_scalar_mul sk pk;
    do derived <- rescue_sponge_no_padding (px shared) (py shared) zero_var;
    do bit <- is_neutral_point pk;
    conditional_select bit derived sk.
  (** 75-82 *)
  Definition nullify_gadget (key uid com : var) : M var := eval_prf key [uid; com].

  (** ** circuit/gadgets.rs *)

  (** 23-26 *)
  Inductive Spender := SUser | SFreezer.
  (** 79-134 *)
  Definition preserve_balance (native asset fee : var) (ins outs : list var) : M var :=
    match ins, outs with
    | i0 :: irest, o0 :: orest =>
      do tin <- (match irest with [] => ret zero_var | _ => sum irest end);
      do tout <- (match orest with [] => ret zero_var | _ => sum orest end);
      do diff <- sub tin tout;
      do ndiff <- lc [i0; o0; fee; zero_var] [f1; fneg f1; fneg f1; f1];
      do same <- is_equal native asset;
      run mul_add_gate same diff same ndiff zero_var f1 f1;
      run mul_gate same diff diff;
      run mul_gate same ndiff ndiff;
      ret tin
    | _, _ => mfail CircuitError
    end.
  (** 136-171 *)
  Definition prove_spend (r : RoVar) (acc : AccVar) (sk : var) (sp : Spender) : M (var * var) :=
    let (pk1, pk2) := match sp with
                      | SUser => (rv_owner r, pv_freezer (rv_policy r))
                      | SFreezer => (pv_freezer (rv_policy r), rv_owner r)
                      end in
    do pk <- derive_user_address sk;
    run enforce_point_equal pk pk1;
    do com <- compute_record_commitment r;
    do nk <- derive_nullifier_key sk pk2;
    do nl <- nullify_gadget nk (av_uid acc) com;
    do root <- compute_merkle_root (av_uid acc) com (av_path acc);
    ret (nl, root).
  (** 173-188 *)
  Definition hadamard_product (bits vals : list var) : M (list var) :=
    if negb (length bits =? length vals)%nat then mfail CircuitError else
    mmap (fun bv => mul (fst bv) (snd bv)) (combine bits vals).
End CStructs.

(** ** circuit/transfer.rs *)
Section CTransfer.
  Context {C : CapConfig}.

  (** 375-380 *)
  Record InputVar := mkIV { iv_sk : var; iv_ro : RoVar; iv_acc : AccVar; iv_cred : CredVar }.
  (** 384-403 *)
  Definition input_var_new (s : InputSecret) : M InputVar :=
    do sk <- create_variable (fr_to_fq (addr_sk (is_kp s)));
    do ro <- ro_var_new (is_ro s);
    do cr <- cred_var_new (is_cred s);
    do acc <- acc_var_new (is_acc s);
    ret (mkIV sk ro acc cr).
  (** 289-295 *)
  Record TWitnessVar := mkTWV {
    twv_code : var; twv_policy : PolicyVar; twv_inputs : list InputVar; twv_outputs : list RoVar; twv_rand : var }.
  (** 299-325 *)
  Definition transfer_witness_var_new (w : TransferWitness) : M TWitnessVar :=
    do c <- create_variable (code (tw_asset_def w));
    do p <- policy_var_new (policy (tw_asset_def w));
    do ins <- mmap input_var_new (tw_inputs w);
    do outs <- mmap ro_var_new (tw_outputs w);
    do r <- create_variable (fr_to_fq (tw_rand w));
    ret (mkTWV c p ins outs r).
  (** 329-337 *)
  Record TPubVar := mkTPV {
    tpv_root : var; tpv_native : var; tpv_valid_until : var; tpv_fee : var;
    tpv_nullifiers : list var; tpv_commitments : list var; tpv_memo : MemoVar }.
  (** 341-371 *)
  Definition transfer_pub_var_new (p : TransferPublicInput) : M TPubVar :=
    do root <- create_public_variable (tp_root p);
    do native <- create_public_variable (tp_native p);
    do vu <- create_public_variable (f_of_u64 (tp_valid_until p));
    do fee <- create_public_variable (f_of_u128 (tp_fee p));
    do nls <- mmap create_public_variable (tp_nullifiers p);
    do rcs <- mmap create_public_variable (tp_commitments p);
    do memo <- memo_var_new (tp_memo p);
    run memo_var_set_public memo;
    ret (mkTPV root native vu fee nls rcs memo).

  (** 78-124: one iteration of the loop over the inputs; [first] is [i == 0] *)
  Definition transfer_input_step (w : TWitnessVar) (p : TPubVar) (first : bool) (inp : InputVar) (expected_nl : var)
    : M unit :=
    let ro := iv_ro inp in
    run enforce_constant (rv_flag ro) f0;
    do is_dummy <- check_asset_code_dummy ro;
    do is_zero_amount <- is_zero (rv_amount ro);
    do not_dummy <- logic_neg is_dummy;
    run logic_or_gate not_dummy is_zero_amount;
    run (if first then
           run enforce_equal (rv_code ro) (tpv_native p);
           enforce_dummy_policy (rv_policy ro)
         else
           do dummy_policy <- is_dummy_policy (rv_policy ro);
           run logic_or_gate not_dummy dummy_policy;
           do equal_policy <- check_equal_policy (rv_policy ro) (twv_policy w);
           logic_or_gate is_dummy equal_policy);
    do (nl, root) <- prove_spend ro (iv_acc inp) (iv_sk inp) SUser;
    run enforce_equal nl expected_nl;
    do correct_root <- is_equal root (tpv_root p);
    run logic_or_gate is_dummy correct_root;
    do dummy_cred <- is_dummy_cred_pk (rv_policy ro);
    do cred_ok <- cred_var_verify (iv_cred inp) (tpv_valid_until p);
    logic_or_gate dummy_cred cred_ok.
  (** 133-155: one iteration of the loop over the outputs *)
  Definition transfer_output_step (w : TWitnessVar) (p : TPubVar) (first : bool) (ro : RoVar) (expected_rc : var)
    : M unit :=
    run enforce_constant (rv_flag ro) f0;
    run (if first then
           run enforce_equal (rv_code ro) (tpv_native p);
           enforce_dummy_policy (rv_policy ro)
         else
           run enforce_equal (rv_code ro) (twv_code w);
           enforce_equal_policy (rv_policy ro) (twv_policy w));
    do rc <- compute_record_commitment ro;
    run enforce_equal rc expected_rc;
    enforce_in_range (rv_amount ro) AMOUNT_LEN.

  (** [iter().enumerate()] with [i == 0] for the first element *)
  Definition loop_first {A} (f : bool -> A -> M unit) (l : list A) : M unit :=
    match l with
    | [] => ret tt
    | x :: xs => run f true x; mfor xs (f false)
    end.

  (** 209-252: the revealed values of one input *)
  Definition memo_input_message (reveal : list var) (inp : InputVar) : M (list var) :=
    match reveal with
    | b0 :: b1 :: b2 :: b3 :: battrs =>
      let ro := iv_ro inp in
      do is_dummy <- check_asset_code_dummy ro;
      do ax <- conditional_select is_dummy (px (rv_owner ro)) (px neutral_point_variable);
      do ay <- conditional_select is_dummy (py (rv_owner ro)) (py neutral_point_variable);
      let pairs := combine (cv_attrs (iv_cred inp)) battrs in
      let vals := [ax; ay; rv_amount ro; rv_blind ro] ++ map fst pairs in
      do actual <- logic_or is_dummy b0;
      let bits := [actual; actual; b2; b3] ++ map snd pairs in
      hadamard_product bits vals
    | _ => mpanic (* slice out of range: unreachable, [unpack] returns 12 variables *)
    end.
  (** 253-271: the revealed values of one output *)
  Definition memo_output_message (reveal : list var) (ro : RoVar) : M (list var) :=
    match reveal with
    | b0 :: b1 :: b2 :: b3 :: _ =>
      hadamard_product [b0; b1; b2; b3] [px (rv_owner ro); py (rv_owner ro); rv_amount ro; rv_blind ro]
    | _ => mpanic
    end.
  (** 197-285 *)
  Definition transfer_is_correct_viewing_memo (w : TWitnessVar) (p : TPubVar) : M var :=
    do bits <- unpack (pv_map (twv_policy w)) VIEWABLE_DATA_LEN;
    let reveal := rev bits in
    do ins <- mmap (memo_input_message reveal) (skipn 1 (twv_inputs w));
    do outs <- mmap (memo_output_message reveal) (skipn 1 (twv_outputs w));
    let message := twv_code w :: concat ins ++ concat outs in
    do derived <- memo_var_derive (pv_viewer (twv_policy w)) message (twv_rand w);
    memo_var_check_equal (tpv_memo p) derived.

  (** 70-188: the constraints on the allocated variables *)
  Definition transfer_constraints (w : TWitnessVar) (p : TPubVar) : M unit :=
    run loop_first (fun first x => transfer_input_step w p first (fst x) (snd x))
                   (combine (twv_inputs w) (tpv_nullifiers p));
    run loop_first (fun first x => transfer_output_step w p first (fst x) (snd x))
                   (combine (twv_outputs w) (tpv_commitments p));
    do amt <- preserve_balance (tpv_native p) (twv_code w) (tpv_fee p)
                (map (fun i => rv_amount (iv_ro i)) (twv_inputs w)) (map rv_amount (twv_outputs w));
    do diff <- sub (pv_threshold (twv_policy w)) amt;
    do under <- is_in_range diff AMOUNT_LEN;
    do dummy_viewer <- is_dummy_viewing_pk (twv_policy w);
    do no_memo <- logic_or under dummy_viewer;
    do correct <- transfer_is_correct_viewing_memo w p;
    logic_or_gate no_memo correct.
  (** 53-193 *)
  Definition transfer_build (w : TransferWitness) (p : TransferPublicInput) : M (TWitnessVar * TPubVar) :=
    if (length (tw_inputs w) =? 0)%nat then mfail CircuitError else
    if (length (tw_outputs w) =? 0)%nat then mfail CircuitError else
    do wv <- transfer_witness_var_new w;
    do pv <- transfer_pub_var_new p;
    run transfer_constraints wv pv;
    ret (wv, pv).
  (** the circuit of 53-193 started from the empty constraint system *)
  Definition transfer_circuit (w : TransferWitness) (p : TransferPublicInput) : res cs :=
    match transfer_build w p new_circuit with Ok (_, s) => Ok s | Err e => Err e | Panic => Panic end.
  (** 36-49 *)
  Definition transfer_build_for_preprocessing (n_in n_out depth : nat) : res cs :=
    let* w := transfer_witness_dummy n_in n_out depth user_kp_default in
    let* p := transfer_from_witness w (w64 0) in
    map_err (transfer_circuit w p) FailedSnark.
End CTransfer.

(** ** circuit/mint.rs *)
Section CMint.
  Context {C : CapConfig}.

  (** 163-172 *)
  Record MWitnessVar := mkMWV {
    mwv_mint : RoVar; mwv_sk : var; mwv_fee : RoVar; mwv_acc : AccVar; mwv_chg : RoVar;
    mwv_seed : var; mwv_digest : var; mwv_rand : var }.
  (** 176-205 *)
  Definition mint_witness_var_new (w : MintWitness) : M MWitnessVar :=
    do m <- ro_var_new (mw_mint_ro w);
    do sk <- create_variable (fr_to_fq (addr_sk (mw_kp w)));
    do fee <- ro_var_new (mw_fee_ro w);
    do acc <- acc_var_new (mw_acc w);
    do chg <- ro_var_new (mw_chg_ro w);
    do seed <- create_variable (mw_seed w);
    do digest <- create_variable (mw_digest w);
    do r <- create_variable (fr_to_fq (mw_rand w));
    ret (mkMWV m sk fee acc chg seed digest r).
  (** 209-221 *)
  Record MPubVar := mkMPV {
    mpv_root : var; mpv_native : var; mpv_nullifier : var; mpv_fee : var; mpv_mint_rc : var; mpv_chg_rc : var;
    mpv_amount : var; mpv_ac : var; mpv_internal : var; mpv_policy : PolicyVar; mpv_memo : MemoVar }.
  (** 227-258 *)
  Definition mint_pub_var_new (p : MintPublicInput) : M MPubVar :=
    do root <- create_public_variable (mp_root p);
    do native <- create_public_variable (mp_native p);
    do nl <- create_public_variable (mp_nullifier p);
    do fee <- create_public_variable (f_of_u128 (mp_fee p));
    do mrc <- create_public_variable (mp_mint_rc p);
    do crc <- create_public_variable (mp_chg_rc p);
    do amt <- create_public_variable (f_of_u128 (mp_mint_amount p));
    do ac <- create_public_variable (mp_mint_ac p);
    do iac <- create_public_variable (mp_mint_internal_ac p);
    do pol <- policy_var_new (mp_policy p);
    run policy_var_set_public pol;
    do memo <- memo_var_new (mp_memo p);
    run memo_var_set_public memo;
    ret (mkMPV root native nl fee mrc crc amt ac iac pol memo).
  (** 135-159 *)
  Definition mint_is_correct_viewing_memo (w : MWitnessVar) (memo : MemoVar) : M var :=
    let ro := mwv_mint w in
    do derived <- memo_var_derive (pv_viewer (rv_policy ro)) [px (rv_owner ro); py (rv_owner ro); rv_blind ro] (mwv_rand w);
    memo_var_check_equal memo derived.
  (** 55-126 *)
  Definition mint_constraints (w : MWitnessVar) (p : MPubVar) : M unit :=
    do mint_rc <- compute_record_commitment (mwv_mint w);
    run enforce_equal mint_rc (mpv_mint_rc p);
    do chg_rc <- compute_record_commitment (mwv_chg w);
    run enforce_equal chg_rc (mpv_chg_rc p);
    do internal <- derive_internal_asset_code (mwv_seed w) (mwv_digest w);
    run enforce_equal internal (mpv_internal p);
    run add_gate (mpv_fee p) (rv_amount (mwv_chg w)) (rv_amount (mwv_fee w));
    do (nl, root) <- prove_spend (mwv_fee w) (mwv_acc w) (mwv_sk w) SUser;
    run enforce_equal root (mpv_root p);
    run enforce_equal nl (mpv_nullifier p);
    run enforce_constant (rv_flag (mwv_mint w)) f0;
    run enforce_constant (rv_flag (mwv_fee w)) f0;
    run enforce_constant (rv_flag (mwv_chg w)) f0;
    run enforce_in_range (rv_amount (mwv_mint w)) AMOUNT_LEN;
    run enforce_equal (rv_amount (mwv_mint w)) (mpv_amount p);
    run enforce_equal (rv_code (mwv_mint w)) (mpv_ac p);
    run enforce_equal_policy (mpv_policy p) (rv_policy (mwv_mint w));
    run enforce_equal (rv_code (mwv_chg w)) (mpv_native p);
    run enforce_equal (rv_code (mwv_fee w)) (mpv_native p);
    run enforce_dummy_policy (rv_policy (mwv_chg w));
    run enforce_dummy_policy (rv_policy (mwv_fee w));
    run enforce_point_equal (rv_owner (mwv_fee w)) (rv_owner (mwv_chg w));
    do dummy_viewer <- is_dummy_viewing_pk (mpv_policy p);
    do correct <- mint_is_correct_viewing_memo w (mpv_memo p);
    logic_or_gate dummy_viewer correct.
  (** 47-131 *)
  Definition mint_build (w : MintWitness) (p : MintPublicInput) : M (MWitnessVar * MPubVar) :=
    do wv <- mint_witness_var_new w;
    do pv <- mint_pub_var_new p;
    run mint_constraints wv pv;
    ret (wv, pv).
  Definition mint_circuit (w : MintWitness) (p : MintPublicInput) : res cs :=
    match mint_build w p new_circuit with Ok (_, s) => Ok s | Err e => Err e | Panic => Panic end.
  (** 37-43 *)
  Definition mint_build_for_preprocessing (depth : nat) : res cs :=
    let w := mint_witness_dummy depth user_kp_default in
    let* p := mint_from_witness w in
    map_err (mint_circuit w p) FailedSnark.
End CMint.

(** ** circuit/freeze.rs *)
Section CFreeze.
  Context {C : CapConfig}.

  (** 182-188 *)
  Record FWitnessVar := mkFWV {
    fwv_inputs : list RoVar; fwv_accs : list AccVar; fwv_outputs : list RoVar; fwv_fee_sk : var; fwv_keys : list var }.
  (** 192-228 *)
  Definition freeze_witness_var_new (w : FreezeWitness) : M FWitnessVar :=
    do ins <- mmap ro_var_new (fw_inputs w);
    do accs <- mmap acc_var_new (fw_accs w);
    do outs <- mmap ro_var_new (fw_outputs w);
    do sk <- create_variable (fr_to_fq (addr_sk (fw_fee_kp w)));
    do keys <- mmap (fun k : FreezerKeyPair => create_variable (fr_to_fq k)) (fw_keys w);
    ret (mkFWV ins accs outs sk keys).
  (** 232-238 *)
  Record FPubVar := mkFPV {
    fpv_root : var; fpv_native : var; fpv_fee : var; fpv_nullifiers : list var; fpv_commitments : list var }.
  (** 242-266 *)
  Definition freeze_pub_var_new (p : FreezePublicInput) : M FPubVar :=
    do root <- create_public_variable (fp_root p);
    do native <- create_public_variable (fp_native p);
    do fee <- create_public_variable (f_of_u128 (fp_fee p));
    do nls <- mmap create_public_variable (fp_nullifiers p);
    do rcs <- mmap create_public_variable (fp_commitments p);
    ret (mkFPV root native fee nls rcs).

  (** 116-128 *)
  Definition freeze_pair_step (ri ro : RoVar) : M unit :=
    run add_gate (rv_flag ri) (rv_flag ro) one_var;
    run enforce_equal (rv_amount ri) (rv_amount ro);
    run enforce_point_equal (rv_owner ri) (rv_owner ro);
    run enforce_equal (rv_code ri) (rv_code ro);
    enforce_equal_policy (rv_policy ri) (rv_policy ro).
  (** 137-138 *)
  Definition freeze_output_step (ro : RoVar) (expected : var) : M unit :=
    do rc <- compute_record_commitment ro;
    enforce_equal rc expected.
  (** 154-172 *)
  Definition freeze_input_step (p : FPubVar) (ri : RoVar) (acc : AccVar) (sk expected_nl : var) : M unit :=
    do dummy_pk <- is_dummy_freezer_pk (rv_policy ri);
    do not_dummy_pk <- logic_neg dummy_pk;
    do is_dummy <- check_asset_code_dummy ri;
    run logic_or_gate not_dummy_pk is_dummy;
    do (nl, root) <- prove_spend ri acc sk SFreezer;
    do correct_root <- is_equal root (fpv_root p);
    run logic_or_gate correct_root is_dummy;
    enforce_equal nl expected_nl.
  (** 82-173.  Indexing [0] into the lists panics when they are empty. *)
  Definition freeze_constraints (w : FWitnessVar) (p : FPubVar) : M unit :=
    match fwv_inputs w, fwv_outputs w with
    | i0 :: irest, o0 :: orest =>
      run enforce_equal (rv_code i0) (fpv_native p);
      run enforce_dummy_policy (rv_policy i0);
      run enforce_equal (rv_code o0) (fpv_native p);
      run enforce_dummy_policy (rv_policy o0);
      run enforce_constant (rv_flag i0) f0;
      run enforce_constant (rv_flag o0) f0;
      run add_gate (rv_amount o0) (fpv_fee p) (rv_amount i0);
      match fwv_accs w with
      | a0 :: arest =>
        do (nl, root) <- prove_spend i0 a0 (fwv_fee_sk w) SUser;
        run enforce_equal root (fpv_root p);
        match fpv_nullifiers p with
        | n0 :: nrest =>
          run enforce_equal nl n0;
          run mfor (combine irest orest) (fun x => freeze_pair_step (fst x) (snd x));
          run mfor (combine (fwv_outputs w) (fpv_commitments p)) (fun x => freeze_output_step (fst x) (snd x));
          mfor (combine (combine irest arest) (combine (fwv_keys w) nrest))
               (fun x => freeze_input_step p (fst (fst x)) (snd (fst x)) (fst (snd x)) (snd (snd x)))
        | [] => mpanic
        end
      | [] => mpanic
      end
    | _, _ => mpanic
    end.
  (** 74-178 *)
  Definition freeze_build_unchecked (w : FreezeWitness) (p : FreezePublicInput) : M (FWitnessVar * FPubVar) :=
    do wv <- freeze_witness_var_new w;
    do pv <- freeze_pub_var_new p;
    run freeze_constraints wv pv;
    ret (wv, pv).
  Definition freeze_circuit_unchecked (w : FreezeWitness) (p : FreezePublicInput) : res cs :=
    match freeze_build_unchecked w p new_circuit with Ok (_, s) => Ok s | Err e => Err e | Panic => Panic end.
  (** 51-71 *)
  Definition freeze_circuit (w : FreezeWitness) (p : FreezePublicInput) : res cs :=
    if existsb (fun io => flag_eqb (freeze_flag (fst io)) (freeze_flag (snd io)))
               (combine (skipn 1 (fw_inputs w)) (skipn 1 (fw_outputs w)))
    then Err InvalidParameter
    else map_err (freeze_circuit_unchecked w p) FailedSnark.
  (** 35-47; [fk] is the freezer key generated from the fixed seed *)
  Definition freeze_build_for_preprocessing (fk : FreezerKeyPair) (depth num_input : nat) : res cs :=
    let* w := freeze_witness_dummy depth num_input user_kp_default fk in
    let* p := freeze_from_witness w in
    map_err (freeze_circuit_unchecked w p) FailedSnark.
End CFreeze.
