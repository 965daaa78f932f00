(** Model of src/bench_utils/mod.rs and of the programs in benches/: what they build and verify, and the table of results. *)
From Verif Require Import Base Config Structs Keys Utils Memo Plonk Witness Circuits Snark Notes Serde Ledger Wallet Builder.
From Coq Require Import String Ascii DecimalString.

Section Bench.
  Context {C : CapConfig} {S : Snark C} {K : @RoCodec C} {E : MemoSer C}.

  (** bench_utils/mod.rs 133-140; the sampled keys are an argument *)
  Definition get_key_pairs (sample : nat -> UserKeyPair) (n : nat) : list UserKeyPair := map sample (seq 0 n).

  (** bench_utils/mod.rs 274-292.  [num_inputs - 1] below zero panics: at the subtraction if overflow is checked, else when
      the vector of that size is made. *)
  Definition get_builder_freeze (s : FreezeSample) (fee_kp : UserKeyPair) (kps : list FreezerKeyPair) (num_inputs depth : nat) : res FreezeBuilder :=
    if (num_inputs =? 0)%nat then Panic else
    fb_new s depth (repeat (w128 15) (num_inputs - 1)) (w128 10) (w128 5) fee_kp kps.
  (** bench_utils/mod.rs 294-315 *)
  Definition get_builder_mint (bl_fee : F) (seed : AssetCodeSeed) (bl_mint : F) (minter receiver : UserKeyPair) (viewer : ViewerKeyPair) (depth : nat)
    : res MintBuilder :=
    mb_new bl_fee seed bl_mint depth (w128 10) (w128 4) (w128 35) minter receiver viewer.

  (** what the transfer builder of bench_utils/mod.rs 317-341 samples *)
  Record BenchSample := mkBS {
    be_viewer : ViewerKeyPair; be_minter : Fj; be_freezer : FreezerKeyPair; be_seed : AssetCodeSeed;
    be_bl_in : nat -> F; be_bl_out : nat -> F; be_kps_out : nat -> UserKeyPair; be_attrs : nat -> nat -> F }.
  (** bench_utils/mod.rs 317-341 *)
  Definition get_builder_transfer (s : BenchSample) (start : nat) (kps : list UserKeyPair) (num_inputs num_outputs : nat) (depth : byte)
    : res TransferBuilder :=
    if (num_inputs =? 0)%nat || (num_outputs <? 2)%nat then Panic else
    let amount_inputs := repeat (w128 1) (num_inputs - 1) in
    let amount_outputs := w128 (Z.of_nat (num_inputs - 1)) :: repeat (w128 0) (num_outputs - 2) in
    let* b := tb_new_non_native (be_viewer s) (be_minter s) (be_freezer s) (be_seed s) start num_inputs num_outputs (Some depth) kps in
    let* b := tb_set_input_amounts (be_bl_in s) (w128 30) amount_inputs b in
    let* b := tb_set_output_amounts (be_kps_out s) (be_bl_out s) (w128 29) amount_outputs b in
    tb_set_input_creds (be_attrs s) (w64 9999) b.

  (** [assert!(r.is_ok())] *)
  Definition assert_ok (r : res unit) : res unit := match r with Ok _ => Ok tt | _ => Panic end.

  (** benches/transfer.rs 24-136, one size: keys, builder, note, verification at the note's own root one tick before it expires *)
  Definition bench_transfer (g : srs) (user : nat -> UserKeyPair) (s : BenchSample) (r : BuildRand) (start num_inputs num_outputs : nat) (depth : byte) : res unit :=
    let* keys := unwrap (transfer_preprocess g num_inputs num_outputs (Z.to_nat (zv depth))) in
    let* b := get_builder_transfer s start (get_key_pairs user num_inputs) num_inputs num_outputs depth in
    let* nt := unwrap (tb_build_note r (fst keys) (w64 1234) [] b) in
    let n := fst (fst nt) in
    assert_ok (transfer_verify n (snd keys) (ta_root (tn_aux n)) (w64 1233)).
  (** benches/mint.rs 24-125 *)
  Definition bench_mint (g : srs) (bl_fee : F) (seed : AssetCodeSeed) (bl_mint : F) (minter receiver : UserKeyPair) (viewer : ViewerKeyPair)
      (bl : F) (r : MintRand) (depth : nat) : res unit :=
    let* keys := unwrap (mint_preprocess g depth) in
    let* b := get_builder_mint bl_fee seed bl_mint minter receiver viewer depth in
    let* nt := unwrap (mb_build_note bl r (fst keys) b) in
    let n := fst (fst nt) in
    assert_ok (mint_verify n (snd keys) (ma_root (mn_aux n))).
  (** benches/freeze.rs 24-121, one size *)
  Definition bench_freeze (g : srs) (fk : FreezerKeyPair) (s : FreezeSample) (fee_kp : UserKeyPair) (freezer : FreezerKeyPair)
      (bl : F) (r : FreezeRand) (num_inputs depth : nat) : res unit :=
    let* keys := unwrap (freeze_preprocess g fk num_inputs depth) in
    let* b := get_builder_freeze s fee_kp (repeat freezer (num_inputs - 1)) num_inputs depth in
    let* nt := unwrap (fb_build_note bl r (fst keys) b) in
    let n := fst (fst (fst nt)) in
    assert_ok (freeze_verify n (snd keys) (fa_root (fn_aux n))).
  (** benches/batch_verification.rs 24-200, one size: [num_notes] copies of a note of each kind, at the time the transfer expires *)
  Definition bench_batch (g : srs) (user : nat -> UserKeyPair) (s : BenchSample) (r : BuildRand) (start : nat)
      (bl_fee : F) (seed : AssetCodeSeed) (bl_mint : F) (minter receiver : UserKeyPair) (viewer : ViewerKeyPair) (bl_m : F) (rm : MintRand)
      (fk : FreezerKeyPair) (fs : FreezeSample) (fee_kp : UserKeyPair) (freezer : FreezerKeyPair) (bl_f : F) (rf : FreezeRand)
      (num_notes num_inputs num_outputs : nat) (depth : byte) : res unit :=
    let d := Z.to_nat (zv depth) in
    let* kt := unwrap (transfer_preprocess g num_inputs num_outputs d) in
    let* km := unwrap (mint_preprocess g d) in
    let* kf := unwrap (freeze_preprocess g fk num_inputs d) in
    let* bt := get_builder_transfer s start (get_key_pairs user num_inputs) num_inputs num_outputs depth in
    let* nt := unwrap (tb_build_note r (fst kt) (w64 1234) [] bt) in
    let* bm := get_builder_mint bl_fee seed bl_mint minter receiver viewer d in
    let* nm := unwrap (mb_build_note bl_m rm (fst km) bm) in
    let* bf := get_builder_freeze fs fee_kp (repeat freezer (num_inputs - 1)) num_inputs d in
    let* nf := unwrap (fb_build_note bl_f rf (fst kf) bf) in
    let nt := fst (fst nt) in let nm := fst (fst nm) in let nf := fst (fst (fst nf)) in
    let notes := repeat (TxTransfer nt) num_notes ++ repeat (TxMint nm) num_notes ++ repeat (TxFreeze nf) num_notes in
    let keys := repeat (VkTransfer (snd kt)) num_notes ++ repeat (VkMint (snd km)) num_notes ++ repeat (VkFreeze (snd kf)) num_notes in
    let roots := repeat (ta_root (tn_aux nt)) num_notes ++ repeat (ma_root (mn_aux nm)) num_notes ++ repeat (fa_root (fn_aux nf)) num_notes in
    assert_ok (txn_batch_verify notes roots (w64 1234) keys).
End Bench.

(** The table of results.  Text is a Coq [string]; what comes from outside (the environment, the files that criterion writes, printing and parsing
    floating-point numbers) is an argument. *)
Definition dash : ascii := "-"%char.
(** [usize::to_string] *)
Definition dec (n : N) : string := NilEmpty.string_of_uint (N.to_uint n).
(** [format!("{}-{}-...")] *)
Fixpoint join (l : list string) : string :=
  match l with [] => EmptyString | [x] => x | x :: l' => append x (String dash (join l')) end.
(** [str::split('-')]: one piece more than there are dashes *)
Fixpoint split (s : string) : list string :=
  match s with
  | EmptyString => [EmptyString]
  | String c s' => if Ascii.eqb c dash then EmptyString :: split s' else
                   match split s' with [] => [String c EmptyString] | x :: l => String c x :: l end
  end.
(** bench_utils/mod.rs 57-64: [env] is the variable RAYON_NUM_THREADS, [cpus] the number of cores *)
Definition number_threads (env : option string) (cpus : N) : string := match env with Some s => s | None => dec cpus end.
(** bench_utils/mod.rs 66-83 *)
Definition compute_title_batch (env : option string) (cpus : N) (fun_desc : string) (num_inputs num_outputs tree_depth num_notes : N) : string :=
  join [number_threads env cpus; fun_desc; dec num_inputs; dec num_outputs; dec tree_depth; dec num_notes].
(** bench_utils/mod.rs 85-114; [ratio n d] is the quotient in per cent, printed without decimals *)
Definition compute_title_simple (ratio : N -> N -> string) (env : option string) (cpus : N) (fun_desc : string)
    (num_inputs num_outputs tree_depth domain_size n_constraints note_size proving_key_size verifying_key_size : N) : string :=
  join [number_threads env cpus; fun_desc; dec num_inputs; dec num_outputs; dec tree_depth; dec domain_size; dec n_constraints;
        ratio n_constraints domain_size; dec note_size; dec proving_key_size; dec verifying_key_size].
(** [values[i]] *)
Definition value (values : list string) (i : nat) : res string := match nth_error values i with Some x => Ok x | None => Panic end.
(** bench_utils/mod.rs 164-184; [kb] is lines 158-162: parse, divide by a thousand, print *)
Definition build_csv_records_simple (kb : string -> res string) (desc : string) (values : list string) (time : string) : res (list string) :=
  let* v0 := value values 0 in let* v1 := value values 1 in let* v2 := value values 2 in let* v3 := value values 3 in
  let* v4 := value values 4 in let* v5 := value values 5 in let* v6 := value values 6 in let* v7 := value values 7 in
  let* v8 := value values 8 in let* k8 := kb v8 in let* v9 := value values 9 in let* k9 := kb v9 in
  let* v10 := value values 10 in let* k10 := kb v10 in
  Ok [desc; v0; v1; v2; v3; v4; v5; v6; v7; k8; k9; k10; time].
(** bench_utils/mod.rs 186-201 *)
Definition build_csv_records_batch (desc : string) (values : list string) (time : string) : res (list string) :=
  let* v0 := value values 0 in let* v1 := value values 1 in let* v2 := value values 2 in let* v3 := value values 3 in
  let* v4 := value values 4 in let* v5 := value values 5 in Ok [desc; v0; v1; v2; v3; v4; v5; time].
(** bench_utils/mod.rs 203-233: the rows written; [estimate desc title] is the mean that criterion saved for the title (142-150), [ms] its conversion (152-156) *)
Fixpoint save_results (estimate : string -> string -> res string) (ms : string -> res string) (build : string -> list string -> string -> res (list string))
    (titles : list string) (desc : string) : res (list (list string)) :=
  match titles with
  | [] => Ok []
  | t :: ts =>
    let* e := estimate desc t in let* time := ms e in
    let* row := build desc (split t) time in
    let* rows := save_results estimate ms build ts desc in
    Ok (row :: rows)
  end.
(** bench_utils/mod.rs 239-253 *)
Definition headers_simple : list string :=
  ["TRANSACTION"; "N_THREADS"; "FUNCTION"; "N_INPUTS"; "N_OUTPUTS"; "TREE_HEIGHT"; "DOMAIN_SIZE"; "N_CONSTRAINTS"; "UTILITY_RATIO(%)";
   "TRANSFER_NOTE_SIZE (KB)"; "PROVING_KEY_SIZE (KB)"; "VERIFYING_KEY_SIZE (KB)"; "TIME (ms)"]%string.
(** bench_utils/mod.rs 235-255 (the table is the header line and the rows) *)
Definition save_result_to_file_simple estimate ms kb titles desc : res (list (list string)) :=
  let* rows := save_results estimate ms (build_csv_records_simple kb) titles desc in Ok (headers_simple :: rows).
(** bench_utils/mod.rs 257-272 *)
Definition headers_batch : list string :=
  ["TRANSACTION"; "N_THREADS"; "FUNCTION"; "N_INPUTS"; "N_OUTPUTS"; "TREE_HEIGHT"; "N_NOTES"; "TIME (ms)"]%string.
(** bench_utils/mod.rs 257-272 *)
Definition save_result_to_file_batch estimate ms titles desc : res (list (list string)) :=
  let* rows := save_results estimate ms build_csv_records_batch titles desc in Ok (headers_batch :: rows).
