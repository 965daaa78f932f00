(** Model of src/parameters.rs (storing and loading of universal parameters, proving and verifying keys) and of
    [load_srs] (src/proof/mod.rs).

    Files are byte strings under path names.  A write is a sequence of single steps, so that a crash of the process, or an
    error reported by the operating system, may come between any two of them.  Not modelled: losses of data that were
    written but not synchronised when the machine stops, concurrent writers, the progress messages on the standard
    error output, and paths that are not valid UTF-8 (the code panics on them: [dest.to_str().unwrap()]). *)
From Coq Require Strings.String Strings.Ascii Numbers.DecimalString Numbers.DecimalN.
From Verif Require Import Base Config Structs Keys Utils Memo Plonk Witness Circuits Snark Notes Serde.
Import String.StringSyntax Ascii.AsciiSyntax.
Delimit Scope char_scope with char.
Delimit Scope string_scope with string.
#[local] Open Scope string_scope.
Notation string := String.string.
Infix "+++" := String.append (at level 60, right associativity).

(** ** Paths *)

(** [PathBuf::push] of a relative component *)
Definition ends_with_slash (s : string) : bool :=
  match String.length s with
  | O => false
  | S n => match String.get n s with Some c => Ascii.eqb c "/"%char | None => false end
  end.
Definition path_push (d x : string) : string :=
  if String.eqb d "" || ends_with_slash d then d +++ x else d +++ "/" +++ x.
(** [Path::file_stem] of a component: what comes before the last dot, or everything if there is no dot or only a
    leading one *)
Fixpoint before_last_dot (s : string) : option string :=
  match s with
  | String.EmptyString => None
  | String.String c r =>
    match before_last_dot r with
    | Some t => Some (String.String c t)
    | None => if Ascii.eqb c "."%char then Some ""%string else None
    end
  end.
Definition file_stem (name : string) : string :=
  if String.eqb name ".." then name
  else match before_last_dot name with Some "" => name | Some s => s | None => name end.
(** [PathBuf::set_extension], on the last component *)
Definition with_extension (name ext : string) : string := file_stem name +++ "." +++ ext.
(** parameters.rs 485-492; [dir] is the value of CAP_UNIV_PARAM_DIR, if set.  The extension is set on the pushed
    component. *)
Definition default_path (dir : option string) (filename extension : string) : string :=
  path_push (path_push (match dir with Some d => d | None => "." end) "data") (with_extension filename extension).
(** [format!("{}")] of an unsigned integer *)
Definition show_nat (n : nat) : string := DecimalString.NilZero.string_of_uint (N.to_uint (N.of_nat n)).
(** parameters.rs 494-557, the format strings *)
Definition key_name (kind_role : string) (a b d : nat) : string :=
  kind_role +++ "_" +++ show_nat a +++ "_input_" +++ show_nat b +++ "_output_" +++ show_nat d +++ "_depth".
(** parameters.rs 35 *)
Definition universal_srs_path (dir : option string) : string := default_path dir "universal_srs" "bin".
(** parameters.rs 494-506 *)
Definition transfer_pk_path dir (n_in n_out d : nat) : string := default_path dir (key_name "transfer_prover" n_in n_out d) "bin".
(** parameters.rs 508-513 *)
Definition mint_pk_path dir (d : nat) : string := default_path dir (key_name "mint_prover" 1 2 d) "bin".
(** parameters.rs 515-523 *)
Definition freeze_pk_path dir (n d : nat) : string := default_path dir (key_name "freeze_prover" n n d) "bin".
(** parameters.rs 525-537 *)
Definition transfer_vk_path dir (n_in n_out d : nat) : string := default_path dir (key_name "transfer_verifier" n_in n_out d) "bin".
(** parameters.rs 539-547 *)
Definition mint_vk_path dir (d : nat) : string := default_path dir (key_name "mint_verifier" 1 2 d) "bin".
(** parameters.rs 549-557 *)
Definition freeze_vk_path dir (n d : nat) : string := default_path dir (key_name "freeze_verifier" n n d) "bin".

(** ** Files *)
Definition fs := string -> option bytes.
Inductive fop := FCreate (p : string) | FAppend (p : string) (b : byte).
Definition fs_set (s : fs) (p : string) (x : option bytes) : fs := fun q => if String.eqb q p then x else s q.
(** [File::create] truncates *)
Definition fs_step (s : fs) (o : fop) : fs :=
  match o with
  | FCreate p => fs_set s p (Some [])
  | FAppend p b => match s p with Some bs => fs_set s p (Some (bs ++ [b])) | None => s end
  end.
Definition fs_run (s : fs) (l : list fop) : fs := fold_left fs_step l s.
(** the file system when the process stopped after [k] steps, be it by a crash or by an error *)
Definition stopped (s : fs) (l : list fop) (k : nat) : fs := fs_run s (firstn k l).
(** parameters.rs 580-583 *)
Definition store_bytes (bs : bytes) (dest : string) : list fop := FCreate dest :: map (FAppend dest) bs.
(** parameters.rs 560-567 *)
Definition store_data {A} (c : Codec A) (x : A) (dest : string) : list fop := store_bytes (enc c x) dest.
(** parameters.rs 585-593 and 570-577; what follows the decoded value in the file is ignored *)
Definition load_data {A} (c : Codec A) (src : string) (s : fs) : res A :=
  match s src with
  | None => Err IoError
  | Some bs => let* x := map_err (dec c bs) DeserializationError in Ok (fst x)
  end.
(** the return value of a store whose steps are [l], when the operating system lets [k] steps pass *)
Definition store_result (l : list fop) (k : nat) : res unit := if (length l <=? k)%nat then Ok tt else Err IoError.
Definition or_default (dest : option string) (d : string) : string := match dest with Some p => p | None => d end.

Fixpoint bytes_eqb (a b : bytes) : bool :=
  match a, b with
  | [], [] => true
  | x :: a', y :: b' => zeqb x y && bytes_eqb a' b'
  | _, _ => false
  end.

(** ** The external encodings *)
Class ParSer {C : CapConfig} {S : Snark C} := { c_pkey : Codec pkey; c_srs : Codec srs }.
Arguments ParSer C S : clear implicits.

Section Params.
  Context {C : CapConfig} {S : Snark C} {Z0 : Ser C S} {P0 : ParSer C S}.
  Context (dir : option string).

  (** proof/transfer.rs 55-64, proof/mint.rs 45-52, proof/freeze.rs 44-52, derived *)
  Definition c_tpk : Codec TransferProvingKey :=
    c_iso (fun k => (tpk_key k, (tpk_n_in k, (tpk_n_out k, tpk_depth k)))) (fun x => let '(a, (b, (c, d))) := x in mkTPK a b c d)
          (c_pair c_pkey (c_pair c_usize (c_pair c_usize c_depth))).
  Definition c_mpk : Codec MintProvingKey :=
    c_iso (fun k => (mpk_key k, mpk_depth k)) (fun x => mkMPK (fst x) (snd x)) (c_pair c_pkey c_depth).
  Definition c_fpk : Codec FreezeProvingKey :=
    c_iso (fun k => (fpk_key k, (fpk_depth k, fpk_num_input k))) (fun x => let '(a, (b, c)) := x in mkFPK a b c)
          (c_pair c_pkey (c_pair c_depth c_usize)).

  (** A store function: fails before it touches a file, or yields the steps it takes. *)

  (** parameters.rs 45-65; [g] is the result of the external [universal_setup] *)
  Definition store_universal_parameter_for_demo (g : res srs) (dest : option string) : res (list fop) :=
    let* g := map_err g FailedSnark in Ok (store_data c_srs g (or_default dest (universal_srs_path dir))).
  (** parameters.rs 67-78, 94-102 for an explicit path, 80-85 for the default path without the bn254 feature *)
  Definition load_universal_parameter (src : option string) (s : fs) : res srs :=
    load_data c_srs (or_default src (universal_srs_path dir)) s.

  (** parameters.rs 111-149 *)
  Definition store_transfer_proving_key (n_in n_out d : nat) (g : srs) (dest : option string) : res (list fop) :=
    let* k := transfer_preprocess g n_in n_out d in
    Ok (store_data c_tpk (fst k) (or_default dest (transfer_pk_path dir n_in n_out d)) ++
        store_data c_tvk (snd k) (or_default dest (transfer_vk_path dir n_in n_out d))).
  (** parameters.rs 154-177 *)
  Definition load_transfer_proving_key (n_in n_out d : nat) (src : option string) (s : fs) : res TransferProvingKey :=
    load_data c_tpk (or_default src (transfer_pk_path dir n_in n_out d)) s.
  (** parameters.rs 190-214 *)
  Definition store_transfer_verifying_key (n_in n_out d : nat) (g : srs) (dest : option string) : res (list fop) :=
    let* k := transfer_preprocess g n_in n_out d in
    Ok (store_data c_tvk (snd k) (or_default dest (transfer_vk_path dir n_in n_out d))).
  (** parameters.rs 219-238 *)
  Definition load_transfer_verifying_key (n_in n_out d : nat) (src : option string) (s : fs) : res TransferVerifyingKey :=
    load_data c_tvk (or_default src (transfer_vk_path dir n_in n_out d)) s.

  (** parameters.rs 245-281 *)
  Definition store_mint_proving_key (d : nat) (g : srs) (dest : option string) : res (list fop) :=
    let* k := mint_preprocess g d in
    Ok (store_data c_mpk (fst k) (or_default dest (mint_pk_path dir d)) ++
        store_data c_mvk (snd k) (or_default dest (mint_vk_path dir d))).
  (** parameters.rs 286-304 *)
  Definition load_mint_proving_key (d : nat) (src : option string) (s : fs) : res MintProvingKey :=
    load_data c_mpk (or_default src (mint_pk_path dir d)) s.
  (** parameters.rs 315-336 *)
  Definition store_mint_verifying_key (d : nat) (g : srs) (dest : option string) : res (list fop) :=
    let* k := mint_preprocess g d in Ok (store_data c_mvk (snd k) (or_default dest (mint_vk_path dir d))).
  (** parameters.rs 341-359 *)
  Definition load_mint_verifying_key (d : nat) (src : option string) (s : fs) : res MintVerifyingKey :=
    load_data c_mvk (or_default src (mint_vk_path dir d)) s.

  (** parameters.rs 367-404; [fk] is the freezer key sampled by the preprocessing *)
  Definition store_freeze_proving_key (fk : FreezerKeyPair) (n d : nat) (g : srs) (dest : option string) : res (list fop) :=
    let* k := freeze_preprocess g fk n d in
    Ok (store_data c_fpk (fst k) (or_default dest (freeze_pk_path dir n d)) ++
        store_data c_fvk (snd k) (or_default dest (freeze_vk_path dir n d))).
  (** parameters.rs 409-428 *)
  Definition load_freeze_proving_key (n d : nat) (src : option string) (s : fs) : res FreezeProvingKey :=
    load_data c_fpk (or_default src (freeze_pk_path dir n d)) s.
  (** parameters.rs 440-461 *)
  Definition store_freeze_verifying_key (fk : FreezerKeyPair) (n d : nat) (g : srs) (dest : option string) : res (list fop) :=
    let* k := freeze_preprocess g fk n d in Ok (store_data c_fvk (snd k) (or_default dest (freeze_vk_path dir n d))).
  (** parameters.rs 466-482 *)
  Definition load_freeze_verifying_key (n d : nat) (src : option string) (s : fs) : res FreezeVerifyingKey :=
    load_data c_fvk (or_default src (freeze_vk_path dir n d)) s.

  (** proof/mod.rs 74-109: the file compiled into the program, its digest under the external SHA-256 and the digest
      written in the code *)
  Definition load_srs (sha256 : bytes -> bytes) (expected : bytes) (embedded : bytes) (max_degree : Z) : res srs :=
    if 2 ^ 17 <? max_degree then Err FailedSnark
    else if bytes_eqb (sha256 embedded) expected then
      let* x := map_err (dec c_srs embedded) DeserializationError in Ok (fst x)
    else Panic.
End Params.
