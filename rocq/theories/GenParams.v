(** Model of the command-line tool src/bin/gen-parameters.rs.  The parsing of the command line by the external
    [structopt] is left out: an action is given with its parsed arguments. *)
From Coq Require Strings.String.
From Verif Require Import Base Config Structs Keys Utils Memo Plonk Witness Circuits Snark Notes Serde Params.
Import String.StringSyntax.
#[local] Open Scope string_scope.

(** gen-parameters.rs 17-21 *)
Inductive Circuit := CkTransfer | CkFreezing | CkMint.
(** gen-parameters.rs 23-37 *)
Definition circuit_from_str (s : string) : res Circuit :=
  if String.eqb s "transfer" then Ok CkTransfer
  else if String.eqb s "freezing" then Ok CkFreezing
  else if String.eqb s "mint" then Ok CkMint
  else Err InvalidParameter.
(** gen-parameters.rs 44-63 *)
Inductive Action :=
| ProverSrs (n_inputs n_outputs tree_depth : nat) (circuit : Circuit) (universal_srs_path dest : option string)
| UniversalSrs (size : nat) (dest : option string).

Section Gen.
  Context {C : CapConfig} {S : Snark C} {Z0 : Ser C S} {P0 : ParSer C S}.
  (** [Result::unwrap] of [main] *)
  Definition unwrap_or_die {A} (r : res A) : res A := match r with Ok a => Ok a | _ => Panic end.
  (** gen-parameters.rs 65-103: the file system after a run that was not interrupted.  [dir] is the environment variable
      CAP_UNIV_PARAM_DIR, [fk] the freezer key sampled by the freeze preprocessing, [setup] the external
      [universal_setup] *)
  Definition gen_parameters (dir : option string) (fk : FreezerKeyPair) (setup : nat -> res srs) (a : Action) (s : fs) : res fs :=
    match a with
    | ProverSrs n_inputs n_outputs tree_depth circuit path dest =>
        let* g := unwrap_or_die (load_universal_parameter dir path s) in
        let* l := unwrap_or_die (match circuit with
                   | CkTransfer => store_transfer_proving_key dir n_inputs n_outputs tree_depth g dest
                   | CkFreezing => store_mint_proving_key dir tree_depth g dest
                   | CkMint => store_freeze_proving_key dir fk n_inputs tree_depth g dest
                   end) in
        Ok (fs_run s l)
    | UniversalSrs size dest =>
        let* l := unwrap_or_die (store_universal_parameter_for_demo dir (setup size) dest) in
        Ok (fs_run s l)
    end.
End Gen.
