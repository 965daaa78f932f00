(** The sizes of encodings: vocabulary of C85. *)
From Verif Require Import Base Config Structs Keys Utils Memo Plonk Snark Notes Serde.

Section SizesSpec.
  Context {C : CapConfig} {S : Snark C} {Z0 : Ser C S}.

  (** what the external libraries contribute: every point takes [pt] bytes, every encryption key [ek] bytes (compressed
      points and the aead key have a fixed length), and every proof that the prover makes takes [pf] bytes (a TurboPlonk proof
      has a fixed number of commitments and evaluations, whatever the circuit) *)
  Record Fixed (pt ek pf : nat) : Prop := {
    fixed_point : forall p, length (enc c_point p) = pt;
    fixed_enckey : forall k, length (enc c_enckey k) = ek;
    fixed_proof : forall r s pk msg prf, snark_prove r s pk msg = Ok prf -> length (enc c_proof prf) = pf
  }.
  (** the sizes of the three kinds of transaction: numbers of inputs and outputs, length of the bound data *)
  Definition transfer_size (pt pf n_in n_out data : nat) : nat :=
    1 + (8 + 32 * n_in) + (8 + 32 * n_out) + pf + (pt + 8 + 32 * (1 + (n_in - 1) * 12 + (n_out - 1) * 4)) + (32 + 16 + 8 + pt + 8 + data).
  Definition mint_size (pt pf : nat) : nat :=
    1 + 3 * 32 + 16 + (32 + 3 * pt + 20 + 16) + 32 + pf + (pt + 8 + 3 * 32) + (32 + 16 + pt).
  Definition freeze_size (pt pf n_in : nat) : nat := 1 + 2 * (8 + 32 * n_in) + pf + (32 + 16 + pt).
  (** a record opening, as it is encrypted for its receiver *)
  Definition opening_size (pt ek : nat) : nat := 16 + (32 + 3 * pt + 20 + 16) + (pt + ek) + 1 + 32.
End SizesSpec.
Arguments Fixed {C S} Z0.
