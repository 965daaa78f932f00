(** The proof system (external crate jf_plonk, [PlonkKzgSnark] with the SolidityTranscript) as used by src/proof/*.rs
    and src/lib.rs.

    External code.  Its operations are fields of the class [Snark]; what is assumed about them is the record
    [SnarkLaws].  The laws are the usual idealisation of a proof system: perfect completeness, knowledge soundness
    stated as the existence of a satisfying assignment (the negligible error probability is left out), an honest
    proof accepted only for its own public input and message, and batch verification of a non-empty batch equal to
    the conjunction of the individual verifications. *)
From Verif Require Import Base Config Structs Plonk CircuitLogic.

Class Snark {C : CapConfig} := {
  srs : Type;                         (* UniversalSrs *)
  pkey : Type;                        (* ProvingKey *)
  vkey : Type;                        (* VerifyingKey *)
  proof : Type;                       (* Proof *)
  prand : Type;                       (* the randomness used by the prover *)
  snark_preprocess : srs -> cs -> res (pkey * vkey);
  snark_prove : prand -> cs -> pkey -> bytes -> res proof;
  snark_verify : vkey -> list F -> proof -> bytes -> bool;
  snark_batch_verify : list (vkey * list F * proof * bytes) -> bool;
  (** [CanonicalSerialize::serialize] of a [schnorr::VerKey]: one compressed curve point *)
  ser_verkey : point -> bytes
}.
Arguments Snark C : clear implicits.

Record SnarkLaws {C : CapConfig} (S : Snark C) : Prop := {
  (** the keys depend on the shape of the circuit only *)
  preprocess_shape : forall g s s', sim s s' -> snark_preprocess g s = snark_preprocess g s';
  snark_complete : forall g s0 pk vk r s pub msg,
    snark_preprocess g s0 = Ok (pk, vk) -> sim s0 s -> check_circuit_satisfiability s pub = true ->
    exists prf, snark_prove r s pk msg = Ok prf /\ snark_verify vk pub prf msg = true;
  snark_sound : forall g s0 pk vk pub prf msg,
    snark_preprocess g s0 = Ok (pk, vk) -> snark_verify vk pub prf msg = true ->
    exists rho, circuit_sat s0 rho pub = true;
  snark_binding : forall g s0 pk vk r s msg prf pub' msg',
    snark_preprocess g s0 = Ok (pk, vk) -> sim s0 s -> snark_prove r s pk msg = Ok prf ->
    snark_verify vk pub' prf msg' = true -> msg' = msg /\ pub' = map (env_of (wit s)) (pubs s);
  batch_all : forall l, l <> [] ->
    snark_batch_verify l = forallb (fun x => let '(vk, pub, prf, msg) := x in snark_verify vk pub prf msg) l;
  ser_verkey_inj : forall P Q, ser_verkey P = ser_verkey Q -> P = Q;
  ser_verkey_len : forall P Q, length (ser_verkey P) = length (ser_verkey Q)
}.
Arguments SnarkLaws {C} S.
