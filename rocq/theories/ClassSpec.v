(** Supply of an asset together with its policy: vocabulary of C88. *)
From Verif Require Import Base Config Structs Keys Utils Memo Plonk Witness Circuits Relation Snark Notes Serde
  GadgetProofs NoteProofs Accepted Ledger LedgerSpec.

Section ClassSpec.
  Context {C : CapConfig} {S : Snark C} {Z0 : Ser C S}.

  (** the same three keys and the same threshold (the reveal map can change when a record is frozen and released, see C55) *)
  Definition same_policy_b (p q : PolV) : bool :=
    zeqb (fst (po_viewer p)) (fst (po_viewer q)) && zeqb (snd (po_viewer p)) (snd (po_viewer q)) &&
    zeqb (fst (po_cred p)) (fst (po_cred q)) && zeqb (snd (po_cred p)) (snd (po_cred q)) &&
    zeqb (fst (po_freezer p)) (fst (po_freezer q)) && zeqb (snd (po_freezer p)) (snd (po_freezer q)) &&
    zeqb (po_threshold p) (po_threshold q).
  (** sum of the amounts of the records of code [c] under policy [p] *)
  Definition class_total (c : F) (p : PolV) (l : list RoV) : Z :=
    sumz (map (fun r => zv (ro_amount r)) (filter (fun r => zeqb (ro_code r) c && same_policy_b (ro_pol r) p) l)).
  (** amounts of code [c] minted under policy [p]: by an event of the test, by the mint notes of a block *)
  Definition class_amount (c : F) (p : PolV) (a : AssetDefinition) (x : Z) : Z :=
    if zeqb (code a) c && same_policy_b (pol_value (policy a)) p then x else 0.
  Definition class_mints (c : F) (p : PolV) (e : event) : Z :=
    match e with
    | EvMint ro => class_amount c p (asset_def ro) (zv (amount ro))
    | EvBlock b _ _ _ => sumz (map (fun t => match t with TxMint n => class_amount c p (mn_def n) (zv (mn_amount n)) | _ => 0 end) (bk_txns b))
    end.
  (** the asset definitions that a history mints: by an event of the test, by an accepted mint note *)
  Definition minted_defs (v : Validator) (h : list event) : list AssetDefinition :=
    flat_map (fun e => match e with
      | EvMint ro => [asset_def ro]
      | EvBlock b _ _ _ => flat_map (fun t => match t with TxMint n => [mn_def n] | _ => [] end) (bk_txns b)
      end) (effective v (ledger_new (vd_depth v)) h).
End ClassSpec.
