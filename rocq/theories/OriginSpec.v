(** Where the records of a ledger come from and what may happen to frozen ones: vocabulary of C83 and C84. *)
From Verif Require Import Base Config Structs Keys Utils Memo Plonk Witness Circuits Relation Snark Notes Serde
  GadgetProofs NoteProofs Accepted Ledger LedgerSpec.

Section OriginSpec.
  Context {C : CapConfig} {S : Snark C} {Z0 : Ser C S}.

  (** the same keys and the same threshold (the reveal map can change when a record is frozen and released, see C55) *)
  Definition same_policy (p q : PolV) : Prop :=
    po_viewer p = po_viewer q /\ po_cred p = po_cred q /\ po_freezer p = po_freezer q /\ po_threshold p = po_threshold q.
  (** asset definition [a] is that of record [r]; for the native asset only the code is compared *)
  Definition defines (a : AssetDefinition) (r : RoV) : Prop :=
    code a = ro_code r /\ (ro_code r <> native_asset_code -> same_policy (pol_value (policy a)) (ro_pol r)).
  (** a positive amount of the asset of [r] was minted: by the test, or by an accepted mint note *)
  Definition minted (v : Validator) (h : list event) (r : RoV) : Prop :=
    (exists ro, In (EvMint ro) (effective v (ledger_new (vd_depth v)) h) /\ defines (asset_def ro) r /\ 0 < zv (amount ro)) \/
    (exists n, In (TxMint n) (accepted v h) /\ defines (mn_def n) r /\ 0 < zv (mn_amount n)).
  (** the record at the position is one whose owner cannot spend it *)
  Definition frozen (r : RoV) : Prop := ro_flag r = f1 /\ in_range VIEWABLE_DATA_LEN (po_map (ro_pol r)) = true.
End OriginSpec.
