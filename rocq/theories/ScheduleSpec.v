(** Specification for C81: when a transaction is on time, and which transactions took effect in a history. *)
From Verif Require Import Base Config Structs Keys Utils Memo Plonk Witness Circuits Snark Notes Serde Ledger.

Section ScheduleSpec.
  Context {C : CapConfig} {S : Snark C}.
  (** only transfers name a last moment *)
  Definition timely (t : TransactionNote) (now : u64) : Prop :=
    match t with TxTransfer n => zv now <= zv (ta_valid_until (tn_aux n)) | _ => True end.
End ScheduleSpec.
