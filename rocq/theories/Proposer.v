(** Model of the proposer of the integration test's blocks: how it files the fee record that it collects. *)
From Verif Require Import Base Config Structs Keys Utils Memo Snark Notes Serde Ledger Wallet.

Section Proposer.
  Context {C : CapConfig} {S : Snark C}.
  (** examples.rs 2172-2175 and 2245-2247: [ledger_len + block.txns.len() - 1] as u64 *)
  Definition claimed_position (ledger_len : nat) (b : Block) : Z := Z.of_nat ledger_len + Z.of_nat (length (bk_txns b)) - 1.
  Definition claim_fee (w : Wallet) (fee_ro : RecordOpening) (ledger_len : nat) (b : Block) : Wallet :=
    add_record_opening w fee_ro (w64 (claimed_position ledger_len b)).
End Proposer.
