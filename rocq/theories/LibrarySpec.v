(** Ledgers whose transactions were all made with this library: vocabulary of C86. *)
From Verif Require Import Base Config Structs Keys Utils Memo Plonk Witness Circuits Relation Snark Notes Serde
  GadgetProofs TransferCircuitProofs MintCircuitProofs FreezeCircuitProofs NoteProofs Accepted Ledger LedgerSpec.

Section LibrarySpec.
  Context {C : CapConfig} {S : Snark C} {Z0 : Ser C S}.

  (** a record that a caller offers to be spent: its content, its place in the tree, the secret of the key pair given with it *)
  Definition offered (ro : RecordOpening) (acc : AccMemberWitness) (secret : Fj) : Spend :=
    mkSpend (ro_value ro) (mkPlaceV (f_of_u64 (acc_uid acc)) (acc_path acc)) (fr_to_fq secret).
  (** [made d t ins outs]: one of the three constructors of notes, called with a proving key for trees of depth [d], returned [t];
      [ins] are the records the caller offered, [outs] those the caller asked for (for a freeze: those it returned) *)
  Definition made (d : nat) (t : TransactionNote) (ins : list Spend) (outs : list RoV) : Prop :=
    match t with
    | TxTransfer n => exists r inputs outputs pk valid_until extra sk,
        transfer_generate r inputs outputs pk valid_until extra = Ok (n, sk) /\ tpk_depth pk = d /\
        Z.of_nat (length inputs) < 2 ^ 64 /\ Z.of_nat (length outputs) < 2 ^ 64 /\
        ins = map (fun i => offered (ti_ro i) (ti_acc i) (addr_sk (ti_kp i))) inputs /\ outs = map ro_value outputs
    | TxMint n => exists r mint_ro seed description fee pk sk,
        mint_generate r mint_ro seed description fee pk = Ok (n, sk) /\ mpk_depth pk = d /\
        ins = [offered (fi_ro (fee_input fee)) (fi_acc (fee_input fee)) (addr_sk (fi_kp (fee_input fee)))] /\
        outs = [ro_value (fee_chg_ro fee); ro_value mint_ro]
    | TxFreeze n => exists r inputs fee pk sk outputs,
        freeze_generate r inputs fee pk = Ok (n, sk, outputs) /\
        length (acc_path (fi_acc (fee_input fee))) = d /\ (forall i, In i inputs -> length (acc_path (zi_acc i)) = d) /\
        ins = offered (fi_ro (fee_input fee)) (fi_acc (fee_input fee)) (addr_sk (fi_kp (fee_input fee))) ::
              map (fun i => offered (zi_ro i) (zi_acc i) (zi_kp i)) inputs /\
        outs = ro_value (fee_chg_ro fee) :: map ro_value outputs
    end.

  (** what a history spends and creates, where [from t] are the records given to the library for transaction [t] *)
  Definition offered_in (from : TransactionNote -> list Spend * list RoV) (txns : list TransactionNote) : list Spend :=
    flat_map (fun t => filter real (fst (from t))) txns.
  Definition event_created (from : TransactionNote -> list Spend * list RoV) (e : event) : list RoV :=
    match e with
    | EvMint ro => [ro_value ro]
    | EvBlock b _ _ _ => flat_map (fun t => snd (from t)) (bk_txns b) ++
                         match block_fee_record b with Ok ro => [ro_value ro] | _ => [] end
    end.
  Definition created_in (from : TransactionNote -> list Spend * list RoV) (v : Validator) (h : list event) : list RoV :=
    flat_map (event_created from) (effective v (ledger_new (vd_depth v)) h).
End LibrarySpec.
