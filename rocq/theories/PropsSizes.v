(** C85: the size of a transaction shows only its shape. *)
From Verif Require Import Base Config Structs Keys Utils Memo Plonk Witness Circuits Snark Notes Serde ToySer CodecProofs NoteProofs Accepted CircuitFacts
  Toy ToySnark Samples NoteSamples Ledger LedgerSamples SizesSpec Sizes.
#[local] Existing Instance toy_snark.
#[local] Existing Instance l_ser.

(** Made by the library: the size of the encoding is a function of the kind of the transaction, the numbers of inputs and
    outputs and the length of the data bound to a transfer. *)
Theorem C85_generated (C : CapConfig) (L : CapLaws C) (S : Snark C) (Z0 : Ser C S) pt ek pf : Fixed Z0 pt ek pf ->
  (forall r inputs outputs pk vu extra n sk, transfer_generate r inputs outputs pk vu extra = Ok (n, sk) ->
     length (tx_serialize (TxTransfer n)) = transfer_size pt pf (length inputs) (length outputs) (length extra)) /\
  (forall r mint_ro seed description fee pk n sk, mint_generate r mint_ro seed description fee pk = Ok (n, sk) ->
     length (tx_serialize (TxMint n)) = mint_size pt pf) /\
  (forall r inputs fee pk n sk outs, freeze_generate r inputs fee pk = Ok (n, sk, outs) ->
     length (tx_serialize (TxFreeze n)) = freeze_size pt pf (1 + length inputs)).
Proof.
  intros H. split; [|split].
  - intros until sk. exact (transfer_len L pt ek pf H r inputs outputs pk vu extra n sk).
  - intros until sk. exact (mint_len L pt ek pf H r mint_ro seed description fee pk n sk).
  - intros until outs. exact (freeze_len L pt ek pf H r inputs fee pk n sk outs).
Qed.
Print Assumptions C85_generated.
(** So two transfers of the same shape have the same size, whatever the assets, policies, amounts, owners, credentials and
    thresholds, whether inputs are real or dummies, and whether there is anything for a viewer to see. *)
Theorem C85_same_shape (C : CapConfig) (L : CapLaws C) (S : Snark C) (Z0 : Ser C S) pt ek pf : Fixed Z0 pt ek pf ->
  forall r inputs outputs pk vu extra n sk r' inputs' outputs' pk' vu' extra' n' sk',
  transfer_generate r inputs outputs pk vu extra = Ok (n, sk) -> transfer_generate r' inputs' outputs' pk' vu' extra' = Ok (n', sk') ->
  length inputs = length inputs' -> length outputs = length outputs' -> length extra = length extra' ->
  length (tx_serialize (TxTransfer n)) = length (tx_serialize (TxTransfer n')).
Proof.
  intros H. intros until sk'. intros G G' E1 E2 E3.
  rewrite (transfer_len L pt ek pf H _ _ _ _ _ _ _ _ G), (transfer_len L pt ek pf H _ _ _ _ _ _ _ _ G'), E1, E2, E3. reflexivity.
Qed.
Print Assumptions C85_same_shape.
(** Received from anybody: a note that verifies has the size of its verifying key's shape, provided its proof has the size
    of a proof. *)
Theorem C85_accepted (C : CapConfig) (L : CapLaws C) (S : Snark C) (SL : SnarkLaws S) (Z0 : Ser C S) pt ek pf : Fixed Z0 pt ek pf ->
  (forall n_in n_out d n root ts, transfer_accepted n_in n_out d n root ts -> length (enc c_proof (tn_proof n)) = pf ->
     length (tx_serialize (TxTransfer n)) = transfer_size pt pf n_in n_out (length (ta_extra (tn_aux n)))) /\
  (forall d n root, mint_accepted d n root -> length (enc c_proof (mn_proof n)) = pf ->
     length (tx_serialize (TxMint n)) = mint_size pt pf) /\
  (forall num d n root, freeze_accepted num d n root -> length (enc c_proof (fn_proof n)) = pf ->
     length (tx_serialize (TxFreeze n)) = freeze_size pt pf num).
Proof.
  intros H. split; [|split].
  - intros until ts. exact (transfer_accepted_len L pt ek pf H SL n_in n_out d n root ts).
  - intros until root. exact (mint_accepted_len pt ek pf H SL d n root).
  - intros until root. exact (freeze_accepted_len pt ek pf H SL num d n root).
Qed.
Print Assumptions C85_accepted.
(** What is encrypted for the receivers of records has the same size for all records. *)
Theorem C85_openings (C : CapConfig) (S : Snark C) (Z0 : Ser C S) pt ek pf : Fixed Z0 pt ek pf ->
  forall r, length (enc c_ro r) = opening_size pt ek.
Proof. intros H r. exact (opening_len pt ek pf H r). Qed.
Print Assumptions C85_openings.
(** The sizes tell shapes apart: a transfer with one more input is 416 bytes longer, with one more output 160 bytes. *)
Theorem C85_per_record pt pf n_in n_out data : (1 <= n_in)%nat -> (1 <= n_out)%nat ->
  transfer_size pt pf (1 + n_in) n_out data = (416 + transfer_size pt pf n_in n_out data)%nat /\
  transfer_size pt pf n_in (1 + n_out) data = (160 + transfer_size pt pf n_in n_out data)%nat /\
  freeze_size pt pf (1 + n_in) = (64 + freeze_size pt pf n_in)%nat.
Proof. unfold transfer_size, freeze_size. lia. Qed.
Print Assumptions C85_per_record.

(** with points and keys of 32 bytes and proofs of 100 bytes: the sample transfer with two inputs, three outputs and three
    bytes of data, the sample mint and the sample freeze of two records *)
Definition sz_ser : Ser T TS := @Build_Ser T TS (c_int 32 bn_l tpz) (mkCodec (fun z => le_bytes 32 z) (fun _ => 32%nat) (fun _ => Err SerIoError))
  (mkCodec (fun _ => repeat (b8 0) 100) (fun _ => 100%nat) (fun _ => Err SerIoError)) c_none.
Lemma sz_fixed : @Fixed T TS sz_ser 32 32 100.
Proof. constructor; intros; [apply le_bytes_length|apply le_bytes_length|apply repeat_length]. Qed.
Lemma sz_transfer (k : res (_ * @TransferVerifyingKey T TS)) r inputs outputs vu extra n sk : length inputs = 2%nat -> length outputs = 3%nat -> length extra = 3%nat ->
  forall x, bind k (fun k => @transfer_generate T TS r inputs outputs (fst k) vu extra) = x -> x = Ok (n, sk) -> @length byte (@tx_serialize T TS sz_ser (TxTransfer n)) = 1088%nat.
Proof.
  intros E1 E2 E3 x0 <- H. apply bind_ok in H. destruct H as (x & _ & H). rewrite (transfer_len (toy_laws true) 32 32 100 sz_fixed _ _ _ _ _ _ _ _ H), E1, E2, E3. reflexivity.
Qed.
Lemma sz_mint (k : res (_ * @MintVerifyingKey T TS)) r ro seed d fee n sk : forall x, bind k (fun k => @mint_generate T TS r ro seed d fee (fst k)) = x -> x = Ok (n, sk) ->
  length (@tx_serialize T TS sz_ser (TxMint n)) = 625%nat.
Proof. intros x0 <- H. apply bind_ok in H. destruct H as (x & _ & H). rewrite (mint_len (toy_laws true) 32 32 100 sz_fixed _ _ _ _ _ _ _ _ H). reflexivity. Qed.
Lemma sz_freeze (k : res (_ * @FreezeVerifyingKey T TS)) r inputs fee n sk outs : length inputs = 2%nat -> forall x, bind k (fun k => @freeze_generate T TS r inputs fee (fst k)) = x -> x = Ok (n, sk, outs) ->
  length (@tx_serialize T TS sz_ser (TxFreeze n)) = 389%nat.
Proof. intros E x0 <- H. apply bind_ok in H. destruct H as (x & _ & H). rewrite (freeze_len (toy_laws true) 32 32 100 sz_fixed _ _ _ _ _ _ _ H), E. reflexivity. Qed.
Example C85_example : @Fixed T TS sz_ser 32 32 100 /\ exists n sk m sk' f sk'' outs,
  h_transfer true = Ok (n, sk) /\ h_mint true = Ok (m, sk') /\ h_freeze true = Ok (f, sk'', outs) /\
  length (@tx_serialize T TS sz_ser (TxTransfer n)) = 1088%nat /\
  length (@tx_serialize T TS sz_ser (TxMint m)) = 625%nat /\ length (@tx_serialize T TS sz_ser (TxFreeze f)) = 389%nat.
Proof.
  split; [exact sz_fixed|].
  assert (HT : get (h_transfer true) (fun _ => true) = true) by (vm_compute; reflexivity).
  assert (HM : get (h_mint true) (fun _ => true) = true) by (vm_compute; reflexivity).
  assert (HF : get (h_freeze true) (fun _ => true) = true) by (vm_compute; reflexivity).
  apply get_ok in HT, HM, HF. destruct HT as ([n sk] & ET & _), HM as ([m sk'] & EM & _), HF as ([[f sk''] outs] & EF & _).
  exists n, sk, m, sk', f, sk'', outs. split; [exact ET|]. split; [exact EM|]. split; [exact EF|].
  split; [|split].
  - exact (sz_transfer (h_keys true) (h_rand true) (h_inputs true) (h_outputs true) (w64 500) (map b8 [1; 2; 3]) n sk eq_refl eq_refl eq_refl (h_transfer true) eq_refl ET).
  - exact (sz_mint (m_keys true) (m_rand true) (h_mint_ro true) h_seed h_desc (h_fee_info true) m sk' (h_mint true) eq_refl EM).
  - exact (sz_freeze (f_keys true) (f_rand true) (f_inputs true) (h_fee_info true) f sk'' outs eq_refl (h_freeze true) eq_refl EF).
Qed.
