(** Property theorems: which calls can panic (C49).

    [Panic] in the model is a Rust panic: an index out of bounds, an [unwrap] of an error, an arithmetic overflow in a
    build with overflow checks ([overflow_checks]), or [copy_from_slice] with different lengths.  The two conditions on
    external code are that the prover and the preprocessing of the proof system return ([prover_returns],
    [preprocess_returns]) and that the external decoders do ([external_codecs_return]). *)
From Verif Require Import Base Config Structs Keys Utils Memo Plonk Witness Circuits CircuitLogic Relation UtilsProofs GadgetProofs
  CodecProofs CodecProofs CircuitShape Snark Notes NoteProofs Serde SerdeProofs Decide CircuitFacts Toy ToySnark ToySer Samples NoteSamples Ledger LedgerSamples NoPanic.
#[local] Notation T := (toy true).
#[local] Notation TS := (toy_snark true).

(** ** Never: verification of one note, of a batch, of a receiver memo signature; decoding; opening memos *)
Theorem C49_verification_never_panics (C : CapConfig) (S : Snark C) :
  (forall (t : TransactionNote) k root timestamp, tx_verify t k root timestamp <> Panic) /\
  (forall (txns : list TransactionNote) roots timestamp keys, txn_batch_verify txns roots timestamp keys <> Panic) /\
  (forall (E : MemoSer C) (t : TransactionNote) memos sig, verify_receiver_memos_signature t memos sig <> Panic).
Proof. exact (conj np_verify (conj np_batch np_memo_sig)). Qed.
Print Assumptions C49_verification_never_panics.

Theorem C49_decoding_never_panics (C : CapConfig) (S : Snark C) (Z0 : Ser C S) :
  external_codecs_return -> forall s : bytes,
  dec c_tx s <> Panic /\ dec c_txvk s <> Panic /\ dec c_ro s <> Panic /\ dec c_cred s <> Panic.
Proof. intros E s. exact (conj (ret_tx E s) (conj (ret_txvk E s) (conj (ret_ro E s) (ret_cred E s)))). Qed.
Print Assumptions C49_decoding_never_panics.
Example C49_decoding_example : @external_codecs_return T doc_snark doc_ser.
Proof.
  split; [intros s; apply ret_int|]. split; [|split; intros s; apply ret_int].
  intros s. change (@dec _ c_z s <> Panic). cbn [dec c_z]. destruct s as [|b r]; [discriminate|].
  apply np_bind; [|intros [n r'] _; discriminate]. clear b. induction r as [|b r IH]; cbn [dec_unary]; [discriminate|].
  destruct (_ =? _); [discriminate|]. apply np_bind; [exact IH|]. intros [n r'] _. discriminate.
Qed.

Theorem C49_opening_memos (C : CapConfig) :
  (forall kp ad n m memo, (0 < n)%nat -> (0 < m)%nat -> Z.of_nat n < 2 ^ 59 -> Z.of_nat m < 2 ^ 59 ->
     open_transfer_viewing_memo kp ad n m memo <> Panic) /\
  (forall kp ad amount memo, open_mint_viewing_memo kp ad amount memo <> Panic) /\
  (forall (K : RoCodec) memo kp rc label, receiver_memo_decrypt memo kp rc label <> Panic).
Proof. exact (conj np_open_transfer (conj np_open_mint np_receiver_memo)). Qed.
Print Assumptions C49_opening_memos.

(** ** Under conditions on the arguments: generating notes and preprocessing *)
(** Every credential has 8 attributes and, when overflow checks are on, the amounts add up to less than 2^127. *)
Theorem C49_transfer_generation (C : CapConfig) (S : Snark C) :
  prover_returns -> forall r inputs outputs pk valid_until extra,
  (forall i c, In i inputs -> ti_cred i = Some c -> length (cr_attrs c) = 8%nat) ->
  (overflow_checks = false \/
   zsum (map (fun i => zv (amount (ti_ro i))) inputs) + zsum (map (fun o => zv (amount o)) outputs) < 2 ^ 127) ->
  transfer_generate r inputs outputs pk valid_until extra <> Panic.
Proof.
  intros HP r inputs outputs pk vu extra HC HT. apply np_transfer_generate; [exact HP|exact HC|].
  unfold tame, amt_sum. rewrite map_map. exact HT.
Qed.
Print Assumptions C49_transfer_generation.
Theorem C49_native_generation (C : CapConfig) (S : Snark C) :
  prover_returns -> forall r inputs outputs fee valid_until pk,
  inputs <> [] ->
  (forall i c, In i inputs -> ti_cred i = Some c -> length (cr_attrs c) = 8%nat) ->
  (overflow_checks = false \/
   2 * zsum (map (fun i => zv (amount (ti_ro i))) inputs) + zsum (map (fun o => zv (amount o)) outputs) + zv fee < 2 ^ 127) ->
  transfer_generate_native r inputs outputs fee valid_until pk <> Panic.
Proof.
  intros HP r inputs outputs fee vu pk HN HC HT. apply np_transfer_generate_native; [exact HP|exact HC|exact HN|].
  unfold amt_sum. rewrite map_map. exact HT.
Qed.
Print Assumptions C49_native_generation.
Theorem C49_non_native_generation (C : CapConfig) (S : Snark C) :
  prover_returns -> forall r inputs outputs fee valid_until pk extra,
  (forall i c, In i inputs -> ti_cred i = Some c -> length (cr_attrs c) = 8%nat) ->
  (overflow_checks = false \/
   zv (amount (fi_ro (fee_input fee))) + zsum (map (fun i => zv (amount (ti_ro i))) inputs) +
   (zv (amount (fee_chg_ro fee)) + zsum (map (fun o => zv (amount o)) outputs)) < 2 ^ 127) ->
  transfer_generate_non_native r inputs outputs fee valid_until pk extra <> Panic.
Proof.
  intros HP r inputs outputs fee vu pk extra HC HT. apply np_transfer_generate_non_native; [exact HP|exact HC|].
  unfold tame. rewrite !amt_sum_cons. unfold amt_sum. rewrite map_map. exact HT.
Qed.
Print Assumptions C49_non_native_generation.
(** mint and freeze: for all arguments, including empty lists *)
Theorem C49_mint_freeze_generation (C : CapConfig) (S : Snark C) :
  prover_returns ->
  (forall r mint_ro seed description fee pk, mint_generate r mint_ro seed description fee pk <> Panic) /\
  (forall r inputs fee pk, freeze_generate r inputs fee pk <> Panic).
Proof. exact (fun HP => conj (fun r ro s d f pk => np_mint_generate r ro s d f pk HP) (fun r i f pk => np_freeze_generate r i f pk HP)). Qed.
Print Assumptions C49_mint_freeze_generation.
(** preprocessing: every size, except that a freeze note needs at least one input *)
Theorem C49_preprocessing (C : CapConfig) (S : Snark C) :
  preprocess_returns ->
  (forall g n_in n_out depth, transfer_preprocess g n_in n_out depth <> Panic) /\
  (forall g depth, mint_preprocess g depth <> Panic) /\
  (forall g fk n depth, freeze_preprocess g fk n depth = Panic <-> n = 0%nat).
Proof.
  intros HP. split; [intros; apply np_transfer_preprocess, HP|]. split; [intros; apply np_mint_preprocess, HP|].
  intros g fk n depth. split; [|intros ->; reflexivity].
  intros E. destruct n as [|n]; [reflexivity|]. exfalso. revert E. apply np_freeze_preprocess; [exact HP|discriminate].
Qed.
Print Assumptions C49_preprocessing.

Example C49_example : @prover_returns T TS /\ @preprocess_returns T TS /\
  (forall i c, In i (h_inputs true) -> ti_cred i = Some c -> length (cr_attrs c) = 8%nat) /\
  zsum (map (fun i => zv (amount (ti_ro i))) (h_inputs true)) + zsum (map (fun o => zv (amount o)) (h_outputs true)) < 2 ^ 127.
Proof.
  split; [intros r s pk msg; discriminate|]. split; [intros g s; discriminate|]. split; [|vm_compute; reflexivity].
  intros i c [<-|[<-|[]]] H; [discriminate H|]. injection H as <-. reflexivity.
Qed.

(** ** The excluded cases do panic *)
Theorem C49_native_empty_refuted (C : CapConfig) (S : Snark C) r outputs fee valid_until pk :
  transfer_generate_native r [] outputs fee valid_until pk = Panic.
Proof. reflexivity. Qed.
Print Assumptions C49_native_empty_refuted.

(** the viewing memo of a note without nullifiers or without commitments, for the holder of the right key *)
Theorem C49_open_empty_refuted (C : CapConfig) (L : CapLaws C) kp ad :
  overflow_checks = true -> viewer_pub_key kp = viewer_pk (policy ad) ->
  (forall m memo, open_transfer_viewing_memo kp ad 0 m memo = Panic) /\
  (forall n memo, open_transfer_viewing_memo kp ad n 0 memo = Panic).
Proof.
  intros H E. rewrite <- (point_eqb_spec L) in E.
  exact (conj (fun m memo => open_transfer_no_inputs kp ad m memo H E) (fun n memo => open_transfer_no_outputs kp ad n memo H E)).
Qed.
Print Assumptions C49_open_empty_refuted.

(** with overflow checks, a record of 2^127 units: a transfer of it panics in the amount checks *)
Definition p_big : list (@TransferNoteInput T) :=
  [@mkTIn T (s_native true (2 ^ 127) 11 100) (s_acc true 0 (s_native true (2 ^ 127) 11 100)) (s_user true 11) None].
Definition is_panic {A} (r : res A) : bool := match r with Panic => true | _ => false end.
Lemma run_panic {A B} (r : res A) (f : A -> res B) : is_panic (bind r f) && is_ok r = true -> exists k, r = Ok k /\ f k = Panic.
Proof.
  destruct r as [k|e|]; cbn [bind is_ok]; [|discriminate|discriminate]. intros H. exists k. split; [reflexivity|].
  destruct (f k); [discriminate H|discriminate H|reflexivity].
Qed.
Theorem C49_large_amount_refuted : exists k,
  @transfer_preprocess T TS tt 1 1 2 = Ok k /\
  @transfer_generate T TS (h_rand true) p_big [s_native true 5 11 200] (fst k) (w64 500) [] = Panic.
Proof.
  refine (run_panic (@transfer_preprocess T TS tt 1 1 2)
            (fun k => @transfer_generate T TS (h_rand true) p_big [s_native true 5 11 200] (fst k) (w64 500) []) _).
  vm_compute. reflexivity.
Qed.
Print Assumptions C49_large_amount_refuted.

(** a credential with nine attributes, correctly signed by the issuer, in the otherwise honest sample transfer *)
Definition p_cred (owner issuer expiry : Z) : @ExpirableCredential T :=
  let attrs := map (@fz toy_field) [101; 102; 103; 104; 105; 106; 107; 108; 109] in
  let addr := @user_address T (s_user true owner) in
  @mkCred T addr attrs (w64 expiry) (@sig_sign T (@sz toy_field issuer) (@cred_msg T (w64 expiry) addr attrs))
    (@ver_key T (@sz toy_field issuer)).
Definition p_inputs : list (@TransferNoteInput T) :=
  [@mkTIn T (h_fee true) (h_acc true 0) (s_user true 11) None;
   @mkTIn T (h_in1 true) (h_acc true 1) (s_user true 12) (Some (p_cred 12 8 900))].
Theorem C49_long_credential_refuted : exists k,
  @transfer_preprocess T TS tt 2 3 2 = Ok k /\
  @transfer_generate T TS (h_rand true) p_inputs (h_outputs true) (fst k) (w64 500) [] = Panic.
Proof.
  refine (run_panic (@transfer_preprocess T TS tt 2 3 2)
            (fun k => @transfer_generate T TS (h_rand true) p_inputs (h_outputs true) (fst k) (w64 500) []) _).
  vm_compute. reflexivity.
Qed.
Print Assumptions C49_long_credential_refuted.

(** The validator of the integration test panics on a note without nullifiers, whoever proposes it: it makes a
    verifying key for the note's sizes and unwraps the result. *)
Theorem C49_validator_refuted (C : CapConfig) (S : Snark C) (Z0 : Ser C S) (v : Validator) (l : Ledger) (t : TransactionNote) rest timestamp :
  (match t with TxMint _ => False | _ => True end) -> tx_nullifiers t = [] ->
  validate_txns_batch v l (t :: rest) timestamp = Panic.
Proof.
  intros Ht E. unfold validate_txns_batch. cbn [collect_keys]. destruct t as [n|n|n]; [|contradiction|]; cbn [tx_nullifiers] in E; cbn [key_for].
  - rewrite (proj2 (length_zero_iff_nil (tn_nullifiers n)) E). change (length (@nil F)) with 0%nat. reflexivity.
  - rewrite (proj2 (length_zero_iff_nil (fn_nullifiers n)) E). reflexivity.
Qed.
Print Assumptions C49_validator_refuted.

(** [IdentityAttribute::value]: exactly the scalars of at most 31 bytes whose last byte exceeds 32 *)
Theorem C49_attribute_value (C : CapConfig) (a : F) :
  attr_value a = Panic <-> overflow_checks = true /\ zv a < 2 ^ 248 /\ 32 < zv a / 2 ^ 240.
Proof. exact (attr_value_panic a). Qed.
Print Assumptions C49_attribute_value.
