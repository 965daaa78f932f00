(** C81: transactions do not disturb each other.  Which transactions a ledger accepts does not depend on their order or on how
    they are grouped into blocks, and a valid transaction stays valid until it expires or one of its inputs is spent.

    [timely] is in ScheduleSpec.v.  [flat_map tx_nullifiers txns] are the nullifiers of a list of transactions;
    [flat_map event_txns (effective v l h)] are the transactions accepted when the events [h] reach a ledger [l]. *)
From Coq Require Import Permutation.
From Verif Require Import Base Config Structs Keys Utils Memo Plonk Witness Circuits Relation Snark Notes Serde Accepted Ledger LedgerSpec LedgerProofs ScheduleSpec Schedule
  Wallet CircuitFacts Toy ToySnark Samples NoteSamples LedgerSamples.

(** a list of transactions is valid exactly when each is valid alone and no nullifier occurs twice in the list *)
Theorem C81_one_by_one (C : CapConfig) (S : Snark C) (SL : SnarkLaws S) v l txns ts : txns <> [] ->
  (validate_txns_batch v l txns ts = Ok tt <->
   (forall t, In t txns -> validate_txns_batch v l [t] ts = Ok tt) /\ NoDup (flat_map tx_nullifiers txns)).
Proof. exact (one_by_one SL v l txns ts). Qed.
Print Assumptions C81_one_by_one.
(** the order in a block does not matter: not for validity, and afterwards the ledger has the same nullifiers, the same
    commitments in another order, and the same fee record *)
Theorem C81_order (C : CapConfig) (S : Snark C) (SL : SnarkLaws S) (Z0 : Ser C S) txns txns' : Permutation txns txns' ->
  (forall v l ts, validate_txns_batch v l txns ts = Ok tt -> validate_txns_batch v l txns' ts = Ok tt) /\
  (forall v l l1 wallet bl ro b sig, collect_fee_and_build_block wallet bl txns = Ok (ro, b, sig) -> insert_block (vd_depth v) l b = (l1, Ok tt) ->
     exists b' sig' l2, collect_fee_and_build_block wallet bl txns' = Ok (ro, b', sig') /\ insert_block (vd_depth v) l b' = (l2, Ok tt) /\
       Permutation (lg_leaves l1) (lg_leaves l2) /\ forall n, check_nullifier l1 n = check_nullifier l2 n).
Proof.
  intros P. split; [intros v l ts; exact (batch_perm SL v l txns txns' ts P)|].
  intros v l l1 wallet bl ro b sig H1 H2. exact (built_perm wallet bl txns txns' ro b sig v l l1 P H1 H2).
Qed.
Print Assumptions C81_order.
(** one block, or two blocks one after the other: valid in one is valid in two, and conversely if the later ones use old roots *)
Theorem C81_grouping (C : CapConfig) (S : Snark C) (SL : SnarkLaws S) v l b1 rest ts : bk_txns b1 <> [] -> rest <> [] ->
  (validate_txns_batch v l (bk_txns b1 ++ rest) ts = Ok tt <->
   validate_txns_batch v l (bk_txns b1) ts = Ok tt /\ validate_txns_batch v (fst (insert_block (vd_depth v) l b1)) rest ts = Ok tt /\
   forall t, In t rest -> check_valid_root l (tx_merkle_root t) = true).
Proof. exact (in_two SL v l b1 rest ts). Qed.
Print Assumptions C81_grouping.
(** whatever happens while a valid transaction waits: it is valid later exactly if it has not expired and no transaction
    accepted in between has one of its nullifiers *)
Theorem C81_waiting (C : CapConfig) (S : Snark C) (SL : SnarkLaws S) (Z0 : Ser C S) v l t ts h ts' :
  validate_txns_batch v l [t] ts = Ok tt ->
  (validate_txns_batch v (ledger_from v l h) [t] ts' = Ok tt <->
   timely t ts' /\ forall n, In n (tx_nullifiers t) -> ~ In n (flat_map tx_nullifiers (flat_map event_txns (effective v l h)))).
Proof. exact (stays_valid SL v l t ts h ts'). Qed.
Print Assumptions C81_waiting.
(** of two transactions with a common nullifier at most one is ever accepted, and that once *)
Theorem C81_conflict (C : CapConfig) (S : Snark C) (Z0 : Ser C S) v h i j t t' n :
  nth_error (accepted v h) i = Some t -> nth_error (accepted v h) j = Some t' -> In n (tx_nullifiers t) -> In n (tx_nullifiers t') -> i = j.
Proof. exact (conflict v h i j t t' n). Qed.
Print Assumptions C81_conflict.

(** A ledger with four records; a transfer made when there were three, and a mint made later, with another fee record.  Both
    are valid together in either order, and each stays valid after the other. *)
Definition q_fee : @RecordOpening T := s_native true 9 11 103.
Definition q_ledger : @Ledger T := l_after (l_mints (h_fee true) (h_in1 true) (h_in2 true) ++ [EvMint q_fee]).
Definition q_mint : res (@MintNote T TS * @Fj toy_field) :=
  let* a := @lookup_from_tree T 2 (lg_leaves q_ledger) (w64 3) in
  let* k := m_keys true in @mint_generate T TS (m_rand true) (h_mint_ro true) h_seed h_desc
    (@mkFeeInfo T (@mkFeeInput T q_fee a (s_user true 11)) (s_amount 5) (s_native true 4 11 200)) (fst k).
Lemma q_alone : exists n sk m sk', h_transfer true = Ok (n, sk) /\ q_mint = Ok (m, sk') /\
  @validate_txns_batch T TS l_validator q_ledger [TxTransfer n] (w64 500) = Ok tt /\
  @validate_txns_batch T TS l_validator q_ledger [TxMint m] (w64 500) = Ok tt /\
  zeqb (ta_root (tn_aux n)) (ma_root (mn_aux m)) = false /\ NoDup (tn_nullifiers n ++ [mn_nullifier m]).
Proof.
  assert (H : get (h_transfer true) (fun n => get q_mint (fun m =>
    done (@validate_txns_batch T TS l_validator q_ledger [TxTransfer (fst n)] (w64 500)) &&
    done (@validate_txns_batch T TS l_validator q_ledger [TxMint (fst m)] (w64 500)) &&
    negb (zeqb (ta_root (tn_aux (fst n))) (ma_root (mn_aux (fst m)))) && all_insert [] (tn_nullifiers (fst n) ++ [mn_nullifier (fst m)]))) = true)
    by (vm_compute; reflexivity).
  apply get_ok in H. destruct H as ([n sk] & En & H). apply get_ok in H. destruct H as ([m sk'] & Em & H). cbn [fst] in H.
  apply andb_true_iff in H. destruct H as [H H4]. apply andb_true_iff in H. destruct H as [H H3]. apply andb_true_iff in H. destruct H as [H1 H2].
  exists n, sk, m, sk'. split; [exact En|]. split; [exact Em|]. split; [apply done_ok; exact H1|]. split; [apply done_ok; exact H2|].
  split; [apply negb_true_iff; exact H3|]. apply UtilsProofs.all_insert_iff in H4. apply H4.
Qed.
Example C81_example : exists n sk m sk', h_transfer true = Ok (n, sk) /\ q_mint = Ok (m, sk') /\
  zeqb (ta_root (tn_aux n)) (ma_root (mn_aux m)) = false /\
  @validate_txns_batch T TS l_validator q_ledger [TxTransfer n; TxMint m] (w64 500) = Ok tt /\
  @validate_txns_batch T TS l_validator q_ledger [TxMint m; TxTransfer n] (w64 500) = Ok tt /\
  @validate_txns_batch T TS l_validator (fst (@insert_block T TS 2 q_ledger (l_block [TxMint m]))) [TxTransfer n] (w64 500) = Ok tt /\
  @validate_txns_batch T TS l_validator q_ledger [TxMint m; TxTransfer n; TxMint m] (w64 500) <> Ok tt.
Proof.
  destruct q_alone as (n & sk & m & sk' & En & Em & H1 & H2 & HR & ND). exists n, sk, m, sk'. split; [exact En|]. split; [exact Em|]. split; [exact HR|].
  assert (B : @validate_txns_batch T TS l_validator q_ledger [TxTransfer n; TxMint m] (w64 500) = Ok tt).
  { apply (C81_one_by_one T TS (toy_snark_laws true)); [discriminate|]. split; [intros t [<-|[<-|[]]]; assumption|]. cbn [flat_map tx_nullifiers]. exact ND. }
  assert (B' : @validate_txns_batch T TS l_validator q_ledger [TxMint m; TxTransfer n] (w64 500) = Ok tt).
  { refine (proj1 (C81_order T TS (toy_snark_laws true) l_ser _ _ _) _ _ _ B). apply perm_swap. }
  split; [exact B|]. split; [exact B'|]. split.
  - apply (C81_grouping T TS (toy_snark_laws true) l_validator q_ledger (l_block [TxMint m]) [TxTransfer n] (w64 500)); [discriminate|discriminate|exact B'].
  - intros B3. apply (C81_one_by_one T TS (toy_snark_laws true)) in B3; [|discriminate]. destruct B3 as [_ ND3]. cbn [flat_map tx_nullifiers] in ND3.
    inversion ND3 as [|? ? A _]. apply A. apply in_or_app. right. left. reflexivity.
Qed.
