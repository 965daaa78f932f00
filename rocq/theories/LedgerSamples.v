(** Concrete ledger histories over the toy configuration: an honest one for the non-vacuity examples, and histories with
    forged notes for the counterexamples of PropsLedger.v. *)
From Verif Require Import Base Config Structs Keys Utils Memo Plonk Witness Circuits Relation Snark Notes Serde ToySer
  GadgetProofs NoteProofs Accepted Decide CircuitFacts Toy ToySnark Samples NoteSamples Ledger LedgerSpec.

(** encodings: proofs and keys of the toy proof system are encoded as nothing (a block is only signed and verified here,
    never decoded) *)
Definition c_none {A} : Codec A := mkCodec (fun _ => []) (fun _ => 0%nat) (fun _ => Err SerIoError).
Definition l_ser : Ser T TS := @Build_Ser T TS (c_int 32 bn_l tpz) c_z c_none c_none.
#[local] Existing Instance toy_snark.
#[local] Existing Instance l_ser.
#[local] Instance toy_i : CapConfig := T.
Notation LE := (@event T TS).
Definition l_validator : @Validator T TS := @mkValidator T TS tt (fun _ => @sz toy_field 55) 2.
(** a block of the given notes made by user 20 *)
Definition l_proposer := @user_pub_key T (s_user true 20).
Definition l_block (txns : list (@TransactionNote T TS)) : @Block T TS := @mkBlock T TS txns (@fz toy_field 777) l_proposer.
Definition l_event (txns : list (@TransactionNote T TS)) : LE :=
  @EvBlock T TS (l_block txns) (@user_sign T (s_user true 20) (@enc _ (@c_block T TS l_ser) (l_block txns))) (w64 500) l_proposer.
(** three records are minted by the test, then blocks are proposed *)
Definition l_mints (r0 r1 r2 : @RecordOpening T) : list LE := [EvMint r0; EvMint r1; EvMint r2].
Definition l_history (r0 r1 r2 : @RecordOpening T) (blocks : list (list (@TransactionNote T TS))) : list LE :=
  l_mints r0 r1 r2 ++ map l_event blocks.
Definition l_start (r0 r1 r2 : @RecordOpening T) : @Ledger T := @ledger_after T TS l_ser l_validator (l_mints r0 r1 r2).

(** ** Boolean versions of the hypotheses *)
Definition trip_eqb (x y : @F toy_field * @F toy_field * @F toy_field) : bool :=
  zeqb (fst (fst x)) (fst (fst y)) && zeqb (snd (fst x)) (snd (fst y)) && zeqb (snd x) (snd y).
Lemma trip_eqb_ok x y : trip_eqb x y = true -> x = y.
Proof.
  destruct x as [[a b] c], y as [[a' b'] c']. unfold trip_eqb. cbn [fst snd]. rewrite !andb_true_iff, !zeqb_spec. intros [[-> ->] ->]. reflexivity.
Qed.
Definition hashes_b (l : list (@F toy_field * @F toy_field * @F toy_field)) : bool :=
  let hs := map (fun x => (x, @hash3 T x)) l in
  forallb (fun x => forallb (fun y => negb (zeqb (snd x) (snd y)) || trip_eqb (fst x) (fst y)) hs && negb (zeqb (snd x) (@f0 toy_field))) hs.
Lemma hashes_b_ok l : hashes_b l = true -> @hash_collision_free T l.
Proof.
  unfold hashes_b. cbv zeta. rewrite forallb_forall. intros H. split.
  - intros x y Hx Hy E. specialize (H (x, @hash3 T x) (in_map _ _ _ Hx)). apply andb_true_iff in H. destruct H as [H _].
    rewrite forallb_forall in H. specialize (H (y, @hash3 T y) (in_map _ _ _ Hy)). cbn [fst snd] in H.
    apply orb_true_iff in H. destruct H as [H|H]; [|apply trip_eqb_ok; exact H].
    apply negb_true_iff in H. apply zeqb_neq in H. contradiction (H E).
  - intros x Hx E. specialize (H (x, @hash3 T x) (in_map _ _ _ Hx)). apply andb_true_iff in H. destruct H as [_ H]. cbn [snd] in H.
    apply negb_true_iff in H. apply zeqb_neq in H. exact (H E).
Qed.
Definition binding_b (l : list (@RoV T)) : bool :=
  let cs := map (fun r => (@content T r, @commitment_of T r)) l in
  forallb (fun x => forallb (fun y => negb (zeqb (snd x) (snd y)) ||
     (@flist_eqb T (fst (fst x)) (fst (fst y)) && zeqb (snd (fst x)) (snd (fst y)))) cs) cs.
Lemma binding_b_ok l : binding_b l = true -> @commitment_binding T l.
Proof.
  unfold binding_b. cbv zeta. rewrite forallb_forall. intros H x y Hx Hy E.
  specialize (H _ (in_map (fun r => (@content T r, @commitment_of T r)) _ _ Hx)). rewrite forallb_forall in H.
  specialize (H _ (in_map (fun r => (@content T r, @commitment_of T r)) _ _ Hy)). cbn [fst snd] in H.
  apply orb_true_iff in H. destruct H as [H|H]; [apply negb_true_iff in H; apply zeqb_neq in H; contradiction (H E)|].
  apply andb_true_iff in H. destruct H as [H1 H2]. apply (@flist_eqb_ok T) in H1. apply zeqb_spec in H2.
  destruct (content x) as [a b], (content y) as [a' b']. cbn [fst snd] in *. subst. reflexivity.
Qed.
Definition secrets_b (sp : list (@Spend T)) : bool :=
  forallb (fun s => (zv (sp_sk s) <? bn_l) && negb (@xy_eqb T (ro_owner (sp_ro s)) (@no_key T))) sp.
Lemma secrets_b_ok sp : secrets_b sp = true -> forall s, In s sp -> zv (sp_sk s) < @sub_order toy_field /\ ro_owner (sp_ro s) <> @no_key T.
Proof.
  unfold secrets_b. rewrite forallb_forall. intros H s Hs. specialize (H s Hs). apply andb_true_iff in H. destruct H as [H1 H2].
  split; [apply Z.ltb_lt; exact H1|]. apply negb_true_iff in H2. apply xy_eqb_false. exact H2.
Qed.
(** the hypotheses of the theorems about a history of which the notes [txns] were accepted *)
Definition hyps_b (op : @TransactionNote T TS -> @Opening T) (txns : list (@TransactionNote T TS)) (h : list LE) : bool :=
  let sp := @spends_of T TS op txns in
  hashes_b (@history_hashes T 2 (lg_leaves (@ledger_after T TS l_ser l_validator h)) sp) &&
  binding_b (@records T TS l_ser op l_validator h ++ map sp_ro sp).
Lemma hyps_b_ok op h : hyps_b op (@accepted T TS l_ser l_validator h) h = true ->
  let sp := @spends_of T TS op (@accepted T TS l_ser l_validator h) in
  @hash_collision_free T (@history_hashes T 2 (lg_leaves (@ledger_after T TS l_ser l_validator h)) sp) /\
  @commitment_binding T (@records T TS l_ser op l_validator h ++ map sp_ro sp).
Proof.
  unfold hyps_b. cbv zeta. rewrite andb_true_iff. intros [H1 H2]. split; [apply hashes_b_ok; exact H1|apply binding_b_ok; exact H2].
Qed.

(** ** One block *)
Lemma one_block r0 r1 r2 txns : @valid_b T TS l_ser l_validator (l_start r0 r1 r2) (l_event txns) = true ->
  let h := l_history r0 r1 r2 [txns] in
  @effective T TS l_ser l_validator (@ledger_new T 2) h = h /\ @accepted T TS l_ser l_validator h = txns.
Proof.
  intros H. cbv zeta.
  assert (E : @effective T TS l_ser l_validator (@ledger_new T 2) (l_history r0 r1 r2 [txns]) = l_history r0 r1 r2 [txns]).
  { unfold l_history, l_mints. cbn [map app].
    change (@effective T TS l_ser l_validator (@ledger_new T 2) [EvMint r0; EvMint r1; EvMint r2; l_event txns]) with
      ([EvMint r0; EvMint r1; EvMint r2] ++ (if @valid_b T TS l_ser l_validator (l_start r0 r1 r2) (l_event txns) then [l_event txns] else []) ++ []).
    rewrite H. reflexivity. }
  split; [exact E|]. unfold accepted. change (vd_depth l_validator) with 2%nat. rewrite E. cbn. rewrite app_nil_r. reflexivity.
Qed.
(** ** A block, then one that is refused *)
Lemma two_blocks r0 r1 r2 txns txns' : @valid_b T TS l_ser l_validator (l_start r0 r1 r2) (l_event txns) = true ->
  @valid_b T TS l_ser l_validator (@step T TS l_ser l_validator (l_start r0 r1 r2) (l_event txns)) (l_event txns') = false ->
  let h := l_history r0 r1 r2 [txns; txns'] in
  @effective T TS l_ser l_validator (@ledger_new T 2) h = l_history r0 r1 r2 [txns] /\ @accepted T TS l_ser l_validator h = txns.
Proof.
  intros H H'. cbv zeta.
  assert (E : @effective T TS l_ser l_validator (@ledger_new T 2) (l_history r0 r1 r2 [txns; txns']) = l_history r0 r1 r2 [txns]).
  { unfold l_history, l_mints. cbn [map app].
    change (@effective T TS l_ser l_validator (@ledger_new T 2) [EvMint r0; EvMint r1; EvMint r2; l_event txns; l_event txns']) with
      ([EvMint r0; EvMint r1; EvMint r2] ++ @effective T TS l_ser l_validator (l_start r0 r1 r2) [l_event txns; l_event txns']).
    change (@effective T TS l_ser l_validator (l_start r0 r1 r2) [l_event txns; l_event txns']) with
      ((if @valid_b T TS l_ser l_validator (l_start r0 r1 r2) (l_event txns) then [l_event txns] else []) ++
       (if @valid_b T TS l_ser l_validator (@step T TS l_ser l_validator (l_start r0 r1 r2) (l_event txns)) (l_event txns') then [l_event txns'] else []) ++ []).
    rewrite H, H'. reflexivity. }
  split; [exact E|]. unfold accepted. change (vd_depth l_validator) with 2%nat. rewrite E. cbn. rewrite app_nil_r. reflexivity.
Qed.

(** ** Honest history: the sample transfer is accepted, then the sample mint, which spends the same fee record, is refused *)
Definition l_op (o : @Opening T) : @TransactionNote T TS -> @Opening T := fun _ => o.
Notation l_after h := (@ledger_after T TS l_ser l_validator h).
Notation l_accepted h := (@accepted T TS l_ser l_validator h).
Notation l_effective h := (@effective T TS l_ser l_validator (@ledger_new T 2) h).
Notation l_records op h := (@records T TS l_ser op l_validator h).
Notation l_spends op h := (@spends_of T TS op (l_accepted h)).
Definition same_code_b (t : @TransferV T) : bool :=
  forallb (fun i => zeqb (ro_code (in_ro i)) dummy_asset_code || zeqb (ro_code (in_ro i)) (tv_code t)) (tl (tv_ins t)).
Lemma same_code_b_ok t : same_code_b t = true -> forall i, In i (tl (tv_ins t)) -> ro_code (in_ro i) <> dummy_asset_code -> ro_code (in_ro i) = tv_code t.
Proof.
  unfold same_code_b. rewrite forallb_forall. intros H i Hi Hd. specialize (H i Hi). apply orb_true_iff in H. rewrite !zeqb_spec in H.
  destruct H; [contradiction|assumption].
Qed.
Definition is_2 (n : nat) : bool := (n =? 2)%nat.

Definition h_code : @F toy_field := code (s_def true).
Lemma honest_history : exists n sk m sk', h_transfer true = Ok (n, sk) /\ h_mint true = Ok (m, sk') /\
  let h := l_history (h_fee true) (h_in1 true) (h_in2 true) [[TxTransfer n]; [TxMint m]] in
  let op := l_op (OpTransfer h_opening) in
  l_accepted h = [TxTransfer n] /\
  (forall t, In t (l_accepted h) -> @tx_opens T TS 2 t (op t)) /\
  @hash_collision_free T (@history_hashes T 2 (lg_leaves (l_after h)) (l_spends op h)) /\
  @commitment_binding T (l_records op h ++ map sp_ro (l_spends op h)) /\
  (forall s, In s (l_spends op h) -> zv (sp_sk s) < @sub_order toy_field /\ ro_owner (sp_ro s) <> @no_key T) /\
  (forall t, In t (l_accepted h) -> @supply_condition T TS t (op t)) /\
  length (l_spends op h) = 2%nat /\ length (lg_leaves (l_after h)) = 7%nat /\
  @total T native_asset_code (@unspent T (l_records op h) (l_spends op h)) = 20 /\
  @total T h_code (@unspent T (l_records op h) (l_spends op h)) = 38.
Proof.
  assert (H : get (h_transfer true) (fun n => get (h_mint true) (fun m =>
    let h := l_history (h_fee true) (h_in1 true) (h_in2 true) [[TxTransfer (fst n)]; [TxMint (fst m)]] in
    let op := l_op (OpTransfer h_opening) in
    let sp := @spends_of T TS op [TxTransfer (fst n)] in
    @valid_b T TS l_ser l_validator (l_start (h_fee true) (h_in1 true) (h_in2 true)) (l_event [TxTransfer (fst n)]) &&
    negb (@valid_b T TS l_ser l_validator (@step T TS l_ser l_validator (l_start (h_fee true) (h_in1 true) (h_in2 true)) (l_event [TxTransfer (fst n)])) (l_event [TxMint (fst m)])) &&
    transfer_good 2 3 2 h_root (w64 500) h_opening (fst n) && hyps_b op [TxTransfer (fst n)] h && secrets_b sp &&
    (length sp =? 2)%nat && (length (lg_leaves (l_after h)) =? 7)%nat &&
    (@total T native_asset_code (@unspent T (l_records op h) sp) =? 20) &&
    (@total T h_code (@unspent T (l_records op h) sp) =? 38))) = true) by (vm_compute; reflexivity).
  apply get_ok in H. destruct H as ([n sk] & En & H). apply get_ok in H. destruct H as ([m sk'] & Em & H). cbn [fst] in H. cbv zeta in H.
  apply andb_true_iff in H. destruct H as [H H9]. apply andb_true_iff in H. destruct H as [H H8]. apply andb_true_iff in H. destruct H as [H H7]. apply andb_true_iff in H. destruct H as [H H6]. apply andb_true_iff in H. destruct H as [H H5]. apply andb_true_iff in H. destruct H as [H H4]. apply andb_true_iff in H. destruct H as [H H3]. apply andb_true_iff in H. destruct H as [H1 H2]. apply negb_true_iff in H2.
  exists n, sk, m, sk'. split; [exact En|]. split; [exact Em|]. cbv zeta.
  destruct (two_blocks _ _ _ _ _ H1 H2) as [_ EA]. cbv zeta in EA.
  assert (HH := hyps_b_ok (l_op (OpTransfer h_opening)) (l_history (h_fee true) (h_in1 true) (h_in2 true) [[TxTransfer n]; [TxMint m]])).
  rewrite EA in *. specialize (HH H4). cbv zeta in HH.
  split; [reflexivity|]. split; [intros t [<-|[]]; apply transfer_good_ok in H3; apply H3|].
  split; [apply HH|]. split; [apply HH|]. split; [apply secrets_b_ok; exact H5|]. split; [|split; [apply Nat.eqb_eq; exact H6|]; split; [apply Nat.eqb_eq; exact H7|]; split; [apply Z.eqb_eq; exact H8|apply Z.eqb_eq; exact H9]].
  intros t [<-|[]]. cbn [supply_condition l_op]. split; [|split; vm_compute; reflexivity].
  apply same_code_b_ok. vm_compute. reflexivity.
Qed.
