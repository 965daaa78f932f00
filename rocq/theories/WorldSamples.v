(** Four wallets next to the honest history of LedgerSamples.v: user 11 pays the fee of a transfer from user 12 to user 13
    in a block of user 20.  For examples only. *)
From Verif Require Import Base Config Structs Keys Utils Memo Plonk Witness Circuits Relation Snark Notes Serde ToySer
  GadgetProofs NoteProofs Accepted Decide CircuitFacts Toy ToySnark Samples NoteSamples Ledger LedgerSpec LedgerProofs LedgerSupply LedgerSamples
  Wallet WalletSpec WalletProofs WalletPay WalletPay2 WalletSamples WorldSpec WorldProofs WorldSolvent.
#[local] Existing Instance toy_snark.
#[local] Existing Instance l_ser.
#[local] Existing Instance w_codec.
#[local] Instance world_memo : MemoSer T := toy_memo_ser true.
#[local] Instance world_i : CapConfig := T.
#[local] Notation accepted := Ledger.accepted.

(** the wallets before the block *)
Definition ww (k : Z) (l : list (@RecordOpening T * u64)) : @Wallet T := fold_left (fun w x => @add_record_opening T w (fst x) (snd x)) l (@wallet_new T (s_user true k)).
Definition ww_change : @RecordOpening T := s_native true 15 11 200.
Definition ww_seen (k : Z) : list (@Owned T) :=
  if k =? 11 then [(h_fee true, w64 0)] else if k =? 12 then [(h_in1 true, w64 1); (h_in2 true, w64 2)] else [].
Definition ww_before (k : Z) : @Wallet T :=
  let w := ww k (ww_seen k) in if k =? 11 then @set_chg T w (set_insert (@ro_eqb T) ww_change (w_pending_chg w)) else w.
(** the memos of the outputs after the first *)
Definition ww_memos : list (@ReceiverMemo T) :=
  flat_map (fun ro => match @receiver_memo_from_ro T w_codec tt ro [] with Ok m => [m] | _ => [] end) (tl (h_outputs true)).
Definition ww_scan (n : @TransferNote T TS) (k : Z) : res (@Wallet T * list (@RecordOpening T)) := @scan_txn T TS w_codec (ww_before k) (TxTransfer n) ww_memos 3.
Definition ww_got (n : @TransferNote T TS) (k : Z) : list (@Owned T) := @paid_list T TS w_codec (ww_before k) (TxTransfer n) ww_memos 3.
Definition ww_fee : @RecordOpening T := s_native true 5 20 777.
(** the wallets after the block: the proposer gives itself the fee record *)
Definition ww_after (n : @TransferNote T TS) (k : Z) : @Wallet T * list (@Owned T) :=
  let w := match ww_scan n k with Ok (w, _) => w | _ => ww_before k end in
  if k =? 20 then (@add_record_opening T w ww_fee (w64 6), (ww_seen k ++ ww_got n k ++ []) ++ [(ww_fee, w64 6)]) else (w, ww_seen k ++ ww_got n k ++ []).
Definition ww_all (n : @TransferNote T TS) : list (@Wallet T * list (@Owned T)) := map (ww_after n) [11; 12; 13; 20].

Definition triples_b (l : list (@F toy_field * @F toy_field * @F toy_field)) : bool :=
  let hs := map (fun x => (x, @nullifier3 T x)) l in
  forallb (fun x => forallb (fun y => negb (zeqb (snd x) (snd y)) || trip_eqb (fst x) (fst y)) hs) hs.
Lemma triples_b_ok l : triples_b l = true -> @nullifier_binding T l.
Proof.
  unfold triples_b. cbv zeta. rewrite forallb_forall. intros H x y Hx Hy E. specialize (H (x, @nullifier3 T x) (in_map _ _ _ Hx)).
  rewrite forallb_forall in H. specialize (H (y, @nullifier3 T y) (in_map _ _ _ Hy)). cbn [fst snd] in H.
  apply orb_true_iff in H. destruct H as [H|H]; [|apply trip_eqb_ok; exact H]. apply negb_true_iff in H. apply zeqb_neq in H. contradiction (H E).
Qed.
Definition not_dummy_b (l : list (@Owned T)) : bool := forallb (fun x => negb (zeqb (code (asset_def (fst x))) (@dummy_asset_code toy_field))) l.
Lemma not_dummy_b_ok l : not_dummy_b l = true -> forall x, In x l -> code (asset_def (fst x)) <> @dummy_asset_code toy_field.
Proof. unfold not_dummy_b. rewrite forallb_forall. intros H x Hx. specialize (H x Hx). apply negb_true_iff in H. apply zeqb_neq in H. exact H. Qed.

(** the values of the records and inputs of the block *)
Definition ww_records : list (@RoV T) := map (@ro_value T) [h_fee true; h_in1 true; h_in2 true] ++ @op_outputs T (OpTransfer h_opening) ++ [@ro_value T ww_fee].
Definition ww_inputs : list (@Spend T) := @op_inputs T (OpTransfer h_opening) ++ [].
Definition ww_check (n : @TransferNote T TS) : bool :=
  let se := flat_map (fun m => snd m) (ww_all n) in
  forallb (fun k => is_ok (ww_scan n k)) [11; 12; 13; 20] &&
  binding_b (ww_records ++ map sp_ro ww_inputs ++ map (fun x => @ro_value T (fst x)) se) &&
  triples_b (flat_map (@spend_triples T) ww_inputs ++ flat_map (fun k => @own_triples T (s_user true k) 0 ww_records) [11; 12; 13; 20]) &&
  not_dummy_b se && match @block_fee_record T TS (l_block [TxTransfer n]) with Ok ro => @ro_eqb T ro ww_fee | _ => false end && (length (flat_map (@tx_output_commitments T TS) [TxTransfer n]) =? 3)%nat &&
  forallb (fun j => existsb (fun x => zv (snd x) =? Z.of_nat j) se) [0; 1; 2; 3; 4; 5; 6]%nat.
Definition ww_balances (n : @TransferNote T TS) : list (Z * Z) :=
  map (fun m => (@total_of T (@native_asset_code toy_field) (@held T (fst m)), @total_of T h_code (@held T (fst m)))) (ww_all n).

(** ** The wallets follow the history *)
Notation W_leads := (@leads T TS l_ser w_codec world_memo l_validator).
Notation W_follows := (@follows T TS l_ser w_codec world_memo l_validator).
Definition W_own h w se ro H1 H2 := @act_mint_own T TS l_ser w_codec world_memo l_validator h w se ro H1 H2.
Definition W_other h w se ro := @act_mint T TS l_ser w_codec world_memo l_validator h w se ro.
Notation W_step := (@leads_step T TS l_ser w_codec world_memo l_validator _ _ _ _ _ _ _ _ _).
Definition ww_mints : list LE := l_mints (h_fee true) (h_in1 true) (h_in2 true).
Lemma ww_start_11 : W_leads [] (@wallet_new T (s_user true 11)) [] ww_mints (ww_before 11) (ww_seen 11).
Proof.
  refine (W_step (W_step (W_step (W_step (leads_refl _ _ _ _) _) _) _) _).
  - exact (W_own [] (@wallet_new T (s_user true 11)) [] (h_fee true) eq_refl eq_refl).
  - exact (W_other [EvMint (h_fee true)] _ _ (h_in1 true)).
  - exact (W_other [EvMint (h_fee true); EvMint (h_in1 true)] _ _ (h_in2 true)).
  - exact (@act_change T TS l_ser w_codec world_memo l_validator ww_mints (ww 11 (ww_seen 11)) (ww_seen 11) ww_change eq_refl eq_refl eq_refl).
Qed.
Lemma ww_start_12 : W_leads [] (@wallet_new T (s_user true 12)) [] ww_mints (ww_before 12) (ww_seen 12).
Proof.
  refine (W_step (W_step (W_step (leads_refl _ _ _ _) _) _) _).
  - exact (W_other [] (@wallet_new T (s_user true 12)) [] (h_fee true)).
  - refine (W_own [EvMint (h_fee true)] _ _ (h_in1 true) _ _); reflexivity.
  - refine (W_own [EvMint (h_fee true); EvMint (h_in1 true)] _ _ (h_in2 true) _ _); reflexivity.
Qed.
Lemma ww_start_new k : W_leads [] (@wallet_new T (s_user true k)) [] ww_mints (@wallet_new T (s_user true k)) [].
Proof.
  refine (W_step (W_step (W_step (leads_refl _ _ _ _) _) _) _).
  - exact (W_other [] (@wallet_new T (s_user true k)) [] (h_fee true)).
  - exact (W_other [EvMint (h_fee true)] _ _ (h_in1 true)).
  - exact (W_other [EvMint (h_fee true); EvMint (h_in1 true)] _ _ (h_in2 true)).
Qed.
Lemma ww_start k : In k [11; 12; 13; 20] -> W_leads [] (@wallet_new T (s_user true k)) [] ww_mints (ww_before k) (ww_seen k).
Proof.
  intros [<-|[<-|[<-|[<-|[]]]]]; [exact ww_start_11|exact ww_start_12|exact (ww_start_new 13)|exact (ww_start_new 20)].
Qed.

(** which of the two blocks are accepted can be seen from the accepted transactions *)
Lemma two_blocks_inv r0 r1 r2 n m : let h := l_history r0 r1 r2 [[TxTransfer n]; [TxMint m]] in
  l_accepted h = [TxTransfer n] ->
  @valid_b T TS l_ser l_validator (l_start r0 r1 r2) (l_event [TxTransfer n]) = true /\
  @valid_b T TS l_ser l_validator (@step T TS l_ser l_validator (l_start r0 r1 r2) (l_event [TxTransfer n])) (l_event [TxMint m]) = false.
Proof.
  cbv zeta. intros H.
  assert (EE : @effective T TS l_ser l_validator (@ledger_new T 2) (l_history r0 r1 r2 [[TxTransfer n]; [TxMint m]]) =
    l_mints r0 r1 r2 ++ (if @valid_b T TS l_ser l_validator (l_start r0 r1 r2) (l_event [TxTransfer n]) then [l_event [TxTransfer n]] else []) ++
       (if @valid_b T TS l_ser l_validator (@step T TS l_ser l_validator (l_start r0 r1 r2) (l_event [TxTransfer n])) (l_event [TxMint m]) then [l_event [TxMint m]] else []) ++ []).
  { unfold l_history, l_mints. cbn [map app].
    change (@effective T TS l_ser l_validator (@ledger_new T 2) [EvMint r0; EvMint r1; EvMint r2; l_event [TxTransfer n]; l_event [TxMint m]]) with
      ([EvMint r0; EvMint r1; EvMint r2] ++ @effective T TS l_ser l_validator (l_start r0 r1 r2) [l_event [TxTransfer n]; l_event [TxMint m]]).
    reflexivity. }
  unfold Ledger.accepted in H. change (vd_depth l_validator) with 2%nat in H. rewrite EE in H.
  destruct (@valid_b T TS l_ser l_validator (l_start r0 r1 r2) (l_event [TxTransfer n])); destruct (valid_b _ _ (l_event [TxMint m])); cbn in H; try discriminate H; split; reflexivity.
Qed.

Section WorldHistory.
  Variable (n : @TransferNote T TS) (m : @MintNote T TS).
  Let h := l_history (h_fee true) (h_in1 true) (h_in2 true) [[TxTransfer n]; [TxMint m]].
  Let h1 := ww_mints ++ [l_event [TxTransfer n]].
  Hypothesis (HA : l_accepted h = [TxTransfer n]) (HC : ww_check n = true).
  Lemma ww_first : @validate_block T TS l_ser l_validator (l_after ww_mints) (l_block [TxTransfer n])
    (@user_sign T (s_user true 20) (@enc _ (@c_block T TS l_ser) (l_block [TxTransfer n]))) (w64 500) l_proposer = Ok tt.
  Proof. apply valid_b_block. exact (proj1 (two_blocks_inv _ _ _ n m HA)). Qed.
  Lemma ww_second : @validate_block T TS l_ser l_validator (l_after h1) (l_block [TxMint m])
    (@user_sign T (s_user true 20) (@enc _ (@c_block T TS l_ser) (l_block [TxMint m]))) (w64 500) l_proposer <> Ok tt.
  Proof.
    intros E. pose proof (proj2 (two_blocks_inv _ _ _ n m HA)) as H2. unfold l_event at 2 in H2. cbn [valid_b] in H2.
    change (@step T TS l_ser l_validator (l_start (h_fee true) (h_in1 true) (h_in2 true)) (l_event [TxTransfer n])) with (l_after h1) in H2.
    rewrite E in H2. discriminate H2.
  Qed.
  Lemma ww_facts : (forall k, In k [11; 12; 13; 20] -> is_ok (ww_scan n k) = true) /\ @block_fee_record T TS (l_block [TxTransfer n]) = Ok ww_fee /\
    length (flat_map (@tx_output_commitments T TS) [TxTransfer n]) = 3%nat /\
    @commitment_binding T (ww_records ++ map sp_ro ww_inputs ++ map (fun x => @ro_value T (fst x)) (flat_map (fun m => snd m) (ww_all n))) /\
    @nullifier_binding T (flat_map (@spend_triples T) ww_inputs ++ flat_map (fun k => @own_triples T (s_user true k) 0 ww_records) [11; 12; 13; 20]) /\
    (forall x, In x (flat_map (fun m => snd m) (ww_all n)) -> code (asset_def (fst x)) <> @dummy_asset_code toy_field) /\
    (forall j, In j [0; 1; 2; 3; 4; 5; 6]%nat -> exists x, In x (flat_map (fun m => snd m) (ww_all n)) /\ zv (snd x) = Z.of_nat j).
  Proof.
    pose proof HC as H. unfold ww_check in H. cbv zeta in H.
    apply andb_true_iff in H. destruct H as [H H7]. apply andb_true_iff in H. destruct H as [H H6]. apply andb_true_iff in H. destruct H as [H H5].
    apply andb_true_iff in H. destruct H as [H H4]. apply andb_true_iff in H. destruct H as [H H3]. apply andb_true_iff in H. destruct H as [H1 H2].
    split; [apply forallb_forall; exact H1|]. split.
    { destruct (@block_fee_record T TS (l_block [TxTransfer n])) as [ro| |]; [|discriminate H5|discriminate H5]. apply (ro_eqb_iff (toy_laws true)) in H5. rewrite H5. reflexivity. }
    split; [apply Nat.eqb_eq; exact H6|]. split; [apply binding_b_ok; exact H2|]. split; [apply triples_b_ok; exact H3|]. split; [apply not_dummy_b_ok; exact H4|].
    intros j Hj. apply (proj1 (forallb_forall _ _) H7) in Hj. apply existsb_exists in Hj. destruct Hj as (x & Hx & HZ). exists x. split; [exact Hx|apply Z.eqb_eq; exact HZ].
  Qed.
  Lemma ww_leads k w0 : In k [11; 12; 13; 20] -> W_leads [] w0 [] ww_mints (ww_before k) (ww_seen k) -> W_leads [] w0 [] h (fst (ww_after n k)) (snd (ww_after n k)) /\
    W_leads ww_mints (ww_before k) (ww_seen k) h (fst (ww_after n k)) (snd (ww_after n k)).
  Proof.
    intros Hk HS. destruct ww_facts as (F1 & F2 & F3 & _). specialize (F1 k Hk). destruct (ww_scan n k) as [[w fd]| |] eqn:ES; [|discriminate F1|discriminate F1]. clear F1.
    assert (KP : w_kp (ww_before k) = s_user true k) by (destruct Hk as [<-|[<-|[<-|[<-|[]]]]]; reflexivity).
    assert (SC : @scanned T TS w_codec (ww_before k) (combine [TxTransfer n] [ww_memos]) (length (lg_leaves (l_after ww_mints))) w (ww_got n k ++ [])).
    { cbn [combine]. refine (scanned_cons _ _ _ _ w fd _ _ _ _ ES _ (scanned_nil _ _)). intros x. apply paid_list_in. }
    assert (G2 : @act T TS l_ser w_codec world_memo l_validator h1 (fst (ww_after n k)) (snd (ww_after n k)) h (fst (ww_after n k)) (snd (ww_after n k))).
    { unfold h. exact (@act_refused T TS l_ser w_codec world_memo l_validator h1 _ _ _ _ _ _ ww_second). }
    enough (G1 : @act T TS l_ser w_codec world_memo l_validator ww_mints (ww_before k) (ww_seen k) h1 (fst (ww_after n k)) (snd (ww_after n k))).
    { split; [exact (W_step (W_step HS G1) G2)|exact (W_step (W_step (leads_refl _ _ _ _) G1) G2)]. }
    unfold ww_after. rewrite ES. destruct (k =? 20) eqn:E20.
    - assert (U : w64 (Z.of_nat (length (lg_leaves (l_after ww_mints)) + length (flat_map (@tx_output_commitments T TS) (bk_txns (l_block [TxTransfer n]))))) = w64 6).
      { change (bk_txns (l_block [TxTransfer n])) with [@TxTransfer T TS n]. rewrite F3. reflexivity. }
      assert (PK : pub_key ww_fee = user_pub_key (w_kp (ww_before k))) by (rewrite KP; apply Z.eqb_eq in E20; rewrite E20; reflexivity).
      pose proof (@act_block_fee T TS l_ser w_codec world_memo l_validator ww_mints (ww_before k) (ww_seen k) _ _ _ _ ww_fee [ww_memos] w (ww_got n k ++ []) ww_first F2 eq_refl SC PK) as A.
      cbv zeta in A. rewrite U in A. exact A.
    - exact (@act_block T TS l_ser w_codec world_memo l_validator ww_mints (ww_before k) (ww_seen k) _ _ _ _ ww_fee [ww_memos] w (ww_got n k ++ []) ww_first F2 eq_refl SC).
  Qed.

  Lemma ww_follows k : In k [11; 12; 13; 20] -> W_follows h (fst (ww_after n k)) (snd (ww_after n k)).
  Proof. intros Hk. exists (s_user true k). exact (proj1 (ww_leads k _ Hk (ww_start k Hk))). Qed.
  Lemma ww_effective : @effective T TS l_ser l_validator (@ledger_new T 2) h = ww_mints ++ [l_event [TxTransfer n]].
  Proof. destruct (two_blocks_inv _ _ _ n m HA) as [V1 V2]. exact (proj1 (two_blocks _ _ _ _ _ V1 V2)). Qed.
  Lemma ww_records_eq : l_records (l_op (OpTransfer h_opening)) h = ww_records.
  Proof.
    unfold records. change (vd_depth l_validator) with 2%nat. rewrite ww_effective. destruct ww_facts as (_ & F2 & _). unfold ww_records, ww_mints, l_mints, l_event.
    cbn [app flat_map event_records map]. rewrite F2. rewrite !app_nil_r. reflexivity.
  Qed.
  Lemma ww_inputs_eq : @inputs_of T TS (l_op (OpTransfer h_opening)) (l_accepted h) = ww_inputs.
  Proof. rewrite HA. reflexivity. Qed.
  Hypothesis (H1 : forall t, In t (l_accepted h) -> @tx_opens T TS 2 t (l_op (OpTransfer h_opening) t))
    (H2 : @hash_collision_free T (@history_hashes T 2 (lg_leaves (l_after h)) (l_spends (l_op (OpTransfer h_opening)) h)))
    (H3 : forall s, In s (l_spends (l_op (OpTransfer h_opening)) h) -> zv (sp_sk s) < @sub_order toy_field /\ ro_owner (sp_ro s) <> @no_key T)
    (H4 : length (lg_leaves (l_after h)) = 7%nat).
  Lemma ww_members m' : In m' (ww_all n) -> exists k, In k [11; 12; 13; 20] /\ m' = ww_after n k.
  Proof. unfold ww_all. intros H. apply in_map_iff in H. destruct H as (k & <- & Hk). exists k. split; [exact Hk|reflexivity]. Qed.
  Lemma ww_keys : map (fun m => w_kp (fst m)) (ww_all n) = map (s_user true) [11; 12; 13; 20].
  Proof.
    unfold ww_all. rewrite map_map. apply map_ext_in. intros k Hk. destruct ww_facts as (F1 & _). specialize (F1 k Hk).
    assert (E : forall w fd, ww_scan n k = Ok (w, fd) -> w_kp w = s_user true k).
    { intros w fd ES. pose proof (scan_txn_kp _ _ _ _ _ _ ES) as [E _]. rewrite E. destruct Hk as [<-|[<-|[<-|[<-|[]]]]]; reflexivity. }
    unfold ww_after. destruct (ww_scan n k) as [[w fd]| |]; [|discriminate F1|discriminate F1]. specialize (E w fd eq_refl). destruct (k =? 20); cbn [fst]; exact E.
  Qed.
  Lemma ww_collision_free : @collision_free T TS l_ser l_validator (l_op (OpTransfer h_opening)) h (map (fun m => w_kp (fst m)) (ww_all n)) (flat_map (fun m => snd m) (ww_all n)).
  Proof.
    destruct ww_facts as (_ & _ & _ & F4 & F5 & F6 & _). rewrite ww_keys. constructor.
    - exact H1.
    - change (vd_depth l_validator) with 2%nat. lia.
    - rewrite H4. reflexivity.
    - exact H2.
    - rewrite ww_records_eq, ww_inputs_eq. exact F4.
    - rewrite ww_records_eq, ww_inputs_eq. exact F5.
    - exact H3.
    - exact F6.
  Qed.
End WorldHistory.

Lemma ww_before_follows k : In k [11; 12; 13; 20] -> W_follows ww_mints (ww_before k) (ww_seen k).
Proof. intros Hk. exists (s_user true k). exact (ww_start k Hk). Qed.

Notation ww_op := (l_op (OpTransfer h_opening)).
Definition ww_history (n : @TransferNote T TS) (m : @MintNote T TS) : list LE := l_history (h_fee true) (h_in1 true) (h_in2 true) [[TxTransfer n]; [TxMint m]].
Definition pair_eqb (a b : Z * Z) : bool := (fst a =? fst b) && (snd a =? snd b).
Fixpoint pairs_b (l l' : list (Z * Z)) : bool := match l, l' with [], [] => true | a :: l, b :: l' => pair_eqb a b && pairs_b l l' | _, _ => false end.
Lemma pairs_b_ok : forall l l' : list (Z * Z), pairs_b l l' = true -> l = l'.
Proof.
  induction l as [|a l IH]; intros [|b l'] H; cbn [pairs_b] in H; [reflexivity|discriminate H|discriminate H|]. apply andb_true_iff in H. destruct H as [H1 H2].
  unfold pair_eqb in H1. apply andb_true_iff in H1. destruct H1 as [A B]. apply Z.eqb_eq in A. apply Z.eqb_eq in B. rewrite (IH _ H2). destruct a, b. cbn in A, B. subst. reflexivity.
Qed.
Lemma ww_addresses : NoDup (map (@user_address T) (map (s_user true) [11; 12; 13; 20])).
Proof.
  assert (G : forall a b, In (a, b) [(11, 12); (11, 13); (11, 20); (12, 13); (12, 20); (13, 20)] -> @point_eqb T (@user_address T (s_user true a)) (@user_address T (s_user true b)) = false).
  { intros a b H. cbn [In] in H. repeat (destruct H as [H|H]; [inversion H; vm_compute; reflexivity|]). contradiction. }
  assert (N : forall a b, In (a, b) [(11, 12); (11, 13); (11, 20); (12, 13); (12, 20); (13, 20)] -> @user_address T (s_user true a) <> @user_address T (s_user true b)).
  { intros a b H E. specialize (G a b H). rewrite (proj2 (point_eqb_spec (toy_laws true) _ _) E) in G. discriminate G. }
  cbn [map]. repeat constructor; cbn [In]; intros H; repeat (destruct H as [H|H]; [symmetry in H; revert H; apply N; cbn [In]; tauto|]); exact H.
Qed.
Definition holds_b (w : @Wallet T) (x : @Owned T) : bool := existsb (@owned_eqb T x) (@held T w).
Lemma holds_b_ok w x : holds_b w x = true <-> @holds T w x.
Proof.
  rewrite <- (held_holds w x). unfold holds_b. rewrite existsb_exists. split.
  - intros (y & Hy & E). apply (owned_eqb_iff (toy_laws true)) in E. subst y. exact Hy.
  - intros H. exists x. split; [exact H|]. apply (owned_eqb_iff (toy_laws true)). reflexivity.
Qed.
Definition world_check_b (n : @TransferNote T TS) : bool :=
  ww_check n && pairs_b (ww_balances n) [(15, 0); (0, 20); (0, 18); (5, 0)] && holds_b (ww_before 12) (h_in1 true, w64 1) &&
    negb (holds_b (fst (ww_after n 12)) (h_in1 true, w64 1)).
Lemma world_checks n sk : h_transfer true = Ok (n, sk) -> world_check_b n = true.
Proof.
  intros En. assert (HC : get (h_transfer true) (fun n => world_check_b (fst n)) = true) by (vm_compute; reflexivity).
  apply get_ok in HC. destruct HC as ([n' sk2] & En' & HC). rewrite En in En'. apply (f_equal (fun r => match r with Ok (a, _) => a | _ => n end)) in En'. subst n'. exact HC.
Qed.
Lemma world_check n sk : h_transfer true = Ok (n, sk) -> ww_check n = true.
Proof.
  intros En. pose proof (world_checks n sk En) as HC. unfold world_check_b in HC. apply andb_true_iff in HC. destruct HC as [HC _]. apply andb_true_iff in HC. destruct HC as [HC _].
  apply andb_true_iff in HC. apply HC.
Qed.
(** The records of user 12 are spent by the transfer; the wallets together hold all that is unspent. *)
Lemma world_history : exists n sk m sk', h_transfer true = Ok (n, sk) /\ h_mint true = Ok (m, sk') /\
  @collision_free T TS l_ser l_validator ww_op (ww_history n m) (map (fun m => w_kp (fst m)) (ww_all n)) (flat_map (fun m => snd m) (ww_all n)) /\
  (forall k, In k [11; 12; 13; 20] -> W_follows (ww_history n m) (fst (ww_after n k)) (snd (ww_after n k)) /\
     W_follows ww_mints (ww_before k) (ww_seen k) /\ W_leads ww_mints (ww_before k) (ww_seen k) (ww_history n m) (fst (ww_after n k)) (snd (ww_after n k))) /\
  NoDup (map (fun m => @user_address T (w_kp (fst m))) (ww_all n)) /\
  (forall t, In t (l_accepted (ww_history n m)) -> @supply_condition T TS t (ww_op t)) /\
  (forall j, (j < length (l_records ww_op (ww_history n m)))%nat -> exists m x, In m (ww_all n) /\ In x (snd m) /\ zv (snd x) = Z.of_nat j) /\
  ww_balances n = [(15, 0); (0, 20); (0, 18); (5, 0)] /\
  holds_b (ww_before 12) (h_in1 true, w64 1) = true /\ holds_b (fst (ww_after n 12)) (h_in1 true, w64 1) = false.
Proof.
  destruct honest_history as (n & sk & m & sk' & En & Em & H). cbv zeta in H. destruct H as (HA & H1 & H2 & _ & H3 & HS & _ & H4 & _).
  pose proof (world_checks n sk En) as HC. unfold world_check_b in HC.
  apply andb_true_iff in HC. destruct HC as [HC HH2]. apply andb_true_iff in HC. destruct HC as [HC HH1]. apply andb_true_iff in HC. destruct HC as [HC HB].
  exists n, sk, m, sk'. split; [exact En|]. split; [exact Em|].
  split; [exact (ww_collision_free n m HA HC H1 H2 H3 H4)|].
  split; [intros k Hk; split; [exact (ww_follows n m HA HC k Hk)|]; split; [exact (ww_before_follows k Hk)|exact (proj2 (ww_leads n m HA HC k _ Hk (ww_start k Hk)))]|].
  split.
  { rewrite <- (map_map (fun m => w_kp (fst m)) (@user_address T)). rewrite (ww_keys n HC). exact ww_addresses. }
  split; [exact HS|]. split.
  { intros j Hj. unfold ww_history in Hj. rewrite (ww_records_eq n m HA HC) in Hj. destruct (ww_facts n HC) as (_ & _ & _ & _ & _ & _ & F7).
    assert (Hj' : In j [0; 1; 2; 3; 4; 5; 6]%nat) by (change (length ww_records) with 7%nat in Hj; cbn [In]; lia).
    destruct (F7 j Hj') as (x & Hx & EZ). apply in_flat_map in Hx. destruct Hx as (m' & Hm & Hx). exists m', x. auto. }
  split; [apply pairs_b_ok; exact HB|]. split; [exact HH1|]. apply negb_true_iff. exact HH2.
Qed.
