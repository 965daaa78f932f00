(** Freezer runs of the toy instance that are computed from start to end, and a state in which a listed record is spent. *)
From Verif Require UtilsProofs.
From Verif Require Import Base Config Structs Keys Utils Memo Plonk Witness Circuits Relation GadgetProofs Snark Notes Serde Ledger Wallet WalletSpec Roles RolesSpec.
From Verif Require Import LedgerProofs CodecProofs CircuitTheorems TransferCircuitProofs Security NoteProofs NoteGen NoteGen2 Accepted WalletProofs WalletPay WalletPay2 CircuitFacts Toy ToySnark Samples NoteSamples WalletSamples
  FreezerSpec FreezerBooks FreezerCalls FreezerRun FreezerHistory FreezerLive FreezerEffect FreezerSamples.
#[local] Existing Instance toy_snark.
#[local] Existing Instance w_codec.
#[local] Existing Instance toy_memo_i.
#[local] Open Scope Z_scope.

(** ** A mint *)
(** the ledger, the freezer and the wallet of user 13 *)
Notation fs_world := (@Ledger T * @Freezer T * @Wallet T)%type.
(** a transaction is accepted and scanned by both *)
Definition fs_commit (w : fs_world) (t : @TransactionNote T TS) (memos : list (@ReceiverMemo T)) : res fs_world :=
  let '(l, f, o) := w in
  let off := length (lg_leaves l) in
  let* f' := @freezer_scan_txn T TS w_codec f t memos off in
  let* (o', _) := @scan_txn T TS w_codec o t memos off in
  Ok (@store_current_mt_root T 3 (@insert_txn T TS l t), f', o').
Definition fs_start : fs_world := (fs_l, fs_f, @add_record_opening T (ws_receiver 13) fs_r3 (w64 3)).
Definition fs_mint_step (w : fs_world) : res fs_world :=
  let* k := @mint_preprocess T TS tt 3 in
  let* nk := fs_mint (fst k) in
  let* memo := @receiver_memo_from_ro T w_codec tt fs_ro [] in
  fs_commit w (TxMint (fst nk)) [memo].
(** ** Two calls, then the first note is confirmed *)
(** is every releasable record of user 13 the one in the tree? *)
Definition fs_honest (w : fs_world) : bool :=
  let '(l, f, _) := w in
  match amap_get (address fs_user) (fm_releasable f) with
  | Some b => forallb (fun x => match nth_error (lg_leaves l) (Z.to_nat (zv (snd x))) with Some c => zeqb c (@derive_record_commitment T (fst x)) | None => false end) b
  | None => true
  end.
Definition fs_confused (w : fs_world) : res fs_world :=
  let '(l, f, o) := w in
  match @freeze_user_internal T TS w_codec toy_memo_i tt 3 f (fs_rand 0) (address fs_user) (s_amount 2) (lg_leaves l) true with
  | (f1, Ok (n, memos, _)) =>
      match @freeze_user_internal T TS w_codec toy_memo_i tt 3 f1 (fs_rand 50) (address fs_user) (s_amount 2) (lg_leaves l) true with
      | (f2, Ok _) => fs_commit (l, f2, o) (TxFreeze n) memos
      | _ => Panic
      end
  | _ => Panic
  end.

(** ** User 13 spends the record: 20 units for user 12, 30 back, fee 1 *)
Definition fs_lv : list (@F toy_field) := lg_leaves fs_l ++ [@derive_record_commitment T (s_native true 6 12 555); @derive_record_commitment T fs_ro].
Definition fs_at (k : Z) : @AccMemberWitness T := match @lookup_from_tree T 3 fs_lv (w64 k) with Ok a => a | _ => @acc_dummy T 3 end.
Definition fs_ins : list (@TransferNoteInput T) := [@mkTIn T fs_r3 (fs_at 3) (s_user true 13) None; @mkTIn T fs_ro (fs_at 5) (s_user true 13) None].
Definition fs_y : @RecordOpening T := @mkRO T (s_amount 20) fs_def fs_other Unfrozen (@fz toy_field 811).
Definition fs_z : @RecordOpening T := @mkRO T (s_amount 30) fs_def fs_user Unfrozen (@fz toy_field 812).
Definition fs_outs : list (@RecordOpening T) := [s_native true 4 13 810; fs_y; fs_z].
Definition fs_pay pk := @transfer_generate T TS (h_rand true) fs_ins fs_outs pk (w64 500) [].
Lemma fs_paid_note : exists pk n sk, fs_pay pk = Ok (n, sk).
Proof.
  assert (G : get (let* k := @transfer_preprocess T TS tt 2 3 3 in fs_pay (fst k)) (fun _ => true) = true) by (vm_compute; reflexivity).
  destruct (get_ok _ _ G) as ([n sk] & H & _). apply bind_ok in H. destruct H as (k & _ & H). exists (fst k), n, sk. exact H.
Qed.
Lemma fs_pay_def : @witness_asset_def T fs_ins = fs_def.
Proof.
  assert (E0 : @is_native T (asset_def fs_r3) = true) by (vm_compute; reflexivity). assert (E1 : @is_native T (asset_def fs_ro) = false) by (vm_compute; reflexivity).
  assert (E2 : @is_dummy_def T (asset_def fs_ro) = false) by (vm_compute; reflexivity).
  unfold witness_asset_def, fs_ins. cbn [fold_left ti_ro]. rewrite E0, E1, E2. reflexivity.
Qed.
Lemma secret_inv (i : @TransferNoteInput T) x : @input_secret_of T i = Ok x -> exists c, x = @mkIS T (ti_kp i) (ti_ro i) (ti_acc i) c.
Proof. unfold input_secret_of. intros H. apply bind_ok in H. destruct H as (c & _ & H). injection H as <-. exists c. reflexivity. Qed.
Lemma fs_pay_fields f pk n sk : @fm_def T f = fs_def -> fs_pay pk = Ok (n, sk) ->
  In (@user_nullify T (s_user true 13) (@freezer_pub_key T fs_kp) (w64 5) (@derive_record_commitment T fs_ro)) (tn_nullifiers n) /\
  length (tn_nullifiers n) = 2%nat /\ tn_commitments n = map (@derive_record_commitment T) fs_outs /\
  exists t, @own_transfer T TS f 3 n t /\ tl (tv_outs t) = [ro_value fs_y; ro_value fs_z].
Proof.
  intros HD H. destruct (transfer_generate_inv (toy_laws true) _ _ _ _ _ _ _ _ H) as (w & p & s & G).
  pose proof (tg_nullifiers _ _ _ _ _ _ _ _ _ _ _ G) as EN. pose proof (tg_commitments _ _ _ _ _ _ _ _ _ _ _ G) as EC. pose proof (tg_witness _ _ _ _ _ _ _ _ _ _ _ G) as EW.
  split; [rewrite EN; right; left; reflexivity|]. split; [rewrite EN; reflexivity|]. split; [exact EC|].
  unfold transfer_new_unchecked in EW. apply bind_ok in EW. destruct EW as (secs & ES & EW). injection EW as <-.
  assert (S2 : exists c0 c1, secs = [@mkIS T (s_user true 13) fs_r3 (fs_at 3) c0; @mkIS T (s_user true 13) fs_ro (fs_at 5) c1]).
  { unfold fs_ins in ES. cbn [mapM] in ES. apply bind_ok in ES. destruct ES as (x0 & X0 & ES). apply bind_ok in ES. destruct ES as (rest & ER & ES). apply bind_ok in ER. destruct ER as (x1 & X1 & ER).
    cbn [bind] in ER. injection ER as <-. injection ES as <-. destruct (secret_inv _ _ X0) as (c0 & ->). destruct (secret_inv _ _ X1) as (c1 & ->). exists c0, c1. reflexivity. }
  destruct S2 as (c0 & c1 & ->).
  exists (transfer_value (@mkTW T (@witness_asset_def T fs_ins) [@mkIS T (s_user true 13) fs_r3 (fs_at 3) c0; @mkIS T (s_user true 13) fs_ro (fs_at 5) c1] fs_outs (tr_enc (h_rand true)))).
  split; [|reflexivity]. pose proof (tg_relation (toy_laws true) _ _ _ _ _ _ _ _ _ _ _ G) as TR. constructor.
  - split; [rewrite EN; discriminate|]. split; [rewrite EC; discriminate|]. split; [repeat constructor|]. rewrite (tg_note _ _ _ _ _ _ _ _ _ _ _ G). exact TR.
  - cbn [transfer_value tv_code tw_asset_def]. rewrite fs_pay_def, HD. reflexivity.
  - cbn [transfer_value tv_pol tw_asset_def]. rewrite fs_pay_def, HD. reflexivity.
  - cbn [transfer_value tv_ins tw_inputs map tl]. constructor; [|constructor]. cbn [input_value in_ro ro_value ro_amount is_ro]. vm_compute. reflexivity.
  - unfold in_amounts. cbn [transfer_value tv_ins tw_inputs map tl input_value in_ro ro_value ro_amount is_ro]. vm_compute. reflexivity.
  - rewrite EN, EC. vm_compute. reflexivity.
  - cbn [transfer_value tv_outs tw_outputs fs_outs map tl]. intros o [<-|[<-|[]]]; [exists (address fs_other)|exists (address fs_user)]; reflexivity.
Qed.

(** ** The freezer scans the payment *)
Definition fs_pay_memos : res (list (@ReceiverMemo T)) :=
  let* a := @receiver_memo_from_ro T w_codec tt fs_y [] in let* b := @receiver_memo_from_ro T w_codec tt fs_z [] in Ok [a; b].
Definition fs_pay_seen : list (@Owned T) := [fs_x; (fs_y, w64 7); (fs_z, w64 8)].
Definition fs_end (n : @MintNote T TS) (m : @TransferNote T TS) : @Ledger T := @store_current_mt_root T 3 (@insert_transfer_note T TS (fs_after n) m).
Lemma stored_note d (l : @Ledger T) (m : @TransferNote T TS) : lg_leaves (@store_current_mt_root T d (insert_transfer_note l m)) = lg_leaves l ++ tn_commitments m /\
  lg_nullifiers (@store_current_mt_root T d (insert_transfer_note l m)) = rev (tn_nullifiers m) ++ lg_nullifiers l.
Proof. unfold insert_transfer_note. rewrite insert_nullifiers_spec, insert_records_spec. split; reflexivity. Qed.
Lemma fs_end_leaves n m : lg_leaves (fs_end n m) = lg_leaves (fs_after n) ++ tn_commitments m.
Proof. exact (proj1 (stored_note _ _ _)). Qed.
Lemma fs_end_spent n m : lg_nullifiers (fs_end n m) = rev (tn_nullifiers m) ++ [mn_nullifier n].
Proof. rewrite <- (fs_spent n). exact (proj2 (stored_note _ _ _)). Qed.
(** [made] for known owners *)
Lemma made_known f vals off ros : @fm_users T f = fm_users fs_f -> @fm_def T f = fs_def -> vals = map ro_value ros ->
  (forall ro, In ro ros -> asset_def ro = fs_def /\ amap_get (address (pub_key ro)) (fm_users fs_f) = Some (pub_key ro)) ->
  forall x, @made T f vals off x <-> exists i ro, nth_error ros i = Some ro /\ x = (ro, w64 (Z.of_nat (off + 1 + i))).
Proof.
  intros HU HD -> HR x. split.
  - intros (i & Ev & Ed & Ek & Eu). rewrite nth_error_map in Ev. destruct (nth_error ros i) as [ro|] eqn:En; [|discriminate Ev]. cbn [option_map] in Ev.
    assert (Ev' : ro_value (fst x) = ro_value ro) by congruence. clear Ev. destruct (ro_value_data (toy_laws true) _ _ Ev') as (D1 & D2 & D3 & D4). clear Ev'.
    destruct (HR ro (nth_error_In _ _ En)) as [R1 R2]. rewrite D4, HU, R2 in Ek. exists i, ro. split; [exact En|].
    destruct x as [[a d k fl b] u]. destruct ro as [a' d' k' fl' b']. cbn [fst snd amount blind freeze_flag pub_key asset_def] in *. rewrite HD in Ed. injection Ek as Ek. subst. reflexivity.
  - intros (i & ro & En & ->). destruct (HR ro (nth_error_In _ _ En)) as [R1 R2]. exists i. cbn [fst snd]. rewrite nth_error_map, En, HU, HD. auto.
Qed.
Lemma fs_pay_made f x : @fm_users T f = fm_users fs_f -> @fm_def T f = fs_def -> @made T f [ro_value fs_y; ro_value fs_z] 6 x <-> x = (fs_y, w64 7) \/ x = (fs_z, w64 8).
Proof.
  intros HU HD. rewrite (made_known f _ 6 [fs_y; fs_z] HU HD eq_refl).
  - split.
    + intros (i & ro & En & ->). destruct i as [|[|i]]; [left|right|destruct i; discriminate En]; injection En as <-; reflexivity.
    + intros [->| ->]; [exists 0%nat, fs_y|exists 1%nat, fs_z]; split; reflexivity.
  - intros ro [<-|[<-|[]]]; (split; [reflexivity|]); [exact (proj2 fs_knows)|exact (proj1 fs_knows)].
Qed.
Lemma fs_pay_memos_ok : exists memos, fs_pay_memos = Ok memos.
Proof. assert (G : get fs_pay_memos (fun _ => true) = true) by (vm_compute; reflexivity). destruct (get_ok _ _ G) as (m & H & _). exists m. exact H. Qed.
Lemma fs_pay_not_paid f pk n sk memos x : fs_pay pk = Ok (n, sk) -> @fm_def T f = fs_def -> w_kp (fm_wallet f) = s_user true 11 -> fs_pay_memos = Ok memos ->
  w_pending_chg (fm_wallet f) = [] -> ~ @paid T TS w_codec (fm_wallet f) (TxTransfer n) memos 6 x.
Proof.
  intros Q HD K HM HP. destruct (fs_pay_fields f _ _ _ HD Q) as (_ & _ & EC & _).
  assert (G : get (let* m := fs_pay_memos in
                   match m with
                   | [a; b] => match @receiver_memo_decrypt T w_codec a (s_user true 11) (@derive_record_commitment T fs_y) [], @receiver_memo_decrypt T w_codec b (s_user true 11) (@derive_record_commitment T fs_z) [] with
                               | Ok _, _ => Panic | _, Ok _ => Panic | _, _ => Ok tt end
                   | _ => Panic end) (fun _ => true) = true) by (vm_compute; reflexivity).
  rewrite HM in G. cbn [bind] in G. destruct memos as [|a [|b [|c memos]]]; try discriminate G.
  intros [(i & rc & m & H1 & H2 & H3 & _)|(H & _)]; [|rewrite HP in H; exact H].
  cbn [tx_output_commitments] in H1. rewrite EC in H1. rewrite K in H3.
  destruct i as [|[|i]]; [| |destruct i; discriminate H2]; injection H2 as <-; cbn [fs_outs map nth_error] in H1; apply (f_equal (fun o => match o with Some c => c | None => f0 end)) in H1; cbv beta iota in H1; subst rc; rewrite H3 in G.
  - discriminate G.
  - destruct (@receiver_memo_decrypt T w_codec a (s_user true 11) (@derive_record_commitment T fs_y) []); discriminate G.
Qed.
Lemma fs_distinct f : @fm_kp T f = fs_kp -> forall x y, In x fs_pay_seen -> In y fs_pay_seen -> @fnull T f x = @fnull T f y -> x = y.
Proof.
  intros K x y Hx Hy E. unfold fnull in E. rewrite K in E.
  assert (B : forallb (fun x => forallb (fun y => negb (zeqb (@freezer_nullify T fs_kp (address (pub_key (fst x))) (snd x) (@derive_record_commitment T (fst x)))
                                          (@freezer_nullify T fs_kp (address (pub_key (fst y))) (snd y) (@derive_record_commitment T (fst y)))) || @owned_eqb T x y) fs_pay_seen) fs_pay_seen = true)
    by (vm_compute; reflexivity).
  rewrite forallb_forall in B. specialize (B x Hx). rewrite forallb_forall in B. specialize (B y Hy). apply orb_true_iff in B. destruct B as [B|B].
  - apply negb_true_iff, zeqb_neq in B. contradiction (B E).
  - apply (owned_eqb_iff (toy_laws true)) in B. exact B.
Qed.
(** the payment is scanned: the record is spent and the freezer still has it in its books *)
Lemma fs_stale pk n sk memo pk' m sk' memos : fs_mint pk = Ok (n, sk) -> @receiver_memo_from_ro T w_codec tt fs_ro [] = Ok memo -> fs_pay pk' = Ok (m, sk') -> fs_pay_memos = Ok memos ->
  exists f0 f sh, @freezer_scan_txn T TS w_codec fs_f (TxMint n) [memo] 4 = Ok f0 /\ @freezer_scan_txn T TS w_codec f0 (TxTransfer m) memos 6 = Ok f /\
    @freezer_in_step T TS w_codec toy_memo_i tt 3 f (fs_end n m) fs_seen fs_pay_seen sh [] /\ apart f (lg_leaves (fs_end n m)) fs_pay_seen [] /\
    In (@fnull T f fs_x) (lg_nullifiers (fs_end n m)).
Proof.
  intros Q HM Q' HM'. destruct (fs_scanned _ _ _ _ Q HM) as (f0 & HS & (R & HN & Hnat) & AP & O & HB & K1 & K2).
  destruct (scan_rest (toy_laws true) _ _ _ _ _ HS) as (S1 & _ & S3 & _ & w & found & SW & EW).
  assert (HD : @fm_def T f0 = fs_def) by (unfold fm_def; rewrite S1; reflexivity).
  assert (HP : w_pending_chg (fm_wallet f0) = []).
  { rewrite EW. apply (scan_txn_chg (toy_laws true)) in SW. destruct (w_pending_chg w) as [|a l]; [reflexivity|]. exfalso. exact (SW a (or_introl eq_refl)). }
  destruct (fs_pay_fields f0 _ _ _ HD Q') as (NI & NL & EC & t & OT & ET).
  assert (HL : length memos = 2%nat).
  { unfold fs_pay_memos in HM'. apply bind_ok in HM'. destruct HM' as (a & _ & HM'). apply bind_ok in HM'. destruct HM' as (b & _ & HM'). injection HM' as <-. reflexivity. }
  destruct (scan_transfer_total (toy_laws true) w_codec_laws _ 3 f0 _ _ _ _ _ m t memos R AP Hnat O OT) as (f & HS').
  { rewrite ET. intros o P Ho HPx. rewrite S3. destruct Ho as [<-|[<-|[]]]; apply (pt_xy_inj (toy_laws true)) in HPx; rewrite <- HPx; [exists fs_other; exact (proj2 fs_knows)|exists fs_user; exact (proj1 fs_knows)]. }
  { rewrite EC, HL. reflexivity. }
  destruct (scan_rest (toy_laws true) _ _ _ _ _ HS') as (_ & S2' & _ & _).
  assert (KF : fm_kp f = fs_kp) by (rewrite S2'; exact K1).
  exists f0, f, (fs_shown n ++ @shown_by T TS (TxTransfer m) (length (lg_leaves (fs_after n)))). split; [exact HS|]. split; [rewrite fs_len in HS'; exact HS'|].
  assert (R' : @fruns T TS w_codec toy_memo_i tt 3 f (lg_leaves (fs_end n m)) fs_seen fs_pay_seen (fs_shown n ++ @shown_by T TS (TxTransfer m) (length (lg_leaves (fs_after n)))) []).
  { rewrite fs_end_leaves. refine (fru_transfer _ 3 f0 _ _ _ _ _ m t memos f fs_seen fs_pay_seen R OT HS' _ _).
    - intros x. rewrite fs_len. split; [auto|]. intros [H|H]; [exact H|]. contradiction (fs_pay_not_paid f0 _ _ _ _ _ Q' HD K2 HM' HP H).
    - intros x. rewrite fs_len, ET, (fs_pay_made f0 x S3 HD). unfold fs_pay_seen. cbn [In]. split; [intros [<-|[<-|[<-|[]]]]; auto|intros [[<-|[]]|[->| ->]]; auto]. }
  split; [split; [exact R'|]; split; [|exact Hnat]|split].
  - intros x. rewrite fs_end_spent. rewrite in_app_iff, <- in_rev. split.
    + intros [H|[<-|[]]].
      * eexists. apply in_or_app. right. unfold shown_by. apply in_map_iff. exists x. split; [reflexivity|exact H].
      * eexists. apply in_or_app. left. left. reflexivity.
    + intros (k & H). apply in_app_or in H. destruct H as [[H|[]]|H].
      * apply (f_equal fst) in H. cbn [fst] in H. right. left. exact H.
      * unfold shown_by in H. apply in_map_iff in H. destruct H as (y & H & Hy). apply (f_equal fst) in H. cbn [fst] in H. subst y. left. exact Hy.
  - split; [rewrite fs_end_leaves, app_length, fs_len, EC; reflexivity|]. split; [exact (fs_distinct f KF)|intros x k _ []].
  - rewrite fs_end_spent. apply in_or_app. left. apply -> in_rev. unfold fnull. rewrite KF.
    change (address (pub_key (fst fs_x))) with (@user_address T (s_user true 13)). change (snd fs_x) with (w64 5). change (fst fs_x) with fs_ro.
    rewrite <- (PolicyProofs.owner_freezer_same_nullifier (toy_laws true) (s_user true 13) fs_kp (w64 5) (@derive_record_commitment T fs_ro)); [exact NI|].
    intros E. assert (E' : @point_eqb T (@freezer_pub_key T fs_kp) pt_id = true) by (apply (point_eqb_spec (toy_laws true)); exact E). vm_compute in E'. discriminate E'.
Qed.

(** ** The mint in a block *)
Definition fs_block (n : @MintNote T TS) : @Block T TS := @mkBlock T TS [TxMint n] (@fz toy_field 77) fs_user.
Lemma fs_block_inserted n : exists l', @insert_block T TS 3 fs_l (fs_block n) = (l', Ok tt).
Proof.
  unfold insert_block, block_fee_record. cbn [fs_block bk_txns].
  destruct UtilsProofs.calculate_fee_spec as (_ & K & _). destruct (K (map (@tx_fee T TS) [TxMint n])) as (total & Q).
  { cbn [map]. unfold zsum. cbn [fold_right]. rewrite Z.add_0_r. exact (proj2 (zv_range (@tx_fee T TS (TxMint n)))). }
  unfold txns_calculate_fee. rewrite Q. cbn [bind]. eexists. reflexivity.
Qed.
Lemma fs_block_scan pk n sk memo : fs_mint pk = Ok (n, sk) -> @receiver_memo_from_ro T w_codec tt fs_ro [] = Ok memo -> exists f' l',
  @freezer_in_step T TS w_codec toy_memo_i tt 3 fs_f fs_l fs_seen [] [] [] /\
  Forall2 (@own_txn T TS fs_f 3 []) (bk_txns (fs_block n)) [[ro_value fs_ro]] /\ NoDup (flat_map (@tx_nullifiers T TS) (bk_txns (fs_block n))) /\
  (forall x, @txns_make T TS fs_f [] (bk_txns (fs_block n)) [[ro_value fs_ro]] 4 x <-> x = fs_x) /\
  ~ In (@fnull T fs_f fs_x) (flat_map (@tx_nullifiers T TS) (bk_txns (fs_block n))) /\
  @freezer_scan_block T TS w_codec fs_f (fs_block n) [[memo]] 4 = Ok f' /\ @insert_block T TS 3 fs_l (fs_block n) = (l', Ok tt).
Proof.
  intros Q HM. destruct (fs_scanned _ _ _ _ Q HM) as (f & HS & _). destruct (fs_fields _ _ _ Q) as (E1 & E2 & E3 & E4 & t & OM & ET). destruct (fs_block_inserted n) as (l' & HI).
  exists f, l'. split; [split; [exact fs_runs|split; [intros m; split; [intros []|intros (k & [])]|intros x [<-|[<-|[]]] _; reflexivity]]|].
  split; [constructor; [exists t; split; [exact OM|rewrite ET; reflexivity]|constructor]|]. split; [cbn; constructor; [intros []|constructor]|].
  split; [intros x; cbn [fs_block bk_txns txns_make]; rewrite (fs_made x); tauto|]. split.
  { cbn [fs_block bk_txns flat_map tx_nullifiers app]. rewrite E1. intros [H|[]]. revert H. apply zeqb_neq. vm_compute. reflexivity. }
  split; [|exact HI]. unfold freezer_scan_block. cbn [fs_block bk_txns length Nat.eqb negb fail_if bind combine freezer_scan_txns]. rewrite HS. reflexivity.
Qed.
