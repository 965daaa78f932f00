(** A concrete freezer of the toy instance: it holds two native records, knows user 13, and sees a mint of its asset. *)
From Verif Require Import Base Config Structs Keys Utils Memo Plonk Witness Circuits Relation GadgetProofs Snark Notes Serde Ledger Wallet WalletSpec Roles RolesSpec.
From Verif Require Import CodecProofs MintCircuitProofs CircuitTheorems NoteProofs NoteGen NoteGen2 Accepted NoteLive2 WalletProofs WalletPay WalletPay2 CircuitFacts Toy ToySnark Samples NoteSamples WalletSamples
  FreezerSpec FreezerBooks FreezerCalls FreezerRun FreezerHistory FreezerLive FreezerEffect.
#[local] Existing Instance toy_snark.
#[local] Existing Instance w_codec.
#[local] Existing Instance toy_memo_i.
#[local] Open Scope Z_scope.

(** freezer key 9, viewer key 7, wallet of user 11; the asset has a code that can be minted *)
Definition fs_kp : @FreezerKeyPair T := @sz toy_field 9.
Definition fs_vkp : @ViewerKeyPair T := @sz toy_field 7.
Definition fs_seed : @AssetCodeSeed T := @fz toy_field 5001.
Definition fs_desc : bytes := h_desc.
Definition fs_code : @AssetCode T := @new_domestic T fs_seed fs_desc.
Definition fs_p0 : @AssetPolicy T :=
  @set_freezer_pub_key T (@freezer_pub_key T fs_kp) (@set_viewer_pub_key T (@viewer_pub_key T fs_vkp) (@policy_default T)).
Definition fs_p1 := @set_reveal_map_for_test T (rm_reveal_user_address (reveal_map fs_p0)) fs_p0.
Definition fs_p2 := @set_reveal_map_for_test T (rm_reveal_amount (reveal_map fs_p1)) fs_p1.
Definition fs_policy := @set_reveal_map_for_test T (rm_reveal_blinding_factor (reveal_map fs_p2)) fs_p2.
Definition fs_def : @AssetDefinition T := @mkDef T fs_code fs_policy.
Definition fs_f0 : @Freezer T := @mkFreezer T (@mkViewer T fs_vkp fs_def) fs_kp (@wallet_new T (s_user true 11)) [] [] [] [] [].
Lemma fs_new : @freezer_new T fs_kp fs_vkp (s_user true 11) fs_code = Ok fs_f0.
Proof.
  unfold freezer_new. change (@set_freezer_pub_key T _ _) with fs_p0. unfold reveal_record_opening.
  assert (B0 : @is_viewer_pub_key_set T fs_p0 = true) by (vm_compute; reflexivity). assert (B1 : @is_viewer_pub_key_set T fs_p1 = true) by (vm_compute; reflexivity).
  assert (B2 : @is_viewer_pub_key_set T fs_p2 = true) by (vm_compute; reflexivity).
  unfold reveal_user_address. rewrite B0. cbn [negb bind]. change (@set_reveal_map_for_test T _ fs_p0) with fs_p1.
  unfold reveal_amount. rewrite B1. cbn [negb bind]. change (@set_reveal_map_for_test T _ fs_p1) with fs_p2.
  unfold reveal_blinding_factor. rewrite B2. cbn [negb bind unwrap]. change (@set_reveal_map_for_test T _ fs_p2) with fs_policy.
  unfold asset_def_new. match goal with |- context [if ?b then _ else _] => assert (E : b = false) by (vm_compute; reflexivity); rewrite E end. reflexivity.
Qed.

(** ** The ledger: records of 7 and 20 units for the freezer's wallet, one of 9 units for user 12, one of 5 units for user 13 *)
Definition fs_r1 := s_native true 9 12 101.
Definition fs_l0 : @Ledger T := @ledger_new T 3.
Definition fs_l1 := @mock_mint T 3 fs_l0 ws_r0.
Definition fs_l2 := @mock_mint T 3 fs_l1 fs_r1.
Definition fs_l3 := @mock_mint T 3 fs_l2 ws_r2.
Definition fs_r3 := s_native true 5 13 103.
Definition fs_l := @mock_mint T 3 fs_l3 fs_r3.
Definition fs_seen : list (@Owned T) := [(ws_r0, w64 0); (ws_r2, w64 2)].
Definition fs_f1 : @Freezer T := @fm_set_wallet T fs_f0 (@add_record_opening T (fm_wallet fs_f0) ws_r0 (w64 0)).
Definition fs_f2 : @Freezer T := @fm_set_wallet T fs_f1 (@add_record_opening T (fm_wallet fs_f1) ws_r2 (w64 2)).
Definition fs_user : @UserPubKey T := @user_pub_key T (s_user true 13).
Definition fs_other : @UserPubKey T := @user_pub_key T (s_user true 12).
Definition fs_f : @Freezer T := @add_user_key T (@add_user_key T fs_f2 fs_other) fs_user.
Lemma fs_knows : amap_get (address fs_user) (fm_users fs_f) = Some fs_user /\ amap_get (address fs_other) (fm_users fs_f) = Some fs_other.
Proof.
  assert (N : @point_eqb T (address fs_other) (address fs_user) = false) by (vm_compute; reflexivity).
  cbn [fs_f add_user_key fm_users]. rewrite !(amap_get_put (toy_laws true)), N, !(proj2 (point_eqb_spec (toy_laws true) _ _) eq_refl). split; reflexivity.
Qed.
Lemma fs_runs : @fruns T TS w_codec toy_memo_i tt 3 fs_f (lg_leaves fs_l) fs_seen [] [] [].
Proof.
  unfold fs_f. refine (fru_user _ _ _ _ _ _ _ _ _ (fru_user _ _ _ _ _ _ _ _ _ _)). refine (fru_other _ 3 _ (lg_leaves fs_l3) _ _ _ _ _ _). change fs_seen with (([] ++ [(ws_r0, w64 0)]) ++ [(ws_r2, w64 2)]).
  refine (fru_own _ 3 fs_f1 (lg_leaves fs_l2) _ _ _ _ ws_r2 _ _ _); [|reflexivity|reflexivity].
  refine (fru_other _ 3 _ (lg_leaves fs_l1) _ _ _ _ _ _).
  refine (fru_own _ 3 fs_f0 [] [] _ _ _ ws_r0 _ _ _); [|reflexivity|reflexivity].
  exact (fru_new _ 3 _ _ _ _ _ fs_new).
Qed.

(** ** User 12 mints 50 units of the asset for user 13 and pays a fee of 3 *)
Definition fs_ro : @RecordOpening T := @mkRO T (s_amount 50) fs_def fs_user Unfrozen (@fz toy_field 801).
Definition fs_acc : @AccMemberWitness T := match @lookup_from_tree T 3 (lg_leaves fs_l) (w64 1) with Ok a => a | _ => @acc_dummy T 3 end.
Definition fs_fee : @TxnFeeInfo T := @mkFeeInfo T (@mkFeeInput T fs_r1 fs_acc (s_user true 12)) (s_amount 3) (s_native true 6 12 555).
Lemma fs_payable : payable 3 fs_fee.
Proof.
  constructor; try reflexivity; try (split; reflexivity).
Qed.
Definition fs_mint pk := @mint_generate T TS (m_rand true) fs_ro fs_seed fs_desc fs_fee pk.
Lemma fs_minted : exists pk n, fs_mint pk = Ok (n, mrd_sig (m_rand true)).
Proof.
  assert (G : get (@mint_preprocess T TS tt 3) (fun _ => true) = true) by (vm_compute; reflexivity). destruct (get_ok _ _ G) as ([pk vk] & HP & _).
  destruct (mint_generate_live (toy_laws true) (toy_snark_laws true) tt 3 pk vk (m_rand true) fs_ro fs_seed fs_desc fs_fee HP fs_payable) as (n & HG & _);
    [reflexivity|reflexivity|vm_compute; reflexivity|]. exists pk, n. exact HG.
Qed.

(** what is known of the note *)
Lemma fs_fields pk n sk : fs_mint pk = Ok (n, sk) ->
  mn_nullifier n = @user_nullify T (s_user true 12) pt_id (w64 1) (@derive_record_commitment T fs_r1) /\
  mn_chg n = @derive_record_commitment T (s_native true 6 12 555) /\ mn_mint n = @derive_record_commitment T fs_ro /\ mn_def n = fs_def /\
  exists t, @own_mint T TS fs_f 3 n t /\ mv_mint t = ro_value fs_ro.
Proof.
  intros H. destruct (mint_generate_inv (toy_laws true) _ _ _ _ _ _ _ _ H) as (p & s & G).
  pose proof (mg_outputs _ _ _ _ _ _ _ _ _ _ G) as (O1 & O2). pose proof (mg_amount _ _ _ _ _ _ _ _ _ _ G) as (A1 & A2 & A3).
  split; [exact (mg_nullifier _ _ _ _ _ _ _ _ _ _ G)|]. split; [exact O1|]. split; [exact O2|]. split; [exact A2|].
  exists (mint_value (mint_witness_of (m_rand true) fs_ro fs_seed fs_desc fs_fee)). split; [|reflexivity]. constructor.
  - split; [reflexivity|]. rewrite (mg_note _ _ _ _ _ _ _ _ _ _ G). apply (mint_generated_relation (toy_laws true) _ _ _ _ _ _ _ _ _ _ G). vm_compute. reflexivity.
  - exact A2.
  - exists (address fs_user). split; [reflexivity|]. intros E. apply (f_equal (fun x => @point_eqb T x pt_id)) in E.
    rewrite (proj2 (point_eqb_spec (toy_laws true) _ _) eq_refl) in E. vm_compute in E. discriminate E.
Qed.

(** ** The freezer scans the mint *)
Definition fs_after (n : @MintNote T TS) : @Ledger T := @store_current_mt_root T 3 (@insert_mint_note T TS fs_l n).
Definition fs_x : @Owned T := (fs_ro, w64 5).
Definition fs_shown (n : @MintNote T TS) := [(mn_nullifier n, 6%nat)].
Lemma fs_made x : @made T fs_f [ro_value fs_ro] 4 x <-> x = fs_x.
Proof.
  split.
  - intros ([|i] & Ev & Ed & Ek & Eu); [|destruct i; discriminate Ev]. cbn [nth_error] in Ev.
    assert (Ev' : ro_value (fst x) = ro_value fs_ro) by congruence. destruct (ro_value_data (toy_laws true) _ _ Ev') as (D1 & D2 & D3 & D4).
    rewrite D4 in Ek. rewrite (proj1 fs_knows : amap_get (address (pub_key fs_ro)) (fm_users fs_f) = Some fs_user) in Ek. injection Ek as Ek. clear Ev Ev'. destruct x as [[a d k fl b] u]. cbn [fst snd amount blind freeze_flag pub_key asset_def] in *. subst. reflexivity.
  - intros ->. exists 0%nat. split; [reflexivity|]. split; [reflexivity|]. split; [exact (proj1 fs_knows)|reflexivity].
Qed.
Lemma fs_memo : exists memo, @receiver_memo_from_ro T w_codec tt fs_ro [] = Ok memo.
Proof.
  assert (G : get (@receiver_memo_from_ro T w_codec tt fs_ro []) (fun _ => true) = true) by (vm_compute; reflexivity). destruct (get_ok _ _ G) as (m & H & _). exists m. exact H.
Qed.
Lemma fs_not_paid pk n sk memo x : fs_mint pk = Ok (n, sk) -> @receiver_memo_from_ro T w_codec tt fs_ro [] = Ok memo -> ~ @paid T TS w_codec (fm_wallet fs_f) (TxMint n) [memo] 4 x.
Proof.
  intros Q HM. destruct (fs_fields _ _ _ Q) as (E1 & E2 & E3 & _).
  assert (G : get (let* m := @receiver_memo_from_ro T w_codec tt fs_ro [] in
                   match @receiver_memo_decrypt T w_codec m (s_user true 11) (@derive_record_commitment T fs_ro) [] with Ok _ => Panic | _ => Ok tt end) (fun _ => true) = true) by (vm_compute; reflexivity).
  rewrite HM in G. cbn [bind] in G. intros [(i & rc & m & H1 & H2 & H3 & _)|([] & _)].
  destruct i as [|i]; [|destruct i; discriminate H2]. injection H2 as <-. cbn [tx_output_commitments nth_error] in H1. injection H1 as H1. rewrite E3 in H1. subst rc.
  change (w_kp (fm_wallet fs_f)) with (s_user true 11) in H3. rewrite H3 in G. discriminate G.
Qed.

Lemma fs_len n : length (lg_leaves (fs_after n)) = 6%nat.
Proof. reflexivity. Qed.
Lemma fs_leaves n : lg_leaves (fs_after n) = lg_leaves fs_l ++ [mn_chg n; mn_mint n].
Proof. reflexivity. Qed.
Lemma fs_len0 : length (lg_leaves fs_l) = 4%nat.
Proof. reflexivity. Qed.
Lemma fs_shown_eq n : [] ++ @shown_by T TS (TxMint n) 4 = fs_shown n.
Proof. reflexivity. Qed.
Lemma fs_step n t memo f : @own_mint T TS fs_f 3 n t -> mv_mint t = ro_value fs_ro -> @freezer_scan_txn T TS w_codec fs_f (TxMint n) [memo] 4 = Ok f ->
  (forall x, ~ @paid T TS w_codec (fm_wallet fs_f) (TxMint n) [memo] 4 x) ->
  @fruns T TS w_codec toy_memo_i tt 3 f (lg_leaves (fs_after n)) fs_seen [fs_x] (fs_shown n) [].
Proof.
  intros OM ET HS NP. rewrite fs_leaves, <- fs_shown_eq, <- fs_len0.
  refine (fru_mint _ 3 fs_f (lg_leaves fs_l) fs_seen [] [] [] n t [memo] f fs_seen [fs_x] fs_runs OM _ _ _); rewrite fs_len0.
  - exact HS.
  - intros x. split; [auto|]. intros [H|H]; [exact H|]. contradiction (NP x H).
  - intros x. rewrite ET. rewrite (fs_made x). cbn [In]. split; [intros [<-|[]]; auto|intros [[]|<-]; auto].
Qed.
Lemma fs_spent n : lg_nullifiers (fs_after n) = [mn_nullifier n].
Proof. reflexivity. Qed.
Lemma single {A} (x : A) l : In x l -> NoDup l -> (forall y, In y l -> y = x) -> l = [x].
Proof.
  intros H ND HA. destruct l as [|y [|z l]]; [contradiction H|rewrite (HA y (or_introl eq_refl)); reflexivity|].
  exfalso. pose proof (HA y (or_introl eq_refl)) as Y. pose proof (HA z (or_intror (or_introl eq_refl))) as Z0. apply NoDup_cons_iff in ND. apply (proj1 ND). left. congruence.
Qed.
Lemma fs_book f n : @fruns T TS w_codec toy_memo_i tt 3 f (lg_leaves (fs_after n)) fs_seen [fs_x] (fs_shown n) [] -> apart f (lg_leaves (fs_after n)) [fs_x] [] ->
  amap_get (address fs_user) (fm_freezable f) = Some [fs_x].
Proof.
  intros R AP. pose proof (fruns_inv (toy_laws true) _ _ _ _ _ _ _ _ R AP) as I.
  assert (LX : listed (fm_freezable f) (address fs_user) fs_x).
  { apply (fi_free _ _ _ _ I). split; [left; reflexivity|]. split; [reflexivity|]. split; [reflexivity|]. intros k []. }
  destruct LX as (b & HB & Hb). rewrite HB. f_equal. apply (single _ _ Hb (bo_free_sets _ _ (fi_books _ _ _ _ I) _ _ HB)).
  intros y Hy. assert (LY : listed (fm_freezable f) (address fs_user) y) by (exists b; auto). apply (fi_free _ _ _ _ I) in LY. destruct LY as ([<-|[]] & _). reflexivity.
Qed.
Lemma fs_scanned pk n sk memo : fs_mint pk = Ok (n, sk) -> @receiver_memo_from_ro T w_codec tt fs_ro [] = Ok memo ->
  exists f, @freezer_scan_txn T TS w_codec fs_f (TxMint n) [memo] 4 = Ok f /\
    @freezer_in_step T TS w_codec toy_memo_i tt 3 f (fs_after n) fs_seen [fs_x] (fs_shown n) [] /\
    apart f (lg_leaves (fs_after n)) [fs_x] [] /\ ordinary (fm_wallet f) (lg_leaves (fs_after n)) fs_seen (fs_shown n) /\
    amap_get (address fs_user) (fm_freezable f) = Some [fs_x] /\ fm_kp f = fs_kp /\ w_kp (fm_wallet f) = s_user true 11.
Proof.
  intros Q HM. destruct (fs_fields _ _ _ Q) as (E1 & E2 & E3 & E4 & t & OM & ET).
  assert (AP0 : apart fs_f (lg_leaves fs_l) [] []) by (split; [vm_compute; reflexivity|]; split; [intros x y []|intros x k []]).
  assert (N0 : natives fs_seen) by (intros x [<-|[<-|[]]] _; reflexivity).
  assert (O0 : ordinary (fm_wallet fs_f) (lg_leaves fs_l) fs_seen []) by (apply ordinary_b_ok; vm_compute; reflexivity).
  destruct (scan_mint_total (toy_laws true) w_codec_laws _ 3 fs_f (lg_leaves fs_l) fs_seen [] [] [] n t memo fs_runs AP0 N0 O0 OM) as (f & HS).
  { rewrite ET. intros o P [<-|[]] HP. apply (pt_xy_inj (toy_laws true)) in HP. exists fs_user. rewrite <- HP. exact (proj1 fs_knows). }
  rewrite fs_len0 in HS. exists f. split; [exact HS|]. destruct (scan_rest (toy_laws true) _ _ _ _ _ HS) as (S1 & S2 & S3 & S4 & _).
  pose proof (fs_step n t memo f OM ET HS (fun x => fs_not_paid _ _ _ _ x Q HM)) as R.
  assert (AP : apart f (lg_leaves (fs_after n)) [fs_x] []).
  { split; [rewrite fs_len; reflexivity|]. split; [intros x y [<-|[]] [<-|[]] _; reflexivity|intros x k _ []]. }
  assert (O : ordinary (fm_wallet f) (lg_leaves (fs_after n)) fs_seen (fs_shown n)).
  { split; [rewrite fs_len; reflexivity|]. split.
    - intros x y Hx Hy HE. destruct O0 as (_ & D & _). apply (D x y Hx Hy). unfold w_nullify in *. rewrite S4 in HE. exact HE.
    - intros x k Hx [H|[]]. apply (f_equal snd) in H. cbn [snd] in H. subst k. destruct Hx as [<-|[<-|[]]]; vm_compute; reflexivity. }
  split; [split; [exact R|]; split; [|exact N0]|].
  { intros m. rewrite fs_spent. split.
    - intros [<-|[]]. exists 6%nat. left. reflexivity.
    - intros (k & [H|[]]). apply (f_equal fst) in H. cbn [fst] in H. left. exact H. }
  split; [exact AP|]. split; [exact O|]. split; [|split; [exact S2|exact S4]].
  exact (fs_book f n R AP).
Qed.

(** ** Freezing *)
Definition fs_rand (k : Z) : @FreezeUserRand T TS :=
  @mkFreezeUserRand T TS (@fz toy_field (901 + k)) (s_user true 71) (@fz toy_field (902 + k)) (s_user true 72) (@fz toy_field (903 + k)) (@sz toy_field 55)
    (@mkFRand T TS (fun i => @fz toy_field (400 + k + Z.of_nat i)) (@sz toy_field 301) tt) (fun _ => tt).
Lemma fs_padding pk n sk f : fs_mint pk = Ok (n, sk) -> fm_kp f = fs_kp -> w_kp (fm_wallet f) = s_user true 11 ->
  @good_padding T TS f (fs_rand 0) true fs_seen [fs_x] (lg_nullifiers (fs_after n)) /\
  (forall x y, In x fs_seen -> In y [fs_x] -> @w_nullify T (fm_wallet f) x <> @fnull T f y).
Proof.
  intros Q S2 S4. destruct (fs_fields _ _ _ Q) as (E1 & _).
  pose (P := @padding T TS (fs_rand 0) true).
  pose (W := [@user_nullify T (s_user true 11) pt_id (w64 0) (@derive_record_commitment T ws_r0); @user_nullify T (s_user true 11) pt_id (w64 2) (@derive_record_commitment T ws_r2)]).
  pose (X := @freezer_nullify T fs_kp (address fs_user) (w64 5) (@derive_record_commitment T fs_ro)).
  pose (M := @user_nullify T (s_user true 12) pt_id (w64 1) (@derive_record_commitment T fs_r1)).
  assert (B : forallb (fun p => negb (zeqb p X) && negb (zeqb p M) && forallb (fun w => negb (zeqb w p)) W) P &&
              forallb (fun w => negb (zeqb w X)) W && negb (existsb (zeqb (hd f0 P)) (tl P)) &&
              negb (@point_eqb T (address (@user_pub_key T (s_user true 71))) pt_id) && negb (@point_eqb T (address (@user_pub_key T (s_user true 72))) pt_id) = true) by (vm_compute; reflexivity).
  apply andb_true_iff in B. destruct B as [B B5]. apply andb_true_iff in B. destruct B as [B B4]. apply andb_true_iff in B. destruct B as [B B3]. apply andb_true_iff in B. destruct B as [B1 B2].
  rewrite forallb_forall in B1, B2.
  assert (FX : @fnull T f fs_x = X) by (unfold fnull; rewrite S2; reflexivity).
  assert (FW : forall x, In x fs_seen -> In (@w_nullify T (fm_wallet f) x) W).
  { intros x Hx. unfold w_nullify. rewrite S4. destruct Hx as [<-|[<-|[]]]; [left|right; left]; reflexivity. }
  assert (HP : forall p, In p P -> p <> X /\ p <> M /\ ~ In p W).
  { intros p Hp. specialize (B1 p Hp). apply andb_true_iff in B1. destruct B1 as [B1 B1c]. apply andb_true_iff in B1. destruct B1 as [B1a B1b].
    apply negb_true_iff, zeqb_neq in B1a. apply negb_true_iff, zeqb_neq in B1b. rewrite forallb_forall in B1c. split; [exact B1a|]. split; [exact B1b|].
    intros Hw. specialize (B1c p Hw). apply negb_true_iff, zeqb_neq in B1c. exact (B1c eq_refl). }
  split.
  - constructor.
    + apply negb_true_iff in B4. apply negb_true_iff in B5. split; intros E.
      * assert (E' : @point_eqb T (address (@user_pub_key T (s_user true 71))) pt_id = true) by (apply (point_eqb_spec (toy_laws true)); exact E). rewrite E' in B4. discriminate B4.
      * assert (E' : @point_eqb T (address (@user_pub_key T (s_user true 72))) pt_id = true) by (apply (point_eqb_spec (toy_laws true)); exact E). rewrite E' in B5. discriminate B5.
    + change (NoDup P). unfold P, padding in B3 |- *. cbn [hd tl existsb] in B3. rewrite orb_false_r in B3. apply negb_true_iff, zeqb_neq in B3.
      constructor; [intros [H|[]]; apply B3; symmetry; exact H|]. constructor; [intros []|constructor].
    + intros x [<-|[]] H. rewrite FX in H. exact (proj1 (HP _ H) eq_refl).
    + intros x Hx H. exact (proj2 (proj2 (HP _ H)) (FW x Hx)).
    + intros nl H [G|[]]. rewrite E1 in G. exact (proj1 (proj2 (HP _ H)) (eq_sym G)).
  - intros x y Hx [<-|[]] E. rewrite FX in E. pose proof (FW x Hx) as G. rewrite E in G. specialize (B2 _ G). apply negb_true_iff, zeqb_neq in B2. exact (B2 eq_refl).
Qed.

Lemma store_root (d : nat) (l : @Ledger T) : In (@tree_root T d (lg_leaves (@store_current_mt_root T d l))) (lg_roots (@store_current_mt_root T d l)).
Proof. left. reflexivity. Qed.
(** the hypotheses of [freeze_live], and so its conclusion *)
Lemma fs_live pk n sk memo (ts : u64) : fs_mint pk = Ok (n, sk) -> @receiver_memo_from_ro T w_codec tt fs_ro [] = Ok memo ->
  exists f f' fn memos sg, @freezer_scan_txn T TS w_codec fs_f (TxMint n) [memo] 4 = Ok f /\
    @freezer_in_step T TS w_codec toy_memo_i tt 3 f (fs_after n) fs_seen [fs_x] (fs_shown n) [] /\
    apart f (lg_leaves (fs_after n)) [fs_x] [] /\ ordinary (fm_wallet f) (lg_leaves (fs_after n)) fs_seen (fs_shown n) /\
    amap_get (address fs_user) (call_book f true) = Some [fs_x] /\
    @good_padding T TS f (fs_rand 0) true fs_seen [fs_x] (lg_nullifiers (fs_after n)) /\
    @freeze_user_internal T TS w_codec toy_memo_i tt 3 f (fs_rand 0) (address fs_user) (s_amount 2) (lg_leaves (fs_after n)) true = (f', Ok (fn, memos, sg)) /\
    @validate_txns_batch T TS (@mkValidator T TS tt (fun _ => @sz toy_field 55) 3) (fs_after n) [TxFreeze fn] ts = Ok tt.
Proof.
  intros Q HM. destruct (fs_scanned _ _ _ _ Q HM) as (f & HS & HI & AP & O & HB & K1 & K2). destruct (fs_padding _ _ _ f Q K1 K2) as [GP NW].
  assert (G : get (@freeze_preprocess T TS tt (@sz toy_field 55) 4 3) (fun _ => true) = true) by (vm_compute; reflexivity). destruct (get_ok _ _ G) as (keys & HK & _).
  destruct (freeze_live (toy_laws true) w_codec_laws (toy_snark_laws true) (tt : @srs T TS) (fun _ => @sz toy_field 55) 3 f (fs_after n) fs_seen [fs_x] (fs_shown n) [] (fs_rand 0) (address fs_user) (s_amount 2) true [fs_x] keys ts) as (f' & fn & memos & sg & H1 & H2 & _).
  - exact HI.
  - exact O.
  - exact AP.
  - rewrite fs_len. cbn. lia.
  - lia.
  - exact (store_root 3 _).
  - exists (ws_r0, w64 0). split; [|split; [reflexivity|vm_compute; discriminate]]. destruct HI as (R & HN & Hnat).
    pose proof (fruns_runs (toy_laws true) w_codec_laws _ _ _ _ _ _ _ _ R Hnat O) as RW. destruct O as (O1 & O2 & O3).
    pose proof (runs_inv (toy_laws true) w_codec_laws _ _ _ _ RW O1 O2 O3) as RI. apply (ri_exact _ _ _ _ RI). split; [left; reflexivity|].
    intros k [H|[]]. apply (f_equal fst) in H. cbn [fst] in H. destruct (fs_fields _ _ _ Q) as (E1 & _). rewrite E1 in H. unfold w_nullify in H. rewrite K2 in H.
    revert H. apply zeqb_neq. vm_compute. reflexivity.
  - exact HB.
  - intros E. assert (E' : @point_eqb T (address fs_user) pt_id = true) by (apply (point_eqb_spec (toy_laws true)); exact E). vm_compute in E'. discriminate E'.
  - rewrite K1. intros E. assert (E' : @point_eqb T (@freezer_pub_key T fs_kp) pt_id = true) by (apply (point_eqb_spec (toy_laws true)); exact E). vm_compute in E'. discriminate E'.
  - intros x [<-|[]]. rewrite fs_spent. intros [H|[]]. destruct (fs_fields _ _ _ Q) as (E1 & _). rewrite E1 in H. unfold fnull in H. rewrite K1 in H.
    revert H. apply zeqb_neq. vm_compute. reflexivity.
  - exact NW.
  - exact GP.
  - exact HK.
  - intros i ro _. eexists. reflexivity.
  - exists f, f', fn, memos, sg. auto 10.
Qed.
