(** Concrete builders over the toy configuration, for examples only. *)
From Verif Require Import Base Config Structs Keys Utils Memo Plonk Witness Circuits Relation PolicyProofs Snark Notes NoteProofs Serde Ledger Wallet CircuitFacts Toy ToySnark Samples NoteSamples WalletSamples
  Builder BuilderSpec BuilderProofs BuilderChain BuilderLive BuilderRand BuilderOther BuilderTxns.
#[local] Existing Instance toy_snark.
#[local] Existing Instance w_codec.
#[local] Existing Instance toy_memo_i.
#[local] Existing Instance toy_w.

Definition bx_kps : list (@UserKeyPair T) := [s_user true 11; s_user true 12].
Definition bx_blind (i : nat) : @F toy_field := @fz toy_field (500 + Z.of_nat i).
Definition bx_blind2 (i : nat) : @F toy_field := @fz toy_field (600 + Z.of_nat i).
Definition bx_users (i : nat) : @UserKeyPair T := s_user true (30 + Z.of_nat i).
Definition bx_attrs (i j : nat) : @F toy_field := @fz toy_field (700 + 10 * Z.of_nat i + Z.of_nat j).
Definition bx_nn : res (@NonNativeAssetDefinition T) := @nn_generate T (@sz toy_field 7) (@sz toy_field 8) (@sz toy_field 9) (@fz toy_field 4242).

(** a transfer of 30 units for a fee of 5, with credentials; the viewer sees owner and amount above 5 *)
Definition bx_chain : list (@BuilderCall T) :=
  [CInputAmounts bx_blind (s_amount 20) [s_amount 30]; CRevealThreshold (s_amount 5); CPolicyReveal UserAddr; CPolicyReveal RevAmount;
   COutputAmounts bx_users bx_blind2 (s_amount 15) [s_amount 18; s_amount 12]; CInputCreds bx_attrs (w64 900)].
Definition bx_new : res (@TransferBuilder T) := let* nn := bx_nn in @tb_new T 1 2 3 None bx_kps (Some nn).
Definition bx_built : res (@TransferBuilder T) := let* b := bx_new in @calls T bx_chain b.
(** the same with a third, dummy, input *)
Definition bx_chain3 : list (@BuilderCall T) :=
  [CInputAmounts bx_blind (s_amount 20) [s_amount 30; s_amount 44]; COutputAmounts bx_users bx_blind2 (s_amount 15) [s_amount 18; s_amount 12]; CDummyInput 1;
   CInputCreds bx_attrs (w64 900)].
Definition bx_new3 : res (@TransferBuilder T) := let* nn := bx_nn in @tb_new T 1 3 3 None (bx_kps ++ [s_user true 13]) (Some nn).

(** ** What is left to check of [non_native_ready] after [chain_ready] *)
Fixpoint nodup_b (l : list (@F toy_field)) : bool := match l with [] => true | x :: l' => negb (existsb (zeqb x) l') && nodup_b l' end.
Lemma nodup_b_ok l : nodup_b l = true -> NoDup l.
Proof.
  induction l as [|x l IH]; intros H; [constructor|]. cbn [nodup_b] in H. apply andb_true_iff in H. destruct H as [H1 H2]. constructor; [|apply IH, H2].
  intros Hin. apply negb_true_iff in H1. assert (existsb (zeqb x) l = true); [|congruence]. apply existsb_exists. exists x. split; [exact Hin|apply zeqb_spec; reflexivity].
Qed.
Definition bx_rest (b : @TransferBuilder T) : bool :=
  let d := @tb_def T b in
  negb (length (tb_ins b) =? 0)%nat && negb (length (tb_outs b) =? 0)%nat &&
  negb (zeqb (code d) (@native_asset_code toy_field)) && negb (zeqb (code d) (@dummy_asset_code toy_field)) &&
  negb (@point_eqb T (viewer_pk (policy d)) (@pt_id T)) &&
  Bool.eqb (rm_bit (reveal_map (policy d)) 0) (rm_bit (reveal_map (policy d)) 1) &&
  (zv (reveal_threshold (policy d)) <? 2 ^ 127) &&
  existsb (fun r => @asset_def_eqb T (asset_def r) d) (skipn 1 (tb_ins b)) &&
  (@total T (skipn 1 (tb_ins b)) =? @total T (tb_outs b)) && (@total T (tb_ins b) <? 2 ^ 127) &&
  match tb_ins b with r :: _ => zv (amount (tb_chg b)) <=? zv (amount r) | [] => false end &&
  nodup_b (@tb_nullifiers T b).
Lemma total_nonneg (l : list (@RecordOpening T)) : 0 <= @total T l.
Proof. induction l as [|r l IH]; [cbn; lia|]. change (@total T (r :: l)) with (zv (amount r) + @total T l). pose proof (zv_range (amount r)). lia. Qed.
Lemma bx_ready start n_in n_out depth kps nn b0 l b (vu x : u64) :
  size_ok start n_in n_out depth -> @tb_new T start n_in n_out depth kps (Some nn) = Ok b0 -> @plain T false l -> @calls T l b0 = Ok b ->
  @chain_expiry T None l = Some x -> zv vu <= zv x < zv vu + 2 ^ 20 -> zv vu < 2 ^ 20 -> bx_rest b = true ->
  @non_native_ready T b (tb_root b) vu (@tb_def T b) /\ tb_num_in b = n_in /\ tb_num_out b = n_out.
Proof.
  intros HS HN HP HC HX Hx Hvu H. unfold bx_rest in H. cbv zeta in H.
  apply andb_true_iff in H; destruct H as [H D]. apply andb_true_iff in H; destruct H as [H Fe]. apply andb_true_iff in H; destruct H as [H Am].
  apply andb_true_iff in H; destruct H as [H Ba]. apply andb_true_iff in H; destruct H as [H So]. apply andb_true_iff in H; destruct H as [H Th].
  apply andb_true_iff in H; destruct H as [H Rb]. apply andb_true_iff in H; destruct H as [H Vi]. apply andb_true_iff in H; destruct H as [H Cd].
  apply andb_true_iff in H; destruct H as [H Cn]. apply andb_true_iff in H; destruct H as [Hi Ho].
  assert (Ni : tb_ins b <> []) by (intros G; rewrite G in Hi; discriminate Hi). assert (No : tb_outs b <> []) by (intros G; rewrite G in Ho; discriminate Ho).
  destruct (chain_ready (toy_laws true) _ _ _ _ _ _ _ _ _ HS HN HP HC Ni No) as (R & R1 & R2 & R3 & R4 & R5). split; [|auto].
  constructor.
  - exact R.
  - unfold tb_def. destruct (tb_asset b) as [m|] eqn:Ea; [exists m; auto|]. exfalso. unfold tb_def in Cn. rewrite Ea in Cn. apply negb_true_iff in Cn. apply zeqb_neq in Cn. apply Cn. reflexivity.
  - split; [apply negb_true_iff in Cn; apply zeqb_neq in Cn; exact Cn|apply negb_true_iff in Cd; apply zeqb_neq in Cd; exact Cd].
  - intros _ G. apply negb_true_iff in Vi. assert (@point_eqb T (viewer_pk (policy (tb_def b))) pt_id = true) by (apply (point_eqb_spec (toy_laws true)); exact G). congruence.
  - intros _. split; [apply Bool.eqb_prop, Rb|]. apply Z.ltb_lt in Th. pose proof (total_nonneg (skipn 1 (tb_ins b))). unfold T in *. lia.
  - apply existsb_exists in So. destruct So as (r & S1 & S2). exists r. split; [exact S1|]. apply (asset_def_eqb_spec (toy_laws true)), S2.
  - intros Hk i r Hr Hd. destruct (R5 x HX Hk i r Hr Hd) as (c & C1 & C2 & C3). exists c. split; [exact C1|apply C3; exact Hx].
  - exact Hvu.
  - apply Z.eqb_eq, Ba.
  - intros r Hr. destruct (tb_ins b) as [|r0 rs]; [discriminate|]. cbn [nth_error] in Hr. injection Hr as ->. apply Z.leb_le, Fe.
  - apply Z.ltb_lt, Am.
  - apply nodup_b_ok, D.
Qed.
Lemma bx_nn_ok : exists nn, bx_nn = Ok nn.
Proof. assert (G : get bx_nn (fun _ => true) = true) by (vm_compute; reflexivity). destruct (get_ok _ _ G) as (nn & H & _). exists nn. exact H. Qed.
Lemma bx_encrypt r outs : @can_encrypt T w_codec r outs.
Proof. intros i ro H. eexists. reflexivity. Qed.
Lemma bx_case start n kps chain (x : u64) nn : bx_nn = Ok nn -> @plain T false chain -> @chain_expiry T None chain = Some x -> 500 <= zv x < 500 + 2 ^ 20 ->
  start_ok start (Z.of_nat n + 3) -> (n < 100)%nat ->
  get (let* nn := bx_nn in let* b := @tb_new T start n 3 None kps (Some nn) in @calls T chain b) bx_rest = true ->
  exists b0 b, @tb_new T start n 3 None kps (Some nn) = Ok b0 /\ @calls T chain b0 = Ok b /\ @plain T false chain /\
    @non_native_ready T b (tb_root b) (w64 500) (@tb_def T b) /\ tb_num_in b = n /\ tb_num_out b = 3%nat.
Proof.
  intros Hn HP HX Hx HS Hs G. destruct (get_ok _ _ G) as (b & HB & HR). rewrite Hn in HB. cbn [bind] in HB. apply bind_inv in HB. destruct HB as (b0 & H0 & HB).
  exists b0, b. split; [exact H0|]. split; [exact HB|]. split; [exact HP|].
  refine (bx_ready start n 3 None kps nn b0 chain b (w64 500) x _ H0 HP HB HX Hx _ HR); [|reflexivity].
  intros _. split; [|exact HS]. apply Z.le_trans with 200; [lia|]. vm_compute. discriminate.
Qed.
Lemma bx_new_is (n : nat) kps nn b0 : bx_nn = Ok nn -> @tb_new T 1 n 3 None kps (Some nn) = Ok b0 -> (let* nn := bx_nn in @tb_new T 1 n 3 None kps (Some nn)) = Ok b0.
Proof. intros -> H. exact H. Qed.
Lemma bx_chain_ready : exists b0 b, bx_new = Ok b0 /\ @calls T bx_chain b0 = Ok b /\ @plain T false bx_chain /\
  @non_native_ready T b (tb_root b) (w64 500) (@tb_def T b) /\ tb_num_in b = 2%nat /\ tb_num_out b = 3%nat.
Proof.
  destruct bx_nn_ok as (nn & Hn). assert (P : @plain T false bx_chain) by (cbn; tauto).
  assert (G : get (let* nn := bx_nn in let* b := @tb_new T 1 2 3 None bx_kps (Some nn) in @calls T bx_chain b) bx_rest = true) by (vm_compute; reflexivity).
  destruct (bx_case 1 2 bx_kps bx_chain (w64 900) nn Hn P eq_refl) as (b0 & b & H & Q); [change (zv (w64 900)) with 900; lia|right; reflexivity|lia|exact G|].
  exists b0, b. split; [exact (bx_new_is _ _ _ _ Hn H)|exact Q].
Qed.
Lemma bx_chain3_ready : exists b0 b, bx_new3 = Ok b0 /\ @calls T bx_chain3 b0 = Ok b /\ @plain T false bx_chain3 /\
  @non_native_ready T b (tb_root b) (w64 500) (@tb_def T b) /\ tb_num_in b = 3%nat /\ tb_num_out b = 3%nat.
Proof.
  destruct bx_nn_ok as (nn & Hn). assert (P : @plain T false bx_chain3) by (cbn; tauto).
  assert (G : get (let* nn := bx_nn in let* b := @tb_new T 1 3 3 None (bx_kps ++ [s_user true 13]) (Some nn) in @calls T bx_chain3 b) bx_rest = true) by (vm_compute; reflexivity).
  destruct (bx_case 1 3 (bx_kps ++ [s_user true 13]) bx_chain3 (w64 900) nn Hn P eq_refl) as (b0 & b & H & Q); [change (zv (w64 900)) with 900; lia|right; reflexivity|lia|exact G|].
  exists b0, b. split; [exact (bx_new_is _ _ _ _ Hn H)|exact Q].
Qed.

(** ** Native *)
Definition bx_native : list (@BuilderCall T) :=
  [CInputAmounts bx_blind (s_amount 20) [s_amount 30]; COutputAmounts bx_users bx_blind2 (s_amount 15) [s_amount 18; s_amount 10]].
Definition bx_native_rest (b : @TransferBuilder T) : bool :=
  negb (length (tb_ins b) =? 0)%nat && negb (length (tb_outs b) =? 0)%nat && match tb_asset b with None => true | _ => false end &&
  (@total T (tb_outs b) <=? @total T (skipn 1 (tb_ins b)) + zv (amount (tb_chg b))) && (@total T (tb_ins b) <? 2 ^ 127) &&
  match tb_ins b with r :: _ => zv (amount (tb_chg b)) <=? zv (amount r) | [] => false end && nodup_b (@tb_nullifiers T b).
Lemma bx_native_ready : exists b0 b, @tb_new T 1 2 3 None bx_kps None = Ok b0 /\ @calls T bx_native b0 = Ok b /\ @plain T false bx_native /\
  @native_ready T b (tb_root b) /\ tb_num_in b = 2%nat /\ tb_num_out b = 3%nat.
Proof.
  assert (G : get (let* b := @tb_new T 1 2 3 None bx_kps None in @calls T bx_native b) bx_native_rest = true) by (vm_compute; reflexivity).
  destruct (get_ok _ _ G) as (b & HB & H). apply bind_inv in HB. destruct HB as (b0 & H0 & HB). exists b0, b. split; [exact H0|]. split; [exact HB|].
  assert (P : @plain T false bx_native) by (cbn; tauto). split; [exact P|]. unfold bx_native_rest in H.
  apply andb_true_iff in H; destruct H as [H D]. apply andb_true_iff in H; destruct H as [H Fe]. apply andb_true_iff in H; destruct H as [H Am].
  apply andb_true_iff in H; destruct H as [H Ba]. apply andb_true_iff in H; destruct H as [H As]. apply andb_true_iff in H; destruct H as [Hi Ho].
  assert (Ni : tb_ins b <> []) by (intros Q; rewrite Q in Hi; discriminate Hi). assert (No : tb_outs b <> []) by (intros Q; rewrite Q in Ho; discriminate Ho).
  assert (HS : size_ok 1 2 3 None). { intros _. split; [vm_compute; discriminate|right; reflexivity]. }
  destruct (chain_ready (toy_laws true) _ _ _ _ _ _ _ _ _ HS H0 P HB Ni No) as (R & R1 & R2 & _). split; [|auto]. constructor.
  - exact R.
  - destruct (tb_asset b); [discriminate|reflexivity].
  - apply Z.leb_le, Ba.
  - intros r Hr. destruct (tb_ins b) as [|r0 rs]; [discriminate|]. cbn [nth_error] in Hr. injection Hr as ->. apply Z.leb_le, Fe.
  - apply Z.ltb_lt, Am.
  - apply nodup_b_ok, D.
Qed.

(** ** A dummy that is no longer one *)
Definition bx_late : list (@BuilderCall T) := [CInputAmounts bx_blind (s_amount 20) [s_amount 30; s_amount 44]; CDummyInput 1; CRevealThreshold (s_amount 5)].
Definition bx_lost (b : @TransferBuilder T) : bool :=
  existsb (fun r => negb (@asset_def_eqb T (asset_def r) (@tb_def T b)) && negb (@asset_def_eqb T (asset_def r) (@asset_def_dummy T))) (skipn 1 (tb_ins b)).
Lemma bx_dummy_lost : exists b0 l b r, bx_new3 = Ok b0 /\ @calls T l b0 = Ok b /\
  (exists l0 t, l = l0 ++ [CRevealThreshold t] /\ @plain T false l0) /\ In r (skipn 1 (tb_ins b)) /\ asset_def r <> @tb_def T b /\ asset_def r <> @asset_def_dummy T.
Proof.
  assert (G : get (let* b := bx_new3 in @calls T bx_late b) bx_lost = true) by (vm_compute; reflexivity).
  destruct (get_ok _ _ G) as (b & HB & H). apply bind_inv in HB. destruct HB as (b0 & H0 & HB). unfold bx_lost in H. apply existsb_exists in H. destruct H as (r & R1 & R2).
  apply andb_true_iff in R2. destruct R2 as [R2 R3]. apply negb_true_iff in R2, R3.
  exists b0, bx_late, b, r. split; [exact H0|]. split; [exact HB|]. split; [exists (firstn 2 bx_late), (s_amount 5); split; [reflexivity|cbn; tauto]|]. split; [exact R1|]. split.
  - intros Q. assert (@asset_def_eqb T (asset_def r) (@tb_def T b) = true) by (apply (asset_def_eqb_spec (toy_laws true)); exact Q). congruence.
  - intros Q. assert (@asset_def_eqb T (asset_def r) (@asset_def_dummy T) = true) by (apply (asset_def_eqb_spec (toy_laws true)); exact Q). congruence.
Qed.

(** ** A list: two transfers, one of them native, a mint and a freeze *)
Definition bx_sample (native : bool) : @TransferSample T :=
  @mkTS T (w64 1500) (s_amount 9) (s_amount 4) (s_amount 6) native (@sz toy_field 7) (@sz toy_field 8) (@sz toy_field 9) (@fz toy_field 4242) bx_blind bx_blind2 bx_users bx_attrs.
Definition bx_tj : list (@TransferJob T TS) :=
  [@mkTJ T TS (bx_sample false) (@mkBRand T TS (h_rand true) (fun _ => tt)) (map b8 [1; 2]); @mkTJ T TS (bx_sample true) (@mkBRand T TS (h_rand true) (fun _ => tt)) []].
Definition bx_mj : list (@MintJob T TS) :=
  [@mkMJ T TS (@mkMSm T (s_amount 20) (s_amount 3) (s_amount 77) (@fz toy_field 801) (@fz toy_field 802) (@fz toy_field 803)) (s_user true 14) (s_user true 15) (@sz toy_field 7) (@fz toy_field 804) (m_rand true)].
Definition bx_fsample : @FreezeSample T := @mkFS T (fun _ => s_def true) (fun i => match i with O => s_user true 20 | _ => s_user true 21 end) (fun i => @fz toy_field (900 + Z.of_nat i)) (@fz toy_field 950).
Definition bx_fj : list (@FreezeJob T TS) :=
  [@mkFJ T TS bx_fsample Nat.even (fun i => s_amount (10 + Z.of_nat i)) (s_amount 30) (s_amount 2) (s_user true 16) [@sz toy_field 9; @sz toy_field 10] (@fz toy_field 960) (f_rand true)].
Definition bx_list_ok (bs : @Builders T) : bool :=
  forallb (fun b => nodup_b (@tb_nullifiers T b)) (bs_transfers bs) && forallb (fun b => nodup_b (@fb_nullifiers T b)) (bs_freezes bs).
Lemma bx_point k : negb (@point_eqb T (@user_address T (s_user true k)) (@pt_id T)) = true -> @user_address T (s_user true k) <> @pt_id T.
Proof. intros H G. apply negb_true_iff in H. assert (@point_eqb T (@user_address T (s_user true k)) (@pt_id T) = true) by (apply (point_eqb_spec (toy_laws true)); exact G). congruence. Qed.
Lemma bx_freezer (k : @Fj toy_field) : negb (@point_eqb T (@freezer_pub_key T k) (@pt_id T)) = true -> @freezer_pub_key T k <> @pt_id T.
Proof. intros H G. apply negb_true_iff in H. assert (@point_eqb T (@freezer_pub_key T k) (@pt_id T) = true) by (apply (point_eqb_spec (toy_laws true)); exact G). congruence. Qed.
Lemma bx_viewer (k : @ViewerKeyPair T) : negb (@point_eqb T (@viewer_pub_key T k) (@pt_id T)) = true -> @viewer_pub_key T k <> @pt_id T.
Proof. intros H G. apply negb_true_iff in H. assert (@point_eqb T (@viewer_pub_key T k) (@pt_id T) = true) by (apply (point_eqb_spec (toy_laws true)); exact G). congruence. Qed.
Lemma bx_sample_ok native : @transfer_sample_ok T (w64 1000) (bx_sample native).
Proof.
  unfold transfer_sample_ok, bx_sample. cbn [ts_expiry ts_fee ts_chg ts_factor]. change (zv (w64 1000)) with 1000. change (zv (w64 1500)) with 1500.
  change (zv (s_amount 9)) with 9. change (zv (s_amount 4)) with 4. change (zv (s_amount 6)) with 6. lia.
Qed.
Lemma bx_list :
  (forall j, In j bx_tj -> @transfer_job_ok T TS j) /\ (forall j, In j bx_mj -> @mint_job_ok T TS j) /\ (forall j, In j bx_fj -> @freeze_job_ok T TS j) /\
  @jobs_fit T TS (b8 3) bx_tj bx_mj bx_fj /\
  exists bs, @generate_builders T TS 1 (b8 3) bx_kps bx_tj bx_mj bx_fj = Ok bs /\
    (forall b j, In (b, j) (combine (bs_transfers bs) bx_tj) -> NoDup (@tb_nullifiers T b) /\ @can_encrypt T w_codec (br_enc (tj_rand j)) (tb_outs b)) /\
    (forall b, In b (bs_freezes bs) -> NoDup (@fb_nullifiers T b)).
Proof.
  assert (V : @viewer_pub_key T (@sz toy_field 7) <> @pt_id T) by (apply bx_viewer; vm_compute; reflexivity).
  split; [|split; [|split; [|split]]].
  - intros j [<-|[<-|[]]]; (split; [apply bx_sample_ok|exact V]).
  - intros j [<-|[]]. unfold mint_job_ok, mint_sample_ok. cbn [mj_sample msm_in msm_fee msm_amount]. change (zv (s_amount 20)) with 20. change (zv (s_amount 3)) with 3. change (zv (s_amount 77)) with 77. lia.
  - intros j [<-|[]]. split; [reflexivity|]. split; [cbn [fj_fee fj_fee_in]; change (zv (s_amount 2)) with 2; change (zv (s_amount 30)) with 30; lia|]. split.
    + intros k [<-|[<-|[]]]; apply bx_freezer; vm_compute; reflexivity.
    + intros [|i]; cbn [fj_sample fs_user bx_fsample]; apply bx_point; vm_compute; reflexivity.
  - split; vm_compute; [reflexivity|discriminate].
  - assert (G : get (@generate_builders T TS 1 (b8 3) bx_kps bx_tj bx_mj bx_fj) bx_list_ok = true) by (vm_compute; reflexivity).
    destruct (get_ok _ _ G) as (bs & HB & H). exists bs. split; [exact HB|]. unfold bx_list_ok in H. apply andb_true_iff in H. destruct H as [H1 H2]. rewrite forallb_forall in H1, H2. split.
    + intros b j Hin. split; [apply nodup_b_ok, H1; exact (in_combine_l _ _ _ _ Hin)|apply bx_encrypt].
    + intros b Hin. apply nodup_b_ok, H2, Hin.
Qed.
