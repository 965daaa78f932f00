(** The random transfer builder, and the builders of mints and freezes. *)
From Verif Require Import Base Config Structs Keys Utils Memo Plonk Witness Circuits Relation CodecProofs PolicyProofs UtilsProofs Snark
  Notes NoteProofs NoteFacts NoteLive2 Serde Ledger Wallet WalletProofs WalletPay Builder BuilderSpec BuilderLive BuilderProofs BuilderChain.

Section BuilderRand.
  Context {C : CapConfig} {S : Snark C} {K : @RoCodec C} {E : MemoSer C} (L : CapLaws C) (SL : SnarkLaws S).

  Lemma bind_inv {A B} (m : res A) (f : A -> res B) y : bind m f = Ok y -> exists x, m = Ok x /\ f x = Ok y.
  Proof. destruct m; cbn [bind]; try discriminate. eauto. Qed.

  (** ** Totals *)
  Lemma total_repeat (f : nat -> Amount -> RecordOpening) v : (forall i a, amount (f i a) = a) -> forall n l i,
    (forall j, nth_error l j = option_map (f (i + j)%nat) (nth_error (repeat v n) j)) -> total l = Z.of_nat n * zv v.
  Proof.
    intros Hf. induction n as [|n IH]; intros l i H.
    - destruct l as [|r l]; [reflexivity|]. specialize (H 0%nat). discriminate.
    - destruct l as [|r l]; [specialize (H 0%nat); discriminate|]. pose proof (H 0%nat) as H0. cbn [repeat nth_error option_map] in H0. injection H0 as ->.
      unfold total in *. cbn [fold_right]. rewrite Hf. rewrite (IH l (Datatypes.S i)); [lia|].
      intros j. specialize (H (Datatypes.S j)). cbn [repeat nth_error] in H. rewrite H. replace (i + Datatypes.S j)%nat with (Datatypes.S i + j)%nat by lia. reflexivity.
  Qed.
  Lemma total_in b bl v : forall n i rs, input_records b bl i (repeat v n) = Ok rs -> total rs = Z.of_nat n * zv v.
  Proof.
    induction n as [|n IH]; intros i rs H; cbn [repeat input_records] in H; [injection H as <-; reflexivity|].
    apply bind_inv in H. destruct H as (k & _ & H). apply bind_inv in H. destruct H as (rs' & H1 & H). injection H as <-.
    unfold total. cbn [fold_right ro_new amount]. fold (total rs'). rewrite (IH _ _ H1). lia.
  Qed.
  Lemma total_out d kps bl n v : total (output_records d kps bl 0 (repeat v n)) = Z.of_nat n * zv v.
  Proof.
    apply (total_repeat (fun j a => ro_new (bl (j + 1)%nat) a d (user_pub_key (kps j)) Unfrozen) v ltac:(reflexivity) n _ 0).
    intros j. rewrite (proj2 (output_records_spec d kps bl (repeat v n) 0)). replace (0 + 1 + j)%nat with (0 + j + 1)%nat by lia. reflexivity.
  Qed.

  (** ** Random transfers *)
  Definition rand_chain (s : TransferSample) (n_in n_out : nat) : list BuilderCall :=
    let t := zv (ts_factor s) * (Z.of_nat n_in - 1) * (Z.of_nat n_out - 1) in
    [ CInputAmounts (ts_bl_in s) (ts_fee s) (repeat (w128 (t / (Z.of_nat n_in - 1))) (n_in - 1));
      COutputAmounts (ts_kps_out s) (ts_bl_out s) (ts_chg s) (repeat (w128 (t / (Z.of_nat n_out - 1))) (n_out - 1));
      CInputCreds (ts_attrs s) (ts_expiry s) ].
  Lemma rand_inv s start n_in n_out depth kps vu b : tb_rand s start n_in n_out depth kps vu = Ok b ->
    zv vu + 1 < 2000 /\ (2 <= n_in)%nat /\ (2 <= n_out)%nat /\
    exists asset b0, tb_new start n_in n_out depth kps asset = Ok b0 /\ calls (rand_chain s n_in n_out) b0 = Ok b /\
      (asset = None \/ exists nn, asset = Some nn /\ nn_generate (ts_viewer s) (ts_minter s) (ts_freezer s) (ts_seed s) = Ok nn).
  Proof.
    unfold tb_rand. intros H. destruct (Z.leb_spec 2000 (zv vu + 1)) as [|Hv]; [discriminate|].
    destruct ((n_in <=? 1)%nat || (n_out <=? 1)%nat) eqn:EN; [discriminate|]. apply orb_false_iff in EN. destruct EN as [N1 N2].
    apply Nat.leb_gt in N1, N2. cbv zeta in H. apply bind_inv in H. destruct H as (b0 & H0 & H).
    split; [exact Hv|]. split; [lia|]. split; [lia|].
    assert (CH : calls (rand_chain s n_in n_out) b0 = Ok b).
    { unfold rand_chain. cbv zeta. cbn [calls call]. apply bind_inv in H. destruct H as (b1 & H1 & H). rewrite H1. cbn [bind].
      apply bind_inv in H. destruct H as (b2 & H2 & H). rewrite H2. cbn [bind]. rewrite H. reflexivity. }
    destruct (ts_native s).
    - exists None, b0. auto.
    - unfold tb_new_non_native in H0. destruct (negb _); [discriminate|]. apply bind_inv in H0. destruct H0 as (? & _ & H0).
      apply bind_inv in H0. destruct H0 as (nn & G & H0). exists (Some nn), b0. split; [exact H0|]. split; [exact CH|]. right. exists nn. auto.
  Qed.
  Lemma nn_generate_spec v m f seed nn : nn_generate v m f seed = Ok nn ->
    nn_def nn = mkDef (new_domestic seed []) (mkPolicy (viewer_pub_key v) (ver_key m) (freezer_pub_key f) rm_default (w128 0)) /\ nn_minter nn = m /\
    code (nn_def nn) <> native_asset_code /\ code (nn_def nn) <> dummy_asset_code.
  Proof.
    unfold nn_generate, asset_def_new. cbv zeta. intros H. destruct (zeqb _ _ || zeqb _ _) eqn:EQ; cbn [unwrap bind] in H; [discriminate|].
    injection H as <-. apply orb_false_iff in EQ. destruct EQ as [E1 E2]. split; [reflexivity|]. split; [reflexivity|]. cbn [nn_def code].
    split; intros G; [apply zeqb_spec in G; congruence|apply zeqb_spec in G; congruence].
  Qed.

  (** the ready builder, and its amounts *)
  Lemma rand_ready s start n_in n_out depth kps vu b : size_ok start n_in n_out depth -> transfer_sample_ok vu s ->
    Z.of_nat n_in <= 2 ^ 32 -> Z.of_nat n_out <= 2 ^ 32 ->
    tb_rand s start n_in n_out depth kps vu = Ok b ->
    tb_ready b (tb_root b) /\ tb_num_in b = n_in /\ tb_num_out b = n_out /\ tb_kps b = kps /\ (forall d, depth = Some d -> tb_depth b = Z.to_nat (zv d)) /\
    total (skipn 1 (tb_ins b)) = total (tb_outs b) /\ total (tb_ins b) < 2 ^ 127 /\
    (forall r, nth_error (tb_ins b) 0 = Some r -> zv (amount (tb_chg b)) <= zv (amount r)) /\
    (tb_asset b = None \/
     exists nn, tb_asset b = Some nn /\ nn_generate (ts_viewer s) (ts_minter s) (ts_freezer s) (ts_seed s) = Ok nn) /\
    (cred_pk (policy (tb_def b)) <> pt_id -> forall i r, nth_error (skipn 1 (tb_ins b)) i = Some r -> asset_def r = tb_def b ->
       exists c, nth_error (tb_creds b) (Datatypes.S i) = Some (Some c) /\ good_cred vu c).
  Proof.
    intros HS (Q1 & Q2 & Q3 & Q4) Hi32 Ho32 H. apply rand_inv in H. destruct H as (Hv & Hi & Ho & asset & b0 & HN & HC & HA).
    destruct (new_shape _ _ _ _ _ _ _ HS HN) as (S0 & C0 & N1 & N2 & N3 & N4 & N5 & N6 & N7 & N8).
    set (t := zv (ts_factor s) * (Z.of_nat n_in - 1) * (Z.of_nat n_out - 1)) in *.
    pose proof HC as HC'. unfold rand_chain in HC'. cbv zeta in HC'. fold t in HC'. cbn [calls call] in HC'.
    apply bind_inv in HC'. destruct HC' as (b1 & H1 & HC'). apply bind_inv in HC'. destruct HC' as (b2 & H2 & HC'). apply bind_inv in HC'. destruct HC' as (b3 & H3 & HC').
    injection HC' as ->.
    destruct (set_inputs_spec _ _ _ _ _ S0 H1) as (S1 & C1 & (F1a & F1b & F1c & F1d) & D1 & A1 & O1 & CH1 & k & rs & K1 & K2 & K3 & K4).
    destruct (set_outputs_spec _ _ _ _ _ _ S1 H2) as (S2 & C2 & (F2a & F2b & F2c & F2d) & D2 & A2 & I2 & k2 & K21 & K22 & K23 & K24).
    destruct (set_creds_spec _ _ _ _ S2 H3) as (S3 & C3 & (F3a & F3b & F3c & F3d) & A3 & I3 & O3 & CH3 & _ & _ & CR).
    assert (Ins : tb_ins b = ro_new (ts_bl_in s 0%nat) (ts_fee s) asset_def_native (user_pub_key k) Unfrozen :: rs) by congruence.
    assert (Outs : tb_outs b = output_records (tb_def b1) (ts_kps_out s) (ts_bl_out s) 0 (repeat (w128 (t / (Z.of_nat n_out - 1))) (n_out - 1))) by congruence.
    assert (NE : tb_ins b <> []) by (rewrite Ins; discriminate).
    assert (NO : tb_outs b <> []).
    { rewrite Outs. intros G. apply (f_equal (@length _)) in G. rewrite (proj1 (output_records_spec _ _ _ _ _)), repeat_length in G. cbn [length] in G. lia. }
    destruct (chain_ready L _ _ _ _ _ _ _ _ _ HS HN (I : plain false (rand_chain s n_in n_out)) HC NE NO) as (R & R1 & R2 & R3 & R4 & R5).
    assert (As : tb_asset b = asset) by congruence.
    assert (Ti : t / (Z.of_nat n_in - 1) = zv (ts_factor s) * (Z.of_nat n_out - 1)).
    { unfold t. replace (zv (ts_factor s) * (Z.of_nat n_in - 1) * (Z.of_nat n_out - 1)) with (zv (ts_factor s) * (Z.of_nat n_out - 1) * (Z.of_nat n_in - 1)) by ring.
      apply Z.div_mul. lia. }
    assert (To : t / (Z.of_nat n_out - 1) = zv (ts_factor s) * (Z.of_nat n_in - 1)) by (unfold t; apply Z.div_mul; lia).
    assert (Bt : 0 <= t < 2 ^ 70).
    { unfold t. split; [nia|]. apply Z.le_lt_trans with (50 * 2 ^ 32 * 2 ^ 32); [|reflexivity].
      apply Z.mul_le_mono_nonneg; [nia| |lia|lia]. apply Z.mul_le_mono_nonneg; lia. }
    assert (T1 : total (skipn 1 (tb_ins b)) = t).
    { rewrite Ins. cbn [skipn]. rewrite (total_in _ _ _ _ _ _ K2). rewrite Ti, zv_w128_small by nia. unfold t. rewrite Nat2Z.inj_sub by lia. nia. }
    assert (T2 : total (tb_outs b) = t).
    { rewrite Outs, total_out, To, zv_w128_small by nia. unfold t. rewrite Nat2Z.inj_sub by lia. nia. }
    assert (CH : amount (tb_chg b) = ts_chg s) by (rewrite CH3, K23; reflexivity).
    split; [exact R|]. split; [exact R1|]. split; [exact R2|]. split; [congruence|]. split; [intros d Hd; rewrite R3; exact (N5 d Hd)|].
    split; [lia|]. split.
    { rewrite Ins in T1 |- *. cbn [skipn] in T1. change (zv (ts_fee s) + total rs < 2 ^ 127). rewrite T1. change (2 ^ 127) with (2 ^ 70 * 2 ^ 57). nia. }
    split. { intros r Hr. rewrite Ins in Hr. injection Hr as <-. cbn [ro_new amount]. rewrite CH. lia. }
    split. { rewrite As. exact HA. }
    intros Hc i r Hr Hd. destruct (R5 (ts_expiry s) eq_refl Hc i r Hr Hd) as (c & G1 & G2 & G3). exists c. split; [exact G1|]. apply G3. pose proof (zv_range vu). lia.
  Qed.

  Theorem rand_builds s start n_in n_out depth kps vu b g pk vk r extra (ts : u64) : size_ok start n_in n_out depth -> transfer_sample_ok vu s ->
    Z.of_nat n_in <= 2 ^ 32 -> Z.of_nat n_out <= 2 ^ 32 ->
    (freezer_pub_key (ts_freezer s) <> pt_id -> viewer_pub_key (ts_viewer s) <> pt_id) ->
    tb_rand s start n_in n_out depth kps vu = Ok b ->
    forall b' root, tb_asset b' = tb_asset b /\ tb_ins b' = tb_ins b /\ tb_outs b' = tb_outs b /\ tb_chg b' = tb_chg b /\ tb_kps b' = tb_kps b /\
      tb_creds b' = tb_creds b /\ tb_num_in b' = tb_num_in b /\ tb_num_out b' = tb_num_out b /\ tb_depth b' = tb_depth b ->
    length (tb_accs b') = n_in -> (forall i r a, nth_error (tb_ins b') i = Some r -> nth_error (tb_accs b') i = Some a -> proves (tb_depth b') root r a) ->
    transfer_preprocess g n_in n_out (tb_depth b) = Ok (pk, vk) -> can_encrypt (br_enc r) (tb_outs b) -> NoDup (tb_nullifiers b') -> zv ts <= zv vu ->
    exists n memos sg, tb_build_note r pk vu extra b' = Ok (n, memos, sg) /\ transfer_verify n vk root ts = Ok tt /\
      verify_receiver_memos_signature (TxTransfer n) memos sg = Ok tt /\ tn_nullifiers n = tb_nullifiers b'.
  Proof.
    intros HS HQ H32 H32' HK H b' root (B1 & B2 & B3 & B4 & B5 & B6 & B7 & B8 & B9) LA HM HP HE HD Hts.
    destruct (rand_ready _ _ _ _ _ _ _ _ HS HQ H32 H32' H) as (R & R1 & R2 & R3 & R4 & R5 & R6 & R7 & R8 & R9).
    destruct (rand_inv _ _ _ _ _ _ _ _ H) as (Hv & Hi & Ho & _).
    assert (Dd : tb_def b' = tb_def b) by (unfold tb_def; rewrite B1; reflexivity).
    assert (R' : tb_ready b' root).
    { destruct R as [r1 r2 r3 r4 r5 r6 r7 r8 r9 r10 r11 r12]. constructor; rewrite ?Dd, ?B2, ?B3, ?B4, ?B5, ?B6, ?B7, ?B8; auto.
      - congruence.
      - rewrite <- B2. exact HM. }
    rewrite <- R1, <- R2, <- B7, <- B8, <- B9 in HP. rewrite <- B3 in HE.
    destruct R8 as [Hn|(nn & Hn & Hg)].
    - assert (NR : native_ready b' root).
      { constructor; rewrite ?B2, ?B3, ?B4; auto; [congruence|]. rewrite R5. pose proof (zv_range (amount (tb_chg b))). lia. }
      destruct (native_builds L SL g pk vk b' root vu r extra ts HP NR HE) as (n & memos & sg & G1 & G2 & G3 & G4 & G5 & _); [lia|].
      exists n, memos, sg. auto.
    - destruct (nn_generate_spec _ _ _ _ _ Hg) as (D & Mi & Cn & Cd).
      assert (Dn : tb_def b = nn_def nn) by (unfold tb_def; rewrite Hn; reflexivity).
      destruct (rd_ins _ _ R) as [Li0 Li]. rewrite R1 in Li.
      assert (NR : non_native_ready b' root vu (nn_def nn)).
      { constructor; rewrite ?B2, ?B3, ?B4; auto.
        - exists nn. split; [congruence|reflexivity].
        - rewrite D. cbn [policy freezer_pk viewer_pk]. exact HK.
        - intros _. rewrite D. cbn [policy reveal_map reveal_threshold]. split; [reflexivity|].
          assert (0 <= total (skipn 1 (tb_ins b))). { clear. induction (skipn 1 (tb_ins b)) as [|x l IH]; unfold total in *; cbn [fold_right]; [lia|]. pose proof (zv_range (amount x)). lia. }
          rewrite zv_w128_small by lia. lia.
        - destruct (tb_ins b) as [|x [|y l]] eqn:EI; [contradiction|cbn [length] in Li; lia|]. exists y. split; [left; reflexivity|].
          pose proof H as H'. apply rand_inv in H'. destruct H' as (_ & _ & _ & asset & b0 & HN & HC & _).
          destruct (new_shape _ _ _ _ _ _ _ HS HN) as (S0 & C0 & _ & _ & _ & N4 & _ & _ & _ & _).
          unfold rand_chain in HC. cbv zeta in HC. cbn [calls call] in HC.
          apply bind_inv in HC. destruct HC as (b1 & H1 & HC). apply bind_inv in HC. destruct HC as (b2 & H2 & HC). apply bind_inv in HC. destruct HC as (b3 & H3 & HC).
          injection HC as ->.
          destruct (set_inputs_spec _ _ _ _ _ S0 H1) as (S1 & _ & _ & _ & A1 & _ & _ & k & rs & _ & K2 & _ & K4).
          destruct (set_outputs_spec _ _ _ _ _ _ S1 H2) as (S2 & _ & _ & _ & A2 & I2 & _).
          destruct (set_creds_spec _ _ _ _ S2 H3) as (_ & _ & _ & A3 & I3 & _).
          assert (Y : nth_error rs 0 = Some y). { assert (Q : ro_new (ts_bl_in s 0%nat) (ts_fee s) asset_def_native (user_pub_key k) Unfrozen :: rs = x :: y :: l) by congruence. injection Q as _ ->. reflexivity. }
          destruct (proj2 (input_records_spec _ _ _ _ _ K2) 0%nat y Y) as (k' & a & _ & _ & ->). cbn [ro_new asset_def]. unfold tb_def. rewrite <- A1, <- A2, <- A3, Hn. reflexivity.
        - rewrite <- Dn. intros Hc i x Hx Hxd. rewrite B6. apply (R9 Hc i x Hx Hxd).
        - lia. }
      destruct (non_native_builds L SL g pk vk b' root vu (nn_def nn) r extra ts HP NR HE Hts) as (n & memos & sg & G1 & G2 & G3 & G4 & G5 & _).
      exists n, memos, sg. auto.
  Qed.
End BuilderRand.
