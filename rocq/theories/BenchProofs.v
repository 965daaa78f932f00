(** Proofs about the benchmarks. *)
From Verif Require Import Base Config Structs Keys Utils Memo Plonk Witness Circuits Relation CodecProofs PolicyProofs UtilsProofs Snark
  Notes NoteProofs NoteFacts NoteThms NoteLive2 Serde Ledger Wallet WalletProofs WalletPay Builder BuilderSpec BuilderLive BuilderProofs BuilderChain BuilderRand
  BuilderOther BuilderCallSpec BuilderCalls BuilderEnd Bench.

Section BenchProofs.
  Context {C : CapConfig} {S : Snark C} {K : @RoCodec C} {E : MemoSer C} (L : CapLaws C) (SL : SnarkLaws S).

  Lemma total_amounts (l : list RecordOpening) : total l = fold_right Z.add 0 (map (fun r => zv (amount r)) l).
  Proof. induction l as [|r l IH]; [reflexivity|]. unfold total in *. cbn [fold_right map]. rewrite IH. reflexivity. Qed.
  Lemma sum_amounts l l' : map amount l = l' -> total l = fold_right Z.add 0 (map (@zv _) l').
  Proof. intros <-. rewrite total_amounts, map_map. reflexivity. Qed.
  Lemma sum_repeat (x : Z) n : fold_right Z.add 0 (repeat x n) = Z.of_nat n * x.
  Proof. induction n as [|n IH]; cbn [repeat fold_right]; [reflexivity|]. rewrite IH. lia. Qed.
  Lemma map_repeat' {A B} (f : A -> B) x n : map f (repeat x n) = repeat (f x) n.
  Proof. induction n as [|n IH]; cbn [repeat map]; [reflexivity|]. rewrite IH. reflexivity. Qed.

  Definition reserved (c : AssetCode) : Prop := c = native_asset_code \/ c = dummy_asset_code.
  Lemma nn_generate_exact v m f seed : (~ reserved (new_domestic seed []) -> exists nn, nn_generate v m f seed = Ok nn) /\
    (reserved (new_domestic seed []) -> nn_generate v m f seed = Panic).
  Proof.
    unfold nn_generate, asset_def_new, reserved. cbv zeta.
    destruct (zeqb_reflect (new_domestic seed []) native_asset_code) as [A|A]; destruct (zeqb_reflect (new_domestic seed []) dummy_asset_code) as [B|B]; cbn [orb unwrap bind fail_if];
      (split; intros H; [|try (destruct H as [H|H]; congruence); reflexivity || auto]); try (exfalso; tauto); eauto.
  Qed.

  (** what the builder needs; everything else panics *)
  Definition transfer_size_ok (s : BenchSample) (kps : list UserKeyPair) (n_in n_out : nat) (depth : byte) : Prop :=
    (1 <= n_in)%nat /\ (2 <= n_out)%nat /\ length kps = n_in /\ Z.of_nat n_in + Z.of_nat n_out <= 3 ^ zv depth < 2 ^ 64 /\ ~ reserved (new_domestic (be_seed s) []).

  Definition bench_chain (s : BenchSample) (n_in n_out : nat) : list BuilderCall :=
    [ CInputAmounts (be_bl_in s) (w128 30) (repeat (w128 1) (n_in - 1));
      COutputAmounts (be_kps_out s) (be_bl_out s) (w128 29) (w128 (Z.of_nat (n_in - 1)) :: repeat (w128 0) (n_out - 2));
      CInputCreds (be_attrs s) (w64 9999) ].
  Lemma bench_builder s start kps n_in n_out depth : transfer_size_ok s kps n_in n_out depth ->
    exists b, get_builder_transfer s start kps n_in n_out depth = Ok b /\ tb_ready b (tb_root b) /\
      tb_num_in b = n_in /\ tb_num_out b = n_out /\ tb_depth b = Z.to_nat (zv depth) /\ tb_kps b = kps /\
      map amount (tb_ins b) = w128 30 :: repeat (w128 1) (n_in - 1) /\ amount (tb_chg b) = w128 29 /\
      map amount (tb_outs b) = w128 (Z.of_nat (n_in - 1)) :: repeat (w128 0) (n_out - 2) /\
      (exists nn, tb_asset b = Some nn /\ nn_generate (be_viewer s) (be_minter s) (be_freezer s) (be_seed s) = Ok nn) /\
      map asset_def (tb_ins b) = asset_def_native :: repeat (tb_def b) (n_in - 1) /\
      (cred_pk (policy (tb_def b)) <> pt_id -> forall i r, nth_error (skipn 1 (tb_ins b)) i = Some r -> asset_def r = tb_def b ->
        exists c, nth_error (tb_creds b) (Datatypes.S i) = Some (Some c) /\ forall vu : u64, zv vu <= 9999 -> good_cred vu c).
  Proof.
    intros (H1 & H2 & H3 & [H4 H5] & H6). destruct (proj1 (nn_generate_exact (be_viewer s) (be_minter s) (be_freezer s) (be_seed s)) H6) as (nn & Hn).
    assert (RD : 0 <= zv depth < 256) by apply (zv_range depth).
    assert (ED : calculate_tree_depth start n_in n_out (Some depth) = Ok depth).
    { unfold calculate_tree_depth. destruct (Nat.eqb_spec n_in 0); [lia|]. destruct (Nat.eqb_spec n_out 0); [lia|]. unfold usize_pow3. rewrite Z2Nat.id by lia.
      destruct (Z.ltb_spec (3 ^ zv depth) (2 ^ 64)); [|lia]. cbn [bind]. destruct (Z.leb_spec (Z.of_nat n_in + Z.of_nat n_out) (3 ^ zv depth)); [reflexivity|lia]. }
    assert (HS : size_ok start n_in n_out (Some depth)) by (intros G; discriminate G).
    set (b0 := mkTB n_in n_out (Z.to_nat (zv depth)) (Some nn) [] [] ro_default kps (repeat None n_in) (repeat acc_default n_in) f0).
    assert (HN : tb_new start n_in n_out (Some depth) kps (Some nn) = Ok b0).
    { unfold tb_new. rewrite (proj2 (Nat.eqb_eq _ _) H3). cbn [negb]. rewrite ED. reflexivity. }
    assert (HNN : tb_new_non_native (be_viewer s) (be_minter s) (be_freezer s) (be_seed s) start n_in n_out (Some depth) kps = Ok b0).
    { unfold tb_new_non_native. rewrite (proj2 (Nat.eqb_eq _ _) H3). cbn [negb]. rewrite ED. cbn [bind]. rewrite Hn. cbn [bind]. exact HN. }
    pose (c1 := CInputAmounts (be_bl_in s) (w128 30) (repeat (w128 1) (n_in - 1))).
    pose (c2 := COutputAmounts (be_kps_out s) (be_bl_out s) (w128 29) (w128 (Z.of_nat (n_in - 1)) :: repeat (w128 0) (n_out - 2))).
    pose (c3 := CInputCreds (be_attrs s) (w64 9999)).
    destruct (proj1 (call_exact L start n_in n_out (Some depth) kps (Some nn) b0 [] b0 c1 HS HN eq_refl)) as (b1 & E1 & F1 & N1a & N1b & N1c & N1d).
    { cbn [allowed c1 tb_ins b0 tb_num_in]. split; [reflexivity|]. rewrite repeat_length. lia. }
    assert (C1 : calls [c1] b0 = Ok b1) by (cbn [calls]; rewrite E1; reflexivity).
    cbn [effect c1] in F1. destruct F1 as ((A1 & A2 & A3 & A4) & A5 & A6 & A7 & A8). cbn [tb_asset tb_outs tb_chg tb_creds b0] in A1, A2, A3, A4.
    destruct (proj1 (call_exact L start n_in n_out (Some depth) kps (Some nn) b0 [c1] b1 c2 HS HN C1)) as (b2 & E2 & F2 & N2a & N2b & N2c & N2d).
    { cbn [allowed c2]. split; [exact A2|]. cbn [length]. rewrite repeat_length, N1b. lia. }
    assert (C2 : calls [c1; c2] b0 = Ok b2) by (cbn [calls]; rewrite E1; cbn [bind]; rewrite E2; reflexivity).
    cbn [effect c2] in F2. destruct F2 as (B1 & B2 & B3 & B4 & _ & _ & _ & _ & B9 & B10).
    destruct (proj1 (call_exact L start n_in n_out (Some depth) kps (Some nn) b0 [c1; c2] b2 c3 HS HN C2)) as (b3 & E3 & F3 & N3a & N3b & N3c & N3d).
    { cbn [allowed c3]. rewrite B2. split; [intros G; rewrite G in A5; discriminate A5|]. intros r _ _. rewrite B1, A1. discriminate. }
    cbn [effect c3] in F3. destruct F3 as (D1 & D2 & D3 & D4 & D5 & D6).
    assert (CH : calls (bench_chain s n_in n_out) b0 = Ok b3).
    { unfold bench_chain. fold c1 c2 c3. cbn [calls]. rewrite E1; cbn [bind]. rewrite E2; cbn [bind]. rewrite E3. reflexivity. }
    assert (Ins : tb_ins b3 = tb_ins b1) by congruence. assert (As : tb_asset b3 = Some nn) by congruence.
    assert (Df : tb_def b3 = tb_def b0) by (unfold tb_def; rewrite As; reflexivity).
    destruct (chain_ready L start n_in n_out (Some depth) kps (Some nn) b0 (bench_chain s n_in n_out) b3 HS HN I CH) as (R & R1 & R2 & R3 & R4 & R5).
    { rewrite Ins. intros G. rewrite G in A5. discriminate A5. }
    { rewrite D3. intros G. rewrite G in B9. discriminate B9. }
    exists b3. split.
    { unfold get_builder_transfer. destruct (Nat.eqb_spec n_in 0); [lia|]. destruct (Nat.ltb_spec n_out 2); [lia|]. cbn [orb]. rewrite HNN. cbn [bind]. cbv zeta.
      cbn [call c1 c2 c3] in E1, E2, E3. rewrite E1. cbn [bind]. rewrite E2. cbn [bind]. exact E3. }
    split; [exact R|]. split; [exact R1|]. split; [exact R2|]. split; [rewrite R3; reflexivity|]. split; [congruence|].
    split; [rewrite Ins; exact A5|]. split; [rewrite D4; exact B4|]. split; [rewrite D3; exact B9|]. split; [exists nn; auto|].
    split. { rewrite Ins, A7, Df, repeat_length. reflexivity. }
    intros Hc i r Hr Hd. destruct (R5 (w64 9999) eq_refl Hc i r Hr Hd) as (c & G1 & G2 & G3). exists c. split; [exact G1|]. intros vu Hv. apply G3. pose proof (zv_range vu).
    change (zv (w64 9999)) with 9999. change (2 ^ 20) with 1048576. lia.
  Qed.

  Lemma bench_builder_panics s start kps n_in n_out depth : ~ transfer_size_ok s kps n_in n_out depth -> get_builder_transfer s start kps n_in n_out depth = Panic.
  Proof.
    intros H. unfold get_builder_transfer. destruct (Nat.eqb_spec n_in 0) as [|N0]; [reflexivity|]. destruct (Nat.ltb_spec n_out 2) as [|N2]; [reflexivity|]. cbn [orb]. cbv zeta.
    unfold tb_new_non_native. destruct (Nat.eqb_spec (length kps) n_in) as [N3|]; cbn [negb]; [|reflexivity].
    unfold calculate_tree_depth. destruct (Nat.eqb_spec n_in 0); [lia|]. destruct (Nat.eqb_spec n_out 0); [lia|]. unfold usize_pow3.
    assert (RD : 0 <= zv depth < 256) by apply (zv_range depth). rewrite Z2Nat.id by lia.
    destruct (Z.ltb_spec (3 ^ zv depth) (2 ^ 64)) as [N4|]; cbn [bind]; [|reflexivity].
    destruct (Z.leb_spec (Z.of_nat n_in + Z.of_nat n_out) (3 ^ zv depth)) as [N5|]; cbn [bind]; [|reflexivity].
    rewrite (proj2 (nn_generate_exact _ _ _ _)); [reflexivity|].
    destruct (zeqb_reflect (new_domestic (be_seed s) []) native_asset_code) as [A|A]; [left; exact A|].
    destruct (zeqb_reflect (new_domestic (be_seed s) []) dummy_asset_code) as [B|B]; [right; exact B|].
    contradiction H. unfold transfer_size_ok, reserved. repeat split; auto; try lia. tauto.
  Qed.

  Lemma bench_ready s start kps n_in n_out depth b (vu : u64) : transfer_size_ok s kps n_in n_out depth -> (2 <= n_in)%nat -> Z.of_nat n_in < 2 ^ 64 -> zv vu <= 9999 ->
    (freezer_pub_key (be_freezer s) <> pt_id -> viewer_pub_key (be_viewer s) <> pt_id) ->
    get_builder_transfer s start kps n_in n_out depth = Ok b -> NoDup (tb_nullifiers b) -> non_native_ready b (tb_root b) vu (tb_def b).
  Proof.
    intros SZ H2 H64 Hv HK HG ND. destruct (bench_builder s start kps n_in n_out depth SZ) as (b' & HB & R & R1 & R2 & R3 & R4 & R5 & R6 & R7 & (nn & R8 & R8') & R9 & R10).
    rewrite HG in HB. injection HB as <-.
    destruct (nn_generate_spec _ _ _ _ _ R8') as (D & Mi & Cn & Cd).
    assert (Df : tb_def b = nn_def nn) by (unfold tb_def; rewrite R8; reflexivity).
    destruct (tb_ins b) as [|x [|y l]] eqn:EI; [discriminate R5| |].
    { apply (f_equal (@length _)) in R5. cbn [map length] in R5. rewrite repeat_length in R5. lia. }
    assert (T1 : total (y :: l) = Z.of_nat (n_in - 1)).
    { cbn [map] in R5. injection R5 as _ R5. change (amount y :: map amount l) with (map amount (y :: l)) in R5. rewrite (sum_amounts _ _ R5), map_repeat', sum_repeat. rewrite zv_w128_small by lia. lia. }
    assert (T2 : total (tb_outs b) = Z.of_nat (n_in - 1)).
    { rewrite (sum_amounts _ _ R7). cbn [map fold_right]. rewrite map_repeat', sum_repeat. rewrite !zv_w128_small by lia. lia. }
    assert (X : zv (amount x) = 30). { cbn [map] in R5. injection R5 as R5 _. rewrite R5. reflexivity. }
    constructor; rewrite ?EI; cbn [skipn]; auto.
    - exists nn. auto.
    - rewrite Df. auto.
    - rewrite Df, D. cbn [policy freezer_pk viewer_pk]. exact HK.
    - intros _. rewrite Df, D. cbn [policy reveal_map reveal_threshold]. split; [reflexivity|]. rewrite zv_w128_small by lia. rewrite T1. lia.
    - exists y. split; [left; reflexivity|]. cbn [map] in R9. apply (f_equal (fun l => nth 1 l (tb_def b))) in R9. cbn [nth] in R9. rewrite R9.
      destruct (n_in - 1)%nat as [|k] eqn:EK; [lia|]. reflexivity.
    - intros Hc i r Hr Hd. destruct (R10 Hc i r Hr Hd) as (c & G1 & G2). exists c. split; [exact G1|apply G2; exact Hv].
    - change (2 ^ 20) with 1048576. lia.
    - lia.
    - intros r Hr. injection Hr as <-. rewrite R6, X. change (zv (w128 29)) with 29. lia.
    - unfold total. cbn [fold_right]. change (zv (amount x) + total (y :: l) < 2 ^ 127). rewrite X, T1. change (2 ^ 127) with (2 ^ 64 * 2 ^ 63). lia.
  Qed.

  (** the notes *)
  Lemma bench_transfer_note g s r start kps n_in n_out depth b pk vk : transfer_size_ok s kps n_in n_out depth -> (2 <= n_in)%nat -> Z.of_nat n_in < 2 ^ 64 ->
    (freezer_pub_key (be_freezer s) <> pt_id -> viewer_pub_key (be_viewer s) <> pt_id) ->
    get_builder_transfer s start kps n_in n_out depth = Ok b -> NoDup (tb_nullifiers b) -> can_encrypt (br_enc r) (tb_outs b) ->
    transfer_preprocess g n_in n_out (Z.to_nat (zv depth)) = Ok (pk, vk) ->
    exists n memos sg, tb_build_note r pk (w64 1234) [] b = Ok (n, memos, sg) /\ ta_root (tn_aux n) = tb_root b /\
      forall ts : u64, zv ts <= 1234 -> transfer_verify n vk (ta_root (tn_aux n)) ts = Ok tt.
  Proof.
    intros SZ H2 H64 HK HG ND HE HP.
    assert (NR : non_native_ready b (tb_root b) (w64 1234) (tb_def b)).
    { apply (bench_ready s start kps n_in n_out depth b (w64 1234)); auto. change (zv (w64 1234)) with 1234. lia. }
    destruct (bench_builder s start kps n_in n_out depth SZ) as (b' & HB & _ & R1 & R2 & R3 & _). rewrite HG in HB. injection HB as <-.
    rewrite <- R1, <- R2, <- R3 in HP.
    destruct (non_native_builds L SL g pk vk b (tb_root b) (w64 1234) (tb_def b) r [] (w64 1234) HP NR HE (Z.le_refl _)) as (n & memos & sg & G1 & G2 & _ & _ & _ & _ & G7 & _ & _).
    apply transfer_verify_iff in G2. destruct G2 as (Q1 & Q2 & Q3). exists n, memos, sg. split; [exact G1|]. split; [symmetry; exact Q1|].
    intros ts Ht. apply transfer_verify_iff. split; [reflexivity|]. split; [|exact Q3]. rewrite G7. exact Ht.
  Qed.
  Lemma bench_mint_note g bl_fee seed bl_mint minter receiver viewer bl r depth pk vk : ~ reserved (new_domestic seed arbitrary_description) ->
    mint_preprocess g depth = Ok (pk, vk) ->
    exists b n sg chg, get_builder_mint bl_fee seed bl_mint minter receiver viewer depth = Ok b /\ mb_build_note bl r pk b = Ok (n, sg, chg) /\
      mint_verify n vk (ma_root (mn_aux n)) = Ok tt.
  Proof.
    intros HR HP. unfold reserved in HR. destruct (proj2 (mint_new_exact bl_fee seed bl_mint depth (w128 10) (w128 4) (w128 35) minter receiver viewer)) as (b & HB & _); [tauto|tauto|].
    destruct (mint_chain_builds L SL bl_fee seed bl_mint depth (w128 10) (w128 4) (w128 35) minter receiver viewer b [] b HB eq_refl) with (g := g) (pk := pk) (vk := vk) (bl := bl) (r := r)
      as (n & chg & G1 & G2 & _); auto.
    { rewrite !zv_w128_small by lia. lia. } { rewrite !zv_w128_small by lia. lia. }
    exists b, n, (mrd_sig r), chg. split; [exact HB|]. split; [exact G1|]. apply mint_verify_iff in G2. apply mint_verify_iff. tauto.
  Qed.
  Lemma bench_freeze_note g fk s fee_kp freezer bl r n_in depth b pk vk : (2 <= n_in)%nat -> (depth < 256)%nat -> Z.of_nat n_in < 2 ^ 64 -> Z.of_nat n_in <= 3 ^ Z.of_nat depth ->
    freezer_pub_key freezer <> pt_id -> (forall i, user_address (fs_user s i) <> pt_id) ->
    get_builder_freeze s fee_kp (repeat freezer (n_in - 1)) n_in depth = Ok b -> NoDup (fb_nullifiers b) ->
    freeze_preprocess g fk n_in depth = Ok (pk, vk) ->
    exists n sg chg outs, fb_build_note bl r pk b = Ok (n, sg, chg, outs) /\ freeze_verify n vk (fa_root (fn_aux n)) = Ok tt.
  Proof.
    intros H2 HD H64 H3 HF HU HB ND HP. unfold get_builder_freeze in HB. destruct (Nat.eqb_spec n_in 0) as [|_]; [lia|].
    assert (LN : length (repeat freezer (n_in - 1)) = (n_in - 1)%nat) by apply repeat_length.
    destruct (proj1 (freeze_new_exact s depth (repeat (w128 15) (n_in - 1)) (w128 10) (w128 5) fee_kp (repeat freezer (n_in - 1)) ltac:(rewrite LN; lia) ltac:(rewrite LN; lia)))
      as (b' & HB' & _ & _ & _ & F1 & _ & _ & F2 & _). { rewrite !repeat_length. reflexivity. }
    rewrite HB in HB'. injection HB' as <-.
    destruct (freeze_chain_builds L SL s depth (repeat (w128 15) (n_in - 1)) (w128 10) (w128 5) fee_kp (repeat freezer (n_in - 1)) b [] b HB eq_refl)
      with (g := g) (fk := fk) (pk := pk) (vk := vk) (bl := bl) (r := r) as (nt & chg & outs & G1 & G2 & _); auto.
    - intros Q. rewrite Q in LN. cbn [length] in LN. lia.
    - rewrite LN; lia.
    - rewrite LN; lia.
    - intros k Hk. apply repeat_spec in Hk. subst k. exact HF.
    - rewrite F1, F2. cbn [amount]. rewrite !zv_w128_small by lia. lia.
    - rewrite LN. replace (n_in - 1 + 1)%nat with n_in by lia. exact HP.
    - exists nt, (frd_sig r), chg, outs. split; [exact G1|]. apply freeze_verify_iff in G2. apply freeze_verify_iff. tauto.
  Qed.

  Lemma unwrap_fine {A} (r : res A) a : r = Ok a -> unwrap r = Ok a.
  Proof. intros ->. reflexivity. Qed.

  (** the programs *)
  Lemma key_pairs_length user n : length (@get_key_pairs C user n) = n.
  Proof. unfold get_key_pairs. rewrite map_length, seq_length. reflexivity. Qed.

  Theorem bench_transfer_passes g user s r start n_in n_out depth b pk vk :
    transfer_size_ok s (get_key_pairs user n_in) n_in n_out depth -> (2 <= n_in)%nat -> Z.of_nat n_in < 2 ^ 64 ->
    (freezer_pub_key (be_freezer s) <> pt_id -> viewer_pub_key (be_viewer s) <> pt_id) ->
    get_builder_transfer s start (get_key_pairs user n_in) n_in n_out depth = Ok b -> NoDup (tb_nullifiers b) -> can_encrypt (br_enc r) (tb_outs b) ->
    transfer_preprocess g n_in n_out (Z.to_nat (zv depth)) = Ok (pk, vk) ->
    bench_transfer g user s r start n_in n_out depth = Ok tt.
  Proof.
    intros SZ H2 H64 HK HG ND HE HP. destruct (bench_transfer_note g s r start _ n_in n_out depth b pk vk SZ H2 H64 HK HG ND HE HP) as (n & memos & sg & G1 & _ & G2).
    unfold bench_transfer. rewrite (unwrap_fine _ _ HP). cbn [bind fst snd]. rewrite HG. cbn [bind]. rewrite (unwrap_fine _ _ G1). cbn [bind fst snd]. cbv zeta.
    rewrite (G2 (w64 1233)); [reflexivity|]. change (zv (w64 1233)) with 1233. lia.
  Qed.
  Theorem bench_mint_passes g bl_fee seed bl_mint minter receiver viewer bl r depth pk vk : ~ reserved (new_domestic seed arbitrary_description) ->
    mint_preprocess g depth = Ok (pk, vk) -> bench_mint g bl_fee seed bl_mint minter receiver viewer bl r depth = Ok tt.
  Proof.
    intros HR HP. destruct (bench_mint_note g bl_fee seed bl_mint minter receiver viewer bl r depth pk vk HR HP) as (b & n & sg & chg & G1 & G2 & G3).
    unfold bench_mint. rewrite (unwrap_fine _ _ HP). cbn [bind fst snd]. rewrite G1. cbn [bind]. rewrite (unwrap_fine _ _ G2). cbn [bind fst snd]. cbv zeta. rewrite G3. reflexivity.
  Qed.
  Theorem bench_mint_panics g bl_fee seed bl_mint minter receiver viewer bl r depth pk vk : mint_preprocess g depth = Ok (pk, vk) ->
    reserved (new_domestic seed arbitrary_description) -> bench_mint g bl_fee seed bl_mint minter receiver viewer bl r depth = Panic.
  Proof.
    intros HP HR. unfold bench_mint. rewrite (unwrap_fine _ _ HP). cbn [bind]. unfold get_builder_mint.
    rewrite (proj1 (mint_new_exact bl_fee seed bl_mint depth (w128 10) (w128 4) (w128 35) minter receiver viewer) HR). reflexivity.
  Qed.
  Theorem bench_freeze_passes g fk s fee_kp freezer bl r n_in depth b pk vk : (2 <= n_in)%nat -> (depth < 256)%nat -> Z.of_nat n_in < 2 ^ 64 -> Z.of_nat n_in <= 3 ^ Z.of_nat depth ->
    freezer_pub_key freezer <> pt_id -> (forall i, user_address (fs_user s i) <> pt_id) ->
    get_builder_freeze s fee_kp (repeat freezer (n_in - 1)) n_in depth = Ok b -> NoDup (fb_nullifiers b) ->
    freeze_preprocess g fk n_in depth = Ok (pk, vk) -> bench_freeze g fk s fee_kp freezer bl r n_in depth = Ok tt.
  Proof.
    intros H2 HD H64 H3 HF HU HB ND HP. destruct (bench_freeze_note g fk s fee_kp freezer bl r n_in depth b pk vk H2 HD H64 H3 HF HU HB ND HP) as (n & sg & chg & outs & G1 & G2).
    unfold bench_freeze. rewrite (unwrap_fine _ _ HP). cbn [bind fst snd]. rewrite HB. cbn [bind]. rewrite (unwrap_fine _ _ G1). cbn [bind fst snd]. cbv zeta. rewrite G2. reflexivity.
  Qed.

  Lemma nth_error_repeat_app {A} (x : A) n l i y : nth_error (repeat x n ++ l) i = Some y -> (i < n)%nat /\ y = x \/ (n <= i)%nat /\ nth_error l (i - n) = Some y.
  Proof.
    intros H. destruct (Nat.lt_ge_cases i n) as [G|G].
    - left. split; [exact G|]. rewrite nth_error_app1 in H by (rewrite repeat_length; exact G). apply nth_error_In, repeat_spec in H. exact H.
    - right. split; [exact G|]. rewrite nth_error_app2 in H by (rewrite repeat_length; exact G). rewrite repeat_length in H. exact H.
  Qed.
  Lemma Forall2_repeat {A B} (R : A -> B -> Prop) x y n : R x y -> Forall2 R (repeat x n) (repeat y n).
  Proof. induction n; cbn [repeat]; constructor; auto. Qed.

  Theorem bench_batch_passes g user s r start bl_fee seed bl_mint minter receiver viewer bl_m rm fk fs fee_kp freezer bl_f rf num_notes n_in n_out depth bt bf kt km kf :
    (1 <= num_notes)%nat -> transfer_size_ok s (get_key_pairs user n_in) n_in n_out depth -> (2 <= n_in)%nat -> Z.of_nat n_in < 2 ^ 64 ->
    (freezer_pub_key (be_freezer s) <> pt_id -> viewer_pub_key (be_viewer s) <> pt_id) ->
    ~ reserved (new_domestic seed arbitrary_description) -> freezer_pub_key freezer <> pt_id -> (forall i, user_address (fs_user fs i) <> pt_id) ->
    get_builder_transfer s start (get_key_pairs user n_in) n_in n_out depth = Ok bt -> NoDup (tb_nullifiers bt) -> can_encrypt (br_enc r) (tb_outs bt) ->
    get_builder_freeze fs fee_kp (repeat freezer (n_in - 1)) n_in (Z.to_nat (zv depth)) = Ok bf -> NoDup (fb_nullifiers bf) ->
    transfer_preprocess g n_in n_out (Z.to_nat (zv depth)) = Ok kt -> mint_preprocess g (Z.to_nat (zv depth)) = Ok km -> freeze_preprocess g fk n_in (Z.to_nat (zv depth)) = Ok kf ->
    bench_batch g user s r start bl_fee seed bl_mint minter receiver viewer bl_m rm fk fs fee_kp freezer bl_f rf num_notes n_in n_out depth = Ok tt.
  Proof.
    intros HN SZ H2 H64 HK HR HF HU HGT NDT HE HGF NDF HPT HPM HPF. destruct kt as [pkt vkt], km as [pkm vkm], kf as [pkf vkf].
    destruct (bench_transfer_note g s r start _ n_in n_out depth bt pkt vkt SZ H2 H64 HK HGT NDT HE HPT) as (nt & memos & sg & T1 & _ & T2).
    destruct (bench_mint_note g bl_fee seed bl_mint minter receiver viewer bl_m rm (Z.to_nat (zv depth)) pkm vkm HR HPM) as (bm & nm & sgm & chgm & M1 & M2 & M3).
    assert (RD : 0 <= zv depth < 256) by apply (zv_range depth). destruct SZ as (_ & HO & _ & [S1 S2] & _).
    destruct (bench_freeze_note g fk fs fee_kp freezer bl_f rf n_in (Z.to_nat (zv depth)) bf pkf vkf H2 ltac:(lia) H64 ltac:(rewrite Z2Nat.id; lia) HF HU HGF NDF HPF) as (nf & sgf & chgf & outs & Z1 & Z2).
    unfold bench_batch. cbv zeta. rewrite (unwrap_fine _ _ HPT). cbn [bind]. rewrite (unwrap_fine _ _ HPM). cbn [bind]. rewrite (unwrap_fine _ _ HPF). cbn [bind fst snd].
    rewrite HGT. cbn [bind]. rewrite (unwrap_fine _ _ T1). cbn [bind]. rewrite M1. cbn [bind]. rewrite (unwrap_fine _ _ M2). cbn [bind]. rewrite HGF. cbn [bind]. rewrite (unwrap_fine _ _ Z1). cbn [bind fst snd].
    match goal with |- assert_ok ?x = _ => assert (HB : x = Ok tt); [|rewrite HB; reflexivity] end.
    apply (batch_individual SL).
    - destruct num_notes; [lia|discriminate].
    - apply Forall2_app; [|apply Forall2_app]; apply Forall2_repeat; exact I.
    - split; [rewrite !app_length, !repeat_length; reflexivity|]. intros i t k root Ht Hk Hr.
      apply nth_error_repeat_app in Ht. apply nth_error_repeat_app in Hk. apply nth_error_repeat_app in Hr.
      destruct Ht as [[A1 ->]|[A1 Ht]], Hk as [[A2 ->]|[A2 Hk]], Hr as [[A3 ->]|[A3 Hr]]; try lia.
      { cbn [tx_verify]. apply T2. change (zv (w64 1234)) with 1234. lia. }
      apply nth_error_repeat_app in Ht. apply nth_error_repeat_app in Hk. apply nth_error_repeat_app in Hr.
      destruct Ht as [[B1 ->]|[B1 Ht]], Hk as [[B2 ->]|[B2 Hk]], Hr as [[B3 ->]|[B3 Hr]]; try lia.
      { cbn [tx_verify]. exact M3. }
      apply nth_error_In, repeat_spec in Ht, Hk, Hr. subst t k root. cbn [tx_verify]. exact Z2.
  Qed.
End BenchProofs.
