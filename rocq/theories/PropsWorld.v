(** C68-C70: wallets next to the ledger they follow — which records they hold, who can take a record from a wallet, and
    that all wallets together hold no more than was minted. *)
From Verif Require Import Base Config Structs Keys Utils Memo Plonk Witness Circuits Relation Snark Notes Serde ToySer
  GadgetProofs NoteProofs Accepted Decide CircuitFacts Toy ToySnark Samples NoteSamples Ledger LedgerSpec LedgerProofs LedgerSupply LedgerSamples
  Wallet WalletSpec WalletProofs WalletPay WalletPay2 WalletSamples WorldSpec WorldProofs WorldSolvent WorldSamples.
#[local] Existing Instance toy_snark.
#[local] Existing Instance l_ser.
#[local] Existing Instance w_codec.
#[local] Existing Instance world_memo.
#[local] Notation accepted := Ledger.accepted.

(** ** C68: a wallet that follows the ledger holds exactly what is its own and unspent *)

(** whatever happened: a record is held iff the wallet was once given or paid it and no accepted transaction spends it *)
Theorem C68_unspent (C : CapConfig) (L : CapLaws C) (S : Snark C) (Z0 : Ser C S) (K : @RoCodec C) (KL : RoCodecLaws K) (E : MemoSer C) v op h kps SE w se :
  collision_free v op h kps SE -> follows v h w se -> incl se SE -> In (w_kp w) kps ->
  (forall x, holds w x <-> In x se /\ ~ spent_at v op h (snd x)) /\
  (forall x, In x se -> pub_key (fst x) = user_pub_key (w_kp w) /\ freeze_flag (fst x) = Unfrozen /\
     nth_error (lg_leaves (ledger_after v h)) (Z.to_nat (zv (snd x))) = Some (derive_record_commitment (fst x))).
Proof.
  intros CF FO HI HK. split; [exact (held_iff_unspent L KL v op h kps SE w se CF FO HI HK)|].
  intros x Hx. destruct (follows_in_step L KL v op h kps SE w se CF FO HI HK) as (sh & [R _] & O1 & O2 & O3).
  destruct (ri_seen _ _ _ _ (runs_inv L KL _ _ _ _ R O1 O2 O3) x Hx) as (A & B & _ & D). auto.
Qed.
Print Assumptions C68_unspent.
(** what C57 and C58 assume of a wallet holds of every wallet that follows the ledger *)
Theorem C68_in_step (C : CapConfig) (L : CapLaws C) (S : Snark C) (Z0 : Ser C S) (K : @RoCodec C) (KL : RoCodecLaws K) (E : MemoSer C) v op h kps SE w se :
  collision_free v op h kps SE -> follows v h w se -> incl se SE -> In (w_kp w) kps ->
  exists sh, in_step w (ledger_after v h) se sh /\ ordinary w (lg_leaves (ledger_after v h)) se sh.
Proof. exact (follows_in_step L KL v op h kps SE w se). Qed.
Print Assumptions C68_in_step.
(** how the wallet scans a block is what [scan_block] does *)
Theorem C68_scan (C : CapConfig) (S : Snark C) (K : @RoCodec C) w b memos off w' :
  (exists found, scan_block w b memos off = Ok (w', found)) <-> length memos = length (bk_txns b) /\ exists got, scanned w (combine (bk_txns b) memos) off w' got.
Proof. exact (scan_block_scanned w b memos off w'). Qed.
Print Assumptions C68_scan.

(** Users 11, 12, 13 and 20 follow a ledger: three records are minted for 11 and 12, then a transfer from 12 to 13 with a
    fee of 11 is accepted in a block of 20, and a mint that spends the same fee record is refused. *)
Example C68_example : exists n sk m sk', h_transfer true = Ok (n, sk) /\ h_mint true = Ok (m, sk') /\
  (forall k, In k [11; 12; 13; 20] -> let w := fst (ww_after n k) in let se := snd (ww_after n k) in
    (forall x, @holds T w x <-> In x se /\ ~ @spent_at T TS l_ser l_validator ww_op (ww_history n m) (snd x)) /\
    exists sh, @in_step T TS w_codec world_memo w (l_after (ww_history n m)) se sh /\ @ordinary T w (lg_leaves (l_after (ww_history n m))) se sh) /\
  ww_balances n = [(15, 0); (0, 20); (0, 18); (5, 0)].
Proof.
  destruct world_history as (n & sk & m & sk' & En & Em & CF & FO & _ & _ & _ & HB & _).
  exists n, sk, m, sk'. split; [exact En|]. split; [exact Em|]. split; [|exact HB]. intros k Hk w se.
  assert (HM : In (ww_after n k) (ww_all n)) by (unfold ww_all; apply in_map; exact Hk).
  assert (HI : incl se (flat_map (fun m => snd m) (ww_all n))) by (intros x Hx; apply in_flat_map; exists (ww_after n k); auto).
  assert (HK : In (w_kp w) (map (fun m => w_kp (fst m)) (ww_all n))) by (apply in_map_iff; exists (ww_after n k); auto).
  split.
  - exact (proj1 (C68_unspent T (toy_laws true) TS l_ser w_codec w_codec_laws world_memo _ _ _ _ _ _ _ CF (proj1 (FO k Hk)) HI HK)).
  - exact (C68_in_step T (toy_laws true) TS l_ser w_codec w_codec_laws world_memo _ _ _ _ _ _ _ CF (proj1 (FO k Hk)) HI HK).
Qed.

(** ** C69: nobody else can take a record from a wallet *)

(** A record that the wallet held and no longer holds was spent by a transaction accepted in between, and that was made
    with the wallet's own secret; or it is a freeze, made with the secret of the freezer in the record's policy. *)
Theorem C69_no_theft (C : CapConfig) (L : CapLaws C) (S : Snark C) (Z0 : Ser C S) (K : @RoCodec C) (KL : RoCodecLaws K) (E : MemoSer C)
    v op h w se h2 w2 se2 kps SE x :
  follows v h w se -> leads v h w se h2 w2 se2 -> collision_free v op h2 kps SE -> incl se2 SE -> In (w_kp w) kps ->
  holds w x -> ~ holds w2 x ->
  exists t s, In t (accepted v h2) /\ ~ In t (accepted v h) /\ In s (op_inputs (op t)) /\ spent_by_key w x t s.
Proof. exact (spent_by_its_key L KL v op h w se h2 w2 se2 kps SE x). Qed.
Print Assumptions C69_no_theft.
(** in particular, the records of a wallet without a freezer stay with it as long as its own secret is not used *)
Theorem C69_idle (C : CapConfig) (L : CapLaws C) (S : Snark C) (Z0 : Ser C S) (K : @RoCodec C) (KL : RoCodecLaws K) (E : MemoSer C)
    v op h w se h2 w2 se2 kps SE x :
  follows v h w se -> leads v h w se h2 w2 se2 -> collision_free v op h2 kps SE -> incl se2 SE -> In (w_kp w) kps ->
  freezer_pk (policy (asset_def (fst x))) = pt_id ->
  (forall t s, In t (accepted v h2) -> ~ In t (accepted v h) -> In s (op_inputs (op t)) -> sp_sk s <> fr_to_fq (addr_sk (w_kp w))) ->
  holds w x -> holds w2 x.
Proof.
  intros FO LE CF HI HK HF HU Hx.
  assert (D : holds w2 x \/ ~ holds w2 x).
  { rewrite <- held_holds. destruct (existsb (owned_eqb x) (held w2)) eqn:EX.
    - left. apply existsb_exists in EX. destruct EX as (y & Hy & EY). apply (owned_eqb_iff L) in EY. subst y. exact Hy.
    - right. intros G. assert (EX' : existsb (owned_eqb x) (held w2) = true) by (apply existsb_exists; exists x; split; [exact G|apply (owned_eqb_iff L); reflexivity]). congruence. }
  destruct D as [D|D]; [exact D|]. destruct (C69_no_theft C L S Z0 K KL E v op h w se h2 w2 se2 kps SE x FO LE CF HI HK Hx D) as (t & s & Ht & Hn & Hs & _ & _ & [EK|(_ & HF' & _)]);
    [contradiction (HU t s Ht Hn Hs EK)|contradiction (HF' HF)].
Qed.
Print Assumptions C69_idle.

(** user 12 loses a record to the transfer, which it signed itself *)
Example C69_example : exists n sk m sk', h_transfer true = Ok (n, sk) /\ h_mint true = Ok (m, sk') /\
  @holds T (ww_before 12) (h_in1 true, w64 1) /\ ~ @holds T (fst (ww_after n 12)) (h_in1 true, w64 1) /\
  exists t s, In t (l_accepted (ww_history n m)) /\ ~ In t (l_accepted ww_mints) /\ In s (op_inputs (ww_op t)) /\
    @spent_by_key T TS (ww_before 12) (h_in1 true, w64 1) t s.
Proof.
  destruct world_history as (n & sk & m & sk' & En & Em & CF & FO & _ & _ & _ & _ & HH & HN).
  exists n, sk, m, sk'. split; [exact En|]. split; [exact Em|].
  assert (Hk : In 12 [11; 12; 13; 20]) by (cbn; tauto). destruct (FO 12 Hk) as (_ & F0 & LD).
  assert (HM : In (ww_after n 12) (ww_all n)) by (unfold ww_all; apply in_map; exact Hk).
  assert (H1 : @holds T (ww_before 12) (h_in1 true, w64 1)) by (apply holds_b_ok; exact HH).
  assert (H2 : ~ @holds T (fst (ww_after n 12)) (h_in1 true, w64 1)) by (intros G; apply holds_b_ok in G; rewrite HN in G; discriminate G).
  split; [exact H1|]. split; [exact H2|].
  refine (C69_no_theft T (toy_laws true) TS l_ser w_codec w_codec_laws world_memo _ _ _ _ _ _ _ _ _ _ _ F0 LD CF _ _ H1 H2).
  - intros x Hx. apply in_flat_map. exists (ww_after n 12). auto.
  - rewrite (ww_keys n (world_check n sk En)). cbn [map In]. right. left. reflexivity.
Qed.

(** ** C70: all wallets together hold what was minted *)

(** For wallets [ms] of different users that follow the same ledger, and each asset: what they hold together is at most
    what is unspent in the tree, and exactly that if every record of the asset was given to one of them. *)
Theorem C70_solvent (C : CapConfig) (L : CapLaws C) (S : Snark C) (Z0 : Ser C S) (K : @RoCodec C) (KL : RoCodecLaws K) (E : MemoSer C)
    v op h (ms : list (Wallet * list Owned)) c :
  collision_free v op h (map (fun m => w_kp (fst m)) ms) (flat_map (fun m => snd m) ms) ->
  (forall m, In m ms -> follows v h (fst m) (snd m)) -> NoDup (map (fun m => user_address (w_kp (fst m))) ms) ->
  let together := sumz (map (fun m => total_of c (held (fst m))) ms) in
  let records_of := records op v h in
  let unspent_total := total c (unspent records_of (spends_of op (accepted v h))) in
  together <= unspent_total /\
  ((forall j r, nth_error records_of j = Some r -> ro_code r = c -> exists m x, In m ms /\ In x (snd m) /\ zv (snd x) = Z.of_nat j) ->
   together = unspent_total).
Proof. intros CF FO ND. exact (solvent L KL v op h ms CF FO ND c). Qed.
Print Assumptions C70_solvent.
(** and, with the fees nobody collected, at most what was minted; exactly that if every record was given to one of them *)
Theorem C70_minted (C : CapConfig) (L : CapLaws C) (S : Snark C) (Z0 : Ser C S) (K : @RoCodec C) (KL : RoCodecLaws K) (E : MemoSer C)
    v op h (ms : list (Wallet * list Owned)) c :
  collision_free v op h (map (fun m => w_kp (fst m)) ms) (flat_map (fun m => snd m) ms) ->
  (forall m, In m ms -> follows v h (fst m) (snd m)) -> NoDup (map (fun m => user_address (w_kp (fst m))) ms) ->
  (forall t, In t (accepted v h) -> supply_condition t (op t)) -> c <> dummy_asset_code ->
  let together := sumz (map (fun m => total_of c (held (fst m))) ms) in
  let lost := if zeqb native_asset_code c then sumz (map event_lost_fees (effective v (ledger_new (vd_depth v)) h)) else 0 in
  let minted := sumz (map (event_mints c) (effective v (ledger_new (vd_depth v)) h)) in
  together + lost <= minted /\
  ((forall j r, nth_error (records op v h) j = Some r -> ro_code r = c -> exists m x, In m ms /\ In x (snd m) /\ zv (snd x) = Z.of_nat j) ->
   together + lost = minted).
Proof. intros CF FO ND. exact (solvent_by_minting L KL v op h ms CF FO ND c). Qed.
Print Assumptions C70_minted.

(** the four users hold the 20 of the native asset and the 38 of the other asset that were minted *)
Example C70_example : exists n sk m sk', h_transfer true = Ok (n, sk) /\ h_mint true = Ok (m, sk') /\
  let minted c := sumz (map (@event_mints T TS c) (@effective T TS l_ser l_validator (@ledger_new T 2) (ww_history n m))) in
  let together c := sumz (map (fun m => @total_of T c (@held T (fst m))) (ww_all n)) in
  together (@native_asset_code toy_field) + sumz (map (@event_lost_fees T TS) (@effective T TS l_ser l_validator (@ledger_new T 2) (ww_history n m))) = minted (@native_asset_code toy_field) /\
  together h_code = minted h_code /\ together (@native_asset_code toy_field) = 20 /\ together h_code = 38.
Proof.
  destruct world_history as (n & sk & m & sk' & En & Em & CF & FO & ND & SC & CV & HB & _).
  exists n, sk, m, sk'. split; [exact En|]. split; [exact Em|]. intros minted together.
  assert (FO' : forall m', In m' (ww_all n) -> W_follows (ww_history n m) (fst m') (snd m')).
  { intros m' Hm. destruct (ww_members n m' Hm) as (k & Hk & ->). apply (FO k Hk). }
  assert (CV' : forall j r (c : @AssetCode T), nth_error (l_records ww_op (ww_history n m)) j = Some r -> ro_code r = c -> exists m x, In m (ww_all n) /\ In x (snd m) /\ zv (snd x) = Z.of_nat j).
  { intros j r c Hj _. apply CV. apply nth_error_Some. congruence. }
  assert (N1 : @native_asset_code toy_field <> @dummy_asset_code toy_field) by (apply zeqb_neq; vm_compute; reflexivity).
  assert (N2 : h_code <> @dummy_asset_code toy_field) by (apply zeqb_neq; vm_compute; reflexivity).
  pose proof (C70_minted T (toy_laws true) TS l_ser w_codec w_codec_laws world_memo _ _ _ _ (@native_asset_code toy_field) CF FO' ND SC N1) as H1.
  pose proof (C70_minted T (toy_laws true) TS l_ser w_codec w_codec_laws world_memo _ _ _ _ h_code CF FO' ND SC N2) as H2.
  cbv zeta in H1, H2. destruct H1 as [_ H1]. destruct H2 as [_ H2]. 
  match type of H1 with context [if ?b then _ else _] => assert (N3 : b = true) by (vm_compute; reflexivity); rewrite N3 in H1 end.
  match type of H2 with context [if ?b then _ else _] => assert (N4 : b = false) by (vm_compute; reflexivity); rewrite N4 in H2 end. rewrite Z.add_0_r in H2.
  split; [exact (H1 (fun j r A B => CV' j r _ A B))|]. split; [exact (H2 (fun j r A B => CV' j r _ A B))|].
  unfold together. rewrite <- (map_map fst (fun w => @total_of T (@native_asset_code toy_field) (@held T w))), <- (map_map fst (fun w => @total_of T h_code (@held T w))).
  assert (B1 : map (fun m => @total_of T (@native_asset_code toy_field) (@held T (fst m))) (ww_all n) = [15; 0; 0; 5]).
  { apply (f_equal (map fst)) in HB. unfold ww_balances in HB. rewrite map_map in HB. exact HB. }
  assert (B2 : map (fun m => @total_of T h_code (@held T (fst m))) (ww_all n) = [0; 20; 18; 0]).
  { apply (f_equal (map snd)) in HB. unfold ww_balances in HB. rewrite map_map in HB. exact HB. }
  rewrite !map_map, B1, B2. split; reflexivity.
Qed.
