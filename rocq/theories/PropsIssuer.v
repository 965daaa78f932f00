(** C60: the issuer of the integration test — its assets, its mints and its books. *)
From Verif Require Import Base Config Structs Keys Utils Memo Plonk Witness Circuits Snark Notes Serde Ledger Wallet WalletSpec Roles RolesSpec.
From Verif Require Import NoteProofs NoteThms WalletProofs WalletPay WalletPay2 RolesIssuer
  CircuitFacts Toy ToySnark Samples NoteSamples WalletSamples IssuerSamples.
#[local] Existing Instance toy_snark.
#[local] Existing Instance w_codec.
#[local] Existing Instance toy_memo_i.

(** a new asset has a code derived from the seed and the description, and only the issuer's definition for it changes;
    codes that are reserved make the call panic *)
Theorem C60_new_asset (C : CapConfig) (S : Snark C) i seed description p :
  (forall i' c, new_asset_definition i seed description p = Ok (i', c) ->
     c = new_domestic seed description /\ asset_definition i' c = Some (mkDef c p) /\ verify_domestic c (internal_new seed description) = Ok tt /\
     (forall c', c' <> c -> asset_definition i' c' = asset_definition i c') /\ iu_wallet i' = iu_wallet i) /\
  (new_domestic seed description <> native_asset_code -> new_domestic seed description <> dummy_asset_code ->
     exists i', new_asset_definition i seed description p = Ok (i', new_domestic seed description)) /\
  (new_domestic seed description = native_asset_code \/ new_domestic seed description = dummy_asset_code ->
     new_asset_definition i seed description p = Panic).
Proof. exact (new_asset_spec i seed description p). Qed.
Print Assumptions C60_new_asset.

(** at every point of its history the issuer holds exactly its unspent records, like any wallet, and knows its assets by
    codes that are derived from their seeds and never reserved *)
Theorem C60_books (C : CapConfig) (L : CapLaws C) (S : Snark C) (K : @RoCodec C) (KL : RoCodecLaws K) (E : MemoSer C) g depth i l se sh :
  issuer_in_step g depth i l se sh -> ordinary (iu_wallet i) (lg_leaves l) se sh ->
  (forall x, holds (iu_wallet i) x <-> In x se /\ ~ In (w_nullify (iu_wallet i) x) (lg_nullifiers l)) /\
  (forall x, holds (iu_wallet i) x -> pub_key (fst x) = user_pub_key (w_kp (iu_wallet i)) /\ freeze_flag (fst x) = Unfrozen /\
     nth_error (lg_leaves l) (Z.to_nat (zv (snd x))) = Some (derive_record_commitment (fst x))) /\
  in_step (iu_wallet i) l se sh /\
  (forall c d, asset_definition i c = Some d -> code d = c /\ c <> native_asset_code /\ c <> dummy_asset_code /\
     exists seed description, c = new_domestic seed description).
Proof.
  intros (R & HN & Hnat) O. pose proof (iruns_runs L KL _ _ _ _ _ _ R Hnat O) as RW. destruct O as (H1 & H2 & H3).
  pose proof (runs_inv L KL _ _ _ _ RW H1 H2 H3) as I. split; [|split; [|split]].
  - intros x. rewrite (ri_exact _ _ _ _ I). split; intros [A B]; (split; [exact A|]).
    + intros G. apply HN in G. destruct G as (k & G). exact (B k G).
    + intros k G. apply B, HN. exists k. exact G.
  - intros x Hx. apply (ri_exact _ _ _ _ I) in Hx. destruct (ri_seen _ _ _ _ I x (proj1 Hx)) as (A & B & _ & D). auto.
  - split; [exact RW|exact HN].
  - intros c d Hd. destruct (iruns_assets _ _ _ _ _ _ R) as (_ & _ & HA). unfold asset_definition in Hd.
    destruct (map_get c (iu_assets i)) as [[[d0 seed] description]|] eqn:G; [|discriminate]. injection Hd as <-.
    destruct (HA _ _ _ _ G) as (A1 & A2 & A3 & A4). split; [exact A1|]. split; [exact A3|]. split; [exact A4|]. exists seed, description. exact A2.
Qed.
Print Assumptions C60_books.

(** a mint of a known asset succeeds when the fee is covered, and the validator accepts it *)
Theorem C60_mint_accepted (C : CapConfig) (L : CapLaws C) (S : Snark C) (SL : SnarkLaws S) (K : @RoCodec C) (KL : RoCodecLaws K) (E : MemoSer C)
  g fk depth i l se sh r fee c d amt owner (ts : u64) :
  issuer_in_step g depth i l se sh -> ordinary (iu_wallet i) (lg_leaves l) se sh -> (length (lg_leaves l) <= 3 ^ depth)%nat ->
  (exists x, holds (iu_wallet i) x /\ code (asset_def (fst x)) = native_asset_code /\ zv fee <= zv (amount (fst x))) ->
  asset_definition i c = Some d -> zv amt < 2 ^ 127 ->
  (exists m, receiver_memo_from_ro (mu_enc r) (minted_record d r amt owner) [] = Ok m) -> In (tree_root depth (lg_leaves l)) (lg_roots l) ->
  exists i' n sg memo, issuer_mint depth i r fee c amt owner (lg_leaves l) = (i', Ok (n, sg, memo)) /\
    validate_txns_batch (mkValidator g fk depth) l [TxMint n] ts = Ok tt /\
    verify_receiver_memos_signature (TxMint n) [memo] sg = Ok tt.
Proof. exact (issuer_mint_live L KL SL g fk depth i l se sh r fee c d amt owner ts). Qed.
Print Assumptions C60_mint_accepted.

(** what a mint says: the record for the receiver, the fee, and the change of the record that pays it *)
Theorem C60_mint_contents (C : CapConfig) (L : CapLaws C) (S : Snark C) (K : @RoCodec C) (E : MemoSer C)
  depth i r fee c amt owner leaves i' n sg memo :
  issuer_mint depth i r fee c amt owner leaves = (i', Ok (n, sg, memo)) ->
  exists d x chg, asset_definition i c = Some d /\ mn_def n = d /\ mn_amount n = amt /\ ma_fee (mn_aux n) = fee /\
    mn_mint n = derive_record_commitment (minted_record d r amt owner) /\ verify_domestic (code d) (mn_internal n) = Ok tt /\
    holds (iu_wallet i) x /\ asset_def (fst x) = asset_def_native /\ mn_nullifier n = w_nullify (iu_wallet i) x /\
    mn_chg n = derive_record_commitment chg /\ asset_def chg = asset_def_native /\ freeze_flag chg = Unfrozen /\ pub_key chg = pub_key (fst x) /\
    zv (amount chg) + zv fee = zv (amount (fst x)).
Proof.
  intros Q. destruct (issuer_mint_inv L _ _ _ _ _ _ _ _ _ _ _ _ Q) as (fr & d & seed & description & chg & M).
  exists d, fr, chg. destruct (fee_record_holds _ _ _ (mm_fee _ _ _ _ _ _ _ _ _ _ _ _ _ _ _ _ _ M)) as [Hh _].
  destruct (mm_change _ _ _ _ _ _ _ _ _ _ _ _ _ _ _ _ _ M) as (C1 & C2 & C3 & C4). destruct (mm_native _ _ _ _ _ _ _ _ _ _ _ _ _ _ _ _ _ M) as [N1 N2].
  split; [unfold asset_definition; rewrite (mm_asset _ _ _ _ _ _ _ _ _ _ _ _ _ _ _ _ _ M); reflexivity|].
  split; [exact (mm_def _ _ _ _ _ _ _ _ _ _ _ _ _ _ _ _ _ M)|]. split; [exact (mm_amount _ _ _ _ _ _ _ _ _ _ _ _ _ _ _ _ _ M)|].
  split; [exact (mm_fee_paid _ _ _ _ _ _ _ _ _ _ _ _ _ _ _ _ _ M)|]. split; [exact (mm_mint _ _ _ _ _ _ _ _ _ _ _ _ _ _ _ _ _ M)|].
  split; [rewrite (mm_internal _ _ _ _ _ _ _ _ _ _ _ _ _ _ _ _ _ M), (mm_code _ _ _ _ _ _ _ _ _ _ _ _ _ _ _ _ _ M); unfold verify_domestic, new_domestic; rewrite zeqb_refl; reflexivity|].
  split; [exact Hh|]. split; [exact N1|]. split; [exact (mm_nullifier _ _ _ _ _ _ _ _ _ _ _ _ _ _ _ _ _ M)|].
  split; [exact (mm_chg _ _ _ _ _ _ _ _ _ _ _ _ _ _ _ _ _ M)|]. split; [exact C1|]. split; [exact C2|]. split; [exact C3|]. lia.
Qed.
Print Assumptions C60_mint_contents.

(** the receiver, on scanning the mint, finds the record and holds it *)
Theorem C60_receiver_paid (C : CapConfig) (L : CapLaws C) (S : Snark C) (K : @RoCodec C) (KL : RoCodecLaws K) (E : MemoSer C)
  depth i r fee c amt owner leaves i' n sg memo w lv se sh :
  issuer_mint depth i r fee c amt owner leaves = (i', Ok (n, sg, memo)) -> runs w lv se sh -> ordinary w lv se sh -> user_pub_key (w_kp w) = owner ->
  exists d, asset_definition i c = Some d /\
  let x := (minted_record d r amt owner, w64 (Z.of_nat (length lv + 1))) in
  exists w2 found, scan_txn w (TxMint n) [memo] (length lv) = Ok (w2, found) /\ found = [fst x] /\
    (forall se', (forall y, In y se' <-> In y se \/ paid w (TxMint n) [memo] (length lv) y) ->
       ordinary w2 (lv ++ [mn_chg n; mn_mint n]) se' (sh ++ [(mn_nullifier n, (length lv + 2)%nat)]) ->
       w_nullify w2 x <> mn_nullifier n -> holds w2 x).
Proof. exact (mint_paid L KL depth i r fee c amt owner leaves i' n sg memo w lv se sh). Qed.
Print Assumptions C60_receiver_paid.

(** after the issuer scanned its mint, it has paid the fee and nothing else, and holds what it minted to itself *)
Theorem C60_issuer_balance (C : CapConfig) (L : CapLaws C) (S : Snark C) (K : @RoCodec C) (KL : RoCodecLaws K) (E : MemoSer C)
  g depth i l se sh r fee c amt owner leaves i' n sg memo se' i2 :
  issuer_in_step g depth i l se sh -> ordinary (iu_wallet i) (lg_leaves l) se sh ->
  issuer_mint depth i r fee c amt owner leaves = (i', Ok (n, sg, memo)) ->
  Z.of_nat (length (lg_leaves l) + 2) < 2 ^ 64 ->
  (forall x, In x se' <-> In x se \/ paid (iu_wallet i') (TxMint n) [memo] (length (lg_leaves l)) x) -> distinct_nullifiers (iu_wallet i) se' ->
  issuer_scan_txn i' (TxMint n) [memo] (length (lg_leaves l)) = Ok i2 ->
  (forall c', total_of c' (held (iu_wallet i2)) = total_of c' (held (iu_wallet i)) - (if zeqb c' native_asset_code then zv fee else 0)
     + received c' (opened (w_kp (iu_wallet i)) [mn_mint n] [memo])) /\
  (owner = user_pub_key (w_kp (iu_wallet i)) ->
     forall c', received c' (opened (w_kp (iu_wallet i)) [mn_mint n] [memo]) = if zeqb c' c then zv amt else 0).
Proof. exact (issuer_balance L KL g depth i l se sh r fee c amt owner leaves i' n sg memo se' i2). Qed.
Print Assumptions C60_issuer_balance.

(** an unknown asset cannot be minted *)
Theorem C60_unknown_asset (C : CapConfig) (L : CapLaws C) (S : Snark C) (K : @RoCodec C) (E : MemoSer C) depth i r fee c amt owner leaves :
  asset_definition i c = None -> forall i' x, issuer_mint depth i r fee c amt owner leaves <> (i', Ok x).
Proof. exact (issuer_unknown L depth i r fee c amt owner leaves). Qed.
Print Assumptions C60_unknown_asset.

(** two mints with the same fee and no scan in between pay with the same record: once the first is in the ledger, the
    second is rejected *)
Theorem C60_second_mint_conflicts (C : CapConfig) (L : CapLaws C) (S : Snark C) (K : @RoCodec C) (E : MemoSer C)
  depth i r fee c amt owner leaves i1 n sg memo r' c' amt' owner' leaves' i2 n' sg' memo' :
  issuer_mint depth i r fee c amt owner leaves = (i1, Ok (n, sg, memo)) ->
  issuer_mint depth i1 r' fee c' amt' owner' leaves' = (i2, Ok (n', sg', memo')) ->
  mn_nullifier n = mn_nullifier n' /\
  forall v l ts, In (mn_nullifier n) (lg_nullifiers l) -> validate_txns_batch v l [TxMint n'] ts <> Ok tt.
Proof.
  intros Q Q'. pose proof (issuer_conflict L _ _ _ _ _ _ _ _ _ _ _ _ _ _ _ _ _ _ _ _ _ Q Q') as E'. split; [exact E'|].
  intros v l ts Hin. apply (spent_rejected v l (TxMint n') (mn_nullifier n') ts); [left; reflexivity|]. rewrite <- E'. exact Hin.
Qed.
Print Assumptions C60_second_mint_conflicts.

(** an issuer with two native records and one asset mints 50 units for another user and pays 3: it then has 24 native
    units and the user 50 of the asset; two mints before a scan clash *)
Example C60_example :
  (exists i0, @issuer_new T TS tt 2 (s_user true 11) = Ok i0 /\ @issuer_in_step T TS w_codec toy_memo_i tt 2 (is_make i0) ws_l is_seen [] /\
     @ordinary T (iu_wallet (is_make i0)) (lg_leaves ws_l) is_seen [] /\ @asset_definition T TS (is_make i0) is_code = Some (@mkDef T is_code is_policy)) /\
  RoCodecLaws w_codec /\ get (@receiver_memo_from_ro T w_codec (mu_enc is_rand) (@minted_record T TS (@mkDef T is_code is_policy) is_rand (s_amount 50) is_owner) []) (fun _ => true) = true /\
  In (@tree_root T 2 (lg_leaves ws_l)) (lg_roots ws_l) /\ is_run = ([24; 0], [0; 50]) /\ is_twice = true.
Proof.
  split; [destruct is_new_ok as (i0 & H); exists i0; split; [exact H|]; split; [exact (is_in_step i0 H)|]; split; [exact (is_ordinary i0 H)|exact (proj2 (is_wallet i0 H))]|].
  split; [exact w_codec_laws|]. split; [vm_compute; reflexivity|]. split; [exact (mint_root 2 ws_l2 ws_r2)|].
  split; [vm_compute; reflexivity|]. vm_compute. reflexivity.
Qed.
