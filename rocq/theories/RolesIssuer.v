(** The asset issuer: its bookkeeping, its mints and what they lead to. *)
From Verif Require Import Base Config Structs Keys Utils Memo Plonk Witness Circuits Snark Notes Serde Ledger Wallet WalletSpec Roles RolesSpec.
From Verif Require Import CodecProofs PolicyProofs UtilsProofs MemoProofs NoteProofs NoteGen NoteGen2 NoteThms NoteFacts NoteLive NoteLive2 LedgerProofs WalletProofs WalletPay WalletPay2.
From Coq Require Import Permutation.

(** ** A batch of one transaction *)
Section Single.
  Context {C : CapConfig} {S : Snark C} (SL : SnarkLaws S) {E : MemoSer C}.

  Lemma key_kind v t k : key_for v t = Ok k -> same_kind t k.
  Proof. destruct t; cbn [key_for]; intros H; apply bind_ok in H; destruct H as (x & _ & H); injection H as <-; exact I. Qed.
  Lemma single_accepted v l t k ts : key_for v t = Ok k -> NoDup (tx_nullifiers t) -> (forall x, In x (tx_nullifiers t) -> ~ In x (lg_nullifiers l)) ->
    In (tx_merkle_root t) (lg_roots l) -> tx_verify t k (tx_merkle_root t) ts = Ok tt -> validate_txns_batch v l [t] ts = Ok tt.
  Proof.
    intros HK HN HF HR HV. unfold validate_txns_batch. cbn [collect_keys]. rewrite HK. cbn [bind]. unfold check_txn_input_nullifiers.
    assert (G1 : existsb (check_nullifier l) (tx_nullifiers t) = false).
    { apply not_true_iff_false. intros G. apply existsb_exists in G. destruct G as (x & Hx & G). unfold check_nullifier in G.
      apply existsb_exists in G. destruct G as (y & Hy & G). destruct (zeqb_reflect x y) as [<-|]; [|discriminate]. exact (HF x Hx Hy). }
    assert (G2 : all_insert [] (tx_nullifiers t) = true) by (apply all_insert_iff; split; [exact HN|intros x _ []]).
    assert (G3 : check_valid_root l (tx_merkle_root t) = true).
    { apply existsb_exists. exists (tx_merkle_root t). split; [exact HR|]. apply zeqb_refl. }
    rewrite G1, G2, G3. cbn [negb fail_if bind].
    apply (proj1 (batch_individual SL [t] [tx_merkle_root t] ts [k] ltac:(discriminate) ltac:(constructor; [exact (key_kind _ _ _ HK)|constructor]))).
    split; [reflexivity|]. intros [|i] t' k' root; cbn [nth_error]; [|destruct i; discriminate]. intros [= <-] [= <-] [= <-]. exact HV.
  Qed.
  (** a transaction that shows a nullifier of the ledger is rejected *)
  Lemma spent_rejected v l t x ts : In x (tx_nullifiers t) -> In x (lg_nullifiers l) -> validate_txns_batch v l [t] ts <> Ok tt.
  Proof.
    intros H1 H2 H. unfold validate_txns_batch in H. cbn [collect_keys] in H. apply bind_ok in H. destruct H as (kr & H & _). apply bind_ok in H. destruct H as (k & _ & H).
    apply bind_ok in H. destruct H as (u & H & _).
    unfold check_txn_input_nullifiers in H. apply bind_ok in H. destruct H as (u' & H & _). apply fail_if_ok in H.
    apply not_true_iff_false in H. apply H. apply existsb_exists. exists x. split; [exact H1|]. unfold check_nullifier. apply existsb_exists. exists x. split; [exact H2|apply zeqb_refl].
  Qed.
End Single.

(** ** The fee that a wallet pays for a mint or a freeze *)
Section Fee.
  Context {C : CapConfig} (L : CapLaws C) {S : Snark C} {K : @RoCodec C} {E : MemoSer C}.

  Lemma native_nullifier w (x : Owned) : asset_def (fst x) = asset_def_native ->
    user_nullify (w_kp w) pt_id (snd x) (derive_record_commitment (fst x)) = w_nullify w x.
  Proof. intros H. unfold w_nullify. rewrite H. reflexivity. Qed.

  Record fee_ready (depth : nat) (w : Wallet) (lv : list F) (sh : list (Nullifier * nat)) (bl : F) (fee : Amount)
      (fr : Owned) (a : AccMemberWitness) (info : TxnFeeInfo) (chg : RecordOpening) : Prop := {
    fy_find : find_record_for_fee w fee = Ok fr;
    fy_holds : holds w fr;
    fy_native : asset_def (fst fr) = asset_def_native;
    fy_lookup : lookup_from_tree depth lv (snd fr) = Ok a;
    fy_uid : acc_uid a = snd fr;
    fy_root : acc_root a = tree_root depth lv;
    fy_info : txn_fee_info_new bl (mkFeeInput (fst fr) a (w_kp w)) fee = Ok (info, chg);
    fy_input : fee_input info = mkFeeInput (fst fr) a (w_kp w);
    fy_fee : fee_amount info = fee;
    fy_chg : fee_chg_ro info = chg;
    fy_payable : payable depth info;
    fy_fresh : forall k, ~ In (w_nullify w fr, k) sh
  }.
  Lemma fee_is_ready depth w lv se sh bl fee : run_inv w lv se sh -> natives se -> (length lv <= 3 ^ depth)%nat ->
    (exists x, holds w x /\ code (asset_def (fst x)) = native_asset_code /\ zv fee <= zv (amount (fst x))) ->
    exists fr a info chg, fee_ready depth w lv sh bl fee fr a info chg.
  Proof.
    intros R Hnat HC Hfee. pose proof (ri_ok _ _ _ _ R) as W.
    destruct Hfee as (xf & Hxf & Cxf & Axf). destruct (bucket_of w _ xf W Hxf Cxf) as (bf & Gf & Ixf).
    destruct (find_fee bf fee (ex_intro _ xf (conj Ixf Axf))) as (fr & Ffr & Ifr & Afr).
    assert (Hfr : holds w fr) by (exists native_asset_code, bf; split; [apply map_get_in, Gf|exact Ifr]).
    assert (Cfr : code (asset_def (fst fr)) = native_asset_code) by (apply (bucket_code w _ _ W Gf), Ifr).
    pose proof (proj1 (ri_exact _ _ _ _ R fr) Hfr) as [Sfr Ffs].
    assert (Nfr : asset_def (fst fr) = asset_def_native) by (apply Hnat; auto).
    assert (HFF : find_record_for_fee w fee = Ok fr) by (unfold find_record_for_fee; rewrite Gf; cbn [ok_or bind]; exact (f_equal (fun o => ok_or o InvalidParameter) Ffr)).
    destruct (ri_seen _ _ _ _ R fr Sfr) as (F1 & F2 & F3 & F4).
    destruct (tree_lookup depth lv (snd fr) _ F4 HC) as (a & Ha & Hu & Hp & Hrt0 & Hm).
    destruct (proj2 (txn_fee_info_spec L) bl (mkFeeInput (fst fr) a (w_kp w)) fee Afr) as (info & chg & I1 & I2 & I3 & I4 & I5 & I6 & I7 & I8 & _).
    exists fr, a, info, chg. constructor; auto.
    constructor; rewrite ?I2, ?I3, ?I4; cbn [fi_acc fi_ro fi_kp] in *; auto.
    - lia.
    - rewrite Hu, Hm. symmetry. exact Hrt0.
  Qed.
End Fee.

(** ** Histories *)
Section Issuer.
  Context {C : CapConfig} (L : CapLaws C) {S : Snark C} {K : @RoCodec C} (KL : RoCodecLaws K) {E : MemoSer C}.

  (** a mint that succeeds *)
  Record mint_made (depth : nat) (i : Issuer) (r : MintUserRand) (fee : Amount) (c : AssetCode) (amt : Amount) (owner : UserPubKey) (leaves : list F)
      (i' : Issuer) (n : MintNote) (sg : Fj * point) (memo : ReceiverMemo) (fr : Owned) (d : AssetDefinition) (seed : AssetCodeSeed) (description : bytes) (chg : RecordOpening) : Prop := {
    mm_fee : find_record_for_fee (iu_wallet i) fee = Ok fr;
    mm_native : asset_def (fst fr) = asset_def_native /\ pub_key (fst fr) = user_pub_key (w_kp (iu_wallet i));
    mm_asset : map_get c (iu_assets i) = Some (d, seed, description);
    mm_code : code d = new_domestic seed description;
    mm_def : mn_def n = d;
    mm_amount : mn_amount n = amt;
    mm_internal : mn_internal n = internal_new seed description;
    mm_mint : mn_mint n = derive_record_commitment (minted_record d r amt owner);
    mm_chg : mn_chg n = derive_record_commitment chg;
    mm_change : asset_def chg = asset_def_native /\ freeze_flag chg = Unfrozen /\ pub_key chg = pub_key (fst fr) /\ zv (amount chg) = zv (amount (fst fr)) - zv fee;
    mm_nullifier : mn_nullifier n = w_nullify (iu_wallet i) fr;
    mm_fee_paid : ma_fee (mn_aux n) = fee;
    mm_memo : receiver_memo_from_ro (mu_enc r) (minted_record d r amt owner) [] = Ok memo;
    mm_sign : sign_receiver_memos (mrd_sig (mu_note r)) [memo] = Ok sg;
    mm_vk : ma_memo_vk (mn_aux n) = ver_key (mrd_sig (mu_note r));
    mm_after : i' = iu_set_wallet i (set_chg (mark_unconfirmed_spent (iu_wallet i) (w_nullify (iu_wallet i) fr) fr)
                      (set_insert ro_eqb chg (w_pending_chg (iu_wallet i))))
  }.

  Lemma issuer_mint_inv depth i r fee c amt owner leaves i' n sg memo :
    issuer_mint depth i r fee c amt owner leaves = (i', Ok (n, sg, memo)) ->
    exists fr d seed description chg, mint_made depth i r fee c amt owner leaves i' n sg memo fr d seed description chg.
  Proof.
    unfold issuer_mint. destruct (find_record_for_fee (iu_wallet i) fee) as [fr| |] eqn:FF; try discriminate.
    match goal with |- context [match ?x with Ok _ => _ | Err _ => _ | Panic => _ end] => destruct x as [[[[note sk] memo'] chg]| |] eqn:G end; try discriminate.
    destruct (sign_memos_ok L sk [memo'] ltac:(discriminate)) as (sg' & HS & _). rewrite HS. cbn [bind].
    intros H. injection H as <- <- <- <-.
    apply bind_ok in G. destruct G as (a & Ha & G). apply bind_ok in G. destruct G as ([[d seed] description] & Hd & G). apply ok_or_ok in Hd.
    apply bind_ok in G. destruct G as (m & Hm & G). apply bind_ok in G. destruct G as ([info chg'] & HI & G). apply unwrap_ok in HI.
    apply bind_ok in G. destruct G as ([n sk'] & HG & G). injection G as -> -> -> ->.
    destruct (mint_generate_inv L _ _ _ _ _ _ _ _ HG) as (p & s & MG).
    apply lookup_from_tree_spec in Ha. destruct Ha as [_ ->].
    assert (Q : zv fee <= zv (amount (fst fr))).
    { unfold txn_fee_info_new in HI. cbn [fi_ro] in HI. unfold amount_ltb in HI. destruct (Z.ltb_spec (zv (amount (fst fr))) (zv fee)) as [Q|Q]; [discriminate HI|exact Q]. }
    destruct (proj2 (txn_fee_info_spec L) (mu_fee_blind r) (mkFeeInput (fst fr) (mkAcc (snd fr) (tree_path leaves 0 depth (Z.to_nat (zv (snd fr)))) (tree_root depth leaves)) (w_kp (iu_wallet i))) fee Q)
      as (info0 & chg0 & I1 & I2 & I3 & I4 & I5 & I6 & I7 & I8 & _).
    rewrite HI in I1. injection I1 as <- <-. cbn [fi_ro] in *.
    pose proof (mg_fee _ _ _ _ _ _ _ _ _ _ MG) as CF. apply (check_fee_iff L) in CF. destruct CF as (_ & _ & N1 & _). rewrite I2 in N1. cbn [fi_ro] in N1.
    pose proof (mg_owner _ _ _ _ _ _ _ _ _ _ MG) as OW. rewrite I2 in OW. cbn [fi_ro fi_kp] in OW.
    destruct (mg_outputs _ _ _ _ _ _ _ _ _ _ MG) as [O1 O2]. destruct (mg_amount _ _ _ _ _ _ _ _ _ _ MG) as (A1 & A2 & A3).
    destruct (mg_aux _ _ _ _ _ _ _ _ _ _ MG) as (X1 & X2 & X3).
    pose proof (mg_nullifier _ _ _ _ _ _ _ _ _ _ MG) as NU. rewrite I2 in NU. cbn [fi_kp fi_acc acc_uid fi_ro] in NU.
    pose proof (mg_sk _ _ _ _ _ _ _ _ _ _ MG) as SK. subst sk.
    exists fr, d, seed, description, chg. constructor; auto.
    - exact (mg_code _ _ _ _ _ _ _ _ _ _ MG).
    - rewrite O1, I4. reflexivity.
    - rewrite NU. apply native_nullifier. exact N1.
    - rewrite X2. exact I3.
    - cbn [iu_set_wallet iu_wallet iu_key iu_assets]. rewrite (native_nullifier (iu_wallet i) fr N1). reflexivity.
  Qed.
  Lemma issuer_mint_wallet depth i r fee c amt owner leaves :
    (natives (held (iu_wallet i)) -> forall x, holds (iu_wallet (fst (issuer_mint depth i r fee c amt owner leaves))) x <-> holds (iu_wallet i) x) /\
    iu_key (fst (issuer_mint depth i r fee c amt owner leaves)) = iu_key i /\ iu_assets (fst (issuer_mint depth i r fee c amt owner leaves)) = iu_assets i.
  Proof.
    unfold issuer_mint. destruct (find_record_for_fee (iu_wallet i) fee) as [fr| |]; [|repeat split; auto|repeat split; auto].
    match goal with |- context [match ?x with Ok _ => _ | Err _ => _ | Panic => _ end] => destruct x as [[[[note sk] memo'] chg]| |] end; (split; [intros _ x; reflexivity|split; reflexivity]).
  Qed.

  Lemma scan_kp i t memos off i' : issuer_scan_txn i t memos off = Ok i' ->
    w_kp (iu_wallet i') = w_kp (iu_wallet i) /\ iu_key i' = iu_key i /\ iu_assets i' = iu_assets i /\
    exists found, scan_txn (iu_wallet i) t memos off = Ok (iu_wallet i', found).
  Proof.
    unfold issuer_scan_txn. intros H. apply bind_ok in H. destruct H as ([w f] & H & G). injection G as <-. cbn [iu_set_wallet iu_wallet iu_key iu_assets].
    split; [exact (proj1 (scan_txn_kp _ _ _ _ _ _ H))|]. split; [reflexivity|]. split; [reflexivity|]. exists f. exact H.
  Qed.
  Lemma mint_kp depth i r fee c amt owner leaves : w_kp (iu_wallet (fst (issuer_mint depth i r fee c amt owner leaves))) = w_kp (iu_wallet i).
  Proof.
    unfold issuer_mint. destruct (find_record_for_fee (iu_wallet i) fee) as [fr| |]; [|reflexivity|reflexivity].
    match goal with |- context [match ?x with Ok _ => _ | Err _ => _ | Panic => _ end] => destruct x as [[[[note sk] memo'] chg]| |] end; reflexivity.
  Qed.
  Lemma ordinary_before w w' (lv lv' : list F) se se' sh sh' : w_kp w' = w_kp w -> (length lv <= length lv')%nat -> (forall x, In x se -> In x se') ->
    (forall x, In x sh -> In x sh') -> ordinary w' lv' se' sh' -> ordinary w lv se sh.
  Proof.
    intros HK Hl Hse Hsh (O1 & O2 & O3).
    assert (N : forall x, w_nullify w' x = w_nullify w x) by (intros; unfold w_nullify; rewrite HK; reflexivity).
    split; [lia|]. split.
    - intros x y Hx Hy Hxy. apply O2; auto. rewrite !N. exact Hxy.
    - intros x k Hx Hk. apply O3; auto. rewrite N. auto.
  Qed.

  Lemma iruns_runs g depth i lv se sh : iruns g depth i lv se sh -> natives se -> ordinary (iu_wallet i) lv se sh -> runs (iu_wallet i) lv se sh.
  Proof.
    induction 1 as [kp i Hn|i w' lv se sh R IH HO|i lv se sh rc R IH|i lv se sh ro R IH H1 H2|i lv se sh seed description p i' c R IH HA|i lv se sh r fee c amt owner leaves R IH|i lv se sh t memos i' se' R IH HS Hse]; intros HN OO.
    - unfold issuer_new in Hn. apply bind_ok in Hn. destruct Hn as (k & _ & Hn). injection Hn as <-. apply run_new.
    - cbn [iu_set_wallet iu_wallet] in *. refine (run_order _ _ _ _ _ (IH HN _) HO). refine (ordinary_before _ _ _ _ _ _ _ _ (proj1 HO) _ _ _ OO); auto.
    - apply run_other, IH; [exact HN|]. refine (ordinary_before _ _ _ _ _ _ _ _ eq_refl _ _ _ OO); auto. rewrite app_length. lia.
    - cbn [iu_set_wallet iu_wallet] in *. apply run_own; auto. apply IH; [intros x Hx; apply HN, in_or_app; left; exact Hx|].
      refine (ordinary_before _ _ _ _ _ _ _ _ eq_refl _ _ _ OO); auto; [rewrite app_length; lia|]. intros; apply in_or_app; auto.
    - unfold new_asset_definition in HA. apply bind_ok in HA. destruct HA as (d & _ & HA). injection HA as <- _. exact (IH HN OO).
    - assert (OO' : ordinary (iu_wallet i) lv se sh).
      { refine (ordinary_before _ _ _ _ _ _ _ _ _ _ _ _ OO); auto. apply mint_kp. }
      specialize (IH HN OO'). destruct OO' as (O1 & O2 & O3). pose proof (runs_inv L KL _ _ _ _ IH O1 O2 O3) as RI. clear OO.
      destruct (issuer_mint depth i r fee c amt owner leaves) as [i' [[[n sg] memo]| |]] eqn:Q.
      + destruct (issuer_mint_inv _ _ _ _ _ _ _ _ _ _ _ _ Q) as (fr & d & seed & description & chg & M).
        cbn [fst]. rewrite (mm_after _ _ _ _ _ _ _ _ _ _ _ _ _ _ _ _ _ M). cbn [iu_set_wallet iu_wallet].
        destruct (mm_change _ _ _ _ _ _ _ _ _ _ _ _ _ _ _ _ _ M) as (C1 & C2 & C3 & _). destruct (mm_native _ _ _ _ _ _ _ _ _ _ _ _ _ _ _ _ _ M) as (N1 & N2).
        pose proof (fee_record_holds _ _ _ (mm_fee _ _ _ _ _ _ _ _ _ _ _ _ _ _ _ _ _ M)) as [Hh _].
        refine (run_change _ _ _ _ chg (run_mark _ _ _ _ fr IH Hh) C1 _ C2). cbn. rewrite C3. exact N2.
      + unfold issuer_mint in Q. destruct (find_record_for_fee (iu_wallet i) fee) as [fr| |] eqn:FF; [|injection Q as <- _; exact IH|discriminate Q].
        pose proof (fee_record_holds _ _ _ FF) as [Hh (b & Hb & Ib)]. cbn [fst].
        assert (NF : asset_def (fst fr) = asset_def_native).
        { apply HN; [apply (ri_exact _ _ _ _ RI), Hh|]. exact (bucket_code _ _ _ (ri_ok _ _ _ _ RI) Hb _ Ib). }
        match type of Q with context [match ?x with Ok _ => _ | Err _ => _ | Panic => _ end] => destruct x as [[[[note sk] memo'] chg]| |] eqn:G end; try discriminate Q.
        injection Q as <- _. cbn [iu_set_wallet iu_wallet]. rewrite (native_nullifier (iu_wallet i) fr NF). exact (run_mark _ _ _ _ fr IH Hh).
      + unfold issuer_mint in Q. destruct (find_record_for_fee (iu_wallet i) fee) as [fr| |] eqn:FF; [|discriminate Q|injection Q as <-; exact IH].
        pose proof (fee_record_holds _ _ _ FF) as [Hh (b & Hb & Ib)]. cbn [fst].
        assert (NF : asset_def (fst fr) = asset_def_native).
        { apply HN; [apply (ri_exact _ _ _ _ RI), Hh|]. exact (bucket_code _ _ _ (ri_ok _ _ _ _ RI) Hb _ Ib). }
        match type of Q with context [match ?x with Ok _ => _ | Err _ => _ | Panic => _ end] => destruct x as [[[[note sk] memo'] chg]| |] eqn:G end; try discriminate Q.
        injection Q as <-. cbn [iu_set_wallet iu_wallet]. rewrite (native_nullifier (iu_wallet i) fr NF). exact (run_mark _ _ _ _ fr IH Hh).
    - destruct (scan_kp _ _ _ _ _ HS) as (K1 & _ & _ & found & HS'). refine (run_scan _ _ _ _ _ _ _ _ _ (IH _ _) HS' Hse).
      + intros x Hx. apply HN, Hse. left; exact Hx.
      + refine (ordinary_before _ _ _ _ _ _ _ _ K1 _ _ _ OO); [change (length (lv ++ tx_output_commitments t)) with (length (lv ++ (tx_output_commitments t : list F))); rewrite app_length; lia|intros x Hx; apply Hse; left; exact Hx|intros; apply in_or_app; auto].
  Qed.

  (** the assets of an issuer have domestic codes, made of what the issuer keeps; its key is that of mints *)
  Lemma iruns_assets g depth i lv se sh : iruns g depth i lv se sh ->
    (exists keys, mint_preprocess g depth = Ok keys /\ iu_key i = fst keys) /\ NoDup (map fst (iu_assets i)) /\
    forall c d seed description, map_get c (iu_assets i) = Some (d, seed, description) ->
      code d = c /\ c = new_domestic seed description /\ c <> native_asset_code /\ c <> dummy_asset_code.
  Proof.
    induction 1 as [kp i Hn|i w' lv se sh R IH HO|i lv se sh rc R IH|i lv se sh ro R IH H1 H2|i lv se sh seed description p i' c R IH HA|i lv se sh r fee c amt owner leaves R IH|i lv se sh t memos i' se' R IH HS Hse];
      try exact IH.
    - unfold issuer_new in Hn. apply bind_ok in Hn. destruct Hn as (k & Hk & Hn). apply unwrap_ok in Hk. injection Hn as <-. cbn [iu_key iu_assets map].
      split; [exists k; auto|]. split; [constructor|]. cbn [map_get]. discriminate.
    - destruct IH as (I1 & I2 & I3). unfold new_asset_definition in HA. apply bind_ok in HA. destruct HA as (d & Hd & HA). apply unwrap_ok in Hd. injection HA as <- <-.
      cbn [iu_key iu_assets]. split; [exact I1|]. split; [apply map_put_nodup, I2|].
      intros c' d' seed' description' G. apply map_get_in, map_put_in in G; [|exact I2]. destruct G as [[-> G]|[Hc G]].
      + injection G as -> -> ->. unfold asset_def_new in Hd. destruct (_ || _) eqn:O; [discriminate|]. injection Hd as <-. cbn [code].
        apply orb_false_iff in O. destruct O as [Oa Ob]. split; [reflexivity|]. split; [reflexivity|].
        split; intros Q; [rewrite Q in Oa|rewrite Q in Ob]; rewrite zeqb_refl in *; discriminate.
      + apply (I3 c' d' seed' description'), map_get_unique; [exact I2|exact G].
    - destruct (issuer_mint_wallet depth i r fee c amt owner leaves) as (_ & E1 & E2). rewrite E1, E2. exact IH.
    - destruct (scan_kp _ _ _ _ _ HS) as (_ & E1 & E2 & _). rewrite E1, E2. exact IH.
  Qed.

  (** ** New assets *)
  Lemma new_asset_spec i seed description p :
    (forall i' c, new_asset_definition i seed description p = Ok (i', c) ->
       c = new_domestic seed description /\ asset_definition i' c = Some (mkDef c p) /\ verify_domestic c (internal_new seed description) = Ok tt /\
       (forall c', c' <> c -> asset_definition i' c' = asset_definition i c') /\ iu_wallet i' = iu_wallet i) /\
    (new_domestic seed description <> native_asset_code -> new_domestic seed description <> dummy_asset_code ->
       exists i', new_asset_definition i seed description p = Ok (i', new_domestic seed description)) /\
    (new_domestic seed description = native_asset_code \/ new_domestic seed description = dummy_asset_code ->
       new_asset_definition i seed description p = Panic).
  Proof.
    unfold new_asset_definition, asset_def_new. set (c0 := new_domestic seed description).
    assert (G : forall (m : list (AssetCode * (AssetDefinition * AssetCodeSeed * bytes))) c v, map_get c0 (map_put c0 v m) = Some v /\ (c <> c0 -> map_get c (map_put c0 v m) = map_get c m)).
    { clear. intros m c v. induction m as [|[k' v'] m [IH1 IH2]]; cbn [map_put map_get].
      - rewrite zeqb_refl. split; [reflexivity|]. intros H. destruct (zeqb_reflect c c0) as [Q|Q]; [contradiction|reflexivity].
      - destruct (zeqb_reflect c0 k') as [Q|Q]; cbn [map_get].
        + rewrite zeqb_refl. split; [reflexivity|]. intros H. rewrite <- Q. destruct (zeqb_reflect c c0) as [Q'|Q']; [contradiction|reflexivity].
        + destruct (zeqb_reflect c0 k') as [Q'|Q']; [contradiction|]. split; [exact IH1|]. intros H. destruct (zeqb c k'); [reflexivity|exact (IH2 H)]. }
    split; [|split].
    - intros i' c H. destruct (zeqb c0 native_asset_code || zeqb c0 dummy_asset_code); [discriminate H|]. cbn [unwrap bind] in H. injection H as <- <-.
      split; [reflexivity|]. unfold asset_definition. cbn [iu_assets iu_wallet]. rewrite (proj1 (G _ c0 _)). split; [reflexivity|].
      split; [unfold verify_domestic, c0, new_domestic; rewrite zeqb_refl; reflexivity|]. split; [|reflexivity].
      intros c' Hc. rewrite (proj2 (G _ c' _) Hc). reflexivity.
    - intros H1 H2. destruct (zeqb_reflect c0 native_asset_code) as [Q|_]; [contradiction|]. destruct (zeqb_reflect c0 dummy_asset_code) as [Q|_]; [contradiction|].
      cbn [orb unwrap bind]. eexists. reflexivity.
    - intros [H|H]; rewrite H, zeqb_refl, ?orb_true_r; reflexivity.
  Qed.

  (** ** Mints succeed *)
  Lemma issuer_mint_live (SL : SnarkLaws S) g fk depth i l se sh r fee c d amt owner (ts : u64) :
    issuer_in_step g depth i l se sh -> ordinary (iu_wallet i) (lg_leaves l) se sh -> (length (lg_leaves l) <= 3 ^ depth)%nat ->
    (exists x, holds (iu_wallet i) x /\ code (asset_def (fst x)) = native_asset_code /\ zv fee <= zv (amount (fst x))) ->
    asset_definition i c = Some d -> zv amt < 2 ^ 127 ->
    (exists m, receiver_memo_from_ro (mu_enc r) (minted_record d r amt owner) [] = Ok m) -> In (tree_root depth (lg_leaves l)) (lg_roots l) ->
    exists i' n sg memo, issuer_mint depth i r fee c amt owner (lg_leaves l) = (i', Ok (n, sg, memo)) /\
      validate_txns_batch (mkValidator g fk depth) l [TxMint n] ts = Ok tt /\
      verify_receiver_memos_signature (TxMint n) [memo] sg = Ok tt.
  Proof.
    intros (R & HN & Hnat) O HC Hfee Hd Ha (memo & Hm) Hroot. destruct O as (O1 & O2 & O3).
    pose proof (runs_inv L KL _ _ _ _ (iruns_runs _ _ _ _ _ _ R Hnat (conj O1 (conj O2 O3))) O1 O2 O3) as RI.
    destruct (iruns_assets _ _ _ _ _ _ R) as (([pk vk] & HP & EK) & _ & HA). cbn [fst] in EK.
    unfold asset_definition in Hd. destruct (map_get c (iu_assets i)) as [[[d0 seed] description]|] eqn:Gd; [|discriminate]. injection Hd as ->.
    destruct (HA _ _ _ _ Gd) as (C1 & C2 & _).
    destruct (fee_is_ready L depth _ _ _ _ (mu_fee_blind r) fee RI Hnat HC Hfee) as (fr & a & info & chg & F).
    destruct (mint_generate_live L SL g depth pk vk (mu_note r) (minted_record d r amt owner) seed description info HP (fy_payable _ _ _ _ _ _ _ _ _ _ F)) as (n & HG & HV).
    { cbn [minted_record asset_def]. congruence. }
    { reflexivity. }
    { exact Ha. }
    destruct (sign_memos_ok L (mrd_sig (mu_note r)) [memo] ltac:(discriminate)) as (sg & HS & HV').
    set (w1 := set_chg (mark_unconfirmed_spent (iu_wallet i) (w_nullify (iu_wallet i) fr) fr) (set_insert ro_eqb chg (w_pending_chg (iu_wallet i)))).
    assert (Q : issuer_mint depth i r fee c amt owner (lg_leaves l) = (iu_set_wallet i w1, Ok (n, sg, memo))).
    { unfold issuer_mint. rewrite (fy_find _ _ _ _ _ _ _ _ _ _ F), (fy_lookup _ _ _ _ _ _ _ _ _ _ F). cbn [bind]. rewrite Gd. cbn [ok_or bind].
      change (mkRO amt d owner Unfrozen (mu_blind r)) with (minted_record d r amt owner). rewrite Hm. cbn [bind].
      rewrite (fy_info _ _ _ _ _ _ _ _ _ _ F). cbn [unwrap bind]. rewrite EK, HG. cbn [bind]. rewrite HS. cbn [bind].
      rewrite (native_nullifier (iu_wallet i) fr (fy_native _ _ _ _ _ _ _ _ _ _ F)). reflexivity. }
    destruct (issuer_mint_inv _ _ _ _ _ _ _ _ _ _ _ _ Q) as (fr' & d' & seed' & description' & chg' & M).
    assert (fr' = fr) as ->. { pose proof (mm_fee _ _ _ _ _ _ _ _ _ _ _ _ _ _ _ _ _ M) as G. rewrite (fy_find _ _ _ _ _ _ _ _ _ _ F) in G. injection G as ->. reflexivity. }
    exists (iu_set_wallet i w1), n, sg, memo. split; [exact Q|]. split.
    - destruct (mint_generate_inv L _ _ _ _ _ _ _ _ HG) as (p & s & MG). destruct (mg_aux _ _ _ _ _ _ _ _ _ _ MG) as (X1 & _).
      assert (ER : ma_root (mn_aux n) = tree_root depth (lg_leaves l)).
      { rewrite X1, (fy_input _ _ _ _ _ _ _ _ _ _ F). cbn [fi_acc]. exact (fy_root _ _ _ _ _ _ _ _ _ _ F). }
      apply (single_accepted SL _ l (TxMint n) (VkMint vk)).
      + cbn [key_for vd_srs vd_depth]. rewrite HP. reflexivity.
      + cbn [tx_nullifiers]. constructor; [intros []|constructor].
      + cbn [tx_nullifiers]. intros x [<-|[]] Hx. pose proof (mm_nullifier _ _ _ _ _ _ _ _ _ _ _ _ _ _ _ _ _ M) as NN.
        apply HN in Hx. destruct Hx as (k & Hx). apply (fy_fresh _ _ _ _ _ _ _ _ _ _ F k).
        exact (eq_ind _ (fun z => In (z, k) sh) Hx _ NN).
      + cbn [tx_merkle_root]. rewrite ER. exact Hroot.
      + cbn [tx_verify tx_merkle_root]. rewrite X1. exact HV.
    - apply HV'. exact (mm_vk _ _ _ _ _ _ _ _ _ _ _ _ _ _ _ _ _ M).
  Qed.

  (** ** Who gets the minted record *)
  Lemma mint_paid depth i r fee c amt owner leaves i' n sg memo w lv se sh : 
    issuer_mint depth i r fee c amt owner leaves = (i', Ok (n, sg, memo)) -> runs w lv se sh -> ordinary w lv se sh -> user_pub_key (w_kp w) = owner ->
    exists d, asset_definition i c = Some d /\
    let x := (minted_record d r amt owner, w64 (Z.of_nat (length lv + 1))) in
    exists w2 found, scan_txn w (TxMint n) [memo] (length lv) = Ok (w2, found) /\ found = [fst x] /\
      (forall se', (forall y, In y se' <-> In y se \/ paid w (TxMint n) [memo] (length lv) y) ->
         ordinary w2 (lv ++ [mn_chg n; mn_mint n]) se' (sh ++ [(mn_nullifier n, (length lv + 2)%nat)]) ->
         w_nullify w2 x <> mn_nullifier n -> holds w2 x).
  Proof.
    intros Q R O HK. destruct (issuer_mint_inv _ _ _ _ _ _ _ _ _ _ _ _ Q) as (fr & d & seed & description & chg & M).
    exists d. split; [unfold asset_definition; rewrite (mm_asset _ _ _ _ _ _ _ _ _ _ _ _ _ _ _ _ _ M); reflexivity|]. intros x.
    destruct O as (O1 & O2 & O3). pose proof (ri_ok _ _ _ _ (runs_inv L KL _ _ _ _ R O1 O2 O3)) as W.
    destruct (proj1 (scan_txn_total L w (TxMint n) [memo] (length lv) W) eq_refl) as ([w2 found] & HS).
    destruct (receiver_memo_spec L K KL) as [RS _].
    assert (HD : receiver_memo_decrypt memo (w_kp w) (mn_mint n) [] = Ok (fst x)).
    { rewrite (mm_mint _ _ _ _ _ _ _ _ _ _ _ _ _ _ _ _ _ M). exact (RS _ _ _ _ (w_kp w) (mm_memo _ _ _ _ _ _ _ _ _ _ _ _ _ _ _ _ _ M) (eq_sym HK)). }
    exists w2, found. split; [exact HS|]. split.
    - destruct (scan_txn_spec L _ _ _ _ _ _ W HS) as (_ & _ & _ & -> & _). unfold opened. cbn [tx_output_commitments tl combine flat_map fst snd]. rewrite HD. reflexivity.
    - intros se' Hse HO Hn. refine (receiver_holds L KL w lv se sh (TxMint n) [memo] w2 found se' x R HS Hse HO _ _).
      + left. exists 0%nat, (mn_mint n), memo. split; [reflexivity|]. split; [reflexivity|]. split; [exact HD|]. split; [reflexivity|]. unfold x. cbn [snd]. do 2 f_equal. lia.
      + cbn [tx_nullifiers]. intros [G|[]]. apply Hn. symmetry. exact G.
  Qed.

  (** ** The issuer's balances *)
  Lemma issuer_balance g depth i l se sh r fee c amt owner leaves i' n sg memo se' i2 :
    issuer_in_step g depth i l se sh -> ordinary (iu_wallet i) (lg_leaves l) se sh ->
    issuer_mint depth i r fee c amt owner leaves = (i', Ok (n, sg, memo)) ->
    Z.of_nat (length (lg_leaves l) + 2) < 2 ^ 64 ->
    (forall x, In x se' <-> In x se \/ paid (iu_wallet i') (TxMint n) [memo] (length (lg_leaves l)) x) -> distinct_nullifiers (iu_wallet i) se' ->
    issuer_scan_txn i' (TxMint n) [memo] (length (lg_leaves l)) = Ok i2 ->
    (forall c', total_of c' (held (iu_wallet i2)) = total_of c' (held (iu_wallet i)) - (if zeqb c' native_asset_code then zv fee else 0)
       + received c' (opened (w_kp (iu_wallet i)) [mn_mint n] [memo])) /\
    (owner = user_pub_key (w_kp (iu_wallet i)) ->
       forall c', received c' (opened (w_kp (iu_wallet i)) [mn_mint n] [memo]) = if zeqb c' c then zv amt else 0).
  Proof.
    intros (R & HN & Hnat) (O1 & O2 & O3) Q Hb Hse HD HS.
    pose proof (runs_inv L KL _ _ _ _ (iruns_runs _ _ _ _ _ _ R Hnat (conj O1 (conj O2 O3))) O1 O2 O3) as RI. pose proof (ri_ok _ _ _ _ RI) as W.
    destruct (issuer_mint_inv _ _ _ _ _ _ _ _ _ _ _ _ Q) as (fr & d & seed & description & chg & M).
    pose proof (fee_record_holds _ _ _ (mm_fee _ _ _ _ _ _ _ _ _ _ _ _ _ _ _ _ _ M)) as [Hfr (bf & Gf & If)].
    destruct (mm_native _ _ _ _ _ _ _ _ _ _ _ _ _ _ _ _ _ M) as (N1 & N2). destruct (mm_change _ _ _ _ _ _ _ _ _ _ _ _ _ _ _ _ _ M) as (D1 & D2 & D3 & D4).
    pose proof (mm_after _ _ _ _ _ _ _ _ _ _ _ _ _ _ _ _ _ M) as EI.
    assert (W1 : wallet_ok (iu_wallet i')).
    { rewrite EI. cbn [iu_set_wallet iu_wallet]. refine (put_chg_ok L (mark_unconfirmed_spent (iu_wallet i) (w_nullify (iu_wallet i) fr) fr) chg (mark_unconfirmed_ok _ _ W Hfr) D1 _ D2).
      rewrite D3. exact N2. }
    assert (K1 : w_kp (iu_wallet i') = w_kp (iu_wallet i)) by (rewrite EI; reflexivity).
    destruct (scan_kp _ _ _ _ _ HS) as (_ & _ & _ & found & HS').
    split.
    - intros c'.
      assert (Hdn : forall x, In x se' -> ~ In (w_nullify (iu_wallet i) x) (@nil Nullifier)) by (intros x _ []).
      assert (Hnl : tx_nullifiers (TxMint n) = map (w_nullify (iu_wallet i)) [fr] ++ []).
      { cbn [tx_nullifiers map app]. rewrite (mm_nullifier _ _ _ _ _ _ _ _ _ _ _ _ _ _ _ _ _ M). reflexivity. }
      assert (Hoc : tx_output_commitments (TxMint n) = derive_record_commitment chg :: [mn_mint n]).
      { cbn [tx_output_commitments]. rewrite (mm_chg _ _ _ _ _ _ _ _ _ _ _ _ _ _ _ _ _ M). reflexivity. }
      assert (Hin : In chg (w_pending_chg (iu_wallet i'))) by (rewrite EI; apply (set_insert_has L)).
      assert (Hun : w_unspent (iu_wallet i') = w_unspent (iu_wallet i)) by (rewrite EI; reflexivity).
      pose proof (scan_balance L (iu_wallet i) (iu_wallet i') (TxMint n) [memo] (lg_leaves l) se sh se' (iu_wallet i2) found [fr] chg [] _ _ RI W1 K1 Hun Hb
        ltac:(constructor; [intros []|constructor]) ltac:(intros x [<-|[]]; exact Hfr) Hnl Hin Hoc eq_refl Hse HD Hdn HS' c') as T.
      destruct (scan_txn_spec L _ _ _ _ _ _ W1 HS') as (_ & _ & _ & EF & _). rewrite Hoc in EF. cbn [tl] in EF. rewrite K1 in EF. rewrite EF in T.
      unfold total_of at 2 4 in T. cbn [fold_right fst] in T. rewrite N1, D1 in T. change (code asset_def_native) with native_asset_code in T.
      rewrite (zeqb_sym c' native_asset_code). destruct (zeqb native_asset_code c'); lia.
    - intros HO c'. unfold opened. cbn [combine flat_map fst snd]. rewrite (mm_mint _ _ _ _ _ _ _ _ _ _ _ _ _ _ _ _ _ M).
      destruct (receiver_memo_spec L K KL) as [RS _].
      rewrite (RS _ _ _ _ (w_kp (iu_wallet i)) (mm_memo _ _ _ _ _ _ _ _ _ _ _ _ _ _ _ _ _ M) HO).
      cbn [app received fold_right minted_record freeze_flag flag_eqb asset_def amount andb].
      destruct (iruns_assets _ _ _ _ _ _ R) as (_ & _ & HA). destruct (HA _ _ _ _ (mm_asset _ _ _ _ _ _ _ _ _ _ _ _ _ _ _ _ _ M)) as (-> & _).
      rewrite zeqb_sym. destruct (zeqb c' c); lia.
  Qed.

  (** two mints with the same fee, without a scan in between, spend the same record *)
  Lemma issuer_conflict depth i r fee c amt owner leaves i1 n sg memo r' c' amt' owner' leaves' i2 n' sg' memo' :
    issuer_mint depth i r fee c amt owner leaves = (i1, Ok (n, sg, memo)) ->
    issuer_mint depth i1 r' fee c' amt' owner' leaves' = (i2, Ok (n', sg', memo')) -> mn_nullifier n = mn_nullifier n'.
  Proof.
    intros Q Q'. destruct (issuer_mint_inv _ _ _ _ _ _ _ _ _ _ _ _ Q) as (fr & d & seed & description & chg & M).
    destruct (issuer_mint_inv _ _ _ _ _ _ _ _ _ _ _ _ Q') as (fr' & d' & seed' & description' & chg' & M').
    rewrite (mm_nullifier _ _ _ _ _ _ _ _ _ _ _ _ _ _ _ _ _ M), (mm_nullifier _ _ _ _ _ _ _ _ _ _ _ _ _ _ _ _ _ M').
    pose proof (mm_fee _ _ _ _ _ _ _ _ _ _ _ _ _ _ _ _ _ M) as F. pose proof (mm_fee _ _ _ _ _ _ _ _ _ _ _ _ _ _ _ _ _ M') as F'.
    pose proof (mm_after _ _ _ _ _ _ _ _ _ _ _ _ _ _ _ _ _ M) as EI. subst i1. cbn [iu_set_wallet iu_wallet] in *.
    assert (G : find_record_for_fee (iu_wallet i) fee = Ok fr') by exact F'. rewrite F in G. injection G as <-. reflexivity.
  Qed.
  (** an asset that the issuer does not know *)
  Lemma issuer_unknown depth i r fee c amt owner leaves :
    asset_definition i c = None -> forall i' x, issuer_mint depth i r fee c amt owner leaves <> (i', Ok x).
  Proof.
    intros H i' [[n sg] memo] Q. destruct (issuer_mint_inv _ _ _ _ _ _ _ _ _ _ _ _ Q) as (fr & d & seed & description & chg & M).
    unfold asset_definition in H. rewrite (mm_asset _ _ _ _ _ _ _ _ _ _ _ _ _ _ _ _ _ M) in H. discriminate H.
  Qed.
End Issuer.
