(** Changing the memo key of one transaction of a generated list. *)
From Verif Require Import Base Config Structs Keys Utils Memo Plonk Witness Circuits Relation CodecProofs PolicyProofs UtilsProofs Snark
  Notes NoteProofs NoteThms NoteFacts NoteLive2 Serde Ledger Wallet WalletProofs WalletPay Builder BuilderSpec BuilderLive BuilderProofs
  BuilderChain BuilderRand BuilderOther BuilderCallSpec BuilderCalls BuilderTxns BuilderWit.

Section WitList.
  Context {C : CapConfig} {S : Snark C} {K : @RoCodec C} {E : MemoSer C} (L : CapLaws C) (SL : SnarkLaws S).

  Lemma replaced vk t : memo_key_replaced vk t (tx_set_memo_vk vk t).
  Proof. destruct t as [n|n|n]; cbn; auto 20. Qed.
  Lemma replaced_memo vk t t' : memo_key_replaced vk t t' -> tx_memo_vk t' = vk.
  Proof. destruct t as [n|n|n], t' as [n'|n'|n']; cbn [memo_key_replaced tx_memo_vk]; tauto. Qed.

  Theorem rekey_exact idx vk p :
    ((idx < length (tp_txns p))%nat -> exists p', update_recv_memos_ver_key idx vk p = Ok p' /\
       changed_at idx (memo_key_replaced vk) (tp_txns p) (tp_txns p') /\ tp_vks p' = tp_vks p /\ tp_until p' = tp_until p /\ tp_tree_root p' = tp_tree_root p /\
       get_merkle_roots p' = get_merkle_roots p /\ get_verifying_keys p' = get_verifying_keys p) /\
    (~ (idx < length (tp_txns p))%nat -> update_recv_memos_ver_key idx vk p = Panic).
  Proof.
    unfold update_recv_memos_ver_key, assert_index, vec_get, vec_set. destruct (Nat.ltb_spec idx (length (tp_txns p))) as [Hi|Hi]; (split; intros N); try lia.
    - destruct (nth_error (tp_txns p) idx) as [t|] eqn:Ht; [|apply nth_error_None in Ht; lia]. cbn [bind]. eexists. split; [reflexivity|]. cbn [tp_txns tp_vks tp_until tp_tree_root].
      split; [apply (set_changed idx _ _ t); [exact Ht|apply replaced]|]. split; [reflexivity|]. split; [reflexivity|]. split; [reflexivity|]. split.
      + unfold get_merkle_roots. cbn [tp_txns tp_tree_root]. rewrite list_set_length. reflexivity.
      + unfold get_verifying_keys. cbn [tp_txns tp_vks]. clear Hi N. revert idx Ht. induction (tp_txns p) as [|x l IH]; intros [|i] Ht; try discriminate; cbn [list_set mapM nth_error] in *.
        * injection Ht as ->. destruct t; reflexivity.
        * rewrite (IH i Ht). reflexivity.
    - reflexivity.
  Qed.

  (** Whoever changes the memo key of a generated note makes it fail *)
  Lemma transfer_generated r pk vu extra b x : tb_build_note r pk vu extra b = Ok x ->
    exists r' ins outs vu' extra' sk, transfer_generate r' ins outs pk vu' extra' = Ok (fst (fst x), sk).
  Proof.
    unfold tb_build_note. destruct (tb_asset b) as [nn|].
    - unfold tb_build_non_native. intros H. apply bind_inv in H. destruct H as ([] & HL & H).
      apply bind_inv in H. destruct H as (in0 & H0 & H). apply bind_inv in H. destruct H as (acc0 & H1 & H). apply bind_inv in H. destruct H as (kp0 & H2 & H).
      apply bind_inv in H. destruct H as (fee & H3 & H). cbv zeta in H. apply bind_inv in H. destruct H as ([n sk] & HG & H). apply bind_inv in H. destruct H as (memos & HM & H).
      apply bind_inv in H. destruct H as (sg & Hs & H). injection H as <-. cbn [fst].
      apply generated_non_native in HG. destruct HG as [_ HG]. eauto 10.
    - unfold tb_build_native. intros H. apply bind_inv in H. destruct H as ([] & HL & H).
      apply bind_inv in H. destruct H as (in0 & H0 & H). apply bind_inv in H. destruct H as (fee & H3 & H). apply bind_inv in H. destruct H as (nkc & HG & H).
      apply bind_inv in H. destruct H as (memos & HM & H). apply bind_inv in H. destruct H as (sg & Hs & H). injection H as <-.
      apply native_generate_inv in HG. destruct HG as (outs' & HG). destruct (fst nkc) as [n sk]. cbn [fst]. eauto 10.
  Qed.

  Definition sealed (k : TransactionVerifyingKey) (t : TransactionNote) : Prop :=
    forall vk t' root ts, memo_key_replaced vk t t' -> vk <> tx_memo_vk t -> tx_verify t' k root ts <> Ok tt /\ ~ batch_ok t' k root ts.

  Lemma sealed_intro k t root0 ts0 : same_kind t k -> tx_verify t k root0 ts0 = Ok tt ->
    (forall vk t' root ts, memo_key_replaced vk t t' -> vk <> tx_memo_vk t -> tx_verify t' k root ts <> Ok tt) -> sealed k t.
  Proof.
    intros HK HV H vk t' root ts HR HN. split; [exact (H vk t' root ts HR HN)|]. intros HB. apply (H vk t' root ts HR HN).
    apply batch_ok_iff.
    - destruct t as [n|n|n], t' as [n'|n'|n'], k as [k|k|k]; cbn [memo_key_replaced same_kind] in *; tauto.
    - split; [exact HB|]. apply (batch_ok_iff t k root0 ts0 HK) in HV. destruct HV as [_ HV].
      destruct t as [n|n|n], t' as [n'|n'|n']; cbn [memo_key_replaced] in *; try tauto. destruct HR as (_ & _ & _ & _ & -> & -> & _). exact HV.
  Qed.

  Lemma generated_sealed g fk start depth kps tj mj fj p :
    (forall j, In j tj -> transfer_job_ok j) -> (forall j, In j mj -> mint_job_ok j) -> (forall j, In j fj -> freeze_job_ok j) -> jobs_fit depth tj mj fj ->
    generate_txns g fk start depth kps tj mj fj = Ok p ->
    exists keys, get_verifying_keys p = Ok keys /\ forall i t k, nth_error (tp_txns p) i = Some t -> nth_error keys i = Some k -> sealed k t.
  Proof.
    intros HT HM HF HJ H.
    destruct (generated_list_verifies L SL g fk start depth kps tj mj fj p HT HM HF HJ H) as (_ & _ & keys & K1 & K2 & K3).
    destruct (K3 (w64 0)) as [K4 _]; [exact (proj1 (zv_range (tp_until p)))|]. clear K3.
    exists keys. split; [exact K1|]. intros i t k Ht Hk. pose proof (K4 i t k Ht Hk) as HV. clear K4.
    unfold generate_txns in H. cbv zeta in H. set (d := Z.to_nat (zv depth)) in *.
    apply bind_inv in H. destruct H as ([tpk tvk] & P1 & H). apply bind_inv in H. destruct H as ([mpk mvk] & P2 & H). apply bind_inv in H. destruct H as ([fpk fvk] & P3 & H).
    assert (P1' : transfer_preprocess g 2 3 d = Ok (tpk, tvk)) by (apply unwrap_inv; exact P1).
    assert (P2' : mint_preprocess g d = Ok (mpk, mvk)) by (apply unwrap_inv; exact P2).
    assert (P3' : freeze_preprocess g fk 3 d = Ok (fpk, fvk)) by (apply unwrap_inv; exact P3).
    clear P1 P2 P3.
    apply bind_inv in H. destruct H as (bs & HB & H). cbn [fst snd] in H.
    apply bind_inv in H. destruct H as (tn & N1 & H). apply bind_inv in H. destruct H as (mn & N2 & H). apply bind_inv in H. destruct H as (fn & N3 & H).
    destruct (builders_located L _ _ _ _ _ _ _ HJ HM HF HT HB) as (B1 & B2 & B3 & B4 & B5 & B6). fold d in B4, B5, B6.
    assert (EP : p = mkTP (tn ++ mn ++ fn) [VkTransfer tvk; VkMint mvk; VkFreeze fvk] (w64 1000) (tree_root d (bs_leaves bs))) by congruence. clear H.
    assert (KE : k = match t with TxTransfer _ => VkTransfer tvk | TxMint _ => VkMint mvk | TxFreeze _ => VkFreeze fvk end).
    { rewrite (keys_ok p tvk mvk fvk) in K1 by (subst p; reflexivity). injection K1 as <-. rewrite nth_error_map, Ht in Hk. injection Hk as <-. reflexivity. }
    clear K1 K2 Hk keys. pose proof (nth_error_In _ _ Ht) as Hin. clear Ht i. subst k. 
    assert (HK : same_kind t match t with TxTransfer _ => VkTransfer tvk | TxMint _ => VkMint mvk | TxFreeze _ => VkFreeze fvk end) by (destruct t; exact I).
    refine (sealed_intro _ _ _ _ HK HV _). clear HK HV. subst p. cbn [tp_txns] in Hin. intros vk t' root ts HR HN HV. apply HN. clear HN. rewrite <- (replaced_memo _ _ _ HR).
    apply in_app_or in Hin. destruct Hin as [Hin|Hin]; [|apply in_app_or in Hin; destruct Hin as [Hin|Hin]].
    - apply In_nth_error in Hin. destruct Hin as (i & Hin). destruct (proj2 (mapM_nth _ _ _ N1) i t Hin) as ([b' j] & X1 & X2). cbn [fst snd] in X2.
      apply bind_inv in X2. destruct X2 as (x & X2 & X3). injection X3 as <-.
      assert (X2' : tb_build_note (tj_rand j) tpk (w64 1000) (tj_extra j) b' = Ok x) by (apply unwrap_inv; exact X2).
      destruct (transfer_generated _ _ _ _ _ _ X2') as (r' & ins & outs & vu' & ex' & sk & HG). destruct t' as [n'|n'|n']; cbn [memo_key_replaced] in HR; try tauto.
      destruct HR as (R1 & R2 & R3 & _). cbn [tx_verify] in HV.
      rewrite (transfer_tamper L SL _ _ _ _ _ _ _ _ _ _ _ _ _ n' root ts P1' HG R3 (f_equal (@length _) R1) (f_equal (@length _) R2) HV). reflexivity.
    - apply In_nth_error in Hin. destruct Hin as (i & Hin). destruct (proj2 (mapM_nth _ _ _ N2) i t Hin) as ([b' j] & X1 & X2). cbn [fst snd] in X2.
      apply bind_inv in X2. destruct X2 as (x & X2 & X3). injection X3 as <-.
      assert (X2' : mb_build_note (mj_chg j) (mj_rand j) mpk b' = Ok x) by (apply unwrap_inv; exact X2).
      unfold mb_build_note in X2'. apply bind_inv in X2'. destruct X2' as (fi & _ & X2'). apply bind_inv in X2'. destruct X2' as ([n sk] & HG & X2'). injection X2' as <-. cbn [fst snd] in *.
      destruct t' as [n'|n'|n']; cbn [memo_key_replaced] in HR; try tauto. destruct HR as (_ & _ & _ & _ & _ & _ & R3 & _). cbn [tx_verify] in HV.
      rewrite (mint_tamper L SL _ _ _ _ _ _ _ _ _ _ _ n' root P2' HG R3 HV). reflexivity.
    - apply In_nth_error in Hin. destruct Hin as (i & Hin). destruct (proj2 (mapM_nth _ _ _ N3) i t Hin) as ([b' j] & X1 & X2). cbn [fst snd] in X2.
      apply bind_inv in X2. destruct X2 as (x & X2 & X3). injection X3 as <-.
      destruct (B6 b' j (nth_error_In _ _ X1)) as (G1 & G2 & G3 & G4 & G5).
      assert (X2' : fb_build_note (fj_chg j) (fj_rand j) fpk b' = Ok x) by (apply unwrap_inv; exact X2).
      unfold fb_build_note in X2'. apply bind_inv in X2'. destruct X2' as (fi & Hf & X2'). apply bind_inv in X2'. destruct X2' as ([[n sk] outs] & HG & X2'). injection X2' as <-. cbn [fst snd] in *.
      assert (FE : fee_input (fst fi) = fb_fee_in b').
      { unfold txn_fee_info_new in Hf. destruct (amount_ltb _ _); [discriminate|]. apply bind_inv in Hf. destruct Hf as (c & _ & Hf). cbv zeta in Hf. injection Hf as <-. reflexivity. }
      destruct t' as [n'|n'|n']; cbn [memo_key_replaced] in HR; try tauto. destruct HR as (R1 & _ & R3 & _). cbn [tx_verify] in HV.
      destruct (fe_fee_member _ _ G1) as [D1 _].
      rewrite (freeze_tamper L SL _ _ _ _ _ _ _ _ _ _ _ _ n' root P3' HG) ; [reflexivity| | |exact R3|exact (f_equal (@length _) R1)|exact HV].
      + rewrite FE, D1. exact G2.
      + intros y Hy. destruct (fe_inputs _ _ G1 y Hy) as [[D2 _] _]. rewrite D2. exact G2.
  Qed.

  Theorem rekeyed_fails g fk start depth kps tj mj fj p idx vk t p' :
    (forall j, In j tj -> transfer_job_ok j) -> (forall j, In j mj -> mint_job_ok j) -> (forall j, In j fj -> freeze_job_ok j) -> jobs_fit depth tj mj fj ->
    generate_txns g fk start depth kps tj mj fj = Ok p ->
    nth_error (tp_txns p) idx = Some t -> vk <> tx_memo_vk t -> update_recv_memos_ver_key idx vk p = Ok p' ->
    exists keys, get_verifying_keys p' = Ok keys /\
    (forall t' k root ts, nth_error (tp_txns p') idx = Some t' -> nth_error keys idx = Some k -> tx_verify t' k root ts <> Ok tt) /\
    (forall roots ts, txn_batch_verify (tp_txns p') roots ts keys <> Ok tt) /\
    (forall ts i t' k, zv ts <= zv (tp_until p') -> i <> idx -> nth_error (tp_txns p') i = Some t' -> nth_error keys i = Some k -> tx_verify t' k (tp_tree_root p') ts = Ok tt).
  Proof.
    intros HT HM HF HJ H Ht HN HU.
    destruct (generated_list_verifies L SL g fk start depth kps tj mj fj p HT HM HF HJ H) as (_ & _ & keys & K1 & K2 & K3).
    destruct (generated_sealed g fk start depth kps tj mj fj p HT HM HF HJ H) as (keys' & K1' & Hs). rewrite K1 in K1'. injection K1' as <-.
    assert (Hi : (idx < length (tp_txns p))%nat) by (apply nth_error_Some; congruence).
    destruct (proj1 (rekey_exact idx vk p) Hi) as (p2 & E0 & E1 & E2 & E3 & E4 & E5 & E6). rewrite HU in E0. injection E0 as <-.
    destruct E1 as (EL & (t0 & t1 & T0 & T1 & TR) & EO). rewrite Ht in T0. injection T0 as <-.
    exists keys. split; [rewrite E6; exact K1|].
    assert (LK : length (tp_txns p) = length keys) by (apply (Forall2_len2 _ _ _ K2)).
    destruct (nth_error keys idx) as [k0|] eqn:Hk; [|apply nth_error_None in Hk; lia].
    split; [|split].
    - intros t' k root ts Ht' Hk'. injection Hk' as <-. rewrite T1 in Ht'. injection Ht' as <-. exact (proj1 (Hs idx t k0 Ht Hk vk t1 root ts TR HN)).
    - intros roots ts HB. assert (NE : tp_txns p' <> []) by (intros G; rewrite G in T1; destruct idx; discriminate T1).
      apply (batch_iff SL _ _ _ _ NE) in HB. destruct HB as (_ & Lr & HB). destruct (nth_error roots idx) as [root|] eqn:Hr; [|apply nth_error_None in Hr; lia].
      exact (proj2 (Hs idx t k0 Ht Hk vk t1 root ts TR HN) (HB idx t1 k0 root T1 Hk Hr)).
    - intros ts i t' k Hts Hne Hti Hki. rewrite EO in Hti by exact Hne. rewrite E3 in Hts. rewrite E4. exact (proj1 (K3 ts Hts) i t' k Hti Hki).
  Qed.
End WitList.
