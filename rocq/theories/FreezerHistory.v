(** Every history of a freezer keeps the invariant; its wallet is a wallet like any other. *)
From Coq Require Import ZifyBool ZifyNat.
From Verif Require Import Base Config Structs Keys Utils Memo Plonk Witness Circuits Relation CodecProofs PolicyProofs UtilsProofs MemoProofs GadgetProofs
  Snark Notes NoteProofs NoteGen NoteGen2 Security Accepted NoteFacts Serde Ledger Wallet WalletSpec WalletProofs WalletPay WalletPay2 Roles RolesSpec RolesIssuer RolesView RolesViewer FreezerSpec FreezerBooks FreezerCalls FreezerRun.
From Coq Require Import Permutation.

Section History.
  Context {C : CapConfig} (L : CapLaws C) {S : Snark C} {K : @RoCodec C} (KL : RoCodecLaws K) {E : MemoSer C}.

  Lemma inv_order f f' lv se fz : freezer_inv f lv se fz -> same_freezer f f' -> freezer_inv f' lv se fz.
  Proof.
    intros [I1 [S1 S2 B1 B2 B3 B4 B5 B6] [I3 I3'] I4 I5 I6 I7 I8 I9 I10] (H1 & H2 & _ & H4 & H5 & H6 & H7 & H8).
    destruct (same_books_spec L _ _ H4 B1) as (N1 & L1 & A1). destruct (same_books_spec L _ _ H5 B2) as (N2 & L2 & A2).
    assert (FN : forall x, fnull f' x = fnull f x) by (intros x; unfold fnull; rewrite H2; reflexivity).
    assert (IT : forall x, intact f' fz x <-> intact f fz x) by (intros x; unfold intact; rewrite FN; tauto).
    assert (G1 : forall k, map_get k (fm_freezing f') = map_get k (fm_freezing f)) by (intros k; apply map_get_perm; auto).
    assert (G2 : forall k, map_get k (fm_releasing f') = map_get k (fm_releasing f)) by (intros k; apply map_get_perm; auto).
    constructor.
    - exact (same_asset f f' H1 H2 I1).
    - constructor; auto.
      + exact (sets_same L _ _ H4 B1 S1).
      + exact (sets_same L _ _ H5 B2 S2).
      + exact (Permutation_NoDup (Permutation_map fst H6) B3).
      + exact (Permutation_NoDup (Permutation_map fst H7) B4).
      + intros nl a old new. rewrite G1, A1. apply B5.
      + intros nl a old new. rewrite G2, A1, A2. apply B6.
    - split; [exact (Permutation_NoDup (Permutation_map fst H8) I3)|]. intros a k. rewrite (amap_get_perm L _ _ a I3 H8). apply I3'.
    - intros a x. rewrite L1, I4, IT. tauto.
    - intros a x. rewrite L2, I5, IT. tauto.
    - intros nl a old new. rewrite G1, FN. apply I6.
    - intros nl a old new. rewrite G2, FN. apply I7.
    - unfold fm_def. rewrite H1. exact I8.
    - intros x Hx. rewrite A1, A2. apply I9, Hx.
    - exact I10.
  Qed.
  Lemma inv_user f k lv se fz : freezer_inv f lv se fz -> freezer_inv (add_user_key f k) lv se fz.
  Proof.
    intros [I1 [S1 S2 B1 B2 B3 B4 B5 B6] [I3 I3'] I4 I5 I6 I7 I8 I9 I10]. constructor; auto.
    - exact (same_asset f (add_user_key f k) eq_refl eq_refl I1).
    - constructor; auto.
    - split; cbn [add_user_key fm_users]; [apply (amap_put_nodup L), I3|]. intros a k'. rewrite (amap_get_put L). destruct (point_eqb a (address k)) eqn:Ea; [|apply I3'].
      apply (point_eqb_spec L) in Ea. intros [= <-]. auto.
  Qed.

  (** the records of a call *)
  Lemma call_records f lv se fz freeze user records : freezer_inv f lv se fz -> amap_get user (call_book f freeze) = Some records ->
    forall x, In x records -> In x se /\ freeze_flag (fst x) = call_flag freeze /\ user = address (pub_key (fst x)) /\ intact f fz x /\ ro_is_dummy (fst x) = false.
  Proof.
    intros I HB x Hx. assert (G : listed (call_book f freeze) user x) by (exists records; auto).
    assert (G' : In x se /\ freeze_flag (fst x) = call_flag freeze /\ user = address (pub_key (fst x)) /\ intact f fz x).
    { destruct freeze; [apply (fi_free _ _ _ _ I) in G|apply (fi_rel _ _ _ _ I) in G]; exact G. }
    destruct G' as (G1 & G2 & G3 & G4). repeat (split; [assumption|]). unfold ro_is_dummy. apply not_true_iff_false. intros H. apply (is_dummy_iff L) in H.
    rewrite (proj1 (fi_leaf _ _ _ _ I x G1)) in H. exact (asset_not_dummy f (fi_asset _ _ _ _ I) H).
  Qed.
  (** the pending changes after a call *)
  Lemma call_notes g depth f r user fee leaves freeze f' n memos sg records x a info chg is keys sk outs m lv se fz :
    freezer_inv f lv se fz -> freeze_made g depth f r user fee leaves freeze f' n memos sg records x a info chg is keys sk outs m ->
    NoDup (map fst m) /\
    (forall nl v, map_get nl m = Some v -> map_get nl (call_pending f freeze) = Some v \/
       exists i y, nth_error records i = Some y /\ nl = fnull f y /\ v = (address (pub_key (fst y)), y, freeze_flip_ro (frd_blinds (fu_note r) (1 + i)%nat) (fst y))) /\
    (forall i y, nth_error records i = Some y -> NoDup (map (fnull f) records) ->
       map_get (fnull f y) m = Some (address (pub_key (fst y)), y, freeze_flip_ro (frd_blinds (fu_note r) (1 + i)%nat) (fst y))).
  Proof.
    intros I M. destruct (freeze_generate_inv L _ _ _ _ _ _ _ (fd_gen _ _ _ _ _ _ _ _ _ _ _ _ _ _ _ _ _ _ _ _ _ _ M)) as (p & s & G).
    pose proof (fd_pending _ _ _ _ _ _ _ _ _ _ _ _ _ _ _ _ _ _ _ _ _ _ M) as HP. rewrite (fg_outs _ _ _ _ _ _ _ _ _ G) in HP.
    pose proof (freeze_inputs_spec _ _ _ _ _ (fd_inputs _ _ _ _ _ _ _ _ _ _ _ _ _ _ _ _ _ _ _ _ _ _ M)) as F2.
    destruct (note_changes_call L (fm_kp f) depth (frd_blinds (fu_note r)) r freeze records is (call_pending f freeze)) as (m' & H1 & H2 & H3 & _ & H4).
    - eapply Forall2_imp; [|exact F2]. intros u v (W & _). exact W.
    - apply Forall_forall. intros y Hy. apply (call_records f lv se fz freeze user records I (fd_book _ _ _ _ _ _ _ _ _ _ _ _ _ _ _ _ _ _ _ _ _ _ M) y Hy).
    - destruct freeze; [exact (bo_freezing_keys _ _ (fi_books _ _ _ _ I))|exact (bo_releasing_keys _ _ (fi_books _ _ _ _ I))].
    - rewrite HP in H1. injection H1 as <-. split; [exact H2|]. split; [exact H3|exact H4].
  Qed.
  Lemma inv_call g depth f r user fee leaves freeze lv se fz : freezer_inv f lv se fz ->
    freezer_inv (fst (freeze_user_internal g depth f r user fee leaves freeze)) lv se fz.
  Proof.
    intros I. destruct (freeze_user_internal g depth f r user fee leaves freeze) as [f' e] eqn:Q. cbn [fst].
    assert (D : (exists y, e = Ok y) \/ forall y, e <> Ok y) by (destruct e; [left; eexists; reflexivity|right; discriminate|right; discriminate]).
    destruct D as [([[n memos] sg] & ->)|D].
    - destruct (call_ok _ _ _ _ _ _ _ _ _ _ _ _ Q) as (records & x & a & info & chg & is & keys & sk & outs & m & M).
      destruct (call_notes _ _ _ _ _ _ _ _ _ _ _ _ _ _ _ _ _ _ _ _ _ _ _ _ _ I M) as (N1 & N2 & _).
      pose proof (call_records f lv se fz freeze user records I (fd_book _ _ _ _ _ _ _ _ _ _ _ _ _ _ _ _ _ _ _ _ _ _ M)) as CR.
      rewrite (fd_after _ _ _ _ _ _ _ _ _ _ _ _ _ _ _ _ _ _ _ _ _ _ M). apply (inv_wallet _ _ lv se fz).
      assert (PN : forall nl a0 old new, map_get nl m = Some (a0, old, new) ->
        In old se /\ nl = fnull f old /\ a0 = address (pub_key (fst old)) /\ freeze_flag (fst old) = call_flag freeze /\ exists bl, new = freeze_flip_ro bl (fst old)).
      { intros nl a0 old new G. apply N2 in G. destruct G as [G|(i & y & G1 & G2 & G3)].
        - destruct freeze; [exact (fi_freezing _ _ _ _ I _ _ _ _ G)|exact (fi_releasing _ _ _ _ I _ _ _ _ G)].
        - injection G3 as -> -> ->. destruct (CR y (nth_error_In _ _ G1)) as (R1 & R2 & R3 & _). repeat (split; [assumption || reflexivity|]). eexists. reflexivity. }
      destruct I as [I1 [S1 S2 B1 B2 B3 B4 B5 B6] I3 I4 I5 I6 I7 I8 I9 I10].
      destruct freeze; (constructor; unfold set_pending; fcbn; auto; [destruct I1; constructor; auto|constructor; fcbn; auto]).
      + intros nl a0 old new G. destruct (PN _ _ _ _ G) as (R1 & R2 & R3 & R4 & _). subst a0. split; [apply I9, R1|apply (I8 old R1)].
      + intros nl a0 old new G. destruct (PN _ _ _ _ G) as (R1 & R2 & R3 & R4 & _). subst a0. destruct (I9 old R1) as [R5 R6]. split; [exact R5|]. split; [apply R6, R4|apply (I8 old R1)].
    - destruct (call_fails _ _ _ _ _ _ _ _ _ _ Q D) as [->|(x & _ & ->)]; [exact I|]. apply (inv_wallet _ _ lv se fz), I.
  Qed.

  (** what a call does not change *)
  Lemma call_rest g depth f r user fee leaves freeze : let f' := fst (freeze_user_internal g depth f r user fee leaves freeze) in
    fm_viewer f' = fm_viewer f /\ fm_kp f' = fm_kp f /\ fm_users f' = fm_users f /\ fm_freezable f' = fm_freezable f /\ fm_releasable f' = fm_releasable f /\ w_kp (fm_wallet f') = w_kp (fm_wallet f).
  Proof.
    destruct (freeze_user_internal g depth f r user fee leaves freeze) as [f' e] eqn:Q. cbn [fst].
    assert (D : (exists y, e = Ok y) \/ forall y, e <> Ok y) by (destruct e; [left; eexists; reflexivity|right; discriminate|right; discriminate]).
    destruct D as [([[n memos] sg] & ->)|D].
    - destruct (call_ok _ _ _ _ _ _ _ _ _ _ _ _ Q) as (records & x & a & info & chg & is & keys & sk & outs & m & M).
      rewrite (fd_after _ _ _ _ _ _ _ _ _ _ _ _ _ _ _ _ _ _ _ _ _ _ M). destruct freeze; repeat split.
    - destruct (call_fails _ _ _ _ _ _ _ _ _ _ Q D) as [->|(x & _ & ->)]; repeat split.
  Qed.
  Lemma note_all_viewed_rest l f f' : note_all_viewed f l = Ok f' -> fm_viewer f' = fm_viewer f /\ fm_kp f' = fm_kp f /\ fm_wallet f' = fm_wallet f /\ fm_users f' = fm_users f.
  Proof. intros H. destruct (note_all_viewed_spec L _ _ _ H) as (m & -> & _). repeat split. Qed.
  Lemma confirm_all_rest l : forall f pos f', confirm_all f l pos = Ok f' -> fm_viewer f' = fm_viewer f /\ fm_kp f' = fm_kp f /\ fm_wallet f' = fm_wallet f /\ fm_users f' = fm_users f.
  Proof.
    induction l as [|nl l IH]; intros f pos f' H; cbn [confirm_all] in H; [injection H as <-; auto|].
    apply bind_ok in H. destruct H as (f1 & H1 & H). apply bind_ok in H. destruct H as (f2 & H2 & H). apply IH in H.
    assert (R1 : fm_viewer f1 = fm_viewer f /\ fm_kp f1 = fm_kp f /\ fm_wallet f1 = fm_wallet f /\ fm_users f1 = fm_users f).
    { unfold confirm_frozen in H1. destruct (map_get nl (fm_freezing f)) as [[[a o] w]|]; [|injection H1 as <-; auto]. apply bind_ok in H1. destruct H1 as (b & _ & H1). injection H1 as <-. auto. }
    assert (R2 : fm_viewer f2 = fm_viewer f1 /\ fm_kp f2 = fm_kp f1 /\ fm_wallet f2 = fm_wallet f1 /\ fm_users f2 = fm_users f1).
    { unfold confirm_released in H2. destruct (map_get nl (fm_releasing f1)) as [[[a o] w]|]; [|injection H2 as <-; auto]. apply bind_ok in H2. destruct H2 as (b & _ & H2).
      apply bind_ok in H2. destruct H2 as (b' & _ & H2). injection H2 as <-. auto. }
    intuition congruence.
  Qed.
  Lemma scan_rest f t memos off f' : freezer_scan_txn f t memos off = Ok f' ->
    fm_viewer f' = fm_viewer f /\ fm_kp f' = fm_kp f /\ fm_users f' = fm_users f /\ w_kp (fm_wallet f') = w_kp (fm_wallet f) /\
    exists w found, scan_txn (fm_wallet f) t memos off = Ok (w, found) /\ fm_wallet f' = w.
  Proof.
    unfold freezer_scan_txn. intros H. apply bind_ok in H. destruct H as ([w found] & HW & H).
    assert (R : fm_viewer f' = fm_viewer (fm_set_wallet f w) /\ fm_kp f' = fm_kp (fm_set_wallet f w) /\ fm_wallet f' = w /\ fm_users f' = fm_users (fm_set_wallet f w)).
    { destruct t as [n|n|n].
      - unfold freezer_scan_xfr in H. apply bind_ok in H. destruct H as ([ins outs] & _ & H). exact (note_all_viewed_rest _ _ _ H).
      - unfold freezer_scan_mint in H. apply bind_ok in H. destruct H as ([d u] & _ & H).
        apply (note_all_viewed_rest [(d, u)]). cbn [note_all_viewed]. rewrite H. reflexivity.
      - unfold freezer_scan_freeze in H. exact (confirm_all_rest _ _ _ _ H). }
    destruct R as (R1 & R2 & R3 & R4). repeat (split; [assumption|]). split; [rewrite R3; exact (proj1 (scan_txn_kp _ _ _ _ _ _ HW))|]. exists w, found. auto.
  Qed.

  Lemma fruns_inv g depth f lv ws se sh fz : fruns g depth f lv ws se sh fz -> apart f lv se fz -> freezer_inv f lv se fz.
  Proof.
    induction 1 as [kp vkp ukp c f Hn|f f' lv ws se sh fz R IH HO|f lv ws se sh fz k R IH|f lv ws se sh fz rc R IH|f lv ws se sh fz ro R IH H1 H2
      |f lv ws se sh fz r user fee leaves freeze R IH|f lv ws se sh fz n t memos f' ws' se' R IH HT HS Hws Hse|f lv ws se sh fz n t memos f' ws' se' R IH HT HS Hws Hse
      |f lv ws se sh fz n memos f' ws' se' R IH HX HS Hws Hse]; intros AP.
    - pose proof (freezer_new_asset L _ _ _ _ _ Hn) as A. unfold freezer_new in Hn. apply bind_ok in Hn. destruct Hn as (p & _ & Hn). apply bind_ok in Hn. destruct Hn as (d & _ & Hn). injection Hn as <-.
      constructor; [exact A|constructor|split|..]; cbn; try (constructor; fail); try discriminate; try (intros; contradiction); auto.
      + intros a x. split; [intros (b & H & _); discriminate|tauto].
      + intros a x. split; [intros (b & H & _); discriminate|tauto].
    - apply (inv_order f); [|exact HO]. apply IH. destruct HO as (_ & H2 & _). refine (apart_before f f' _ _ _ _ _ _ H2 _ _ _ AP); auto.
    - apply inv_user, IH, AP.
    - apply inv_leaves, IH. refine (apart_before f f _ _ _ _ _ _ eq_refl _ _ _ AP); auto. rewrite app_length. lia.
    - apply inv_leaves. apply (inv_wallet _ _ lv se fz). apply IH. refine (apart_before f _ _ _ _ _ _ _ _ _ _ _ AP); auto. rewrite app_length. lia.
    - apply inv_call, IH. refine (apart_before f _ _ _ _ _ _ _ _ _ _ _ AP); auto. apply call_rest.
    - destruct (scan_rest _ _ _ _ _ HS) as (_ & Rk & _ & _ & w & found & HW & _). unfold freezer_scan_txn in HS. rewrite HW in HS. cbn [bind] in HS.
      assert (I : freezer_inv f lv se fz).
      { apply IH. refine (apart_before f f' _ _ _ _ _ _ Rk _ _ _ AP); auto; [change (length (lv ++ tn_commitments n)) with (length (lv ++ (tn_commitments n : list F))); rewrite app_length; lia|intros x Hx; apply Hse; auto]. }
      apply (inv_wallet _ w) in I. unfold freezer_scan_xfr in HS.
      assert (HT' : own_transfer (fm_set_wallet f w) depth n t) by (destruct HT; constructor; assumption).
      destruct (transfer_reads L _ depth n t (length lv) (fi_asset _ _ _ _ I) HT') as (ins & outs & V & RD & LN & CM). rewrite V in HS. cbn [bind] in HS.
      refine (inv_new L _ _ _ _ _ _ _ _ _ _ I RD HS eq_refl _ CM Hse AP). rewrite LN. destruct HT as [(_ & NE & _) _ _ _ _ _ _]. destruct (tn_commitments n); [contradiction|reflexivity].
    - destruct (scan_rest _ _ _ _ _ HS) as (_ & Rk & _ & _ & w & found & HW & _). unfold freezer_scan_txn in HS. rewrite HW in HS. cbn [bind] in HS.
      assert (I : freezer_inv f lv se fz).
      { apply IH. refine (apart_before f f' _ _ _ _ _ _ Rk _ _ _ AP); auto; [rewrite app_length; lia|intros x Hx; apply Hse; auto]. }
      apply (inv_wallet _ w) in I. unfold freezer_scan_mint in HS.
      assert (HT' : own_mint (fm_set_wallet f w) depth n t) by (destruct HT; constructor; assumption).
      destruct (mint_reads L _ depth n t (length lv) (fi_asset _ _ _ _ I) HT') as ([d u] & V & RD & r & Er & Cr). rewrite V in HS. cbn [bind] in HS.
      refine (inv_new L (fm_set_wallet f w) f' lv [mn_chg n; mn_mint n] se se' fz [mv_mint t] (length lv) [(d, u)] I RD _ eq_refl eq_refl _ Hse AP).
      + cbn [note_all_viewed]. rewrite HS. reflexivity.
      + intros [|i] v Hv; [|destruct i; discriminate]. injection Hv as <-. exists r. cbn [nth_error]. rewrite Cr. auto.
    - destruct (scan_rest _ _ _ _ _ HS) as (_ & Rk & _ & _ & w & found & HW & _). unfold freezer_scan_txn in HS. rewrite HW in HS. cbn [bind] in HS.
      assert (I : freezer_inv f lv se fz).
      { apply IH. refine (apart_before f f' _ _ _ _ _ _ Rk _ _ _ AP); auto; [change (length (lv ++ fn_commitments n)) with (length (lv ++ (fn_commitments n : list F))); rewrite app_length; lia|intros x Hx; apply Hse; auto|intros y Hy; apply in_or_app; auto]. }
      apply (inv_wallet _ w) in I. exact (inv_freeze L _ _ _ _ _ _ _ I HX HS Hse AP).
  Qed.

  (** *** The wallet *)
  Lemma fruns_runs g depth f lv ws se sh fz : fruns g depth f lv ws se sh fz -> natives ws -> ordinary (fm_wallet f) lv ws sh -> runs (fm_wallet f) lv ws sh.
  Proof.
    induction 1 as [kp vkp ukp c f Hn|f f' lv ws se sh fz R IH HO|f lv ws se sh fz k R IH|f lv ws se sh fz rc R IH|f lv ws se sh fz ro R IH H1 H2
      |f lv ws se sh fz r user fee leaves freeze R IH|f lv ws se sh fz n t memos f' ws' se' R IH HT HS Hws Hse|f lv ws se sh fz n t memos f' ws' se' R IH HT HS Hws Hse
      |f lv ws se sh fz n memos f' ws' se' R IH HX HS Hws Hse]; intros HN OO.
    - unfold freezer_new in Hn. apply bind_ok in Hn. destruct Hn as (p & _ & Hn). apply bind_ok in Hn. destruct Hn as (d & _ & Hn). injection Hn as <-. apply run_new.
    - destruct HO as (_ & _ & HO & _). refine (run_order _ _ _ _ _ (IH HN _) HO). refine (ordinary_before _ _ _ _ _ _ _ _ (proj1 HO) _ _ _ OO); auto.
    - exact (IH HN OO).
    - apply run_other, IH; [exact HN|]. refine (ordinary_before _ _ _ _ _ _ _ _ eq_refl _ _ _ OO); auto. rewrite app_length. lia.
    - cbn [fm_set_wallet fm_wallet] in *. apply run_own; auto. apply IH; [intros x Hx; apply HN, in_or_app; left; exact Hx|].
      refine (ordinary_before _ _ _ _ _ _ _ _ eq_refl _ _ _ OO); auto; [rewrite app_length; lia|]. intros; apply in_or_app; auto.
    - assert (OO' : ordinary (fm_wallet f) lv ws sh).
      { refine (ordinary_before _ _ _ _ _ _ _ _ _ _ _ _ OO); auto. apply call_rest. }
      specialize (IH HN OO'). destruct OO' as (O1 & O2 & O3). pose proof (runs_inv L KL _ _ _ _ IH O1 O2 O3) as RI. clear OO.
      assert (FEE : forall x, find_record_for_fee (fm_wallet f) fee = Ok x -> holds (fm_wallet f) x /\ asset_def (fst x) = asset_def_native).
      { intros x FF. pose proof (fee_record_holds _ _ _ FF) as [Hh (b & Hb & Ib)]. split; [exact Hh|]. apply HN; [apply (ri_exact _ _ _ _ RI), Hh|]. exact (bucket_code _ _ _ (ri_ok _ _ _ _ RI) Hb _ Ib). }
      destruct (freeze_user_internal g depth f r user fee leaves freeze) as [f' e] eqn:Q. cbn [fst].
      assert (D : (exists y, e = Ok y) \/ forall y, e <> Ok y) by (destruct e; [left; eexists; reflexivity|right; discriminate|right; discriminate]).
      destruct D as [([[n memos] sg] & ->)|D].
      + destruct (call_ok _ _ _ _ _ _ _ _ _ _ _ _ Q) as (records & x & a & info & chg & is & keys & sk & outs & m & M).
        destruct (FEE x (fd_fee _ _ _ _ _ _ _ _ _ _ _ _ _ _ _ _ _ _ _ _ _ _ M)) as [Hh NF].
        rewrite (fd_after _ _ _ _ _ _ _ _ _ _ _ _ _ _ _ _ _ _ _ _ _ _ M). cbn [fm_set_wallet fm_wallet].
        rewrite (native_nullifier (fm_wallet f) x NF).
        pose proof (fd_info _ _ _ _ _ _ _ _ _ _ _ _ _ _ _ _ _ _ _ _ _ _ M) as HI.
        assert (Qf : zv fee <= zv (amount (fst x))).
        { unfold txn_fee_info_new in HI. cbn [fi_ro] in HI. unfold amount_ltb in HI. destruct (Z.ltb_spec (zv (amount (fst x))) (zv fee)) as [G|G]; [discriminate HI|exact G]. }
        destruct (proj2 (txn_fee_info_spec L) (fu_fee_blind r) (mkFeeInput (fst x) a (w_kp (fm_wallet f))) fee Qf) as (info0 & chg0 & G1 & _ & _ & _ & _ & G5 & G7 & G6 & _).
        rewrite HI in G1. injection G1 as <- <-. cbn [fi_ro] in *.
        refine (run_change _ _ _ _ chg (run_mark _ _ _ _ x IH Hh) G5 _ G6). cbn. rewrite G7. exact (proj1 (ri_own _ _ _ _ _ RI Hh)).
      + destruct (call_fails _ _ _ _ _ _ _ _ _ _ Q D) as [->|(x & FF & ->)]; [exact IH|]. destruct (FEE x FF) as [Hh NF]. cbn [fm_set_wallet fm_wallet].
        rewrite (native_nullifier (fm_wallet f) x NF). exact (run_mark _ _ _ _ x IH Hh).
    - destruct (scan_rest _ _ _ _ _ HS) as (_ & _ & _ & Rk & w & found & HW & ->).
      refine (run_scan _ _ _ _ (TxTransfer n) _ _ _ _ (IH _ _) HW Hws).
      + intros x Hx. apply HN, Hws. left; exact Hx.
      + refine (ordinary_before _ _ _ _ _ _ _ _ Rk _ _ _ OO); [change (length (lv ++ tn_commitments n)) with (length (lv ++ (tn_commitments n : list F))); rewrite app_length; lia|intros x Hx; apply Hws; left; exact Hx|intros; apply in_or_app; auto].
    - destruct (scan_rest _ _ _ _ _ HS) as (_ & _ & _ & Rk & w & found & HW & ->).
      refine (run_scan _ _ _ _ (TxMint n) _ _ _ _ (IH _ _) HW Hws).
      + intros x Hx. apply HN, Hws. left; exact Hx.
      + refine (ordinary_before _ _ _ _ _ _ _ _ Rk _ _ _ OO); [rewrite app_length; lia|intros x Hx; apply Hws; left; exact Hx|intros; apply in_or_app; auto].
    - destruct (scan_rest _ _ _ _ _ HS) as (_ & _ & _ & Rk & w & found & HW & ->).
      refine (run_scan _ _ _ _ (TxFreeze n) _ _ _ _ (IH _ _) HW Hws).
      + intros x Hx. apply HN, Hws. left; exact Hx.
      + refine (ordinary_before _ _ _ _ _ _ _ _ Rk _ _ _ OO); [change (length (lv ++ fn_commitments n)) with (length (lv ++ (fn_commitments n : list F))); rewrite app_length; lia|intros x Hx; apply Hws; left; exact Hx|intros; apply in_or_app; auto].
  Qed.
End History.
