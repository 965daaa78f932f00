(** A freezer that scans a block is where its history says. *)
From Coq Require Import ZifyBool ZifyNat.
From Verif Require Import Base Config Structs Keys Utils Memo Plonk Witness Circuits Relation CodecProofs PolicyProofs UtilsProofs MemoProofs GadgetProofs
  Snark Notes NoteProofs NoteGen NoteGen2 Security Accepted NoteFacts Serde Ledger LedgerProofs Wallet WalletSpec WalletProofs WalletPay WalletPay2 Roles RolesSpec RolesIssuer RolesView RolesViewer FreezerSpec FreezerBooks FreezerCalls FreezerRun FreezerHistory.
From Coq Require Import Permutation.

Section Blocks.
  Context {C : CapConfig} (L : CapLaws C) {S : Snark C} {K : @RoCodec C} (KL : RoCodecLaws K) {E : MemoSer C}.

  (** *** What never changes *)
  Lemma same_users f f' : NoDup (map fst (fm_users f)) -> Permutation (fm_users f) (fm_users f') -> (forall a k, amap_get a (fm_users f) = Some k -> address k = a) -> users_ok f'.
  Proof.
    intros N P H. assert (N' : NoDup (map fst (fm_users f'))) by (refine (Permutation_NoDup _ N); apply Permutation_map, P). split; [exact N'|].
    intros a k Hk. apply H. apply (amap_get_unique L); [exact N|]. apply (amap_get_in L) in Hk. refine (Permutation_in _ _ Hk). apply Permutation_sym, P.
  Qed.
  Lemma fruns_asset g depth f lv ws se sh fz : fruns g depth f lv ws se sh fz -> freezer_asset f /\ users_ok f.
  Proof.
    induction 1 as [kp vkp ukp c f Hn|f f' lv ws se sh fz R IH HO|f lv ws se sh fz k R IH|f lv ws se sh fz rc R IH|f lv ws se sh fz ro R IH H1 H2
      |f lv ws se sh fz r user fee leaves freeze R IH|f lv ws se sh fz n t memos f' ws' se' R IH HT HS Hws Hse|f lv ws se sh fz n t memos f' ws' se' R IH HT HS Hws Hse
      |f lv ws se sh fz n memos f' ws' se' R IH HX HS Hws Hse]; try (destruct IH as [A [U1 U2]]).
    - split; [exact (freezer_new_asset L _ _ _ _ _ Hn)|]. unfold freezer_new in Hn. apply bind_ok in Hn. destruct Hn as (p & _ & Hn). apply bind_ok in Hn. destruct Hn as (d & _ & Hn). injection Hn as <-.
      split; cbn; [constructor|discriminate].
    - destruct HO as (H1 & H2 & _ & _ & _ & _ & _ & H8). split; [exact (same_asset f f' H1 H2 A)|]. exact (same_users f f' U1 H8 U2).
    - split; [exact (same_asset f (add_user_key f k) eq_refl eq_refl A)|]. split; cbn [add_user_key fm_users]; [apply (amap_put_nodup L), U1|].
      intros a k'. rewrite (amap_get_put L). destruct (point_eqb a (address k)) eqn:Ea; [|apply U2]. apply (point_eqb_spec L) in Ea. intros [= <-]. auto.
    - split; [exact A|split; auto].
    - split; [apply (same_asset f); [reflexivity|reflexivity|exact A]|split; auto].
    - destruct (call_rest g depth f r user fee leaves freeze) as (C1 & C2 & C3 & _). split; [exact (same_asset f _ C1 C2 A)|]. split; rewrite C3; auto.
    - destruct (scan_rest L _ _ _ _ _ HS) as (C1 & C2 & C3 & _). split; [exact (same_asset f _ C1 C2 A)|]. split; rewrite C3; auto.
    - destruct (scan_rest L _ _ _ _ _ HS) as (C1 & C2 & C3 & _). split; [exact (same_asset f _ C1 C2 A)|]. split; rewrite C3; auto.
    - destruct (scan_rest L _ _ _ _ _ HS) as (C1 & C2 & C3 & _). split; [exact (same_asset f _ C1 C2 A)|]. split; rewrite C3; auto.
  Qed.

  (** *** The records made, as lists *)
  Definition viewed_list (f : Freezer) (l : list (ViewableData * u64)) : list Owned :=
    flat_map (fun du => match viewed_opening f (fst du) with Ok (_, ro) => [(ro, snd du)] | _ => [] end) l.
  Lemma viewed_list_in f l x : In x (viewed_list f l) <-> exists a, viewed f l a x.
  Proof.
    unfold viewed_list, viewed. rewrite in_flat_map. split.
    - intros ([d u] & Hd & Hx). cbn [fst snd] in Hx. destruct (viewed_opening f d) as [[a ro]| |] eqn:Q; [|destruct Hx|destruct Hx]. destruct Hx as [<-|[]]. exists a, d. auto.
    - intros (a & d & Hd & Q). exists (d, snd x). split; [exact Hd|]. cbn [fst snd]. rewrite Q. left. destruct x; reflexivity.
  Qed.
  Lemma made_list f vals off outs : freezer_asset f -> users_ok f -> reads f vals off outs -> exists l, forall x, In x l <-> made f vals off x.
  Proof.
    intros A U R. exists (viewed_list f outs). intros x. rewrite viewed_list_in. pose proof (reads_made L f vals off outs A U R) as H. split.
    - intros (a & Ha). apply (H a x), Ha.
    - intros Hm. exists (address (pub_key (fst x))). apply H. auto.
  Qed.
  Definition pending_of (f : Freezer) (y : Owned) : list (Nullifier * Change) := match freeze_flag (fst y) with Unfrozen => fm_freezing f | Frozen => fm_releasing f end.
  Definition replaced_list (f : Freezer) (n : FreezeNote) (off : nat) (se : list Owned) : list Owned :=
    flat_map (fun y => flat_map (fun i => flat_map (fun e => let '(nl, (a, old, new)) := e in
      if (match nth_error (fn_nullifiers n) (Datatypes.S i) with Some m => zeqb m (fnull f y) | None => false end) && zeqb nl (fnull f y) && point_eqb a (address (pub_key (fst y))) && owned_eqb old y
      then [(new, w64 (Z.of_nat (off + 1 + i)))] else []) (pending_of f y)) (seq 0 (length (fn_nullifiers n)))) se.
  Lemma replaced_list_in f n off se x : In x (replaced_list f n off se) <-> exists y, In y se /\ replaced f n off y x.
  Proof.
    unfold replaced_list, replaced, becomes. rewrite in_flat_map. split.
    - intros (y & Hy & H). exists y. split; [exact Hy|]. apply in_flat_map in H. destruct H as (i & Hi & H). apply in_flat_map in H. destruct H as ([nl [[a old] new]] & He & H).
      destruct (nth_error (fn_nullifiers n) (Datatypes.S i)) as [m|] eqn:Q; [|destruct H].
      destruct (zeqb m (fnull f y) && zeqb nl (fnull f y) && point_eqb a (address (pub_key (fst y))) && owned_eqb old y) eqn:B; [|destruct H].
      destruct H as [<-|[]]. apply andb_true_iff in B. destruct B as [B B4]. apply andb_true_iff in B. destruct B as [B B3]. apply andb_true_iff in B. destruct B as [B1 B2].
      apply zeqb_spec in B1, B2. apply (point_eqb_spec L) in B3. apply (owned_eqb_iff L) in B4. subst. exists i. split; [exact Q|]. split; [exact He|reflexivity].
    - intros (y & Hy & i & H1 & H2 & H3). exists y. split; [exact Hy|]. apply in_flat_map. exists i. split.
      + apply in_seq. assert ((Datatypes.S i < length (fn_nullifiers n))%nat) by (apply nth_error_Some; congruence). lia.
      + apply in_flat_map. exists (fnull f y, (address (pub_key (fst y)), y, fst x)). split; [exact H2|]. rewrite H1.
        assert (E1 : zeqb (fnull f y) (fnull f y) = true) by (apply zeqb_spec; reflexivity).
        assert (E2 : point_eqb (address (pub_key (fst y))) (address (pub_key (fst y))) = true) by (apply (point_eqb_spec L); reflexivity).
        assert (E3 : owned_eqb y y = true) by (apply (owned_eqb_iff L); reflexivity). rewrite E1, E2, E3. cbn [andb]. left. destruct x as [ro u]. cbn [fst snd] in *. rewrite H3. reflexivity.
  Qed.

  (** *** One transaction *)
  Definition txn_makes (f : Freezer) (se : list Owned) (t : TransactionNote) (v : list RoV) (off : nat) (x : Owned) : Prop :=
    match t with TxFreeze n => exists y, In y se /\ replaced f n off y x | _ => made f v off x end.
  Lemma txn_step g depth f lv ws se sh fz t v memos f' : fruns g depth f lv ws se sh fz -> own_txn f depth se t v ->
    freezer_scan_txn f t memos (length lv) = Ok f' ->
    exists ws' se', fruns g depth f' (lv ++ tx_output_commitments t) ws' se' (sh ++ shown_by t (length lv)) (fz ++ map (fun nl => (nl, length lv)) (freezes t)) /\
      (forall x, In x se' <-> In x se \/ txn_makes f se t v (length lv) x) /\
      (forall x, In x ws' <-> In x ws \/ paid (fm_wallet f) t memos (length lv) x).
  Proof.
    intros R HO HS. destruct (fruns_asset _ _ _ _ _ _ _ _ R) as [A U].
    set (ws' := ws ++ paid_list (fm_wallet f) t memos (length lv)).
    assert (Hws : forall x, In x ws' <-> In x ws \/ paid (fm_wallet f) t memos (length lv) x) by (intros x; unfold ws'; rewrite in_app_iff, paid_list_in; reflexivity).
    destruct t as [n|n|n]; cbn [own_txn txn_makes freezes map tx_output_commitments] in *.
    - destruct HO as (tv & HT & ->). destruct (transfer_reads L _ depth n tv (length lv) A HT) as (ins & outs & V & RD & _).
      destruct (made_list f _ _ _ A U RD) as (l & Hl). exists ws', (se ++ l). rewrite app_nil_r.
      assert (Hse : forall x, In x (se ++ l) <-> In x se \/ made f (tl (tv_outs tv)) (length lv) x) by (intros x; rewrite in_app_iff, Hl; reflexivity).
      split; [|split; [exact Hse|exact Hws]]. exact (fru_transfer g depth f lv ws se sh fz n tv memos f' ws' (se ++ l) R HT HS Hws Hse).
    - destruct HO as (tv & HT & ->). destruct (mint_reads L _ depth n tv (length lv) A HT) as (e & V & RD & _).
      destruct (made_list f _ _ _ A U RD) as (l & Hl). exists ws', (se ++ l). rewrite app_nil_r.
      assert (Hse : forall x, In x (se ++ l) <-> In x se \/ made f [mv_mint tv] (length lv) x) by (intros x; rewrite in_app_iff, Hl; reflexivity).
      split; [|split; [exact Hse|exact Hws]]. exact (fru_mint g depth f lv ws se sh fz n tv memos f' ws' (se ++ l) R HT HS Hws Hse).
    - exists ws', (se ++ replaced_list f n (length lv) se).
      assert (Hse : forall x, In x (se ++ replaced_list f n (length lv) se) <-> In x se \/ exists y, In y se /\ replaced f n (length lv) y x) by (intros x; rewrite in_app_iff, replaced_list_in; reflexivity).
      split; [|split; [exact Hse|exact Hws]]. exact (fru_freeze g depth f lv ws se sh fz n memos f' ws' _ R HO HS Hws Hse).
  Qed.

  (** what the freezer waits for is only changed by notes with these nullifiers *)
  Lemma confirm_all_pending l : forall f pos f' nl v, confirm_all f l pos = Ok f' -> ~ In nl l ->
    (In (nl, v) (fm_freezing f') <-> In (nl, v) (fm_freezing f)) /\ (In (nl, v) (fm_releasing f') <-> In (nl, v) (fm_releasing f)).
  Proof.
    induction l as [|m l IH]; intros f pos f' nl v H Hn; cbn [confirm_all] in H; [injection H as <-; tauto|].
    apply bind_ok in H. destruct H as (f1 & H1 & H). apply bind_ok in H. destruct H as (f2 & H2 & H).
    destruct (IH _ _ _ nl v H) as [I1 I2]; [intros G; apply Hn; right; exact G|].
    assert (NE : nl <> m) by (intros ->; apply Hn; left; reflexivity).
    assert (D1 : (In (nl, v) (fm_freezing f1) <-> In (nl, v) (fm_freezing f)) /\ fm_releasing f1 = fm_releasing f).
    { unfold confirm_frozen in H1. destruct (map_get m (fm_freezing f)) as [[[a o] w]|]; [|injection H1 as <-; tauto]. apply bind_ok in H1. destruct H1 as (b & _ & H1). injection H1 as <-.
      cbn [fm_set_freezing fm_set_releasable fm_set_freezable fm_freezing fm_releasing]. split; [split; [intros G; exact (proj1 (proj1 (map_del_in _ _ _ _) G))|intros G; exact (proj2 (map_del_in _ _ _ _) (conj G NE))]|reflexivity]. }
    assert (D2 : (In (nl, v) (fm_releasing f2) <-> In (nl, v) (fm_releasing f1)) /\ fm_freezing f2 = fm_freezing f1).
    { unfold confirm_released in H2. destruct (map_get m (fm_releasing f1)) as [[[a o] w]|]; [|injection H2 as <-; tauto]. apply bind_ok in H2. destruct H2 as (b & _ & H2). apply bind_ok in H2. destruct H2 as (b' & _ & H2). injection H2 as <-.
      cbn [fm_set_releasing fm_set_releasable fm_set_freezable fm_freezing fm_releasing]. split; [split; [intros G; exact (proj1 (proj1 (map_del_in _ _ _ _) G))|intros G; exact (proj2 (map_del_in _ _ _ _) (conj G NE))]|reflexivity]. }
    destruct D1 as [D1 D1'], D2 as [D2 D2']. split; [rewrite I1, D2'; exact D1|rewrite I2, D2, D1'; tauto].
  Qed.
  Lemma scan_pending f t memos off f' nl v : freezer_scan_txn f t memos off = Ok f' -> ~ In nl (tx_nullifiers t) ->
    (In (nl, v) (fm_freezing f') <-> In (nl, v) (fm_freezing f)) /\ (In (nl, v) (fm_releasing f') <-> In (nl, v) (fm_releasing f)).
  Proof.
    unfold freezer_scan_txn. intros H Hn. apply bind_ok in H. destruct H as ([w found] & _ & H). destruct t as [n|n|n].
    - unfold freezer_scan_xfr in H. apply bind_ok in H. destruct H as ([ins outs] & _ & H). destruct (note_all_viewed_spec L _ _ _ H) as (m & -> & _). cbn. tauto.
    - unfold freezer_scan_mint in H. apply bind_ok in H. destruct H as ([d u] & _ & H).
      assert (H' : note_all_viewed (fm_set_wallet f w) [(d, u)] = Ok f') by (cbn [note_all_viewed]; rewrite H; reflexivity).
      destruct (note_all_viewed_spec L _ _ _ H') as (m & -> & _). cbn. tauto.
    - unfold freezer_scan_freeze in H. apply (confirm_all_pending _ (fm_set_wallet f w) _ _ _ _ H). intros G. apply Hn. cbn [tx_nullifiers]. destruct (fn_nullifiers n); [destruct G|right; exact G].
  Qed.
  Lemma becomes_kept f t memos off f' y new : freezer_scan_txn f t memos off = Ok f' -> ~ In (fnull f y) (tx_nullifiers t) -> (becomes f' y new <-> becomes f y new).
  Proof.
    intros H Hn. destruct (scan_rest L _ _ _ _ _ H) as (_ & HK & _). unfold becomes. assert (EF : fnull f' y = fnull f y) by (unfold fnull; rewrite HK; reflexivity). rewrite EF.
    destruct (scan_pending _ _ _ _ _ (fnull f y) (address (pub_key (fst y)), y, new) H Hn) as [P1 P2]. destruct (freeze_flag (fst y)); assumption.
  Qed.

  (** *** Many transactions *)
  Lemma made_same f f' v off x : fm_viewer f' = fm_viewer f -> fm_users f' = fm_users f -> (made f' v off x <-> made f v off x).
  Proof. intros H1 H2. unfold made, fm_def. rewrite H1, H2. tauto. Qed.
  Lemma replaced_kept f t memos off f' n off' y x : freezer_scan_txn f t memos off = Ok f' -> (forall nl, In nl (fn_nullifiers n) -> ~ In nl (tx_nullifiers t)) ->
    (replaced f' n off' y x <-> replaced f n off' y x).
  Proof.
    intros H Hn. destruct (scan_rest L _ _ _ _ _ H) as (_ & HK & _). unfold replaced. assert (EF : fnull f' y = fnull f y) by (unfold fnull; rewrite HK; reflexivity). rewrite EF.
    split; intros (i & H1 & H2 & H3); exists i; (split; [exact H1|]); (split; [|exact H3]); apply (becomes_kept _ _ _ _ _ _ _ H) in H2 || apply (becomes_kept _ _ _ _ _ _ _ H); try exact H2; apply Hn, (nth_error_In _ _ H1).
  Qed.
  Lemma txns_make_some f se : forall txns vals off x, txns_make f se txns vals off x ->
    exists t v o, In t txns /\ txn_makes f se t v o x.
  Proof.
    induction txns as [|t txns IH]; intros [|v vals] off x H; cbn [txns_make] in H; try contradiction.
    destruct H as [H|H]; [exists t, v, off; split; [left; reflexivity|exact H]|]. destruct (IH _ _ _ H) as (t' & v' & o & H1 & H2). exists t', v', o. split; [right; exact H1|exact H2].
  Qed.

  Lemma txns_step g depth : forall txns vals f lv ws se sh fz f',
    fruns g depth f lv ws se sh fz -> Forall2 (own_txn f depth se) (map fst txns) vals ->
    NoDup (flat_map (fun p => tx_nullifiers (fst p)) txns) ->
    (forall x, txns_make f se (map fst txns) vals (length lv) x -> ~ In (fnull f x) (flat_map (fun p => tx_nullifiers (fst p)) txns)) ->
    freezer_scan_txns f txns (length lv) = Ok f' ->
    exists ws' se' sh' fz', fruns g depth f' (lv ++ flat_map (fun p => tx_output_commitments (fst p)) txns) ws' se' sh' fz' /\
      (forall x, In x se' <-> In x se \/ txns_make f se (map fst txns) vals (length lv) x) /\
      map fst sh' = map fst sh ++ flat_map (fun p => tx_nullifiers (fst p)) txns /\
      map fst fz' = map fst fz ++ flat_map (fun p => freezes (fst p)) txns /\
      (forall x, In x ws \/ opens (w_kp (fm_wallet f)) txns (length lv) x -> In x ws') /\
      (forall x, In x ws' -> In x ws \/ opens (w_kp (fm_wallet f)) txns (length lv) x \/ In (fst x) (w_pending_chg (fm_wallet f))).
  Proof.
    induction txns as [|[t memos] txns IH]; intros vals f lv ws se sh fz f' R HO ND HM HS; cbn [freezer_scan_txns] in HS.
    - injection HS as <-. exists ws, se, sh, fz. cbn [flat_map map txns_make opens] in *. rewrite !app_nil_r. repeat split; auto; try tauto.
    - apply bind_ok in HS. destruct HS as (f1 & H1 & HS). cbn [map fst] in HO. inversion HO as [|? v ? vals' O1 O2]; subst. cbn [flat_map fst] in ND, HM.
      destruct (txn_step g depth f lv ws se sh fz t v memos f1 R O1 H1) as (ws1 & se1 & R1 & Hse1 & Hws1).
      destruct (scan_rest L _ _ _ _ _ H1) as (EV & EK & EU & EKP & w & found & HW & Ew).
      assert (DJ : forall nl, In nl (flat_map (fun p => tx_nullifiers (fst p)) txns) -> ~ In nl (tx_nullifiers t)).
      { intros nl G1 G2. clear -ND G1 G2. induction (tx_nullifiers t) as [|a l IHl]; [destruct G2|]. cbn [app] in ND. apply NoDup_cons_iff in ND. destruct ND as [N1 N2]. destruct G2 as [->|G2]; [|exact (IHl N2 G2)]. apply N1, in_or_app. right; exact G1. }
      assert (ND' : NoDup (flat_map (fun p => tx_nullifiers (fst p)) txns)).
      { clear -ND. induction (tx_nullifiers t) as [|a l IHl]; [exact ND|]. cbn [app] in ND. apply NoDup_cons_iff in ND. apply IHl, ND. }
      assert (FN : forall y, fnull f1 y = fnull f y) by (intros y; unfold fnull; rewrite EK; reflexivity).
      assert (NEW : forall y, txn_makes f se t v (length lv) y -> ~ In (fnull f y) (flat_map (fun p => tx_nullifiers (fst p)) txns)).
      { intros y Hy G. apply (HM y); [cbn [map fst txns_make]; left; exact Hy|apply in_or_app; right; exact G]. }
      assert (RK : forall n off y x, In (TxFreeze n) (map fst txns) -> (replaced f1 n off y x <-> replaced f n off y x)).
      { intros n off y x Hn. apply (replaced_kept f t memos (length lv) f1 n off y x H1). intros nl G. apply DJ. apply in_flat_map. apply in_map_iff in Hn. destruct Hn as ([tt' mm] & Ht & Hi). exists (tt', mm). split; [exact Hi|]. cbn [fst] in *. rewrite Ht. exact G. }
      assert (NIN : forall n nl, In (TxFreeze n) (map fst txns) -> In nl (fn_nullifiers n) -> In nl (flat_map (fun p => tx_nullifiers (fst p)) txns)).
      { intros n nl Hn G. apply in_flat_map. apply in_map_iff in Hn. destruct Hn as ([tt' mm] & Ht & Hi). exists (tt', mm). split; [exact Hi|]. cbn [fst] in *. rewrite Ht. exact G. }
      assert (TM : forall ts vs off x, incl ts (map fst txns) -> (txns_make f1 se1 ts vs off x <-> txns_make f se ts vs off x)).
      { induction ts as [|t2 ts IHt]; intros [|v2 vs] off x Hi; cbn [txns_make]; try tauto.
        rewrite (IHt vs (off + length (tx_output_commitments t2))%nat x (fun y Hy => Hi y (or_intror Hy))).
        assert (Q : (match t2 with TxFreeze n => exists y, In y se1 /\ replaced f1 n off y x | _ => made f1 v2 off x end) <->
                    (match t2 with TxFreeze n => exists y, In y se /\ replaced f n off y x | _ => made f v2 off x end)); [|rewrite Q; tauto].
        destruct t2 as [n|n|n]; [apply made_same; assumption|apply made_same; assumption|]. pose proof (Hi _ (or_introl eq_refl)) as Hn. split.
        - intros (y & Hy & Hr). apply (RK _ _ _ _ Hn) in Hr. exists y. split; [|exact Hr]. apply Hse1 in Hy. destruct Hy as [Hy|Hy]; [exact Hy|].
          destruct Hr as (i & Hr & _). elim (NEW y Hy). apply (NIN n); [exact Hn|]. exact (nth_error_In _ _ Hr).
        - intros (y & Hy & Hr). exists y. split; [apply Hse1; auto|]. apply (RK _ _ _ _ Hn), Hr. }
      assert (O2' : Forall2 (own_txn f1 depth se1) (map fst txns) vals').
      { assert (G : forall ts vs, incl ts (map fst txns) -> Forall2 (own_txn f depth se) ts vs -> Forall2 (own_txn f1 depth se1) ts vs).
        { induction ts as [|t2 ts IHt]; intros vs Hi HF; inversion HF as [|? v2 ? vs' F1 F2]; subst; constructor; [|apply IHt; [intros y Hy; apply Hi; right; exact Hy|exact F2]].
          pose proof (Hi _ (or_introl eq_refl)) as Hn. unfold own_txn in *. destruct t2 as [n|n|n].
          - destruct F1 as (tv & [T1 T2 T3 T4 T5 T6 T7] & Ev). exists tv. split; [constructor; auto; unfold fm_def in *; rewrite EV; auto|exact Ev].
          - destruct F1 as (tv & [T1 T2 T3] & Ev). exists tv. split; [constructor; auto; unfold fm_def in *; rewrite EV; auto|exact Ev].
          - destruct F1 as (X1 & X2 & X3). split; [exact X1|]. split; [exact X2|]. intros y i Hy Hi'. rewrite FN in Hi'. pose proof (NIN n _ Hn (nth_error_In _ _ Hi')) as HI.
            apply Hse1 in Hy. destruct Hy as [Hy|Hy]; [|elim (NEW y Hy HI)]. destruct (X3 y i Hy Hi') as (new & B1 & B2). exists new. split; [|exact B2].
            apply (becomes_kept _ _ _ _ _ _ _ H1); [|exact B1]. apply DJ, HI. }
        apply G; [intros y Hy; exact Hy|exact O2]. }
      assert (LN : (length lv + length (tx_output_commitments t))%nat = length (lv ++ (tx_output_commitments t : list F))) by (rewrite app_length; reflexivity).
      rewrite LN in HS.
      destruct (IH vals' f1 _ _ _ _ _ f' R1 O2' ND') as (ws' & se' & sh' & fz' & R' & Q1 & Q2 & Q3 & Q4 & Q5); [|exact HS|].
      { intros x Hx. apply (TM _ _ _ _ (fun y Hy => Hy)) in Hx. rewrite FN. intros G. apply (HM x); [|apply in_or_app; right; exact G]. cbn [map fst txns_make]. right. rewrite LN. exact Hx. }
      exists ws', se', sh', fz'. cbn [flat_map map fst txns_make opens]. rewrite !app_assoc. split; [exact R'|]. split; [|split; [|split; [|split]]].
      + intros x. rewrite Q1, Hse1, LN, (TM _ _ _ _ (fun y Hy => Hy)). unfold txn_makes. tauto.
      + rewrite Q2, map_app. unfold shown_by. rewrite map_map. cbn [fst]. rewrite map_id. reflexivity.
      + rewrite Q3, map_app, map_map. cbn [fst]. rewrite map_id. reflexivity.
      + intros x [Hx|[Hx|Hx]]; apply Q4; [left; apply Hws1; auto|left; apply Hws1; right; left; exact Hx|right]. rewrite EKP. rewrite LN in Hx. exact Hx.
      + intros x Hx. apply Q5 in Hx. rewrite EKP in Hx. rewrite LN. destruct Hx as [Hx|[Hx|Hx]]; [|auto|right; right; rewrite Ew in Hx; exact (scan_txn_chg L _ _ _ _ _ _ HW _ Hx)].
        apply Hws1 in Hx. destruct Hx as [Hx|[Hx|(Hx & _)]]; auto.
  Qed.

  Theorem freezer_block g depth f l ws se sh fz b memos vals f' l' :
    freezer_in_step g depth f l ws se sh fz -> Forall2 (own_txn f depth se) (bk_txns b) vals ->
    NoDup (flat_map tx_nullifiers (bk_txns b)) ->
    (forall x, txns_make f se (bk_txns b) vals (length (lg_leaves l)) x -> ~ In (fnull f x) (flat_map tx_nullifiers (bk_txns b))) ->
    freezer_scan_block f b memos (length (lg_leaves l)) = Ok f' -> insert_block depth l b = (l', Ok tt) ->
    exists ro ws' se' sh' fz', block_fee_record b = Ok ro /\
      fruns g depth f' (lg_leaves l') ws' se' sh' fz' /\ (forall n, In n (lg_nullifiers l') <-> exists k, In (n, k) sh') /\
      (forall x, In x se' <-> In x se \/ txns_make f se (bk_txns b) vals (length (lg_leaves l)) x) /\
      map fst fz' = map fst fz ++ flat_map freezes (bk_txns b) /\
      (forall x, In x ws \/ opens (w_kp (fm_wallet f)) (combine (bk_txns b) memos) (length (lg_leaves l)) x -> In x ws') /\
      (forall x, In x ws' -> In x ws \/ opens (w_kp (fm_wallet f)) (combine (bk_txns b) memos) (length (lg_leaves l)) x \/ In (fst x) (w_pending_chg (fm_wallet f))).
  Proof.
    intros (R & HN & _) HO ND HM HS HI. unfold insert_block in HI. rewrite insert_txns_spec in HI.
    destruct (block_fee_record b) as [ro|e|] eqn:HF; try discriminate HI. injection HI as <-. cbn [store_current_mt_root insert_record lg_leaves lg_nullifiers lg_roots].
    unfold freezer_scan_block in HS. destruct (Nat.eqb_spec (length (bk_txns b)) (length memos)) as [Hl|Hl]; [|discriminate HS]. cbn [negb fail_if bind] in HS.
    assert (CF : map fst (combine (bk_txns b) memos) = bk_txns b).
    { clear -Hl. revert memos Hl. induction (bk_txns b) as [|t ts IH]; intros [|m ms] Hl; cbn in *; try discriminate; auto. f_equal. apply IH. lia. }
    destruct (txns_step g depth (combine (bk_txns b) memos) vals f (lg_leaves l) ws se sh fz f' R) as (ws' & se' & sh' & fz' & R' & Q1 & Q2 & Q3 & Q4 & Q5).
    - rewrite CF. exact HO.
    - rewrite (combine_fst tx_nullifiers _ _ Hl). exact ND.
    - rewrite CF, (combine_fst tx_nullifiers _ _ Hl). exact HM.
    - exact HS.
    - rewrite CF in Q1. rewrite (combine_fst tx_nullifiers _ _ Hl) in Q2. rewrite (combine_fst freezes _ _ Hl) in Q3. rewrite (combine_fst tx_output_commitments _ _ Hl) in R'.
      exists ro, ws', se', sh', fz'. split; [reflexivity|]. split; [apply fru_other, R'|]. split; [|split; [exact Q1|split; [exact Q3|split; [exact Q4|exact Q5]]]].
      intros n. rewrite in_app_iff, <- in_rev, HN.
      assert (EX : forall s : list (Nullifier * nat), (exists k, In (n, k) s) <-> In n (map fst s)).
      { clear. intros s. rewrite in_map_iff. split; [intros (k & H); exists (n, k); auto|intros ((n' & k) & <- & H); exists k; exact H]. }
      rewrite !EX, Q2. change (map fst sh ++ flat_map tx_nullifiers (bk_txns b)) with (@app Nullifier (map fst sh) (flat_map tx_nullifiers (bk_txns b))).
      rewrite in_app_iff. tauto.
  Qed.
End Blocks.
