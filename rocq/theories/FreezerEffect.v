(** What freeze notes of the freezer do: to its books and to the wallets of the owners. *)
From Coq Require Import ZifyBool ZifyNat.
From Verif Require Import Base Config Structs Keys Utils Memo Plonk Witness Circuits Relation CodecProofs PolicyProofs UtilsProofs MemoProofs GadgetProofs
  Snark Notes NoteProofs NoteGen NoteGen2 Security Accepted NoteFacts Serde Ledger Wallet WalletSpec WalletProofs WalletPay WalletPay2 Roles RolesSpec RolesIssuer RolesView RolesViewer
  FreezerSpec FreezerBooks FreezerCalls FreezerRun FreezerHistory FreezerLive.
From Coq Require Import Permutation.

Section Effect.
  Context {C : CapConfig} (L : CapLaws C) {S : Snark C} {K : @RoCodec C} (KL : RoCodecLaws K) {E : MemoSer C}.

  (** the note of a call *)
  Record note_of (f : Freezer) (r : FreezeUserRand) (freeze : bool) (records : list Owned) (n : FreezeNote) (memos : list ReceiverMemo) : Prop := {
    no_nullifiers : exists x, fn_nullifiers n = x :: padding_nullifier (fu_kp0 r) (fu_blind0 r) (call_flag freeze) :: map (fnull f) records ++
                      [padding_nullifier (fu_kp1 r) (fu_blind1 r) (call_flag freeze)];
    no_commitments : exists c, fn_commitments n = c :: map derive_record_commitment (freeze_outputs r freeze records);
    no_distinct : NoDup (fn_nullifiers n);
    no_memos : payment_memos (fu_enc r) 0 (freeze_outputs r freeze records) = Ok memos
  }.
  Lemma call_note g depth f r user fee leaves freeze f' n memos sg records :
    freeze_user_internal g depth f r user fee leaves freeze = (f', Ok (n, memos, sg)) -> amap_get user (call_book f freeze) = Some records ->
    note_of f r freeze records n memos.
  Proof.
    intros Q HB. destruct (call_ok _ _ _ _ _ _ _ _ _ _ _ _ Q) as (records' & x & a & info & chg & is & keys & sk & outs & m & M).
    pose proof (fd_book _ _ _ _ _ _ _ _ _ _ _ _ _ _ _ _ _ _ _ _ _ _ M) as HB'. rewrite HB in HB'. injection HB' as <-.
    destruct (freeze_generate_inv L _ _ _ _ _ _ _ (fd_gen _ _ _ _ _ _ _ _ _ _ _ _ _ _ _ _ _ _ _ _ _ _ M)) as (p & s & G).
    pose proof (freeze_inputs_spec _ _ _ _ _ (fd_inputs _ _ _ _ _ _ _ _ _ _ _ _ _ _ _ _ _ _ _ _ _ _ M)) as F2.
    assert (F3 : Forall2 (fun x i => zi_ro i = fst x /\ zi_kp i = fm_kp f /\ acc_uid (zi_acc i) = snd x) records is).
    { eapply Forall2_imp; [|exact F2]. cbv beta. intros y i (A1 & A2 & _ & A3). auto. }
    assert (F1 : Forall2 (fun (x : Owned) i => zi_ro i = fst x) records is) by (eapply Forall2_imp; [|exact F2]; cbv beta; intros y i (A1 & _); exact A1).
    pose proof (fg_outs _ _ _ _ _ _ _ _ _ G) as EO. rewrite (outs_of_inputs depth r freeze records is F1) in EO. constructor.
    - rewrite (fg_nullifiers _ _ _ _ _ _ _ _ _ G), (input_nullifiers f depth r freeze records is F3). eexists. reflexivity.
    - rewrite (fg_commitments _ _ _ _ _ _ _ _ _ G), EO. eexists. reflexivity.
    - exact (fg_distinct _ _ _ _ _ _ _ _ _ G).
    - rewrite <- EO. exact (fd_memos _ _ _ _ _ _ _ _ _ _ _ _ _ _ _ _ _ _ _ _ _ _ M).
  Qed.
  Lemma outputs_length r freeze records : length (freeze_outputs r freeze records) = (length records + 2)%nat.
  Proof. unfold freeze_outputs. cbn [length]. rewrite app_length, map_length, combine_length, seq_length, Nat.min_id. cbn [length]. lia. Qed.
  Lemma outputs_nth r freeze records i x : nth_error records i = Some x -> nth_error (freeze_outputs r freeze records) (Datatypes.S i) = Some (turned r i x).
  Proof.
    intros H. unfold freeze_outputs. cbn [nth_error]. rewrite nth_error_app1.
    - rewrite nth_error_map.
      assert (G : forall k l j (y : Owned), nth_error l j = Some y -> nth_error (combine (seq k (length l)) l) j = Some ((k + j)%nat, y)).
      { clear. intros k l. revert k. induction l as [|z l IH]; intros k [|j] y H; try discriminate; cbn [length seq combine nth_error] in *.
        - injection H as ->. rewrite Nat.add_0_r. reflexivity.
        - rewrite (IH (Datatypes.S k) j y H). replace (Datatypes.S k + j)%nat with (k + Datatypes.S j)%nat by lia. reflexivity. }
      rewrite (G 0%nat records i x H). reflexivity.
    - rewrite map_length, combine_length, seq_length, Nat.min_id. apply nth_error_Some. congruence.
  Qed.
  (** where the nullifier of a record of the asset is in such a note *)
  Lemma note_position f r freeze records n memos se i y : note_of f r freeze records n memos ->
    (forall x, In x se -> ~ In (fnull f x) (padding r freeze)) -> (forall x y, In x se -> In y se -> fnull f x = fnull f y -> x = y) -> (forall x, In x records -> In x se) ->
    In y se -> nth_error (tl (fn_nullifiers n)) i = Some (fnull f y) -> exists j, i = Datatypes.S j /\ nth_error records j = Some y.
  Proof.
    intros [(x0 & EN) _ _ _] HP AP HR Hy H. rewrite EN in H. cbn [tl] in H. destruct i as [|j]; cbn [nth_error] in H.
    - injection H as H. exfalso. apply (HP y Hy). left. exact H.
    - exists j. split; [reflexivity|]. destruct (Nat.lt_ge_cases j (length (map (fnull f) records))) as [Hj|Hj].
      + rewrite nth_error_app1 in H by exact Hj. rewrite nth_error_map in H. destruct (nth_error records j) as [x|] eqn:Ex; [|discriminate]. injection H as H.
        f_equal. apply AP; auto. apply HR, (nth_error_In _ j), Ex.
      + rewrite nth_error_app2 in H by exact Hj. destruct (j - length (map (fnull f) records))%nat as [|k]; [|destruct k; discriminate]. cbn [nth_error] in H. injection H as H.
        exfalso. apply (HP y Hy). right; left. exact H.
  Qed.

  (** after a call the freezer waits for what the note makes *)
  Lemma call_expects g depth f r user fee leaves freeze f' n memos sg records lv se fz : freezer_inv f lv se fz -> apart f lv se fz ->
    freeze_user_internal g depth f r user fee leaves freeze = (f', Ok (n, memos, sg)) -> amap_get user (call_book f freeze) = Some records ->
    forall i x, nth_error records i = Some x -> map_get (fnull f x) (call_pending f' freeze) = Some (address (pub_key (fst x)), x, turned r i x).
  Proof.
    intros I AP Q HB i x Hx. destruct (call_ok _ _ _ _ _ _ _ _ _ _ _ _ Q) as (records' & x0 & a & info & chg & is & keys & sk & outs & m & M).
    pose proof (fd_book _ _ _ _ _ _ _ _ _ _ _ _ _ _ _ _ _ _ _ _ _ _ M) as HB'. rewrite HB in HB'. injection HB' as <-.
    destruct (call_notes L _ _ _ _ _ _ _ _ _ _ _ _ _ _ _ _ _ _ _ _ _ _ _ _ _ I M) as (_ & _ & N3).
    rewrite (fd_after _ _ _ _ _ _ _ _ _ _ _ _ _ _ _ _ _ _ _ _ _ _ M). specialize (N3 i x Hx (fnull_nodup L _ _ _ _ _ _ _ I AP HB)).
    destruct freeze; exact N3.
  Qed.

  (** the note of a call is as the freezer expects, while it waits for it *)
  Lemma waits_expected h r freeze user records n memos lv se fz : freezer_inv h lv se fz -> apart h lv se fz -> amap_get user (call_book h freeze) = Some records ->
    note_of h r freeze records n memos -> (forall x, In x se -> ~ In (fnull h x) (padding r freeze)) ->
    (forall i x, nth_error records i = Some x -> map_get (fnull h x) (call_pending h freeze) = Some (address (pub_key (fst x)), x, turned r i x)) ->
    as_expected h n se.
  Proof.
    intros I AP HB NO HP HW. pose proof (call_records L h lv se fz freeze user records I HB) as CR. destruct (no_nullifiers _ _ _ _ _ _ NO) as (x0 & EN). destruct (no_commitments _ _ _ _ _ _ NO) as (c0 & EC).
    split; [exact (no_distinct _ _ _ _ _ _ NO)|]. split.
    - rewrite EN, EC. cbn [length]. rewrite app_length, !map_length, outputs_length. cbn [length]. unfold Owned in *. lia.
    - intros y i Hy Hi. destruct (note_position h r freeze records n memos se i y NO HP (proj1 (proj2 AP)) (fun x Hx => proj1 (CR x Hx)) Hy) as (j & -> & Hj).
      { destruct (fn_nullifiers n); [discriminate Hi|exact Hi]. }
      exists (turned r j y). split.
      + unfold becomes. rewrite (proj1 (proj2 (CR y (nth_error_In _ _ Hj)))). apply map_get_in. specialize (HW j y Hj). destruct freeze; exact HW.
      + rewrite EC. exact (map_nth_error _ _ _ (outputs_nth r freeze records j y Hj)).
  Qed.

  (** the books after a note of a call, when the freezer waits for the openings made with [rb] *)
  Lemma scan_books h f2 r rb freeze user records n memos lv se fz : freezer_inv h lv se fz -> apart h lv se fz -> amap_get user (call_book h freeze) = Some records ->
    note_of h r freeze records n memos -> (forall x, In x se -> ~ In (fnull h x) (padding r freeze)) ->
    (forall i x, nth_error records i = Some x -> map_get (fnull h x) (call_pending h freeze) = Some (address (pub_key (fst x)), x, turned rb i x)) ->
    Z.of_nat (length lv + length (fn_commitments n)) <= 2 ^ 64 -> freezer_scan_freeze h n (length lv) = Ok f2 ->
    (forall a y, listed (call_book f2 freeze) a y <-> listed (call_book h freeze) a y /\ a <> user) /\
    (forall a y, listed (other_book f2 freeze) a y <-> listed (other_book h freeze) a y \/
       (a = user /\ exists i x, nth_error records i = Some x /\ y = (turned rb i x, w64 (Z.of_nat (length lv + 2 + i))))).
  Proof.
    intros I AP HB NO HP HW Hlen HS. pose proof (call_records L h lv se fz freeze user records I HB) as CR.
    destruct (no_nullifiers _ _ _ _ _ _ NO) as (x0 & EN). destruct (no_commitments _ _ _ _ _ _ NO) as (c0 & EC).
    unfold freezer_scan_freeze in HS. assert (ET : skipn 1 (fn_nullifiers n) = tl (fn_nullifiers n)) by (destruct (fn_nullifiers n); reflexivity). rewrite ET in HS.
    assert (NDt : NoDup (tl (fn_nullifiers n))) by (pose proof (no_distinct _ _ _ _ _ _ NO) as ND; destruct (fn_nullifiers n); [constructor|inversion ND; assumption]).
    assert (LT : (length (tl (fn_nullifiers n)) + 1 = length (fn_commitments n))%nat).
    { rewrite EN, EC. cbn [tl length]. rewrite app_length, !map_length, outputs_length. cbn [length]. unfold Owned in *. lia. }
    destruct (confirm_all_spec L (tl (fn_nullifiers n)) h (length lv + 1) (books_later h _ (length lv + 1)%nat (fi_books _ _ _ _ I) ltac:(lia)) NDt) as (f0 & H0 & CF & _).
    { unfold RecordCommitment in *. lia. }
    rewrite HS in H0. injection H0 as <-.
    set (l := tl (fn_nullifiers n)) in *.
    assert (POS : forall i y, In y se -> nth_error l i = Some (fnull h y) -> exists j, i = Datatypes.S j /\ nth_error records j = Some y).
    { intros i y Hy Hi. exact (note_position h r freeze records n memos se i y NO HP (proj1 (proj2 AP)) (fun x Hx => proj1 (CR x Hx)) Hy Hi). }
    assert (PEND : forall nl a old new, map_get nl (call_pending h freeze) = Some (a, old, new) -> In old se /\ nl = fnull h old /\ a = address (pub_key (fst old))).
    { intros nl a old new G. destruct freeze; [destruct (fi_freezing _ _ _ _ I _ _ _ _ G) as (A & B & D & _)|destruct (fi_releasing _ _ _ _ I _ _ _ _ G) as (A & B & D & _)]; auto. }
    assert (OTHER : forall nl a old new, In nl l -> map_get nl (if freeze then fm_releasing h else fm_freezing h) = Some (a, old, new) -> False).
    { intros nl a old new Hn G.
      assert (GG : In old se /\ nl = fnull h old /\ freeze_flag (fst old) = flip (call_flag freeze)).
      { destruct freeze; [destruct (fi_releasing _ _ _ _ I _ _ _ _ G) as (A & B & _ & D & _)|destruct (fi_freezing _ _ _ _ I _ _ _ _ G) as (A & B & _ & D & _)]; auto. }
      destruct GG as (G1 & -> & G3). apply In_nth_error in Hn. destruct Hn as (i & Hi). destruct (POS i old G1 Hi) as (j & _ & Hj).
      rewrite (proj1 (proj2 (CR old (nth_error_In _ _ Hj)))) in G3. destruct freeze; discriminate. }
    assert (INL : forall j x, nth_error records j = Some x -> nth_error l (Datatypes.S j) = Some (fnull h x)).
    { intros j x Hx. unfold l. rewrite EN. cbn [tl nth_error]. rewrite nth_error_app1; [rewrite nth_error_map, Hx; reflexivity|]. rewrite map_length. apply nth_error_Some. congruence. }
    assert (A : forall a y, (listed (call_book h freeze) a y /\ ~ exists nl new, In nl l /\ map_get nl (call_pending h freeze) = Some (a, y, new)) <-> listed (call_book h freeze) a y /\ a <> user).
    { intros a y. split; intros [H1 H2]; (split; [exact H1|]).
      - intros ->. destruct H1 as (b & Hb & Hy). rewrite HB in Hb. injection Hb as <-. apply In_nth_error in Hy. destruct Hy as (j & Hj). apply H2.
        exists (fnull h y), (turned rb j y). split; [exact (nth_error_In _ _ (INL j y Hj))|]. rewrite (HW j y Hj). rewrite <- (proj1 (proj2 (proj2 (CR y (nth_error_In _ _ Hj))))). reflexivity.
      - intros (nl & new & Hn & G). destruct (PEND _ _ _ _ G) as (G1 & -> & G3). apply In_nth_error in Hn. destruct Hn as (i & Hi). destruct (POS i y G1 Hi) as (j & _ & Hj).
        apply H2. rewrite G3. symmetry. exact (proj1 (proj2 (proj2 (CR y (nth_error_In _ _ Hj))))). }
    assert (B : forall a y, (exists i nl old, nth_error l i = Some nl /\ map_get nl (call_pending h freeze) = Some (a, old, fst y) /\ snd y = w64 (Z.of_nat (length lv + 1 + i))) <->
       (a = user /\ exists i x, nth_error records i = Some x /\ y = (turned rb i x, w64 (Z.of_nat (length lv + 2 + i))))).
    { intros a y. split.
      - intros (i & nl & old & Hi & G & Hu). destruct (PEND _ _ _ _ G) as (G1 & -> & G3). destruct (POS i old G1 Hi) as (j & -> & Hj). rewrite (HW j old Hj) in G. injection G as G4 G5. split.
        + rewrite <- G4. symmetry. exact (proj1 (proj2 (proj2 (CR old (nth_error_In _ _ Hj))))).
        + exists j, old. split; [exact Hj|]. destruct y as [ro uid]. cbn [fst snd] in *. subst. replace (length lv + 2 + j)%nat with (length lv + 1 + Datatypes.S j)%nat by lia. reflexivity.
      - intros (-> & j & x & Hj & ->). exists (Datatypes.S j), (fnull h x), x. split; [exact (INL j x Hj)|]. split.
        + rewrite (HW j x Hj). rewrite <- (proj1 (proj2 (proj2 (CR x (nth_error_In _ _ Hj))))). reflexivity.
        + cbn [snd]. replace (length lv + 1 + Datatypes.S j)%nat with (length lv + 2 + j)%nat by lia. reflexivity. }
    split; intros a y.
    - rewrite <- A. destruct freeze; cbn [call_book call_pending]; [rewrite (cf_free _ _ _ _ CF)|rewrite (cf_rel _ _ _ _ CF)].
      + split; [intros [H|(i & nl & old & H1 & H2 & _)]; [exact H|exfalso; exact (OTHER _ _ _ _ (nth_error_In _ _ H1) H2)]|intros H; left; exact H].
      + split; [intros [H|(i & nl & old & H1 & H2 & _)]; [exact H|exfalso; exact (OTHER _ _ _ _ (nth_error_In _ _ H1) H2)]|intros H; left; exact H].
    - rewrite <- B. destruct freeze; cbn [other_book call_pending]; [rewrite (cf_rel _ _ _ _ CF)|rewrite (cf_free _ _ _ _ CF)].
      + split; [intros [[H _]|H]; auto|]. intros [H|H]; [left|right; exact H]. split; [exact H|]. intros (nl & new & H1 & H2). exact (OTHER _ _ _ _ H1 H2).
      + split; [intros [[H _]|H]; auto|]. intros [H|H]; [left|right; exact H]. split; [exact H|]. intros (nl & new & H1 & H2). exact (OTHER _ _ _ _ H1 H2).
  Qed.

  (** *** Scanning never fails on what the freezer understands *)
  Lemma wallet_scans g depth f lv ws se sh fz t memos off : fruns g depth f lv ws se sh fz -> natives ws -> ordinary (fm_wallet f) lv ws sh ->
    length (tx_output_commitments t) = Datatypes.S (length memos) -> exists w found, scan_txn (fm_wallet f) t memos off = Ok (w, found).
  Proof.
    intros R HN O Hl. pose proof (fruns_runs L KL _ _ _ _ _ _ _ _ R HN O) as RW. destruct O as (O1 & O2 & O3).
    destruct (proj1 (scan_txn_total L (fm_wallet f) t memos off (ri_ok _ _ _ _ (runs_inv L KL _ _ _ _ RW O1 O2 O3))) Hl) as ([w found] & H). eauto.
  Qed.
  Lemma scan_transfer_total g depth f lv ws se sh fz n t memos : fruns g depth f lv ws se sh fz -> apart f lv se fz -> natives ws -> ordinary (fm_wallet f) lv ws sh ->
    own_transfer f depth n t -> knows_owners f (tl (tv_outs t)) -> length (tn_commitments n) = Datatypes.S (length memos) ->
    exists f', freezer_scan_txn f (TxTransfer n) memos (length lv) = Ok f'.
  Proof.
    intros R AP HN O HT HK Hl. pose proof (fruns_inv L _ _ _ _ _ _ _ _ R AP) as I. destruct (wallet_scans _ _ _ _ _ _ _ _ (TxTransfer n) memos (length lv) R HN O Hl) as (w & found & HW).
    unfold freezer_scan_txn. rewrite HW. cbn [bind]. apply (inv_wallet f w) in I.
    assert (HT' : own_transfer (fm_set_wallet f w) depth n t) by (destruct HT; constructor; assumption).
    destruct (transfer_reads L _ depth n t (length lv) (fi_asset _ _ _ _ I) HT') as (ins & outs & V & RD & _). unfold freezer_scan_xfr. rewrite V. cbn [bind].
    apply note_all_viewed_ok. exact (reads_ok _ _ _ _ (fi_asset _ _ _ _ I) RD (ot_owners _ _ _ _ HT') HK).
  Qed.
  Lemma scan_mint_total g depth f lv ws se sh fz n t memo : fruns g depth f lv ws se sh fz -> apart f lv se fz -> natives ws -> ordinary (fm_wallet f) lv ws sh ->
    own_mint f depth n t -> knows_owners f [mv_mint t] -> exists f', freezer_scan_txn f (TxMint n) [memo] (length lv) = Ok f'.
  Proof.
    intros R AP HN O HT HK. pose proof (fruns_inv L _ _ _ _ _ _ _ _ R AP) as I. destruct (wallet_scans _ _ _ _ _ _ _ _ (TxMint n) [memo] (length lv) R HN O eq_refl) as (w & found & HW).
    unfold freezer_scan_txn. rewrite HW. cbn [bind]. apply (inv_wallet f w) in I.
    assert (HT' : own_mint (fm_set_wallet f w) depth n t) by (destruct HT; constructor; assumption).
    destruct (mint_reads L _ depth n t (length lv) (fi_asset _ _ _ _ I) HT') as ([d u] & V & RD & _). unfold freezer_scan_mint. rewrite V. cbn [bind].
    unfold note_viewed. destruct (reads_ok _ _ _ _ (fi_asset _ _ _ _ I) RD) with (d := d) (u := u) as ([a ro] & G).
    - intros v [<-|[]]. destruct (om_owner _ _ _ _ HT') as (P & HP & _). exists P. exact HP.
    - exact HK.
    - left; reflexivity.
    - rewrite G. eexists. reflexivity.
  Qed.
  Lemma scan_freeze_total g depth f lv ws se sh fz n memos : fruns g depth f lv ws se sh fz -> apart f lv se fz -> natives ws -> ordinary (fm_wallet f) lv ws sh ->
    NoDup (fn_nullifiers n) -> length (fn_nullifiers n) = length (fn_commitments n) -> length (fn_commitments n) = Datatypes.S (length memos) ->
    Z.of_nat (length lv + length (fn_commitments n)) <= 2 ^ 64 -> exists f', freezer_scan_txn f (TxFreeze n) memos (length lv) = Ok f'.
  Proof.
    intros R AP HN O ND EL Hl Hb. pose proof (fruns_inv L _ _ _ _ _ _ _ _ R AP) as I. destruct (wallet_scans _ _ _ _ _ _ _ _ (TxFreeze n) memos (length lv) R HN O Hl) as (w & found & HW).
    unfold freezer_scan_txn. rewrite HW. cbn [bind]. apply (inv_wallet f w) in I. unfold freezer_scan_freeze.
    destruct (fn_nullifiers n) as [|x l] eqn:EN; [cbn [length] in EL; rewrite Hl in EL; discriminate EL|]. cbn [skipn]. inversion ND as [|? ? N1 N2]; subst. cbn [length] in EL.
    destruct (confirm_all_spec L l (fm_set_wallet f w) (length lv + 1) (books_later _ _ (length lv + 1)%nat (fi_books _ _ _ _ I) ltac:(lia)) N2) as (f0 & H0 & _); [|eauto].
    unfold RecordCommitment in *. lia.
  Qed.

  (** *** A call and the scan of its note *)
  Theorem call_effect g depth f lv ws se sh fz r user fee leaves freeze f' n memos sg records :
    fruns g depth f lv ws se sh fz -> apart f lv se fz -> natives ws -> ordinary (fm_wallet f) lv ws sh ->
    amap_get user (call_book f freeze) = Some records -> (forall x, In x se -> ~ In (fnull f x) (padding r freeze)) ->
    freeze_user_internal g depth f r user fee leaves freeze = (f', Ok (n, memos, sg)) ->
    Z.of_nat (length lv + length (fn_commitments n)) <= 2 ^ 64 ->
    as_expected f' n se /\
    (forall i x, nth_error records i = Some x -> nth_error (fn_nullifiers n) (2 + i) = Some (fnull f x) /\
       nth_error (fn_commitments n) (2 + i) = Some (derive_record_commitment (turned r i x))) /\
    exists f2, freezer_scan_txn f' (TxFreeze n) memos (length lv) = Ok f2 /\
      (forall a y, listed (call_book f2 freeze) a y <-> listed (call_book f freeze) a y /\ a <> user) /\
      (forall a y, listed (other_book f2 freeze) a y <-> listed (other_book f freeze) a y \/
         (a = user /\ exists i x, nth_error records i = Some x /\ y = (turned r i x, w64 (Z.of_nat (length lv + 2 + i))))).
  Proof.
    intros R AP HN O HB HP Q Hb. pose proof (fruns_inv L _ _ _ _ _ _ _ _ R AP) as I. pose proof (call_note _ _ _ _ _ _ _ _ _ _ _ _ _ Q HB) as NO.
    pose proof (call_expects _ _ _ _ _ _ _ _ _ _ _ _ _ _ _ _ I AP Q HB) as HW.
    pose proof (fru_call _ _ _ _ _ _ _ _ r user fee leaves freeze R) as R'. rewrite Q in R'. cbn [fst] in R'.
    pose proof (call_rest g depth f r user fee leaves freeze) as CR. rewrite Q in CR. cbn [fst] in CR. destruct CR as (C1 & C2 & C3 & C4 & C5 & C6).
    assert (FN : forall x, fnull f' x = fnull f x) by (intros x; unfold fnull; rewrite C2; reflexivity).
    assert (AP' : apart f' lv se fz) by (refine (apart_before f' f _ _ _ _ _ _ (eq_sym C2) _ _ _ AP); auto).
    pose proof (fruns_inv L _ _ _ _ _ _ _ _ R' AP') as I'.
    assert (HB' : amap_get user (call_book f' freeze) = Some records) by (destruct freeze; cbn [call_book] in *; rewrite ?C4, ?C5; exact HB).
    assert (NO' : note_of f' r freeze records n memos).
    { destruct NO as [(x & N1) N2 N3 N4]. constructor; auto. exists x. rewrite N1. do 2 f_equal. f_equal. apply map_ext. intros y. symmetry. apply FN. }
    assert (HP' : forall x, In x se -> ~ In (fnull f' x) (padding r freeze)) by (intros x Hx; rewrite FN; apply HP, Hx).
    assert (HW' : forall i x, nth_error records i = Some x -> map_get (fnull f' x) (call_pending f' freeze) = Some (address (pub_key (fst x)), x, turned r i x)) by (intros i x Hx; rewrite FN; apply HW, Hx).
    split; [exact (waits_expected _ _ _ _ _ _ _ _ _ _ I' AP' HB' NO' HP' HW')|].
    destruct (no_nullifiers _ _ _ _ _ _ NO) as (x0 & EN). destruct (no_commitments _ _ _ _ _ _ NO) as (c0 & EC).
    split.
    { intros i x Hx. split.
      - rewrite EN. cbn [Nat.add nth_error]. rewrite nth_error_app1; [rewrite nth_error_map, Hx; reflexivity|]. rewrite map_length. apply nth_error_Some. congruence.
      - rewrite EC. exact (map_nth_error _ _ _ (outputs_nth r freeze records i x Hx)). }
    assert (O' : ordinary (fm_wallet f') lv ws sh) by (refine (ordinary_before _ _ _ _ _ _ _ _ (eq_sym C6) _ _ _ O); auto).
    assert (LM : length memos = (length records + 2)%nat) by (destruct (payment_memos_nth _ _ _ _ (no_memos _ _ _ _ _ _ NO)) as [-> _]; apply outputs_length).
    assert (LC : length (fn_commitments n) = (length records + 3)%nat) by (rewrite EC; cbn [length]; rewrite map_length, outputs_length; unfold Owned in *; lia).
    destruct (scan_freeze_total _ _ _ _ _ _ _ _ n memos R' AP' HN O' (no_distinct _ _ _ _ _ _ NO)) as (f2 & HS).
    { rewrite LC, EN. cbn [length]. rewrite app_length, map_length. cbn [length]. unfold Owned in *. lia. }
    { rewrite LC, LM. unfold Owned in *. lia. }
    { exact Hb. }
    exists f2. split; [exact HS|]. unfold freezer_scan_txn in HS. apply bind_ok in HS. destruct HS as ([w found] & HWS & HS).
    pose proof (inv_wallet f' w _ _ _ I') as IW. assert (APW : apart (fm_set_wallet f' w) lv se fz) by exact AP'.
    assert (NOW : note_of (fm_set_wallet f' w) r freeze records n memos) by (destruct NO'; constructor; assumption).
    assert (HBW : amap_get user (call_book (fm_set_wallet f' w) freeze) = Some records) by (destruct freeze; exact HB').
    destruct (scan_books (fm_set_wallet f' w) f2 r r freeze user records n memos lv se fz IW APW HBW NOW HP') as [B1 B2].
    { intros i x Hx. specialize (HW' i x Hx). destruct freeze; exact HW'. }
    { exact Hb. }
    { exact HS. }
    split; intros a y; [rewrite B1|rewrite B2]; destruct freeze; cbn [call_book other_book fm_set_wallet fm_freezable fm_releasable] in *; rewrite ?C4, ?C5; tauto.
  Qed.

  (** *** The wallets of the owners *)
  Lemma owner_null f lv se fz w x : freezer_inv f lv se fz -> In x se -> freezer_pub_key (fm_kp f) <> pt_id -> pub_key (fst x) = user_pub_key (w_kp w) -> w_nullify w x = fnull f x.
  Proof.
    intros I Hx HF HK. unfold w_nullify, fnull. rewrite (proj1 (fi_leaf _ _ _ _ I x Hx)), (fas_freezer _ (fi_asset _ _ _ _ I)), HK.
    exact (owner_freezer_same_nullifier L (w_kp w) (fm_kp f) (snd x) (derive_record_commitment (fst x)) HF).
  Qed.
  (** after a freeze note the owner does not hold the records that it froze *)
  Theorem owner_loses g depth f lv ws se sh fz r user fee leaves freeze f' n memos sg records x w wse wsh w2 found wse' :
    fruns g depth f lv ws se sh fz -> apart f lv se fz -> freezer_pub_key (fm_kp f) <> pt_id ->
    freeze_user_internal g depth f r user fee leaves freeze = (f', Ok (n, memos, sg)) -> amap_get user (call_book f freeze) = Some records -> In x records ->
    pub_key (fst x) = user_pub_key (w_kp w) -> runs w lv wse wsh -> scan_txn w (TxFreeze n) memos (length lv) = Ok (w2, found) ->
    (forall y, In y wse' <-> In y wse \/ paid w (TxFreeze n) memos (length lv) y) ->
    ordinary w2 (lv ++ fn_commitments n) wse' (wsh ++ shown_by (TxFreeze n) (length lv)) -> ~ holds w2 x.
  Proof.
    intros R AP HF Q HB Hx HK RW HS Hse (O1 & O2 & O3) Hh. pose proof (fruns_inv L _ _ _ _ _ _ _ _ R AP) as I. pose proof (call_note _ _ _ _ _ _ _ _ _ _ _ _ _ Q HB) as NO.
    pose proof (run_scan w lv wse wsh _ _ _ _ _ RW HS Hse) as RW'. pose proof (runs_inv L KL _ _ _ _ RW' O1 O2 O3) as RI.
    apply (ri_exact _ _ _ _ RI) in Hh. destruct Hh as [_ Hh]. apply (Hh (length lv + length (fn_commitments n))%nat). apply in_or_app. right. apply in_map_iff.
    exists (w_nullify w2 x). split; [reflexivity|]. pose proof (scan_txn_kp _ _ _ _ _ _ HS) as [KK _].
    rewrite (owner_null f lv se fz w2 x I (proj1 (call_records L f lv se fz freeze user records I HB x Hx)) HF) by (rewrite KK; exact HK).
    cbn [tx_nullifiers]. destruct (no_nullifiers _ _ _ _ _ _ NO) as (x0 & ->). right; right. apply in_or_app. left. apply in_map_iff. exists x. auto.
  Qed.
  (** after the note that releases it the owner holds the record again *)
  Theorem owner_regains g depth f lv ws se sh fz r user fee leaves f' n memos sg records i x w wse wsh w2 found wse' :
    fruns g depth f lv ws se sh fz -> apart f lv se fz ->
    freeze_user_internal g depth f r user fee leaves false = (f', Ok (n, memos, sg)) -> amap_get user (fm_releasable f) = Some records -> nth_error records i = Some x ->
    pub_key (fst x) = user_pub_key (w_kp w) -> runs w lv wse wsh -> scan_txn w (TxFreeze n) memos (length lv) = Ok (w2, found) ->
    (forall y, In y wse' <-> In y wse \/ paid w (TxFreeze n) memos (length lv) y) ->
    ordinary w2 (lv ++ fn_commitments n) wse' (wsh ++ shown_by (TxFreeze n) (length lv)) ->
    let y := (turned r i x, w64 (Z.of_nat (length lv + 2 + i))) in
    ~ In (w_nullify w y) (fn_nullifiers n) -> holds w2 y.
  Proof.
    intros R AP Q HB Hx HK RW HS Hse HO y Hn. pose proof (fruns_inv L _ _ _ _ _ _ _ _ R AP) as I. pose proof (call_note _ _ _ _ _ _ _ false _ _ _ _ records Q HB) as NO.
    destruct (no_commitments _ _ _ _ _ _ NO) as (c0 & EC). pose proof (outputs_nth r false records i x Hx) as HOn.
    destruct (payment_memos_nth _ _ _ _ (no_memos _ _ _ _ _ _ NO)) as [_ NM]. destruct (NM _ _ HOn) as (m & M1 & M2).
    refine (receiver_holds L KL w lv wse wsh (TxFreeze n) memos w2 found wse' y RW HS Hse HO _ _).
    - left. exists (Datatypes.S i), (derive_record_commitment (turned r i x)), m. split.
      + cbn [tx_output_commitments]. rewrite EC. exact (map_nth_error _ _ _ HOn).
      + split; [exact M1|]. split; [|split].
        * destruct (receiver_memo_spec L K KL) as [RS _]. refine (RS _ _ _ _ _ M2 _). exact HK.
        * unfold y, turned. cbn [fst freeze_flip_ro freeze_flag]. rewrite (proj1 (proj2 (call_records L f lv se fz false user records I HB x (nth_error_In _ _ Hx)))). reflexivity.
        * unfold y. cbn [snd]. replace (length lv + 2 + i)%nat with (length lv + 1 + Datatypes.S i)%nat by lia. reflexivity.
    - pose proof (scan_txn_kp _ _ _ _ _ _ HS) as KK. intros G. apply Hn. rewrite (same_keys_nullify _ _ _ KK) in G. exact G.
  Qed.

  (** *** What goes wrong *)
  (** a record that its owner has spent stays in the books, and every later call for that owner makes a note that the validator rejects *)
  Theorem stale_rejected v g depth f l ws se sh fz r fee freeze f' n memos sg x (ts : u64) :
    freezer_in_step g depth f l ws se sh fz -> apart f (lg_leaves l) se fz ->
    In x se -> freeze_flag (fst x) = call_flag freeze -> intact f fz x -> In (fnull f x) (lg_nullifiers l) ->
    listed (call_book f freeze) (address (pub_key (fst x))) x /\
    (freeze_user_internal g depth f r (address (pub_key (fst x))) fee (lg_leaves l) freeze = (f', Ok (n, memos, sg)) -> validate_txns_batch v l [TxFreeze n] ts <> Ok tt).
  Proof.
    intros (R & HN & Hnat) AP Hx Hf Hi Hs. pose proof (fruns_inv L _ _ _ _ _ _ _ _ R AP) as I.
    assert (LS : listed (call_book f freeze) (address (pub_key (fst x))) x).
    { destruct freeze; [apply (fi_free _ _ _ _ I)|apply (fi_rel _ _ _ _ I)]; auto. }
    split; [exact LS|]. destruct LS as (records & HB & Hr). intros Q. pose proof (call_note _ _ _ _ _ _ _ _ _ _ _ _ _ Q HB) as NO.
    apply (spent_rejected v l (TxFreeze n) (fnull f x)); [|exact Hs]. cbn [tx_nullifiers]. destruct (no_nullifiers _ _ _ _ _ _ NO) as (x0 & ->). right; right. apply in_or_app. left. apply in_map_iff. exists x. auto.
  Qed.
  (** a second call before the first note is scanned: the freezer then waits for the openings of the second note, so when the first is confirmed
      it records openings that are not those of the records in the tree *)
  Theorem second_call_confuses g depth f lv ws se sh fz r fee r' fee' user leaves leaves' freeze f1 n memos sg f2 n' memos' sg' records f3 :
    fruns g depth f lv ws se sh fz -> apart f lv se fz -> amap_get user (call_book f freeze) = Some records ->
    (forall x, In x se -> ~ In (fnull f x) (padding r freeze)) ->
    freeze_user_internal g depth f r user fee leaves freeze = (f1, Ok (n, memos, sg)) ->
    freeze_user_internal g depth f1 r' user fee' leaves' freeze = (f2, Ok (n', memos', sg')) ->
    Z.of_nat (length lv + length (fn_commitments n)) <= 2 ^ 64 ->
    freezer_scan_txn f2 (TxFreeze n) memos (length lv) = Ok f3 ->
    forall i x, nth_error records i = Some x ->
      nth_error (fn_commitments n) (2 + i) = Some (derive_record_commitment (turned r i x)) /\
      listed (other_book f3 freeze) user (turned r' i x, w64 (Z.of_nat (length lv + 2 + i))).
  Proof.
    intros R AP HB HP Q Q' Hb HS i x Hx. pose proof (call_note _ _ _ _ _ _ _ _ _ _ _ _ _ Q HB) as NO.
    pose proof (fru_call _ _ _ _ _ _ _ _ r user fee leaves freeze R) as R1. rewrite Q in R1. cbn [fst] in R1.
    pose proof (call_rest g depth f r user fee leaves freeze) as CR. rewrite Q in CR. cbn [fst] in CR. destruct CR as (C1 & C2 & C3 & C4 & C5 & C6).
    assert (AP1 : apart f1 lv se fz) by (refine (apart_before f1 f _ _ _ _ _ _ (eq_sym C2) _ _ _ AP); auto).
    pose proof (fruns_inv L _ _ _ _ _ _ _ _ R1 AP1) as I1.
    assert (HB1 : amap_get user (call_book f1 freeze) = Some records) by (destruct freeze; cbn [call_book] in *; rewrite ?C4, ?C5; exact HB).
    pose proof (fru_call _ _ _ _ _ _ _ _ r' user fee' leaves' freeze R1) as R2. rewrite Q' in R2. cbn [fst] in R2.
    pose proof (call_rest g depth f1 r' user fee' leaves' freeze) as CR. rewrite Q' in CR. cbn [fst] in CR. destruct CR as (D1 & D2 & D3 & D4 & D5 & D6).
    assert (AP2 : apart f2 lv se fz) by (refine (apart_before f2 f1 _ _ _ _ _ _ (eq_sym D2) _ _ _ AP1); auto).
    pose proof (fruns_inv L _ _ _ _ _ _ _ _ R2 AP2) as I2.
    assert (HB2 : amap_get user (call_book f2 freeze) = Some records) by (destruct freeze; cbn [call_book] in *; rewrite ?D4, ?D5; exact HB1).
    pose proof (call_expects _ _ _ _ _ _ _ _ _ _ _ _ _ _ _ _ I1 AP1 Q' HB1) as HW.
    assert (FN : forall x, fnull f2 x = fnull f x) by (intros y; unfold fnull; rewrite D2, C2; reflexivity).
    assert (FN1 : forall x, fnull f1 x = fnull f2 x) by (intros y; unfold fnull; rewrite D2; reflexivity).
    split.
    { destruct (no_commitments _ _ _ _ _ _ NO) as (c0 & ->). exact (map_nth_error _ _ _ (outputs_nth r freeze records i x Hx)). }
    unfold freezer_scan_txn in HS. apply bind_ok in HS. destruct HS as ([w found] & HWS & HS).
    pose proof (inv_wallet f2 w _ _ _ I2) as IW.
    assert (NOW : note_of (fm_set_wallet f2 w) r freeze records n memos).
    { destruct NO as [(y & N1) N2 N3 N4]. constructor; auto. exists y. rewrite N1. do 2 f_equal. f_equal. apply map_ext. intros z. symmetry. exact (FN z). }
    assert (HBW : amap_get user (call_book (fm_set_wallet f2 w) freeze) = Some records) by (destruct freeze; exact HB2).
    destruct (scan_books (fm_set_wallet f2 w) f3 r r' freeze user records n memos lv se fz IW AP2 HBW NOW) as [_ B2].
    { intros y Hy. change (fnull (fm_set_wallet f2 w) y) with (fnull f2 y). rewrite FN. apply HP, Hy. }
    { intros j y Hy. specialize (HW j y Hy). rewrite FN1 in HW. destruct freeze; exact HW. }
    { exact Hb. }
    { exact HS. }
    apply B2. right. split; [reflexivity|]. exists i, x. auto.
  Qed.
  (** a mint of another asset with the same viewer key is noted as a record of the freezer's asset, or stops the freezer *)
  Theorem foreign_mint_noted f depth n t P off : mint_opens depth n t -> viewer_pub_key (vw_kp (fm_viewer f)) = viewer_pk (policy (mn_def n)) ->
    viewer_pk (policy (mn_def n)) <> pt_id -> ro_owner (mv_mint t) = pt_xy P -> P <> pt_id ->
    (forall k, amap_get P (fm_users f) = Some k -> (forall i, In i [0; 2; 3]%nat -> rm_bit (reveal_map (policy (mn_def n))) i = true) ->
       exists x f', freezer_scan_mint f n off = Ok f' /\ listed (fm_freezable f') P x /\ asset_def (fst x) = fm_def f /\ pub_key (fst x) = k /\
         amount (fst x) = mn_amount n /\ snd x = w64 (Z.of_nat (off + 1))) /\
    (amap_get P (fm_users f) = None \/ (exists i, In i [0; 2; 3]%nat /\ rm_bit (reveal_map (policy (mn_def n))) i = false) -> freezer_scan_mint f n off = Panic).
  Proof.
    intros HO HV HV' HP HP'. destruct (scan_mint_shows L depth n t (fm_viewer f) P off HO) as (r & G1 & G2 & G3 & G4 & G5 & G6 & G7); auto.
    unfold freezer_scan_mint. rewrite G1. cbn [bind]. unfold note_viewed, viewed_opening, entry. cbn [vd_user_address vd_amount vd_blind]. split.
    - intros k HK HB. rewrite !HB by (cbn [In]; tauto). cbn [if_revealed expect bind andb]. rewrite G6, HK. cbn [expect bind].
      eexists. eexists. split; [reflexivity|]. cbn [fm_set_freezable fm_freezable]. split; [apply (listed_insert L); right; split; reflexivity|]. cbn [fst snd asset_def pub_key amount]. auto.
    - intros HB. rewrite G6.
      destruct (rm_bit _ 0) eqn:B0; cbn [if_revealed expect bind]; [|reflexivity]. destruct (rm_bit _ 2) eqn:B2; cbn [if_revealed expect bind]; [|reflexivity].
      destruct (amap_get P (fm_users f)); cbn [expect bind]; [|reflexivity]. destruct (rm_bit _ 3) eqn:B3; cbn [if_revealed expect bind]; [|reflexivity].
      exfalso. destruct HB as [HB|(i & Hi & HB)]; [discriminate|]. destruct Hi as [<-|[<-|[<-|[]]]]; congruence.
  Qed.
End Effect.
