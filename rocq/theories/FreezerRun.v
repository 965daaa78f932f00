(** Histories of a freezer: its books list exactly the records of its asset that no freeze note has replaced. *)
From Coq Require Import ZifyBool ZifyNat.
From Verif Require Import Base Config Structs Keys Utils Memo Plonk Witness Circuits Relation CodecProofs PolicyProofs UtilsProofs MemoProofs GadgetProofs
  Snark Notes NoteProofs NoteGen NoteGen2 Security Accepted NoteFacts Serde Ledger Wallet WalletSpec WalletProofs Roles RolesSpec RolesView RolesViewer FreezerSpec FreezerBooks FreezerCalls.
From Coq Require Import Permutation.

Section Asset.
  Context {C : CapConfig} (L : CapLaws C) {S : Snark C} {K : @RoCodec C} {E : MemoSer C}.

  (** the asset of a freezer shows all its records to the freezer *)
  Record freezer_asset (f : Freezer) : Prop := {
    fas_viewer : viewer_pub_key (vw_kp (fm_viewer f)) = viewer_pk (policy (fm_def f));
    fas_viewed : viewer_pk (policy (fm_def f)) <> pt_id;
    fas_freezer : freezer_pk (policy (fm_def f)) = freezer_pub_key (fm_kp f);
    fas_bits : forall i, (i < 4)%nat -> rm_bit (reveal_map (policy (fm_def f))) i = true;
    fas_threshold : zv (reveal_threshold (policy (fm_def f))) = 0;
    fas_code : code (fm_def f) <> dummy_asset_code /\ code (fm_def f) <> native_asset_code
  }.
  Lemma freezer_new_asset kp vkp ukp c f : freezer_new kp vkp ukp c = Ok f -> freezer_asset f.
  Proof.
    unfold freezer_new. intros H. apply bind_ok in H. destruct H as (p & Hp & H). apply unwrap_ok in Hp.
    apply bind_ok in H. destruct H as (d & Hd & H). apply unwrap_ok in Hd. injection H as <-.
    unfold asset_def_new in Hd. destruct (zeqb c native_asset_code || zeqb c dummy_asset_code) eqn:Hc; [discriminate|]. injection Hd as <-.
    apply orb_false_iff in Hc. destruct Hc as [C1 C2].
    unfold reveal_record_opening in Hp. apply bind_ok in Hp. destruct Hp as (p1 & H1 & Hp). apply bind_ok in Hp. destruct Hp as (p2 & H2 & Hp).
    apply bind_ok in Hp. destruct Hp as (p3 & H3 & Hp). injection Hp as <-.
    unfold reveal_user_address in H1. destruct (is_viewer_pub_key_set _) eqn:HV; cbn [negb] in H1; [|discriminate]. injection H1 as <-.
    apply (viewer_set_iff L) in HV.
    unfold reveal_amount in H2. match type of H2 with (if ?b then _ else _) = _ => destruct b end; [discriminate|]. injection H2 as <-.
    unfold reveal_blinding_factor in H3. match type of H3 with (if ?b then _ else _) = _ => destruct b end; [discriminate|]. injection H3 as <-.
    constructor; unfold fm_def; cbn [fm_viewer vw_kp vw_def policy code fm_kp]; cbn in HV |- *.
    - reflexivity.
    - exact HV.
    - reflexivity.
    - intros [|[|[|[|i]]]] Hi; try reflexivity. lia.
    - reflexivity.
    - split; intros G; [apply zeqb_spec in G; congruence|]. apply zeqb_spec in G. congruence.
  Qed.
  Lemma asset_not_dummy f : freezer_asset f -> fm_def f <> asset_def_dummy.
  Proof. intros A H. apply (proj1 (fas_code _ A)). rewrite H. reflexivity. Qed.
  Lemma same_asset f f' : fm_viewer f' = fm_viewer f -> fm_kp f' = fm_kp f -> freezer_asset f -> freezer_asset f'.
  Proof. intros H1 H2 [A1 A2 A3 A4 A5 A6]. constructor; unfold fm_def in *; rewrite ?H1, ?H2; auto. Qed.

  (** *** Reading outputs *)
  Lemma viewed_of_entry f o attrs : freezer_asset f ->
    viewed_opening f (entry (fm_def f) o attrs) =
      let* k := expect (amap_get (address (pub_key o)) (fm_users f)) in Ok (address (pub_key o), mkRO (amount o) (fm_def f) k Unfrozen (blind o)).
  Proof.
    intros A. unfold viewed_opening, entry. cbn [vd_user_address vd_amount vd_blind]. rewrite !(fas_bits _ A) by lia. cbn [if_revealed expect bind]. reflexivity.
  Qed.
  Definition viewed (f : Freezer) (l : list (ViewableData * u64)) (a : point) (x : Owned) : Prop :=
    exists d, In (d, snd x) l /\ viewed_opening f d = Ok (a, fst x).
  Lemma note_all_viewed_ok l : forall f, (forall d u, In (d, u) l -> exists y, viewed_opening f d = Ok y) -> exists f', note_all_viewed f l = Ok f'.
  Proof.
    induction l as [|[d u] l IH]; intros f H; cbn [note_all_viewed]; [exists f; reflexivity|].
    unfold note_viewed. destruct (H d u (or_introl eq_refl)) as ([a ro] & G). rewrite G. cbn [bind]. apply IH.
    intros d' u' Hd. destruct (H d' u' (or_intror Hd)) as (y & Hy). exists y. exact Hy.
  Qed.
  Lemma note_all_viewed_spec l : forall f f', note_all_viewed f l = Ok f' ->
    exists m, f' = fm_set_freezable f m /\ (NoDup (map fst (fm_freezable f)) -> NoDup (map fst m)) /\ (sets_ok (fm_freezable f) -> sets_ok m) /\
      (forall a x, listed m a x <-> listed (fm_freezable f) a x \/ viewed f l a x) /\
      (forall a, has_book (fm_freezable f) a -> has_book m a).
  Proof.
    induction l as [|[d u] l IH]; intros f f' H; cbn [note_all_viewed] in H.
    - injection H as <-. exists (fm_freezable f). split; [destruct f; reflexivity|]. split; [auto|]. split; [auto|]. split; [|auto].
      intros a x. split; [auto|intros [H|(d & [] & _)]; exact H].
    - apply bind_ok in H. destruct H as (f1 & H1 & H). unfold note_viewed in H1. apply bind_ok in H1. destruct H1 as ([a0 ro] & Hv & H1). injection H1 as <-.
      destruct (IH _ _ H) as (m & -> & N & NS & Hl & Hb). exists m. split; [reflexivity|]. split; [|split; [|split]].
      + intros N0. apply N. cbn [fm_set_freezable fm_freezable]. unfold book_insert. apply (amap_put_nodup L), N0.
      + intros N0. apply NS. cbn [fm_set_freezable fm_freezable]. apply (sets_insert L), N0.
      + intros a x. rewrite Hl. cbn [fm_set_freezable fm_freezable]. rewrite (listed_insert L). unfold viewed. split.
        * intros [[G|[-> ->]]|(d' & G1 & G2)]; [auto|right; exists d; split; [left; reflexivity|exact Hv]|right; exists d'; split; [right; exact G1|exact G2]].
        * intros [G|(d' & [G|G1] & G2)]; [auto| |right; exists d'; auto]. injection G as <- ->.
          rewrite Hv in G2. injection G2 as -> ->. left. right. destruct x; auto.
      + intros a G. apply Hb. cbn [fm_set_freezable fm_freezable]. unfold book_insert. apply (has_put L). auto.
  Qed.

  Lemma ro_value_data (r r' : RecordOpening) : ro_value r = ro_value r' -> amount r = amount r' /\ blind r = blind r' /\ freeze_flag r = freeze_flag r' /\ address (pub_key r) = address (pub_key r').
  Proof.
    intros H. pose proof (f_equal ro_amount H) as H1. pose proof (f_equal ro_blind H) as H2. pose proof (f_equal ro_flag H) as H3. pose proof (f_equal ro_owner H) as H4.
    cbn [ro_value ro_amount ro_blind ro_flag ro_owner] in *. split; [apply f_of_u128_inj, H1|]. split; [exact H2|].
    split; [|apply (pt_xy_inj L), H4]. apply fbool_inj in H3. destruct (freeze_flag r), (freeze_flag r'); auto; discriminate.
  Qed.
  Definition users_ok (f : Freezer) : Prop := NoDup (map fst (fm_users f)) /\ forall a k, amap_get a (fm_users f) = Some k -> address k = a.

  (** the outputs of a transfer or a mint as the freezer reads them *)
  Record reads (f : Freezer) (vals : list RoV) (off : nat) (outs : list (ViewableData * u64)) : Prop := {
    rd_len : length outs = length vals;
    rd_nth : forall i v, nth_error vals i = Some v -> exists r attrs, ro_value r = v /\ asset_def r = fm_def f /\ freeze_flag r = Unfrozen /\
      nth_error outs i = Some (entry (fm_def f) r attrs, w64 (Z.of_nat (off + 1 + i)))
  }.
  Lemma reads_made f vals off outs : freezer_asset f -> users_ok f -> reads f vals off outs ->
    forall a x, viewed f outs a x <-> made f vals off x /\ a = address (pub_key (fst x)).
  Proof.
    intros A [U1 U2] [R1 R2] a x. unfold viewed, made. split.
    - intros (d & Hd & Hv). apply In_nth_error in Hd. destruct Hd as (i & Hi).
      assert (Hl : (i < length vals)%nat) by (rewrite <- R1; apply nth_error_Some; congruence).
      destruct (nth_error vals i) as [v|] eqn:Ev; [|apply nth_error_None in Ev; lia].
      destruct (R2 i v Ev) as (r & attrs & E1 & E2 & E3 & E4). rewrite Hi in E4. injection E4 as -> E5.
      rewrite (viewed_of_entry f r attrs A) in Hv. apply bind_ok in Hv. destruct Hv as (k & Hk & Hv).
      destruct (amap_get (address (pub_key r)) (fm_users f)) as [k'|] eqn:Gk; [|discriminate]. cbn [expect] in Hk. injection Hk as ->.
      injection Hv as <- <-. pose proof (U2 _ _ Gk) as Ak. cbn [pub_key]. rewrite Ak. split; [|reflexivity]. exists i. split.
      + rewrite Ev. f_equal. rewrite <- E1. unfold ro_value. cbn [amount asset_def pub_key freeze_flag blind]. rewrite E2, E3, Ak. reflexivity.
      + split; [reflexivity|]. cbn [fst]. split; [exact Gk|exact E5].
    - intros [(i & Ev & Ed & Ek & Eu) ->]. destruct (R2 i _ Ev) as (r & attrs & E1 & E2 & E3 & E4).
      exists (entry (fm_def f) r attrs). split; [rewrite Eu; apply (nth_error_In _ i), E4|].
      destruct (ro_value_data _ _ E1) as (D1 & D2 & D3 & D4). rewrite (viewed_of_entry f r attrs A), D4, Ek. cbn [expect bind].
      rewrite D1, D2, <- Ed. rewrite E3 in D3. destruct x as [[xa xd xk xf xb] xu]. cbn [fst amount asset_def pub_key freeze_flag blind] in *. rewrite <- D3. reflexivity.
  Qed.
  Lemma reads_ok f vals off outs : freezer_asset f -> reads f vals off outs -> (forall v, In v vals -> exists P, ro_owner v = pt_xy P) -> knows_owners f vals ->
    forall d u, In (d, u) outs -> exists y, viewed_opening f d = Ok y.
  Proof.
    intros A [R1 R2] HP HK d u Hd. apply In_nth_error in Hd. destruct Hd as (i & Hi).
    assert (Hl : (i < length vals)%nat) by (rewrite <- R1; apply nth_error_Some; congruence).
    destruct (nth_error vals i) as [v|] eqn:Ev; [|apply nth_error_None in Ev; lia].
    destruct (R2 i v Ev) as (r & attrs & E1 & E2 & E3 & E4). rewrite Hi in E4. injection E4 as -> E5.
    rewrite (viewed_of_entry f r attrs A). destruct (HK v (address (pub_key r)) (nth_error_In _ _ Ev)) as (k & Hk); [rewrite <- E1; reflexivity|].
    rewrite Hk. eexists. reflexivity.
  Qed.
  Lemma transfer_reads f depth n t off : freezer_asset f -> own_transfer f depth n t ->
    exists ins outs, viewer_scan_xfr (fm_viewer f) n off = Ok (ins, outs) /\ reads f (tl (tv_outs t)) off outs /\
      length (tl (tv_outs t)) = length (tl (tn_commitments n)) /\
      (forall i v, nth_error (tl (tv_outs t)) i = Some v -> exists r, ro_value r = v /\ nth_error (tn_commitments n) (Datatypes.S i) = Some (derive_record_commitment r)).
  Proof.
    intros A [O1 O2 O3 O4 O5 O6 O7].
    destruct (scan_shows L depth n t (fm_viewer f) off O1 O2 O3 (fas_viewer _ A) (fas_viewed _ A)) as (ins & xs & outs & H1 & H2 & H3 & H4 & _); auto.
    - change (vw_def (fm_viewer f)) with (fm_def f). rewrite !(fas_bits _ A) by lia. reflexivity.
    - change (vw_def (fm_viewer f)) with (fm_def f). rewrite (fas_threshold _ A). exact O5.
    - exists ins, outs. split; [exact H1|]. split; [constructor|split].
      + exact H2.
      + intros i v Hv. destruct (H4 i v Hv) as (r & Er & G1 & G2 & G3 & G4). exists r, hidden_attrs. auto.
      + rewrite <- H2. exact H3.
      + intros i v Hv. destruct (H4 i v Hv) as (r & Er & G1 & G2 & _). exists r. auto.
  Qed.
  Lemma mint_reads f depth n t off : freezer_asset f -> own_mint f depth n t ->
    exists e, viewer_scan_mint (fm_viewer f) n off = Ok e /\ reads f [mv_mint t] off [e] /\
      exists r, ro_value r = mv_mint t /\ derive_record_commitment r = mn_mint n.
  Proof.
    intros A [O1 O2 (P & O3 & O4)].
    destruct (scan_mint_shows L depth n t (fm_viewer f) P off O1) as (r & G1 & G2 & G3 & G4 & G5 & G6 & G7); auto.
    - rewrite O2. exact (fas_viewer _ A).
    - rewrite O2. exact (fas_viewed _ A).
    - eexists. split; [exact G1|]. rewrite O2 in *. split; [constructor|exists r; auto].
      + reflexivity.
      + intros [|i] v Hv; [|destruct i; discriminate]. injection Hv as <-. exists r, []. rewrite Nat.add_0_r. auto.
  Qed.
End Asset.

(** ** The invariant *)
Section Invariant.
  Context {C : CapConfig} (L : CapLaws C) {S : Snark C} {K : @RoCodec C} {E : MemoSer C}.

  Record freezer_inv (f : Freezer) (lv : list F) (se : list Owned) (fz : list (Nullifier * nat)) : Prop := {
    fi_asset : freezer_asset f;
    fi_books : books_ok f (length lv);
    fi_users : users_ok f;
    fi_free : forall a x, listed (fm_freezable f) a x <-> In x se /\ freeze_flag (fst x) = Unfrozen /\ a = address (pub_key (fst x)) /\ intact f fz x;
    fi_rel : forall a x, listed (fm_releasable f) a x <-> In x se /\ freeze_flag (fst x) = Frozen /\ a = address (pub_key (fst x)) /\ intact f fz x;
    fi_freezing : forall nl a old new, map_get nl (fm_freezing f) = Some (a, old, new) ->
      In old se /\ nl = fnull f old /\ a = address (pub_key (fst old)) /\ freeze_flag (fst old) = Unfrozen /\ exists bl, new = freeze_flip_ro bl (fst old);
    fi_releasing : forall nl a old new, map_get nl (fm_releasing f) = Some (a, old, new) ->
      In old se /\ nl = fnull f old /\ a = address (pub_key (fst old)) /\ freeze_flag (fst old) = Frozen /\ exists bl, new = freeze_flip_ro bl (fst old);
    fi_leaf : forall x, In x se -> asset_def (fst x) = fm_def f /\ zv (snd x) < Z.of_nat (length lv) /\
      nth_error lv (Z.to_nat (zv (snd x))) = Some (derive_record_commitment (fst x));
    fi_has : forall x, In x se -> has_book (fm_freezable f) (address (pub_key (fst x))) /\
      (freeze_flag (fst x) = Frozen -> has_book (fm_releasable f) (address (pub_key (fst x))));
    fi_past : forall nl k, In (nl, k) fz -> (k <= length lv)%nat
  }.

  Lemma apart_before f f' lv lv' se se' fz fz' : fm_kp f' = fm_kp f -> (length lv <= length lv')%nat -> (forall x, In x se -> In x se') -> (forall y, In y fz -> In y fz') ->
    apart f' lv' se' fz' -> apart f lv se fz.
  Proof.
    intros Hk Hl Hs Hf (A1 & A2 & A3). unfold apart, fnull in *. rewrite Hk in *. split; [lia|]. split; [intros x y Hx Hy; apply A2; auto|].
    intros x k Hx Hin. apply A3; auto.
  Qed.
  Lemma in_past (lv : list F) (fz : list (Nullifier * nat)) nl k l : (forall nl k, In (nl, k) fz -> (k <= length lv)%nat) -> In (nl, k) fz -> (k <= length (lv ++ l))%nat.
  Proof. intros H G. rewrite app_length. specialize (H _ _ G). lia. Qed.
  Lemma leaf_app (lv l : list F) i c : nth_error lv i = Some c -> nth_error (lv ++ l) i = Some c.
  Proof. intros H. rewrite nth_error_app1; [exact H|]. apply nth_error_Some. congruence. Qed.
  Lemma inv_leaves f lv l se fz : freezer_inv f lv se fz -> freezer_inv f (lv ++ l) se fz.
  Proof.
    intros [I1 I2 I3 I4 I5 I6 I7 I8 I9 I10]. constructor; auto.
    - apply (books_later f _ _ I2). rewrite app_length. lia.
    - intros x Hx. destruct (I8 x Hx) as (H1 & H2 & H3). split; [exact H1|]. split; [rewrite app_length; lia|]. apply leaf_app, H3.
    - intros nl k. apply in_past, I10.
  Qed.
  (** only the wallet changes *)
  Lemma inv_wallet f w lv se fz : freezer_inv f lv se fz -> freezer_inv (fm_set_wallet f w) lv se fz.
  Proof. intros [I1 [S1 S2 B1 B2 B3 B4 B5 B6] I3 I4 I5 I6 I7 I8 I9 I10]. constructor; auto; [destruct I1; constructor|constructor]; auto. Qed.

  Lemma flip_flag bl r : freeze_flag (freeze_flip_ro bl r) = flip (freeze_flag r). Proof. reflexivity. Qed.

  (** records enter the book of freezable records *)
  Lemma inv_new f f' lv l se se' fz vals off outs : freezer_inv f lv se fz -> reads f vals off outs -> note_all_viewed f outs = Ok f' ->
    off = length lv -> (length l = 1 + length vals)%nat ->
    (forall i v, nth_error vals i = Some v -> exists r, ro_value r = v /\ nth_error l (Datatypes.S i) = Some (derive_record_commitment r)) ->
    (forall x, In x se' <-> In x se \/ made f vals off x) -> apart f' (lv ++ l) se' fz -> freezer_inv f' (lv ++ l) se' fz.
  Proof.
    intros I R HN -> Hl Hc Hse AP. destruct (note_all_viewed_spec L _ _ _ HN) as (m & -> & N & NS & Hm & Hb).
    assert (HM : forall a x, listed m a x <-> listed (fm_freezable f) a x \/ (made f vals (length lv) x /\ a = address (pub_key (fst x)))).
    { intros a x. rewrite Hm, (reads_made L f vals (length lv) outs (fi_asset _ _ _ _ I) (fi_users _ _ _ _ I) R). tauto. }
    destruct AP as (AP1 & AP2 & AP3). rewrite app_length in AP1.
    assert (MK : forall x, made f vals (length lv) x -> freeze_flag (fst x) = Unfrozen /\ asset_def (fst x) = fm_def f /\
      exists i, (i < length vals)%nat /\ zv (snd x) = Z.of_nat (length lv + 1 + i) /\ nth_error (lv ++ l) (length lv + 1 + i) = Some (derive_record_commitment (fst x))).
    { intros x (i & Ev & Ed & Ek & Eu). destruct (rd_nth _ _ _ _ R i _ Ev) as (r & attrs & E1 & E2 & E3 & _). destruct (ro_value_data L _ _ E1) as (_ & _ & D3 & _).
      split; [congruence|]. split; [exact Ed|]. exists i. assert (Hi : (i < length vals)%nat) by (apply nth_error_Some; congruence). split; [exact Hi|].
      split; [rewrite Eu; apply zv_w64; lia|]. destruct (Hc i _ Ev) as (r' & E1' & E2'). rewrite nth_error_app2 by lia.
      replace (length lv + 1 + i - length lv)%nat with (Datatypes.S i) by lia. refine (eq_trans E2' _). f_equal.
      rewrite <- !commitment_of_ro_value. congruence. }
    assert (FI : forall x, made f vals (length lv) x -> intact f fz x).
    { intros x Hx k Hk. destruct (MK x Hx) as (_ & _ & i & _ & Z & _). assert (G : In x se') by (apply Hse; auto). specialize (AP3 x k G Hk).
      pose proof (fi_past _ _ _ _ I _ _ Hk). lia. }
    destruct I as [I1 [S1 S2 B1 B2 B3 B4 B5 B6] I3 I4 I5 I6 I7 I8 I9 I10].
    constructor; fcbn; auto.
    - exact (same_asset f (fm_set_freezable f m) eq_refl eq_refl I1).
    - constructor; fcbn; auto.
      + intros nl a old new G. destruct (B5 _ _ _ _ G). rewrite app_length. split; [auto|lia].
      + intros nl a old new G. destruct (B6 _ _ _ _ G) as (? & ? & ?). rewrite app_length. split; [auto|]. split; [auto|lia].
    - intros a x. rewrite HM, I4, Hse. split.
      + intros [(H1 & H2 & H3 & H4)|[H1 H2]]; [auto|]. destruct (MK x H1) as (U & _). split; [auto|]. split; [exact U|]. split; [exact H2|]. apply FI, H1.
      + intros ([H1|H1] & H2 & H3 & H4); [left; auto|right; auto].
    - intros a x. rewrite I5, Hse. split.
      + intros (H1 & H2); auto.
      + intros ([H1|H1] & H2 & H3); [auto|]. destruct (MK x H1) as (U & _). congruence.
    - intros nl a old new G. destruct (I6 _ _ _ _ G) as (H1 & H2). split; [apply Hse; auto|exact H2].
    - intros nl a old new G. destruct (I7 _ _ _ _ G) as (H1 & H2). split; [apply Hse; auto|exact H2].
    - intros x Hx. apply Hse in Hx. destruct Hx as [Hx|Hx].
      + destruct (I8 x Hx) as (H1 & H2 & H3). split; [exact H1|]. split; [rewrite app_length; lia|]. apply leaf_app, H3.
      + destruct (MK x Hx) as (_ & H1 & i & H2 & H3 & H4). split; [exact H1|]. rewrite H3, app_length. split; [lia|]. rewrite Nat2Z.id. exact H4.
    - intros x Hx. apply Hse in Hx. destruct Hx as [Hx|Hx].
      + destruct (I9 x Hx) as (H1 & H2). auto.
      + destruct (MK x Hx) as (U & _). split; [|intros G; congruence]. apply (listed_has _ _ x). apply HM. right. auto.
    - intros nl k. apply in_past, I10.
  Qed.

  Lemma inv_freeze f f' lv se se' fz n : freezer_inv f lv se fz -> as_expected f n se -> freezer_scan_freeze f n (length lv) = Ok f' ->
    (forall x, In x se' <-> In x se \/ exists y, In y se /\ replaced f n (length lv) y x) ->
    apart f' (lv ++ fn_commitments n) se' (fz ++ map (fun nl => (nl, length lv)) (tl (fn_nullifiers n))) ->
    freezer_inv f' (lv ++ fn_commitments n) se' (fz ++ map (fun nl => (nl, length lv)) (tl (fn_nullifiers n))).
  Proof.
    intros I (ND & EL & HX) HS Hse AP. unfold freezer_scan_freeze in HS.
    assert (ET : skipn 1 (fn_nullifiers n) = tl (fn_nullifiers n)) by (destruct (fn_nullifiers n); reflexivity). rewrite ET in HS.
    assert (NDt : NoDup (tl (fn_nullifiers n))) by (destruct (fn_nullifiers n); [constructor|inversion ND; assumption]).
    assert (LT : (length (tl (fn_nullifiers n)) = length (fn_commitments n) - 1)%nat) by (rewrite <- EL; destruct (fn_nullifiers n); cbn [tl length]; lia).
    destruct AP as (AP1 & AP2 & AP3). change (length (lv ++ fn_commitments n)) with (length (lv ++ (fn_commitments n : list F))) in AP1. rewrite app_length in AP1.
    assert (NTH : forall i, nth_error (tl (fn_nullifiers n)) i = nth_error (fn_nullifiers n) (Datatypes.S i)) by (intros i; destruct (fn_nullifiers n); [destruct i|]; reflexivity).
    destruct (confirm_all_spec L (tl (fn_nullifiers n)) f (length lv + 1) (books_later f _ (length lv + 1)%nat (fi_books _ _ _ _ I) ltac:(lia)) NDt) as (f0 & H0 & CF & BK).
    { unfold RecordCommitment in LT. lia. }
    rewrite HS in H0. injection H0 as <-. destruct CF as [(R1 & R2 & R3 & R4) Q2 Q3 Q4 Q5 Q6 Q7].
    assert (FN : forall x, fnull f' x = fnull f x) by (intros x; unfold fnull; rewrite R2; reflexivity).
    set (l := tl (fn_nullifiers n)) in *.
    assert (INT : forall x, intact f' (fz ++ map (fun nl => (nl, length lv)) l) x <-> intact f fz x /\ ~ In (fnull f x) l).
    { intros x. unfold intact. rewrite FN. split.
      - intros H. split; [intros k Hk; apply (H k), in_or_app; auto|]. intros Hk. apply (H (length lv)), in_or_app. right. apply in_map_iff. exists (fnull f x). auto.
      - intros [H1 H2] k Hk. apply in_app_or in Hk. destruct Hk as [Hk|Hk]; [exact (H1 k Hk)|]. apply in_map_iff in Hk. destruct Hk as (nl & G & Hn). injection G as -> _. contradiction. }
    (** a record made by the note *)
    assert (RP : forall y x, In y se -> replaced f n (length lv) y x ->
       (exists bl, fst x = freeze_flip_ro bl (fst y)) /\ (exists i, nth_error l i = Some (fnull f y) /\ (i < length l)%nat /\ snd x = w64 (Z.of_nat (length lv + 1 + i)) /\ zv (snd x) = Z.of_nat (length lv + 1 + i) /\
          nth_error (lv ++ fn_commitments n) (length lv + 1 + i) = Some (derive_record_commitment (fst x))) /\
       map_get (fnull f y) (match freeze_flag (fst y) with Unfrozen => fm_freezing f | Frozen => fm_releasing f end) = Some (address (pub_key (fst y)), y, fst x)).
    { intros y x Hy (i & Hi & HB & Hu). destruct (HX y i Hy Hi) as (new & HB' & Hc).
      assert (G : forall z, becomes f y z -> map_get (fnull f y) (match freeze_flag (fst y) with Unfrozen => fm_freezing f | Frozen => fm_releasing f end) = Some (address (pub_key (fst y)), y, z)).
      { intros z Hz. apply map_get_unique; [|exact Hz]. destruct (freeze_flag (fst y)); [exact (bo_freezing_keys _ _ (fi_books _ _ _ _ I))|exact (bo_releasing_keys _ _ (fi_books _ _ _ _ I))]. }
      pose proof (G _ HB) as G1. pose proof (G _ HB') as G2. rewrite G1 in G2. injection G2 as <-.
      assert (Hl : (i < length l)%nat) by (apply nth_error_Some; unfold l; rewrite NTH, Hi; discriminate).
      split; [|split; [|exact G1]].
      - destruct (freeze_flag (fst y)) eqn:Fy; [destruct (fi_freezing _ _ _ _ I _ _ _ _ G1) as (_ & _ & _ & _ & H)|destruct (fi_releasing _ _ _ _ I _ _ _ _ G1) as (_ & _ & _ & _ & H)]; exact H.
      - exists i. split; [unfold l; rewrite NTH; exact Hi|]. split; [exact Hl|]. split; [exact Hu|].
        assert (Hb : Z.of_nat (length lv + 1 + i) < 2 ^ 64) by (unfold RecordCommitment in *; lia).
        split; [rewrite Hu; apply zv_w64, Hb|]. rewrite nth_error_app2 by lia. replace (length lv + 1 + i - length lv)%nat with (Datatypes.S i) by lia. exact Hc. }
    assert (FR : forall y x, In y se -> replaced f n (length lv) y x -> intact f' (fz ++ map (fun nl => (nl, length lv)) l) x).
    { intros y x Hy Hr k Hk. destruct (RP y x Hy Hr) as (_ & (i & _ & _ & _ & Z & _) & _).
      assert (Hx : In x se') by (apply Hse; right; exists y; auto). specialize (AP3 x k Hx Hk).
      assert ((k <= length lv)%nat); [|lia]. apply in_app_or in Hk. destruct Hk as [Hk|Hk]; [exact (fi_past _ _ _ _ I _ _ Hk)|].
      apply in_map_iff in Hk. destruct Hk as (nl & G & _). injection G as _ <-. lia. }
    pose proof I as [I1 I2 I3 I4 I5 I6 I7 I8 I9 I10].
    constructor.
    - exact (same_asset f f' R1 R2 I1).
    - apply (books_later f' (length lv)); [|change (length (lv ++ fn_commitments n)) with (length (lv ++ (fn_commitments n : list F))); rewrite app_length; lia].
      destruct BK as [T1 T2 K1 K2 K3 K4 K5 K6]. constructor; auto.
      + intros nl a old new G. split; [exact (proj1 (K5 _ _ _ _ G))|]. rewrite Q6 in G. destruct (existsb _ _); [discriminate|]. exact (proj2 (bo_freezing _ _ I2 _ _ _ _ G)).
      + intros nl a old new G. destruct (K6 _ _ _ _ G) as (G1 & G2 & _). split; [exact G1|]. split; [exact G2|].
        rewrite Q7 in G. destruct (existsb _ _); [discriminate|]. exact (proj2 (proj2 (bo_releasing _ _ I2 _ _ _ _ G))).
    - destruct I3 as [U1 U2]. split; rewrite R4; auto.
    - intros a x. rewrite Q2, I4, Hse. split.
      + intros [[(H1 & H2 & H3 & H4) H5]|(i & nl & old & H1 & H2 & H3)].
        * split; [auto|]. split; [exact H2|]. split; [exact H3|]. apply INT. split; [exact H4|]. intros Hin. apply H5.
          apply In_nth_error in Hin. destruct Hin as (i & Hi). unfold l in Hi. rewrite NTH in Hi. destruct (HX x i H1 Hi) as (new & HB & _).
          exists (fnull f x), new. split; [apply (nth_error_In _ i); unfold l; rewrite NTH; exact Hi|]. unfold becomes in HB. rewrite H2 in HB. subst a.
          apply map_get_unique; [exact (bo_freezing_keys _ _ I2)|exact HB].
        * destruct (I7 _ _ _ _ H2) as (G1 & G2 & G3 & G4 & bl & G5).
          assert (Hr : replaced f n (length lv) old x).
          { exists i. split; [rewrite <- NTH, <- G2; exact H1|]. split; [|exact H3]. unfold becomes. rewrite G4, <- G3, <- G2. apply map_get_in, H2. }
          split; [right; exists old; auto|]. rewrite G5. cbn [freeze_flip_ro freeze_flag pub_key]. rewrite G4. split; [reflexivity|]. split; [exact G3|].
          apply (FR old x G1 Hr).
      + intros ([H1|(y & Hy & Hr)] & H2 & H3 & H4).
        * apply INT in H4. destruct H4 as [H4 H5]. left. split; [auto|]. intros (nl & new & Hn & G). destruct (I6 _ _ _ _ G) as (_ & -> & _). contradiction.
        * right. destruct (RP y x Hy Hr) as ((bl & Ef) & (i & Hi & _ & Hu & _) & G). exists i, (fnull f y), y. split; [exact Hi|].
          rewrite Ef, flip_flag in H2. destruct (freeze_flag (fst y)) eqn:Fy; [discriminate|]. split; [|exact Hu]. rewrite H3, Ef. cbn [freeze_flip_ro pub_key]. rewrite <- Ef. exact G.
    - intros a x. rewrite Q3, I5, Hse. split.
      + intros [[(H1 & H2 & H3 & H4) H5]|(i & nl & old & H1 & H2 & H3)].
        * split; [auto|]. split; [exact H2|]. split; [exact H3|]. apply INT. split; [exact H4|]. intros Hin. apply H5.
          apply In_nth_error in Hin. destruct Hin as (i & Hi). unfold l in Hi. rewrite NTH in Hi. destruct (HX x i H1 Hi) as (new & HB & _).
          exists (fnull f x), new. split; [apply (nth_error_In _ i); unfold l; rewrite NTH; exact Hi|]. unfold becomes in HB. rewrite H2 in HB. subst a.
          apply map_get_unique; [exact (bo_releasing_keys _ _ I2)|exact HB].
        * destruct (I6 _ _ _ _ H2) as (G1 & G2 & G3 & G4 & bl & G5).
          assert (Hr : replaced f n (length lv) old x).
          { exists i. split; [rewrite <- NTH, <- G2; exact H1|]. split; [|exact H3]. unfold becomes. rewrite G4, <- G3, <- G2. apply map_get_in, H2. }
          split; [right; exists old; auto|]. rewrite G5. cbn [freeze_flip_ro freeze_flag pub_key]. rewrite G4. split; [reflexivity|]. split; [exact G3|].
          apply (FR old x G1 Hr).
      + intros ([H1|(y & Hy & Hr)] & H2 & H3 & H4).
        * apply INT in H4. destruct H4 as [H4 H5]. left. split; [auto|]. intros (nl & new & Hn & G). destruct (I7 _ _ _ _ G) as (_ & -> & _). contradiction.
        * right. destruct (RP y x Hy Hr) as ((bl & Ef) & (i & Hi & _ & Hu & _) & G). exists i, (fnull f y), y. split; [exact Hi|].
          rewrite Ef, flip_flag in H2. destruct (freeze_flag (fst y)) eqn:Fy; [|discriminate]. split; [|exact Hu]. rewrite H3, Ef. cbn [freeze_flip_ro pub_key]. rewrite <- Ef. exact G.
    - intros nl a old new G. rewrite Q6 in G. destruct (existsb _ _); [discriminate|]. destruct (I6 _ _ _ _ G) as (H1 & H2 & H3). rewrite FN. split; [apply Hse; auto|auto].
    - intros nl a old new G. rewrite Q7 in G. destruct (existsb _ _); [discriminate|]. destruct (I7 _ _ _ _ G) as (H1 & H2 & H3). rewrite FN. split; [apply Hse; auto|auto].
    - unfold fm_def. rewrite R1. intros x Hx. apply Hse in Hx. change (length (lv ++ fn_commitments n)) with (length (lv ++ (fn_commitments n : list F))). rewrite app_length. destruct Hx as [Hx|(y & Hy & Hr)].
      + destruct (I8 x Hx) as (H1 & H2 & H3). split; [exact H1|]. split; [lia|]. apply leaf_app, H3.
      + destruct (RP y x Hy Hr) as ((bl & Ef) & (i & _ & Hi & _ & Z & Hn) & _). split; [rewrite Ef; exact (proj1 (I8 y Hy))|]. rewrite Z, Nat2Z.id.
        split; [unfold RecordCommitment in *; lia|exact Hn].
    - intros x Hx. apply Hse in Hx. destruct Hx as [Hx|(y & Hy & Hr)].
      + destruct (I9 x Hx) as (H1 & H2). split; [apply Q4, H1|auto].
      + destruct (RP y x Hy Hr) as ((bl & Ef) & (i & Hi & _ & Hu & _) & G). assert (EA : address (pub_key (fst x)) = address (pub_key (fst y))) by (rewrite Ef; reflexivity). rewrite EA.
        split; [apply Q4, (I9 y Hy)|]. intros Fx. rewrite Ef, flip_flag in Fx. destruct (freeze_flag (fst y)) eqn:Fy; [|discriminate].
        apply (listed_has _ _ x). apply Q3. right. exists i, (fnull f y), y. auto.
    - intros nl k Hk. change (length (lv ++ fn_commitments n)) with (length (lv ++ (fn_commitments n : list F))). rewrite app_length. apply in_app_or in Hk. destruct Hk as [Hk|Hk]; [specialize (I10 _ _ Hk); lia|].
      apply in_map_iff in Hk. destruct Hk as (nl' & G & _). injection G as _ <-. lia.
  Qed.
End Invariant.
