(** A wallet that has followed a ledger from the start: what it holds is exactly what nobody has spent. *)
From Verif Require Import Base Config Structs Keys Utils Memo Plonk Witness Circuits Relation CircuitLogic CodecProofs PolicyProofs UtilsProofs MemoProofs
  GadgetProofs TransferCircuitProofs MintCircuitProofs FreezeCircuitProofs Snark Notes NoteProofs NoteGen NoteGen2 NoteThms Security
  Accepted Serde Ledger LedgerSpec LedgerProofs LedgerSupply Wallet WalletSpec WalletProofs WalletPay WalletPay2 WorldSpec.
#[local] Notation accepted := Ledger.accepted.

Section Values.
  Context {C : CapConfig} (L : CapLaws C).

  Lemma user_nullifier3 kp fpk uid rc :
    user_nullify kp fpk uid rc = nullifier3 (spending_key (fr_to_fq (addr_sk kp)) (pt_xy fpk), f_of_u64 uid, rc).
  Proof. unfold user_nullify, nk_nullify, nullifier3, nullifier_of. rewrite (spending_key_user L). reflexivity. Qed.
  (** the content of a record opening determines it, up to the encryption key of its owner *)
  Lemma content_ro (a b : RecordOpening) : content (ro_value a) = content (ro_value b) -> freeze_flag a = freeze_flag b -> pub_key a = pub_key b -> a = b.
  Proof.
    intros H HF HP. destruct a as [am ad pk fl bl], b as [am' ad' pk' fl' bl']. cbn [freeze_flag pub_key] in HF, HP. subst fl' pk'.
    destruct ad as [cd po], ad' as [cd' po']. unfold content in H.
    pose proof (f_equal snd H) as HB. pose proof (f_equal fst H) as H1. clear H. cbn [fst snd ro_value ro_blind Structs.blind] in HB. subst bl'.
    cbn [fst ro_value ro_amount ro_code ro_owner ro_pol ro_flag Structs.amount asset_def code policy pub_key freeze_flag] in H1.
    assert (N : forall i, nth i (fst (content (ro_value (mkRO am (mkDef cd po) pk fl bl)))) f0 = nth i (fst (content (ro_value (mkRO am' (mkDef cd' po') pk fl bl)))) f0)
      by (intros i; exact (f_equal (fun l => nth i l f0) H1)). clear H1.
    pose proof (N 0%nat : f_of_u128 am = f_of_u128 am') as E1. pose proof (N 1%nat : cd = cd') as E2. apply f_of_u128_inj in E1. subst am' cd'.
    pose proof (N 4%nat) as E5. pose proof (N 5%nat) as E6. pose proof (N 6%nat) as E7. pose proof (N 7%nat) as E8. pose proof (N 8%nat) as E9.
    pose proof (N 9%nat) as E10. pose proof (N 10%nat) as E11. pose proof (N 11%nat) as E12. clear N.
    cbn [nth fst content ro_value ro_pol ro_flag asset_def policy freeze_flag] in *.
    assert (HPol : po = po'); [|subst; reflexivity]. apply (pol_value_inj L).
    destruct po as [v c f m t], po' as [v' c' f' m' t']. unfold pol_value in *. cbn [viewer_pk cred_pk freezer_pk reveal_map reveal_threshold po_viewer po_cred po_freezer po_map po_threshold] in *.
    assert (HX : forall P Q : xy, fst P = fst Q -> snd P = snd Q -> P = Q) by (intros [] []; cbn; congruence).
    rewrite (HX _ _ E5 E6), (HX _ _ E7 E8), (HX _ _ E9 E10), E12. f_equal. clear - E11.
    destruct rm_scalar_spec as (HR & _ & _). pose proof (HR m). pose proof (HR m'). pose proof modulus_lb.
    assert (HS : 2 ^ 12 < 2 ^ 250) by reflexivity. assert (H250 : 2 ^ 252 = 4 * 2 ^ 250) by reflexivity. set (q := 2 ^ 250) in *. set (p12 := 2 ^ 12) in *.
    assert (HB : 0 <= zv (fbool (flag_bool fl)) <= 1) by (unfold fbool; destruct (flag_bool fl); [pose proof zv_f1|pose proof zv_f0]; lia).
    apply (f_equal zv) in E11. unfold fadd in E11.
    rewrite !zv_fz in E11. rewrite (Z.mod_small (zv (rm_to_scalar m) + zv (rm_to_scalar m))), (Z.mod_small (zv (rm_to_scalar m') + zv (rm_to_scalar m'))) in E11 by lia.
    rewrite !Z.mod_small in E11 by lia. apply zmod_ext. lia.
  Qed.
End Values.

Section History.
  Context {C : CapConfig} {S : Snark C} {Z0 : Ser C S} (L : CapLaws C).

  Lemma ledger_after_snoc v h e : ledger_after v (h ++ [e]) = step v (ledger_after v h) e.
  Proof. unfold ledger_after, ledger_from. rewrite fold_left_app. reflexivity. Qed.
  Lemma ledger_from_app v h h' : forall l, ledger_from v l (h ++ h') = ledger_from v (ledger_from v l h) h'.
  Proof. intros l. unfold ledger_from. apply fold_left_app. Qed.
  Lemma effective_app v h h' : forall l, effective v l (h ++ h') = effective v l h ++ effective v (ledger_from v l h) h'.
  Proof.
    induction h as [|e h IH]; intros l; [reflexivity|]. cbn [app effective]. rewrite IH, <- app_assoc. reflexivity.
  Qed.
  Lemma accepted_app v h h' : accepted v (h ++ h') = accepted v h ++ flat_map event_txns (effective v (ledger_after v h) h').
  Proof. unfold accepted. rewrite effective_app, flat_map_app. reflexivity. Qed.
  Lemma leaves_app v h h' : exists rest, lg_leaves (ledger_after v (h ++ h')) = lg_leaves (ledger_after v h) ++ rest.
  Proof. unfold ledger_after. rewrite ledger_from_app, leaves_from. eexists. reflexivity. Qed.
  Lemma roots_after v h : roots_ok (vd_depth v) (ledger_after v h).
  Proof.
    unfold ledger_after, ledger_from. generalize (roots_new (vd_depth v)). generalize (ledger_new (vd_depth v)).
    induction h as [|e h IH]; intros l HL; [exact HL|]. cbn [fold_left]. apply IH, roots_step, HL.
  Qed.
  Lemma nullifiers_after v h n : In n (lg_nullifiers (ledger_after v h)) <-> exists t, In t (accepted v h) /\ In n (tx_nullifiers t).
  Proof.
    destruct (accepted_nullifiers v h) as [_ A]. specialize (A n). unfold check_nullifier in A. rewrite in_flat_map in A. rewrite <- A.
    rewrite existsb_exists. split; [intros H; exists n; split; [exact H|apply zeqb_refl]|]. intros (x & Hx & Ex). apply zeqb_spec in Ex. subst. exact Hx.
  Qed.

  (** only freeze notes are made with the secrets of freezers *)
  Lemma tx_owner d t o s : tx_opens d t o -> In s (op_inputs o) -> owns (sp_sk s) (ro_owner (sp_ro s)) \/ exists n, t = TxFreeze n.
  Proof.
    destruct t as [n|n|n], o as [x|x|x]; cbn [tx_opens]; try tauto; intros H Hs; [| |right; eauto]; left; cbn [op_inputs] in Hs.
    - destruct (opens_spends _ _ _ H) as [H1 _]. apply in_map_iff in Hs. destruct Hs as (i & <- & Hi). destruct (Forall2_ex_l _ _ _ _ H1 Hi) as (nl & _ & K). apply K.
    - destruct Hs as [<-|[]]. apply H.
  Qed.

  Section Final.
    Context (v : Validator) (op : TransactionNote -> Opening) (h : list event) (kps : list UserKeyPair) (SE : list Owned).
    Context (CF : collision_free v op h kps SE).
    Notation d := (vd_depth v).
    Notation LV := (lg_leaves (ledger_after v h)).
    Notation RS := (records op v h).
    Notation SP := (spends_of op (accepted v h)).
    Notation IN := (inputs_of op (accepted v h)).

    (** a record of the holder of [kp] that sits in the tree *)
    Definition located (kp : UserKeyPair) (lv : list F) (x : Owned) : Prop :=
      pub_key (fst x) = user_pub_key kp /\ freeze_flag (fst x) = Unfrozen /\
      nth_error lv (Z.to_nat (zv (snd x))) = Some (derive_record_commitment (fst x)).
    Lemma uid_nat (u : u64) : fz (Z.of_nat (Z.to_nat (zv u))) = f_of_u64 u.
    Proof. unfold f_of_u64. rewrite Z2Nat.id; [reflexivity|]. pose proof (zv_range u). lia. Qed.
    Lemma own_triples_nth kp : forall l i j r, nth_error l j = Some r -> In (own_triple kp (i + j) r) (own_triples kp i l).
    Proof.
      induction l as [|a l IH]; intros i j r H; [destruct j; discriminate H|]. destruct j as [|j]; cbn [nth_error] in H; cbn [own_triples].
      - injection H as ->. left. rewrite Nat.add_0_r. reflexivity.
      - right. replace (i + Datatypes.S j)%nat with (Datatypes.S i + j)%nat by lia. apply IH, H.
    Qed.
    Lemma in_inputs t s : In t (accepted v h) -> In s (op_inputs (op t)) -> In s IN.
    Proof. intros Ht Hs. apply in_flat_map. eauto. Qed.
    Lemma spends_inputs s : In s SP -> In s IN.
    Proof. intros Hs. apply in_flat_map in Hs. destruct Hs as (t & Ht & Hs). apply filter_In in Hs. apply (in_inputs t s Ht), Hs. Qed.
    Lemma inputs_binding s x : In s IN -> In x SE -> commitment_of (sp_ro s) = derive_record_commitment (fst x) -> content (sp_ro s) = content (ro_value (fst x)).
    Proof.
      intros Hs Hx HC. apply (cf_commitments _ _ _ _ _ CF); [| |rewrite commitment_of_ro_value; exact HC];
        apply in_or_app; right; apply in_or_app; [left; apply in_map, Hs|right]. apply in_map_iff. exists x. auto.
    Qed.
    (** the record at the position of [x] *)
    Lemma located_record kp x : In x SE -> located kp LV x -> exists r, nth_error RS (Z.to_nat (zv (snd x))) = Some r /\ content r = content (ro_value (fst x)).
    Proof.
      intros Hx (_ & _ & HN). rewrite (leaves_are_records L v op h (cf_opens _ _ _ _ _ CF)), nth_error_map in HN.
      destruct (nth_error RS _) as [r|] eqn:ER; [|discriminate HN]. cbn [option_map] in HN.
      apply (f_equal (fun o => match o with Some y => y | None => f0 end)) in HN. exists r. split; [reflexivity|].
      apply (cf_commitments _ _ _ _ _ CF); [| |rewrite commitment_of_ro_value; exact HN]; apply in_or_app; [left; exact (nth_error_In _ _ ER)|right].
      apply in_or_app. right. apply in_map_iff. exists x. auto.
    Qed.
    Definition triple_of (kp : UserKeyPair) (x : Owned) : F * F * F :=
      (spending_key (fr_to_fq (addr_sk kp)) (pt_xy (freezer_pk (policy (asset_def (fst x))))), f_of_u64 (snd x), derive_record_commitment (fst x)).
    Lemma triple_in kp x : In kp kps -> In x SE -> located kp LV x ->
      In (triple_of kp x) (flat_map spend_triples IN ++ flat_map (fun kp => own_triples kp 0 RS) kps).
    Proof.
      intros HK Hx HL. destruct (located_record kp x Hx HL) as (r & Hr & HC). apply in_or_app. right. apply in_flat_map. exists kp. split; [exact HK|].
      pose proof (own_triples_nth kp RS 0%nat _ r Hr) as Q. cbn [Nat.add] in Q. unfold own_triple in Q. rewrite uid_nat in Q.
      rewrite (content_commitment _ _ HC), commitment_of_ro_value in Q. destruct (content_facts _ _ HC) as (_ & _ & _ & EF). rewrite EF in Q. exact Q.
    Qed.
    Lemma nullify_triple kp x : user_nullify kp (freezer_pk (policy (asset_def (fst x)))) (snd x) (derive_record_commitment (fst x)) = nullifier3 (triple_of kp x).
    Proof. apply (user_nullifier3 L). Qed.

    (** nullifiers tell the records apart *)
    Lemma located_distinct w x y : In (w_kp w) kps -> In x SE -> In y SE -> located (w_kp w) LV x -> located (w_kp w) LV y -> w_nullify w x = w_nullify w y -> x = y.
    Proof.
      intros HK Hx Hy Lx Ly HE. unfold w_nullify in HE. rewrite !nullify_triple in HE.
      apply (cf_nullifiers _ _ _ _ _ CF) in HE; [|apply triple_in; assumption|apply triple_in; assumption].
      unfold triple_of in HE. pose proof (f_equal snd HE) as H1. pose proof (f_equal (fun z => snd (fst z)) HE) as H2. cbn [fst snd] in H1, H2.
      apply f_of_u64_inj in H2. assert (HF : fst x = fst y); [|destruct x, y; cbn [fst snd] in *; congruence].
      destruct Lx as (P1 & F1 & _), Ly as (P2 & F2 & _). apply (content_ro L); [|congruence|congruence].
      apply (cf_commitments _ _ _ _ _ CF); [| |rewrite !commitment_of_ro_value; exact H1]; apply in_or_app; right; apply in_or_app; right; apply in_map_iff; eauto.
    Qed.
    (** a note that shows the nullifier of a record spends it *)
    Lemma shown_spends w x t : In (w_kp w) kps -> In x SE -> located (w_kp w) LV x -> In t (accepted v h) -> In (w_nullify w x) (tx_nullifiers t) ->
      exists s, In s (op_inputs (op t)) /\ real s = true /\ pl_uid (sp_place s) = f_of_u64 (snd x) /\ content (sp_ro s) = content (ro_value (fst x)) /\
        spend_ok d (tx_merkle_root t) s (w_nullify w x).
    Proof.
      intros HK Hx HL Ht Hn. destruct (tx_facts L d t (op t) (cf_opens _ _ _ _ _ CF t Ht)) as (F2 & _).
      assert (Q : exists s, In s (op_inputs (op t)) /\ spend_ok d (tx_merkle_root t) s (w_nullify w x)).
      { clear - F2 Hn. induction F2 as [|s n l k H F2 IH]; [destruct Hn|]. destruct Hn as [->|Hn]; [exists s; cbn; auto|].
        destruct (IH Hn) as (s' & H1 & H2). exists s'. cbn; auto. }
      destruct Q as (s & Hs & HO). pose proof (in_inputs t s Ht Hs) as Hi.
      assert (QT : exists tr, In tr (spend_triples s) /\ w_nullify w x = nullifier3 tr).
      { destruct HO as [[[_ ->]|[[_ ->] _]] _]; [exists (nth 0 (spend_triples s) (f0, f0, f0))|exists (nth 1 (spend_triples s) (f0, f0, f0))]; (split; [cbn; auto|reflexivity]). }
      destruct QT as (tr & Htr & HT). unfold w_nullify in HT. rewrite nullify_triple in HT.
      apply (cf_nullifiers _ _ _ _ _ CF) in HT; [|apply triple_in; assumption|apply in_or_app; left; apply in_flat_map; eauto].
      assert (E2 : pl_uid (sp_place s) = f_of_u64 (snd x) /\ commitment_of (sp_ro s) = derive_record_commitment (fst x)).
      { destruct Htr as [<-|[<-|[]]]; unfold triple_of in HT; pose proof (f_equal snd HT) as H1; pose proof (f_equal (fun z => snd (fst z)) HT) as H2; cbn [fst snd] in H1, H2; auto. }
      destruct E2 as [EU EC]. pose proof (inputs_binding s x Hi Hx EC) as HC. exists s. split; [exact Hs|]. split; [|auto].
      apply real_spec. destruct (content_facts _ _ HC) as (_ & E4 & _). rewrite E4. cbn [ro_value ro_code]. apply (cf_dummy _ _ _ _ _ CF), Hx.
    Qed.
    (** ... and the record was in the tree before *)
    Lemma shown_after w x t k : In (w_kp w) kps -> In x SE -> located (w_kp w) LV x -> In t (accepted v h) -> In (w_nullify w x) (tx_nullifiers t) ->
      (k <= length LV)%nat -> tx_merkle_root t = tree_root d (firstn k LV) -> zv (snd x) < Z.of_nat k.
    Proof.
      intros HK Hx HL Ht Hn Hk HR. destruct (shown_spends w x t HK Hx HL Ht Hn) as (s & Hs & Hr & HU & _ & HO).
      pose proof (in_spends v op h t s Ht Hs Hr) as Hsp. apply real_spec in Hr.
      destruct (spend_place v (cf_depth _ _ _ _ _ CF) LV SP k (tx_merkle_root t) s (w_nullify w x) (cf_tree _ _ _ _ _ CF) Hk HR Hsp Hr HO) as (j & Hj & _ & EU & Bj).
      rewrite HU in EU. apply (f_equal zv) in EU. rewrite zv_f_of_u64, fz_small in EU by lia. lia.
    Qed.
    (** whoever spends a record shows its nullifier *)
    Lemma spends_shown w x s : In x SE -> located (w_kp w) LV x -> In s SP -> pl_uid (sp_place s) = f_of_u64 (snd x) ->
      exists t, In t (accepted v h) /\ In (w_nullify w x) (tx_nullifiers t).
    Proof.
      intros Hx HL Hs HU. destruct (spend_in_tree L v op (cf_depth _ _ _ _ _ CF) h (cf_opens _ _ _ _ _ CF) (cf_tree _ _ _ _ _ CF) s Hs) as (j & Nj & EU & Bj).
      assert (EJ : j = Z.to_nat (zv (snd x))). { rewrite HU in EU. apply (f_equal zv) in EU. rewrite zv_f_of_u64, fz_small in EU by lia. lia. }
      subst j. pose proof HL as (P & _ & NX). rewrite NX in Nj. apply (f_equal (fun o => match o with Some y => y | None => f0 end)) in Nj.
      pose proof (inputs_binding s x (spends_inputs s Hs) Hx (eq_sym Nj)) as HC. destruct (content_facts _ _ HC) as (_ & E2 & E3 & E4).
      destruct (spend_inv L v op h (cf_opens _ _ _ _ _ CF) s Hs) as (t & nl & Ht & _ & Hr & Hn & HO). exists t. split; [exact Ht|].
      destruct (cf_secrets _ _ _ _ _ CF s Hs) as [HK HW]. replace (w_nullify w x) with nl; [exact Hn|].
      assert (OW : owns (fr_to_fq (addr_sk (w_kp w))) (ro_owner (sp_ro s))).
      { rewrite E3. cbn [ro_value ro_owner]. rewrite P. apply (owns_key (addr_sk (w_kp w))). }
      assert (KW : zv (fr_to_fq (addr_sk (w_kp w))) < sub_order) by (rewrite zv_fr_to_fq; apply zv_range).
      unfold w_nullify. rewrite nullify_triple. unfold triple_of, nullifier3. cbn [ro_value ro_pol] in E4.
      change (po_freezer (pol_value (policy (asset_def (fst x))))) with (pt_xy (freezer_pk (policy (asset_def (fst x))))) in E4. rewrite <- E4, <- HU, Nj.
      destruct HO as [[[O1 ->]|[[O1 ->] F1]] _]; f_equal.
      - rewrite (owns_canonical L _ _ _ O1 OW HK KW). reflexivity.
      - symmetry. apply (owner_freezer_key L); auto. apply F1. apply real_spec, Hr.
    Qed.
    (** what is in the ledger about a record *)
    Lemma shown_iff w x : In (w_kp w) kps -> In x SE -> located (w_kp w) LV x -> (In (w_nullify w x) (lg_nullifiers (ledger_after v h)) <-> spent_at v op h (snd x)).
    Proof.
      intros HK Hx HL. rewrite nullifiers_after. split.
      - intros (t & Ht & Hn). destruct (shown_spends w x t HK Hx HL Ht Hn) as (s & Hs & Hr & HU & _). exists s. split; [|exact HU]. apply (in_spends v op h t s Ht Hs Hr).
      - intros (s & Hs & HU). apply (spends_shown w x s Hx HL Hs HU).
    Qed.
    (** who spends a record *)
    Lemma shown_by_key w x t : In (w_kp w) kps -> In x SE -> located (w_kp w) LV x -> In t (accepted v h) -> In (w_nullify w x) (tx_nullifiers t) ->
      exists s, In s (op_inputs (op t)) /\ spent_by_key w x t s.
    Proof.
      intros HK Hx HL Ht Hn. destruct (shown_spends w x t HK Hx HL Ht Hn) as (s & Hs & Hr & HU & HC & HO). exists s. split; [exact Hs|].
      split; [exact HU|]. split; [exact HC|]. destruct (cf_secrets _ _ _ _ _ CF s (in_spends v op h t s Ht Hs Hr)) as [HS _].
      destruct (content_facts _ _ HC) as (_ & _ & E3 & E4). pose proof HL as (P & _ & _).
      assert (OW : owns (fr_to_fq (addr_sk (w_kp w))) (ro_owner (sp_ro s))).
      { rewrite E3. cbn [ro_value ro_owner]. rewrite P. apply (owns_key (addr_sk (w_kp w))). }
      assert (KW : zv (fr_to_fq (addr_sk (w_kp w))) < sub_order) by (rewrite zv_fr_to_fq; apply zv_range).
      destruct (tx_owner d t (op t) s (cf_opens _ _ _ _ _ CF t Ht) Hs) as [O|HF]; [left; apply (owns_canonical L _ _ _ O OW HS KW)|].
      destruct HO as [[[O1 _]|[[O1 _] F1]] _]; [left; apply (owns_canonical L _ _ _ O1 OW HS KW)|right]. split; [exact HF|].
      rewrite E4 in O1, F1. cbn [ro_value ro_pol] in O1, F1. split; [|exact O1]. apply real_spec in Hr. specialize (F1 Hr). intros Q. apply F1.
      change (po_freezer (pol_value (policy (asset_def (fst x))))) with (pt_xy (freezer_pk (policy (asset_def (fst x))))). apply (is_no_key L), Q.
    Qed.
  End Final.
End History.

Section Follow.
  Context {C : CapConfig} {S : Snark C} {Z0 : Ser C S} {K : @RoCodec C} {E : MemoSer C} (L : CapLaws C) (KL : RoCodecLaws K).

  (** [scanned] is what [scan_block] does *)
  Lemma tx_output_len_length t : tx_output_len t = length (tx_output_commitments t).
  Proof. destruct t; reflexivity. Qed.
  Lemma scan_txns_scanned : forall txns w off w' found, scan_txns w txns off = Ok (w', found) -> exists got, scanned w txns off w' got.
  Proof.
    induction txns as [|[t memos] txns IH]; intros w off w' found H; cbn [scan_txns] in H; [injection H as <- _; eexists; constructor|].
    apply bind_ok in H. destruct H as ([w1 l1] & H1 & H). apply bind_ok in H. destruct H as ([w2 l2] & H2 & H). injection H as <- _.
    rewrite tx_output_len_length in H2. destruct (IH _ _ _ _ H2) as (got & HG). exists (paid_list w t memos off ++ got). econstructor; [exact H1| |exact HG].
    intros x. apply paid_list_in.
  Qed.
  Lemma scanned_scan_txns txns w off w' got : scanned w txns off w' got -> exists found, scan_txns w txns off = Ok (w', found).
  Proof.
    induction 1 as [w off|w t memos off w1 found got rest w2 got' H1 _ _ (f2 & IH)]; [eexists; reflexivity|]. cbn [scan_txns]. rewrite H1. cbn [bind].
    rewrite tx_output_len_length, IH. cbn [bind]. eexists. reflexivity.
  Qed.
  Theorem scan_block_scanned w b memos off w' :
    (exists found, scan_block w b memos off = Ok (w', found)) <->
    length memos = length (bk_txns b) /\ exists got, scanned w (combine (bk_txns b) memos) off w' got.
  Proof.
    unfold scan_block. destruct (Nat.eqb_spec (length (bk_txns b)) (length memos)) as [Hl|Hl]; cbn [negb].
    - split; [intros (found & H); split; [symmetry; exact Hl|exact (scan_txns_scanned _ _ _ _ _ H)]|]. intros [_ (got & H)]. exact (scanned_scan_txns _ _ _ _ _ H).
    - split; [intros (found & H); discriminate H|]. intros [H _]. symmetry in H. contradiction.
  Qed.

  Section Inv.
    Context (v : Validator) (op : TransactionNote -> Opening) (H : list event) (kps : list UserKeyPair) (SE : list Owned).
    Context (CF : collision_free v op H kps SE).
    Notation d := (vd_depth v).
    Notation LV := (lg_leaves (ledger_after v H)).

    (** the shown nullifiers come from accepted notes that refer to earlier trees *)
    Definition shown_ok (sh : list (Nullifier * nat)) : Prop :=
      forall n k, In (n, k) sh -> exists t k', In t (accepted v H) /\ In n (tx_nullifiers t) /\ tx_merkle_root t = tree_root d (firstn k' LV) /\ (k' <= k)%nat /\ (k' <= length LV)%nat.
    Lemma nth_error_prefix {A} (l r : list A) i x : nth_error l i = Some x -> nth_error (l ++ r) i = Some x.
    Proof. intros Q. rewrite nth_error_app1; [exact Q|]. apply nth_error_Some. congruence. Qed.
    Lemma ordinary_from w lv rest se sh : LV = lv ++ rest -> In (w_kp w) kps -> incl se SE -> (forall x, In x se -> located (w_kp w) lv x) -> shown_ok sh ->
      ordinary w lv se sh.
    Proof.
      intros EL HK HI HS HO.
      assert (HS' : forall x, In x se -> located (w_kp w) LV x).
      { intros x Hx. destruct (HS x Hx) as (P & Fl & N). split; [exact P|]. split; [exact Fl|]. rewrite EL. apply nth_error_prefix, N. }
      split; [|split].
      - pose proof (cf_size _ _ _ _ _ CF) as Q. rewrite EL, app_length in Q. lia.
      - intros x y Hx Hy. apply (located_distinct L v op H kps SE CF); auto.
      - intros x k Hx Hk. destruct (HO _ _ Hk) as (t & k' & Ht & Hn & HR & Hk' & HL). enough (zv (snd x) < Z.of_nat k') by lia.
        apply (shown_after L v op H kps SE CF w x t k'); auto.
    Qed.
    Lemma run_located w lv se sh : run_inv w lv se sh -> forall x, In x se -> located (w_kp w) lv x.
    Proof. intros R x Hx. destruct (ri_seen _ _ _ _ R x Hx) as (A & B & _ & D). split; auto. Qed.
    Lemma ordinary_inv w lv se sh : runs w lv se sh -> ordinary w lv se sh -> run_inv w lv se sh.
    Proof. intros R (A & B & D). apply (runs_inv L KL); assumption. Qed.

    Record inv (w : Wallet) (lv : list F) (se : list Owned) (sh : list (Nullifier * nat)) : Prop := {
      iv_runs : runs w lv se sh; iv_ordinary : ordinary w lv se sh; iv_shown : shown_ok sh; iv_key : In (w_kp w) kps }.
    Lemma inv_run w lv se sh : inv w lv se sh -> run_inv w lv se sh.
    Proof. intros [A B _ _]. apply ordinary_inv; assumption. Qed.
    (** nothing enters the tree *)
    Lemma inv_local w w' lv se sh : inv w lv se sh -> runs w' lv se sh -> w_kp w' = w_kp w -> inv w' lv se sh.
    Proof.
      intros [A (B1 & B2 & B3) D F] R KP. constructor; auto; [|rewrite KP; exact F]. unfold ordinary, distinct_nullifiers, nullified_after_creation, w_nullify in *.
      rewrite KP. auto.
    Qed.
    (** a record enters the tree *)
    Lemma inv_other w lv se sh rc rest : LV = lv ++ rc :: rest -> incl se SE -> inv w lv se sh -> inv w (lv ++ [rc]) se sh.
    Proof.
      intros EL HI I. pose proof (inv_run _ _ _ _ I) as R. destruct I as [A B D F]. constructor; auto; [apply run_other, A|].
      apply (ordinary_from w (lv ++ [rc]) rest); auto; [rewrite <- app_assoc; exact EL|]. intros x Hx. destruct (run_located _ _ _ _ R x Hx) as (P & Fl & N).
      split; [exact P|]. split; [exact Fl|]. apply nth_error_prefix, N.
    Qed.
    Lemma inv_own w lv se sh ro rest : let uid := w64 (Z.of_nat (length lv)) in
      LV = lv ++ derive_record_commitment ro :: rest -> incl (se ++ [(ro, uid)]) SE -> pub_key ro = user_pub_key (w_kp w) -> freeze_flag ro = Unfrozen ->
      inv w lv se sh -> inv (add_record_opening w ro uid) (lv ++ [derive_record_commitment ro]) (se ++ [(ro, uid)]) sh.
    Proof.
      intros uid EL HI HP HF I. pose proof (inv_run _ _ _ _ I) as R. destruct I as [A B D F]. constructor; auto; [apply run_own; auto|].
      apply (ordinary_from _ (lv ++ [derive_record_commitment ro]) rest); auto; [rewrite <- app_assoc; exact EL|]. intros x Hx. apply in_app_or in Hx.
      destruct Hx as [Hx|[<-|[]]].
      - destruct (run_located _ _ _ _ R x Hx) as (P & Fl & N). split; [exact P|]. split; [exact Fl|]. apply nth_error_prefix, N.
      - split; [exact HP|]. split; [exact HF|]. cbn [fst snd]. pose proof (cf_size _ _ _ _ _ CF) as Q. rewrite EL, app_length in Q. subst uid.
        rewrite zv_w64 by lia. rewrite Nat2Z.id. rewrite nth_error_app2 by lia. rewrite Nat.sub_diag. reflexivity.
    Qed.
    (** a transaction *)
    Lemma inv_scan w lv se sh t memos w' found got k' rest : LV = lv ++ tx_output_commitments t ++ rest -> incl (se ++ got) SE ->
      scan_txn w t memos (length lv) = Ok (w', found) -> (forall x, In x got <-> paid w t memos (length lv) x) ->
      In t (accepted v H) -> tx_merkle_root t = tree_root d (firstn k' LV) -> (k' <= length lv)%nat ->
      inv w lv se sh -> inv w' (lv ++ tx_output_commitments t) (se ++ got)
        (sh ++ map (fun n => (n, (length lv + length (tx_output_commitments t))%nat)) (tx_nullifiers t)).
    Proof.
      intros EL HI HS HG Ht HR Hk I. pose proof (inv_run _ _ _ _ I) as R. destruct I as [A B D F]. pose proof (proj1 (scan_txn_kp _ _ _ _ _ _ HS)) as KP.
      assert (SH : shown_ok (sh ++ map (fun n => (n, (length lv + length (tx_output_commitments t))%nat)) (tx_nullifiers t))).
      { intros n k Hn. apply in_app_or in Hn. destruct Hn as [Hn|Hn]; [exact (D _ _ Hn)|]. apply in_map_iff in Hn. destruct Hn as (n' & EQ & Hn).
        pose proof (f_equal fst EQ) as Q1. pose proof (f_equal snd EQ) as Q2. cbn [fst snd] in Q1, Q2. subst n' k. exists t, k'.
        split; [exact Ht|]. split; [exact Hn|]. split; [exact HR|]. split; [lia|]. rewrite EL, app_length. lia. }
      constructor; [| |exact SH|rewrite KP; exact F].
      - apply (run_scan w lv se sh t memos w' found); [exact A|exact HS|]. intros x. rewrite in_app_iff, HG. reflexivity.
      - apply (ordinary_from _ (lv ++ tx_output_commitments t) rest); auto; [rewrite <- app_assoc; exact EL|rewrite KP; exact F|].
        intros x Hx. rewrite KP. apply in_app_or in Hx. destruct Hx as [Hx|Hx].
        + destruct (run_located _ _ _ _ R x Hx) as (P & Fl & N). split; [exact P|]. split; [exact Fl|]. apply nth_error_prefix, N.
        + apply HG in Hx. assert (HB : Z.of_nat (length (lv ++ tx_output_commitments t)) < 2 ^ 64).
          { pose proof (cf_size _ _ _ _ _ CF) as Q. rewrite EL, app_assoc, app_length in Q. lia. }
          destruct (paid_facts L KL w t memos lv x (ri_ok _ _ _ _ R) Hx HB) as (D1 & D2 & _ & D4). split; auto.
    Qed.
    Lemma inv_scanned m : forall txns w lv se sh w' got rest, scanned w txns (length lv) w' got ->
      LV = lv ++ flat_map (fun p => tx_output_commitments (fst p)) txns ++ rest -> incl (se ++ got) SE ->
      (forall p, In p txns -> In (fst p) (accepted v H) /\ exists k', tx_merkle_root (fst p) = tree_root d (firstn k' LV) /\ (k' <= m)%nat) -> (m <= length lv)%nat ->
      inv w lv se sh -> exists sh', inv w' (lv ++ flat_map (fun p => tx_output_commitments (fst p)) txns) (se ++ got) sh' /\ w_kp w' = w_kp w /\
        forall n, (exists k, In (n, k) sh') <-> (exists k, In (n, k) sh) \/ In n (flat_map (fun p => tx_nullifiers (fst p)) txns).
    Proof.
      induction txns as [|[t memos] txns IH]; intros w lv se sh w' got rest HS EL HI HT Hm I.
      - inversion HS; subst. exists sh. cbn [flat_map]. rewrite !app_nil_r. split; [exact I|]. split; [reflexivity|]. intros n. cbn. tauto.
      - inversion HS as [|? ? ? ? w1 found got1 ? ? got2 H1 H2 H3]; subst. clear HS. cbn [flat_map fst] in EL. rewrite <- app_assoc in EL.
        destruct (HT (t, memos) (or_introl eq_refl)) as (Ht & k' & HR & Hk). cbn [fst] in Ht, HR.
        pose (sh1 := sh ++ map (fun n => (n, (length lv + length (tx_output_commitments t))%nat)) (tx_nullifiers t)).
        assert (I1 : inv w1 (lv ++ tx_output_commitments t) (se ++ got1) sh1).
        { apply (inv_scan w lv se sh t memos w1 found got1 k' (flat_map (fun p => tx_output_commitments (fst p)) txns ++ rest)); auto; [|lia].
          intros x Hx. apply HI. rewrite app_assoc. apply in_or_app. left. exact Hx. }
        change (length lv + length (tx_output_commitments t))%nat with (length lv + @length F (tx_output_commitments t))%nat in H3. rewrite <- app_length in H3.
        destruct (IH w1 (lv ++ tx_output_commitments t) (se ++ got1) sh1 w' got2 rest H3) as (sh' & I' & KP & HN); auto.
        + rewrite <- app_assoc. exact EL.
        + rewrite <- app_assoc. exact HI.
        + intros p Hp. apply HT. right. exact Hp.
        + rewrite app_length. lia.
        + exists sh'. cbn [flat_map fst]. rewrite !app_assoc. split; [rewrite <- !app_assoc in *; exact I'|]. split; [rewrite KP; exact (proj1 (scan_txn_kp _ _ _ _ _ _ H1))|].
          intros n. rewrite HN, in_app_iff. split.
          * intros [(k & Hk')|Hn]; [|auto]. apply in_app_or in Hk'. destruct Hk' as [Hk'|Hk']; [left; eauto|]. apply in_map_iff in Hk'.
            destruct Hk' as (n' & EQ & Hn). pose proof (f_equal fst EQ) as Q1. cbn [fst] in Q1. subst n'. auto.
          * intros [(k & Hk')|[Hn|Hn]]; [left; exists k; apply in_or_app; auto|left|right; exact Hn].
            eexists. apply in_or_app. right. apply in_map_iff. exists n. split; [reflexivity|exact Hn].
    Qed.

    (** ** Steps *)
    Definition kept (h : list event) (w : Wallet) (se : list Owned) : Prop :=
      exists sh, inv w (lg_leaves (ledger_after v h)) se sh /\ forall n, In n (lg_nullifiers (ledger_after v h)) <-> exists k, In (n, k) sh.
    Lemma scanned_kp w txns off w' got : scanned w txns off w' got -> w_kp w' = w_kp w.
    Proof.
      induction 1 as [w off|w t memos off w1 found got rest w2 got' H1 _ _ IH]; [reflexivity|]. rewrite IH. exact (proj1 (scan_txn_kp _ _ _ _ _ _ H1)).
    Qed.
    Lemma act_grows h w se h2 w2 se2 : act v h w se h2 w2 se2 -> (exists e, h2 = h ++ e) /\ incl se se2 /\ w_kp w2 = w_kp w.
    Proof.
      intros A. destruct A; (split; [first [exists []; rewrite app_nil_r; reflexivity|eexists; reflexivity]|]);
        (split; [first [apply incl_refl|apply incl_appl, incl_refl|apply incl_appl, incl_appl, incl_refl]|]); try reflexivity.
      - match goal with Q : same_records _ _ |- _ => apply Q end.
      - apply spend_native_kp.
      - apply spend_non_native_kp.
      - match goal with Q : scanned _ _ _ _ _ |- _ => exact (scanned_kp _ _ _ _ _ Q) end.
      - match goal with Q : scanned _ _ _ _ _ |- _ => exact (scanned_kp _ _ _ _ _ Q) end.
    Qed.
    Lemma kept_local h w se w' : kept h w se -> (forall lv sh, runs w lv se sh -> runs w' lv se sh) -> w_kp w' = w_kp w -> kept h w' se.
    Proof. intros (sh & I & HN) R KP. exists sh. split; [|exact HN]. apply (inv_local w); auto. apply R, I. Qed.
    Lemma kept_block h w se b sig ts pk fee_ro memos w' got h' : H = (h ++ [EvBlock b sig ts pk]) ++ h' ->
      validate_block v (ledger_after v h) b sig ts pk = Ok tt -> block_fee_record b = Ok fee_ro -> length memos = length (bk_txns b) ->
      scanned w (combine (bk_txns b) memos) (length (lg_leaves (ledger_after v h))) w' got -> incl (se ++ got) SE -> kept h w se ->
      lg_leaves (ledger_after v (h ++ [EvBlock b sig ts pk])) =
        (lg_leaves (ledger_after v h) ++ flat_map tx_output_commitments (bk_txns b)) ++ [derive_record_commitment fee_ro] /\
      exists sh, inv w' (lg_leaves (ledger_after v h) ++ flat_map tx_output_commitments (bk_txns b)) (se ++ got) sh /\
        forall n, In n (lg_nullifiers (ledger_after v (h ++ [EvBlock b sig ts pk]))) <-> exists k, In (n, k) sh.
    Proof.
      intros EH HV HF Hl HS HI (sh & I & HN). assert (VB : valid_b v (ledger_after v h) (EvBlock b sig ts pk) = true) by (cbn [valid_b]; rewrite HV; reflexivity).
      rewrite ledger_after_snoc. destruct (step_valid v _ _ VB) as (E1 & E2 & _). cbn [event_commitments event_txns] in E1, E2. rewrite HF in E1.
      assert (EL : lg_leaves (step v (ledger_after v h) (EvBlock b sig ts pk)) = (lg_leaves (ledger_after v h) ++ flat_map tx_output_commitments (bk_txns b)) ++ [derive_record_commitment fee_ro])
        by (rewrite <- app_assoc; exact E1).
      split; [exact EL|]. destruct (leaves_app v (h ++ [EvBlock b sig ts pk]) h') as (rest & ER). rewrite <- EH, ledger_after_snoc, EL in ER.
      symmetry in Hl. pose proof (combine_fst tx_output_commitments _ _ Hl) as C1. pose proof (combine_fst tx_nullifiers _ _ Hl) as C2.
      destruct (inv_scanned (length (lg_leaves (ledger_after v h))) (combine (bk_txns b) memos) w (lg_leaves (ledger_after v h)) se sh w' got
                  ([derive_record_commitment fee_ro] ++ rest) HS) as (sh' & I' & _ & HN'); auto.
      - refine (eq_trans ER _). rewrite <- !app_assoc. f_equal. f_equal. symmetry. exact C1.
      - intros p Hp. assert (Hb : In (fst p) (bk_txns b)) by (destruct p as [t m]; apply in_combine_l in Hp; exact Hp). split.
        + rewrite EH, accepted_app. apply in_or_app. left. rewrite accepted_app. apply in_or_app. right. cbn [effective]. rewrite VB. cbn. rewrite !app_nil_r. exact Hb.
        + apply valid_block_inv in HV. destruct HV as (_ & _ & _ & Hroot & _). destruct (roots_after v h _ (Hroot _ Hb)) as (k' & Hk & EK). exists k'. split; [|exact Hk].
          rewrite ER, <- !app_assoc, firstn_prefix by exact Hk. exact EK.
      - exists sh'. split; [|].
        + pose proof (f_equal (fun l => inv w' (lg_leaves (ledger_after v h) ++ l) (se ++ got) sh') C1) as Q. cbv beta in Q. rewrite <- Q. exact I'.
        + intros n. rewrite E2, HN', in_app_iff, <- in_rev, HN. pose proof (f_equal (fun l => In n l) C2) as Q. cbv beta in Q. rewrite <- Q. tauto.
    Qed.
    Lemma kept_act h w se h2 w2 se2 h' : act v h w se h2 w2 se2 -> H = h2 ++ h' -> incl se2 SE -> kept h w se -> kept h2 w2 se2.
    Proof.
      intros A EH HI KE. destruct A as [h w w' se HR|h w se c|h w se g depth r outs fee leaves|h w se g depth r dd outs fee leaves|h w se x Hx|h w se ro H1 H2 H3
        |h w se ro|h w se ro H1 H2|h w se b sig ts pk HV|h w se b sig ts pk fee_ro memos w' got HV HF Hl HS|h w se b sig ts pk fee_ro memos w' got HV HF Hl HS HP].
      - apply (kept_local h w); [exact KE| |apply HR]. intros lv sh R. apply (run_order w); assumption.
      - apply (kept_local h w); [exact KE| |reflexivity]. intros lv sh R. apply run_credential, R.
      - apply (kept_local h w); [exact KE| |apply spend_native_kp]. intros lv sh R. apply run_native, R.
      - apply (kept_local h w); [exact KE| |apply spend_non_native_kp]. intros lv sh R. apply run_non_native, R.
      - apply (kept_local h w); [exact KE| |reflexivity]. intros lv sh R. apply run_mark; assumption.
      - apply (kept_local h w); [exact KE| |reflexivity]. intros lv sh R. apply run_change; assumption.
      - destruct KE as (sh & I & HN). exists sh. destruct (leaves_app v (h ++ [EvMint ro]) h') as (rest & ER). rewrite <- EH in ER. rewrite !ledger_after_snoc in *.
        destruct (step_valid v (ledger_after v h) (EvMint ro) eq_refl) as (E1 & E2 & _). cbn [event_commitments event_txns flat_map rev app] in E1, E2.
        rewrite E1 in ER. rewrite E1, E2. split; [|exact HN]. apply (inv_other w _ se sh _ rest); auto. rewrite ER, <- app_assoc. reflexivity.
      - destruct KE as (sh & I & HN). exists sh. destruct (leaves_app v (h ++ [EvMint ro]) h') as (rest & ER). rewrite <- EH in ER. rewrite !ledger_after_snoc in *.
        destruct (step_valid v (ledger_after v h) (EvMint ro) eq_refl) as (E1 & E2 & _). cbn [event_commitments event_txns flat_map rev app] in E1, E2.
        rewrite E1 in ER. rewrite E1, E2. split; [|exact HN]. apply (inv_own w _ se sh ro rest); auto. rewrite ER, <- app_assoc. reflexivity.
      - destruct KE as (sh & I & HN). exists sh. rewrite !ledger_after_snoc.
        assert (VB : valid_b v (ledger_after v h) (EvBlock b sig ts pk) = false).
        { cbn [valid_b]. destruct (validate_block v (ledger_after v h) b sig ts pk) as [[]| |]; [contradiction HV; reflexivity|reflexivity|reflexivity]. }
        rewrite (step_invalid v _ _ VB). split; [exact I|exact HN].
      - destruct (kept_block h w se b sig ts pk fee_ro memos w' got h' EH HV HF Hl HS HI KE) as (EL & sh & I & HN). exists sh. split; [|exact HN].
        destruct (leaves_app v (h ++ [EvBlock b sig ts pk]) h') as (rest & ER). rewrite <- EH, EL in ER. rewrite EL.
        apply (inv_other w' _ (se ++ got) sh _ rest); auto. rewrite ER, <- !app_assoc. reflexivity.
      - assert (HI' : incl (se ++ got) SE) by (intros x Hx; apply HI, in_or_app; left; exact Hx).
        destruct (kept_block h w se b sig ts pk fee_ro memos w' got h' EH HV HF Hl HS HI' KE) as (EL & sh & I & HN). exists sh. split; [|exact HN].
        destruct (leaves_app v (h ++ [EvBlock b sig ts pk]) h') as (rest & ER). rewrite <- EH, EL in ER. rewrite EL.
        assert (EU : uid = w64 (Z.of_nat (length (lg_leaves (ledger_after v h) ++ flat_map tx_output_commitments (bk_txns b))))) by (unfold uid; rewrite app_length; reflexivity).
        rewrite EU in *. apply (inv_own w' _ (se ++ got) sh fee_ro rest); auto.
        + rewrite ER, <- !app_assoc. reflexivity.
        + rewrite (scanned_kp _ _ _ _ _ HS). exact HP.
        + unfold block_fee_record in HF. apply bind_ok in HF. destruct HF as (f & _ & HF). injection HF as <-. reflexivity.
    Qed.
    Lemma leads_grows h w se h2 w2 se2 : leads v h w se h2 w2 se2 -> (exists e, h2 = h ++ e) /\ incl se se2 /\ w_kp w2 = w_kp w.
    Proof.
      induction 1 as [h w se|h w se h1 w1 se1 h2 w2 se2 _ ((e & ->) & I1 & K1) A]; [split; [exists []; rewrite app_nil_r; reflexivity|]; split; [apply incl_refl|reflexivity]|].
      destruct (act_grows _ _ _ _ _ _ A) as ((e2 & ->) & I2 & K2). split; [exists (e ++ e2); rewrite app_assoc; reflexivity|]. split; [exact (incl_tran I1 I2)|congruence].
    Qed.
    Lemma kept_leads h w se h2 w2 se2 : leads v h w se h2 w2 se2 -> forall h', H = h2 ++ h' -> incl se2 SE -> kept h w se -> kept h2 w2 se2.
    Proof.
      induction 1 as [h w se|h w se h1 w1 se1 h2 w2 se2 _ IH A]; intros h' EH HI KE; [exact KE|].
      destruct (act_grows _ _ _ _ _ _ A) as ((e2 & ->) & I2 & K2). rewrite <- app_assoc in EH.
      apply (kept_act _ _ _ _ _ _ h' A); [rewrite <- app_assoc; exact EH|exact HI|]. apply (IH _ EH); [|exact KE]. exact (incl_tran I2 HI).
    Qed.
    Lemma follows_kept h w se h' : follows v h w se -> H = h ++ h' -> incl se SE -> In (w_kp w) kps -> kept h w se.
    Proof.
      intros (kp & LD) EH HI HK. apply (kept_leads _ _ _ _ _ _ LD h' EH HI). destruct (leads_grows _ _ _ _ _ _ LD) as (_ & _ & KP). rewrite KP in HK. cbn [wallet_new w_kp] in HK.
      exists []. split; [|intros n; cbn; split; [intros []|intros (k & [])]]. constructor; [apply run_new| |intros n k []|exact HK].
      split; [cbn; lia|]. split; [intros x y []|intros x k []].
    Qed.
  End Inv.

  (** ** Results *)
  Theorem follows_in_step v op h kps SE w se : collision_free v op h kps SE -> follows v h w se -> incl se SE -> In (w_kp w) kps ->
    exists sh, in_step w (ledger_after v h) se sh /\ ordinary w (lg_leaves (ledger_after v h)) se sh.
  Proof.
    intros CF FO HI HK. destruct (follows_kept v op h kps SE CF h w se [] FO (eq_sym (app_nil_r h)) HI HK) as (sh & I & HN). exists sh.
    split; [split; [apply I|exact HN]|apply I].
  Qed.
  Lemma follows_run v op h kps SE w se h2 : collision_free v op h2 kps SE -> (exists e, h2 = h ++ e) -> follows v h w se -> incl se SE -> In (w_kp w) kps ->
    (forall x, holds w x <-> In x se /\ ~ In (w_nullify w x) (lg_nullifiers (ledger_after v h))) /\
    (forall x, In x se -> located (w_kp w) (lg_leaves (ledger_after v h)) x).
  Proof.
    intros CF (e & EH) FO HI HK. destruct (follows_kept v op h2 kps SE CF h w se e FO EH HI HK) as (sh & I & HN). pose proof (inv_run v h2 kps _ _ _ _ I) as R.
    split; [|exact (run_located _ _ _ _ R)]. intros x. rewrite (ri_exact _ _ _ _ R), HN. split; intros [A B]; (split; [exact A|]).
    - intros (k & Hk). exact (B k Hk).
    - intros k Hk. apply B. exists k. exact Hk.
  Qed.
  Theorem held_iff_unspent v op h kps SE w se : collision_free v op h kps SE -> follows v h w se -> incl se SE -> In (w_kp w) kps ->
    forall x, holds w x <-> In x se /\ ~ spent_at v op h (snd x).
  Proof.
    intros CF FO HI HK x. destruct (follows_run v op h kps SE w se h CF (ex_intro _ [] (eq_sym (app_nil_r h))) FO HI HK) as [HX HLc]. rewrite HX.
    split; intros [A B]; (split; [exact A|]); intros Q; apply B, (shown_iff L v op h kps SE CF w x HK (HI x A) (HLc x A)), Q.
  Qed.
  Theorem spent_by_its_key v op h w se h2 w2 se2 kps SE x : follows v h w se -> leads v h w se h2 w2 se2 -> collision_free v op h2 kps SE ->
    incl se2 SE -> In (w_kp w) kps -> holds w x -> ~ holds w2 x ->
    exists t s, In t (accepted v h2) /\ ~ In t (accepted v h) /\ In s (op_inputs (op t)) /\ spent_by_key w x t s.
  Proof.
    intros FO LD CF HI HK H1 H2. destruct (leads_grows v _ _ _ _ _ _ LD) as (HE & IS & KP).
    assert (FO2 : follows v h2 w2 se2). { destruct FO as (kp & LD0). exists kp. clear - LD LD0. induction LD; [exact LD0|]. eapply leads_step; [apply IHLD, LD0|eassumption]. }
    destruct (follows_run v op h kps SE w se h2 CF HE FO (incl_tran IS HI) HK) as [HX _]. apply HX in H1. destruct H1 as [Hx HNx].
    assert (HK2 : In (w_kp w2) kps) by (rewrite KP; exact HK).
    destruct (follows_run v op h2 kps SE w2 se2 h2 CF (ex_intro _ [] (eq_sym (app_nil_r h2))) FO2 HI HK2) as [HX2 HLc]. specialize (IS _ Hx).
    assert (HN2 : In (w_nullify w2 x) (lg_nullifiers (ledger_after v h2))).
    { destruct (in_dec (fun a b : Nullifier => match zeqb_reflect a b with ReflectT _ q => left q | ReflectF _ q => right q end) (w_nullify w2 x) (lg_nullifiers (ledger_after v h2))) as [Q|Q]; [exact Q|].
      destruct H2. apply HX2. auto. }
    apply nullifiers_after in HN2. destruct HN2 as (t & Ht & Hn). destruct (shown_by_key L v op h2 kps SE CF w2 x t HK2 (HI x IS) (HLc x IS) Ht Hn) as (s & Hs & HS).
    exists t, s. split; [exact Ht|]. split; [|split; [exact Hs|]].
    - intros Q. apply HNx. apply nullifiers_after. exists t. split; [exact Q|]. unfold w_nullify in *. rewrite <- KP. exact Hn.
    - unfold spent_by_key in *. rewrite KP in HS. exact HS.
  Qed.
End Follow.
