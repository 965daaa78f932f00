(** Freezing and releasing succeed, are accepted, and do what they should. *)
From Coq Require Import ZifyBool ZifyNat.
From Verif Require Import Base Config Structs Keys Utils Memo Plonk Witness Circuits Relation CircuitLogic CodecProofs PolicyProofs UtilsProofs MemoProofs GadgetProofs CircuitShape CircuitTheorems
  Snark Notes NoteProofs NoteGen NoteGen2 NoteThms Security Accepted NoteFacts NoteLive NoteLive2 Serde Ledger LedgerProofs Wallet WalletSpec WalletProofs WalletPay WalletPay2 Roles RolesSpec RolesIssuer
  FreezerSpec FreezerBooks FreezerCalls FreezerRun FreezerHistory.
From Coq Require Import Permutation.

(** ** The keys of freeze notes *)
Section Keys.
  Context {C : CapConfig} {S : Snark C} (SL : SnarkLaws S).

  (** the key that is sampled for the dummy witness does not matter *)
  Lemma freeze_key_independent g fk fk' n d pk vk : freeze_preprocess g fk n d = Ok (pk, vk) -> freeze_preprocess g fk' n d = Ok (pk, vk).
  Proof.
    unfold freeze_preprocess. intros H. apply bind_ok in H. destruct H as (s0 & Hb & H).
    assert (G : exists s, freeze_build_for_preprocessing fk' d n = Ok s /\ sim s0 s).
    { pose proof Hb as Hb0. unfold freeze_build_for_preprocessing in Hb. apply bind_ok in Hb. destruct Hb as (w0 & Hw & Hb). apply bind_ok in Hb. destruct Hb as (p0 & Hp0 & _).
      destruct n as [|n]; [discriminate Hw|]. cbn [freeze_witness_dummy] in Hw. injection Hw as <-.
      unfold freeze_build_for_preprocessing. cbn [freeze_witness_dummy bind].
      set (w := mkFW (repeat ro_default (Datatypes.S n)) (repeat (single_leaf_acc d (derive_record_commitment ro_default)) (Datatypes.S n)) (repeat ro_default (Datatypes.S n)) user_kp_default (repeat fk' n)).
      assert (Hp : exists p, freeze_from_witness w = Ok p).
      { destruct (freeze_from_witness_lengths _ _ Hp0) as [_ LN].
        assert (LN' : (2 <= Datatypes.S n)%nat) by (rewrite <- (repeat_length ro_default (Datatypes.S n)); exact LN).
        unfold freeze_from_witness, w. cbn [fw_inputs fw_outputs fw_accs fw_keys fw_fee_kp]. rewrite !repeat_length.
        destruct (Nat.leb_spec (Datatypes.S n) 1) as [G|_]; [lia|]. rewrite Nat.eqb_refl. replace (n + 1)%nat with (Datatypes.S n) by lia. rewrite Nat.eqb_refl.
        cbn [repeat negb fail_if bind]. unfold amount_ltb. rewrite Z.ltb_irrefl. cbn [fail_if bind].
        rewrite amount_sub_ok by lia. cbn [bind]. eexists. reflexivity. }
      destruct Hp as (p & Hp). rewrite Hp. cbn [bind].
      destruct (freeze_honest_circuit fk d (Datatypes.S n) s0 w p Hb0 Hp) as (s & Hs & Hsim).
      { unfold w. cbn [fw_inputs]. apply repeat_length. }
      { unfold w. cbn [fw_accs]. apply Forall_forall. intros a Ha. apply repeat_spec in Ha. subst a. unfold single_leaf_acc. cbn [acc_path]. apply repeat_length. }
      exists s. rewrite Hs. split; [reflexivity|exact Hsim]. }
    destruct G as (s & -> & Hsim). cbn [bind]. rewrite <- (preprocess_shape _ SL g _ _ Hsim). exact H.
  Qed.
End Keys.

Section Live.
  Context {C : CapConfig} (L : CapLaws C) {S : Snark C} {K : @RoCodec C} (KL : RoCodecLaws K) {E : MemoSer C}.

  Lemma freeze_inputs_live kp depth leaves : forall l, (length leaves <= 3 ^ depth)%nat ->
    (forall x, In x l -> nth_error leaves (Z.to_nat (zv (snd x))) = Some (derive_record_commitment (fst x))) ->
    exists is, freeze_inputs kp depth leaves l = Ok is /\
      Forall2 (fun x i => zi_ro i = fst x /\ zi_kp i = kp /\ acc_uid (zi_acc i) = snd x /\ length (acc_path (zi_acc i)) = depth /\ acc_root (zi_acc i) = tree_root depth leaves /\
        merkle_root_of (f_of_u64 (snd x)) (derive_record_commitment (fst x)) (acc_path (zi_acc i)) = tree_root depth leaves) l is.
  Proof.
    induction l as [|[ro uid] l IH]; intros HC H; [exists []; split; [reflexivity|constructor]|].
    destruct (tree_lookup depth leaves uid _ (H _ (or_introl eq_refl)) HC) as (a & Ha & Hu & Hp & Hr & Hm).
    destruct (IH HC (fun x Hx => H x (or_intror Hx))) as (is & His & F2). cbn [freeze_inputs]. rewrite Ha. cbn [bind]. rewrite His. cbn [bind].
    eexists. split; [reflexivity|]. constructor; [|exact F2]. cbn [zi_ro zi_kp zi_acc fst snd]. repeat split; auto.
  Qed.

  (** the nullifiers that the inputs show *)
  Lemma input_nullifiers f depth r freeze records is :
    Forall2 (fun x i => zi_ro i = fst x /\ zi_kp i = fm_kp f /\ acc_uid (zi_acc i) = snd x) records is ->
    map (fun i => freezer_nullify (zi_kp i) (address (pub_key (zi_ro i))) (acc_uid (zi_acc i)) (derive_record_commitment (zi_ro i))) (call_inputs depth r freeze is) =
    padding_nullifier (fu_kp0 r) (fu_blind0 r) (call_flag freeze) :: map (fnull f) records ++ [padding_nullifier (fu_kp1 r) (fu_blind1 r) (call_flag freeze)].
  Proof.
    intros F2. unfold call_inputs. cbn [map]. f_equal. rewrite map_app. cbn [map]. f_equal.
    induction F2 as [|x i l is (A & B & D) F2 IH]; [reflexivity|]. cbn [map]. rewrite A, B, D, IH. reflexivity.
  Qed.
  Lemma outs_of_inputs depth r freeze records is : Forall2 (fun (x : Owned) i => zi_ro i = fst x) records is ->
    freeze_get_output_ros (frd_blinds (fu_note r)) (call_inputs depth r freeze is) = freeze_outputs r freeze records.
  Proof.
    intros F2. change (freeze_get_output_ros (frd_blinds (fu_note r)) ?i) with (outs_from (frd_blinds (fu_note r)) 0 i). unfold call_inputs, freeze_outputs.
    rewrite outs_from_cons. cbn [dummy_freeze_input zi_ro]. f_equal. unfold turned.
    assert (G : forall k, outs_from (frd_blinds (fu_note r)) (1 + k) (is ++ [dummy_freeze_input depth (fu_kp1 r) (fu_blind1 r) (call_flag freeze)]) =
      map (fun ix => freeze_flip_ro (frd_blinds (fu_note r) (1 + fst ix)%nat) (fst (snd ix))) (combine (seq k (length records)) records) ++
      [freeze_flip_ro (frd_blinds (fu_note r) (1 + k + length records)%nat) (fst (ro_dummy (fu_kp1 r) (fu_blind1 r) (call_flag freeze)))]).
    { induction F2 as [|x i l is A F2 IH]; intros k.
      - cbn [app length seq combine map]. rewrite outs_from_cons, Nat.add_0_r. reflexivity.
      - cbn [app length seq combine map]. rewrite outs_from_cons, A. cbn [fst snd]. f_equal. change (Datatypes.S (1 + k)) with (1 + Datatypes.S k)%nat. rewrite IH.
        replace (1 + Datatypes.S k + length l)%nat with (1 + k + Datatypes.S (length l))%nat by lia. reflexivity. }
    exact (G 0%nat).
  Qed.

  Lemma fnull_nodup f lv se fz freeze user records : freezer_inv f lv se fz -> apart f lv se fz -> amap_get user (call_book f freeze) = Some records ->
    NoDup (map (fnull f) records).
  Proof.
    intros I (_ & AP & _) HB. pose proof (call_records L f lv se fz freeze user records I HB) as CR.
    assert (N : NoDup records).
    { destruct freeze; [exact (bo_free_sets _ _ (fi_books _ _ _ _ I) _ _ HB)|exact (bo_rel_sets _ _ (fi_books _ _ _ _ I) _ _ HB)]. }
    clear HB. induction N as [|x l Hx N IH]; [constructor|]. cbn [map]. constructor.
    - intros H. apply in_map_iff in H. destruct H as (y & Ey & Hy). apply Hx.
      rewrite (AP x y (proj1 (CR x (or_introl eq_refl))) (proj1 (CR y (or_intror Hy))) (eq_sym Ey)). exact Hy.
    - apply IH. intros y Hy. apply CR. right; exact Hy.
  Qed.
  Lemma nodup_middle {A} (p q : A) (l : list A) : NoDup [p; q] -> NoDup l -> (forall y, In y l -> ~ In y [p; q]) -> NoDup (p :: l ++ [q]).
  Proof.
    intros N1 N2 H. apply NoDup_cons_iff in N1. destruct N1 as [N1 _]. constructor.
    - intros G. apply in_app_or in G. destruct G as [G|[<-|[]]]; [exact (H p G (or_introl eq_refl))|apply N1; left; reflexivity].
    - clear N1. induction N2 as [|y l Hy N2 IH]; [constructor; [intros []|constructor]|]. cbn [app]. constructor.
      + intros G. apply in_app_or in G. destruct G as [G|[->|[]]]; [contradiction|]. exact (H y (or_introl eq_refl) (or_intror (or_introl eq_refl))).
      + apply IH. intros z Hz. apply H. right; exact Hz.
  Qed.

  Theorem freeze_live (SL : SnarkLaws S) g fk depth f l ws se sh fz r user fee freeze records keys (ts : u64) :
    freezer_in_step g depth f l ws se sh fz -> ordinary (fm_wallet f) (lg_leaves l) ws sh -> apart f (lg_leaves l) se fz ->
    (length (lg_leaves l) <= 3 ^ depth)%nat -> (depth < 256)%nat -> In (tree_root depth (lg_leaves l)) (lg_roots l) ->
    (exists x, holds (fm_wallet f) x /\ code (asset_def (fst x)) = native_asset_code /\ zv fee <= zv (amount (fst x))) ->
    amap_get user (call_book f freeze) = Some records -> user <> pt_id -> freezer_pub_key (fm_kp f) <> pt_id ->
    (forall x, In x records -> ~ In (fnull f x) (lg_nullifiers l)) ->
    (forall x y, In x ws -> In y se -> w_nullify (fm_wallet f) x <> fnull f y) ->
    good_padding f r freeze ws se (lg_nullifiers l) ->
    freeze_preprocess g (fu_key r) (length records + 3) depth = Ok keys ->
    (forall i ro, nth_error (freeze_outputs r freeze records) i = Some ro -> exists m, receiver_memo_from_ro (fu_enc r i) ro [] = Ok m) ->
    exists f' n memos sg, freeze_user_internal g depth f r user fee (lg_leaves l) freeze = (f', Ok (n, memos, sg)) /\
      validate_txns_batch (mkValidator g fk depth) l [TxFreeze n] ts = Ok tt /\
      verify_receiver_memos_signature (TxFreeze n) memos sg = Ok tt.
  Proof.
    intros (R & HN & Hnat) O AP HC HD Hroot Hfee HB HU HFK HFR HWF GP HK HM. pose proof (fruns_inv L _ _ _ _ _ _ _ _ R AP) as I.
    pose proof (fruns_runs L KL _ _ _ _ _ _ _ _ R Hnat O) as RW. destruct O as (O1 & O2 & O3). pose proof (runs_inv L KL _ _ _ _ RW O1 O2 O3) as RI.
    pose proof (call_records L f _ se fz freeze user records I HB) as CR. pose proof (fnull_nodup _ _ _ _ _ _ _ I AP HB) as ND.
    destruct (fee_is_ready L depth _ _ _ _ (fu_fee_blind r) fee RI Hnat HC Hfee) as (fr & a & info & chg & F).
    destruct (freeze_inputs_live (fm_kp f) depth (lg_leaves l) records HC) as (is & His & F2).
    { intros x Hx. exact (proj2 (proj2 (fi_leaf _ _ _ _ I x (proj1 (CR x Hx))))). }
    assert (F3 : Forall2 (fun x i => zi_ro i = fst x /\ zi_kp i = fm_kp f /\ acc_uid (zi_acc i) = snd x) records is).
    { eapply Forall2_imp; [|exact F2]. cbv beta. intros x i (A1 & A2 & A3 & _). auto. }
    assert (F1 : Forall2 (fun (x : Owned) i => zi_ro i = fst x) records is) by (eapply Forall2_imp; [|exact F2]; cbv beta; intros x i (A1 & _); exact A1).
    assert (LI : length (call_inputs depth r freeze is) = (length records + 2)%nat).
    { unfold call_inputs. cbn [length]. rewrite app_length, <- (Forall2_len _ _ _ F2). cbn [length]. unfold Owned in *. lia. }
    destruct keys as [pk vk].
    assert (NN : freeze_nullifiers (call_inputs depth r freeze is) info = w_nullify (fm_wallet f) fr ::
      padding_nullifier (fu_kp0 r) (fu_blind0 r) (call_flag freeze) :: map (fnull f) records ++ [padding_nullifier (fu_kp1 r) (fu_blind1 r) (call_flag freeze)]).
    { unfold freeze_nullifiers. rewrite (input_nullifiers f depth r freeze records is F3), (fy_input _ _ _ _ _ _ _ _ _ _ F). cbn [fi_kp fi_acc fi_ro]. rewrite (fy_uid _ _ _ _ _ _ _ _ _ _ F). f_equal.
      exact (native_nullifier (fm_wallet f) fr (fy_native _ _ _ _ _ _ _ _ _ _ F)). }
    assert (Sfr : In fr ws) by (apply (ri_exact _ _ _ _ RI), (fy_holds _ _ _ _ _ _ _ _ _ _ F)).
    assert (NDN : NoDup (freeze_nullifiers (call_inputs depth r freeze is) info)).
    { rewrite NN. constructor.
      - intros G. assert (G' : In (w_nullify (fm_wallet f) fr) (padding r freeze) \/ In (w_nullify (fm_wallet f) fr) (map (fnull f) records)).
        { destruct G as [G|G]; [left; left; exact G|]. apply in_app_or in G. destruct G as [G|[G|[]]]; [right; exact G|left; right; left; exact G]. }
        destruct G' as [G'|G']; [exact (gp_wallet _ _ _ _ _ _ GP fr Sfr G')|]. apply in_map_iff in G'. destruct G' as (y & Ey & Hy). exact (HWF fr y Sfr (proj1 (CR y Hy)) (eq_sym Ey)).
      - apply nodup_middle; [exact (gp_apart _ _ _ _ _ _ GP)|exact ND|]. intros y Hy G. apply in_map_iff in Hy. destruct Hy as (x & <- & Hx). exact (gp_records _ _ _ _ _ _ GP x (proj1 (CR x Hx)) G). }
    assert (AF : freezer_pk (policy asset_def_dummy) = freezer_pub_key freezer_kp_default).
    { unfold freezer_pub_key, freezer_kp_default. symmetry. exact (pt_mul_0 L _). }
    assert (FZ : forall i, In i (call_inputs depth r freeze is) -> freezable depth (acc_root (fi_acc (fee_input info))) i).
    { rewrite (fy_input _ _ _ _ _ _ _ _ _ _ F). cbn [fi_acc]. rewrite (fy_root _ _ _ _ _ _ _ _ _ _ F).
      assert (DZ : forall kp bl, address (user_pub_key kp) <> pt_id -> freezable depth (tree_root depth (lg_leaves l)) (dummy_freeze_input depth kp bl (call_flag freeze))).
      { intros kp bl Hk. constructor; unfold dummy_freeze_input; cbn [zi_acc zi_ro zi_kp ro_dummy ro_new fst asset_def pub_key acc_dummy acc_path].
        - apply repeat_length.
        - exact AF.
        - intros G. contradiction.
        - exact Hk.
        - intros G. contradiction. }
      destruct (gp_keys _ _ _ _ _ _ GP) as [K0 K1].
      intros i [<-|Hi]; [apply DZ, K0|]. apply in_app_or in Hi. destruct Hi as [Hi|[<-|[]]]; [|apply DZ, K1].
      assert (G : exists x, In x records /\ zi_ro i = fst x /\ zi_kp i = fm_kp f /\ acc_uid (zi_acc i) = snd x /\ length (acc_path (zi_acc i)) = depth /\
        acc_root (zi_acc i) = tree_root depth (lg_leaves l) /\ merkle_root_of (f_of_u64 (snd x)) (derive_record_commitment (fst x)) (acc_path (zi_acc i)) = tree_root depth (lg_leaves l)).
      { clear - F2 Hi. induction F2 as [|x j l0 is0 H F2 IH]; [destruct Hi|]. destruct Hi as [<-|Hi]; [exists x; split; [left; reflexivity|exact H]|].
        destruct (IH Hi) as (y & Hy & G). exists y. split; [right; exact Hy|exact G]. }
      destruct G as (x & Hx & A1 & A2 & A3 & A4 & A5 & A6). destruct (CR x Hx) as (B1 & B2 & B3 & B4 & B5). pose proof (proj1 (fi_leaf _ _ _ _ I x B1)) as AD.
      constructor; rewrite ?A1, ?A2, ?A3, ?AD; auto.
      - exact (fas_freezer _ (fi_asset _ _ _ _ I)).
      - intros _. rewrite (fas_freezer _ (fi_asset _ _ _ _ I)). exact HFK.
      - rewrite <- B3. exact HU. }
    replace (length records + 3)%nat with (length (call_inputs depth r freeze is) + 1)%nat in HK by lia.
    destruct (freeze_generate_live L SL g (fu_key r) _ depth pk vk (fu_note r) (call_inputs depth r freeze is) info HK HD eq_refl ltac:(discriminate) (fy_payable _ _ _ _ _ _ _ _ _ _ F) FZ NDN)
      as (n & HG & HV).
    pose proof (outs_of_inputs depth r freeze records is F1) as EO. rewrite EO in HG.
    destruct (payment_memos_live (fu_enc r) (freeze_outputs r freeze records) 0%nat HM) as (memos & Hms).
    destruct (sign_memos_ok L (frd_sig (fu_note r)) memos) as (sg & HS & HVS).
    { destruct (payment_memos_nth _ _ _ _ Hms) as [LM _]. intros ->. discriminate LM. }
    destruct (note_changes_call L (fm_kp f) depth (frd_blinds (fu_note r)) r freeze records is (call_pending f freeze) F1) as (m & Hm & _).
    { apply Forall_forall. intros y Hy. apply (CR y Hy). }
    { destruct freeze; [exact (bo_freezing_keys _ _ (fi_books _ _ _ _ I))|exact (bo_releasing_keys _ _ (fi_books _ _ _ _ I))]. }
    rewrite EO in Hm.
    assert (Q : exists f', freeze_user_internal g depth f r user fee (lg_leaves l) freeze = (f', Ok (n, memos, sg))).
    { unfold freeze_user_internal. change (if freeze then fm_freezable f else fm_releasable f) with (call_book f freeze). rewrite HB.
      rewrite (fy_find _ _ _ _ _ _ _ _ _ _ F). cbn [bind]. rewrite (fy_lookup _ _ _ _ _ _ _ _ _ _ F). cbn [bind].
      rewrite (fy_info _ _ _ _ _ _ _ _ _ _ F). cbn [unwrap bind]. rewrite His. cbn [bind]. change (if freeze then Unfrozen else Frozen) with (call_flag freeze).
      change (dummy_freeze_input depth (fu_kp0 r) (fu_blind0 r) (call_flag freeze) :: is ++ [dummy_freeze_input depth (fu_kp1 r) (fu_blind1 r) (call_flag freeze)]) with (call_inputs depth r freeze is).
      rewrite HK. cbn [unwrap bind fst]. rewrite HG. cbn [unwrap bind]. rewrite Hms. cbn [unwrap bind]. rewrite HS. cbn [bind].
      change (if freeze then fm_freezing f else fm_releasing f) with (call_pending f freeze). rewrite Hm. cbn [bind]. eexists. reflexivity. }
    destruct Q as (f' & Q). exists f', n, memos, sg. split; [exact Q|].
    destruct (freeze_generate_inv L _ _ _ _ _ _ _ HG) as (p & s & G). destruct (fg_aux _ _ _ _ _ _ _ _ _ G) as (X1 & _ & X3).
    assert (EN : fn_nullifiers n = freeze_nullifiers (call_inputs depth r freeze is) info) by exact (fg_nullifiers _ _ _ _ _ _ _ _ _ G).
    assert (LN : length (fn_nullifiers n) = (length (call_inputs depth r freeze is) + 1)%nat).
    { rewrite EN. unfold freeze_nullifiers. cbn [length]. rewrite map_length. lia. }
    split; [|apply HVS; exact X3].
    apply (single_accepted SL _ l (TxFreeze n) (VkFreeze vk)).
    - cbn [key_for vd_srs vd_depth vd_fk]. rewrite LN, (freeze_key_independent SL g (fu_key r) (fk (length (call_inputs depth r freeze is) + 1)%nat) _ depth pk vk HK). reflexivity.
    - cbn [tx_nullifiers]. rewrite EN. exact NDN.
    - cbn [tx_nullifiers]. rewrite EN, NN. intros x Hx Hl. destruct Hx as [<-|Hx].
      + apply HN in Hl. destruct Hl as (k & Hl). exact (fy_fresh _ _ _ _ _ _ _ _ _ _ F k Hl).
      + assert (Hx' : In x (padding r freeze) \/ In x (map (fnull f) records)).
        { destruct Hx as [Hx|Hx]; [left; left; exact Hx|]. apply in_app_or in Hx. destruct Hx as [Hx|[Hx|[]]]; [right; exact Hx|left; right; left; exact Hx]. }
        destruct Hx' as [Hx'|Hx']; [exact (gp_new _ _ _ _ _ _ GP x Hx' Hl)|]. apply in_map_iff in Hx'. destruct Hx' as (y & <- & Hy). exact (HFR y Hy Hl).
    - cbn [tx_merkle_root]. rewrite X1, (fy_input _ _ _ _ _ _ _ _ _ _ F). cbn [fi_acc]. rewrite (fy_root _ _ _ _ _ _ _ _ _ _ F). exact Hroot.
    - cbn [tx_verify tx_merkle_root]. rewrite X1. exact HV.
  Qed.
End Live.
