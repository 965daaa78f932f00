(** What a viewer reads from an accepted note, whoever made it (property C61).  The memo of a generated note is the
    subject of C31 and C32; here the note is any note with an opening in the sense of Relation.v. *)
From Coq Require Import ZifyBool ZifyNat.
From Verif Require Import Base Config Structs Keys Utils Memo Plonk Witness Circuits Relation CircuitLogic CodecProofs PolicyProofs
  UtilsProofs MemoProofs GadgetProofs StructGadgetProofs TransferCircuitProofs MintCircuitProofs CircuitShape CircuitTheorems
  Snark Notes NoteProofs NoteGen NoteGen2 Security Accepted NoteLive.

Section View.
  Context {C : CapConfig} {S : Snark C} (L : CapLaws C).

  (** a record as the API knows it stands for the values behind a note *)
  Definition stands_for (r : RecordOpening) (v : RoV) : Prop := ro_value r = v.
  (** an input as the API knows it: the record and the attributes of the credential shown with it *)
  Definition stands_for_input (x : RecordOpening * list F) (i : InV) : Prop :=
    ro_value (fst x) = in_ro i /\ snd x = cr_v_attrs (in_cred i).
  (** the inputs after the fee input that are not padding *)
  Definition real_inputs (t : TransferV) : list InV := filter (fun i => negb (zeqb (ro_code (in_ro i)) dummy_asset_code)) (tl (tv_ins t)).

  Lemma lift_u128 (x : F) : zv x < 2 ^ 128 -> exists a : u128, f_of_u128 a = x.
  Proof.
    intros H. exists (w128 (zv x)). apply zmod_ext. rewrite zv_f_of_u128. rewrite zv_w128. apply Z.mod_small. pose proof (zv_range x). lia.
  Qed.
  Lemma fbool_unfrozen : fbool (flag_bool Unfrozen) = f0. Proof. reflexivity. Qed.
  Lemma lift_record (v : RoV) ad P : ro_owner v = pt_xy P -> zv (ro_amount v) < 2 ^ 128 -> ro_code v = code ad ->
    ro_pol v = pol_value (policy ad) -> ro_flag v = f0 ->
    exists r, ro_value r = v /\ asset_def r = ad /\ freeze_flag r = Unfrozen /\ address (pub_key r) = P /\ zv (amount r) = zv (ro_amount v) /\ blind r = ro_blind v.
  Proof.
    intros HO HA HC HP HF. destruct (lift_u128 _ HA) as [a Ea]. exists (mkRO a ad (mkUserPubKey P enc_key_default) Unfrozen (ro_blind v)).
    assert (Ez : zv a = zv (ro_amount v)) by (rewrite <- Ea; symmetry; apply zv_f_of_u128).
    destruct v as [va vc vo vp vf vb]. cbn in *. subst. auto 10.
  Qed.

  (** *** Transfers *)
  Section Message.
    Context (t : TransferV) (ad : AssetDefinition).
    Hypothesis Epol : tv_pol t = pol_value (policy ad).
    Hypothesis Ebit : rm_bit (reveal_map (policy ad)) 0 = rm_bit (reveal_map (policy ad)) 1.

    (** what the message says about input [i] is what the memo of the record [r] says *)
    Lemma lift_input i : owns (in_sk i) (ro_owner (in_ro i)) -> ro_flag (in_ro i) = f0 ->
      length (cr_v_attrs (in_cred i)) = ATTRS_LEN ->
      (is_dummy_code (ro_code (in_ro i)) -> ro_amount (in_ro i) = f0) ->
      (~ is_dummy_code (ro_code (in_ro i)) -> ro_pol (in_ro i) = tv_pol t) ->
      zv (ro_amount (in_ro i)) < 2 ^ 128 ->
      exists r, memo_of_input (po_map (tv_pol t)) i = in_vals ad r (cr_v_attrs (in_cred i)) /\
        is_dummy_def (asset_def r) = zeqb (ro_code (in_ro i)) dummy_asset_code /\
        (ro_code (in_ro i) <> dummy_asset_code -> ro_value r = in_ro i).
    Proof.
      intros [_ HO] HF HL HD HP HA. unfold ATTRS_LEN in HL.
      assert (EA : forall attrs : list F, length attrs = 8%nat ->
        map (fun ka => shown (reveal_bit (rm_to_scalar (reveal_map (policy ad))) (4 + fst ka)) (snd ka)) (combine (seq 0 ATTRS_LEN) attrs) =
        map (fun ia => sel (rm_bit (reveal_map (policy ad)) (4 + fst ia)) (snd ia)) (combine (seq 0 (length attrs)) attrs)).
      { intros attrs El. rewrite El. apply map_ext_in. intros [k v] Hk. apply in_combine_l in Hk. apply in_seq in Hk. cbn [fst snd].
        rewrite reveal_bit_rm by (unfold ATTRS_LEN in *; lia). reflexivity. }
      destruct (zeqb (ro_code (in_ro i)) dummy_asset_code) eqn:Ed.
      - apply zeqb_spec in Ed. exists (mkRO (w128 0) asset_def_dummy (mkUserPubKey pt_id enc_key_default) Unfrozen (ro_blind (in_ro i))).
        assert (Edd : is_dummy_def asset_def_dummy = true) by (apply (is_dummy_iff L); reflexivity).
        split; [|split; [cbn [asset_def]; rewrite Edd; reflexivity|intros K; contradiction]].
        unfold memo_of_input, in_vals. cbn [asset_def amount blind]. rewrite Edd, Epol. cbn [pol_value po_map]. rewrite EA by exact HL.
        assert (Ez : zeqb (ro_code (in_ro i)) dummy_asset_code = true) by (apply zeqb_spec; exact Ed). rewrite Ez.
        rewrite (HD Ed), !reveal_bit_rm by lia.
        assert (E0 : f_of_u128 (w128 0) = f0 :> F) by (apply zmod_ext; rewrite zv_f_of_u128, zv_w128, zv_f0; reflexivity). rewrite E0. reflexivity.
      - assert (Hd : ro_code (in_ro i) <> dummy_asset_code) by (intros K; apply zeqb_spec in K; congruence).
        destruct (lift_record (in_ro i) (mkDef (ro_code (in_ro i)) (policy ad)) _ HO HA eq_refl) as (r & Er & E1 & E2 & E3 & E4 & E5); [rewrite HP by exact Hd; exact Epol|exact HF|].
        exists r. assert (Edd : is_dummy_def (asset_def r) = false).
        { rewrite E1. destruct (is_dummy_def _) eqn:K; auto. apply (is_dummy_iff L) in K. apply (f_equal code) in K. cbn in K. contradiction. }
        split; [|split; auto]. unfold memo_of_input, in_vals. rewrite Edd, Ed, Epol. cbn [pol_value po_map]. rewrite EA by exact HL.
        rewrite !reveal_bit_rm by lia. rewrite <- Er. cbn [ro_value ro_owner ro_amount ro_blind].
        unfold sel, shown, addr_x, addr_y. rewrite <- Ebit. reflexivity.
    Qed.
    Lemma lift_output o P : ro_owner o = pt_xy P -> zv (ro_amount o) < 2 ^ 128 -> ro_code o = code ad -> ro_pol o = tv_pol t -> ro_flag o = f0 ->
      exists r, ro_value r = o /\ asset_def r = ad /\ freeze_flag r = Unfrozen /\ memo_of_output (po_map (tv_pol t)) o = out_vals r.
    Proof.
      intros HO HA HC HP HF. rewrite Epol in HP. destruct (lift_record o ad P HO HA HC HP HF) as (r & Er & E1 & E2 & E3 & E4 & E5).
      exists r. split; [exact Er|]. split; [exact E1|]. split; [exact E2|].
      unfold memo_of_output, out_vals. rewrite Epol. cbn [pol_value po_map]. rewrite !reveal_bit_rm by lia.
      rewrite <- Er. cbn [ro_value ro_owner ro_amount ro_blind]. rewrite E1. reflexivity.
    Qed.
  End Message.

  Lemma Forall2_build {A B} (P : A -> B -> Prop) l : (forall x, In x l -> exists y, P x y) -> exists k, Forall2 P l k.
  Proof.
    induction l as [|x l IH]; intros H; [exists []; constructor|].
    destruct (H x (or_introl eq_refl)) as [y Hy]. destruct IH as [k Hk]; [intros; apply H; right; auto|]. exists (y :: k). constructor; auto.
  Qed.
  Lemma transfer_viewed d n t ad kp :
    transfer_opens d n t -> tv_code t = code ad -> tv_pol t = pol_value (policy ad) ->
    viewer_pub_key kp = viewer_pk (policy ad) -> viewer_pk (policy ad) <> pt_id ->
    rm_bit (reveal_map (policy ad)) 0 = rm_bit (reveal_map (policy ad)) 1 ->
    Forall (fun i => zv (ro_amount (in_ro i)) < 2 ^ 128) (tl (tv_ins t)) ->
    zv (reveal_threshold (policy ad)) < isum (tl (in_amounts t)) ->
    Z.of_nat (1 + 12 * length (tn_nullifiers n) + 4 * length (tn_commitments n)) < 2 ^ 64 ->
    (forall o, In o (tl (tv_outs t)) -> exists P, ro_owner o = pt_xy P) ->
    exists ins xs outs,
      open_transfer_viewing_memo kp ad (length (tn_nullifiers n)) (length (tn_commitments n)) (tn_memo n) =
        Ok (ins, map (fun o => entry ad o hidden_attrs) outs) /\
      Forall2 stands_for outs (tl (tv_outs t)) /\ map derive_record_commitment outs = tl (tn_commitments n) /\
      Forall (fun o => asset_def o = ad /\ freeze_flag o = Unfrozen) outs /\
      Forall2 stands_for_input xs (real_inputs t) /\
      ((forall i, In i (real_inputs t) -> ro_owner (in_ro i) <> no_key) ->
       ins = map (fun x => entry ad (fst x) (shown_attrs ad (snd x))) xs).
  Proof.
    intros HO Ec Ep Hkp Hv Hbit HA HT Hsz Hown.
    destruct (opens_lengths _ _ _ HO) as [Li Lo]. destruct (opens_spends _ _ _ HO) as [HS HSo].
    destruct (opens_assets _ _ _ HO) as (i0 & is & o0 & os & EI & EO & _ & _ & _ & _ & HAo & HAi & HAd).
    assert (Hdec : elgamal_decrypt kp (vm_ephemeral (tn_memo n), vm_data (tn_memo n)) = transfer_message t).
    { apply (opens_viewing L d n t HO); auto.
      - rewrite Ep. cbn [pol_value po_viewer]. intros K. apply (is_no_key L) in K. contradiction.
      - rewrite Li. lia.
      - rewrite Ep. cbn [pol_value po_threshold]. rewrite zv_f_of_u128. exact HT.
      - rewrite Ep. cbn [pol_value po_viewer]. rewrite Hkp. reflexivity. }
    assert (Hcred : forall i, In i (tv_ins t) -> length (cr_v_attrs (in_cred i)) = ATTRS_LEN).
    { destruct HO as (_ & _ & _ & R). pose proof (first_all _ (fun i _ => length (cr_v_attrs (in_cred i)) = ATTRS_LEN) _ _ (tr_inputs _ _ R) (fun b x y H => io_cred_len _ _ _ _ _ H)) as K.
      intros i Hi. destruct (Forall2_ex_l _ _ _ _ K Hi) as (y & _ & Hy). exact Hy. }
    rewrite EI, EO in *. cbn [tl] in *.
    assert (GI : exists rs, Forall2 (fun i r => memo_of_input (po_map (tv_pol t)) i = in_vals ad r (cr_v_attrs (in_cred i)) /\
        is_dummy_def (asset_def r) = zeqb (ro_code (in_ro i)) dummy_asset_code /\
        (ro_code (in_ro i) <> dummy_asset_code -> ro_value r = in_ro i)) is rs).
    { apply Forall2_build. intros i Hi. destruct (Forall2_ex_l _ _ _ i HS (or_intror Hi)) as (nl & _ & K1 & K2 & _ & K4 & _).
      apply lift_input; auto; [apply Hcred; right; exact Hi|]. rewrite Forall_forall in HA. apply HA, Hi. }
    assert (GO : exists rs, Forall2 (fun o r => ro_value r = o /\ asset_def r = ad /\ freeze_flag r = Unfrozen /\
        memo_of_output (po_map (tv_pol t)) o = out_vals r) os rs).
    { apply Forall2_build. intros o Ho. destruct (Forall2_ex_l _ _ _ o HSo (or_intror Ho)) as (rc & _ & K1 & K2 & K3).
      destruct (Hown o Ho) as [P HP]. destruct (HAo o Ho) as [A1 A2]. apply (lift_output t ad Ep Hbit o P); auto; [lia|congruence]. }
    destruct GI as [rs GI], GO as [outs GO].
    set (ins := filter vd_not_dummy (map (fun ri => in_entry ad (fst ri) (cr_v_attrs (in_cred (snd ri)))) (combine rs is))).
    exists ins, (map (fun ri => (fst ri, cr_v_attrs (in_cred (snd ri)))) (filter (fun ri => negb (zeqb (ro_code (in_ro (snd ri))) dummy_asset_code)) (combine rs is))), outs.
    assert (HLr : length rs = length is) by (symmetry; apply (Forall2_len (fun _ _ => True)); eapply Forall2_imp; [|exact GI]; auto).
    assert (HLo : length outs = length os) by (symmetry; apply (Forall2_len (fun _ _ => True)); eapply Forall2_imp; [|exact GO]; auto).
    assert (Hcon : Forall (fun ri => In (snd ri) is /\ memo_of_input (po_map (tv_pol t)) (snd ri) = in_vals ad (fst ri) (cr_v_attrs (in_cred (snd ri))) /\
        is_dummy_def (asset_def (fst ri)) = zeqb (ro_code (in_ro (snd ri))) dummy_asset_code /\
        (ro_code (in_ro (snd ri)) <> dummy_asset_code -> ro_value (fst ri) = in_ro (snd ri))) (combine rs is)).
    { clear -GI. induction GI as [|i r is rs H GI IH]; cbn [combine]; constructor; cbn [fst snd].
      - split; [left; reflexivity|exact H].
      - eapply Forall_impl; [|exact IH]. intros a [K1 K2]. split; [right; exact K1|exact K2]. }
    assert (Hcs : map snd (combine rs is) = is).
    { clear -HLr. revert is HLr. induction rs as [|r rs IH]; intros [|i is] H; try discriminate H; [reflexivity|]. cbn. f_equal. apply IH. injection H as H. exact H. }
    split; [|split; [|split; [|split; [|split]]]].
    - unfold open_transfer_viewing_memo. rewrite Hkp, (point_eqb_refl L). cbn [negb].
      assert (Hp : forall k, (0 < k)%nat -> usize_pred k = Ok (Z.of_nat (k - 1))).
      { intros [|k] ?; [lia|]. cbn [usize_pred Nat.sub]. rewrite Nat.sub_0_r. reflexivity. }
      cbn [length] in Li, Lo. rewrite !Hp by lia. cbn [bind]. rewrite Hdec.
      set (ich := map (fun ri => in_vals ad (fst ri) (cr_v_attrs (in_cred (snd ri)))) (combine rs is)).
      set (och := map out_vals outs).
      assert (EM : transfer_message t = code ad :: concat ich ++ concat och).
      { unfold transfer_message. rewrite EI, EO, Ec. cbn [tl]. f_equal. f_equal; f_equal.
        - rewrite <- Hcs at 1. rewrite map_map. apply map_ext_in. intros ri Hri. rewrite Forall_forall in Hcon. apply (Hcon ri Hri).
        - clear -GO. induction GO as [|o r os outs H GO IH]; [reflexivity|]. unfold och in *. cbn [map]. f_equal; [apply H|exact IH]. }
      rewrite EM.
      assert (Hi12 : Forall (fun ch => length ch = 12%nat) ich).
      { apply Forall_forall. intros ch Hc. apply in_map_iff in Hc. destruct Hc as (ri & <- & Hri). apply in_vals_length.
        rewrite Forall_forall in Hcon. destruct (Hcon _ Hri) as [Hi _]. apply Hcred. right. exact Hi. }
      assert (Ho4 : Forall (fun ch => length ch = 4%nat) och).
      { apply Forall_forall. intros ch Hc. apply in_map_iff in Hc. destruct Hc as (x & <- & _). reflexivity. }
      assert (Hli : length ich = (length (tn_nullifiers n) - 1)%nat) by (subst ich; rewrite map_length, combine_length, HLr; lia).
      assert (Hlo : length och = (length (tn_commitments n) - 1)%nat) by (subst och; rewrite map_length; lia).
      assert (Hpl : length (code ad :: concat ich ++ concat och) = (1 + (length (tn_nullifiers n) - 1) * 12 + (length (tn_commitments n) - 1) * 4)%nat).
      { cbn [length]. rewrite app_length, (concat_len _ 12 Hi12), (concat_len _ 4 Ho4), Hli, Hlo. lia. }
      unfold AssetCode in *. rewrite Hpl. unfold VIEWABLE_DATA_LEN.
      rewrite Z.mod_small by lia.
      match goal with |- context [(?a =? ?b)%Z] => destruct (Z.eqb_spec a b); [|lia] end. cbn [negb].
      rewrite zeqb_refl. cbn [negb]. rewrite <- Hli, <- Hlo.
      set (ies := map (fun ri => in_entry ad (fst ri) (cr_v_attrs (in_cred (snd ri)))) (combine rs is)).
      set (oes := map (fun o => entry ad o hidden_attrs) outs).
      rewrite (process_chunks_app _ 12 ich ies (concat och)); [|subst ich ies|exact Hi12|lia|lia].
      2:{ clear -Hcon Hcred Hbit L. induction Hcon as [|ri l Hx HF IH]; cbn [map]; constructor; auto.
          apply (decode_in L); [exact Hbit|]. apply Hcred. right. apply Hx. }
      cbn [bind]. rewrite <- (app_nil_r (concat och)).
      rewrite (process_chunks_app _ 4 och oes []); [|subst och oes|exact Ho4|lia|lia].
      2:{ clear -GO Hbit L. induction GO as [|o r os outs H GO IH]; cbn [map]; constructor; auto.
          destruct H as (_ & E & _). pose proof (decode_out L r) as K. cbv zeta in K. rewrite E in K. apply K, Hbit. }
      cbn [bind]. reflexivity.
    - clear -GO. induction GO as [|o r os outs H GO IH]; constructor; [apply H|exact IH].
    - inversion HSo as [|? ? ? ? _ HSo' Ex Ey]. subst. cbn [tl]. clear -GO HSo'.
      revert l' HSo'. induction GO as [|o r os outs H GO IH]; intros l' HSo'; inversion HSo' as [|? rc ? ? K HSo'' Ex Ey]; subst; [reflexivity|].
      cbn [map]. f_equal; [|apply IH; exact HSo'']. destruct K as [-> _]. destruct H as [<- _]. symmetry. apply commitment_of_ro_value.
    - clear -GO. induction GO as [|o r os outs H GO IH]; constructor; [|exact IH]. split; apply H.
    - unfold real_inputs. rewrite EI. cbn [tl].
      enough (G : Forall2 stands_for_input
        (map (fun ri => (fst ri, cr_v_attrs (in_cred (snd ri)))) (filter (fun ri => negb (zeqb (ro_code (in_ro (snd ri))) dummy_asset_code)) (combine rs is)))
        (filter (fun i => negb (zeqb (ro_code (in_ro i)) dummy_asset_code)) (map snd (combine rs is)))) by (rewrite Hcs in G; exact G).
      clear -Hcon. induction Hcon as [|ri l Hx HF IH]; cbn [map filter]; [constructor|].
      destruct (negb _) eqn:Ed; [|exact IH]. cbn [map]. constructor; [|exact IH].
      split; [|reflexivity]. apply Hx. intros K. apply zeqb_spec in K. rewrite K in Ed. discriminate.
    - intros Hne. subst ins. unfold real_inputs in Hne. rewrite EI in Hne. cbn [tl] in Hne.
      clear -Hcon Hne L. induction Hcon as [|ri l Hx HF IH]; cbn [map filter]; [reflexivity|].
      destruct Hx as (Hin & _ & Ed & Ev). unfold in_entry at 1 2. rewrite Ed.
      destruct (zeqb (ro_code (in_ro (snd ri))) dummy_asset_code) eqn:Ez; cbn [negb].
      + unfold vd_not_dummy at 1. cbn [vd_user_address]. rewrite (point_eqb_refl L). cbn [negb]. exact IH.
      + assert (Hd : ro_code (in_ro (snd ri)) <> dummy_asset_code) by (intros K; apply zeqb_spec in K; congruence).
        assert (Hnd : address (pub_key (fst ri)) <> pt_id).
        { intros K. apply (Hne (snd ri)); [apply filter_In; split; [exact Hin|rewrite Ez; reflexivity]|].
          rewrite <- (Ev Hd). cbn [ro_value ro_owner]. rewrite K. apply (is_no_key L). reflexivity. }
        apply (point_eqb_neq L) in Hnd.
        cbn [map fst snd]. unfold vd_not_dummy at 1. unfold entry at 1. cbn [vd_user_address].
        destruct (rm_bit _ 0); cbn [if_revealed]; rewrite ?Hnd; cbn [negb map]; f_equal; exact IH.
  Qed.

  (** *** Mints *)
  Lemma mint_viewed d n t kp P :
    mint_opens d n t -> viewer_pub_key kp = viewer_pk (policy (mn_def n)) -> viewer_pk (policy (mn_def n)) <> pt_id ->
    ro_owner (mv_mint t) = pt_xy P -> P <> pt_id ->
    exists r, open_mint_viewing_memo kp (mn_def n) (mn_amount n) (mn_memo n) = Ok (entry (mn_def n) r []) /\
      stands_for r (mv_mint t) /\ asset_def r = mn_def n /\ freeze_flag r = Unfrozen /\ amount r = mn_amount n /\ address (pub_key r) = P /\
      derive_record_commitment r = mn_mint n.
  Proof.
    intros HO Hk Hv HP HN. destruct (mint_opens_facts L _ _ _ HO) as (E1 & E2 & E3 & E4 & E5 & E6 & _).
    pose proof (mint_opens_facts L _ _ _ HO) as F. decompose [and] F. clear F.
    match goal with K : forall viewer : ViewerKeyPair, _ |- _ => pose proof (K kp (eq_sym Hk)) as Hd end. rewrite Hk in Hd. specialize (Hd Hv).
    exists (mkRO (mn_amount n) (mn_def n) (mkUserPubKey P enc_key_default) Unfrozen (ro_blind (mv_mint t))).
    assert (Er : ro_value (mkRO (mn_amount n) (mn_def n) (mkUserPubKey P enc_key_default) Unfrozen (ro_blind (mv_mint t))) = mv_mint t).
    { destruct (mv_mint t) as [va vc vo vp vf vb]. cbn in *. subst. reflexivity. }
    split; [|split; [exact Er|]; cbn [asset_def freeze_flag amount pub_key address]; repeat (split; [reflexivity|]); rewrite E1, <- Er; symmetry; apply commitment_of_ro_value].
    unfold open_mint_viewing_memo. rewrite Hd. cbn [length Nat.eqb negb]. unfold vd_from_mint_note, fetch_address.
    rewrite <- surjective_pairing, HP, (pt_of_xy_xy L). apply (point_eqb_neq L) in HN. rewrite HN, orb_false_r.
    unfold entry, fetch_blind_factor, rm_is_user_address_revealed, rm_is_amount_revealed, rm_is_blinding_factor_revealed. cbn [address pub_key amount blind].
    destruct (rm_bit _ 0); reflexivity.
  Qed.
End View.
