(** Proofs of C86: what the library makes opens with the records the caller gave and meets the side conditions of C44, C45 and C83. *)
From Verif Require Import Base Config Structs Keys Utils UtilsProofs Memo Plonk Witness Circuits Relation Snark Notes Serde SerdeProofs
  GadgetProofs TransferCircuitProofs MintCircuitProofs FreezeCircuitProofs CircuitTheorems NoteProofs NoteGen NoteGen2 NoteLive Accepted
  Ledger LedgerSpec LedgerProofs LedgerSupply OriginSpec Origin LibrarySpec.

Section Library.
  Context {C : CapConfig} (L : CapLaws C) {S : Snark C} (SL : SnarkLaws S) {Z0 : Ser C S}.

  Lemma secrets_of (inputs : list TransferNoteInput) (secs : list InputSecret) :
    Forall2 (fun i s => is_kp s = ti_kp i /\ is_ro s = ti_ro i /\ is_acc s = ti_acc i /\
                        (cred_pk (policy (asset_def (ti_ro i))) = pt_id -> cred_dummy_unexpired = Ok (is_cred s)) /\
                        (cred_pk (policy (asset_def (ti_ro i))) <> pt_id -> ti_cred i = Some (is_cred s))) inputs secs ->
    map (fun i => mkSpend (in_ro i) (in_place i) (in_sk i)) (map input_value secs) =
    map (fun i => offered (ti_ro i) (ti_acc i) (addr_sk (ti_kp i))) inputs.
  Proof.
    induction 1 as [|i s l k (E1 & E2 & E3 & _) _ IH]; [reflexivity|]. cbn [map]. rewrite IH. f_equal.
    unfold offered, input_value, place_value. cbn [in_ro in_place in_sk]. rewrite E1, E2, E3. reflexivity.
  Qed.

  Lemma transfer_made d n ins outs : made d (TxTransfer n) ins outs ->
    exists o, tx_opens d (TxTransfer n) o /\ op_inputs o = ins /\ op_outputs o = outs /\ supply_condition (TxTransfer n) o.
  Proof.
    intros (r & inputs & outputs & pk & vu & extra & sk & H & Hd & Hl1 & Hl2 & -> & ->).
    destruct (transfer_generate_inv L _ _ _ _ _ _ _ _ H) as (w & p & s & G). exists (OpTransfer (transfer_value w)).
    destruct (new_unchecked_inv L _ _ _ _ (tg_witness _ _ _ _ _ _ _ _ _ _ _ G)) as (W1 & W2 & W3 & W).
    pose proof (tg_relation L _ _ _ _ _ _ _ _ _ _ _ G) as R. destruct (tg_lens _ _ _ _ _ _ _ _ _ _ _ G) as (L1 & L2 & L3).
    destruct (tg_assets _ _ _ _ _ _ _ _ _ _ _ G) as (i0 & irest & o0 & orest & def & EI & EO & N1 & N2 & HT & HA & _).
    cbn [tx_opens op_inputs op_outputs transfer_value tv_ins tv_outs supply_condition tv_code]. unfold transfer_opens. conjs.
    - rewrite (tg_nullifiers _ _ _ _ _ _ _ _ _ _ _ G), EI. discriminate.
    - rewrite (tg_commitments _ _ _ _ _ _ _ _ _ _ _ G), EO. discriminate.
    - unfold transfer_depth. cbn [tv_ins transfer_value]. apply Forall_forall. intros x Hx. apply in_map_iff in Hx. destruct Hx as (s' & <- & Hs).
      destruct (Forall2_In_r _ _ _ _ W Hs) as (i & Hi & _ & _ & K3 & _). cbn [in_place input_value place_value pl_path]. rewrite K3, (L3 i Hi). exact Hd.
    - rewrite (tg_note _ _ _ _ _ _ _ _ _ _ _ G). exact R.
    - apply secrets_of. exact W.
    - rewrite W2. reflexivity.
    - intros x Hx Hc. rewrite W1, EI. rewrite EI in W. inversion W as [|? s0 ? secs W0 Wr E1 E2]; subst. rewrite <- E2 in Hx. cbn [map tl] in Hx.
      apply in_map_iff in Hx. destruct Hx as (s' & <- & Hs). destruct (Forall2_In_r _ _ _ _ Wr Hs) as (i & Hi & _ & K2 & _).
      cbn [in_ro input_value ro_code ro_value] in *. rewrite K2 in *.
      assert (ED : witness_asset_def (i0 :: irest) = def).
      { change (fold_left pick_def irest (pick_def asset_def_native i0) = def). replace (pick_def asset_def_native i0) with asset_def_native; [exact (witness_def L irest def HA HT)|].
        unfold pick_def. rewrite N1. destruct (_ && _); reflexivity. }
      rewrite ED. destruct (HA i Hi) as [E|E]; [rewrite E in Hc; exfalso; apply Hc; reflexivity|rewrite E; reflexivity].
    - rewrite map_length, <- (Forall2_len _ _ _ W). exact Hl1.
    - rewrite map_length, W2. exact Hl2.
  Qed.

  (** a mint note opens when its amount is in range, which holds when it was accepted *)
  Lemma mint_made d n ins outs : (exists o, tx_opens d (TxMint n) o) -> made d (TxMint n) ins outs ->
    exists o, tx_opens d (TxMint n) o /\ op_inputs o = ins /\ op_outputs o = outs /\ supply_condition (TxMint n) o.
  Proof.
    intros (o' & Ho') (r & mint_ro & seed & desc & fee & pk & sk & H & Hd & -> & ->).
    destruct (mint_generate_inv L _ _ _ _ _ _ _ _ H) as (p & s & G). exists (OpMint (mint_value (mint_witness_of r mint_ro seed desc fee))).
    destruct o' as [|t'|]; try contradiction. destruct Ho' as [_ R'].
    destruct (mg_amount _ _ _ _ _ _ _ _ _ _ G) as (A1 & _). destruct (mg_aux _ _ _ _ _ _ _ _ _ _ G) as (_ & X2 & _).
    assert (HR : zv (amount mint_ro) < 2 ^ 127).
    { apply in_range_amount. rewrite <- A1. pose proof (mr_range _ _ R') as HR. pose proof (mr_amount _ _ R') as HA.
      cbn [mq_amount mint_pub_value mint_note_public mp_mint_amount] in HA. first [rewrite HA in HR|rewrite <- HA in HR]; exact HR. }
    cbn [tx_opens op_inputs op_outputs supply_condition]. split; [split|].
    - cbn [mint_value mint_witness_of mv_place place_value pl_path mw_acc]. rewrite <- Hd. exact (mg_depth _ _ _ _ _ _ _ _ _ _ G).
    - rewrite (mg_note _ _ _ _ _ _ _ _ _ _ G). apply (mint_generated_relation L _ _ _ _ _ _ _ _ _ _ G). exact HR.
    - split; [reflexivity|]. split; [reflexivity|]. pose proof (mg_fee _ _ _ _ _ _ _ _ _ _ G) as Hfee. apply (check_fee_iff L) in Hfee. destruct Hfee as (F1 & _).
      cbn [tx_fee mint_value mint_witness_of mv_fee_ro ro_amount ro_value mw_fee_ro]. rewrite X2, zv_f_of_u128. exact F1.
  Qed.

  Lemma pairs_of (inputs : list FreezeNoteInput) : forall outs, length outs = length inputs ->
    let ps := pair_up (map ro_value (map zi_ro inputs)) (map place_value (map zi_acc inputs)) (map fr_to_fq (map zi_kp inputs)) (map ro_value outs) in
    map (fun x => mkSpend (fz_in x) (fz_place x) (fz_sk x)) ps = map (fun i => offered (zi_ro i) (zi_acc i) (zi_kp i)) inputs /\
    map fz_out ps = map ro_value outs /\ forall x, In x ps -> exists i, In i inputs /\ fz_place x = place_value (zi_acc i).
  Proof.
    induction inputs as [|i l IH]; intros [|o outs] H; try discriminate; cbn [map pair_up].
    - split; [reflexivity|]. split; [reflexivity|]. intros x [].
    - cbn [length] in H. injection H as H. destruct (IH outs H) as (H1 & H2 & H3). rewrite H1, H2. split; [reflexivity|]. split; [reflexivity|].
      intros x [<-|Hx]; [exists i; cbn; auto|]. destruct (H3 x Hx) as (j & Hj & E). exists j. cbn. auto.
  Qed.
  Lemma freeze_made d n ins outs : made d (TxFreeze n) ins outs ->
    exists o, tx_opens d (TxFreeze n) o /\ op_inputs o = ins /\ op_outputs o = outs /\ supply_condition (TxFreeze n) o.
  Proof.
    intros (r & inputs & fee & pk & sk & outputs & H & Hd1 & Hd2 & -> & ->).
    destruct (freeze_generate_inv L _ _ _ _ _ _ _ H) as (p & s & G). exists (OpFreeze (freeze_value (freeze_new_unchecked inputs outputs fee))).
    destruct (freeze_from_witness_lengths _ _ (fg_public _ _ _ _ _ _ _ _ _ G)) as (HL & _).
    assert (EL : length outputs = length inputs).
    { rewrite (fg_outs _ _ _ _ _ _ _ _ _ G). unfold freeze_get_output_ros. rewrite ?map_length, ?combine_length, ?seq_length, ?map_length; lia. }
    destruct (pairs_of inputs outputs EL) as (P1 & P2 & P3).
    destruct (fg_aux _ _ _ _ _ _ _ _ _ G) as (_ & X2 & _).
    cbn [tx_opens op_inputs op_outputs supply_condition]. split; [split|].
    - unfold freeze_depth, freeze_value, freeze_new_unchecked, freeze_of_lists. cbn [fw_inputs fw_accs fw_outputs fw_keys map hd tl fv_place fv_pairs]. split; [exact Hd1|].
      apply Forall_forall. intros x Hx. destruct (P3 x Hx) as (i & Hi & ->). exact (Hd2 i Hi).
    - rewrite (fg_note _ _ _ _ _ _ _ _ _ G). exact (fg_relation _ _ _ _ _ _ _ _ _ G).
    - unfold freeze_value, freeze_new_unchecked, freeze_of_lists. cbn [fw_inputs fw_accs fw_outputs fw_keys fw_fee_kp map hd tl fv_fee_ro fv_place fv_sk fv_chg fv_pairs].
      rewrite P1, P2. split; [reflexivity|]. split; [reflexivity|].
      pose proof (fg_fee _ _ _ _ _ _ _ _ _ G) as Hfee. apply (check_fee_iff L) in Hfee. destruct Hfee as (F1 & _).
      cbn [tx_fee ro_amount ro_value]. rewrite X2, zv_f_of_u128. exact F1.
  Qed.

  Lemma made_opens d t ins outs : (exists o, tx_opens d t o) -> made d t ins outs ->
    exists o, tx_opens d t o /\ op_inputs o = ins /\ op_outputs o = outs /\ supply_condition t o.
  Proof. destruct t; intros H K; [apply transfer_made|apply mint_made|apply freeze_made]; auto. Qed.
  (** secrets given as key pairs are reduced *)
  Lemma made_secrets d t ins outs : made d t ins outs -> forall s, In s ins -> zv (sp_sk s) < sub_order.
  Proof.
    assert (K : forall ro acc sk, zv (sp_sk (offered ro acc sk)) < sub_order).
    { intros. unfold offered. cbn [sp_sk]. rewrite zv_fr_to_fq. apply zv_range. }
    destruct t; cbn [made].
    - intros (r & inputs & outputs & pk & vu & extra & sk & _ & _ & _ & _ & -> & _) s Hs. apply in_map_iff in Hs. destruct Hs as (i & <- & _). apply K.
    - intros (r & mint_ro & seed & desc & fee & pk & sk & _ & _ & -> & _) s [<-|[]]. apply K.
    - intros (r & inputs & fee & pk & sk & outputs & _ & _ & _ & -> & _) s [<-|Hs]; [apply K|]. apply in_map_iff in Hs. destruct Hs as (i & <- & _). apply K.
  Qed.

  (** a choice for each of finitely many notes with distinct nullifiers *)
  Lemma choose_for {A} (a0 : A) (P : TransactionNote -> A -> Prop) txns : (forall t, In t txns -> tx_nullifiers t <> [] /\ exists a, P t a) ->
    NoDup (flat_map tx_nullifiers txns) -> exists f, forall t, In t txns -> P t (f t).
  Proof.
    intros HO. induction txns as [|t txns IH]; intros ND; [exists (fun _ => a0); intros t []|].
    cbn [flat_map] in ND. destruct IH as (op & Hop).
    { intros t' Ht. apply HO. cbn. auto. }
    { apply NoDup_app_r in ND. exact ND. }
    destruct (HO t) as (HN & o & Ho); [cbn; auto|].
    exists (fun t' => if existsb (fun n => existsb (zeqb n) (tx_nullifiers t)) (tx_nullifiers t') then o else op t').
    intros t' [<-|Ht].
    - destruct (tx_nullifiers t) as [|n ns] eqn:E; [congruence|]. rewrite <- E.
      replace (existsb _ (tx_nullifiers t)) with true; [exact Ho|]. symmetry. apply existsb_exists. exists n. rewrite E. split; [cbn; auto|]. apply existsb_exists.
      exists n. split; [cbn; auto|apply zeqb_refl].
    - replace (existsb _ (tx_nullifiers t')) with false; [auto|]. symmetry. apply existsb_false. intros n Hn. apply existsb_false. intros m Hm.
      destruct (zeqb n m) eqn:E; [|reflexivity]. apply zeqb_spec in E. subst m. exfalso.
      assert (In n (flat_map tx_nullifiers txns)) by (apply in_flat_map; eauto).
      clear - ND Hm H. induction (tx_nullifiers t) as [|a l IHl]; [destruct Hm|]. cbn in ND. inversion ND; subst. destruct Hm as [->|Hm]; auto.
      apply H2. apply in_or_app. auto.
  Qed.

  Context (v : Validator) (h : list event) (from : TransactionNote -> list Spend * list RoV).
  Hypothesis HM : forall t, In t (accepted v h) -> made (vd_depth v) t (fst (from t)) (snd (from t)).

  Lemma library_openings : exists op, forall t, In t (accepted v h) ->
    tx_opens (vd_depth v) t (op t) /\ op_inputs (op t) = fst (from t) /\ op_outputs (op t) = snd (from t) /\ supply_condition t (op t).
  Proof.
    destruct (history_openings L SL v h) as (op0 & H0).
    apply (choose_for (OpMint (mkMintV (mkRoV f0 f0 no_key (mkPolV no_key no_key no_key f0 f0) f0 f0) f0 (mkRoV f0 f0 no_key (mkPolV no_key no_key no_key f0 f0) f0 f0) (mkPlaceV f0 []) (mkRoV f0 f0 no_key (mkPolV no_key no_key no_key f0 f0) f0 f0) f0 f0 f0))
      (fun t o => tx_opens (vd_depth v) t o /\ op_inputs o = fst (from t) /\ op_outputs o = snd (from t) /\ supply_condition t o));
      [|apply accepted_nullifiers].
    intros t Ht. split; [destruct (tx_facts L _ _ _ (H0 t Ht)) as (_ & HN & _); exact HN|]. apply made_opens; eauto.
  Qed.
  Lemma spends_offered op txns : (forall t, In t txns -> op_inputs (op t) = fst (from t)) -> spends_of op txns = offered_in from txns.
  Proof.
    intros H. unfold spends_of, offered_in. induction txns as [|t l IH]; [reflexivity|]. cbn [flat_map]. rewrite IH by (intros; apply H; cbn; auto).
    unfold real_inputs. rewrite H by (cbn; auto). reflexivity.
  Qed.
  Lemma records_created op : (forall t, In t (accepted v h) -> op_outputs (op t) = snd (from t)) -> records op v h = created_in from v h.
  Proof.
    unfold records, created_in, accepted. induction (effective v (ledger_new (vd_depth v)) h) as [|e l IH]; intros H; [reflexivity|].
    cbn [flat_map] in *. rewrite IH by (intros; apply H, in_or_app; auto). f_equal. destruct e as [ro|b a1 a2 a3]; [reflexivity|].
    cbn [event_records event_created]. f_equal. cbn [event_txns] in H. assert (K : forall t, In t (bk_txns b) -> op_outputs (op t) = snd (from t)) by (intros; apply H, in_or_app; auto).
    clear - K. induction (bk_txns b) as [|t k IH]; [reflexivity|]. cbn [flat_map]. rewrite IH by (intros; apply K; cbn; auto). rewrite K by (cbn; auto). reflexivity.
  Qed.
  Lemma offered_secrets s : In s (offered_in from (accepted v h)) -> zv (sp_sk s) < sub_order.
  Proof.
    unfold offered_in. intros Hs. apply in_flat_map in Hs. destruct Hs as (t & Ht & Hs). apply filter_In in Hs. destruct Hs as [Hs _].
    exact (made_secrets _ _ _ _ (HM t Ht) s Hs).
  Qed.

  Theorem library_history : (vd_depth v <= 100)%nat ->
    let spends := offered_in from (accepted v h) in
    let recs := created_in from v h in
    hash_collision_free (history_hashes (vd_depth v) (lg_leaves (ledger_after v h)) spends) ->
    commitment_binding (recs ++ map sp_ro spends) ->
    (forall s, In s spends -> ro_owner (sp_ro s) <> no_key) ->
    lg_leaves (ledger_after v h) = map commitment_of recs /\
    NoDup (map (fun s => pl_uid (sp_place s)) spends) /\
    (forall c, c <> dummy_asset_code ->
       total c (unspent recs spends) +
         (if zeqb native_asset_code c then sumz (map event_lost_fees (effective v (ledger_new (vd_depth v)) h)) else 0) =
       sumz (map (event_mints c) (effective v (ledger_new (vd_depth v)) h))) /\
    (forall j r, nth_error recs j = Some r -> ro_code r <> dummy_asset_code -> 0 < zv (ro_amount r) -> minted v h r).
  Proof.
    intros Hd spends recs HF HB HK. destruct library_openings as (op & HO).
    assert (ES : spends_of op (accepted v h) = spends) by (apply spends_offered; intros t Ht; apply (HO t Ht)).
    assert (ER : records op v h = recs) by (apply records_created; intros t Ht; apply (HO t Ht)).
    assert (HO1 : forall t, In t (accepted v h) -> tx_opens (vd_depth v) t (op t)) by (intros t Ht; apply (HO t Ht)).
    assert (HO2 : forall t, In t (accepted v h) -> supply_condition t (op t)) by (intros t Ht; apply (HO t Ht)).
    assert (HK' : forall s, In s spends -> zv (sp_sk s) < sub_order /\ ro_owner (sp_ro s) <> no_key).
    { intros s Hs. split; [exact (offered_secrets s Hs)|exact (HK s Hs)]. }
    assert (HBs : commitment_binding (map sp_ro spends)) by (intros x y Hx Hy; apply HB; apply in_or_app; right; assumption).
    rewrite <- ES, <- ER in *. split; [exact (leaves_are_records L v op h HO1)|]. split; [exact (no_double_spend L v op Hd h HO1 HF HBs HK')|].
    split; [intros c Hc; exact (supply_by_minting L v op Hd h HO1 HF HBs HK' HB HO2 c Hc)|].
    exact (all_minted L v op Hd h HO1 HF HB HO2 HK').
  Qed.
End Library.
