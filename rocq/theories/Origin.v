(** Every positive record was minted; frozen records are only touched by their freezer. *)
From Verif Require Import Base Config Structs Keys Utils Memo Plonk Witness Circuits Relation Snark Notes Serde UtilsProofs
  GadgetProofs NoteProofs Accepted Ledger LedgerSpec LedgerProofs LedgerSupply OriginSpec.

Section Origin.
  Context {C : CapConfig} (L : CapLaws C) {S : Snark C} {Z0 : Ser C S}.

  Lemma content_policy r r' : content r = content r' -> same_policy (ro_pol r) (ro_pol r').
  Proof.
    intros H. unfold content in H. pose proof (f_equal fst H) as K. cbn [fst] in K. clear H. injection K as _ _ _ _ E1 E2 E3 E4 E5 E6 _ E7.
    unfold same_policy. destruct (ro_pol r) as [[a1 a2] [b1 b2] [c1 c2] m t], (ro_pol r') as [[a1' a2'] [b1' b2'] [c1' c2'] m' t'].
    cbn [po_viewer po_cred po_freezer po_threshold fst snd] in *. subst. auto.
  Qed.
  Lemma same_policy_trans p q s : same_policy p q -> same_policy q s -> same_policy p s.
  Proof. intros (A & B & D & F) (A' & B' & D' & F'). unfold same_policy. rewrite A, B, D, F. auto. Qed.
  Lemma same_policy_refl p : same_policy p p.
  Proof. unfold same_policy. auto. Qed.

  Lemma total_pos c l : 0 < total c l -> exists r, In r l /\ ro_code r = c /\ 0 < zv (ro_amount r).
  Proof.
    induction l as [|r l IH]; [cbn; lia|]. rewrite total_cons. intros H. destruct (zeqb (ro_code r) c) eqn:E.
    - destruct (Z.lt_ge_cases 0 (zv (ro_amount r))) as [G|G]; [exists r; split; [left; reflexivity|]; split; [apply zeqb_spec, E|exact G]|].
      destruct IH as (x & Hx & P); [lia|]. exists x. split; [right; exact Hx|exact P].
    - destruct IH as (x & Hx & P); [lia|]. exists x. split; [right; exact Hx|exact P].
  Qed.
  Lemma total_nonneg c l : 0 <= total c l.
  Proof. induction l as [|r l IH]; [cbn; lia|]. rewrite total_cons. pose proof (zv_range (ro_amount r)). destruct (zeqb (ro_code r) c); lia. Qed.
  Lemma total_in c r l : In r l -> ro_code r = c -> zv (ro_amount r) <= total c l.
  Proof.
    induction l as [|x l IH]; [intros []|]. rewrite total_cons. intros [->|H] E; pose proof (total_nonneg c l).
    - rewrite E, zeqb_refl. lia.
    - specialize (IH H E). pose proof (zv_range (ro_amount x)). destruct (zeqb (ro_code x) c); lia.
  Qed.

  (** one note: a positive output, or a positive fee, comes from a positive input or is minted by the note *)
  Definition from_input (c : F) (o : Opening) (p : option PolV) : Prop :=
    exists s, In s (op_inputs o) /\ real s = true /\ ro_code (sp_ro s) = c /\ 0 < zv (ro_amount (sp_ro s)) /\
      match p with Some q => c <> native_asset_code -> same_policy (ro_pol (sp_ro s)) q | None => True end.
  Lemma code_input d t o c : tx_opens d t o -> supply_condition t o -> c <> dummy_asset_code ->
    (forall s, In s (op_inputs o) -> real s = true -> zv (ro_amount (sp_ro s)) < 2 ^ 128) ->
    0 < total c (op_outputs o) + (if zeqb native_asset_code c then zv (tx_fee t) else 0) ->
    from_input c o None \/ exists n, t = TxMint n /\ code (mn_def n) = c /\ 0 < zv (mn_amount n).
  Proof.
    intros HO HC Hc HI HP. rewrite (tx_balance L d t o c HO HC Hc HI) in HP.
    destruct (Z.lt_ge_cases 0 (declared_mint c t)) as [G|G].
    - right. destruct t as [n|n|n]; cbn [declared_mint] in G; try lia. exists n. destruct (zeqb (code (mn_def n)) c) eqn:E; [|lia].
      split; [reflexivity|]. split; [apply zeqb_spec, E|exact G].
    - left. destruct (total_pos c (map sp_ro (real_inputs o))) as (r & Hr & E & P); [lia|]. apply in_map_iff in Hr. destruct Hr as (s & <- & Hs).
      unfold real_inputs in Hs. apply filter_In in Hs. destruct Hs as [Hs Hre]. exists s. auto.
  Qed.
  Lemma output_source d t o r : tx_opens d t o -> supply_condition t o -> ro_code r <> dummy_asset_code ->
    (forall s, In s (op_inputs o) -> real s = true -> zv (ro_amount (sp_ro s)) < 2 ^ 128) ->
    In r (op_outputs o) -> 0 < zv (ro_amount r) ->
    from_input (ro_code r) o (Some (ro_pol r)) \/ exists n, t = TxMint n /\ defines (mn_def n) r /\ 0 < zv (mn_amount n).
  Proof.
    intros HO HC Hc HI Hr HP. pose proof (total_in (ro_code r) r (op_outputs o) Hr eq_refl) as HT.
    destruct (code_input d t o (ro_code r) HO HC Hc HI) as [(s & S1 & S2 & S3 & S4 & _)|(n & E & Q1 & Q2)].
    { assert (0 <= zv (tx_fee t)) by apply zv_range. destruct (zeqb _ _); lia. }
    - destruct (zeqb (ro_code r) native_asset_code) eqn:EN.
      { left. exists s. apply zeqb_spec in EN. repeat (split; [assumption|]). intros K. contradiction (K EN). }
      assert (NN : ro_code r <> native_asset_code) by (intros K; rewrite K, zeqb_refl in EN; discriminate EN). clear EN.
      destruct t as [n|n|n], o as [x|x|x]; cbn [tx_opens] in HO; try contradiction; cbn [op_outputs op_inputs] in *.
      + left. exists s. repeat (split; [assumption|]). intros _.
        destruct (opens_assets _ _ _ HO) as (i0 & is & o0 & os & EI & EO & C1 & _ & C2 & _ & C3 & C4 & _). rewrite EI in S1. rewrite EO in Hr.
        destruct Hr as [<-|Hr]; [contradiction (NN C2)|]. rewrite (proj2 (C3 r Hr)). cbn [map] in S1. destruct S1 as [<-|S1]; [cbn [sp_ro] in S3; contradiction NN; congruence|].
        apply in_map_iff in S1. destruct S1 as (i & <- & Hi). cbn [sp_ro] in *. rewrite (C4 i Hi) by congruence. apply same_policy_refl.
      + right. destruct (mint_opens_facts L _ _ _ HO) as (_ & EA & _ & EC & EP & _ & _ & _ & _ & _ & _ & _ & _ & _ & _ & ENc & _).
        destruct Hr as [<-|[<-|[]]]; [contradiction (NN ENc)|]. exists n. split; [reflexivity|]. split; [split; [symmetry; exact EC|intros _; rewrite EP; apply same_policy_refl]|].
        rewrite EA, zv_f_of_u128 in HP. exact HP.
      + left. destruct (freeze_opens_facts _ _ _ HO) as (nl & nls & rc & rcs & _ & _ & _ & _ & _ & _ & _ & _ & _ & _ & ENc & _ & _ & _ & HPs).
        destruct Hr as [<-|Hr]; [contradiction (NN ENc)|]. apply in_map_iff in Hr. destruct Hr as (y & <- & Hy).
        pose proof (proj2 HO) as R. assert (K : exists k, Forall2 (fun a (_ : F) => ro_amount (fz_in a) = ro_amount (fz_out a) /\ ro_code (fz_in a) = ro_code (fz_out a) /\ ro_pol (fz_in a) = ro_pol (fz_out a)) (fv_pairs x) k).
        { eexists. apply (Forall3_first _ _ _ _ _ (fr_pairs _ _ R)). intros a b e K. destruct (po_same _ _ _ _ K) as (A1 & A2 & A3 & A4). auto. }
        destruct K as (k & K). destruct (Forall2_ex_l _ _ _ _ K Hy) as (_ & _ & A1 & A2 & A3).
        exists (mkSpend (fz_in y) (fz_place y) (fz_sk y)). split; [right; apply (in_map (fun x => mkSpend (fz_in x) (fz_place x) (fz_sk x))); exact Hy|].
        cbn [sp_ro]. split; [apply real_spec; cbn [sp_ro]; congruence|]. split; [exact A2|]. split; [rewrite A1; exact HP|]. intros _. rewrite A3. apply same_policy_refl.
    - destruct (zeqb (ro_code r) native_asset_code) eqn:EN.
      { right. exists n. split; [exact E|]. split; [split; [exact Q1|intros K; apply zeqb_spec in EN; contradiction (K EN)]|exact Q2]. }
      assert (NN : ro_code r <> native_asset_code) by (intros K; rewrite K, zeqb_refl in EN; discriminate EN).
      subst t. destruct o as [x|x|x]; cbn [tx_opens] in HO; try contradiction. right. exists n. split; [reflexivity|]. split; [|exact Q2]. split; [exact Q1|]. intros _.
      destruct (mint_opens_facts L _ _ _ HO) as (_ & _ & _ & _ & EP & _ & _ & _ & _ & _ & _ & _ & _ & _ & _ & ENc & _). cbn [op_outputs] in Hr.
      destruct Hr as [<-|[<-|[]]]; [contradiction (NN ENc)|]. rewrite EP. apply same_policy_refl.
  Qed.

  Section History.
    Context (v : Validator) (op : TransactionNote -> Opening).
    Notation d := (vd_depth v).

    (** where the record at position [j] was made *)
    Lemma record_made h : forall l j r, roots_ok d l -> (forall t, In t (txns_from v l h) -> tx_opens d t (op t)) ->
      nth_error (flat_map (event_records op) (effective v l h)) j = Some r ->
      (exists ro, In (EvMint ro) (effective v l h) /\ r = ro_value ro) \/
      exists b sig ts pk, In (EvBlock b sig ts pk) (effective v l h) /\
        ((exists ro, block_fee_record b = Ok ro /\ r = ro_value ro) \/ exists t, In t (bk_txns b) /\ In r (op_outputs (op t))) /\
        forall t, In t (bk_txns b) -> exists k, (k <= length (lg_leaves l) + j)%nat /\ (k <= length (lg_leaves (ledger_from v l h)))%nat /\
                  tx_merkle_root t = tree_root d (firstn k (lg_leaves (ledger_from v l h))).
    Proof.
      induction h as [|e h IH]; intros l j r HR HO Hj; [destruct j; discriminate|]. unfold txns_from in *. cbn [effective] in *.
      cbn [ledger_from fold_left]. fold (ledger_from v (step v l e) h).
      destruct (valid_b v l e) eqn:E.
      2:{ rewrite (step_invalid v l e E) in *. cbn [app] in *. apply IH; auto. }
      cbn [app flat_map] in *. destruct (step_valid v l e E) as (EL & _).
      assert (HOe : forall t, In t (event_txns e) -> tx_opens d t (op t)) by (intros; apply HO, in_or_app; auto).
      pose proof (event_records_commitments L v op e HOe) as EC.
      destruct (Nat.lt_ge_cases j (length (event_records op e))) as [G|G].
      - rewrite nth_error_app1 in Hj by exact G. apply nth_error_In in Hj.
        destruct e as [ro|b sig ts pk]; cbn [event_records event_txns] in *; [destruct Hj as [<-|[]]; left; exists ro; split; [left; reflexivity|reflexivity]|].
        right. exists b, sig, ts, pk. split; [left; reflexivity|]. split.
        + apply in_app_or in Hj. destruct Hj as [Hj|Hj]; [right; apply in_flat_map in Hj; exact Hj|left].
          destruct (block_fee_record b) as [ro| |]; cbn in Hj; [destruct Hj as [<-|[]]; exists ro; auto|destruct Hj|destruct Hj].
        + intros t Ht. apply valid_b_block, valid_block_inv in E. destruct E as (_ & _ & _ & Hroot & _).
          destruct (HR _ (Hroot _ Ht)) as (k & Hk & Ek). exists k. split; [lia|]. split; [rewrite leaves_from, EL, !app_length; lia|].
          rewrite leaves_from, EL, <- app_assoc, firstn_prefix by exact Hk. exact Ek.
      - rewrite nth_error_app2 in Hj by exact G.
        destruct (IH (step v l e) _ r (roots_step v l e HR) (fun t Ht => HO t (in_or_app _ _ _ (or_intror Ht))) Hj) as [(ro & A & B)|(b & sig & ts & pk & H1 & H2 & H3)].
        + left. exists ro. split; [right; exact A|exact B].
        + right. exists b, sig, ts, pk. split; [right; exact H1|]. split; [exact H2|]. intros t Ht. destruct (H3 t Ht) as (k & K1 & K2 & K3). exists k.
          split; [|auto]. rewrite EL, app_length, EC, map_length in K1. lia.
    Qed.

    Context (Hd : (d <= 100)%nat) (h : list event).
    Notation l0 := (ledger_new d).
    Notation LV := (lg_leaves (ledger_after v h)).
    Notation RS := (records op v h).
    Notation SP := (spends_of op (accepted v h)).
    Context (HO : forall t, In t (accepted v h) -> tx_opens d t (op t))
            (HF : hash_collision_free (history_hashes d LV SP))
            (HB : commitment_binding (RS ++ map sp_ro SP)).

    (** the record that a real input of an accepted note spends *)
    Lemma spent_record s j : In s SP -> nth_error LV j = Some (commitment_of (sp_ro s)) ->
      exists r, nth_error RS j = Some r /\ content r = content (sp_ro s).
    Proof.
      intros Hs Hj. rewrite (leaves_are_records L v op h HO), nth_error_map in Hj. destruct (nth_error RS j) as [r|] eqn:E; [|discriminate].
      cbn [option_map] in Hj. apply (f_equal (fun o => match o with Some x => x | None => f0 end)) in Hj. exists r. split; [reflexivity|].
      apply HB; [apply in_or_app; left; apply nth_error_In in E; exact E|apply in_or_app; right; apply in_map, Hs|exact Hj].
    Qed.

    Section Minted.
    Context (HC : forall t, In t (accepted v h) -> supply_condition t (op t))
            (HSec : forall s, In s SP -> zv (sp_sk s) < sub_order /\ ro_owner (sp_ro s) <> no_key).
    Theorem all_minted j : forall r, nth_error RS j = Some r -> ro_code r <> dummy_asset_code -> 0 < zv (ro_amount r) -> minted v h r.
    Proof.
      induction j as [j IH] using lt_wf_ind. intros r Hj Hr HP.
      destruct (record_made h l0 j r (roots_new d) HO Hj) as [(ro & A & ->)|(b & sig & ts & pk & He & HM & HK)].
      { left. exists ro. split; [exact A|]. split; [split; [reflexivity|intros _; apply same_policy_refl]|]. cbn [ro_value ro_amount] in HP. rewrite zv_f_of_u128 in HP. exact HP. }
      assert (Hacc : forall t, In t (bk_txns b) -> In t (accepted v h)) by (intros t Ht; apply in_flat_map; eexists; split; [exact He|exact Ht]).
      assert (HBd : forall t, In t (bk_txns b) -> forall s, In s (op_inputs (op t)) -> real s = true -> zv (ro_amount (sp_ro s)) < 2 ^ 128).
      { intros t Ht s Hs Hre. apply (spends_bounded L v op Hd h HO HF HSec HB HC). apply (in_spends v op h t s (Hacc t Ht) Hs Hre). }
      (* an input of a note of the block leads to an earlier record *)
      assert (Back : forall t c p, In t (bk_txns b) -> from_input c (op t) p -> ro_code r = c -> (c <> native_asset_code -> p = Some (ro_pol r)) -> minted v h r).
      { intros t c p Ht (s & S1 & S2 & S3 & S4 & S5) EC EP. destruct (HK t Ht) as (k & K1 & K2 & K3).
        cbn [ledger_new store_current_mt_root lg_leaves length] in K1.
        pose proof (in_spends v op h t s (Hacc t Ht) S1 S2) as HsP. destruct (tx_facts L d t (op t) (HO t (Hacc t Ht))) as (F2 & _). destruct (Forall2_ex_l _ _ _ _ F2 S1) as (nl & _ & K).
        destruct (spend_place v Hd LV SP k (tx_merkle_root t) s nl HF K2 K3 HsP (proj1 (real_spec s) S2) K) as (i & Hi & Ni & _).
        destruct (spent_record s i HsP Ni) as (r' & Nr & EK). destruct (content_facts _ _ EK) as (E1 & E2 & _). pose proof (content_policy _ _ EK) as E3.
        assert (M : minted v h r') by (apply (IH i); [lia|exact Nr|congruence|rewrite E1; exact S4]).
        assert (SD : forall a, defines a r' -> defines a r).
        { intros a [D1 D2]. split; [congruence|]. intros NN. rewrite (EP ltac:(congruence)) in S5. apply (same_policy_trans _ (ro_pol r')); [apply D2; congruence|].
          apply (same_policy_trans _ (ro_pol (sp_ro s))); [exact E3|apply S5; congruence]. }
        destruct M as [(ro & M1 & M2 & M3)|(n & M1 & M2 & M3)]; [left; exists ro|right; exists n]; auto. }
      destruct HM as [(ro & HFee & ->)|(t & Ht & Hout)].
      - (* a fee record *)
        unfold block_fee_record, txns_calculate_fee in HFee. destruct (calculate_fee (map tx_fee (bk_txns b))) as [f|e|] eqn:EF; cbn [bind] in HFee; try discriminate HFee.
        apply calculate_fee_spec in EF. rewrite map_map in EF.
        assert (ER : ro_code (ro_value ro) = native_asset_code /\ zv (ro_amount (ro_value ro)) = zv f).
        { apply (f_equal (fun x => match x with Ok y => y | _ => ro end)) in HFee. subst ro. split; [reflexivity|]. cbn [ro_value ro_amount]. apply zv_f_of_u128. }
        destruct ER as [ER1 ER2]. rewrite ER2, <- EF in HP.
        assert (X : exists t, In t (bk_txns b) /\ 0 < zv (tx_fee t)).
        { clear - HP. induction (bk_txns b) as [|t l IH]; [cbn in HP; lia|]. destruct (Z.lt_ge_cases 0 (zv (tx_fee t))) as [G|G]; [exists t; split; [left; reflexivity|exact G]|].
          destruct IH as (x & Hx & P); [change (0 < zv (tx_fee t) + CodecProofs.zsum (map (fun t => zv (tx_fee t)) l)) in HP; lia|]. exists x. split; [right; exact Hx|exact P]. }
        destruct X as (t & Ht & HPt).
        destruct (code_input d t (op t) native_asset_code (HO t (Hacc t Ht)) (HC t (Hacc t Ht)) ltac:(rewrite <- ER1; exact Hr) (HBd t Ht)) as [FI|(n & E & Q1 & Q2)].
        { pose proof (total_nonneg native_asset_code (op_outputs (op t))). rewrite zeqb_refl. lia. }
        + apply (Back t native_asset_code None Ht FI ER1). intros K. contradiction K. reflexivity.
        + right. exists n. subst t. split; [apply Hacc, Ht|]. split; [|exact Q2]. split; [congruence|]. intros K. contradiction (K ER1).
      - destruct (output_source d t (op t) r (HO t (Hacc t Ht)) (HC t (Hacc t Ht)) Hr (HBd t Ht) Hout HP) as [FI|(n & E & Q1 & Q2)].
        + apply (Back t (ro_code r) (Some (ro_pol r)) Ht FI eq_refl). reflexivity.
        + right. exists n. subst t. split; [apply Hacc, Ht|]. auto.
    Qed.
    End Minted.

    (** ** Frozen records *)
    Lemma halves (m m' : F) : zv m < 2 ^ Z.of_nat VIEWABLE_DATA_LEN -> zv m' < 2 ^ Z.of_nat VIEWABLE_DATA_LEN -> fadd (fadd m m) f1 <> fadd (fadd m' m') f0.
    Proof.
      change (2 ^ Z.of_nat VIEWABLE_DATA_LEN) with 4096. intros H H' E. pose proof modulus_lb as ML. assert (HM : 2 ^ 14 < modulus) by (assert (2 ^ 14 < 2 ^ 252) by reflexivity; lia).
      change (2 ^ 14) with 16384 in HM. pose proof (zv_range m) as R. pose proof (zv_range m') as R'.
      apply (f_equal zv) in E. unfold fadd, f0, f1 in E. rewrite !zv_fz in E. rewrite !(Z.mod_small 0), !(Z.mod_small 1) in E by lia.
      rewrite !(Z.mod_small (zv m + zv m)), !(Z.mod_small (zv m' + zv m')) in E by lia. rewrite !Z.mod_small in E by lia. lia.
    Qed.
    Lemma not_empty r r' : frozen r -> content r = content r' -> ro_flag r' = f0 -> zv (po_map (ro_pol r')) < 2 ^ Z.of_nat VIEWABLE_DATA_LEN -> False.
    Proof.
      intros [HF1 HR] HCt HF0 HR'. unfold in_range in HR. apply Z.ltb_lt in HR. unfold content in HCt. pose proof (f_equal (fun c => nth 10 (fst c) f0) HCt) as E. cbn [fst nth] in E.
      rewrite HF1, HF0 in E. exact (halves _ _ HR HR' E).
    Qed.
    Lemma empty_map p : policy_empty p -> zv (po_map p) < 2 ^ Z.of_nat VIEWABLE_DATA_LEN.
    Proof. intros (_ & _ & _ & E & _). rewrite E. unfold f0. rewrite zv_fz, Z.mod_0_l; [reflexivity|pose proof modulus_pos; lia]. Qed.

    Theorem frozen_stays j r t s : nth_error RS j = Some r -> frozen r -> In t (accepted v h) -> In s (op_inputs (op t)) -> real s = true ->
      zv (pl_uid (sp_place s)) = Z.of_nat j ->
      (exists n, t = TxFreeze n) /\ owns (sp_sk s) (po_freezer (ro_pol r)) /\ po_freezer (ro_pol r) <> no_key /\
      exists r', In r' (op_outputs (op t)) /\ ro_owner r' = ro_owner r /\ ro_amount r' = ro_amount r /\ ro_code r' = ro_code r /\ same_policy (ro_pol r') (ro_pol r).
    Proof.
      intros Hj HFr Ht Hs Hre HU. pose proof (in_spends v op h t s Ht Hs Hre) as HsP.
      destruct (spend_in_tree L v op Hd h HO HF s HsP) as (i & Ni & Ui & Bi). rewrite Ui, fz_small in HU by lia. assert (i = j) by lia. subst i.
      destruct (spent_record s j HsP Ni) as (r0 & Nr & EK). rewrite Hj in Nr. assert (r0 = r) by congruence. subst r0. clear Nr.
      pose proof (HO t Ht) as HOt. destruct (content_facts _ _ EK) as (E1 & E2 & E3 & E4). pose proof (content_policy _ _ EK) as E5.
      apply real_spec in Hre. remember (op t) as o eqn:Eo. clear Eo HsP.
      destruct t as [n|n|n], o as [x|x|x]; cbn [tx_opens] in HOt; try contradiction; cbn [op_inputs op_outputs] in *.
      - exfalso. apply in_map_iff in Hs. destruct Hs as (i & <- & Hi). cbn [sp_ro] in *.
        destruct (opens_spends _ _ _ HOt) as [HS _]. destruct (Forall2_ex_l _ _ _ _ HS Hi) as (_ & _ & _ & FL & _).
        destruct (opens_assets _ _ _ HOt) as (i0 & is & o0 & os & EI & _ & _ & EM & _ & _ & _ & C4 & _). rewrite EI in Hi.
        apply (not_empty r (in_ro i) HFr EK FL). destruct Hi as [<-|Hi]; [exact (empty_map _ EM)|]. rewrite (C4 i Hi Hre).
        destruct HOt as (_ & _ & _ & R). pose proof (tr_map _ _ R) as M. unfold in_range in M. apply Z.ltb_lt in M. exact M.
      - exfalso. destruct Hs as [<-|[]]. cbn [sp_ro] in *. destruct HOt as [_ R].
        exact (not_empty r (mv_fee_ro x) HFr EK (proj1 (proj2 (mr_unfrozen _ _ R))) (empty_map _ (proj2 (mr_empty _ _ R)))).
      - destruct Hs as [<-|Hs]; cbn [sp_ro] in *.
        { exfalso. destruct HOt as [_ R]. exact (not_empty r (fv_fee_ro x) HFr EK (proj1 (fr_unfrozen _ _ R)) (empty_map _ (proj1 (fr_empty _ _ R)))). }
        apply in_map_iff in Hs. destruct Hs as (y & <- & Hy). cbn [sp_ro sp_sk sp_place] in *. split; [exists n; reflexivity|].
        destruct HOt as [_ R].
        assert (K : exists k, Forall2 (fun a (_ : F) => owns (fz_sk a) (po_freezer (ro_pol (fz_in a))) /\ (po_freezer (ro_pol (fz_in a)) = no_key -> is_dummy_code (ro_code (fz_in a))) /\
            ro_amount (fz_in a) = ro_amount (fz_out a) /\ ro_owner (fz_in a) = ro_owner (fz_out a) /\ ro_code (fz_in a) = ro_code (fz_out a) /\ ro_pol (fz_in a) = ro_pol (fz_out a)) (fv_pairs x) k).
        { eexists. apply (Forall3_first _ _ _ _ _ (fr_pairs _ _ R)). intros a b e K. split; [exact (po_owner _ _ _ _ K)|]. split; [exact (po_freezable _ _ _ _ K)|]. exact (po_same _ _ _ _ K). }
        destruct K as (k & K). destruct (Forall2_ex_l _ _ _ _ K Hy) as (_ & _ & A0 & A1 & A2 & A3 & A4 & A5).
        rewrite E4. split; [exact A0|]. split; [intros Q; exact (Hre (A1 Q))|].
        exists (fz_out y). split; [right; apply in_map; exact Hy|]. rewrite E1, E2, E3. split; [congruence|]. split; [congruence|]. split; [congruence|].
        destruct E5 as (P1 & P2 & P3 & P4). rewrite <- A5. unfold same_policy. auto.
    Qed.
  End History.
End Origin.
