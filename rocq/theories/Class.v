(** The supply of an asset under a policy is what was minted of it under that policy. *)
From Verif Require Import Base Config Structs Keys Utils Memo Plonk Witness Circuits Relation Snark Notes Serde UtilsProofs
  GadgetProofs NoteProofs Accepted Ledger LedgerSpec LedgerProofs LedgerSupply OriginSpec Origin ClassSpec LibrarySpec Library.

Section Class.
  Context {C : CapConfig} (L : CapLaws C) {S : Snark C} {Z0 : Ser C S}.

  Lemma same_policy_ok p q : same_policy_b p q = true <-> same_policy p q.
  Proof.
    unfold same_policy_b, same_policy. destruct p as [[a1 a2] [b1 b2] [c1 c2] m t], q as [[a1' a2'] [b1' b2'] [c1' c2'] m' t'].
    cbn [po_viewer po_cred po_freezer po_threshold fst snd]. rewrite !andb_true_iff, !zeqb_spec. split.
    - intros ((((((-> & ->) & ->) & ->) & ->) & ->) & ->). auto.
    - intros (E1 & E2 & E3 & ->).
      rewrite (f_equal fst E1 : a1 = a1'), (f_equal snd E1 : a2 = a2'), (f_equal fst E2 : b1 = b1'), (f_equal snd E2 : b2 = b2'),
        (f_equal fst E3 : c1 = c1'), (f_equal snd E3 : c2 = c2'). auto 10.
  Qed.
  Lemma same_policy_b_eq p q s : same_policy p q -> same_policy_b p s = same_policy_b q s.
  Proof.
    intros (A & B & D & E). unfold same_policy_b. rewrite A, B, D, E. reflexivity.
  Qed.

  Definition weight (c : F) (p : PolV) (r : RoV) : Z := if zeqb (ro_code r) c && same_policy_b (ro_pol r) p then zv (ro_amount r) else 0.
  Lemma class_cons c p r l : class_total c p (r :: l) = weight c p r + class_total c p l.
  Proof.
    unfold class_total, weight. cbn [filter]. destruct (zeqb (ro_code r) c && same_policy_b (ro_pol r) p); [reflexivity|lia].
  Qed.
  Lemma class_app c p l k : class_total c p (l ++ k) = class_total c p l + class_total c p k.
  Proof. induction l as [|r l IH]; [reflexivity|]. cbn [app]. rewrite !class_cons, IH. lia. Qed.
  (** records of which all those of code [c] have the policy [q] *)
  Lemma class_uniform c p q l : (forall r, In r l -> ro_code r = c -> same_policy (ro_pol r) q) ->
    class_total c p l = if same_policy_b q p then total c l else 0.
  Proof.
    induction l as [|r l IH]; intros H; [cbn; destruct (same_policy_b q p); reflexivity|].
    rewrite class_cons, total_cons, IH by (intros; apply H; cbn; auto). unfold weight.
    destruct (zeqb (ro_code r) c) eqn:E; cbn [andb]; [|destruct (same_policy_b q p); lia].
    apply zeqb_spec in E. rewrite (same_policy_b_eq _ q p (H r (or_introl eq_refl) E)). destruct (same_policy_b q p); lia.
  Qed.
  Lemma class_pairs c p l k : Forall2 (fun r r' => ro_amount r = ro_amount r' /\ ro_code r = ro_code r' /\ ro_pol r = ro_pol r') l k ->
    class_total c p l = class_total c p k.
  Proof. intros H. induction H as [|a b l k (E1 & E2 & E3) H IH]; [reflexivity|]. rewrite !class_cons, IH. unfold weight. rewrite E1, E2, E3. reflexivity. Qed.
  Lemma class_real c p (sp : list Spend) : c <> dummy_asset_code -> class_total c p (map sp_ro (filter real sp)) = class_total c p (map sp_ro sp).
  Proof.
    intros Hc. induction sp as [|s sp IH]; [reflexivity|]. cbn [filter map]. rewrite class_cons. destruct (real s) eqn:E; cbn [map]; rewrite ?class_cons, IH; [reflexivity|].
    unfold weight. destruct (zeqb (ro_code (sp_ro s)) c) eqn:Q; [|reflexivity]. apply zeqb_spec in Q. exfalso.
    assert (K : real s = true) by (apply real_spec; congruence). congruence.
  Qed.
  Lemma weight_native c p r : c <> native_asset_code -> ro_code r = native_asset_code -> weight c p r = 0.
  Proof.
    intros Hn E. unfold weight. rewrite E. destruct (zeqb native_asset_code c) eqn:Q; [|reflexivity]. apply zeqb_spec in Q. congruence.
  Qed.

  Definition declared (c : F) (p : PolV) (t : TransactionNote) : Z :=
    match t with TxMint n => class_amount c p (mn_def n) (zv (mn_amount n)) | _ => 0 end.
  Lemma tx_class d t o c p : tx_opens d t o -> supply_condition t o -> c <> dummy_asset_code -> c <> native_asset_code ->
    (forall s, In s (op_inputs o) -> real s = true -> zv (ro_amount (sp_ro s)) < 2 ^ 128) ->
    class_total c p (op_outputs o) = class_total c p (map sp_ro (real_inputs o)) + declared c p t.
  Proof.
    intros H HC Hc Hn HI. pose proof (tx_balance L d t o c H HC Hc HI) as B.
    assert (EN : zeqb native_asset_code c = false).
    { destruct (zeqb native_asset_code c) eqn:E; [|reflexivity]. apply zeqb_spec in E. congruence. }
    rewrite EN in B. unfold real_inputs in *. rewrite class_real by exact Hc. rewrite total_real in B by exact Hc.
    destruct t as [n|n|n], o as [x|x|x]; cbn [tx_opens] in H; try tauto; cbn [op_inputs op_outputs supply_condition tx_fee declared declared_mint] in *.
    - destruct HC as (HQ & _ & _). destruct (opens_assets _ _ _ H) as (i0 & is & o0 & os & EI & EO & C1 & _ & C2 & _ & C3 & C4 & _).
      rewrite (class_uniform c p (tv_pol x) (tv_outs x)).
      2:{ intros r Hr E. rewrite EO in Hr. destruct Hr as [<-|Hr]; [congruence|]. rewrite (proj2 (C3 r Hr)). apply same_policy_refl. }
      rewrite (class_uniform c p (tv_pol x)).
      2:{ intros r Hr E. rewrite map_map in Hr. apply in_map_iff in Hr. destruct Hr as (i & <- & Hi). cbn [sp_ro] in *. rewrite EI in Hi.
          destruct Hi as [<-|Hi]; [congruence|]. rewrite (C4 i Hi) by congruence. apply same_policy_refl. }
      destruct (same_policy_b (tv_pol x) p); lia.
    - destruct (mint_opens_facts L _ _ _ H) as (_ & EA & RA & EC & EP & _ & _ & EF & _ & _ & _ & _ & _ & _ & _ & ENc & _ & _ & _ & EB & _).
      cbn [map sp_ro]. rewrite !class_cons, (weight_native c p _ Hn ENc), (weight_native c p _ Hn EF). change (class_total c p []) with 0.
      unfold weight, class_amount. rewrite EC, EP, EA, zv_f_of_u128. lia.
    - destruct (freeze_opens_facts _ _ _ H) as (nl & nls & rc & rcs & _ & _ & EF & _ & _ & _ & _ & _ & _ & _ & ENc & _ & _ & EB & HP).
      cbn [map sp_ro]. rewrite !class_cons, (weight_native c p _ Hn ENc), (weight_native c p _ Hn EF). rewrite map_map. cbn [sp_ro].
      pose proof (proj2 H) as R.
      assert (K : exists k, Forall2 (fun a (_ : F) => ro_amount (fz_out a) = ro_amount (fz_in a) /\ ro_code (fz_out a) = ro_code (fz_in a) /\ ro_pol (fz_out a) = ro_pol (fz_in a)) (fv_pairs x) k).
      { eexists. apply (Forall3_first _ _ _ _ _ (fr_pairs _ _ R)). intros a b e K. destruct (po_same _ _ _ _ K) as (A1 & A2 & A3 & A4). auto. }
      destruct K as (k & K).
      rewrite (class_pairs c p (map fz_out (fv_pairs x)) (map (fun y => fz_in y) (fv_pairs x))); [lia|].
      clear - K. induction K; cbn; constructor; auto.
  Qed.

  Definition class_at (c : F) (p : PolV) (l : list RoV) (i j : nat) : Z :=
    if (i <=? j)%nat then match nth_error l (j - i) with Some r => weight c p r | None => 0 end else 0.
  Lemma class_unspent_cons c p s sp j l : zv (pl_uid (sp_place s)) = Z.of_nat j ->
    existsb (fun s => zv (pl_uid (sp_place s)) =? Z.of_nat j) sp = false -> forall i,
    class_total c p (unspent_from i l (s :: sp)) = class_total c p (unspent_from i l sp) - class_at c p l i j.
  Proof.
    intros E Hn. induction l as [|r l IH]; intros i.
    - cbn. unfold class_at. destruct (i <=? j)%nat; [destruct (j - i)%nat|]; reflexivity.
    - cbn [unspent_from existsb]. rewrite E, !class_app, IH. unfold class_at.
      destruct (Z.eqb_spec (Z.of_nat j) (Z.of_nat i)) as [Q|Q]; cbn [orb].
      + apply Nat2Z.inj in Q. subst i. rewrite Hn, Nat.leb_refl, Nat.sub_diag. cbn [nth_error]. rewrite (proj2 (Nat.leb_gt (Datatypes.S j) j)) by lia. rewrite class_cons. change (class_total c p []) with 0. lia.
      + destruct (Nat.leb_spec i j) as [G|G].
        * rewrite (proj2 (Nat.leb_le (Datatypes.S i) j)) by lia. replace (j - i)%nat with (Datatypes.S (j - Datatypes.S i)) by lia. cbn [nth_error]. lia.
        * rewrite (proj2 (Nat.leb_gt (Datatypes.S i) j)) by lia. lia.
  Qed.
  Lemma class_unspent c p l sp : NoDup (map (fun s => pl_uid (sp_place s)) sp) ->
    (forall s, In s sp -> exists j r, nth_error l j = Some r /\ content r = content (sp_ro s) /\ zv (pl_uid (sp_place s)) = Z.of_nat j) ->
    (forall r r', content r = content r' -> ro_code r = ro_code r' /\ ro_amount r = ro_amount r') ->
    class_total c p (unspent l sp) = class_total c p l - class_total c p (map sp_ro sp).
  Proof.
    intros ND H HQ. revert ND H. induction sp as [|s sp IH]; intros ND H; [unfold unspent; rewrite unspent_nil; cbn; lia|].
    cbn [map] in ND. inversion ND as [|? ? Hn ND']; subst. destruct (H s) as (j & r & Hj & E1 & E3); [cbn; auto|].
    unfold unspent. rewrite (class_unspent_cons c p s sp j l E3).
    - fold (unspent l sp). rewrite IH; auto; [|intros; apply H; cbn; auto]. cbn [map]. rewrite class_cons. unfold class_at. cbn [Nat.leb]. rewrite Nat.sub_0_r, Hj.
      destruct (HQ _ _ E1) as [Q1 Q2]. unfold weight. rewrite Q1, Q2, (same_policy_b_eq _ _ p (content_policy _ _ E1)). lia.
    - apply existsb_false. intros s' Hs'. apply Z.eqb_neq. intros E. apply Hn. apply in_map_iff. exists s'. split; [|exact Hs']. apply zmod_ext. congruence.
  Qed.
  Lemma content_sum r r' : content r = content r' -> ro_code r = ro_code r' /\ ro_amount r = ro_amount r'.
  Proof.
    intros H. unfold content in H. pose proof (f_equal fst H) as K. cbn [fst] in K. clear H. injection K as E1 E2 _ _ _ _ _ _ _ _ _ _. auto.
  Qed.

  Section History.
    Context (v : Validator) (op : TransactionNote -> Opening).
    Notation d := (vd_depth v).
    Context (Hd : (d <= 100)%nat) (h : list event).
    Notation l0 := (ledger_new d).
    Notation LV := (lg_leaves (ledger_after v h)).
    Notation RS := (records op v h).
    Notation SP := (spends_of op (accepted v h)).
    Context (HO : forall t, In t (accepted v h) -> tx_opens d t (op t))
            (HF : hash_collision_free (history_hashes d LV SP))
            (HB : commitment_binding (RS ++ map sp_ro SP))
            (HC : forall t, In t (accepted v h) -> supply_condition t (op t))
            (HSec : forall s, In s SP -> zv (sp_sk s) < sub_order /\ ro_owner (sp_ro s) <> no_key).

    Lemma event_class c p e : c <> dummy_asset_code -> c <> native_asset_code -> In e (effective v l0 h) ->
      class_total c p (event_records op e) = class_mints c p e + class_total c p (map sp_ro (spends_of op (event_txns e))).
    Proof.
      intros Hc Hn He. destruct e as [ro|b sig ts pk]; cbn [event_records class_mints event_txns].
      - rewrite class_cons. cbn [spends_of flat_map map]. change (class_total c p []) with 0. unfold weight, class_amount.
        cbn [ro_value ro_code ro_amount ro_pol]. rewrite zv_f_of_u128. lia.
      - assert (Ht : forall t, In t (bk_txns b) -> In t (accepted v h)) by (intros t Ht; apply in_flat_map; eexists; split; [exact He|exact Ht]).
        rewrite class_app. change (fun t => match t with TxMint n => class_amount c p (mn_def n) (zv (mn_amount n)) | _ => 0 end) with (declared c p).
        assert (KF : class_total c p (match block_fee_record b with Ok ro => [ro_value ro] | _ => [] end) = 0).
        { unfold block_fee_record. destruct (txns_calculate_fee (bk_txns b)) as [f|e|]; cbn [bind]; [|reflexivity|reflexivity].
          rewrite class_cons, (weight_native c p _ Hn); reflexivity. }
        rewrite KF. clear KF He. induction (bk_txns b) as [|t txns IH]; [reflexivity|].
        cbn [flat_map map spends_of sumz fold_right]. fold (spends_of op txns). rewrite map_app, !class_app. fold (sumz (map (declared c p) txns)).
        assert (Hin : In t (accepted v h)) by (apply Ht; cbn; auto).
        pose proof (tx_class d t (op t) c p (HO t Hin) (HC t Hin) Hc Hn
          (fun s Hs Hr => spends_bounded L v op Hd h HO HF HSec HB HC s (in_spends v op h t s Hin Hs Hr))) as B.
        specialize (IH (fun t' Ht' => Ht t' (or_intror Ht'))). fold (real_inputs (op t)). lia.
    Qed.
    Theorem class_supply c p : c <> dummy_asset_code -> c <> native_asset_code ->
      class_total c p (unspent RS SP) = sumz (map (class_mints c p) (effective v l0 h)).
    Proof.
      intros Hc Hn.
      assert (HBs : forall x y, In x (map sp_ro SP) -> In y (map sp_ro SP) -> commitment_of x = commitment_of y -> content x = content y)
        by (intros x y Hx Hy; apply HB; apply in_or_app; right; assumption).
      rewrite (class_unspent c p RS SP (no_double_spend L v op Hd h HO HF HBs HSec)).
      2:{ intros s Hs. destruct (spend_in_tree L v op Hd h HO HF s Hs) as (j & Nj & EU & Bj).
          destruct (spent_record L v op h HO HB s j Hs Nj) as (r & Nr & E). exists j, r. split; [exact Nr|]. split; [exact E|]. rewrite EU. apply fz_small. lia. }
      2: exact content_sum.
      unfold records, accepted. pose proof (fun e => event_class c p e Hc Hn) as HE. revert HE. generalize (effective v l0 h) as es. intros es HE.
      assert (K : class_total c p (flat_map (event_records op) es) = sumz (map (class_mints c p) es) + class_total c p (map sp_ro (spends_of op (flat_map event_txns es)))); [|lia].
      induction es as [|e es IH]; [reflexivity|].
      cbn [flat_map map sumz fold_right]. fold (sumz (map (class_mints c p) es)).
      unfold spends_of in *. rewrite flat_map_app, map_app, !class_app.
      specialize (HE e (or_introl eq_refl)) as B. specialize (IH (fun e' He' => HE e' (or_intror He'))). lia.
    Qed.
    (** if all mints of a code agree on the policy, so do all records of it *)
    Theorem one_policy c p : c <> dummy_asset_code -> c <> native_asset_code ->
      (forall a, In a (minted_defs v h) -> code a = c -> same_policy (pol_value (policy a)) p) ->
      forall r, In r RS -> ro_code r = c -> 0 < zv (ro_amount r) -> same_policy (ro_pol r) p.
    Proof.
      intros Hc Hn HP r Hr E P. apply In_nth_error in Hr. destruct Hr as (j & Hj).
      assert (sym : forall p q, same_policy p q -> same_policy q p) by (unfold same_policy; intros ? ? (A1 & A2 & A3 & A4); rewrite A1, A2, A3, A4; auto).
      assert (K : exists a, In a (minted_defs v h) /\ defines a r).
      { destruct (all_minted L v op Hd h HO HF HB HC HSec j r Hj ltac:(congruence) P) as [(ro & I & D & _)|(n & I & D & _)].
        - exists (asset_def ro). split; [|exact D]. apply in_flat_map. exists (EvMint ro). split; [exact I|left; reflexivity].
        - exists (mn_def n). split; [|exact D]. unfold accepted in I. apply in_flat_map in I. destruct I as (e & I1 & I2).
          apply in_flat_map. exists e. split; [exact I1|]. destruct e as [ro|b sg ts pk]; [destruct I2|]. cbn [event_txns] in I2.
          apply in_flat_map. exists (TxMint n). split; [exact I2|left; reflexivity]. }
      destruct K as (a & I & D1 & D2). apply (same_policy_trans _ (pol_value (policy a))); [apply sym, D2; congruence|apply HP; [exact I|congruence]].
    Qed.
  End History.
End Class.
