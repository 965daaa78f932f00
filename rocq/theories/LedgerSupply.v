(** No double spending and conservation of supply over ledger histories. *)
From Verif Require Import Base Config Structs Keys Utils Memo Plonk Witness Circuits Relation CircuitLogic UtilsProofs
  GadgetProofs TransferCircuitProofs MintCircuitProofs FreezeCircuitProofs Snark Notes NoteProofs NoteGen NoteThms Security
  Accepted Serde Ledger LedgerSpec LedgerProofs.

Lemma nodup_by {A B D} (f : A -> B) (g : A -> D) (l : list A) :
  NoDup (map g l) -> (forall x y, In x l -> In y l -> f x = f y -> g x = g y) -> NoDup (map f l).
Proof.
  induction l as [|a l IH]; cbn; intros ND H; [constructor|]. inversion ND as [|? ? Hn ND']; subst. constructor.
  - intros Hi. apply in_map_iff in Hi. destruct Hi as (b & E & Hb). apply Hn. rewrite (H a b); auto. apply in_map. exact Hb.
  - apply IH; auto.
Qed.
Lemma nodup_filter {A B} (g : A -> B) p (l : list A) : NoDup (map g l) -> NoDup (map g (filter p l)).
Proof.
  induction l as [|a l IH]; cbn; intros ND; [constructor|]. inversion ND as [|? ? Hn ND']; subst. destruct (p a); cbn; auto. constructor; auto.
  intros Hi. apply Hn. apply in_map_iff in Hi. destruct Hi as (b & <- & Hb). apply in_map. apply filter_In in Hb. tauto.
Qed.
Lemma map_fst_combine {A B} (l : list A) : forall (k : list B), length l = length k -> map fst (combine l k) = l.
Proof. induction l as [|a l IH]; intros [|b k] H; try discriminate; cbn; [reflexivity|]. f_equal. apply IH. cbn in H; lia. Qed.
Lemma map_snd_combine {A B} (l : list A) : forall (k : list B), length l = length k -> map snd (combine l k) = k.
Proof. induction l as [|a l IH]; intros [|b k] H; try discriminate; cbn; [reflexivity|]. f_equal. apply IH. cbn in H; lia. Qed.
Lemma map_flat_map {A B D} (f : A -> list B) (g : B -> D) l : map g (flat_map f l) = flat_map (fun x => map g (f x)) l.
Proof. induction l as [|a l IH]; cbn; [reflexivity|]. rewrite map_app, IH. reflexivity. Qed.
Lemma flat_map_ext_in {A B} (f g : A -> list B) l : (forall x, In x l -> f x = g x) -> flat_map f l = flat_map g l.
Proof. induction l as [|a l IH]; cbn; intros H; [reflexivity|]. rewrite H, IH; auto. Qed.
Lemma filter_flat_map {A B} (f : A -> list B) p l : filter p (flat_map f l) = flat_map (fun x => filter p (f x)) l.
Proof. induction l as [|a l IH]; cbn; [reflexivity|]. rewrite filter_app, IH. reflexivity. Qed.
Lemma filter_map_fst {A B} (p : A -> bool) (l : list (A * B)) : map fst (filter (fun x => p (fst x)) l) = filter p (map fst l).
Proof. induction l as [|[a b] l IH]; cbn; [reflexivity|]. destruct (p a); cbn; rewrite IH; reflexivity. Qed.

Section LedgerSupply.
  Context {C : CapConfig} {S : Snark C} {Z0 : Ser C S} (L : CapLaws C).

  Lemma content_commitment r r' : content r = content r' -> commitment_of r = commitment_of r'.
  Proof. intros H. exact (f_equal (fun x => commit (fst x) (snd x)) H). Qed.
  Lemma content_facts r r' : content r = content r' ->
    ro_amount r = ro_amount r' /\ ro_code r = ro_code r' /\ ro_owner r = ro_owner r' /\ po_freezer (ro_pol r) = po_freezer (ro_pol r').
  Proof.
    intros H. unfold content in H. pose proof (f_equal fst H) as K. cbn [fst] in K. clear H. injection K as E1 E2 E3 E4 _ _ _ _ E5 E6 _ _.
    conjs; auto; [destruct (ro_owner r), (ro_owner r')|destruct (po_freezer (ro_pol r)), (po_freezer (ro_pol r'))]; cbn in *; congruence.
  Qed.

  Lemma real_spec s : real s = true <-> ro_code (sp_ro s) <> dummy_asset_code.
  Proof. unfold real. rewrite negb_true_iff. split; [intros H E; rewrite E, zeqb_refl in H; discriminate|]. intros H. destruct (zeqb _ _) eqn:E; auto. apply zeqb_spec in E. contradiction. Qed.

  (** two spends of records with the same content at the same position carry the same nullifier *)
  Lemma same_nullifier d root root' s s' nl nl' : spend_ok d root s nl -> spend_ok d root' s' nl' ->
    content (sp_ro s) = content (sp_ro s') -> pl_uid (sp_place s) = pl_uid (sp_place s') ->
    zv (sp_sk s) < sub_order -> zv (sp_sk s') < sub_order -> ro_owner (sp_ro s) <> no_key -> ro_code (sp_ro s) <> dummy_asset_code -> nl = nl'.
  Proof.
    intros [H1 _] [H2 _] HC HU C1 C2 HO HD. pose proof (content_commitment _ _ HC) as EC. destruct (content_facts _ _ HC) as (_ & E2 & E3 & E4).
    assert (HO' : ro_owner (sp_ro s') <> no_key) by congruence. assert (HD' : ro_code (sp_ro s') <> dummy_asset_code) by congruence.
    destruct H1 as [[O1 ->]|[[O1 ->] F1]], H2 as [[O2 ->]|[[O2 ->] F2]]; rewrite <- HU, <- EC, <- ?E3, <- ?E4 in *.
    - rewrite (owns_canonical L _ _ _ O1 O2 C1 C2). reflexivity.
    - rewrite (owner_freezer_key L (sp_sk s) (sp_sk s') _ _ O1 O2); auto.
    - rewrite (owner_freezer_key L (sp_sk s') (sp_sk s) _ _ O2 O1); auto.
    - rewrite (owns_canonical L _ _ _ O1 O2 C1 C2). reflexivity.
  Qed.

  (** ** Totals *)
  Lemma total_app c l k : total c (l ++ k) = total c l + total c k.
  Proof. unfold total. induction l as [|a l IH]; cbn [app fold_right]; [lia|]. rewrite IH. lia. Qed.
  Lemma total_cons c r l : total c (r :: l) = (if zeqb (ro_code r) c then zv (ro_amount r) else 0) + total c l.
  Proof. reflexivity. Qed.
  Lemma total_content c l k : Forall2 (fun r r' => ro_amount r = ro_amount r' /\ ro_code r = ro_code r') l k -> total c l = total c k.
  Proof. intros H. induction H as [|a b l k [E1 E2] H IH]; [reflexivity|]. rewrite !total_cons, E1, E2, IH. reflexivity. Qed.
  Lemma total_real c (sp : list Spend) : c <> dummy_asset_code -> total c (map sp_ro (filter real sp)) = total c (map sp_ro sp).
  Proof.
    intros Hc. induction sp as [|s sp IH]; [reflexivity|]. cbn [filter map]. rewrite total_cons. destruct (real s) eqn:E; cbn [map]; rewrite ?total_cons, IH; [reflexivity|].
    unfold real in E. apply negb_false_iff, zeqb_spec in E. rewrite E. destruct (zeqb dummy_asset_code c) eqn:E2; [apply zeqb_spec in E2; congruence|lia].
  Qed.
  (** records of one asset, apart from empty dummy records *)
  Lemma total_uniform c q l : c <> dummy_asset_code -> (forall r, In r l -> ro_code r = q \/ (ro_code r = dummy_asset_code /\ ro_amount r = f0)) ->
    total c l = if zeqb q c then isum (map ro_amount l) else 0.
  Proof.
    intros Hc. induction l as [|r l IH]; intros H; [cbn; destruct (zeqb q c); reflexivity|]. rewrite total_cons, IH by (intros; apply H; cbn; auto).
    cbn [map isum fold_right]. fold (isum (map ro_amount l)). destruct (H r) as [->|[E ->]]; [cbn; auto|destruct (zeqb q c); lia|].
    rewrite E. assert (Z00 : zv (f0 : F) = 0) by (unfold f0; rewrite zv_fz; apply Z.mod_0_l; pose proof modulus_pos; lia).
    destruct (zeqb dummy_asset_code c) eqn:E2; [apply zeqb_spec in E2; congruence|]. destruct (zeqb q c); lia.
  Qed.
  Lemma change_amount (a fee chg : F) : a = fadd fee chg -> zv fee <= zv a -> zv chg = zv a - zv fee.
  Proof.
    intros E H. apply (f_equal zv) in E. unfold fadd in E. rewrite zv_fz in E. pose proof (zv_range a). pose proof (zv_range fee). pose proof (zv_range chg).
    destruct (Z.lt_ge_cases (zv fee + zv chg) modulus) as [G|G]; [rewrite Z.mod_small in E; lia|].
    exfalso. rewrite <- (Z_mod_plus_full _ (-1)), Z.mod_small in E; lia.
  Qed.

  (** one note: what it creates is what it spends, plus what it mints, minus its fee *)
  Lemma output_bounded d t o : tx_opens d t o -> supply_condition t o ->
    (forall s, In s (op_inputs o) -> real s = true -> zv (ro_amount (sp_ro s)) < 2 ^ 128) ->
    forall r, In r (op_outputs o) -> ro_code r <> dummy_asset_code -> zv (ro_amount r) < 2 ^ 128.
  Proof.
    destruct t as [n|n|n], o as [x|x|x]; cbn [tx_opens]; try tauto; intros H HC HI r Hr Hd; cbn [op_inputs op_outputs supply_condition tx_fee] in *.
    - destruct (opens_amounts _ _ _ H) as (K & _). rewrite Forall_forall in K. specialize (K r Hr). cbv beta in K. lia.
    - destruct (mint_opens_facts L _ _ _ H) as (_ & EA & RA & _ & _ & _ & _ & EN & _ & _ & _ & _ & _ & _ & _ & _ & _ & _ & _ & EB & _).
      destruct Hr as [<-|[<-|[]]]; [|rewrite EA, zv_f_of_u128; lia].
      rewrite (change_amount _ _ _ EB) by (rewrite zv_f_of_u128; exact HC).
      assert (zv (ro_amount (mv_fee_ro x)) < 2 ^ 128).
      { apply (HI (mkSpend (mv_fee_ro x) (mv_place x) (mv_sk x))); [cbn; auto|]. apply real_spec. cbn [sp_ro]. rewrite EN. apply native_neq_dummy. }
      pose proof (zv_range (f_of_u128 (ma_fee (mn_aux n)) : F)). lia.
    - destruct (freeze_opens_facts _ _ _ H) as (nl & nls & rc & rcs & _ & _ & EN & _ & _ & _ & _ & _ & _ & _ & _ & _ & _ & EB & HP).
      destruct Hr as [<-|Hr].
      + rewrite fadd_comm in EB. rewrite (change_amount _ _ _ EB) by (rewrite zv_f_of_u128; exact HC).
        assert (zv (ro_amount (fv_fee_ro x)) < 2 ^ 128).
        { apply (HI (mkSpend (fv_fee_ro x) (fv_place x) (fv_sk x))); [cbn; auto|]. apply real_spec. cbn [sp_ro]. rewrite EN. apply native_neq_dummy. }
        pose proof (zv_range (f_of_u128 (fa_fee (fn_aux n)) : F)). lia.
      + apply in_map_iff in Hr. destruct Hr as (y & <- & Hy).
        assert (K : Forall2 (fun a (_ : F) => ro_amount (fz_out a) = ro_amount (fz_in a) /\ ro_code (fz_out a) = ro_code (fz_in a)) (fv_pairs x) nls)
          by (apply (Forall3_first _ _ _ _ _ HP); intros a b e K; tauto).
        destruct (Forall2_ex_l _ _ _ _ K Hy) as (_ & _ & E1 & E2). rewrite E1. rewrite E2 in Hd.
        apply (HI (mkSpend (fz_in y) (fz_place y) (fz_sk y))); [|apply real_spec; exact Hd]. right. apply (in_map (fun x => mkSpend (fz_in x) (fz_place x) (fz_sk x))). exact Hy.
  Qed.
  Lemma tx_balance d t o c : tx_opens d t o -> supply_condition t o -> c <> dummy_asset_code ->
    (forall s, In s (op_inputs o) -> real s = true -> zv (ro_amount (sp_ro s)) < 2 ^ 128) ->
    total c (op_outputs o) + (if zeqb native_asset_code c then zv (tx_fee t) else 0) =
    total c (map sp_ro (real_inputs o)) + declared_mint c t.
  Proof.
    intros H HC Hc HI. unfold real_inputs. rewrite total_real by exact Hc.
    destruct t as [n|n|n], o as [x|x|x]; cbn [tx_opens] in H; try tauto; cbn [op_inputs op_outputs supply_condition tx_fee declared_mint] in *.
    - destruct HC as (HQ & L1 & L2). destruct (opens_amounts _ _ _ H) as (_ & _ & HA).
      destruct (opens_spends _ _ _ H) as [HS _].
      assert (HI' : Forall (fun i => zv (ro_amount (in_ro i)) < 2 ^ 128) (tv_ins x)).
      { apply Forall_forall. intros i Hi. destruct (zeqb (ro_code (in_ro i)) dummy_asset_code) eqn:E.
        - apply zeqb_spec in E. destruct (Forall2_ex_l _ _ _ _ HS Hi) as (y & _ & _ & _ & _ & K & _). rewrite (K E). unfold f0. rewrite zv_fz, Z.mod_0_l; [lia|pose proof modulus_pos; lia].
        - apply (HI (mkSpend (in_ro i) (in_place i) (in_sk i))); [apply (in_map (fun i => mkSpend (in_ro i) (in_place i) (in_sk i))), Hi|]. unfold real. cbn [sp_ro]. rewrite E. reflexivity. }
      specialize (HA HI' L1 L2).
      destruct (opens_assets _ _ _ H) as (i0 & is & o0 & os & EI & EO & C1 & _ & C2 & _ & C3 & _ & _).
      unfold in_amounts, out_amounts in HA. rewrite map_map. cbn [sp_ro]. rewrite EI, EO in *. cbn [map hd tl] in *. rewrite !total_cons, C1, C2.
      rewrite (total_uniform c (tv_code x) os Hc) by (intros r Hr; left; apply C3, Hr).
      rewrite (total_uniform c (tv_code x) (map (fun i => in_ro i) is) Hc).
      2:{ intros r Hr. apply in_map_iff in Hr. destruct Hr as (i & <- & Hi). destruct (zeqb (ro_code (in_ro i)) dummy_asset_code) eqn:E.
          - right. apply zeqb_spec in E. split; [exact E|]. destruct (Forall2_ex_l _ _ _ i HS (or_intror Hi)) as (y & _ & _ & _ & _ & K & _). apply K, E.
          - left. apply HQ; [exact Hi|]. intros E2. rewrite E2, zeqb_refl in E. discriminate. }
      rewrite map_map. destruct (zeqb native_asset_code (tv_code x)) eqn:EN.
      + apply zeqb_spec in EN. rewrite <- EN. cbn [isum fold_right] in HA. unfold isum in *. destruct (zeqb native_asset_code c); lia.
      + destruct HA as [HA1 HA2]. destruct (zeqb native_asset_code c), (zeqb (tv_code x) c); lia.
    - destruct (mint_opens_facts L _ _ _ H) as (_ & EA & RA & EC & _ & _ & _ & EN & _ & _ & _ & _ & _ & _ & _ & ENc & _ & _ & _ & EB & _).
      pose proof (change_amount _ _ _ EB ltac:(rewrite zv_f_of_u128; exact HC)) as EZ. rewrite zv_f_of_u128 in EZ.
      cbn [map sp_ro]. rewrite !total_cons, EN, ENc, EC, EA, zv_f_of_u128, EZ. change (total c []) with 0.
      destruct (zeqb native_asset_code c), (zeqb (code (mn_def n)) c); lia.
    - destruct (freeze_opens_facts _ _ _ H) as (nl & nls & rc & rcs & _ & _ & EN & _ & _ & _ & _ & _ & _ & _ & ENc & _ & _ & EB & HP).
      rewrite fadd_comm in EB. pose proof (change_amount _ _ _ EB ltac:(rewrite zv_f_of_u128; exact HC)) as EZ. rewrite zv_f_of_u128 in EZ.
      cbn [map sp_ro]. rewrite !total_cons, EN, ENc, EZ. rewrite map_map. cbn [sp_ro].
      assert (K : Forall2 (fun a (_ : F) => ro_amount (fz_out a) = ro_amount (fz_in a) /\ ro_code (fz_out a) = ro_code (fz_in a)) (fv_pairs x) nls)
        by (apply (Forall3_first _ _ _ _ _ HP); intros a b e K; tauto).
      rewrite (total_content c (map fz_out (fv_pairs x)) (map (fun y => fz_in y) (fv_pairs x))).
      2:{ clear - K. induction K; cbn; constructor; auto. }
      destruct (zeqb native_asset_code c); lia.
  Qed.

  (** ** Unspent records *)
  Lemma unspent_nil l : forall i, unspent_from i l [] = l.
  Proof. induction l as [|r l IH]; intros i; cbn; [reflexivity|]. f_equal. apply IH. Qed.
  Definition value_at (c : F) (l : list RoV) (i j : nat) : Z :=
    if (i <=? j)%nat then match nth_error l (j - i) with Some r => if zeqb (ro_code r) c then zv (ro_amount r) else 0 | None => 0 end else 0.
  Lemma unspent_cons c s sp j l : zv (pl_uid (sp_place s)) = Z.of_nat j ->
    existsb (fun s => zv (pl_uid (sp_place s)) =? Z.of_nat j) sp = false -> forall i,
    total c (unspent_from i l (s :: sp)) = total c (unspent_from i l sp) - value_at c l i j.
  Proof.
    intros E Hn. induction l as [|r l IH]; intros i.
    - cbn. unfold value_at. destruct (i <=? j)%nat; [destruct (j - i)%nat|]; reflexivity.
    - cbn [unspent_from existsb]. rewrite E, !total_app, IH. unfold value_at.
      destruct (Z.eqb_spec (Z.of_nat j) (Z.of_nat i)) as [Q|Q]; cbn [orb].
      + apply Nat2Z.inj in Q. subst i. rewrite Hn, Nat.leb_refl, Nat.sub_diag. cbn [nth_error]. rewrite (proj2 (Nat.leb_gt (Datatypes.S j) j)) by lia. rewrite total_cons. change (total c []) with 0. lia.
      + destruct (Nat.leb_spec i j) as [G|G].
        * rewrite (proj2 (Nat.leb_le (Datatypes.S i) j)) by lia. replace (j - i)%nat with (Datatypes.S (j - Datatypes.S i)) by lia. cbn [nth_error]. lia.
        * rewrite (proj2 (Nat.leb_gt (Datatypes.S i) j)) by lia. lia.
  Qed.
  Lemma unspent_total c l sp : NoDup (map (fun s => pl_uid (sp_place s)) sp) ->
    (forall s, In s sp -> exists j r, nth_error l j = Some r /\ ro_code r = ro_code (sp_ro s) /\ ro_amount r = ro_amount (sp_ro s) /\ zv (pl_uid (sp_place s)) = Z.of_nat j) ->
    total c (unspent l sp) = total c l - total c (map sp_ro sp).
  Proof.
    induction sp as [|s sp IH]; intros ND H; [unfold unspent; rewrite unspent_nil; cbn; lia|].
    cbn [map] in ND. inversion ND as [|? ? Hn ND']; subst. destruct (H s) as (j & r & Hj & E1 & E2 & E3); [cbn; auto|].
    unfold unspent. rewrite (unspent_cons c s sp j l E3).
    - fold (unspent l sp). rewrite IH; auto; [|intros; apply H; cbn; auto]. cbn [map]. rewrite total_cons. unfold value_at. cbn [Nat.leb]. rewrite Nat.sub_0_r, Hj, E1, E2. lia.
    - apply existsb_false. intros s' Hs'. apply Z.eqb_neq. intros E. apply Hn. apply in_map_iff. exists s'. split; [|exact Hs']. apply zmod_ext. congruence.
  Qed.

  Section History.
    Context (v : Validator) (op : TransactionNote -> Opening).
    Notation d := (vd_depth v).

    (** ** The records of the tree *)
    Lemma event_records_commitments e : (forall t, In t (event_txns e) -> tx_opens d t (op t)) ->
      event_commitments e = map commitment_of (event_records op e).
    Proof.
      intros H. destruct e as [ro|b sig ts pk]; cbn [event_commitments event_records event_txns] in *.
      - cbn. rewrite commitment_of_ro_value. reflexivity.
      - rewrite map_app, map_flat_map. f_equal.
        + apply flat_map_ext_in. intros t Ht. apply (tx_facts L d t (op t)). auto.
        + destruct (block_fee_record b); cbn; rewrite ?commitment_of_ro_value; reflexivity.
    Qed.
    Lemma records_leaves l h : (forall t, In t (txns_from v l h) -> tx_opens d t (op t)) ->
      lg_leaves (ledger_from v l h) = lg_leaves l ++ map commitment_of (flat_map (event_records op) (effective v l h)).
    Proof.
      intros H. rewrite leaves_from, map_flat_map. f_equal. apply flat_map_ext_in. intros e He. apply event_records_commitments.
      intros t Ht. apply H. unfold txns_from. apply in_flat_map. eauto.
    Qed.
    Lemma accepted_root h : forall l t, roots_ok d l -> In t (txns_from v l h) ->
      exists k, (k <= length (lg_leaves (ledger_from v l h)))%nat /\ tx_merkle_root t = tree_root d (firstn k (lg_leaves (ledger_from v l h))).
    Proof.
      induction h as [|e h IH]; intros l t HR Ht; [destruct Ht|]. unfold txns_from in Ht. cbn [effective] in Ht. rewrite flat_map_app in Ht.
      apply in_app_or in Ht. cbn [ledger_from fold_left]. fold (ledger_from v (step v l e) h).
      destruct Ht as [Ht|Ht]; [|apply IH; [apply roots_step, HR|exact Ht]].
      destruct (valid_b v l e) eqn:E; [|destruct Ht]. cbn in Ht. rewrite app_nil_r in Ht.
      destruct (step_valid v l e E) as (EL & _). rewrite leaves_from, EL, <- app_assoc.
      destruct e as [ro|b sig ts pk]; [destruct Ht|]. apply valid_b_block, valid_block_inv in E. destruct E as (_ & _ & _ & Hr & _).
      destruct (HR _ (Hr _ Ht)) as (k & Hk & ->). exists k. rewrite app_length. split; [lia|]. rewrite firstn_prefix by exact Hk. reflexivity.
    Qed.
    (** a record in the tree was minted by the test, or is a fee record, or is an output of a note that spends earlier records *)
    Lemma record_origin h : forall l j r, roots_ok d l -> (forall t, In t (txns_from v l h) -> tx_opens d t (op t)) ->
      nth_error (flat_map (event_records op) (effective v l h)) j = Some r ->
      (exists ro, r = ro_value ro) \/
      exists t k, In t (txns_from v l h) /\ In r (op_outputs (op t)) /\ (k <= length (lg_leaves l) + j)%nat /\ (k <= length (lg_leaves (ledger_from v l h)))%nat /\
                  tx_merkle_root t = tree_root d (firstn k (lg_leaves (ledger_from v l h))).
    Proof.
      induction h as [|e h IH]; intros l j r HR HO Hj; [destruct j; discriminate|]. unfold txns_from in *. cbn [effective] in *.
      cbn [ledger_from fold_left]. fold (ledger_from v (step v l e) h).
      destruct (valid_b v l e) eqn:E.
      2:{ rewrite (step_invalid v l e E) in *. cbn [app] in *. apply IH; auto. }
      cbn [app flat_map] in *. destruct (step_valid v l e E) as (EL & _).
      assert (HOe : forall t, In t (event_txns e) -> tx_opens d t (op t)) by (intros; apply HO, in_or_app; auto).
      pose proof (event_records_commitments e HOe) as EC.
      destruct (Nat.lt_ge_cases j (length (event_records op e))) as [G|G].
      - rewrite nth_error_app1 in Hj by exact G. apply nth_error_In in Hj.
        destruct e as [ro|b sig ts pk]; cbn [event_records event_txns] in *; [destruct Hj as [<-|[]]; left; eauto|].
        apply in_app_or in Hj. destruct Hj as [Hj|Hj].
        + right. apply in_flat_map in Hj. destruct Hj as (t & Ht & Hr). apply valid_b_block, valid_block_inv in E. destruct E as (_ & _ & _ & Hroot & _).
          destruct (HR _ (Hroot _ Ht)) as (k & Hk & Ek). exists t, k. conjs; auto; [apply in_or_app; auto|lia|rewrite leaves_from, EL, !app_length; lia|].
          rewrite leaves_from, EL, <- app_assoc, firstn_prefix by exact Hk. exact Ek.
        + left. destruct (block_fee_record b); cbn in Hj; [destruct Hj as [<-|[]]; eauto|destruct Hj|destruct Hj].
      - rewrite nth_error_app2 in Hj by exact G.
        destruct (IH (step v l e) _ r (roots_step v l e HR) (fun t Ht => HO t (in_or_app _ _ _ (or_intror Ht))) Hj) as [K|(t & k & H1 & H2 & H3 & H4 & H5)]; auto.
        right. exists t, k. conjs; auto; [apply in_or_app; auto|]. rewrite EL, app_length, EC, map_length in H3. lia.
    Qed.

    (** ** Spends name records of the tree *)
    Context (Hd : (d <= 100)%nat).
    Lemma positions_fit j : Z.of_nat j < 3 ^ Z.of_nat d -> Z.of_nat j < modulus.
    Proof.
      intros H. pose proof modulus_lb. assert (3 ^ Z.of_nat d <= 3 ^ 100) by (apply Z.pow_le_mono_r; lia).
      assert (3 ^ 100 < 2 ^ 252) by reflexivity. lia.
    Qed.
    Lemma spend_place LV SP k root s nl : hash_collision_free (history_hashes d LV SP) -> (k <= length LV)%nat ->
      root = tree_root d (firstn k LV) -> In s SP -> ro_code (sp_ro s) <> dummy_asset_code -> spend_ok d root s nl ->
      exists j, (j < k)%nat /\ nth_error LV j = Some (commitment_of (sp_ro s)) /\ pl_uid (sp_place s) = fz (Z.of_nat j) /\ Z.of_nat j < modulus.
    Proof.
      intros HF Hk -> Hs Hr [_ HM]. destruct (HM Hr) as [HL HE].
      destruct (membership_binding (history_hashes d LV SP) (firstn k LV) (pl_uid (sp_place s)) (commitment_of (sp_ro s)) (pl_path (sp_place s))) as (j & E1 & E2 & E3); auto.
      - intros x Hx. unfold history_hashes. apply in_or_app. right. apply in_flat_map. eauto.
      - intros x Hx. unfold history_hashes. apply in_or_app. left. apply in_flat_map. exists k. rewrite HL in Hx. split; [apply in_seq; lia|exact Hx].
      - rewrite HL. exact HE.
      - assert (G : (j < length (firstn k LV))%nat) by (apply nth_error_Some; congruence). rewrite firstn_length in G.
        exists j. conjs; auto; [lia| |rewrite HL in E3; apply positions_fit, E3].
        rewrite <- (firstn_skipn k LV), nth_error_app1; [exact E1|]. rewrite firstn_length. exact G.
    Qed.

    Context (h : list event).
    Notation l0 := (ledger_new d).
    Notation LV := (lg_leaves (ledger_after v h)).
    Notation RS := (records op v h).
    Notation SP := (spends_of op (accepted v h)).
    Context (HO : forall t, In t (accepted v h) -> tx_opens d t (op t))
            (HF : hash_collision_free (history_hashes d LV SP)).

    Lemma leaves_are_records : LV = map commitment_of RS.
    Proof. exact (records_leaves l0 h HO). Qed.
    Lemma in_spends t s : In t (accepted v h) -> In s (op_inputs (op t)) -> real s = true -> In s SP.
    Proof. intros H1 H2 H3. unfold spends_of. apply in_flat_map. exists t. split; [exact H1|]. apply filter_In. auto. Qed.
    Lemma spend_inv s : In s SP -> exists t nl, In t (accepted v h) /\ In s (op_inputs (op t)) /\ real s = true /\ In nl (tx_nullifiers t) /\ spend_ok d (tx_merkle_root t) s nl.
    Proof.
      intros H. apply in_flat_map in H. destruct H as (t & Ht & Hs). apply filter_In in Hs. destruct Hs as [Hs Hr].
      destruct (tx_facts L d t (op t) (HO t Ht)) as (F2 & _). destruct (Forall2_ex_l _ _ _ _ F2 Hs) as (nl & Hn & K). exists t, nl. auto.
    Qed.
    (** every spend names a record of the tree, by its position *)
    Lemma spend_in_tree s : In s SP ->
      exists j, nth_error LV j = Some (commitment_of (sp_ro s)) /\ pl_uid (sp_place s) = fz (Z.of_nat j) /\ Z.of_nat j < modulus.
    Proof.
      intros Hs. destruct (spend_inv _ Hs) as (t & nl & Ht & _ & Hr & _ & K). destruct (accepted_root h l0 t (roots_new d) Ht) as (k & Hk & E).
      destruct (spend_place LV SP k (tx_merkle_root t) s nl HF Hk E Hs) as (j & _ & H); eauto. apply real_spec, Hr.
    Qed.
    Lemma fz_nat_inj i j : Z.of_nat i < modulus -> Z.of_nat j < modulus -> fz (Z.of_nat i) = fz (Z.of_nat j) -> i = j.
    Proof. intros Hi Hj E. apply (f_equal zv) in E. rewrite !fz_small in E by lia. lia. Qed.

    Context (HBs : commitment_binding (map sp_ro SP))
            (HK : forall s, In s SP -> zv (sp_sk s) < sub_order /\ ro_owner (sp_ro s) <> no_key).

    Theorem no_double_spend : NoDup (map (fun s => pl_uid (sp_place s)) SP).
    Proof.
      set (P := flat_map (fun t => combine (op_inputs (op t)) (tx_nullifiers t)) (accepted v h)).
      assert (E1 : map fst P = flat_map (fun t => op_inputs (op t)) (accepted v h)).
      { unfold P. rewrite map_flat_map. apply flat_map_ext_in. intros t Ht. apply map_fst_combine. apply (opens_nullifiers L d), HO, Ht. }
      assert (E2 : map snd P = flat_map tx_nullifiers (accepted v h)).
      { unfold P. rewrite map_flat_map. apply flat_map_ext_in. intros t Ht. apply map_snd_combine. apply (opens_nullifiers L d), HO, Ht. }
      assert (ESP : SP = map fst (filter (fun x => real (fst x)) P)).
      { rewrite filter_map_fst, E1, filter_flat_map. reflexivity. }
      rewrite ESP at 1. rewrite map_map.
      apply (nodup_by _ snd); [apply nodup_filter; rewrite E2; apply accepted_nullifiers|].
      assert (KP : forall x, In x (filter (fun x => real (fst x)) P) -> In (fst x) SP /\ exists root, spend_ok d root (fst x) (snd x)).
      { intros [s nl] Hx. split; [rewrite ESP; apply (in_map fst _ _ Hx)|]. apply filter_In in Hx. destruct Hx as [Hx _]. apply in_flat_map in Hx.
        destruct Hx as (t & Ht & Hx). exists (tx_merkle_root t). destruct (tx_facts L d t (op t) (HO t Ht)) as (F2 & _). apply (Forall2_combine _ _ _ _ _ F2 Hx). }
      intros x y Hx Hy EU. destruct (KP x Hx) as (Sx & rx & Kx). destruct (KP y Hy) as (Sy & ry & Ky).
      destruct (HK _ Sx) as [Cx Ox]. destruct (HK _ Sy) as [Cy _].
      destruct (spend_in_tree _ Sx) as (i & Ni & Ui & Bi). destruct (spend_in_tree _ Sy) as (j & Nj & Uj & Bj).
      assert (i = j) by (apply fz_nat_inj; auto; congruence). subst j.
      apply (same_nullifier d rx ry (fst x) (fst y)); auto.
      - apply HBs; [apply in_map, Sx|apply in_map, Sy|congruence].
      - apply filter_In in Hx. destruct Hx as [_ Hx]. apply real_spec, Hx.
    Qed.

    (** ** Supply *)
    Context (HB : commitment_binding (RS ++ map sp_ro SP))
            (HC : forall t, In t (accepted v h) -> supply_condition t (op t)).

    Lemma spend_record s j : In s SP -> nth_error LV j = Some (commitment_of (sp_ro s)) ->
      exists r, nth_error RS j = Some r /\ ro_code r = ro_code (sp_ro s) /\ ro_amount r = ro_amount (sp_ro s).
    Proof.
      intros Hs Hj. rewrite leaves_are_records, nth_error_map in Hj. destruct (nth_error RS j) as [r|] eqn:E; [|discriminate].
      cbn [option_map] in Hj. apply (f_equal (fun o => match o with Some x => x | None => f0 end)) in Hj. exists r. split; [reflexivity|].
      assert (K : content r = content (sp_ro s)).
      { apply HB; [apply in_or_app; left; apply nth_error_In in E; exact E|apply in_or_app; right; apply in_map, Hs|exact Hj]. }
      apply content_facts in K. tauto.
    Qed.
    Lemma records_bounded j : forall r, nth_error RS j = Some r -> ro_code r <> dummy_asset_code -> zv (ro_amount r) < 2 ^ 128.
    Proof.
      induction j as [j IH] using lt_wf_ind. intros r Hj Hr.
      destruct (record_origin h l0 j r (roots_new d) HO Hj) as [(ro & ->)|(t & k & Ht & Hout & Hk & Hk2 & Ek)].
      - cbn [ro_amount ro_value]. rewrite zv_f_of_u128. apply zv_range.
      - cbn [ledger_new store_current_mt_root lg_leaves length] in Hk. apply (output_bounded d t (op t) (HO t Ht) (HC t Ht)) in Hout; auto.
        intros s Hs Hreal. pose proof (in_spends t s Ht Hs Hreal) as HsP.
        destruct (tx_facts L d t (op t) (HO t Ht)) as (F2 & _). destruct (Forall2_ex_l _ _ _ _ F2 Hs) as (nl & _ & K).
        destruct (spend_place LV SP k (tx_merkle_root t) s nl HF Hk2 Ek HsP (proj1 (real_spec s) Hreal) K) as (i & Hi & Ni & _).
        destruct (spend_record s i HsP Ni) as (r' & Nr & E1 & E2). rewrite <- E2. apply (IH i); [lia|exact Nr|]. rewrite E1. apply real_spec, Hreal.
    Qed.
    Lemma spends_bounded s : In s SP -> zv (ro_amount (sp_ro s)) < 2 ^ 128.
    Proof.
      intros Hs. destruct (spend_in_tree s Hs) as (j & Nj & _). destruct (spend_record s j Hs Nj) as (r & Nr & E1 & E2). rewrite <- E2.
      apply (records_bounded j r Nr). rewrite E1. apply real_spec. destruct (spend_inv s Hs) as (t & nl & _ & _ & K & _). exact K.
    Qed.
    Lemma event_balance c e : c <> dummy_asset_code -> In e (effective v l0 h) ->
      total c (event_records op e) + (if zeqb native_asset_code c then event_lost_fees e else 0) =
      event_mints c e + total c (map sp_ro (spends_of op (event_txns e))).
    Proof.
      intros Hc He. destruct e as [ro|b sig ts pk]; cbn [event_records event_lost_fees event_mints event_txns].
      - rewrite total_cons. cbn [spends_of flat_map map]. change (total c []) with 0. cbn [ro_value ro_code ro_amount]. rewrite zv_f_of_u128.
        destruct (zeqb native_asset_code c); lia.
      - assert (Ht : forall t, In t (bk_txns b) -> In t (accepted v h)) by (intros t Ht; apply in_flat_map; eexists; split; [exact He|exact Ht]).
        rewrite total_app.
        assert (K : total c (flat_map (fun t => op_outputs (op t)) (bk_txns b)) + (if zeqb native_asset_code c then sumz (map (fun t => zv (tx_fee t)) (bk_txns b)) else 0)
                    = sumz (map (declared_mint c) (bk_txns b)) + total c (map sp_ro (spends_of op (bk_txns b)))).
        { induction (bk_txns b) as [|t txns IH]; [cbn; destruct (zeqb native_asset_code c); reflexivity|].
          cbn [flat_map map spends_of sumz fold_right]. fold (spends_of op txns). rewrite map_app, !total_app.
          fold (sumz (map (declared_mint c) txns)). fold (sumz (map (fun t => zv (tx_fee t)) txns)).
          assert (Hin : In t (accepted v h)) by (apply Ht; cbn; auto).
          pose proof (tx_balance d t (op t) c (HO t Hin) (HC t Hin) Hc (fun s Hs Hr => spends_bounded s (in_spends t s Hin Hs Hr))) as B.
          specialize (IH (fun t' Ht' => Ht t' (or_intror Ht'))). destruct (zeqb native_asset_code c); lia. }
        assert (KF : total c (match block_fee_record b with Ok ro => [ro_value ro] | _ => [] end) + (if zeqb native_asset_code c then if is_ok (block_fee_record b) then 0 else sumz (map (fun t => zv (tx_fee t)) (bk_txns b)) else 0)
                     = if zeqb native_asset_code c then sumz (map (fun t => zv (tx_fee t)) (bk_txns b)) else 0).
        { unfold block_fee_record, txns_calculate_fee. destruct (calculate_fee (map tx_fee (bk_txns b))) as [f|e|] eqn:E; cbn [bind is_ok].
          - apply calculate_fee_spec in E. rewrite map_map in E. rewrite total_cons. cbn [ro_value ro_code ro_amount Structs.amount asset_def asset_def_native code]. rewrite zv_f_of_u128.
            change (total c []) with 0. rewrite <- E. change CodecProofs.zsum with sumz. destruct (zeqb native_asset_code c); lia.
          - change (total c []) with 0. lia.
          - change (total c []) with 0. lia. }
        lia.
    Qed.
    Theorem supply_by_minting c : c <> dummy_asset_code ->
      total c (unspent RS SP) + (if zeqb native_asset_code c then sumz (map event_lost_fees (effective v l0 h)) else 0) =
      sumz (map (event_mints c) (effective v l0 h)).
    Proof.
      intros Hc. rewrite (unspent_total c RS SP no_double_spend).
      2:{ intros s Hs. destruct (spend_in_tree s Hs) as (j & Nj & EU & Bj). destruct (spend_record s j Hs Nj) as (r & Nr & E1 & E2).
          exists j, r. conjs; auto. rewrite EU. apply fz_small. lia. }
      unfold records, accepted. pose proof (fun e => event_balance c e Hc) as HE. revert HE. generalize (effective v l0 h) as es. intros es HE.
      assert (K : total c (flat_map (event_records op) es) + (if zeqb native_asset_code c then sumz (map event_lost_fees es) else 0)
                  = sumz (map (event_mints c) es) + total c (map sp_ro (spends_of op (flat_map event_txns es)))); [|lia].
      induction es as [|e es IH]; [cbn; destruct (zeqb native_asset_code c); reflexivity|].
      cbn [flat_map map sumz fold_right]. fold (sumz (map event_lost_fees es)). fold (sumz (map (event_mints c) es)).
      unfold spends_of in *. rewrite flat_map_app, map_app, !total_app.
      specialize (HE e (or_introl eq_refl)) as B. specialize (IH (fun e' He' => HE e' (or_intror He'))).
      destruct (zeqb native_asset_code c); lia.
    Qed.
  End History.
End LedgerSupply.
