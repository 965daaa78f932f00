(** Consequences of the circuit relations: conservation over the integers, one nullifier per record, the viewing
    policy, the fee of a mint or a freeze. *)
From Verif Require Import Base Config Structs Keys Utils Memo Plonk Relation.

Section Security.
  Context {C : CapConfig}.

  (** ** Integer sums *)
  Definition isum (l : list F) : Z := fold_right (fun x acc => zv x + acc) 0 l.
  Lemma isum_nonneg l : 0 <= isum l.
  Proof. induction l as [|x l IH]; cbn [isum fold_right]; [lia|]. pose proof (zv_range x). unfold isum in IH. lia. Qed.
  Lemma isum_bound B l : 0 <= B -> Forall (fun x : F => zv x < B) l -> isum l <= Z.of_nat (length l) * B.
  Proof.
    intros HB H. induction H as [|x l Hx H IH]; [cbn; lia|]. cbn [isum fold_right length]. fold (isum l). rewrite Nat2Z.inj_succ. lia.
  Qed.
  Lemma fsum_isum l : isum l < modulus -> zv (fsum l) = isum l.
  Proof.
    induction l as [|x l IH]; intros H; cbn [fsum fold_right isum] in *.
    - unfold f0. rewrite zv_fz. apply Z.mod_0_l. pose proof modulus_pos; lia.
    - fold (fsum l). fold (isum l) in *. unfold fadd. rewrite zv_fz. pose proof (zv_range x). rewrite IH by lia.
      apply Z.mod_small. pose proof (isum_nonneg l). lia.
  Qed.
  (** fewer than 2^64 amounts below 2^128 *)
  Lemma small_sum l : Forall (fun x : F => zv x < 2 ^ 128) l -> Z.of_nat (length l) < 2 ^ 64 -> isum l < 2 ^ 192.
  Proof.
    intros H HL. pose proof (isum_bound (2 ^ 128) l ltac:(lia) H).
    assert (Z.of_nat (length l) * 2 ^ 128 <= (2 ^ 64 - 1) * 2 ^ 128) by (apply Z.mul_le_mono_nonneg_r; lia).
    assert ((2 ^ 64 - 1) * 2 ^ 128 < 2 ^ 192) by reflexivity. lia.
  Qed.
  Lemma big_modulus : 2 ^ 200 < modulus.
  Proof. pose proof modulus_lb. assert (2 ^ 200 < 2 ^ 252) by reflexivity. lia. Qed.
  Lemma fadd_small (a b : F) : zv a + zv b < 2 ^ 200 -> zv (fadd a b) = zv a + zv b.
  Proof. intros H. unfold fadd. rewrite zv_fz. apply Z.mod_small. pose proof (zv_range a). pose proof (zv_range b). pose proof big_modulus. lia. Qed.

  (** ** Conservation *)
  Definition in_amounts (t : TransferV) : list F := map (fun i => ro_amount (in_ro i)) (tv_ins t).
  Definition out_amounts (t : TransferV) : list F := map ro_amount (tv_outs t).
  Lemma out_range q t : transfer_relation q t -> Forall (fun x : F => zv x < 2 ^ 127) (out_amounts t).
  Proof.
    intros R. apply Forall_forall. intros x Hx. apply in_map_iff in Hx. destruct Hx as (o & <- & Ho).
    pose proof (tr_outputs _ _ R) as H. destruct (tv_outs t) as [|o0 os]; [destruct Ho|]. destruct (tq_commitments q) as [|c cs]; [destruct H|].
    destruct H as [H0 H]. assert (K : in_range AMOUNT_LEN (ro_amount o) = true).
    { destruct Ho as [<-|Ho]; [apply (oo_range _ _ _ _ _ H0)|]. clear H0. induction H as [|a b l k Hab H IH]; [destruct Ho|].
      destruct Ho as [<-|Ho]; [apply (oo_range _ _ _ _ _ Hab)|auto]. }
    unfold in_range in K. apply Z.ltb_lt in K. exact K.
  Qed.
  Lemma conservation q t : transfer_relation q t ->
    Forall (fun x : F => zv x < 2 ^ 128) (in_amounts t) -> zv (tq_fee q) < 2 ^ 128 ->
    Z.of_nat (length (tv_ins t)) < 2 ^ 64 -> Z.of_nat (length (tv_outs t)) < 2 ^ 64 ->
    if zeqb (tq_native q) (tv_code t)
    then isum (in_amounts t) = isum (out_amounts t) + zv (tq_fee q)
    else isum (tl (in_amounts t)) = isum (tl (out_amounts t)) /\
         isum (firstn 1 (in_amounts t)) = isum (firstn 1 (out_amounts t)) + zv (tq_fee q).
  Proof.
    intros R HI HF LI LO. pose proof (out_range _ _ R) as HO.
    assert (HO' : Forall (fun x : F => zv x < 2 ^ 128) (out_amounts t)) by (eapply Forall_impl; [|exact HO]; cbn; intros; lia).
    clear HO. pose proof (tr_balanced _ _ R) as HB.
    unfold balanced, transfer_in, transfer_out, fee_in, fee_change, tail_sum in HB. fold (in_amounts t) in HB. fold (out_amounts t) in HB.
    assert (LI' : Z.of_nat (length (in_amounts t)) < 2 ^ 64) by (unfold in_amounts; rewrite map_length; auto).
    assert (LO' : Z.of_nat (length (out_amounts t)) < 2 ^ 64) by (unfold out_amounts; rewrite map_length; auto).
    revert HB HI HO' LI' LO'. clear LI LO. generalize (in_amounts t) as li, (out_amounts t) as lo. intros li lo HB HI HO LI LO.
    pose proof (small_sum _ HI LI) as SI. pose proof (small_sum _ HO LO) as SO. pose proof big_modulus as BM.
    pose proof (zv_range (tq_fee q)) as HF0.
    assert (Z0 : zv (f0 : F) = 0) by (unfold f0; rewrite zv_fz; apply Z.mod_0_l; pose proof modulus_pos; lia).
    assert (TL : forall l, isum l < 2 ^ 192 -> zv (fsum (tl l)) = isum (tl l) /\ isum (tl l) + zv (hd f0 l) = isum l /\
                           isum (firstn 1 l) = zv (hd f0 l) /\ 0 <= isum (tl l) /\ 0 <= zv (hd f0 l)).
    { clear -BM Z0. intros [|x l] H; cbn [tl hd firstn].
      - conjs; cbn [fsum isum fold_right]; lia.
      - cbn [isum fold_right] in *. fold (isum l) in *. pose proof (isum_nonneg l). pose proof (zv_range x). rewrite fsum_isum by lia. conjs; lia. }
    destruct (TL li SI) as (A1 & A2 & A3 & A4 & A5). destruct (TL lo SO) as (B1 & B2 & B3 & B4 & B5).
    destruct (zeqb (tq_native q) (tv_code t)).
    - apply (f_equal zv) in HB. rewrite !fadd_small in HB; [lia|..]; try rewrite fadd_small; lia.
    - destruct HB as [H1 H2]. apply (f_equal zv) in H1. apply (f_equal zv) in H2. rewrite fadd_small in H2 by lia. lia.
  Qed.

  (** ** The viewing policy *)
  Lemma viewing q t : transfer_relation q t -> po_viewer (tv_pol t) <> no_key ->
    Forall (fun x : F => zv x < 2 ^ 128) (tl (in_amounts t)) -> Z.of_nat (length (tv_ins t)) < 2 ^ 64 ->
    zv (po_threshold (tv_pol t)) < isum (tl (in_amounts t)) ->
    tq_memo q = celgamal_encrypt (po_viewer (tv_pol t)) (tv_rand t) (transfer_message t).
  Proof.
    intros R HV HI LI HT. destruct (tr_viewing _ _ R) as [U|[U|U]]; [exfalso|contradiction|exact U].
    assert (LI' : Z.of_nat (length (tl (in_amounts t))) < 2 ^ 64).
    { unfold in_amounts. destruct (tv_ins t); cbn in *; [lia|]. rewrite map_length. lia. }
    pose proof (small_sum _ HI LI') as SI. pose proof big_modulus as BM.
    assert (SI' : isum (tl (in_amounts t)) < modulus) by lia.
    unfold under_limit, transfer_in, tail_sum in U. fold (in_amounts t) in U.
    unfold in_range in U. apply Z.ltb_lt in U. unfold fsub in U. rewrite zv_fz, fsum_isum in U by exact SI'.
    pose proof (zv_range (po_threshold (tv_pol t))) as HT0. pose proof modulus_lb as ML.
    replace ((zv (po_threshold (tv_pol t)) - isum (tl (in_amounts t))) mod modulus)
      with (zv (po_threshold (tv_pol t)) - isum (tl (in_amounts t)) + modulus) in U.
    2:{ symmetry. rewrite <- (Z_mod_plus_full _ 1 modulus), Z.mul_1_l. apply Z.mod_small. lia. }
    assert (E1 : 2 ^ 192 + 2 ^ 127 < 2 ^ 252) by reflexivity. change (2 ^ Z.of_nat AMOUNT_LEN) with (2 ^ 127) in U. lia.
  Qed.

  (** ** Fees of mints and freezes *)
  Lemma mint_fee_covered q w : mint_relation q w -> zv (mq_fee q) < 2 ^ 128 -> zv (ro_amount (mv_chg w)) < 2 ^ 128 ->
    zv (ro_amount (mv_fee_ro w)) = zv (mq_fee q) + zv (ro_amount (mv_chg w)).
  Proof.
    intros R H1 H2. pose proof (mr_balance _ _ R) as HB. rewrite <- HB. apply fadd_small.
    assert (2 ^ 128 + 2 ^ 128 < 2 ^ 200) by reflexivity. lia.
  Qed.
  Lemma freeze_fee_covered q w : freeze_relation q w -> zv (fq_fee q) < 2 ^ 128 -> zv (ro_amount (fv_chg w)) < 2 ^ 128 ->
    zv (ro_amount (fv_fee_ro w)) = zv (fq_fee q) + zv (ro_amount (fv_chg w)).
  Proof.
    intros R H1 H2. pose proof (fr_balance _ _ R) as HB. rewrite <- HB, fadd_small; [lia|].
    assert (2 ^ 128 + 2 ^ 128 < 2 ^ 200) by reflexivity. lia.
  Qed.

  (** ** One nullifier per record *)
  (** a spend of record [r] at position [uid] by its owner, or by its freezer, with secret [sk], exposing [nl] *)
  Definition owner_spend (r : RoV) (uid sk nl : F) : Prop :=
    owns sk (ro_owner r) /\ nl = nullifier_of (spending_key sk (po_freezer (ro_pol r))) uid (commitment_of r).
  Definition freezer_spend (r : RoV) (uid sk nl : F) : Prop :=
    owns sk (po_freezer (ro_pol r)) /\ nl = nullifier_of (spending_key sk (ro_owner r)) uid (commitment_of r).

  Context (L : CapLaws C).

  Lemma owns_canonical sk sk' P : owns sk P -> owns sk' P -> zv sk < sub_order -> zv sk' < sub_order -> sk = sk'.
  Proof.
    intros [_ H1] [_ H2] C1 C2. assert (E : pt_mul (zv sk) pt_gen = pt_mul (zv sk') pt_gen) by (apply (pt_xy_inj L); congruence).
    apply (pt_mul_gen L) in E. pose proof (zv_range sk). pose proof (zv_range sk'). rewrite !Z.mod_small in E by lia. apply zmod_ext. exact E.
  Qed.
  Lemma owner_freezer_key sk fsk P Q : owns sk P -> owns fsk Q -> P <> no_key -> Q <> no_key -> spending_key sk Q = spending_key fsk P.
  Proof.
    intros [_ ->] [_ ->] HP HQ. unfold spending_key.
    destruct (xy_eqb (pt_xy (pt_mul (zv fsk) pt_gen)) neutral_xy) eqn:E1; [apply xy_eqb_spec in E1; contradiction|].
    destruct (xy_eqb (pt_xy (pt_mul (zv sk) pt_gen)) neutral_xy) eqn:E2; [apply xy_eqb_spec in E2; contradiction|].
    rewrite !(cmul_xy L), (pt_mul_comm L). reflexivity.
  Qed.
  (** with a freezer on the curve the owner's key does not depend on the representative of the secret *)
  Lemma owner_key_any_scalar sk sk' P Q : owns sk P -> owns sk' P -> Q <> pt_id -> spending_key sk (pt_xy Q) = spending_key sk' (pt_xy Q).
  Proof.
    intros [_ H1] [_ H2] HQ. assert (E : pt_mul (zv sk) pt_gen = pt_mul (zv sk') pt_gen) by (apply (pt_xy_inj L); congruence).
    unfold spending_key. destruct (xy_eqb (pt_xy Q) neutral_xy) eqn:E1.
    { apply xy_eqb_spec in E1. exfalso. apply HQ, (pt_xy_inj L). rewrite E1, (pt_xy_id L). reflexivity. }
    rewrite !(cmul_xy L). destruct (pt_gen_spans L Q) as (k & ->). rewrite !(pt_mul_comm L _ k), E. reflexivity.
  Qed.

  Lemma one_nullifier r uid sk nl sk' nl' :
    (owner_spend r uid sk nl \/ freezer_spend r uid sk nl) -> (owner_spend r uid sk' nl' \/ freezer_spend r uid sk' nl') ->
    zv sk < sub_order -> zv sk' < sub_order -> ro_owner r <> no_key ->
    (freezer_spend r uid sk nl \/ freezer_spend r uid sk' nl' -> po_freezer (ro_pol r) <> no_key) -> nl = nl'.
  Proof.
    intros H1 H2 C1 C2 HO HF. destruct H1 as [[O1 E1]|[O1 E1]], H2 as [[O2 E2]|[O2 E2]]; subst nl nl'.
    - rewrite (owns_canonical _ _ _ O1 O2 C1 C2). reflexivity.
    - rewrite (owner_freezer_key sk sk' _ _ O1 O2); auto. apply HF. right. split; auto.
    - rewrite (owner_freezer_key sk' sk _ _ O2 O1); auto. apply HF. left. split; auto.
    - rewrite (owns_canonical _ _ _ O1 O2 C1 C2). reflexivity.
  Qed.
End Security.
