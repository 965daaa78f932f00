(** All wallets together: what they hold is covered by the unspent records of the ledger, hence by what was minted. *)
From Verif Require Import Base Config Structs Keys Utils Memo Plonk Witness Circuits Relation CircuitLogic CodecProofs PolicyProofs UtilsProofs MemoProofs
  GadgetProofs Snark Notes NoteProofs NoteGen NoteGen2 NoteThms Security
  Accepted Serde Ledger LedgerSpec LedgerProofs LedgerSupply Wallet WalletSpec WalletProofs WalletPay WalletPay2 WorldSpec WorldProofs.
From Coq Require Import Permutation.
#[local] Notation accepted := Ledger.accepted.

(** ** Sums over positions *)
Definition sum_at (u : nat -> Z) (l : list nat) : Z := fold_right (fun j acc => u j + acc) 0 l.
Lemma sum_at_app u l l' : sum_at u (l ++ l') = sum_at u l + sum_at u l'.
Proof. unfold sum_at. induction l as [|j l IH]; cbn [app fold_right]; [reflexivity|]. lia. Qed.
Lemma sum_at_perm u l l' : Permutation l l' -> sum_at u l = sum_at u l'.
Proof. unfold sum_at. induction 1; cbn [fold_right]; lia. Qed.
Lemma sum_at_filter u p l : (forall j, 0 <= u j) -> sum_at u (filter p l) <= sum_at u l /\ ((forall j, In j l -> p j = false -> u j = 0) -> sum_at u (filter p l) = sum_at u l).
Proof.
  intros HU. induction l as [|j l [IH1 IH2]]; cbn [filter sum_at fold_right]; [split; [lia|reflexivity]|]. specialize (HU j). destruct (p j) eqn:Ep; cbn [sum_at fold_right]; fold (sum_at u l) (sum_at u (filter p l)).
  - split; [lia|]. intros Q. rewrite IH2; [reflexivity|]. intros k Hk. apply Q. right. exact Hk.
  - split; [lia|]. intros Q. rewrite IH2; [|intros k Hk; apply Q; right; exact Hk]. rewrite (Q j (or_introl eq_refl) Ep). lia.
Qed.
Lemma sum_at_some u l n : (forall j, 0 <= u j) -> NoDup l -> (forall j, In j l -> (j < n)%nat) ->
  sum_at u l <= sum_at u (seq 0 n) /\ ((forall j, (j < n)%nat -> u j <> 0 -> In j l) -> sum_at u l = sum_at u (seq 0 n)).
Proof.
  intros HU ND HB. set (p := fun j => if in_dec Nat.eq_dec j l then true else false).
  assert (P : Permutation l (filter p (seq 0 n))).
  { apply NoDup_Permutation; [exact ND|apply NoDup_filter, seq_NoDup|]. intros j. rewrite filter_In, in_seq. unfold p. destruct (in_dec Nat.eq_dec j l) as [Hj|Hj].
    - specialize (HB j Hj). split; [intros _; split; [lia|reflexivity]|intros _; exact Hj].
    - split; [intros Q; contradiction|intros [_ Q]; discriminate Q]. }
  rewrite (sum_at_perm u _ _ P). destruct (sum_at_filter u p (seq 0 n) HU) as [H1 H2]. split; [exact H1|]. intros Q. apply H2. intros j Hj Hp.
  destruct (Z.eq_dec (u j) 0) as [Z0|Z0]; [exact Z0|]. exfalso. apply in_seq in Hj. specialize (Q j ltac:(lia) Z0). unfold p in Hp. destruct (in_dec Nat.eq_dec j l); [discriminate Hp|contradiction].
Qed.

Section Solvent.
  Context {C : CapConfig} {S : Snark C} {Z0 : Ser C S} {K : @RoCodec C} {E : MemoSer C} (L : CapLaws C) (KL : RoCodecLaws K).

  Definition pos_spent (sp : list Spend) (j : nat) : bool := existsb (fun s => zv (pl_uid (sp_place s)) =? Z.of_nat j) sp.
  Definition value_of (c : F) (rs : list RoV) (sp : list Spend) (j : nat) : Z :=
    if pos_spent sp j then 0 else match nth_error rs j with Some r => if zeqb (ro_code r) c then zv (ro_amount r) else 0 | None => 0 end.
  Lemma value_nonneg c rs sp j : 0 <= value_of c rs sp j.
  Proof. unfold value_of. destruct (pos_spent sp j); [lia|]. destruct (nth_error rs j) as [r|]; [|lia]. destruct (zeqb _ _); [|lia]. pose proof (zv_range (ro_amount r)). lia. Qed.
  Lemma unspent_values c sp rs : forall pre l, rs = pre ++ l -> total c (unspent_from (length pre) l sp) = sum_at (value_of c rs sp) (seq (length pre) (length l)).
  Proof.
    intros pre l. revert pre. induction l as [|r l IH]; intros pre Hrs; [reflexivity|]. cbn [unspent_from length seq sum_at fold_right].
    rewrite total_app. specialize (IH (pre ++ [r])). rewrite app_length in IH. cbn [length] in IH. replace (length pre + 1)%nat with (Datatypes.S (length pre)) in IH by lia.
    rewrite IH by (rewrite <- app_assoc; exact Hrs). fold (sum_at (value_of c rs sp) (seq (Datatypes.S (length pre)) (length l))). f_equal. unfold value_of. fold (pos_spent sp (length pre)).
    destruct (pos_spent sp (length pre)); [reflexivity|]. rewrite Hrs, nth_error_app2, Nat.sub_diag by lia. cbn [nth_error]. rewrite total_cons. change (total c []) with 0. lia.
  Qed.
  Lemma unspent_sum c rs sp : total c (unspent rs sp) = sum_at (value_of c rs sp) (seq 0 (length rs)).
  Proof. exact (unspent_values c sp rs [] rs eq_refl). Qed.

  Section Members.
    Context (v : Validator) (op : TransactionNote -> Opening) (h : list event) (ms : list (Wallet * list Owned)).
    Notation RS := (records op v h).
    Notation SP := (spends_of op (accepted v h)).
    Notation kps := (map (fun m : Wallet * list Owned => w_kp (fst m)) ms).
    Notation SE := (flat_map (fun m : Wallet * list Owned => snd m) ms).
    Context (CF : collision_free v op h kps SE)
            (FO : forall m, In m ms -> follows v h (fst m) (snd m))
            (ND : NoDup (map (fun m : Wallet * list Owned => user_address (w_kp (fst m))) ms)).
    Definition pos (x : Owned) : nat := Z.to_nat (zv (snd x)).

    Lemma member_key m : In m ms -> In (w_kp (fst m)) kps.
    Proof. intros Hm. apply in_map_iff. exists m. auto. Qed.
    Lemma member_seen m : In m ms -> incl (snd m) SE.
    Proof. intros Hm x Hx. apply in_flat_map. exists m. auto. Qed.
    Lemma member_located m x : In m ms -> In x (snd m) -> located (w_kp (fst m)) (lg_leaves (ledger_after v h)) x.
    Proof. intros Hm. apply (follows_run L KL v op h kps SE (fst m) (snd m) h CF (ex_intro _ [] (eq_sym (app_nil_r h))) (FO m Hm) (member_seen m Hm) (member_key m Hm)). Qed.
    Lemma member_held m x : In m ms -> (In x (held (fst m)) <-> In x (snd m) /\ ~ spent_at v op h (snd x)).
    Proof. intros Hm. rewrite (held_holds (fst m) x). exact (held_iff_unspent L KL v op h kps SE (fst m) (snd m) CF (FO m Hm) (member_seen m Hm) (member_key m Hm) x). Qed.
    Lemma member_nodup m : In m ms -> NoDup (held (fst m)).
    Proof.
      intros Hm. destruct (follows_in_step L KL v op h kps SE (fst m) (snd m) CF (FO m Hm) (member_seen m Hm) (member_key m Hm)) as (sh & [R _] & (A & B & D)).
      apply held_nodup. exact (ri_ok _ _ _ _ (runs_inv L KL _ _ _ _ R A B D)).
    Qed.
    (** records at the same position have the same content *)
    Lemma same_position m m' x y : In m ms -> In m' ms -> In x (snd m) -> In y (snd m') -> pos x = pos y -> content (ro_value (fst x)) = content (ro_value (fst y)).
    Proof.
      intros Hm Hm' Hx Hy HP. destruct (located_record L v op h kps SE CF _ x (member_seen m Hm x Hx) (member_located m x Hm Hx)) as (r & Hr & HC).
      destruct (located_record L v op h kps SE CF _ y (member_seen m' Hm' y Hy) (member_located m' y Hm' Hy)) as (r' & Hr' & HC').
      unfold pos in HP. rewrite HP in Hr. assert (r = r') by congruence. subst r'. congruence.
    Qed.
    Lemma member_positions m : In m ms -> NoDup (map pos (held (fst m))).
    Proof.
      intros Hm. pose proof (member_nodup m Hm) as N. assert (HS : forall x, In x (held (fst m)) -> In x (snd m)) by (intros x Hx; apply (member_held m x Hm), Hx).
      induction (held (fst m)) as [|x l IH]; cbn [map]; [constructor|]. inversion N as [|? ? Hn N']; subst. constructor; [|apply IH; [exact N'|intros y Hy; apply HS; right; exact Hy]].
      intros Q. apply in_map_iff in Q. destruct Q as (y & HP & Hy). apply Hn. assert (Sx := HS x (or_introl eq_refl)). assert (Sy := HS y (or_intror Hy)).
      destruct (member_located m x Hm Sx) as (P1 & F1 & _), (member_located m y Hm Sy) as (P2 & F2 & _).
      replace x with y; [exact Hy|]. assert (EF : fst y = fst x) by (apply (content_ro L); [apply (same_position m m y x); auto|congruence|congruence]).
      assert (ES : snd y = snd x). { apply zmod_ext. unfold pos in HP. pose proof (zv_range (snd x)). pose proof (zv_range (snd y)). lia. }
      destruct x, y; cbn [fst snd] in *; congruence.
    Qed.
    Lemma all_positions : NoDup (flat_map (fun m => map pos (held (fst m))) ms).
    Proof.
      assert (G : forall l, incl l ms -> NoDup (map (fun m : Wallet * list Owned => user_address (w_kp (fst m))) l) -> NoDup (flat_map (fun m => map pos (held (fst m))) l)).
      { induction l as [|m l IH]; intros HI N; cbn [flat_map]; [constructor|]. cbn [map] in N. inversion N as [|? ? Hn N']; subst.
        assert (Hm : In m ms) by (apply HI; left; reflexivity). assert (HI' : incl l ms) by (intros z Hz; apply HI; right; exact Hz).
        apply NoDup_app_intro; [apply member_positions, Hm|apply IH; assumption|]. intros j Hj Hj'. apply in_flat_map in Hj'. destruct Hj' as (m' & Hm' & Hj').
        apply in_map_iff in Hj. destruct Hj as (x & <- & Hx). apply in_map_iff in Hj'. destruct Hj' as (y & HP & Hy).
        apply (member_held m x Hm) in Hx. apply (member_held m' y (HI' _ Hm')) in Hy. destruct Hx as [Hx _], Hy as [Hy _].
        pose proof (same_position m' m y x (HI' _ Hm') Hm Hy Hx HP) as HC. destruct (content_facts _ _ HC) as (_ & _ & E3 & _). cbn [ro_value ro_owner] in E3. apply (pt_xy_inj L) in E3.
        destruct (member_located m x Hm Hx) as (P1 & _), (member_located m' y (HI' _ Hm') Hy) as (P2 & _). rewrite P1, P2 in E3.
        apply Hn. apply in_map_iff. exists m'. split; [exact E3|exact Hm']. }
      apply G; [apply incl_refl|exact ND].
    Qed.
    Lemma spent_pos x : spent_at v op h (snd x) <-> pos_spent SP (pos x) = true.
    Proof.
      unfold pos_spent. rewrite existsb_exists. unfold pos. pose proof (zv_range (snd x)). split.
      - intros (s & Hs & HU). exists s. split; [exact Hs|]. rewrite HU, zv_f_of_u64. apply Z.eqb_eq. lia.
      - intros (s & Hs & HU). exists s. split; [exact Hs|]. apply Z.eqb_eq in HU. apply zmod_ext. rewrite zv_f_of_u64. lia.
    Qed.
    Lemma held_value c m x : In m ms -> In x (held (fst m)) ->
      (pos x < length RS)%nat /\ value_of c RS SP (pos x) = if zeqb (code (asset_def (fst x))) c then zv (amount (fst x)) else 0.
    Proof.
      intros Hm Hx. apply (member_held m x Hm) in Hx. destruct Hx as [Hx HN].
      destruct (located_record L v op h kps SE CF _ x (member_seen m Hm x Hx) (member_located m x Hm Hx)) as (r & Hr & HC). fold (pos x) in Hr.
      split; [apply nth_error_Some; congruence|]. unfold value_of. destruct (pos_spent SP (pos x)) eqn:EP; [apply spent_pos in EP; contradiction|].
      rewrite Hr. destruct (content_facts _ _ HC) as (E1 & E2 & _). rewrite E1, E2. cbn [ro_value ro_code ro_amount]. rewrite zv_f_of_u128. reflexivity.
    Qed.
    Lemma held_sum c : sumz (map (fun m : Wallet * list Owned => total_of c (held (fst m))) ms) = sum_at (value_of c RS SP) (flat_map (fun m => map pos (held (fst m))) ms).
    Proof.
      assert (G : forall l, incl l ms -> sumz (map (fun m : Wallet * list Owned => total_of c (held (fst m))) l) = sum_at (value_of c RS SP) (flat_map (fun m => map pos (held (fst m))) l)).
      { induction l as [|m l IH]; intros HI; [reflexivity|]. cbn [map flat_map sumz fold_right]. fold (sumz (map (fun m : Wallet * list Owned => total_of c (held (fst m))) l)).
        rewrite sum_at_app, IH by (intros z Hz; apply HI; right; exact Hz). f_equal. pose proof (fun x => held_value c m x (HI m (or_introl eq_refl))) as HV.
        induction (held (fst m)) as [|x xs IHx]; [reflexivity|]. cbn [total_of fold_right map sum_at]. fold (total_of c xs) (sum_at (value_of c RS SP) (map pos xs)).
        rewrite IHx by (intros y Hy; apply HV; right; exact Hy). rewrite (proj2 (HV x (or_introl eq_refl))). reflexivity. }
      apply G, incl_refl.
    Qed.
    Theorem solvent c : sumz (map (fun m : Wallet * list Owned => total_of c (held (fst m))) ms) <= total c (unspent RS SP) /\
      ((forall j r, nth_error RS j = Some r -> ro_code r = c -> exists m x, In m ms /\ In x (snd m) /\ zv (snd x) = Z.of_nat j) ->
       sumz (map (fun m : Wallet * list Owned => total_of c (held (fst m))) ms) = total c (unspent RS SP)).
    Proof.
      rewrite held_sum, unspent_sum.
      destruct (sum_at_some (value_of c RS SP) (flat_map (fun m => map pos (held (fst m))) ms) (length RS) (value_nonneg c RS SP) all_positions) as [H1 H2].
      - intros j Hj. apply in_flat_map in Hj. destruct Hj as (m & Hm & Hj). apply in_map_iff in Hj. destruct Hj as (x & <- & Hx). apply (held_value c m x Hm Hx).
      - split; [exact H1|]. intros HC. apply H2. intros j Hj HV. unfold value_of in HV. destruct (pos_spent SP j) eqn:EP; [contradiction HV; reflexivity|].
        destruct (nth_error RS j) as [r|] eqn:ER; [|contradiction HV; reflexivity]. destruct (zeqb (ro_code r) c) eqn:EC; [|contradiction HV; reflexivity]. apply zeqb_spec in EC.
        destruct (HC j r ER EC) as (m & x & Hm & Hx & HJ). apply in_flat_map. exists m. split; [exact Hm|]. apply in_map_iff. exists x.
        assert (EJ : pos x = j) by (unfold pos; lia). split; [exact EJ|]. apply (member_held m x Hm). split; [exact Hx|]. rewrite spent_pos, EJ, EP. discriminate.
    Qed.
    Theorem solvent_by_minting c : (forall t, In t (accepted v h) -> supply_condition t (op t)) -> c <> dummy_asset_code ->
      let lost := if zeqb native_asset_code c then sumz (map event_lost_fees (effective v (ledger_new (vd_depth v)) h)) else 0 in
      let minted := sumz (map (event_mints c) (effective v (ledger_new (vd_depth v)) h)) in
      sumz (map (fun m : Wallet * list Owned => total_of c (held (fst m))) ms) + lost <= minted /\
      ((forall j r, nth_error RS j = Some r -> ro_code r = c -> exists m x, In m ms /\ In x (snd m) /\ zv (snd x) = Z.of_nat j) ->
       sumz (map (fun m : Wallet * list Owned => total_of c (held (fst m))) ms) + lost = minted).
    Proof.
      intros HC Hc lost minted. destruct (solvent c) as [H1 H2].
      assert (HB : commitment_binding (RS ++ map sp_ro SP)).
      { assert (G : forall z, In z (RS ++ map sp_ro SP) -> In z (RS ++ map sp_ro (inputs_of op (accepted v h)) ++ map (fun x => ro_value (fst x)) SE)).
        { intros z Hz. apply in_app_or in Hz. apply in_or_app. destruct Hz as [Hz|Hz]; [left; exact Hz|right]. apply in_or_app. left. apply in_map_iff in Hz. destruct Hz as (s & <- & Hs).
          apply in_map. exact (spends_inputs v op h s Hs). }
        intros x y Hx Hy. apply (cf_commitments _ _ _ _ _ CF); apply G; assumption. }
      assert (SB : total c (unspent RS SP) + lost = minted).
      { apply (supply_by_minting L v op (cf_depth _ _ _ _ _ CF) h (cf_opens _ _ _ _ _ CF) (cf_tree _ _ _ _ _ CF)); auto; [|exact (cf_secrets _ _ _ _ _ CF)].
        intros x y Hx Hy. apply HB; apply in_or_app; right; assumption. }
      split; [lia|]. intros Q. rewrite (H2 Q). exact SB.
    Qed.
  End Members.
End Solvent.
