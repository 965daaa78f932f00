(** The viewer of the integration test (property C61). *)
From Coq Require Import ZifyBool ZifyNat.
From Verif Require Import Base Config Structs Keys Utils Memo Plonk Witness Circuits Relation CircuitLogic CodecProofs PolicyProofs
  UtilsProofs MemoProofs GadgetProofs Snark Notes NoteProofs Security Accepted Serde Ledger Wallet Roles RolesView WalletProofs.

Section Viewing.
  Context {C : CapConfig} {S : Snark C} (L : CapLaws C).

  Lemma process_chunks_count {A} fuel count len (f : list F -> res A) data l rest :
    process_chunks fuel count len f data = Ok (l, rest) -> Z.of_nat (length l) = Z.max 0 count.
  Proof.
    revert count data l rest. induction fuel as [|fuel IH]; intros count data l rest H; cbn [process_chunks] in H; destruct (Z.leb_spec count 0).
    - injection H as <- <-. cbn. lia.
    - discriminate.
    - injection H as <- <-. cbn. lia.
    - destruct (_ <? _)%nat; [discriminate|]. apply bind_ok in H. destruct H as (a & _ & H). apply bind_ok in H. destruct H as ([l' r'] & H & E). injection E as <- <-.
      apply IH in H. cbn [length]. lia.
  Qed.
  Lemma open_counts kp ad k m memo ins outs : open_transfer_viewing_memo kp ad (Datatypes.S k) (Datatypes.S m) memo = Ok (ins, outs) ->
    (length ins <= k)%nat /\ length outs = m.
  Proof.
    unfold open_transfer_viewing_memo. destruct (negb _); [discriminate|]. cbn [usize_pred bind].
    match goal with |- context [if ?b then _ else _] => destruct b end; [discriminate|].
    destruct (elgamal_decrypt _ _) as [|c data]; [discriminate|]. destruct (negb _); [discriminate|]. intros H.
    apply bind_ok in H. destruct H as ([i rest] & H1 & H). apply bind_ok in H. destruct H as ([o rest'] & H2 & H). injection H as <- <-.
    apply process_chunks_count in H1. apply process_chunks_count in H2. split; [|lia].
    assert (G : (length (filter vd_not_dummy i) <= length i)%nat) by (clear; induction i as [|x i IH]; cbn [filter length]; [lia|]; destruct (vd_not_dummy x); cbn [length]; lia). lia.
  Qed.

  (** what the scan returns for each output: the record, and the position it takes in the tree *)
  Definition shown_output (v : Viewer) (n : TransferNote) (off : nat) (outs : list (ViewableData * u64)) (i : nat) (o : RecordOpening) : Prop :=
    nth_error outs i = Some (entry (vw_def v) o hidden_attrs, w64 (Z.of_nat (off + 1 + i))) /\
    nth_error (tn_commitments n) (Datatypes.S i) = Some (derive_record_commitment o) /\
    asset_def o = vw_def v /\ freeze_flag o = Unfrozen.

  Lemma positions_nth off m i : (i < m)%nat -> nth_error (positions off m) i = Some (w64 (Z.of_nat (off + 1 + i))).
  Proof.
    intros H. unfold positions. rewrite nth_error_map. rewrite nth_error_nth' with (d := 0%nat) by (rewrite seq_length; exact H).
    rewrite seq_nth by exact H. reflexivity.
  Qed.
  Lemma combine_nth' {A B} (l : list A) (k : list B) i x y : nth_error l i = Some x -> nth_error k i = Some y -> nth_error (combine l k) i = Some (x, y).
  Proof.
    revert k i. induction l as [|a l IH]; intros [|b k] [|i]; cbn; try discriminate.
    - intros [= ->] [= ->]. reflexivity.
    - apply IH.
  Qed.

  Lemma scan_shows d n t (v : Viewer) off :
    transfer_opens d n t -> tv_code t = code (vw_def v) -> tv_pol t = pol_value (policy (vw_def v)) ->
    viewer_pub_key (vw_kp v) = viewer_pk (policy (vw_def v)) -> viewer_pk (policy (vw_def v)) <> pt_id ->
    rm_bit (reveal_map (policy (vw_def v))) 0 = rm_bit (reveal_map (policy (vw_def v))) 1 ->
    Forall (fun i => zv (ro_amount (in_ro i)) < 2 ^ 128) (tl (tv_ins t)) ->
    zv (reveal_threshold (policy (vw_def v))) < isum (tl (in_amounts t)) ->
    Z.of_nat (1 + 12 * length (tn_nullifiers n) + 4 * length (tn_commitments n)) < 2 ^ 64 ->
    (forall o, In o (tl (tv_outs t)) -> exists P, ro_owner o = pt_xy P) ->
    exists ins xs outs, viewer_scan_xfr v n off = Ok (ins, outs) /\
      length outs = length (tl (tv_outs t)) /\ length outs = length (tl (tn_commitments n)) /\
      (forall i o, nth_error (tl (tv_outs t)) i = Some o -> exists r, ro_value r = o /\ shown_output v n off outs i r) /\
      Forall2 stands_for_input xs (real_inputs t) /\
      ((forall i, In i (real_inputs t) -> ro_owner (in_ro i) <> no_key) ->
       ins = map (fun x => entry (vw_def v) (fst x) (shown_attrs (vw_def v) (snd x))) xs).
  Proof.
    intros HO Ec Ep Hkp Hv Hbit HA HT Hsz Hown.
    destruct (transfer_viewed L d n t (vw_def v) (vw_kp v) HO Ec Ep Hkp Hv Hbit HA HT Hsz Hown) as (ins & xs & os & E & F2 & Ecm & FA & FI & EI).
    destruct HO as (Hn & Hc & _). destruct (tn_nullifiers n) as [|n0 nl] eqn:En; [contradiction|]. destruct (tn_commitments n) as [|c0 cl] eqn:Ecl; [contradiction|].
    destruct (open_counts _ _ _ _ _ _ _ E) as [G1 G2]. rewrite map_length in G2. cbn [tl] in Ecm.
    exists ins, xs, (combine (map (fun o => entry (vw_def v) o hidden_attrs) os) (positions off (length os))).
    assert (Lp : length (positions off (length os)) = length os) by (unfold positions; rewrite map_length, seq_length; reflexivity).
    assert (Lc : length (combine (map (fun o => entry (vw_def v) o hidden_attrs) os) (positions off (length os))) = length os)
      by (rewrite combine_length, map_length, Lp, Nat.min_id; reflexivity).
    split; [|split; [|split; [|split; [|split; [exact FI|exact EI]]]]].
    - unfold viewer_scan_xfr. rewrite En, Ecl. cbn [length usize_pred bind] in *. rewrite E. cbn [bind]. rewrite map_length.
      match goal with |- context [if ?b then _ else _] => assert (Eb : b = false) end.
      { apply andb_false_iff. right. apply Z.ltb_ge. exact (inj_le _ _ G1). }
      rewrite Eb.
      match goal with |- context [if ?b then _ else _] => assert (Eb' : b = false) end.
      { apply andb_false_iff. right. rewrite G2, Z.eqb_refl. reflexivity. }
      rewrite Eb'. reflexivity.
    - rewrite Lc. clear -F2. induction F2; cbn [length]; [reflexivity|f_equal; assumption].
    - rewrite Lc. exact G2.
    - intros i o Ho.
      assert (X : exists r, nth_error os i = Some r /\ ro_value r = o).
      { revert i Ho. clear -F2. induction F2 as [|r v' os vs H F2 IH]; intros [|i] Ho; cbn in *; try discriminate; [|apply IH, Ho]. injection Ho as <-. exists r. auto. }
      destruct X as (r & Hr & Er). exists r. split; [exact Er|].
      pose proof (nth_error_In _ _ Hr) as Hin. rewrite Forall_forall in FA. destruct (FA _ Hin) as [A1 A2].
      assert (Hlt : (i < length os)%nat) by (apply nth_error_Some; congruence).
      split; [|split; [|auto]].
      + apply combine_nth'; [rewrite nth_error_map, Hr; reflexivity|]. apply positions_nth, Hlt.
      + rewrite Ecl. cbn [nth_error]. rewrite <- Ecm, nth_error_map, Hr. reflexivity.
  Qed.

  Lemma scan_mint_shows d n t (v : Viewer) P off :
    mint_opens d n t -> viewer_pub_key (vw_kp v) = viewer_pk (policy (mn_def n)) -> viewer_pk (policy (mn_def n)) <> pt_id ->
    ro_owner (mv_mint t) = pt_xy P -> P <> pt_id ->
    exists r, viewer_scan_mint v n off = Ok (entry (mn_def n) r [], w64 (Z.of_nat (off + 1))) /\
      ro_value r = mv_mint t /\ asset_def r = mn_def n /\ freeze_flag r = Unfrozen /\ amount r = mn_amount n /\ address (pub_key r) = P /\
      derive_record_commitment r = mn_mint n.
  Proof.
    intros HO Hk Hv HP HN. destruct (mint_viewed L d n t (vw_kp v) P HO Hk Hv HP HN) as (r & E & H). exists r.
    split; [unfold viewer_scan_mint; rewrite E; reflexivity|exact H].
  Qed.
End Viewing.
