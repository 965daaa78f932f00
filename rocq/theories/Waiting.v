(** What can keep a payment from being accepted while it waits: only the wallet's own secret, the freezer of a record, or a
    transaction with the nullifier of the payment's dummy input. *)
From Verif Require Import Base Config Structs Keys Utils Memo Plonk Witness Circuits Relation UtilsProofs Snark Notes NoteThms Accepted Serde
  Ledger LedgerSpec LedgerProofs LedgerBlocks ScheduleSpec Schedule Wallet WalletSpec WalletProofs WalletPay WalletPay2 WorldSpec WorldProofs ExactSpec Misfiled.
#[local] Notation accepted := Ledger.accepted.

Section Waiting.
  Context {C : CapConfig} (L : CapLaws C) {S : Snark C} (SL : SnarkLaws S) {Z0 : Ser C S} {K : @RoCodec C} (KL : RoCodecLaws K) {E : MemoSer C}.

  Lemma between v h e t : In t (flat_map event_txns (effective v (ledger_after v h) e)) -> In t (accepted v (h ++ e)).
  Proof. intros H. rewrite accepted_app. apply in_or_app. right. exact H. Qed.

  Lemma note_waits v op h e kps SE w se n recs dn ts ts' :
    follows v h w se -> collision_free v op (h ++ e) kps SE -> incl se SE -> In (w_kp w) kps ->
    tn_nullifiers n = map (w_nullify w) recs ++ [dn] -> (forall x, In x recs -> holds w x) ->
    validate_single_xfr_note v (ledger_after v h) n ts = Ok tt -> zv ts' <= zv (ta_valid_until (tn_aux n)) ->
    validate_single_xfr_note v (ledger_after v (h ++ e)) n ts' = Ok tt \/
    exists t, In t (accepted v (h ++ e)) /\ ~ In t (accepted v h) /\
      ((exists x s, In x recs /\ In s (op_inputs (op t)) /\ spent_by_key w x t s) \/ In dn (tx_nullifiers t)).
  Proof.
    intros FO CF HI HK EN HH HV HT. apply (single_note SL) in HV.
    assert (EL : ledger_after v (h ++ e) = ledger_from v (ledger_after v h) e) by (unfold ledger_after; apply ledger_from_app).
    pose proof (stays_valid SL v (ledger_after v h) (TxTransfer n) ts e ts' HV) as W.
    pose proof (proj1 (single_valid_iff SL v _ _ _) HV) as SA.
    set (bt := flat_map event_txns (effective v (ledger_after v h) e)) in *.
    destruct (existsb (fun m => existsb (zeqb m) (flat_map tx_nullifiers bt)) (tn_nullifiers n)) eqn:EX.
    - right. apply existsb_exists in EX. destruct EX as (m & Hm & EX). apply existsb_exists in EX. destruct EX as (m' & Hm' & EQ). apply zeqb_spec in EQ. subst m'.
      apply in_flat_map in Hm'. destruct Hm' as (t & Ht & Hn). exists t. split; [apply between; exact Ht|]. split.
      { intros Q. apply (sa_fresh _ _ _ _ SA m Hm). apply nullifiers_after. exists t. auto. }
      rewrite EN in Hm. apply in_app_or in Hm. destruct Hm as [Hm|[<-|[]]]; [left|right; exact Hn]. apply in_map_iff in Hm. destruct Hm as (x & <- & Hx).
      destruct (follows_run L KL v op h kps SE w se (h ++ e) CF (ex_intro _ e eq_refl) FO HI HK) as [HX HLc]. pose proof (proj1 (HX x) (HH x Hx)) as [Hs _].
      assert (LO : located (w_kp w) (lg_leaves (ledger_after v (h ++ e))) x).
      { destruct (HLc x Hs) as (A & B & D). split; [exact A|]. split; [exact B|]. rewrite EL, leaves_from. rewrite nth_error_app1; [exact D|]. apply nth_error_Some. rewrite D. discriminate. }
      destruct (shown_by_key L v op (h ++ e) kps SE CF w x t HK (HI x Hs) LO (between v h e t Ht) Hn) as (s & Hs1 & Hs2). exists x, s. auto.
    - left. apply (single_note SL). rewrite EL. apply W. split; [exact HT|]. intros m Hm Hs.
      apply (existsb_false) with (x := m) in EX; [|exact Hm]. apply (existsb_false) with (x := m) in EX; [|exact Hs]. rewrite zeqb_refl in EX. discriminate EX.
  Qed.

  Lemma follows_ok v op h e kps SE w se : follows v h w se -> collision_free v op (h ++ e) kps SE -> incl se SE -> In (w_kp w) kps ->
    wallet_ok w /\ Z.of_nat (length (lg_leaves (ledger_after v h))) < 2 ^ 64.
  Proof.
    intros FO CF HI HK. destruct (follows_kept L KL v op (h ++ e) kps SE CF h w se e FO eq_refl HI HK) as (sh & I & _).
    split; [apply (ri_ok _ _ _ _ (inv_run L KL v (h ++ e) kps _ _ _ _ I))|]. pose proof (cf_size _ _ _ _ _ CF) as Q.
    unfold ledger_after in Q at 1. rewrite ledger_from_app, leaves_from, app_length in Q. fold (ledger_after v h) in Q. lia.
  Qed.

  Lemma last_eq {A} (a b : list A) x y : a ++ [x] = b ++ [y] -> x = y.
  Proof. intros H. apply (f_equal (fun l => last l x)) in H. rewrite !last_last in H. exact H. Qed.

  Theorem native_waits v op h e kps SE g depth w se r outs fee w1 n memos sg ts ts' :
    follows v h w se -> collision_free v op (h ++ e) kps SE -> incl se SE -> In (w_kp w) kps ->
    spend_native g depth w r outs fee (lg_leaves (ledger_after v h)) = (w1, Ok (n, memos, sg)) ->
    validate_single_xfr_note v (ledger_after v h) n ts = Ok tt -> zv ts' <= zv (ta_valid_until (tn_aux n)) ->
    validate_single_xfr_note v (ledger_after v (h ++ e)) n ts' = Ok tt \/
    exists t, In t (accepted v (h ++ e)) /\ ~ In t (accepted v h) /\
      ((exists x s, holds w x /\ code (asset_def (fst x)) = native_asset_code /\ In s (op_inputs (op t)) /\ spent_by_key w x t s) \/
       In (dummy_nullifier r) (tx_nullifiers t)).
  Proof.
    intros FO CF HI HK HS HV HT. destruct (follows_ok v op h e kps SE w se FO CF HI HK) as [WO SZ].
    destruct (native_in_place L _ _ _ _ _ _ _ _ _ _ _ WO SZ HS) as (recs & dn & _ & EN & HR).
    assert (ED : dn = dummy_nullifier r).
    { destruct (spend_native_paid L _ _ _ _ _ _ _ _ _ _ _ WO HS) as (recs' & chg & P). apply (last_eq _ _ _ _ (eq_trans (eq_sym EN) (np_nullifiers _ _ _ _ _ _ _ _ _ _ _ _ _ P))). }
    subst dn.
    destruct (note_waits v op h e kps SE w se n recs (dummy_nullifier r) ts ts' FO CF HI HK EN (fun x Hx => proj1 (HR x Hx)) HV HT) as [Q|(t & T1 & T2 & T3)]; [left; exact Q|right].
    exists t. split; [exact T1|]. split; [exact T2|]. destruct T3 as [(x & s & Hx & Hs & HB)|T3]; [left|right; exact T3].
    exists x, s. destruct (HR x Hx) as (A & B & _). auto.
  Qed.
  Theorem non_native_waits v op h e kps SE g depth w se r d outs fee w1 n memos sg ts ts' :
    follows v h w se -> collision_free v op (h ++ e) kps SE -> incl se SE -> In (w_kp w) kps -> code d <> native_asset_code -> code d <> dummy_asset_code ->
    spend_non_native g depth w r d outs fee (lg_leaves (ledger_after v h)) = (w1, Ok (n, memos, sg)) ->
    validate_single_xfr_note v (ledger_after v h) n ts = Ok tt -> zv ts' <= zv (ta_valid_until (tn_aux n)) ->
    validate_single_xfr_note v (ledger_after v (h ++ e)) n ts' = Ok tt \/
    exists t, In t (accepted v (h ++ e)) /\ ~ In t (accepted v h) /\
      ((exists x s, holds w x /\ In s (op_inputs (op t)) /\ spent_by_key w x t s) \/ In (dummy_nullifier r) (tx_nullifiers t)).
  Proof.
    intros FO CF HI HK D1 D2 HS HV HT. destruct (follows_ok v op h e kps SE w se FO CF HI HK) as [WO SZ].
    destruct (non_native_in_place L _ _ _ _ _ _ _ _ _ _ _ _ WO SZ D1 D2 HS) as (fr & recs & dn & _ & EN & _ & HR).
    assert (ED : dn = dummy_nullifier r).
    { destruct (spend_non_native_paid L _ _ _ _ _ _ _ _ _ _ _ _ WO D1 D2 HS) as (fr' & recs' & change & chg & P). apply (last_eq _ _ _ _ (eq_trans (eq_sym EN) (nn_nullifiers _ _ _ _ _ _ _ _ _ _ _ _ P))). }
    subst dn.
    destruct (note_waits v op h e kps SE w se n (fr :: recs) (dummy_nullifier r) ts ts' FO CF HI HK EN (fun x Hx => proj1 (HR x Hx)) HV HT) as [Q|(t & T1 & T2 & T3)]; [left; exact Q|right].
    exists t. split; [exact T1|]. split; [exact T2|]. destruct T3 as [(x & s & Hx & Hs & HB)|T3]; [left|right; exact T3].
    exists x, s. destruct (HR x Hx) as (A & _). auto.
  Qed.
End Waiting.
