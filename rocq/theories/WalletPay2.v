(** Payments of a wallet in an asset other than the native one. *)
From Verif Require Import Base Config Structs Keys Utils Memo Plonk Witness Circuits Snark Notes Serde Ledger Wallet WalletSpec.
From Verif Require Import CodecProofs PolicyProofs UtilsProofs MemoProofs NoteProofs NoteGen NoteThms NoteFacts NoteLive NoteLive2 LedgerProofs WalletProofs WalletPay.
From Coq Require Import Permutation.

Section Openings.
  Context {C : CapConfig} {S : Snark C} {K : @RoCodec C} {E : MemoSer C}.
  Lemma received_app c a b : received c (a ++ b) = received c a + received c b.
  Proof. induction a as [|x a IH]; [reflexivity|]. cbn [app received fold_right]. unfold received in *. rewrite IH. lia. Qed.
  Lemma opened_app kp : forall o1 m1 o2 m2, length o1 = length m1 -> opened kp (o1 ++ o2) (m1 ++ m2) = opened kp o1 m1 ++ opened kp o2 m2.
  Proof.
    unfold opened. induction o1 as [|o o1 IH]; intros [|m m1] o2 m2 H; try discriminate; [reflexivity|]. cbn [app combine flat_map]. rewrite <- app_assoc.
    rewrite IH by (injection H as H; exact H). reflexivity.
  Qed.
  Lemma opened_all kp o m : length o = length m -> opened kp (firstn (length o) o) (firstn (length o) m) = opened kp o m.
  Proof. intros H. rewrite firstn_all. rewrite H, firstn_all. reflexivity. Qed.
  Lemma prefix_nodup {A} (a b : list A) : NoDup (a ++ b) -> NoDup a.
  Proof.
    induction a as [|x l IH]; intros N; [constructor|]. cbn [app] in N. inversion N as [|? ? N1 N2]; subst. constructor; [|exact (IH N2)].
    intros Hx. apply N1. apply in_or_app. left; exact Hx.
  Qed.
  Lemma payment_outputs_app d bl : forall a b k, payment_outputs d bl k (a ++ b) = payment_outputs d bl k a ++ payment_outputs d bl (k + length a) b.
  Proof.
    induction a as [|[pk v] a IH]; intros b k; cbn [app payment_outputs length]; [rewrite Nat.add_0_r; reflexivity|].
    rewrite IH. do 2 f_equal. f_equal. lia.
  Qed.
End Openings.

Section NonNative.
  Context {C : CapConfig} (L : CapLaws C) {S : Snark C} {K : @RoCodec C} (KL : RoCodecLaws K) {E : MemoSer C}.

  Definition own_change (w : Wallet) (change : Amount) : list (UserPubKey * Amount) :=
    if 0 <? zv change then [(user_pub_key (w_kp w), change)] else [].

  Record non_native_paid (w : Wallet) (r : SpendRand) (d : AssetDefinition) (outs : list (UserPubKey * Amount)) (fee : Amount)
      (w1 : Wallet) (n : TransferNote) (memos : list ReceiverMemo) (fee_rec : Owned) (records : list Owned) (change : Amount) (fee_chg : RecordOpening) : Prop := {
    nn_fee : exists b, map_get native_asset_code (w_unspent w) = Some b /\ In fee_rec b;
    nn_sub : exists b rest, map_get (code d) (w_unspent w) = Some b /\ b = records ++ rest;
    nn_some : records <> [];
    nn_nullifiers : tn_nullifiers n = map (w_nullify w) (fee_rec :: records) ++ [dummy_nullifier r];
    nn_commitments : tn_commitments n = derive_record_commitment fee_chg ::
      map derive_record_commitment (payment_outputs d (sr_blind r) 0 (outs ++ own_change w change));
    nn_chg : asset_def fee_chg = asset_def_native /\ freeze_flag fee_chg = Unfrozen /\ pub_key fee_chg = pub_key (fst fee_rec) /\
      zv (amount fee_chg) = zv (amount (fst fee_rec)) - zv fee;
    nn_change : zv change = sum_of records - paid_sum outs;
    nn_memos : payment_memos (sr_enc r) 0 (payment_outputs d (sr_blind r) 0 (outs ++ own_change w change)) = Ok memos;
    nn_unspent : w_unspent w1 = w_unspent w;
    nn_pending : In fee_chg (w_pending_chg w1)
  }.

  Lemma paid_sum_app a b : paid_sum (a ++ b) = paid_sum a + paid_sum b.
  Proof. induction a as [|x a IH]; [reflexivity|]. cbn [app paid_sum fold_right]. unfold paid_sum in *. rewrite IH. lia. Qed.
  Lemma own_change_sum w change : paid_sum (own_change w change) = zv change.
  Proof.
    unfold own_change. pose proof (amount_range change). destruct (Z.ltb_spec 0 (zv change)); cbn [paid_sum fold_right snd]; lia.
  Qed.
  Lemma fee_input_non_dummy i : asset_def (ti_ro i) = asset_def_native -> is_dummy_def (asset_def (ti_ro i)) = false.
  Proof. intros H. apply not_true_iff_false. rewrite (is_dummy_iff L), H. apply asset_dummy_not_native. Qed.

  Lemma spend_non_native_paid g depth w r d outs fee leaves w1 n memos sg : wallet_ok w ->
    code d <> native_asset_code -> code d <> dummy_asset_code ->
    spend_non_native g depth w r d outs fee leaves = (w1, Ok (n, memos, sg)) ->
    exists fee_rec records change fee_chg, non_native_paid w r d outs fee w1 n memos fee_rec records change fee_chg.
  Proof.
    intros W Dn Dd H. unfold spend_non_native in H. destruct (asset_def_eqb d asset_def_native); [discriminate H|].
    destruct (let* total := total_amount outs in _) as [[total frec]| |] eqn:F; try discriminate H.
    apply bind_ok in F. destruct F as (t0 & _ & F). apply bind_ok in F. destruct F as (fr & FF & F). injection F as _ <-.
    destruct (fee_record_holds _ _ _ FF) as [Hf (bf & Gf & If)].
    pose proof (mark_unconfirmed_ok w fr W Hf) as W1.
    match type of H with context [match ?x with Ok _ => _ | Err _ => _ | Panic => _ end] => destruct x as [[[[[note ms] sig] records] chg]| |] eqn:G end; try discriminate H.
    injection H as H1 <- <- <-.
    apply bind_ok in G. destruct G as (a & Ha & G). apply bind_ok in G. destruct G as ([info fee_chg] & GF & G). apply unwrap_ok in GF.
    apply bind_ok in G. destruct G as ([records' change] & GR & G). cbn [ro_dummy] in G.
    apply bind_ok in G. destruct G as (inputs & GI & G). apply bind_ok in G. destruct G as (keys & _ & G).
    apply bind_ok in G. destruct G as ([n0 sk] & GG & G). apply bind_ok in G. destruct G as (ms' & GM & G). apply bind_ok in G. destruct G as (sg' & _ & G).
    injection G as <- <- <- <- <-.
    destruct (find_records_sub _ _ _ _ _ GR) as (b & rest & Gb & Hb & Hr). pose proof (find_records_some _ _ _ _ _ GR) as Hne.
    assert (Hcode : forall x, In x records' -> code (asset_def (fst x)) = code d).
    { intros x Hx. apply (bucket_code w _ _ W Gb). rewrite Hb. apply in_or_app. left; exact Hx. }
    assert (ND : forall x, In x records' -> ro_is_dummy (fst x) = false).
    { intros x Hx. apply (not_dummy_of_code L). rewrite (Hcode x Hx). exact Dd. }
    change (ro_new (sr_dummy_blind r) (w128 0) asset_def_dummy (user_pub_key (sr_dummy_kp r)) Unfrozen) with (dummy_ro r) in GI.
    destruct (payment_inputs_inv L _ _ _ _ _ _ ND _ GI) as [-> Hu]. clear GI.
    apply lookup_from_tree_spec in Ha. destruct Ha as [Hlt ->].
    assert (EI : fi_ro (fee_input info) = fst fr /\ fi_kp (fee_input info) = w_kp w /\ acc_uid (fi_acc (fee_input info)) = snd fr /\ fee_chg_ro info = fee_chg /\
                 fee_amount info = fee /\ zv (amount fee_chg) = zv (amount (fst fr)) - zv fee /\ asset_def fee_chg = asset_def_native /\
                 pub_key fee_chg = pub_key (fst fr) /\ freeze_flag fee_chg = Unfrozen).
    { unfold txn_fee_info_new in GF. cbn [fi_ro] in GF. unfold amount_ltb in GF. destruct (Z.ltb_spec (zv (amount (fst fr))) (zv fee)) as [Q|Q]; [discriminate GF|].
      rewrite amount_sub_ok in GF by exact Q. cbn [bind] in GF. injection GF as <- <-. cbn [fee_input fi_ro fi_kp fi_acc acc_uid fee_chg_ro fee_amount ro_new amount asset_def pub_key freeze_flag].
      rewrite zv_w128_small; [repeat split; reflexivity|]. pose proof (amount_range (amount (fst fr))). pose proof (amount_range fee). lia. }
    destruct EI as (E1 & E2 & E3 & E4 & E5 & E6 & E7 & E8 & E9).
    pose proof (non_native_fee L _ _ _ _ _ _ _ _ _ GG) as NF.
    apply generated_non_native in GG. destruct GG as [_ GG].
    pose proof (generated_transfer L _ _ _ _ _ _ _ _ GG) as (V1 & _ & _ & V2 & _ & _ & _ & _ & _ & _ & B1 & _ & B2 & _).
    destruct V2 as (i0 & irest & o0 & orest & d' & X1 & X2 & X3 & _). injection X1 as X1 _. 
    assert (N0 : asset_def (fst fr) = asset_def_native).
    { rewrite <- X1 in X3. cbn [fee_to_transfer_input ti_ro] in X3. rewrite E1 in X3. exact X3. }
    exists fr, records', change, fee_chg. constructor.
    - exists bf. auto.
    - exists b, rest. auto.
    - exact Hne.
    - rewrite B1. cbn [map]. rewrite input_nullifiers. cbn [fee_to_transfer_input ti_ro ti_kp ti_acc app map]. rewrite E1, E2, E3. reflexivity.
    - rewrite B2. cbn [map]. rewrite E4. reflexivity.
    - auto.
    - specialize (V1 (code d)). cbn [map] in V1. unfold non_dummy in V1. cbn [filter] in V1. fold (non_dummy (map ti_ro (map (input_of w depth leaves (Wallet.w_cred w)) records' ++ [dummy_input depth r]))) in V1.
      rewrite (fee_input_non_dummy (fee_to_transfer_input (fee_input info))) in V1 by (cbn [fee_to_transfer_input ti_ro]; rewrite E1; exact N0). cbn [negb] in V1.
      rewrite (non_dummy_inputs L) in V1 by exact ND. rewrite !code_sum_cons in V1. cbn [fee_to_transfer_input ti_ro] in V1. rewrite E1, N0, E4, E7 in V1.
      change (code asset_def_native) with native_asset_code in V1. destruct (zeqb_reflect native_asset_code (code d)) as [Q|Q]; [destruct Dn; symmetry; exact Q|].
      rewrite (code_sum_all (code d) (map fst records')) in V1 by (intros o Ho; apply in_map_iff in Ho; destruct Ho as (x & <- & Hx); exact (Hcode x Hx)).
      rewrite code_sum_all in V1 by (intros o Ho; rewrite (proj1 (payment_outputs_def _ _ _ _ _ Ho)); reflexivity).
      rewrite payment_outputs_sum, paid_sum_app in V1. fold (own_change w change) in V1. rewrite own_change_sum in V1. unfold sum_of. lia.
    - exact GM.
    - rewrite <- H1. cbn [set_chg w_unspent]. destruct (mark_inputs_ok records' _ W1) as (_ & _ & _ & M4 & _); [intros x Hx _; apply Hr, Hx|]. exact M4.
    - rewrite <- H1. cbn [set_chg w_pending_chg]. apply (set_insert_has L).
  Qed.

  (** the sender's balances *)
  Theorem non_native_sender g depth w r d outs fee leaves w1 n memos sg lv se sh se' w2 found :
    run_inv w lv se sh -> code d <> native_asset_code -> code d <> dummy_asset_code ->
    spend_non_native g depth w r d outs fee leaves = (w1, Ok (n, memos, sg)) ->
    Z.of_nat (length lv + length (tn_commitments n)) < 2 ^ 64 ->
    (forall x, In x se' <-> In x se \/ paid w1 (TxTransfer n) memos (length lv) x) -> distinct_nullifiers w se' ->
    (forall x, In x se' -> w_nullify w x <> dummy_nullifier r) ->
    scan_txn w1 (TxTransfer n) memos (length lv) = Ok (w2, found) ->
    forall c, total_of c (held w2) = total_of c (held w) - (if zeqb c native_asset_code then zv fee else 0)
      - (if zeqb c (code d) then paid_sum outs else 0) + paid_to_self w n memos (length outs) c.
  Proof.
    intros R Dn Dd HSp Hb Hse HD Hdn HS c. pose proof (ri_ok _ _ _ _ R) as W.
    pose proof (spend_non_native_inv L g depth w r d outs fee leaves lv se sh R) as R1. pose proof (spend_non_native_kp g depth w r d outs fee leaves) as K1.
    rewrite HSp in R1, K1. cbn [fst] in R1, K1.
    destruct (spend_non_native_paid _ _ _ _ _ _ _ _ _ _ _ _ W Dn Dd HSp) as (fr & records & change & fchg & P). destruct P as [P0 P1 P2 P3 P4 P5 P6 P7 P8 P9].
    destruct P0 as (bf & Gf & If). destruct P1 as (b & rest & Gb & Hb'). destruct P5 as (Q1 & Q2 & Q3 & Q4).
    assert (Hcode : forall x, In x records -> code (asset_def (fst x)) = code d).
    { intros x Hx. apply (bucket_code w _ _ W Gb). rewrite Hb'. apply in_or_app. left; exact Hx. }
    assert (Cf : code (asset_def (fst fr)) = native_asset_code) by (apply (bucket_code w _ _ W Gf), If).
    assert (Hr : forall x, In x (fr :: records) -> holds w x).
    { intros x [<-|Hx]; [exists native_asset_code, bf; split; [apply map_get_in, Gf|exact If]|].
      exists (code d), b. split; [apply map_get_in, Gb|]. rewrite Hb'. apply in_or_app. left; exact Hx. }
    assert (Nr : NoDup (fr :: records)).
    { constructor; [intros Hx; apply Dn; rewrite <- (Hcode _ Hx); exact Cf|].
      pose proof (wk_nodup _ W _ _ (map_get_in _ _ _ Gb)) as N. rewrite Hb' in N. exact (prefix_nodup _ _ N). }
    pose proof (scan_balance L w w1 (TxTransfer n) memos lv se sh se' w2 found (fr :: records) fchg [dummy_nullifier r] _ _ R (ri_ok _ _ _ _ R1) (proj1 K1) P8 Hb Nr Hr P3 P9 P4 eq_refl
      Hse HD (fun x Hx => fun G => match G with or_introl G => Hdn x Hx (eq_sym G) | or_intror G => G end) HS c) as T.
    (* what the scan found: the receivers' part and the own change *)
    assert (HF : received c found = paid_to_self w n memos (length outs) c + (if zeqb c (code d) then zv change else 0)).
    { destruct (scan_txn_spec L _ _ _ _ _ _ (ri_ok _ _ _ _ R1) HS) as (_ & _ & _ & -> & _). cbn [tx_output_commitments]. rewrite P4. cbn [tl].
      rewrite (proj1 K1). destruct (payment_memos_nth _ _ _ _ P7) as [ML MN].
      unfold paid_to_self. rewrite P4. cbn [tl]. rewrite payment_outputs_app, map_app. cbn [Nat.add].
      set (o1 := map derive_record_commitment (payment_outputs d (sr_blind r) 0 outs)).
      assert (L1 : length o1 = length outs) by (unfold o1; rewrite map_length; apply payment_outputs_length).
      rewrite <- L1 at 2. rewrite firstn_app, Nat.sub_diag, firstn_O, app_nil_r, firstn_all.
      rewrite <- (firstn_skipn (length outs) memos) at 1.
      rewrite payment_outputs_length, app_length in ML.
      set (o2 := map derive_record_commitment (payment_outputs d (sr_blind r) (length outs) (own_change w change))).
      assert (OA : opened (w_kp w) (o1 ++ o2) (firstn (length outs) memos ++ skipn (length outs) memos) =
                   opened (w_kp w) o1 (firstn (length outs) memos) ++ opened (w_kp w) o2 (skipn (length outs) memos)).
      { apply opened_app. refine (eq_trans L1 _). rewrite firstn_length. lia. }
      refine (eq_trans (f_equal (received c) OA) _). rewrite received_app. f_equal. unfold o2. clear OA o2.
      unfold own_change in *. destruct (Z.ltb_spec 0 (zv change)) as [Hc|Hc].
      2: { cbn [payment_outputs map]. change (opened (w_kp w) [] (skipn (length outs) memos)) with (@nil RecordOpening). cbn [received fold_right].
           pose proof (amount_range change). destruct (zeqb c (code d)); lia. }
      cbn [length] in ML.
      assert (N1 : nth_error (payment_outputs d (sr_blind r) 0 (outs ++ [(user_pub_key (w_kp w), change)])) (length outs) =
                   Some (receiver_record d r (length outs) (user_pub_key (w_kp w)) change)).
      { rewrite payment_outputs_nth, nth_error_app2 by lia. rewrite Nat.sub_diag. reflexivity. }
      destruct (MN _ _ N1) as (m & Hm1 & Hm2).
      assert (SK : skipn (length outs) memos = [m]).
      { clear - ML Hm1. revert memos ML Hm1. induction outs as [|o outs IH]; intros [|m' ms] ML Hm; cbn [length skipn nth_error] in *; try discriminate.
        - injection Hm as ->. destruct ms; [reflexivity|cbn in ML; lia].
        - apply IH; [lia|exact Hm]. }
      rewrite SK. cbn [payment_outputs map]. unfold opened. cbn [combine flat_map fst snd].
      destruct (receiver_memo_spec L K KL) as [RS _].
      change (ro_new (sr_blind r (length outs)) change d (user_pub_key (w_kp w)) Unfrozen) with (receiver_record d r (length outs) (user_pub_key (w_kp w)) change).
      rewrite (RS _ _ _ _ (w_kp w) Hm2 eq_refl). cbn [app received fold_right receiver_record freeze_flag flag_eqb asset_def amount andb].
      rewrite zeqb_sym. destruct (zeqb c (code d)); lia. }
    rewrite HF in T. unfold total_of at 4 in T. cbn [fold_right fst] in T. rewrite Q1 in T. change (code asset_def_native) with native_asset_code in T.
    rewrite total_of_cons, Cf in T. rewrite (zeqb_sym c native_asset_code), (zeqb_sym c (code d)) in *.
    destruct (zeqb_reflect native_asset_code c) as [Ec|Hc].
    - subst c. destruct (zeqb_reflect (code d) native_asset_code) as [Q|_]; [contradiction|].
      rewrite (total_of_none native_asset_code records) in T; [lia|]. intros x Hx. rewrite (Hcode x Hx). exact Dn.
    - destruct (zeqb_reflect (code d) c) as [<-|Hd].
      + rewrite (total_of_all _ records Hcode) in T. lia.
      + rewrite (total_of_none c records) in T; [lia|]. intros x Hx. rewrite (Hcode x Hx). exact Hd.
  Qed.
End NonNative.

Section More.
  Context {C : CapConfig} (L : CapLaws C) {S : Snark C} {K : @RoCodec C} (KL : RoCodecLaws K) {E : MemoSer C}.

  Theorem native_sender_self g depth w r outs fee leaves w1 n memos sg lv se sh se' w2 found :
    run_inv w lv se sh -> spend_native g depth w r outs fee leaves = (w1, Ok (n, memos, sg)) ->
    Z.of_nat (length lv + length (tn_commitments n)) < 2 ^ 64 ->
    (forall x, In x se' <-> In x se \/ paid w1 (TxTransfer n) memos (length lv) x) -> distinct_nullifiers w se' ->
    (forall x, In x se' -> w_nullify w x <> dummy_nullifier r) ->
    scan_txn w1 (TxTransfer n) memos (length lv) = Ok (w2, found) ->
    forall c, total_of c (held w2) = total_of c (held w) - (if zeqb c native_asset_code then paid_sum outs + zv fee else 0)
      + paid_to_self w n memos (length outs) c.
  Proof.
    intros R HSp Hb Hse HD Hdn HS c. rewrite (native_sender L _ _ _ _ _ _ _ _ _ _ _ _ _ _ _ _ _ R HSp Hb Hse HD Hdn HS). f_equal.
    pose proof (spend_native_inv L g depth w r outs fee leaves lv se sh R) as R1. pose proof (spend_native_kp g depth w r outs fee leaves) as K1.
    rewrite HSp in R1, K1. cbn [fst] in R1, K1.
    destruct (scan_txn_spec L _ _ _ _ _ _ (ri_ok _ _ _ _ R1) HS) as (_ & _ & _ & -> & _). cbn [tx_output_commitments].
    destruct (spend_native_paid L _ _ _ _ _ _ _ _ _ _ _ (ri_ok _ _ _ _ R) HSp) as (records & chg & P). destruct P as [_ _ _ P4 _ P6 _].
    destruct (payment_memos_nth _ _ _ _ P6) as [ML _]. rewrite payment_outputs_length in ML.
    unfold paid_to_self. rewrite (proj1 K1). f_equal. rewrite P4. cbn [tl].
    assert (LO : length (map derive_record_commitment (payment_outputs asset_def_native (sr_blind r) 0 outs)) = length outs) by (rewrite map_length; apply payment_outputs_length).
    symmetry. eapply eq_trans; [|apply opened_all; exact (eq_trans LO (eq_sym ML))]. f_equal; apply (f_equal (fun k => firstn k _)); exact (eq_sym LO).
  Qed.

  (** ** Two payments before the first is scanned *)
  Theorem native_conflict g depth w r outs fee leaves w1 n memos sg g' depth' r' outs' fee' leaves' w2 n' memos' sg' lv se sh :
    run_inv w lv se sh -> spend_native g depth w r outs fee leaves = (w1, Ok (n, memos, sg)) ->
    spend_native g' depth' w1 r' outs' fee' leaves' = (w2, Ok (n', memos', sg')) ->
    exists x, In x (tn_nullifiers n) /\ In x (tn_nullifiers n').
  Proof.
    intros R H1 H2. pose proof (ri_ok _ _ _ _ R) as W.
    pose proof (spend_native_inv L g depth w r outs fee leaves lv se sh R) as R1. pose proof (spend_native_kp g depth w r outs fee leaves) as K1.
    rewrite H1 in R1, K1. cbn [fst] in R1, K1.
    destruct (spend_native_paid L _ _ _ _ _ _ _ _ _ _ _ W H1) as (rs & chg & [P1 P2 P3 _ _ _ P7]).
    destruct (spend_native_paid L _ _ _ _ _ _ _ _ _ _ _ (ri_ok _ _ _ _ R1) H2) as (rs' & chg' & [P1' P2' P3' _ _ _ _]).
    destruct P1 as (b & rest & Gb & Hb). destruct P1' as (b' & rest' & Gb' & Hb').
    assert (HU : w_unspent w1 = w_unspent w).
    { rewrite P7. cbn [set_chg w_unspent]. destruct (mark_inputs_ok (rs ++ [(dummy_ro r, w64 0)]) w W) as (_ & _ & _ & M4 & _); [|exact M4].
      intros x Hx Hdm. apply in_app_iff in Hx. destruct Hx as [Hx|[<-|[]]].
      - exists native_asset_code, b. split; [apply map_get_in, Gb|]. rewrite Hb. apply in_or_app. left; exact Hx.
      - cbn [fst] in Hdm. rewrite (dummy_ro_is L) in Hdm. discriminate. }
    rewrite HU, Gb in Gb'. injection Gb' as <-. destruct rs as [|x rs]; [contradiction|]. destruct rs' as [|x' rs']; [contradiction|].
    rewrite Hb in Hb'. cbn [app] in Hb'. injection Hb' as <- _.
    exists (w_nullify w x). split; [rewrite P3; left; reflexivity|]. rewrite P3'. left. apply (same_keys_nullify _ _ _ K1).
  Qed.
  Theorem non_native_conflict g depth w r d outs fee leaves w1 n memos sg g' depth' r' d' outs' fee' leaves' w2 n' memos' sg' lv se sh :
    run_inv w lv se sh -> code d <> native_asset_code -> code d <> dummy_asset_code -> code d' = code d ->
    spend_non_native g depth w r d outs fee leaves = (w1, Ok (n, memos, sg)) ->
    spend_non_native g' depth' w1 r' d' outs' fee' leaves' = (w2, Ok (n', memos', sg')) ->
    exists x, In x (tn_nullifiers n) /\ In x (tn_nullifiers n').
  Proof.
    intros R Dn Dd Ed H1 H2. pose proof (ri_ok _ _ _ _ R) as W.
    pose proof (spend_non_native_inv L g depth w r d outs fee leaves lv se sh R) as R1. pose proof (spend_non_native_kp g depth w r d outs fee leaves) as K1.
    rewrite H1 in R1, K1. cbn [fst] in R1, K1.
    destruct (spend_non_native_paid L _ _ _ _ _ _ _ _ _ _ _ _ W Dn Dd H1) as (fr & rs & ch & fc & [_ P1 P2 P3 _ _ _ _ P8 _]).
    assert (Dn' : code d' <> native_asset_code) by (rewrite Ed; exact Dn). assert (Dd' : code d' <> dummy_asset_code) by (rewrite Ed; exact Dd).
    destruct (spend_non_native_paid L _ _ _ _ _ _ _ _ _ _ _ _ (ri_ok _ _ _ _ R1) Dn' Dd' H2) as (fr' & rs' & ch' & fc' & [_ P1' P2' P3' _ _ _ _ _ _]).
    destruct P1 as (b & rest & Gb & Hb). destruct P1' as (b' & rest' & Gb' & Hb').
    rewrite P8, Ed, Gb in Gb'. injection Gb' as <-. destruct rs as [|x rs]; [contradiction|]. destruct rs' as [|x' rs']; [contradiction|].
    rewrite Hb in Hb'. cbn [app] in Hb'. injection Hb' as <- _.
    exists (w_nullify w x). split; [rewrite P3; right; left; reflexivity|]. rewrite P3'. right; left. apply (same_keys_nullify _ _ _ K1).
  Qed.
  (** the second is rejected once the first is in the ledger *)
  Theorem conflict_rejected v l (n n' : TransferNote) x ts : In x (tn_nullifiers n) -> In x (tn_nullifiers n') ->
    validate_single_xfr_note v (insert_transfer_note l n) n' ts <> Ok tt.
  Proof.
    intros H1 H2 H. unfold validate_single_xfr_note in H. apply bind_ok in H. destruct H as (k & _ & H). apply bind_ok in H. destruct H as (u & H & _).
    unfold check_txn_input_nullifiers in H. apply bind_ok in H. destruct H as (u' & H & _). apply fail_if_ok in H.
    apply not_true_iff_false in H. apply H. apply existsb_exists. exists x. split; [exact H2|]. unfold check_nullifier. apply existsb_exists. exists x. split; [|apply zeqb_refl].
    unfold insert_transfer_note. generalize (fold_left insert_record (tn_commitments n) l). clear - H1. induction (tn_nullifiers n) as [|y ns IH]; [destruct H1|].
    intros l. cbn [fold_left]. destruct H1 as [<-|H1]; [|apply IH, H1].
    assert (G : forall ns l, In y (lg_nullifiers l) -> In y (lg_nullifiers (fold_left insert_nullifier ns l))).
    { clear. induction ns as [|z ns IH]; intros l H; [exact H|]. cbn [fold_left]. apply IH. right; exact H. }
    apply G. left; reflexivity.
  Qed.

  (** ** The receiver *)
  Theorem receiver_holds w lv se sh t memos w2 found se' x :
    runs w lv se sh -> scan_txn w t memos (length lv) = Ok (w2, found) ->
    (forall x, In x se' <-> In x se \/ paid w t memos (length lv) x) ->
    let lv' := lv ++ tx_output_commitments t in
    let sh' := sh ++ map (fun k => (k, (length lv + length (tx_output_commitments t))%nat)) (tx_nullifiers t) in
    ordinary w2 lv' se' sh' -> paid w t memos (length lv) x -> ~ In (w_nullify w2 x) (tx_nullifiers t) -> holds w2 x.
  Proof.
    intros R HS Hse lv' sh' (O1 & O2 & O3) Hp Hn. assert (R' : runs w2 lv' se' sh') by exact (run_scan w lv se sh _ _ _ _ _ R HS Hse).
    pose proof (runs_inv L KL _ _ _ _ R' O1 O2 O3) as I. apply (ri_exact _ _ _ _ I). split; [apply Hse; right; exact Hp|].
    intros k Hk. unfold sh' in Hk. apply in_app_or in Hk. destruct Hk as [Hk|Hk].
    2: { apply in_map_iff in Hk. destruct Hk as (n' & E' & Hn'). apply (f_equal fst) in E'. cbn [fst] in E'. apply Hn. exact (eq_ind n' (fun z => In z (tx_nullifiers t)) Hn' _ E'). }
    assert (Hx : In x se') by (apply Hse; right; exact Hp).
    assert (Hk' : In (w_nullify w2 x, k) sh') by (apply in_or_app; left; exact Hk).
    pose proof (O3 x k Hx Hk') as G.
    pose proof (scan_txn_kp _ _ _ _ _ _ HS) as KK.
    assert (Ik : (k <= length lv)%nat).
    { assert (R0 : run_inv w lv se sh).
      { apply (runs_inv L KL); [exact R| | |].
        - unfold lv' in O1. change (length (lv ++ tx_output_commitments t)) with (length (lv ++ (tx_output_commitments t : list F))) in O1. rewrite app_length in O1. lia.
        - intros a b Ha Hb Hab. apply O2; [apply Hse; left; exact Ha|apply Hse; left; exact Hb|]. rewrite !(same_keys_nullify _ _ _ KK). exact Hab.
        - intros a j Ha Hj. apply O3; [apply Hse; left; exact Ha|]. rewrite (same_keys_nullify _ _ _ KK). apply in_or_app. left; exact Hj. }
      exact (ri_shown _ _ _ _ R0 _ _ Hk). }
    assert (Hu : exists i, snd x = w64 (Z.of_nat (length lv + i)) /\ (i < length (tx_output_commitments t))%nat).
    { destruct Hp as [(i & rc & m & A & _ & _ & _ & B)|(_ & A & B)].
      - exists (1 + i)%nat. split; [rewrite B; do 2 f_equal; lia|]. apply nth_error_Some. cbn [Nat.add]. congruence.
      - exists 0%nat. split; [rewrite B; do 2 f_equal; lia|]. apply nth_error_Some. congruence. }
    destruct Hu as (i & Hu & Hi). rewrite Hu in G. rewrite zv_w64 in G; [lia|].
    unfold lv' in O1. change (length (lv ++ tx_output_commitments t)) with (length (lv ++ (tx_output_commitments t : list F))) in O1. rewrite app_length in O1.
    change (length (tx_output_commitments t : list F)) with (length (tx_output_commitments t)) in O1. lia.
  Qed.

  (** ** Blocks *)
  (** the records that a transaction pays to the wallet, as a list *)
  Definition paid_list (w : Wallet) (t : TransactionNote) (memos : list ReceiverMemo) (off : nat) : list Owned :=
    match tx_output_commitments t with
    | [] => []
    | rc0 :: outs => news (w_kp w) outs memos (off + 1) ++
        map (fun ro => (ro, w64 (Z.of_nat off))) (filter (fun ro => zeqb (derive_record_commitment ro) rc0) (w_pending_chg w))
    end.
  Lemma paid_list_in w t memos off x : In x (paid_list w t memos off) <-> paid w t memos off x.
  Proof.
    unfold paid_list. destruct (tx_output_commitments t) as [|rc0 outs] eqn:Ht.
    - split; [intros []|]. intros [(i & rc & m & H & _)|(_ & H & _)]; rewrite Ht in H; destruct i || idtac; discriminate H.
    - rewrite in_app_iff, news_in, (paid_iff _ _ _ _ _ _ _ Ht), in_map_iff. split; (intros [H|H]; [left; exact H|right]).
      + destruct H as (ro & <- & H). apply filter_In in H. destruct H as [H1 H2]. cbn [fst snd]. apply zeqb_spec in H2. auto.
      + destruct H as (H1 & H2 & H3). exists (fst x). destruct x as [ro u]. cbn [fst snd] in *. rewrite H3. split; [reflexivity|].
        apply filter_In. split; [exact H1|]. apply zeqb_spec. exact H2.
  Qed.
  Lemma mark_all_chg l : forall w w', mark_all w l = Ok w' -> w_pending_chg w' = w_pending_chg w.
  Proof.
    induction l as [|n l IH]; intros w w' H; cbn [mark_all] in H; [injection H as <-; reflexivity|].
    apply bind_ok in H. destruct H as (w1 & H1 & H). rewrite (IH _ _ H). unfold mark_spent_if_owned in H1.
    apply bind_ok in H1. destruct H1 as (w2 & H2 & H1). injection H1 as <-. cbn [set_unspent w_pending_chg].
    destruct (map_get n (w_pending w)) as [x|]; [|injection H2 as <-; reflexivity].
    destruct (map_get _ (w_unspent w)) as [b|]; [|discriminate]. injection H2 as <-. reflexivity.
  Qed.
  Lemma scan_outputs_chg : forall outs memos w off, w_pending_chg (fst (scan_outputs w outs memos off)) = w_pending_chg w.
  Proof.
    induction outs as [|rc outs IH]; intros [|m memos] w off; cbn [scan_outputs]; try reflexivity.
    destruct (receiver_memo_decrypt m (w_kp w) rc []) as [ro| |]; [|apply IH|apply IH].
    set (w1 := match freeze_flag ro with Unfrozen => _ | Frozen => _ end).
    assert (K1 : w_pending_chg w1 = w_pending_chg w) by (subst w1; destruct (freeze_flag ro); reflexivity).
    specialize (IH memos w1 (off + 1)%nat). destruct (scan_outputs w1 outs memos (off + 1)) as [w2 l]. cbn [fst] in *. congruence.
  Qed.
  Lemma scan_txn_chg w t memos off w' found : scan_txn w t memos off = Ok (w', found) -> incl (w_pending_chg w') (w_pending_chg w).
  Proof.
    unfold scan_txn. destruct (tx_output_commitments t) as [|rc0 outs]; [discriminate|]. destruct (negb _); [discriminate|].
    pose proof (scan_outputs_chg outs memos (confirm_change w rc0 off) (off + 1)) as K2.
    destruct (scan_outputs (confirm_change w rc0 off) outs memos (off + 1)) as [w2 l]. cbn [fst] in K2. intros H.
    apply bind_ok in H. destruct H as (w3 & H3 & H). injection H as <- _. apply mark_all_chg in H3. rewrite H3, K2.
    unfold confirm_change. destruct (find _ _) as [ro|]; [|apply incl_refl]. cbn [add_record_opening set_unspent set_chg w_pending_chg].
    intros y Hy. apply (set_remove_in ro_eqb (ro_eqb_iff L)) in Hy. apply Hy.
  Qed.
  Lemma scan_txns_runs : forall txns w lv se sh w' found, runs w lv se sh -> scan_txns w txns (length lv) = Ok (w', found) ->
    exists se' sh', runs w' (lv ++ flat_map (fun p => tx_output_commitments (fst p)) txns) se' sh' /\
      (forall x, In x se \/ opens (w_kp w) txns (length lv) x -> In x se') /\
      (forall x, In x se' -> In x se \/ opens (w_kp w) txns (length lv) x \/ In (fst x) (w_pending_chg w)) /\
      map fst sh' = map fst sh ++ flat_map (fun p => tx_nullifiers (fst p)) txns /\ w_kp w' = w_kp w.
  Proof.
    induction txns as [|[t memos] txns IH]; intros w lv se sh w' found R H; cbn [scan_txns] in H.
    - injection H as <- _. exists se, sh. cbn [flat_map opens]. rewrite !app_nil_r. repeat split; [exact R|tauto|tauto].
    - apply bind_ok in H. destruct H as ([w1 l1] & H1 & H). apply bind_ok in H. destruct H as ([w2 l2] & H2 & H). injection H as <- _.
      set (pl := paid_list w t memos (length lv)). assert (Hpl : forall x, In x pl <-> paid w t memos (length lv) x) by (intros x; apply paid_list_in).
      pose proof (scan_txn_chg _ _ _ _ _ _ H1) as CH. pose proof (proj1 (scan_txn_kp _ _ _ _ _ _ H1)) as KP.
      assert (R1 : runs w1 (lv ++ tx_output_commitments t) (se ++ pl)
                 (sh ++ map (fun n => (n, (length lv + length (tx_output_commitments t))%nat)) (tx_nullifiers t))).
      { apply (run_scan w lv se sh t memos w1 l1); [exact R|exact H1|]. intros x. rewrite in_app_iff, Hpl. reflexivity. }
      assert (LO : tx_output_len t = length (tx_output_commitments t)) by (destruct t; reflexivity).
      rewrite LO in H2. change (length lv + length (tx_output_commitments t))%nat with (length lv + @length F (tx_output_commitments t))%nat in H2.
      rewrite <- app_length in H2. destruct (IH _ _ _ _ _ _ R1 H2) as (se' & sh' & R' & I1 & I2 & S' & K').
      rewrite KP, app_length in I1, I2. change (length lv + @length F (tx_output_commitments t))%nat with (length lv + length (tx_output_commitments t))%nat in I1, I2.
      exists se', sh'. cbn [flat_map fst opens]. rewrite !app_assoc. split; [exact R'|]. split; [|split; [|split]].
      + intros x [Hx|[Hx|Hx]]; apply I1; [left|left|right; exact Hx]; apply in_or_app; [left; exact Hx|right]. apply Hpl. left. exact Hx.
      + intros x Hx. destruct (I2 x Hx) as [Q|[Q|Q]]; [|auto|right; right; apply CH, Q]. apply in_app_or in Q. destruct Q as [Q|Q]; [auto|].
        apply Hpl in Q. destruct Q as [Q|(Q & _)]; [auto|]. right; right; exact Q.
      + rewrite S', map_app, map_map. cbn [fst]. rewrite map_id. rewrite <- app_assoc. reflexivity.
      + congruence.
  Qed.
  Lemma combine_fst {A B D} (f : A -> list D) : forall (a : list A) (b : list B), length a = length b -> flat_map (fun p => f (fst p)) (combine a b) = flat_map f a.
  Proof. induction a as [|x a IH]; intros [|y b] H; try discriminate; [reflexivity|]. cbn [combine flat_map fst]. rewrite IH by (injection H as H; exact H). reflexivity. Qed.
  Theorem scan_block_in_step depth w l se sh b memos w' found l' :
    in_step w l se sh -> scan_block w b memos (length (lg_leaves l)) = Ok (w', found) -> insert_block depth l b = (l', Ok tt) ->
    exists ro se' sh', block_fee_record b = Ok ro /\ w_kp w' = w_kp w /\
      (forall x, In x se \/ opens (w_kp w) (combine (bk_txns b) memos) (length (lg_leaves l)) x -> In x se') /\
      (forall x, In x se' -> In x se \/ opens (w_kp w) (combine (bk_txns b) memos) (length (lg_leaves l)) x \/ In (fst x) (w_pending_chg w)) /\
      in_step w' l' se' sh' /\
      (pub_key ro = user_pub_key (w_kp w') ->
       let uid := w64 (Z.of_nat (length (lg_leaves l') - 1)) in in_step (add_record_opening w' ro uid) l' (se' ++ [(ro, uid)]) sh').
  Proof.
    intros [R HN] HS HI. unfold insert_block in HI. rewrite insert_txns_spec in HI.
    destruct (block_fee_record b) as [ro|e|] eqn:HF; try discriminate HI. injection HI as <-. cbn [store_current_mt_root insert_record lg_leaves lg_nullifiers lg_roots].
    unfold scan_block in HS. destruct (Nat.eqb_spec (length (bk_txns b)) (length memos)) as [Hl|Hl]; [|discriminate HS]. cbn [negb] in HS.
    destruct (scan_txns_runs _ _ _ _ _ _ _ R HS) as (se' & sh' & R' & I1 & I2 & S' & K').
    rewrite (combine_fst tx_output_commitments _ _ Hl) in R'. rewrite (combine_fst tx_nullifiers _ _ Hl) in S'.
    assert (N' : forall n, In n (rev (flat_map tx_nullifiers (bk_txns b)) ++ lg_nullifiers l) <-> exists k, In (n, k) sh').
    { intros n. rewrite in_app_iff, <- in_rev, HN.
      assert (EX : forall s : list (Nullifier * nat), (exists k, In (n, k) s) <-> In n (map fst s)).
      { clear. intros s. rewrite in_map_iff. split; [intros (k & H); exists (n, k); auto|intros ((n' & k) & <- & H); exists k; exact H]. }
      rewrite !EX, S'. change (map fst sh ++ flat_map tx_nullifiers (bk_txns b)) with (@app Nullifier (map fst sh) (flat_map tx_nullifiers (bk_txns b))).
      rewrite in_app_iff. tauto. }
    exists ro, se', sh'. split; [reflexivity|]. split; [exact K'|]. split; [exact I1|]. split; [exact I2|]. split.
    - split; [|exact N']. cbn [lg_leaves store_current_mt_root insert_record]. apply run_other, R'.
    - intros HP. split; [|exact N']. cbn [lg_leaves store_current_mt_root insert_record] in *.
      assert (EU : w64 (Z.of_nat (length ((lg_leaves l ++ flat_map tx_output_commitments (bk_txns b)) ++ [derive_record_commitment ro]) - 1)) =
                   w64 (Z.of_nat (length (lg_leaves l ++ flat_map tx_output_commitments (bk_txns b))))).
      { f_equal. f_equal. rewrite (app_length _ [derive_record_commitment ro]). cbn [length]. lia. }
      match goal with |- context [w64 ?t] => replace (w64 t) with (w64 (Z.of_nat (length (lg_leaves l ++ flat_map tx_output_commitments (bk_txns b))))) by (symmetry; exact EU) end.
      apply run_own; [exact R'|exact HP|]. unfold block_fee_record in HF. apply bind_ok in HF. destruct HF as (t & _ & HF). injection HF as <-. reflexivity.
  Qed.
  Lemma new_in_step depth kp : in_step (wallet_new kp) (ledger_new depth) [] [].
  Proof. split; [apply run_new|]. intros n. cbn. split; [intros []|intros (k & [])]. Qed.
  Lemma mint_in_step depth w l se sh ro : in_step w l se sh ->
    in_step w (mock_mint depth l ro) se sh /\
    (pub_key ro = user_pub_key (w_kp w) -> freeze_flag ro = Unfrozen ->
     let uid := w64 (Z.of_nat (length (lg_leaves l))) in in_step (add_record_opening w ro uid) (mock_mint depth l ro) (se ++ [(ro, uid)]) sh).
  Proof.
    intros [R HN]. split; [split; [apply run_other, R|exact HN]|]. intros HP HF uid. split; [|exact HN]. apply run_own; assumption.
  Qed.
  Lemma own_step w l se sh : in_step w l se sh ->
    (forall c, in_step (set_credential w c) l se sh) /\
    (forall g depth r outs fee leaves, in_step (fst (spend_native g depth w r outs fee leaves)) l se sh) /\
    (forall g depth r d outs fee leaves, in_step (fst (spend_non_native g depth w r d outs fee leaves)) l se sh).
  Proof. intros [R HN]. repeat split; try apply HN; [apply run_credential|apply run_native|apply run_non_native]; exact R. Qed.
End More.

Section Live.
  Context {C : CapConfig} (L : CapLaws C) {S : Snark C} (SL : SnarkLaws S) {K : @RoCodec C} {E : MemoSer C}.

  Lemma transferred_def (d : AssetDefinition) : d <> asset_def_dummy -> forall l : list RecordOpening,
    (forall o, In o l -> asset_def o = asset_def_dummy \/ asset_def o = d) -> (exists o, In o l /\ asset_def o = d) -> transferred l d.
  Proof.
    intros Dd. induction l as [|o l IH]; intros Hl (o0 & H0 & E0); [destruct H0|]. destruct (Hl o (or_introl eq_refl)) as [Ho|Ho].
    - apply tr_skip; [exact Ho|]. apply IH; [intros o' Ho'; apply Hl; right; exact Ho'|]. exists o0. split; [|exact E0].
      destruct H0 as [<-|H0]; [|exact H0]. rewrite Ho in E0. destruct Dd. symmetry; exact E0.
    - rewrite <- Ho. apply tr_here. rewrite Ho. exact Dd.
  Qed.
  Lemma find_fee (l : list Owned) fee : (exists x, In x l /\ zv fee <= zv (amount (fst x))) ->
    exists x, find (fun x : Owned => negb (amount_ltb (amount (fst x)) fee)) l = Some x /\ In x l /\ zv fee <= zv (amount (fst x)).
  Proof.
    intros (x & Hx & Hf). destruct (find _ l) as [y|] eqn:F.
    - exists y. apply find_some in F. destruct F as [F1 F2]. split; [reflexivity|]. split; [exact F1|].
      apply negb_true_iff in F2. unfold amount_ltb in F2. apply Z.ltb_ge in F2. exact F2.
    - pose proof (find_none _ _ F _ Hx) as G. cbn beta in G. apply negb_false_iff in G. unfold amount_ltb in G. apply Z.ltb_lt in G. lia.
  Qed.
  Lemma bucket_of w c x : wallet_ok w -> holds w x -> code (asset_def (fst x)) = c -> exists b, map_get c (w_unspent w) = Some b /\ In x b.
  Proof.
    intros W (c' & b & Hc & Hx) Ex. rewrite (wk_code _ W _ _ _ Hc Hx) in Ex. subst c'. exists b. split; [|exact Hx].
    exact (map_get_unique _ _ _ (wk_keys _ W) Hc).
  Qed.

  Theorem non_native_live g fk depth w lv se sh r d outs fee l (ts : u64) :
    run_inv w lv se sh -> distinct_nullifiers w se -> (length lv <= 3 ^ depth)%nat ->
    (* the asset *)
    code d <> native_asset_code -> code d <> dummy_asset_code -> (freezer_pk (policy d) <> pt_id -> viewer_pk (policy d) <> pt_id) ->
    (viewer_pk (policy d) <> pt_id -> rm_bit (reveal_map (policy d)) 0 = rm_bit (reveal_map (policy d)) 1 /\
       zv (reveal_threshold (policy d)) < 2 ^ 127 + paid_sum outs) ->
    (cred_pk (policy d) <> pt_id -> exists c, Wallet.w_cred w = Some c /\ cred_verify c (cr_expiry c) = Ok tt /\ length (cr_attrs c) = 8%nat) ->
    (forall x, In x se -> code (asset_def (fst x)) = native_asset_code -> asset_def (fst x) = asset_def_native) ->
    (forall x, In x se -> code (asset_def (fst x)) = code d -> asset_def (fst x) = d) ->
    (* the amounts *)
    (exists x, holds w x /\ code (asset_def (fst x)) = native_asset_code /\ zv fee <= zv (amount (fst x))) ->
    (exists x, holds w x /\ code (asset_def (fst x)) = code d) -> outs <> [] -> paid_sum outs <= total_of (code d) (held w) ->
    total_of native_asset_code (held w) + total_of (code d) (held w) < 2 ^ 127 ->
    (* what is sampled *)
    (forall x, In x se -> w_nullify w x <> dummy_nullifier r) -> ~ In (dummy_nullifier r) (lg_nullifiers l) ->
    (forall i pk a, nth_error outs i = Some (pk, a) -> exists m, receiver_memo_from_ro (sr_enc r i) (receiver_record d r i pk a) [] = Ok m) ->
    (forall a, exists m, receiver_memo_from_ro (sr_enc r (length outs)) (receiver_record d r (length outs) (user_pub_key (w_kp w)) a) [] = Ok m) ->
    (* keys *)
    keys_up_to g depth (length (held w) + 1) (length outs + 1) -> keys_up_to g depth (length (held w) + 1) (length outs + 2) ->
    (* the ledger *)
    (forall n, In n (lg_nullifiers l) -> exists k, In (n, k) sh) -> In (tree_root depth lv) (lg_roots l) ->
    zv (payment_expiry w) < 2 ^ 20 -> zv ts <= zv (payment_expiry w) ->
    exists w1 n memos sg, spend_non_native g depth w r d outs fee lv = (w1, Ok (n, memos, sg)) /\
      validate_single_xfr_note (mkValidator g fk depth) l n ts = Ok tt /\ ta_fee (tn_aux n) = fee /\
      verify_receiver_memos_signature (TxTransfer n) memos sg = Ok tt.
  Proof.
    intros R HD HC Dn Dd Dfv Dv Dc Hnat Hdef Hfee Hex Hne Hbal Hmax Hdn Hdl Henc Henc2 Hkeys1 Hkeys2 Hln Hroot Hvu Hts. pose proof (ri_ok _ _ _ _ R) as W.
    pose proof (paid_sum_nonneg outs). pose proof (amount_range fee).
    assert (Ddef : d <> asset_def_dummy) by (intros ->; apply Dd; reflexivity).
    (* the fee record *)
    destruct Hfee as (xf & Hxf & Cxf & Axf). destruct (bucket_of w _ xf W Hxf Cxf) as (bf & Gf & Ixf).
    destruct (find_fee bf fee (ex_intro _ xf (conj Ixf Axf))) as (fr & Ffr & Ifr & Afr).
    assert (Hfr : holds w fr) by (exists native_asset_code, bf; split; [apply map_get_in, Gf|exact Ifr]).
    assert (Cfr : code (asset_def (fst fr)) = native_asset_code) by (apply (bucket_code w _ _ W Gf), Ifr).
    assert (Sfr : In fr se) by (apply (ri_exact _ _ _ _ R), Hfr).
    assert (Nfr : asset_def (fst fr) = asset_def_native) by (apply Hnat; auto).
    assert (HFF : find_record_for_fee w fee = Ok fr) by (unfold find_record_for_fee; rewrite Gf; cbn [ok_or bind]; exact (f_equal (fun o => ok_or o InvalidParameter) Ffr)).
    assert (Tfr : zv (amount (fst fr)) <= total_of native_asset_code (held w)).
    { rewrite (total_of_bucket w _ W), Gf. apply in_split in Ifr. destruct Ifr as (b1 & b2 & ->). rewrite sum_of_app.
      pose proof (sum_of_nonneg b1). pose proof (sum_of_nonneg b2). change (sum_of (fr :: b2)) with (zv (amount (fst fr)) + sum_of b2). lia. }
    (* the other records *)
    destruct Hex as (xd & Hxd & Cxd). destruct (bucket_of w _ xd W Hxd Cxd) as (b & Gb & Ixd).
    assert (Nb : b <> []) by (intros ->; destruct Ixd).
    assert (Tb : total_of (code d) (held w) = sum_of b) by (rewrite (total_of_bucket w _ W), Gb; reflexivity). rewrite Tb in Hbal, Hmax.
    pose proof (amount_range (amount (fst fr))) as Rfr.
    destruct (total_amount_ok outs) as (tot & Ht0 & Et0); [lia|].
    destruct (take_records_live b (w128 0) tot Nb) as (records & change & Ht & Er); [rewrite zv_w128_0; lia|rewrite zv_w128_0; lia|].
    assert (HF : find_records w (code d) tot = Ok (records, change)) by (unfold find_records; rewrite Gb; exact Ht).
    destruct (find_records_sub _ _ _ _ _ HF) as (b' & rest & Gb' & Hb' & Hr). rewrite Gb in Gb'. injection Gb' as <-.
    pose proof (find_records_some _ _ _ _ _ HF) as Hrne. rewrite zv_w128_0 in Er.
    assert (Hcode : forall x, In x records -> code (asset_def (fst x)) = code d).
    { intros x Hx. apply (bucket_code w _ _ W Gb). rewrite Hb'. apply in_or_app. left; exact Hx. }
    assert (ND : forall x, In x records -> ro_is_dummy (fst x) = false).
    { intros x Hx. apply (not_dummy_of_code L). rewrite (Hcode x Hx). exact Dd. }
    assert (Hse : forall x, In x records -> In x se) by (intros x Hx; apply (ri_exact _ _ _ _ R), Hr, Hx).
    assert (HN : forall x, In x records -> asset_def (fst x) = d) by (intros x Hx; apply Hdef; auto).
    assert (Nr : NoDup (fr :: records)).
    { constructor; [intros Hx; apply Dn; rewrite <- (Hcode _ Hx); exact Cfr|].
      pose proof (wk_nodup _ W _ _ (map_get_in _ _ _ Gb)) as N. rewrite Hb' in N. exact (prefix_nodup _ _ N). }
    assert (Hlen : (length (fr :: records) <= length (held w))%nat).
    { apply NoDup_incl_length; [exact Nr|]. intros x [<-|Hx]; apply held_holds; [exact Hfr|apply Hr, Hx]. }
    cbn [length] in Hlen.
    assert (Hsum : sum_of records <= sum_of b) by (rewrite Hb', sum_of_app; pose proof (sum_of_nonneg rest); lia).
    assert (Hlt : forall x, In x records -> zv (snd x) < Z.of_nat (length lv)) by (intros x Hx; apply (ri_seen _ _ _ _ R x (Hse x Hx))).
    pose proof (payment_inputs_live L w depth lv r (Wallet.w_cred w) records ND Hlt) as HI.
    set (inputs := map (input_of w depth lv (Wallet.w_cred w)) records ++ [dummy_input depth r]) in *.
    set (outs' := outs ++ own_change w change).
    set (outputs := payment_outputs d (sr_blind r) 0 outs').
    assert (Hli : length inputs = (length records + 1)%nat) by (unfold inputs; rewrite app_length, map_length; reflexivity).
    assert (Hlo : length outputs = length outs') by apply payment_outputs_length.
    assert (Hr0 : (1 <= length records)%nat) by (destruct records; [contradiction|cbn; lia]).
    assert (HP : exists keys, transfer_preprocess g (length inputs + 1) (length outputs + 1) depth = Ok keys).
    { rewrite Hlo. unfold outs'. rewrite app_length. unfold own_change. destruct (0 <? zv change); cbn [length].
      - replace (length outs + 1 + 1)%nat with (length outs + 2)%nat by lia. apply Hkeys2. lia.
      - rewrite Nat.add_0_r. apply Hkeys1. lia. }
    destruct HP as ([pk vk] & HP).
    assert (Hso : amt_sum outputs = paid_sum outs + zv change) by (unfold outputs; rewrite payment_outputs_sum; unfold outs'; rewrite paid_sum_app, own_change_sum; reflexivity).
    (* the fee *)
    destruct (ri_seen _ _ _ _ R fr Sfr) as (F1 & F2 & F3 & F4).
    destruct (tree_lookup depth lv (snd fr) _ F4 HC) as (a & Ha & Hu & Hp & Hrt0 & Hm). pose proof Ha as Ha'.
    apply lookup_from_tree_spec in Ha'. destruct Ha' as [_ Ea].
    set (fi := mkFeeInput (fst fr) a (w_kp w)).
    set (fchg := mkRO (w128 (zv (amount (fst fr)) - zv fee)) asset_def_native (pub_key (fst fr)) Unfrozen (sr_fee_blind r)).
    assert (Efc : zv (amount fchg) = zv (amount (fst fr)) - zv fee) by (apply zv_w128_small; lia).
    set (info := mkFeeInfo fi fee fchg).
    assert (HFI : txn_fee_info_new (sr_fee_blind r) fi fee = Ok (info, fchg)).
    { unfold txn_fee_info_new, fi. cbn [fi_ro]. unfold amount_ltb. destruct (Z.ltb_spec (zv (amount (fst fr))) (zv fee)) as [Q|Q]; [lia|].
      rewrite amount_sub_ok by exact Q. reflexivity. }
    assert (PY : payable depth info).
    { constructor; cbn [info fi fee_input fi_acc fi_ro fi_kp fee_chg_ro fee_amount]; auto.
      - lia.
      - rewrite Hu, Hm. symmetry. exact Hrt0. }
    set (i0 := fee_to_transfer_input (fee_input info)).
    assert (EI0 : i0 = input_of w depth lv None fr) by (unfold i0, info, fi; cbn [fee_input fee_to_transfer_input fi_ro fi_acc fi_kp]; rewrite Ea; reflexivity).
    assert (NI : map (fun i => user_nullify (ti_kp i) (freezer_pk (policy (asset_def (ti_ro i)))) (acc_uid (ti_acc i)) (derive_record_commitment (ti_ro i))) (i0 :: inputs)
                 = w_nullify w fr :: map (w_nullify w) records ++ [dummy_nullifier r]).
    { unfold inputs. cbn [map]. rewrite input_nullifiers, EI0. reflexivity. }
    assert (HQ : transferable depth (tree_root depth lv) (payment_expiry w) (i0 :: inputs) (fchg :: outputs) fee d).
    { assert (Hid : forall i, In i inputs -> asset_def (ti_ro i) = asset_def_dummy \/ asset_def (ti_ro i) = d).
      { intros i Hi. apply in_app_or in Hi. destruct Hi as [Hi|[<-|[]]]; [right|left; reflexivity].
        apply in_map_iff in Hi. destruct Hi as (x & <- & Hx). exact (HN x Hx). }
      assert (AS : amt_sum (map ti_ro inputs) = sum_of records).
      { unfold inputs. clear. induction records as [|x l IH]; [unfold amt_sum; cbn [map app zsum fold_right dummy_input ti_ro dummy_ro amount]; rewrite zv_w128_0; reflexivity|].
        cbn [map app] in *. rewrite amt_sum_cons, IH. reflexivity. }
      constructor.
      - exists i0, inputs, fchg, outputs. split; [reflexivity|]. split; [reflexivity|]. split; [rewrite EI0; exact Nfr|]. split; [reflexivity|]. split; [|split; [|split]].
        + apply transferred_def; [exact Ddef| |].
          * intros o Ho. apply in_map_iff in Ho. destruct Ho as (i & <- & Hi). apply Hid, Hi.
          * destruct records as [|x0 records0]; [contradiction|]. exists (fst x0). split; [left; reflexivity|]. apply HN. left; reflexivity.
        + exact Hid.
        + intros o Ho. exact (proj1 (payment_outputs_def _ _ _ _ _ Ho)).
        + intros G. destruct (Dv G) as [G1 G2]. split; [exact G1|]. rewrite AS. pose proof (amount_range change). lia.
      - split; [exact Dd|]. split; [intros G; contradiction|exact Dfv].
      - intros i [<-|Hi].
        + rewrite EI0. apply (held_spendable w lv se sh); [exact R|exact HC|exact Hfr|rewrite Cfr; apply native_neq_dummy|].
          intros G. rewrite Nfr in G. destruct G. reflexivity.
        + apply in_app_or in Hi. destruct Hi as [Hi|[<-|[]]]; [|apply dummy_spendable].
          apply in_map_iff in Hi. destruct Hi as (x & <- & Hx). apply (held_spendable w lv se sh); [exact R|exact HC|exact (Hr x Hx)| |].
          * rewrite (Hcode x Hx). exact Dd.
          * intros G. rewrite (HN x Hx) in G. destruct (Dc G) as (c & G1 & G2 & G3). exists c. split; [exact G1|]. unfold payment_expiry. rewrite G1.
            split; [exact G2|]. split; [exact G3|]. lia.
      - intros o [<-|Ho]; [reflexivity|]. exact (proj2 (payment_outputs_def _ _ _ _ _ Ho)).
      - exact Hvu.
      - intros c. cbn [map]. unfold non_dummy. cbn [filter]. fold (non_dummy (map ti_ro inputs)).
        assert (Hnd0 : is_dummy_def (asset_def (ti_ro i0)) = false) by (apply (fee_input_non_dummy L); rewrite EI0; exact Nfr).
        rewrite Hnd0. cbn [negb].
        unfold inputs. rewrite (non_dummy_inputs L) by exact ND. rewrite !code_sum_cons. change (code (asset_def fchg)) with native_asset_code.
        assert (C0 : code (asset_def (ti_ro i0)) = native_asset_code) by (rewrite EI0; exact Cfr). rewrite C0.
        assert (A0 : amount (ti_ro i0) = amount (fst fr)) by (rewrite EI0; reflexivity). rewrite A0, Efc.
        destruct (zeqb_reflect native_asset_code c) as [<-|Hc].
        + rewrite !code_sum_none; [lia| |].
          * intros o Ho. rewrite (proj1 (payment_outputs_def _ _ _ _ _ Ho)). exact Dn.
          * intros o Ho. apply in_map_iff in Ho. destruct Ho as (x & <- & Hx). rewrite (Hcode x Hx). exact Dn.
        + destruct (zeqb_reflect (code d) c) as [<-|Hc'].
          * rewrite code_sum_all by (intros o Ho; apply in_map_iff in Ho; destruct Ho as (x & <- & Hx); exact (Hcode x Hx)).
            rewrite code_sum_all by (intros o Ho; rewrite (proj1 (payment_outputs_def _ _ _ _ _ Ho)); reflexivity).
            rewrite Hso. change (amt_sum (map fst records)) with (sum_of records). lia.
          * rewrite !code_sum_none; [lia| |].
            -- intros o Ho. rewrite (proj1 (payment_outputs_def _ _ _ _ _ Ho)). exact Hc'.
            -- intros o Ho. apply in_map_iff in Ho. destruct Ho as (x & <- & Hx). rewrite (Hcode x Hx). exact Hc'.
      - cbn [map]. rewrite amt_sum_cons, AS. assert (A0 : amount (ti_ro i0) = amount (fst fr)) by (rewrite EI0; reflexivity). rewrite A0. lia.
      - rewrite NI. change (w_nullify w fr :: map (w_nullify w) records ++ [dummy_nullifier r]) with (map (w_nullify w) (fr :: records) ++ [dummy_nullifier r]).
        assert (Hse' : forall x, In x (fr :: records) -> In x se) by (intros x [<-|Hx]; auto).
        apply NoDup_app'.
        + clear - Nr HD Hse'. induction (fr :: records) as [|x l IH]; [constructor|]. inversion Nr as [|? ? N1 N2]; subst. cbn [map]. constructor.
          * intros G. apply in_map_iff in G. destruct G as (y & Ey & Hy). apply N1. rewrite (HD x y); [exact Hy|apply Hse'; left; reflexivity|apply Hse'; right; exact Hy|symmetry; exact Ey].
          * apply IH; [exact N2|intros y Hy; apply Hse'; right; exact Hy].
        + constructor; [intros []|constructor].
        + intros k Hk [G|[]]. apply in_map_iff in Hk. destruct Hk as (x & Ex & Hx). apply (Hdn x (Hse' x Hx)). rewrite Ex. symmetry; exact G. }
    destruct (transfer_non_native_live L SL g (length inputs + 1) (length outputs + 1) depth pk vk (tree_root depth lv) (payment_expiry w) inputs outputs info d (sr_note r) [])
      as (n & HG & Hrt & Hfee); [exact HP|reflexivity|reflexivity|exact PY|exact HQ|].
    pose proof (generated_non_native _ _ _ _ _ _ _ _ _ HG) as (_ & HG').
    pose proof (generated_transfer L _ _ _ _ _ _ _ _ HG') as (_ & _ & _ & _ & _ & _ & _ & _ & _ & _ & B1 & B2 & B3 & _ & B4 & _).
    destruct (payment_memos_live (sr_enc r) outputs 0) as (memos & HM).
    { intros i ro Hi. unfold outputs in Hi. rewrite payment_outputs_nth in Hi. destruct (nth_error outs' i) as [[pk' a']|] eqn:Ei; [|discriminate].
      injection Hi as <-. unfold outs' in Ei. destruct (Nat.lt_ge_cases i (length outs)) as [Hi|Hi].
      - rewrite nth_error_app1 in Ei by exact Hi. exact (Henc i pk' a' Ei).
      - rewrite nth_error_app2 in Ei by exact Hi. unfold own_change in Ei. destruct (0 <? zv change); [|destruct (i - length outs)%nat; discriminate Ei].
        destruct (i - length outs)%nat eqn:Q; [|destruct n0; discriminate Ei]. injection Ei as <- <-. replace i with (length outs) by lia. apply Henc2. }
    pose proof (payment_memos_nth _ _ _ _ HM) as [ML _].
    destruct (sign_memos_ok L (tr_sig (sr_note r)) memos) as (sg & HS & HV).
    { intros ->. cbn [length] in ML. rewrite Hlo in ML. unfold outs' in ML. destruct outs; [contradiction|discriminate ML]. }
    eexists _, n, memos, sg. split; [|split; [|split]].
    - unfold spend_non_native.
      assert (E0 : asset_def_eqb d asset_def_native = false).
      { apply not_true_iff_false. intros G. apply (asset_def_eqb_spec L) in G. apply Dn. rewrite G. reflexivity. }
      rewrite E0, Ht0. cbn [bind]. rewrite HFF. cbn [bind]. rewrite Ha. cbn [bind]. fold fi. rewrite HFI. cbn [unwrap bind]. rewrite HF. cbn [bind ro_dummy].
      change (ro_new (sr_dummy_blind r) (w128 0) asset_def_dummy (user_pub_key (sr_dummy_kp r)) Unfrozen) with (dummy_ro r).
      match goal with |- context [payment_inputs ?a ?b ?c ?d ?e ?f] => replace (payment_inputs a b c d e f) with (Ok inputs) by (symmetry; exact HI) end.
      cbn [bind]. fold (own_change w change). fold outs'. fold outputs. rewrite HP. cbn [unwrap bind fst]. fold (payment_expiry w). rewrite HG. cbn [bind]. rewrite HM. cbn [bind]. rewrite HS. cbn [bind]. reflexivity.
    - apply (accepted L SL g fk depth l n (pk, vk) ts (payment_expiry w) pk (tr_sig (sr_note r)) (sr_note r) (i0 :: inputs) (fchg :: outputs) []).
      + rewrite B1, B3, !map_length. cbn [length]. rewrite !Nat.add_1_r in HP. exact HP.
      + reflexivity.
      + exact HG'.
      + exact Hts.
      + exact B2.
      + intros k Hk Hl. rewrite B1 in Hk. fold i0 in Hk. rewrite NI in Hk.
        change (w_nullify w fr :: map (w_nullify w) records ++ [dummy_nullifier r]) with (map (w_nullify w) (fr :: records) ++ [dummy_nullifier r]) in Hk.
        apply in_app_or in Hk. destruct Hk as [Hk|[<-|[]]]; [|exact (Hdl Hl)].
        apply in_map_iff in Hk. destruct Hk as (x & <- & Hx). destruct (Hln _ Hl) as (k' & Hk').
        assert (Hhx : holds w x) by (destruct Hx as [<-|Hx]; [exact Hfr|apply Hr, Hx]).
        exact (proj2 (proj1 (ri_exact _ _ _ _ R x) Hhx) k' Hk').
      + rewrite Hrt. exact Hroot.
    - exact Hfee.
    - apply HV. exact B4.
  Qed.
End Live.
