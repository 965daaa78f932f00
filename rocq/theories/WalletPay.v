(** What payments of a wallet do: selection of records, the balance before and after, acceptance by the validator,
    and what the receivers find. *)
From Verif Require Import Base Config Structs Keys Utils Memo Plonk Witness Circuits Snark Notes Serde Ledger Wallet WalletSpec.
From Verif Require Import CodecProofs PolicyProofs UtilsProofs MemoProofs NoteProofs NoteGen NoteThms NoteFacts NoteLive NoteLive2 WalletProofs.
From Coq Require Import Permutation.

Section Sums.
  Context {C : CapConfig} (L : CapLaws C) {S : Snark C} {K : @RoCodec C} {E : MemoSer C}.

  Definition sum_of (l : list Owned) : Z := amt_sum (map fst l).
  Lemma sum_of_cons x l : sum_of (x :: l) = zv (amount (fst x)) + sum_of l. Proof. reflexivity. Qed.
  Lemma sum_of_nonneg l : 0 <= sum_of l. Proof. apply amt_sum_nonneg. Qed.
  Lemma sum_of_app a b : sum_of (a ++ b) = sum_of a + sum_of b.
  Proof. induction a as [|x a IH]; [reflexivity|]. cbn [app]. rewrite !sum_of_cons, IH. lia. Qed.
  Lemma total_of_cons c x l : total_of c (x :: l) = (if zeqb (code (asset_def (fst x))) c then zv (amount (fst x)) else 0) + total_of c l.
  Proof. reflexivity. Qed.
  Lemma total_of_app c a b : total_of c (a ++ b) = total_of c a + total_of c b.
  Proof. induction a as [|x a IH]; [reflexivity|]. cbn [app]. rewrite !total_of_cons, IH. lia. Qed.
  Lemma total_of_perm c a b : Permutation a b -> total_of c a = total_of c b.
  Proof. induction 1; rewrite ?total_of_cons; lia. Qed.
  Lemma total_of_all c l : (forall x, In x l -> code (asset_def (fst x)) = c) -> total_of c l = sum_of l.
  Proof.
    induction l as [|x l IH]; intros H; [reflexivity|]. rewrite total_of_cons, sum_of_cons, IH by (intros; apply H; right; auto).
    rewrite (H x (or_introl eq_refl)), zeqb_refl. reflexivity.
  Qed.
  Lemma total_of_none c l : (forall x, In x l -> code (asset_def (fst x)) <> c) -> total_of c l = 0.
  Proof.
    induction l as [|x l IH]; intros H; [reflexivity|]. rewrite total_of_cons, IH by (intros; apply H; right; auto).
    destruct (zeqb_reflect (code (asset_def (fst x))) c) as [G|G]; [destruct (H x (or_introl eq_refl) G)|lia].
  Qed.
  Lemma total_of_nonneg c l : 0 <= total_of c l.
  Proof. induction l as [|x l IH]; [reflexivity|]. rewrite total_of_cons. pose proof (amount_range (amount (fst x))). destruct (zeqb _ c); lia. Qed.

  Lemma held_holds w x : In x (held w) <-> holds w x.
  Proof.
    unfold held, holds. rewrite in_flat_map. split; [intros ([c b] & H & Hx); exists c, b; auto|intros (c & b & H & Hx); exists (c, b); auto].
  Qed.
  Lemma held_nodup w : wallet_ok w -> NoDup (held w).
  Proof.
    intros W. pose proof (wk_keys _ W) as N. pose proof (wk_nodup _ W) as Nb. pose proof (wk_code _ W) as Cb. unfold held.
    induction (w_unspent w) as [|[c b] m IH]; cbn [flat_map snd]; [constructor|]. cbn [map fst] in N. inversion N as [|? ? N1 N2]; subst.
    assert (NI : NoDup (flat_map snd m)) by (apply IH; [exact N2|intros c' b' Hb; apply (Nb c' b'); right; exact Hb|intros c' b' x Hb; apply (Cb c' b'); right; exact Hb]).
    assert (Nc : NoDup b) by (apply (Nb c b); left; reflexivity).
    assert (DJ : forall x, In x b -> ~ In x (flat_map snd m)).
    { intros x Hx Hm. apply in_flat_map in Hm. destruct Hm as ([c' b'] & Hm & Hx'). cbn [snd] in Hx'. apply N1.
      rewrite <- (Cb c b x (or_introl eq_refl) Hx), (Cb c' b' x (or_intror Hm) Hx'). apply in_map_iff. exists (c', b'). auto. }
    clear - Nc NI DJ. induction b as [|x b IH]; [exact NI|]. cbn [app]. inversion Nc as [|? ? X1 X2]; subst. constructor.
    - intros H. apply in_app_or in H. destruct H as [H|H]; [exact (X1 H)|]. exact (DJ x (or_introl eq_refl) H).
    - apply IH; [exact X2|]. intros y Hy. apply DJ. right; exact Hy.
  Qed.
  (** the balance of an asset is what its bucket holds *)
  Lemma total_of_bucket w c : wallet_ok w ->
    total_of c (held w) = match map_get c (w_unspent w) with Some b => sum_of b | None => 0 end.
  Proof.
    intros W. pose proof (wk_keys _ W) as N. pose proof (wk_code _ W) as Cb. unfold held.
    induction (w_unspent w) as [|[c' b] m IH]; [reflexivity|]. cbn [flat_map snd map_get]. cbn [map fst] in N. inversion N as [|? ? N1 N2]; subst.
    rewrite total_of_app. destruct (zeqb_reflect c c') as [<-|Hc].
    - rewrite total_of_all by (intros x Hx; apply (Cb c b); [left; reflexivity|exact Hx]).
      rewrite total_of_none; [lia|]. intros x Hx Hcx. apply in_flat_map in Hx. destruct Hx as ([c2 b2] & Hm & Hx). cbn [snd] in Hx.
      apply N1. rewrite <- Hcx, (Cb c2 b2 x (or_intror Hm) Hx). apply in_map_iff. exists (c2, b2). auto.
    - rewrite total_of_none by (intros x Hx; rewrite (Cb c' b x (or_introl eq_refl) Hx); auto).
      rewrite IH; [lia|exact N2|]. intros c2 b2 x Hm. apply (Cb c2 b2). right; exact Hm.
  Qed.

  Lemma amount_add_ok (a b : Amount) : zv a + zv b < 2 ^ 128 -> amount_add a b = Ok (w128 (zv a + zv b)) /\ zv (w128 (zv a + zv b)) = zv a + zv b.
  Proof.
    intros H. pose proof (amount_range a). pose proof (amount_range b). split; [|apply zv_w128_small; lia].
    unfold amount_add. assert (G : (zv a + zv b <? u128_mod) = true) by (apply Z.ltb_lt; exact H). rewrite G. reflexivity.
  Qed.
  Lemma fold_add_ok {A} (f : A -> Amount) l : forall a : Amount, zv a + zsum (map (fun x => zv (f x)) l) < 2 ^ 128 ->
    exists t, fold_left (fun acc x => let* a := acc in amount_add a (f x)) l (Ok a) = Ok t /\ zv t = zv a + zsum (map (fun x => zv (f x)) l).
  Proof.
    induction l as [|x l IH]; intros a H; cbn [fold_left map zsum fold_right] in *; [exists a; split; [reflexivity|lia]|].
    fold (zsum (map (fun x => zv (f x)) l)) in *.
    assert (NN : 0 <= zsum (map (fun x => zv (f x)) l)) by (apply zsum_nonneg, Forall_forall; intros z Hz; apply in_map_iff in Hz; destruct Hz as (y & <- & _); apply amount_range).
    destruct (amount_add_ok a (f x)) as [E1 E2]; [lia|]. cbn [bind]. rewrite E1. destruct (IH (w128 (zv a + zv (f x)))) as (t & Ht & Et); [lia|].
    exists t. split; [exact Ht|lia].
  Qed.
  Lemma zv_w128_0 : zv (w128 0) = 0. Proof. apply zv_w128_small. lia. Qed.
  Lemma available_funds_ok w c : wallet_ok w -> total_of c (held w) < 2 ^ 128 ->
    exists a, available_funds w c = Ok a /\ zv a = total_of c (held w).
  Proof.
    intros W. rewrite (total_of_bucket w c W). unfold available_funds. destruct (map_get c (w_unspent w)) as [b|]; intros H.
    - assert (EQ : sum_of b = zsum (map (fun x : Owned => zv (amount (fst x))) b)) by (unfold sum_of, amt_sum; rewrite map_map; reflexivity).
      destruct (fold_add_ok (fun x : Owned => amount (fst x)) b (w128 0)) as (t & Ht & Et); [rewrite zv_w128_0; rewrite EQ in H; exact H|].
      exists t. split; [exact Ht|]. rewrite Et, zv_w128_0, EQ. reflexivity.
    - exists (w128 0). split; [reflexivity|apply zv_w128_0].
  Qed.
  Lemma paid_sum_zsum outs : paid_sum outs = zsum (map (fun x : UserPubKey * Amount => zv (snd x)) outs).
  Proof. induction outs as [|x outs IH]; [reflexivity|]. cbn [paid_sum fold_right map zsum]. unfold paid_sum in IH. rewrite IH. reflexivity. Qed.
  Lemma paid_sum_nonneg outs : 0 <= paid_sum outs.
  Proof. rewrite paid_sum_zsum. apply zsum_nonneg, Forall_forall. intros z Hz. apply in_map_iff in Hz. destruct Hz as (y & <- & _). apply amount_range. Qed.
  Lemma total_amount_ok outs : paid_sum outs < 2 ^ 128 -> exists t, total_amount outs = Ok t /\ zv t = paid_sum outs.
  Proof.
    intros H. destruct (fold_add_ok (fun x : UserPubKey * Amount => snd x) outs (w128 0)) as (t & Ht & Et); [rewrite zv_w128_0; rewrite paid_sum_zsum in H; exact H|].
    exists t. split; [exact Ht|]. rewrite Et, zv_w128_0, paid_sum_zsum. reflexivity.
  Qed.

  (** selection *)
  Lemma take_records_live l : forall cur amt : Amount, l <> [] -> zv cur + sum_of l < 2 ^ 128 -> zv amt <= zv cur + sum_of l ->
    exists r chg, take_records l cur amt = Ok (r, chg) /\ zv cur + sum_of r = zv amt + zv chg.
  Proof.
    induction l as [|x l IH]; intros cur amt Hl H1 H2; [contradiction|]. cbn [take_records]. rewrite sum_of_cons in *.
    pose proof (sum_of_nonneg l). destruct (amount_add_ok cur (amount (fst x))) as [E1 E2]; [lia|]. rewrite E1. cbn [bind].
    set (cu := w128 (zv cur + zv (amount (fst x)))) in *. unfold amount_ltb. destruct (Z.ltb_spec (zv cu) (zv amt)) as [G|G]; cbn [negb].
    - destruct (IH cu amt) as (r & chg & Hr & Er); [intros ->; change (sum_of []) with 0 in H2; lia|lia|lia|].
      rewrite Hr. cbn [bind]. exists (x :: r), chg. split; [reflexivity|]. rewrite sum_of_cons. lia.
    - rewrite amount_sub_ok by exact G. cbn [bind]. exists [x], (w128 (zv cu - zv amt)). split; [reflexivity|].
      rewrite sum_of_cons. change (sum_of []) with 0. rewrite zv_w128_small; [lia|]. pose proof (amount_range cu). pose proof (amount_range amt). lia.
  Qed.
End Sums.

(** ** Payments in the native asset *)
Section Native.
  Context {C : CapConfig} (L : CapLaws C) {S : Snark C} {K : @RoCodec C} (KL : RoCodecLaws K) {E : MemoSer C}.

  Definition dummy_ro (r : SpendRand) : RecordOpening :=
    mkRO (w128 0) asset_def_dummy (user_pub_key (sr_dummy_kp r)) Unfrozen (sr_dummy_blind r).
  Lemma dummy_ro_is r : ro_is_dummy (dummy_ro r) = true.
  Proof. unfold ro_is_dummy. apply (is_dummy_iff L). reflexivity. Qed.
  Lemma not_dummy_of_code ro : code (asset_def ro) <> dummy_asset_code -> ro_is_dummy ro = false.
  Proof. intros H. apply not_true_iff_false. unfold ro_is_dummy. rewrite (is_dummy_iff L). intros G. rewrite G in H. apply H. reflexivity. Qed.

  (** what is known about the inputs that the wallet prepares *)
  Definition input_of (w : Wallet) (depth : nat) (leaves : list F) (cred : option ExpirableCredential) (x : Owned) : TransferNoteInput :=
    mkTIn (fst x) (mkAcc (snd x) (tree_path leaves 0 depth (Z.to_nat (zv (snd x)))) (tree_root depth leaves)) (w_kp w) cred.
  Definition dummy_input (depth : nat) (r : SpendRand) : TransferNoteInput := mkTIn (dummy_ro r) (acc_dummy depth) (sr_dummy_kp r) None.

  Lemma payment_inputs_inv w depth leaves r cred l : (forall x, In x l -> ro_is_dummy (fst x) = false) -> forall is,
    payment_inputs w depth leaves (sr_dummy_kp r) cred (l ++ [(dummy_ro r, w64 0)]) = Ok is ->
    is = map (input_of w depth leaves cred) l ++ [dummy_input depth r] /\ forall x, In x l -> zv (snd x) < Z.of_nat (length leaves).
  Proof.
    induction l as [|[ro uid] l IH]; intros HD is H; cbn [app payment_inputs] in H.
    - rewrite dummy_ro_is in H. cbn [bind] in H. injection H as <-. split; [reflexivity|intros x []].
    - assert (D0 : ro_is_dummy ro = false) by exact (HD _ (or_introl eq_refl)). rewrite D0 in H.
      apply bind_ok in H. destruct H as (i & Hi & H). apply bind_ok in Hi. destruct Hi as (a & Ha & Hi). injection Hi as <-.
      apply bind_ok in H. destruct H as (is' & Hr & H). injection H as <-.
      apply lookup_from_tree_spec in Ha. destruct Ha as [Hu ->].
      destruct (IH (fun x Hx => HD x (or_intror Hx)) _ Hr) as [-> Hu']. split; [reflexivity|]. intros x [<-|Hx]; [exact Hu|exact (Hu' x Hx)].
  Qed.
  Lemma payment_inputs_live w depth leaves r cred l : (forall x, In x l -> ro_is_dummy (fst x) = false) ->
    (forall x, In x l -> zv (snd x) < Z.of_nat (length leaves)) ->
    payment_inputs w depth leaves (sr_dummy_kp r) cred (l ++ [(dummy_ro r, w64 0)]) = Ok (map (input_of w depth leaves cred) l ++ [dummy_input depth r]).
  Proof.
    induction l as [|[ro uid] l IH]; intros HD HU; cbn [app payment_inputs].
    - rewrite dummy_ro_is. reflexivity.
    - assert (D0 : ro_is_dummy ro = false) by exact (HD _ (or_introl eq_refl)). rewrite D0.
      assert (G : lookup_from_tree depth leaves uid = Ok (mkAcc uid (tree_path leaves 0 depth (Z.to_nat (zv uid))) (tree_root depth leaves))).
      { apply lookup_from_tree_spec. split; [exact (HU _ (or_introl eq_refl))|reflexivity]. }
      rewrite G. cbn [bind]. rewrite IH by (intros; (apply HD || apply HU); right; assumption). reflexivity.
  Qed.
  Lemma input_nullifiers w depth leaves cred r l :
    map (fun i => user_nullify (ti_kp i) (freezer_pk (policy (asset_def (ti_ro i)))) (acc_uid (ti_acc i)) (derive_record_commitment (ti_ro i)))
        (map (input_of w depth leaves cred) l ++ [dummy_input depth r]) = map (w_nullify w) l ++ [dummy_nullifier r].
  Proof. rewrite map_app, map_map. reflexivity. Qed.

  (** the receivers' records and memos *)
  Lemma payment_outputs_nth d r : forall outs k i, nth_error (payment_outputs d (sr_blind r) k outs) i =
    match nth_error outs i with Some (pk, a) => Some (receiver_record d r (k + i) pk a) | None => None end.
  Proof.
    induction outs as [|[pk a] outs IH]; intros k [|i]; cbn [payment_outputs nth_error]; try reflexivity.
    - rewrite Nat.add_0_r. reflexivity.
    - rewrite IH. replace (k + 1 + i)%nat with (k + Datatypes.S i)%nat by lia. reflexivity.
  Qed.
  Lemma payment_outputs_length d bl : forall outs k, length (payment_outputs d bl k outs) = length outs.
  Proof. induction outs as [|[pk a] outs IH]; intros k; cbn [payment_outputs length]; [reflexivity|]. rewrite IH. reflexivity. Qed.
  Lemma payment_outputs_def d bl : forall outs k o, In o (payment_outputs d bl k outs) -> asset_def o = d /\ freeze_flag o = Unfrozen.
  Proof. induction outs as [|[pk a] outs IH]; intros k o; cbn [payment_outputs In]; [intros []|]. intros [<-|H]; [split; reflexivity|exact (IH _ _ H)]. Qed.
  Lemma payment_outputs_sum d bl : forall outs k, amt_sum (payment_outputs d bl k outs) = paid_sum outs.
  Proof. induction outs as [|[pk a] outs IH]; intros k; cbn [payment_outputs]; [reflexivity|]. rewrite amt_sum_cons, IH. reflexivity. Qed.
  Lemma payment_memos_nth rnd : forall l k ms, payment_memos rnd k l = Ok ms -> length ms = length l /\
    forall i ro, nth_error l i = Some ro -> exists m, nth_error ms i = Some m /\ receiver_memo_from_ro (rnd (k + i)%nat) ro [] = Ok m.
  Proof.
    induction l as [|ro l IH]; intros k ms H; cbn [payment_memos] in H; [injection H as <-; split; [reflexivity|intros [|i] ro; discriminate]|].
    apply bind_ok in H. destruct H as (m & Hm & H). apply bind_ok in H. destruct H as (ms' & Hms & H). injection H as <-.
    destruct (IH _ _ Hms) as [IL IN]. split; [cbn [length]; rewrite IL; reflexivity|]. intros [|i] ro' Hi; cbn [nth_error] in *.
    - injection Hi as <-. exists m. split; [reflexivity|]. rewrite Nat.add_0_r. exact Hm.
    - destruct (IN i ro' Hi) as (m' & A & B). exists m'. split; [exact A|]. replace (k + Datatypes.S i)%nat with (k + 1 + i)%nat by lia. exact B.
  Qed.
  Lemma payment_memos_live rnd : forall l k, (forall i ro, nth_error l i = Some ro -> exists m, receiver_memo_from_ro (rnd (k + i)%nat) ro [] = Ok m) ->
    exists ms, payment_memos rnd k l = Ok ms.
  Proof.
    induction l as [|ro l IH]; intros k H; cbn [payment_memos]; [eexists; reflexivity|].
    destruct (H 0%nat ro eq_refl) as (m & Hm). rewrite Nat.add_0_r in Hm. rewrite Hm. cbn [bind].
    destruct (IH (k + 1)%nat) as (ms & ->); [|cbn [bind]; eexists; reflexivity].
    intros i ro' Hi. destruct (H (Datatypes.S i) ro' Hi) as (m' & Hm'). exists m'. replace (k + 1 + i)%nat with (k + Datatypes.S i)%nat by lia. exact Hm'.
  Qed.
  Lemma sign_memos_ok sk l : l <> [] -> exists sg, sign_receiver_memos sk l = Ok sg /\
    forall t, tx_memo_vk t = ver_key sk -> verify_receiver_memos_signature t l sg = Ok tt.
  Proof.
    intros Hl. assert (D : get_receiver_memos_digest l = Ok (hash_to_f (memos_bytes l))) by (destruct l; [contradiction|reflexivity]).
    exists (sig_sign sk [hash_to_f (memos_bytes l)]). split; [unfold sign_receiver_memos; rewrite D; reflexivity|]. intros t Ht.
    unfold verify_receiver_memos_signature. rewrite D. cbn [bind].
    assert (G : sig_ok (tx_memo_vk t) [hash_to_f (memos_bytes l)] (sig_sign sk [hash_to_f (memos_bytes l)]) = true) by (rewrite Ht; apply (sig_correct L)).
    rewrite G. reflexivity.
  Qed.

  (** what a successful payment did *)
  Record native_paid (g : srs) (depth : nat) (w : Wallet) (r : SpendRand) (outs : list (UserPubKey * Amount)) (fee : Amount) (leaves : list F)
      (w1 : Wallet) (n : TransferNote) (memos : list ReceiverMemo) (sg : Fj * point) (records : list Owned) (chg : RecordOpening) : Prop := {
    np_sub : exists b rest, map_get native_asset_code (w_unspent w) = Some b /\ b = records ++ rest;
    np_some : records <> [];
    np_nullifiers : tn_nullifiers n = map (w_nullify w) records ++ [dummy_nullifier r];
    np_commitments : tn_commitments n = derive_record_commitment chg :: map derive_record_commitment (payment_outputs asset_def_native (sr_blind r) 0 outs);
    np_chg : asset_def chg = asset_def_native /\ freeze_flag chg = Unfrozen /\ (exists x, In x records /\ pub_key chg = pub_key (fst x)) /\
      zv (amount chg) = sum_of records - paid_sum outs - zv fee;
    np_memos : payment_memos (sr_enc r) 0 (payment_outputs asset_def_native (sr_blind r) 0 outs) = Ok memos;
    np_wallet : w1 = let w0 := mark_inputs w (records ++ [(dummy_ro r, w64 0)]) in set_chg w0 (set_insert ro_eqb chg (w_pending_chg w0))
  }.

  Lemma find_records_some w c amt r chg : find_records w c amt = Ok (r, chg) -> r <> [].
  Proof.
    intros F ->. unfold find_records in F. apply bind_ok in F. destruct F as (b & _ & F).
    destruct b as [|y b]; cbn [take_records] in F; [discriminate|]. destruct (amount_add _ _) as [cu| |]; cbn [bind] in F; try discriminate.
    destruct (negb _); [destruct (amount_sub _ _) as [d| |]; cbn [bind] in F; discriminate|].
    destruct (take_records b cu amt) as [[u v]| |]; cbn [bind] in F; discriminate.
  Qed.
  Lemma bucket_code w c b : wallet_ok w -> map_get c (w_unspent w) = Some b -> forall x, In x b -> code (asset_def (fst x)) = c.
  Proof. intros W G x Hx. apply map_get_in in G. exact (wk_code _ W _ _ _ G Hx). Qed.

  Lemma non_dummy_all l : (forall o, In o l -> ro_is_dummy o = false) -> non_dummy l = l.
  Proof.
    induction l as [|o l IH]; intros H; [reflexivity|]. unfold non_dummy in *. cbn [filter].
    assert (G : is_dummy_def (asset_def o) = false) by exact (H o (or_introl eq_refl)). rewrite G. cbn [negb]. f_equal. apply IH. intros o' Ho. apply H. right; exact Ho.
  Qed.
  Lemma non_dummy_inputs w depth leaves cred r l : (forall x, In x l -> ro_is_dummy (fst x) = false) ->
    non_dummy (map ti_ro (map (input_of w depth leaves cred) l ++ [dummy_input depth r])) = map fst l.
  Proof.
    intros H. rewrite map_app, map_map. cbn [map]. unfold non_dummy. rewrite filter_app. cbn [filter].
    assert (G : is_dummy_def (asset_def (ti_ro (dummy_input depth r))) = true) by exact (dummy_ro_is r). rewrite G. cbn [negb]. rewrite app_nil_r.
    refine (non_dummy_all (map fst l) _). intros o Ho. apply in_map_iff in Ho. destruct Ho as (x & <- & Hx). apply H, Hx.
  Qed.

  Lemma spend_native_paid g depth w r outs fee leaves w1 n memos sg : wallet_ok w ->
    spend_native g depth w r outs fee leaves = (w1, Ok (n, memos, sg)) ->
    exists records chg, native_paid g depth w r outs fee leaves w1 n memos sg records chg.
  Proof.
    intros W H. unfold spend_native in H. destruct (let* t := total_amount outs in _) as [[records chg0]| |] eqn:F; try discriminate H.
    apply bind_ok in F. destruct F as (t0 & _ & F). apply bind_ok in F. destruct F as (tot & _ & F).
    destruct (find_records_sub _ _ _ _ _ F) as (b & rest & Gb & Hb & Hr). pose proof (find_records_some _ _ _ _ _ F) as Hne. clear F.
    cbn [ro_dummy] in H. change (ro_new (sr_dummy_blind r) (w128 0) asset_def_dummy (user_pub_key (sr_dummy_kp r)) Unfrozen) with (dummy_ro r) in H.
    destruct (let* inputs := _ in _) as [[[[note ms] sig] chg]| |] eqn:G; try discriminate H. injection H as <- <- <- <-.
    apply bind_ok in G. destruct G as (inputs & GI & G). apply bind_ok in G. destruct G as (keys & _ & G). apply bind_ok in G.
    destruct G as ([[n0 sk] chg'] & GG & G). apply bind_ok in G. destruct G as (ms' & GM & G). apply bind_ok in G. destruct G as (sg' & _ & G). injection G as <- <- <- <-.
    assert (ND : forall x, In x records -> ro_is_dummy (fst x) = false).
    { intros x Hx. apply not_dummy_of_code. rewrite (bucket_code w _ _ W Gb x); [apply native_neq_dummy|]. rewrite Hb. apply in_or_app. left; exact Hx. }
    destruct (payment_inputs_inv _ _ _ _ _ _ ND _ GI) as [-> Hu]. clear GI.
    apply (transfer_native_inv L) in GG. destruct GG as (GG & _ & i0 & irest & Hi & _ & _ & _ & A1 & A2 & A3 & _ & A4).
    apply (generated_transfer L) in GG. destruct GG as (_ & _ & _ & _ & _ & _ & _ & _ & _ & _ & B1 & _ & B2 & _).
    exists records, chg'. constructor.
    - exists b, rest. auto.
    - exact Hne.
    - rewrite B1. apply input_nullifiers.
    - exact B2.
    - split; [exact A1|]. split; [exact A3|]. split.
      + destruct records as [|x records]; [contradiction|]. exists x. split; [left; reflexivity|]. cbn [map app] in Hi. injection Hi as <- _. exact A2.
      + rewrite A4, non_dummy_inputs by exact ND. rewrite payment_outputs_sum. reflexivity.
    - exact GM.
    - reflexivity.
  Qed.
End Native.

(** ** Receivers and sender *)
Section Effects.
  Context {C : CapConfig} (L : CapLaws C) {S : Snark C} {K : @RoCodec C} (KL : RoCodecLaws K) {E : MemoSer C}.

  (** a payment made of receiver records and their memos pays each receiver *)
  Lemma receivers_paid d r outs (n : TransferNote) chg memos off i pk a w' :
    tn_commitments n = derive_record_commitment chg :: map derive_record_commitment (payment_outputs d (sr_blind r) 0 outs) ->
    payment_memos (sr_enc r) 0 (payment_outputs d (sr_blind r) 0 outs) = Ok memos ->
    nth_error outs i = Some (pk, a) -> user_pub_key (w_kp w') = pk ->
    length (tn_commitments n) = Datatypes.S (length memos) /\
    paid w' (TxTransfer n) memos off (receiver_record d r i pk a, w64 (Z.of_nat (off + 1 + i))) /\
    (forall w2 found, wallet_ok w' -> scan_txn w' (TxTransfer n) memos off = Ok (w2, found) -> In (receiver_record d r i pk a) found).
  Proof.
    intros HC HM Hi HK. destruct (payment_memos_nth _ _ _ _ HM) as [ML MN].
    pose proof (payment_outputs_nth d r outs 0 i) as PN. rewrite Hi in PN. cbn [Nat.add] in PN.
    destruct (MN i _ PN) as (m & Hm1 & Hm2). cbn [Nat.add] in Hm2.
    destruct (receiver_memo_spec L K KL) as [R _].
    assert (HD : receiver_memo_decrypt m (w_kp w') (derive_record_commitment (receiver_record d r i pk a)) [] = Ok (receiver_record d r i pk a)).
    { apply (R _ _ _ _ _ Hm2). symmetry; exact HK. }
    assert (HO : nth_error (map derive_record_commitment (payment_outputs d (sr_blind r) 0 outs)) i = Some (derive_record_commitment (receiver_record d r i pk a))).
    { apply map_nth_error, PN. }
    split; [rewrite HC; cbn [length]; rewrite map_length, ML; reflexivity|]. split.
    - left. exists i, (derive_record_commitment (receiver_record d r i pk a)), m.
      split; [cbn [tx_output_commitments]; rewrite HC; exact HO|]. split; [exact Hm1|]. split; [exact HD|]. split; reflexivity.
    - intros w2 found W HS. destruct (scan_txn_spec L _ _ _ _ _ _ W HS) as (_ & _ & _ & -> & _). cbn [tx_output_commitments]. rewrite HC. cbn [tl].
      unfold opened. apply in_flat_map. exists (derive_record_commitment (receiver_record d r i pk a), m). split.
      + clear - HO Hm1. revert HO. generalize (derive_record_commitment (receiver_record d r i pk a)). intros rc HO. revert memos i HO Hm1. generalize (map derive_record_commitment (payment_outputs d (sr_blind r) 0 outs)). intros l.
        induction l as [|y l IH]; intros [|m' ms] [|i] H1 H2; cbn [nth_error] in *; try discriminate.
        * injection H1 as ->. injection H2 as ->. left; reflexivity.
        * right. exact (IH _ _ H1 H2).
      + cbn [fst snd]. rewrite HD. left; reflexivity.
  Qed.

  Lemma NoDup_app' {A} (a b : list A) : NoDup a -> NoDup b -> (forall x, In x a -> ~ In x b) -> NoDup (a ++ b).
  Proof.
    induction a as [|x a IH]; intros Ha Hb H; [exact Hb|]. inversion Ha as [|? ? X1 X2]; subst. cbn [app]. constructor.
    - intros G. apply in_app_or in G. destruct G as [G|G]; [exact (X1 G)|]. exact (H x (or_introl eq_refl) G).
    - apply IH; [exact X2|exact Hb|]. intros y Hy. apply H. right; exact Hy.
  Qed.

  (** the records that the memos open to, with their positions *)
  Fixpoint news (kp : UserKeyPair) (outs : list RecordCommitment) (memos : list ReceiverMemo) (off : nat) : list Owned :=
    match outs, memos with
    | rc :: outs', m :: memos' =>
        (match receiver_memo_decrypt m kp rc [] with
         | Ok ro => match freeze_flag ro with Unfrozen => [(ro, w64 (Z.of_nat off))] | Frozen => [] end
         | _ => []
         end : list Owned) ++ news kp outs' memos' (off + 1)
    | _, _ => []
    end.
  Lemma news_in kp : forall outs memos off x, In x (news kp outs memos off) <-> memo_paid kp outs memos off x.
  Proof.
    induction outs as [|rc outs IH]; intros memos off x.
    { cbn [news]. split; [intros []|]. intros ([|i] & rc' & m & H & _); discriminate H. }
    destruct memos as [|m memos]; [cbn [news]; split; [intros []|]; intros ([|i] & rc' & m & _ & H & _); discriminate H|].
    cbn [news]. rewrite in_app_iff, memo_paid_cons, IH. split; (intros [H|H]; [left|right; exact H]).
    - destruct (receiver_memo_decrypt m kp rc []) as [ro| |]; [|destruct H|destruct H]. destruct (freeze_flag ro) eqn:Ff; [|destruct H].
      destruct H as [<-|[]]. auto.
    - destruct H as (H1 & H2 & H3). rewrite H1, H2. left. destruct x as [ro u]. cbn [fst snd] in *. rewrite H3. reflexivity.
  Qed.
  Lemma news_range kp outs memos off x : In x (news kp outs memos off) -> Z.of_nat (off + length outs) <= 2 ^ 64 ->
    Z.of_nat off <= zv (snd x) < Z.of_nat (off + length outs).
  Proof.
    intros H Hb. apply news_in in H. destruct H as (i & rc & m & H1 & _ & _ & _ & ->).
    assert (Hi : (i < length outs)%nat) by (apply nth_error_Some; intros G; rewrite G in H1; discriminate H1).
    rewrite zv_w64 by lia. lia.
  Qed.
  Lemma news_nodup kp : forall outs memos off, Z.of_nat (off + length outs) <= 2 ^ 64 -> NoDup (news kp outs memos off).
  Proof.
    induction outs as [|rc outs IH]; intros memos off Hb; [constructor|]. destruct memos as [|m memos]; [constructor|]. cbn [news length] in *.
    apply NoDup_app'.
    - destruct (receiver_memo_decrypt m kp rc []) as [ro| |]; [|constructor|constructor]. destruct (freeze_flag ro); [|constructor].
      constructor; [intros []|constructor].
    - apply IH. lia.
    - intros x Hx Hn. apply news_range in Hn; [|lia].
      destruct (receiver_memo_decrypt m kp rc []) as [ro| |]; [|destruct Hx|destruct Hx]. destruct (freeze_flag ro); [|destruct Hx].
      destruct Hx as [<-|[]]. cbn [snd] in Hn. rewrite zv_w64 in Hn by lia. lia.
  Qed.
  Lemma news_total kp c : forall outs memos off, total_of c (news kp outs memos off) = received c (opened kp outs memos).
  Proof.
    induction outs as [|rc outs IH]; intros memos off; [reflexivity|]. destruct memos as [|m memos]; [reflexivity|]. cbn [news]. unfold opened.
    cbn [combine flat_map fst snd]. fold (opened kp outs memos). rewrite total_of_app, IH.
    destruct (receiver_memo_decrypt m kp rc []) as [ro| |]; [|reflexivity|reflexivity]. cbn [app received fold_right]. fold (received c (opened kp outs memos)).
    destruct (freeze_flag ro); cbn [flag_eqb andb]; [|reflexivity]. unfold total_of. cbn [fold_right fst]. lia.
  Qed.

  (** a wallet's balances after it scanned a transaction that spends [records] of it (and nothing else of it) *)
  Lemma scan_balance w w1 t memos (lv : list F) se sh se' w2 found records chg dn chg0 outs0 :
    run_inv w lv se sh -> wallet_ok w1 -> w_kp w1 = w_kp w -> w_unspent w1 = w_unspent w -> 
    Z.of_nat (length lv + length (tx_output_commitments t)) < 2 ^ 64 ->
    NoDup records -> (forall x, In x records -> holds w x) -> tx_nullifiers t = map (w_nullify w) records ++ dn ->
    In chg (w_pending_chg w1) -> tx_output_commitments t = derive_record_commitment chg :: outs0 ->
    chg0 = (chg, w64 (Z.of_nat (length lv))) ->
    (forall x, In x se' <-> In x se \/ paid w1 t memos (length lv) x) -> distinct_nullifiers w se' ->
    (forall x, In x se' -> ~ In (w_nullify w x) dn) ->
    scan_txn w1 t memos (length lv) = Ok (w2, found) ->
    forall c, total_of c (held w2) + total_of c records = total_of c (held w) + total_of c [chg0] + received c found.
  Proof.
    intros R W1 HK HU Hb Nr Hr HN Hch HC Hchg Hse HD Hdn HS c.
    destruct (scan_txn_spec L _ _ _ _ _ _ W1 HS) as (W2 & K2 & _ & -> & HX). rewrite HC. cbn [tl].
    assert (NK : forall x, w_nullify w1 x = w_nullify w x) by (intros; unfold w_nullify; rewrite HK; reflexivity).
    assert (HH : forall x, holds w1 x <-> holds w x) by (intros; unfold holds; rewrite HU; reflexivity).
    assert (HO : tx_output_commitments t = derive_record_commitment chg :: outs0) by exact HC.
    assert (S1 : forall x, holds w x -> In x se') by (intros x Hx; apply Hse; left; apply (ri_exact _ _ _ _ R), Hx).
    assert (HI : inj_on w1 (fun x => holds w1 x \/ paid w1 t memos (length lv) x)).
    { intros x y Hx Hy Hxy. rewrite !NK in Hxy. apply HD; [| |exact Hxy]; [destruct Hx as [Hx|Hx]|destruct Hy as [Hy|Hy]];
        try (apply S1, HH; assumption); apply Hse; right; assumption. }
    specialize (HX HI).
    assert (P0 : paid w1 t memos (length lv) chg0).
    { apply (paid_iff _ _ _ _ _ _ _ HO). right. rewrite Hchg. cbn [fst snd]. auto. }
    assert (PX : forall x, paid w1 t memos (length lv) x <-> In x (news (w_kp w1) outs0 memos (length lv + 1)) \/ x = chg0).
    { intros x. rewrite (paid_iff _ _ _ _ _ _ _ HO), <- news_in. split; (intros [H|H]; [left; exact H|right]).
      - destruct H as (H1 & H2 & H3). destruct x as [ro u]. cbn [fst snd] in *. subst u chg0. f_equal.
        assert (Q : (ro, w64 (Z.of_nat (length lv))) = (chg, w64 (Z.of_nat (length lv)))).
        { apply HI; [right; apply (paid_iff _ _ _ _ _ _ _ HO); right; auto|right; exact P0|].
          destruct (wk_chg _ W1 _ H1) as (C1 & _). destruct (wk_chg _ W1 _ Hch) as (C2 & _). apply native_nullify; auto. }
        injection Q as Q. exact Q.
      - subst x chg0. auto. }
    rewrite HC in Hb. cbn [length] in Hb.
    assert (BB : Z.of_nat (length lv + 1 + @length RecordCommitment outs0) <= 2 ^ 64) by (unfold RecordCommitment in *; lia).
    assert (U0 : zv (snd chg0) = Z.of_nat (length lv)) by (rewrite Hchg; cbn [snd]; apply zv_w64; lia).
    assert (OLD : forall x, holds w x -> zv (snd x) < Z.of_nat (length lv)).
    { intros x Hx. apply (ri_exact _ _ _ _ R) in Hx. apply (ri_seen _ _ _ _ R x (proj1 Hx)). }
    assert (NEW : forall x, In x (news (w_kp w1) outs0 memos (length lv + 1)) -> Z.of_nat (length lv) < zv (snd x)).
    { intros x Hx. apply news_range in Hx; [|exact BB]. lia. }
    assert (SP : forall x, In x (map (w_nullify w) records) -> exists y, In y records /\ x = w_nullify w y).
    { intros x Hx. apply in_map_iff in Hx. destruct Hx as (y & <- & Hy). exists y. auto. }
    (* membership of the scanned wallet *)
    assert (M2 : forall x, holds w2 x <-> (holds w x /\ ~ In x records) \/ In x (news (w_kp w1) outs0 memos (length lv + 1)) \/ x = chg0).
    { intros x. rewrite HX, HH, PX, NK. rewrite HN, in_app_iff.
      assert (FR : In x se' -> ~ holds w x -> ~ (In (w_nullify w x) (map (w_nullify w) records) \/ In (w_nullify w x) dn)).
      { intros Hx Hnh [G|G]; [|exact (Hdn x Hx G)]. destruct (SP _ G) as (y & Hy & Ey). apply Hnh. rewrite (HD x y Hx (S1 y (Hr y Hy)) Ey). exact (Hr y Hy). }
      split.
      - intros [[Hx|Hx] Hn]; [left|right; exact Hx]. split; [exact Hx|]. intros Hi. apply Hn. left. apply in_map_iff. exists x. auto.
      - intros [[Hx Hn]|Hx].
        + split; [left; exact Hx|]. intros [G|G]; [|exact (Hdn x (S1 x Hx) G)]. destruct (SP _ G) as (y & Hy & Ey). apply Hn.
          rewrite (HD x y (S1 x Hx) (S1 y (Hr y Hy)) Ey). exact Hy.
        + split; [right; exact Hx|]. apply FR; [apply Hse; right; apply PX; exact Hx|]. intros Hh. apply OLD in Hh.
          destruct Hx as [Hx| ->]; [apply NEW in Hx|]; lia. }
    assert (PM : Permutation (held w2 ++ records) (held w ++ (chg0 :: news (w_kp w1) outs0 memos (length lv + 1)))).
    { apply NoDup_Permutation.
      - apply NoDup_app'; [apply held_nodup, W2|exact Nr|]. intros x Hx Hi. apply held_holds, M2 in Hx.
        pose proof (OLD x (Hr x Hi)). destruct Hx as [[_ Hx]|[Hx| ->]]; [exact (Hx Hi)|apply NEW in Hx; lia|lia].
      - apply NoDup_app'; [apply held_nodup, R| |].
        + constructor; [intros Hx; apply NEW in Hx; lia|]. apply news_nodup. exact BB.
        + intros x Hx Hi. apply held_holds, OLD in Hx. destruct Hi as [<-|Hi]; [|apply NEW in Hi]; lia.
      - intros x. rewrite !in_app_iff, !held_holds. cbn [In]. rewrite M2. split.
        + intros [[[Hx _]|[Hx| ->]]|Hx]; [left; exact Hx|right; right; exact Hx|right; left; reflexivity|left; exact (Hr x Hx)].
        + intros [Hx|[<-|Hx]]; [|left; right; right; reflexivity|left; right; left; exact Hx].
          assert (DEC : In x records \/ ~ In x records).
          { destruct (existsb (owned_eqb x) records) eqn:Ex.
            - left. apply existsb_exists in Ex. destruct Ex as (y & Hy & Ey). apply (owned_eqb_iff L) in Ey. subst y. exact Hy.
            - right. intros Hi. apply not_true_iff_false in Ex. apply Ex. apply existsb_exists. exists x. split; [exact Hi|]. apply (owned_eqb_iff L). reflexivity. }
          destruct DEC as [Di|Di]; [right; exact Di|left; left; auto]. }
    apply (total_of_perm c) in PM. rewrite !total_of_app, (total_of_cons c chg0), news_total in PM.
    assert (T1 : total_of c [chg0] = (if zeqb (code (asset_def (fst chg0))) c then zv (amount (fst chg0)) else 0)) by (unfold total_of; cbn [fold_right]; lia).
    rewrite T1. rewrite HK in *. lia.
  Qed.

  Lemma set_insert_has ro l : In ro (set_insert ro_eqb ro l).
  Proof. apply (set_insert_in ro_eqb (ro_eqb_iff L)). right; reflexivity. Qed.

  Theorem native_sender g depth w r outs fee leaves w1 n memos sg lv se sh se' w2 found :
    run_inv w lv se sh -> spend_native g depth w r outs fee leaves = (w1, Ok (n, memos, sg)) ->
    Z.of_nat (length lv + length (tn_commitments n)) < 2 ^ 64 ->
    (forall x, In x se' <-> In x se \/ paid w1 (TxTransfer n) memos (length lv) x) -> distinct_nullifiers w se' ->
    (forall x, In x se' -> w_nullify w x <> dummy_nullifier r) ->
    scan_txn w1 (TxTransfer n) memos (length lv) = Ok (w2, found) ->
    forall c, total_of c (held w2) = total_of c (held w) - (if zeqb c native_asset_code then paid_sum outs + zv fee else 0) + received c found.
  Proof.
    intros R HSp Hb Hse HD Hdn HS c.
    pose proof (spend_native_inv L g depth w r outs fee leaves lv se sh R) as R1. pose proof (spend_native_kp g depth w r outs fee leaves) as K1.
    rewrite HSp in R1, K1. cbn [fst] in R1, K1.
    destruct (spend_native_paid L _ _ _ _ _ _ _ _ _ _ _ (ri_ok _ _ _ _ R) HSp) as (records & chg & P). destruct P as [P1 P2 P3 P4 P5 P6 P7].
    destruct P1 as (b & rest & Gb & Hb'). destruct P5 as (Q1 & Q2 & _ & Q4).
    assert (Hcode : forall x, In x records -> code (asset_def (fst x)) = native_asset_code).
    { intros x Hx. apply (bucket_code w _ _ (ri_ok _ _ _ _ R) Gb). rewrite Hb'. apply in_or_app. left; exact Hx. }
    assert (Hr : forall x, In x records -> holds w x).
    { intros x Hx. exists native_asset_code, b. split; [apply map_get_in, Gb|]. rewrite Hb'. apply in_or_app. left; exact Hx. }
    assert (Nr : NoDup records).
    { pose proof (wk_nodup _ (ri_ok _ _ _ _ R) _ _ (map_get_in _ _ _ Gb)) as N. rewrite Hb' in N. clear - N.
      induction records as [|x l IH]; [constructor|]. cbn [app] in N. inversion N as [|? ? N1 N2]; subst. constructor; [|exact (IH N2)].
      intros Hx. apply N1. apply in_or_app. left; exact Hx. }
    assert (M : wallet_ok (mark_inputs w (records ++ [(dummy_ro r, w64 0)])) /\ w_kp (mark_inputs w (records ++ [(dummy_ro r, w64 0)])) = w_kp w /\
      Wallet.w_cred (mark_inputs w (records ++ [(dummy_ro r, w64 0)])) = Wallet.w_cred w /\ w_unspent (mark_inputs w (records ++ [(dummy_ro r, w64 0)])) = w_unspent w /\
      w_pending_chg (mark_inputs w (records ++ [(dummy_ro r, w64 0)])) = w_pending_chg w).
    { apply mark_inputs_ok; [apply R|]. intros x Hx Hdm. apply in_app_iff in Hx. destruct Hx as [Hx|[<-|[]]]; [auto|].
      cbn [fst] in Hdm. rewrite (dummy_ro_is L) in Hdm. discriminate. }
    destruct M as (_ & _ & _ & M4 & _).
    assert (HI : In chg (w_pending_chg w1)) by (rewrite P7; cbn [set_chg w_pending_chg]; apply set_insert_has).
    assert (HU : w_unspent w1 = w_unspent w) by (rewrite P7; exact M4).
    pose proof (scan_balance w w1 (TxTransfer n) memos lv se sh se' w2 found records chg [dummy_nullifier r] _ _ R (ri_ok _ _ _ _ R1) (proj1 K1) HU Hb Nr Hr P3 HI P4 eq_refl
      Hse HD (fun x Hx => fun G => match G with or_introl G => Hdn x Hx (eq_sym G) | or_intror G => G end) HS c) as T.
    unfold total_of at 4 in T. cbn [fold_right fst] in T. rewrite Q1 in T. change (code asset_def_native) with native_asset_code in T.
    rewrite (zeqb_sym c native_asset_code). destruct (zeqb_reflect native_asset_code c) as [<-|Hc].
    - rewrite (total_of_all _ records Hcode) in T. lia.
    - rewrite (total_of_none c records) in T; [lia|]. intros x Hx. rewrite (Hcode x Hx). exact Hc.
  Qed.
End Effects.

(** ** A payment that should go through does *)
Section Live.
  Context {C : CapConfig} (L : CapLaws C) {S : Snark C} (SL : SnarkLaws S) {K : @RoCodec C} {E : MemoSer C}.

  Lemma dummy_path_length depth : length (acc_path (acc_dummy depth)) = depth.
  Proof. apply repeat_length. Qed.
  Lemma held_spendable w lv se sh depth vu cred x : run_inv w lv se sh -> (length lv <= 3 ^ depth)%nat -> holds w x ->
    code (asset_def (fst x)) <> dummy_asset_code ->
    (cred_pk (policy (asset_def (fst x))) <> pt_id -> exists c, cred = Some c /\ cred_verify c vu = Ok tt /\ length (cr_attrs c) = 8%nat /\ zv (cr_expiry c) < zv vu + 2 ^ 20) ->
    spendable depth (tree_root depth lv) vu (input_of w depth lv cred x).
  Proof.
    intros R HC Hx Hd Hcr. pose proof (proj1 (ri_exact _ _ _ _ R x) Hx) as [Hse _]. destruct (ri_seen _ _ _ _ R x Hse) as (H1 & H2 & H3 & H4).
    destruct (tree_lookup depth lv (snd x) _ H4 HC) as (a & Ha & Hu & Hp & Hr & Hm).
    apply lookup_from_tree_spec in Ha. destruct Ha as [_ ->]. cbn [acc_path acc_root acc_uid] in *.
    constructor; cbn [input_of ti_ro ti_acc ti_kp ti_cred acc_path acc_root acc_uid].
    - exact Hp.
    - rewrite H1. reflexivity.
    - intros _. exact H1.
    - intros G. rewrite G in Hd. destruct Hd. reflexivity.
    - exact H2.
    - intros _. split; [reflexivity|exact Hm].
    - exact Hcr.
  Qed.
  Lemma dummy_spendable depth root vu r : spendable depth root vu (dummy_input depth r).
  Proof.
    constructor; cbn [dummy_input ti_ro ti_acc ti_kp ti_cred dummy_ro asset_def pub_key amount freeze_flag].
    - apply dummy_path_length.
    - reflexivity.
    - intros G. destruct G. reflexivity.
    - intros _. apply zv_w128_0.
    - reflexivity.
    - intros G. destruct G. reflexivity.
    - intros G. destruct G. reflexivity.
  Qed.
  Lemma zv_unexpired : zv UNEXPIRED_VALID_UNTIL = 2 ^ 20 - 1.
  Proof. unfold UNEXPIRED_VALID_UNTIL, w64. rewrite zv_zred. apply Z.mod_small. split; vm_compute; [discriminate|reflexivity]. Qed.

  (** the key sizes that payments of the wallet can need *)
  Definition keys_up_to (g : srs) (depth n_in n_out : nat) : Prop := forall k, (2 <= k <= n_in)%nat -> exists keys, transfer_preprocess g k n_out depth = Ok keys.

  Lemma accepted g fk depth l n keys ts vu pk sk r inputs outputs extra :
    transfer_preprocess g (length (tn_nullifiers n)) (length (tn_commitments n)) depth = Ok keys -> pk = fst keys ->
    transfer_generate r inputs outputs pk vu extra = Ok (n, sk) -> zv ts <= zv vu ->
    NoDup (tn_nullifiers n) -> (forall x, In x (tn_nullifiers n) -> ~ In x (lg_nullifiers l)) -> In (ta_root (tn_aux n)) (lg_roots l) ->
    validate_single_xfr_note (mkValidator g fk depth) l n ts = Ok tt.
  Proof.
    intros HP -> HG Ht HN HF HR. unfold validate_single_xfr_note. cbn [vd_srs vd_depth]. rewrite HP. cbn [unwrap bind].
    unfold check_txn_input_nullifiers.
    assert (G1 : existsb (check_nullifier l) (tn_nullifiers n) = false).
    { apply not_true_iff_false. intros G. apply existsb_exists in G. destruct G as (x & Hx & G). unfold check_nullifier in G.
      apply existsb_exists in G. destruct G as (y & Hy & G). destruct (zeqb_reflect x y) as [<-|]; [|discriminate]. exact (HF x Hx Hy). }
    assert (G2 : all_insert [] (tn_nullifiers n) = true) by (apply all_insert_iff; split; [exact HN|intros x _ []]).
    assert (G3 : check_valid_root l (ta_root (tn_aux n)) = true).
    { apply existsb_exists. exists (ta_root (tn_aux n)). split; [exact HR|]. apply zeqb_refl. }
    rewrite G1, G2, G3. cbn [negb fail_if bind]. destruct keys as [pk vk].
    exact (transfer_generate_verifies L SL _ _ _ _ _ _ _ _ _ _ _ _ _ ts HP HG Ht).
  Qed.

  Lemma in_firstn_bucket {A} (a b : list A) x : In x a -> In x (a ++ b).
  Proof. intros; apply in_or_app; auto. Qed.

  Theorem native_live g fk depth w lv se sh r outs fee l (ts : u64) :
    run_inv w lv se sh -> distinct_nullifiers w se -> (length lv <= 3 ^ depth)%nat ->
    (* the amounts *)
    (forall x, In x se -> code (asset_def (fst x)) = native_asset_code -> asset_def (fst x) = asset_def_native) ->
    (exists x, holds w x /\ code (asset_def (fst x)) = native_asset_code) -> outs <> [] ->
    paid_sum outs + zv fee <= total_of native_asset_code (held w) -> total_of native_asset_code (held w) < 2 ^ 127 ->
    (* what is sampled *)
    (forall x, In x se -> w_nullify w x <> dummy_nullifier r) -> ~ In (dummy_nullifier r) (lg_nullifiers l) ->
    (forall i pk a, nth_error outs i = Some (pk, a) -> exists m, receiver_memo_from_ro (sr_enc r i) (receiver_record asset_def_native r i pk a) [] = Ok m) ->
    (* keys *)
    keys_up_to g depth (length (held w) + 1) (length outs + 1) ->
    (* the ledger *)
    (forall n, In n (lg_nullifiers l) -> exists k, In (n, k) sh) -> In (tree_root depth lv) (lg_roots l) -> zv ts < 2 ^ 20 ->
    exists w1 n memos sg, spend_native g depth w r outs fee lv = (w1, Ok (n, memos, sg)) /\
      validate_single_xfr_note (mkValidator g fk depth) l n ts = Ok tt /\ ta_fee (tn_aux n) = fee /\
      verify_receiver_memos_signature (TxTransfer n) memos sg = Ok tt.
  Proof.
    intros R HD HC Hnat Hex Hne Hbal Hmax Hdn Hdl Henc Hkeys Hln Hroot Hts. pose proof (ri_ok _ _ _ _ R) as W.
    pose proof (paid_sum_nonneg outs). pose proof (amount_range fee).
    rewrite (total_of_bucket w _ W) in Hbal, Hmax.
    destruct (map_get native_asset_code (w_unspent w)) as [b|] eqn:Gb.
    2: { destruct Hex as (x & (c & b & Hc & Hx) & Ex). rewrite (wk_code _ W _ _ _ Hc Hx) in Ex. subst c.
         exfalso. apply (proj1 (map_get_none _ _) Gb). apply in_map_iff. exists (native_asset_code, b). auto. }
    assert (Nb : b <> []).
    { intros ->. destruct Hex as (x & (c & b & Hc & Hx) & Ex). rewrite (wk_code _ W _ _ _ Hc Hx) in Ex. subst c.
      rewrite (map_get_unique _ _ _ (wk_keys _ W) Hc) in Gb. injection Gb as ->. destruct Hx. }
    destruct (total_amount_ok outs) as (t0 & Ht0 & Et0); [lia|].
    destruct (amount_add_ok t0 fee) as [Ea1 Ea2]; [lia|]. set (tot := w128 (zv t0 + zv fee)) in *.
    destruct (take_records_live b (w128 0) tot Nb) as (records & chg0 & Ht & Er); [rewrite zv_w128_0; lia|rewrite zv_w128_0; lia|].
    assert (HF : find_records w native_asset_code tot = Ok (records, chg0)) by (unfold find_records; rewrite Gb; exact Ht).
    destruct (find_records_sub _ _ _ _ _ HF) as (b' & rest & Gb' & Hb' & Hr). rewrite Gb in Gb'. injection Gb' as <-.
    pose proof (find_records_some _ _ _ _ _ HF) as Hrne. rewrite zv_w128_0 in Er.
    assert (Hcode : forall x, In x records -> code (asset_def (fst x)) = native_asset_code).
    { intros x Hx. apply (bucket_code w _ _ W Gb). rewrite Hb'. apply in_or_app. left; exact Hx. }
    assert (ND : forall x, In x records -> ro_is_dummy (fst x) = false).
    { intros x Hx. apply (not_dummy_of_code L). rewrite (Hcode x Hx). apply native_neq_dummy. }
    assert (Hse : forall x, In x records -> In x se) by (intros x Hx; apply (ri_exact _ _ _ _ R), Hr, Hx).
    assert (HN : forall x, In x records -> asset_def (fst x) = asset_def_native) by (intros x Hx; apply Hnat; auto).
    assert (Nr : NoDup records).
    { pose proof (wk_nodup _ W _ _ (map_get_in _ _ _ Gb)) as N. rewrite Hb' in N. clear - N.
      induction records as [|x l IH]; [constructor|]. cbn [app] in N. inversion N as [|? ? N1 N2]; subst. constructor; [|exact (IH N2)].
      intros Hx. apply N1. apply in_or_app. left; exact Hx. }
    assert (Hlen : (length records <= length (held w))%nat).
    { apply NoDup_incl_length; [exact Nr|]. intros x Hx. apply held_holds, Hr, Hx. }
    assert (Hsum : sum_of records < 2 ^ 127) by (rewrite Hb', sum_of_app in Hmax; pose proof (sum_of_nonneg rest); lia).
    assert (Hlt : forall x, In x records -> zv (snd x) < Z.of_nat (length lv)) by (intros x Hx; apply (ri_seen _ _ _ _ R x (Hse x Hx))).
    pose proof (payment_inputs_live L w depth lv r None records ND Hlt) as HI.
    set (inputs := map (input_of w depth lv None) records ++ [dummy_input depth r]) in *.
    set (outputs := payment_outputs asset_def_native (sr_blind r) 0 outs).
    assert (Hli : length inputs = (length records + 1)%nat) by (unfold inputs; rewrite app_length, map_length; reflexivity).
    assert (Hlo : length outputs = length outs) by apply payment_outputs_length.
    assert (Hr0 : (1 <= length records)%nat) by (destruct records; [contradiction|cbn; lia]).
    destruct (Hkeys (length inputs)) as (keys & HP); [lia|]. rewrite <- Hlo in HP. destruct keys as [pk vk].
    (* the note *)
    assert (Erec : exists x0 records0, records = x0 :: records0) by (destruct records as [|x l']; [contradiction|exists x, l'; reflexivity]).
    destruct Erec as (x0 & records0 & Erec).
    set (i0 := input_of w depth lv None x0). set (irest := map (input_of w depth lv None) records0 ++ [dummy_input depth r]).
    assert (Hin : inputs = i0 :: irest) by (unfold inputs; rewrite Erec; reflexivity).
    set (chg := mkRO chg0 asset_def_native (pub_key (ti_ro i0)) Unfrozen (tr_chg_blind (sr_note r))).
    assert (Hso : amt_sum outputs = paid_sum outs) by apply payment_outputs_sum.
    assert (HQ : transferable depth (tree_root depth lv) UNEXPIRED_VALID_UNTIL (i0 :: irest) (chg :: outputs) fee asset_def_native).
    { assert (Hdef : forall i, In i inputs -> asset_def (ti_ro i) = asset_def_dummy \/ asset_def (ti_ro i) = asset_def_native).
      { intros i Hi. apply in_app_or in Hi. destruct Hi as [Hi|[<-|[]]]; [right|left; reflexivity].
        apply in_map_iff in Hi. destruct Hi as (x & <- & Hx). exact (HN x Hx). }
      assert (I0 : asset_def (ti_ro i0) = asset_def_native) by (apply HN; rewrite Erec; left; reflexivity).
      constructor.
      - exists i0, irest, chg, outputs. split; [reflexivity|]. split; [reflexivity|]. split; [exact I0|]. split; [reflexivity|]. split; [|split; [|split]].
        + assert (TI : forall l : list RecordOpening, (forall o, In o l -> asset_def o = asset_def_dummy \/ asset_def o = asset_def_native) -> transferred l asset_def_native).
          { clear. induction l as [|o l IH]; intros Hl; [constructor|]. destruct (Hl o (or_introl eq_refl)) as [Ho|Ho].
            - apply tr_skip; [exact Ho|]. apply IH. intros o' Ho'. apply Hl. right; exact Ho'.
            - rewrite <- Ho. apply tr_here. rewrite Ho. apply asset_dummy_not_native. }
          apply TI. intros o Ho. apply in_map_iff in Ho. destruct Ho as (i & <- & Hi). apply Hdef. rewrite Hin. right; exact Hi.
        + intros i Hi. apply Hdef. rewrite Hin. right; exact Hi.
        + intros o Ho. exact (proj1 (payment_outputs_def _ _ _ _ _ Ho)).
        + intros G. destruct G. reflexivity.
      - split; [apply native_neq_dummy|]. split; [reflexivity|]. intros G. destruct G. reflexivity.
      - intros i Hi. rewrite <- Hin in Hi. apply in_app_or in Hi. destruct Hi as [Hi|[<-|[]]]; [|apply dummy_spendable].
        apply in_map_iff in Hi. destruct Hi as (x & <- & Hx). apply (held_spendable w lv se sh); [exact R|exact HC|exact (Hr x Hx)| |].
        + rewrite (Hcode x Hx). apply native_neq_dummy.
        + intros G. rewrite (HN x Hx) in G. destruct G. reflexivity.
      - intros o [<-|Ho]; [reflexivity|]. exact (proj2 (payment_outputs_def _ _ _ _ _ Ho)).
      - rewrite zv_unexpired. lia.
      - intros c. rewrite <- Hin. unfold inputs. rewrite (non_dummy_inputs L) by exact ND. rewrite code_sum_cons. change (code (asset_def chg)) with native_asset_code.
        destruct (zeqb_reflect native_asset_code c) as [<-|Hc].
        + rewrite code_sum_all by (intros o Ho; apply in_map_iff in Ho; destruct Ho as (x & <- & Hx); exact (Hcode x Hx)).
          rewrite code_sum_all by (intros o Ho; rewrite (proj1 (payment_outputs_def _ _ _ _ _ Ho)); reflexivity).
          rewrite Hso. change (amt_sum (map fst records)) with (sum_of records). change (amount chg) with chg0. lia.
        + rewrite !code_sum_none; [lia| |].
          * intros o Ho. rewrite (proj1 (payment_outputs_def _ _ _ _ _ Ho)). exact Hc.
          * intros o Ho. apply in_map_iff in Ho. destruct Ho as (x & <- & Hx). rewrite (Hcode x Hx). exact Hc.
      - rewrite <- Hin. unfold inputs. rewrite map_app, map_map.
        assert (AS : amt_sum (map (fun x => ti_ro (input_of w depth lv None x)) records ++ map ti_ro [dummy_input depth r]) = sum_of records).
        { clear. induction records as [|x l IH]; [unfold amt_sum; cbn [map app zsum fold_right dummy_input ti_ro dummy_ro amount]; rewrite zv_w128_0; reflexivity|].
          cbn [map app] in *. rewrite amt_sum_cons, IH. reflexivity. }
        rewrite AS. exact Hsum.
      - rewrite <- Hin. unfold inputs. rewrite input_nullifiers. apply NoDup_app'.
        + clear - Nr HD Hse. induction records as [|x l IH]; [constructor|]. inversion Nr as [|? ? N1 N2]; subst. cbn [map]. constructor.
          * intros G. apply in_map_iff in G. destruct G as (y & Ey & Hy). apply N1. rewrite (HD x y); [exact Hy|apply Hse; left; reflexivity|apply Hse; right; exact Hy|symmetry; exact Ey].
          * apply IH; [intros y Hy; apply Hse; right; exact Hy|exact N2].
        + constructor; [intros []|constructor].
        + intros k Hk [G|[]]. apply in_map_iff in Hk. destruct Hk as (x & Ex & Hx). apply (Hdn x (Hse x Hx)). rewrite Ex. symmetry; exact G. }
    destruct (transfer_native_live L SL g (length inputs) (length outputs + 1) depth pk vk (tree_root depth lv) UNEXPIRED_VALID_UNTIL i0 irest outputs fee chg (sr_note r))
      as (n & HG & Hrt & Hfee); [exact HP|rewrite Hin; cbn [length]; lia|reflexivity|reflexivity|exact HQ|].
    pose proof (transfer_native_inv L _ _ _ _ _ _ _ _ _ HG) as (HG' & _).
    pose proof (generated_transfer L _ _ _ _ _ _ _ _ HG') as (_ & _ & _ & _ & _ & _ & _ & _ & _ & _ & B1 & B2 & B3 & _ & B4 & _).
    destruct (payment_memos_live (sr_enc r) outputs 0) as (memos & HM).
    { intros i ro Hi. unfold outputs in Hi. rewrite payment_outputs_nth in Hi. destruct (nth_error outs i) as [[pk' a]|] eqn:Ei; [|discriminate].
      injection Hi as <-. exact (Henc i pk' a Ei). }
    pose proof (payment_memos_nth _ _ _ _ HM) as [ML _].
    destruct (sign_memos_ok L (tr_sig (sr_note r)) memos) as (sg & HS & HV).
    { intros ->. cbn [length] in ML. rewrite Hlo in ML. destruct outs; [contradiction|discriminate ML]. }
    eexists _, n, memos, sg. split; [|split; [|split]].
    - unfold spend_native. rewrite Ht0. cbn [bind]. rewrite Ea1. cbn [bind]. fold tot. rewrite HF. cbn [ro_dummy].
      change (ro_new (sr_dummy_blind r) (w128 0) asset_def_dummy (user_pub_key (sr_dummy_kp r)) Unfrozen) with (dummy_ro r).
      match goal with |- context [payment_inputs ?a ?b ?c ?d ?e ?f] => replace (payment_inputs a b c d e f) with (Ok inputs) by (symmetry; exact HI) end.
      cbn [bind]. fold outputs. rewrite HP. cbn [unwrap bind fst]. rewrite Hin. rewrite HG. cbn [bind]. rewrite HM. cbn [bind]. rewrite HS. cbn [bind]. reflexivity.
    - apply (accepted g fk depth l n (pk, vk) ts UNEXPIRED_VALID_UNTIL pk (tr_sig (sr_note r)) (sr_note r) (i0 :: irest) (chg :: outputs) []).
      + rewrite B1, B3, !map_length. cbn [length]. rewrite Nat.add_1_r in HP. rewrite Hin in HP. exact HP.
      + reflexivity.
      + exact HG'.
      + rewrite zv_unexpired. lia.
      + exact B2.
      + intros k Hk Hl. rewrite B1, <- Hin in Hk. unfold inputs in Hk. rewrite input_nullifiers in Hk. apply in_app_or in Hk. destruct Hk as [Hk|[<-|[]]]; [|exact (Hdl Hl)].
        apply in_map_iff in Hk. destruct Hk as (x & <- & Hx). destruct (Hln _ Hl) as (k' & Hk'). exact (proj2 (proj1 (ri_exact _ _ _ _ R x) (Hr x Hx)) k' Hk').
      + rewrite Hrt. exact Hroot.
    - exact Hfee.
    - apply HV. exact B4.
  Qed.
End Live.
