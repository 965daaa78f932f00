(** Binding of a note to its proof, batch verification, receiver memo signatures, fee records. *)
From Verif Require Import Base Config Structs Keys Utils Memo Plonk Witness Circuits Relation CircuitLogic CodecProofs PolicyProofs
  UtilsProofs MemoProofs GadgetProofs StructGadgetProofs SpendGadgetProofs TransferCircuitProofs MintCircuitProofs
  FreezeCircuitProofs CircuitShape CircuitTheorems Snark Notes NoteProofs NoteGen NoteGen2.

(** ** Public inputs are determined by their scalars *)
Section Inj.
  Context {C : CapConfig} (L : CapLaws C).

  Lemma memo_value_inj a b : memo_value a = memo_value b -> a = b.
  Proof.
    destruct a as [e d], b as [e2 d2]. unfold memo_value. cbn [Memo.vm_ephemeral Memo.vm_data]. intros H.
    pose proof (f_equal fst H) as H1. pose proof (f_equal snd H) as H2. cbn [fst snd] in *. apply (pt_xy_inj L) in H1. congruence.
  Qed.
  Lemma pol_value_inj a b : pol_value a = pol_value b -> a = b.
  Proof.
    destruct a as [v c f m t], b as [v' c' f' m' t']. unfold pol_value. cbn [viewer_pk cred_pk freezer_pk reveal_map reveal_threshold]. intros H.
    pose proof (f_equal po_viewer H) as H1. pose proof (f_equal po_cred H) as H2. pose proof (f_equal po_freezer H) as H3.
    pose proof (f_equal po_map H) as H4. pose proof (f_equal po_threshold H) as H5. cbn [po_viewer po_cred po_freezer po_map po_threshold] in *.
    apply (pt_xy_inj L) in H1. apply (pt_xy_inj L) in H2. apply (pt_xy_inj L) in H3. apply f_of_u128_inj in H5.
    destruct rm_scalar_spec as (_ & Hm & _). apply Hm in H4. congruence.
  Qed.
  Lemma transfer_public_inj p q : length (tp_nullifiers p) = length (tp_nullifiers q) -> length (tp_commitments p) = length (tp_commitments q) ->
    transfer_to_scalars p = transfer_to_scalars q -> p = q.
  Proof.
    intros L1 L2 H. rewrite <- !transfer_scalars_api in H. apply transfer_scalars_inj in H; auto.
    destruct p as [a0 a1 a2 a3 a4 a5 a6], q as [b0 b1 b2 b3 b4 b5 b6]. unfold transfer_pub_value in H. cbn [tp_root tp_native tp_valid_until tp_fee tp_nullifiers tp_commitments tp_memo] in *.
    pose proof (f_equal tq_root H) as H1. pose proof (f_equal tq_native H) as H2. pose proof (f_equal tq_valid_until H) as H3.
    pose proof (f_equal tq_fee H) as H4. pose proof (f_equal tq_nullifiers H) as H5. pose proof (f_equal tq_commitments H) as H6.
    pose proof (f_equal tq_memo H) as H7. cbn [tq_root tq_native tq_valid_until tq_fee tq_nullifiers tq_commitments tq_memo] in *.
    apply f_of_u64_inj in H3. apply f_of_u128_inj in H4. apply memo_value_inj in H7. subst. reflexivity.
  Qed.
  Lemma mint_public_inj p q : mint_to_scalars p = mint_to_scalars q -> p = q.
  Proof.
    intros H. rewrite <- !mint_scalars_api in H. apply mint_scalars_inj in H.
    destruct p as [a0 a1 a2 a3 a4 a5 a6 a7 a8 a9 a10], q as [b0 b1 b2 b3 b4 b5 b6 b7 b8 b9 b10]. unfold mint_pub_value in H. cbn [mp_root mp_native mp_nullifier mp_fee mp_mint_rc mp_chg_rc mp_mint_amount mp_mint_ac mp_mint_internal_ac mp_policy mp_memo] in *.
    pose proof (f_equal mq_root H) as H1. pose proof (f_equal mq_native H) as H2. pose proof (f_equal mq_nullifier H) as H3.
    pose proof (f_equal mq_fee H) as H4. pose proof (f_equal mq_mint_rc H) as H5. pose proof (f_equal mq_chg_rc H) as H6.
    pose proof (f_equal mq_amount H) as H7. pose proof (f_equal mq_code H) as H8. pose proof (f_equal mq_internal H) as H9.
    pose proof (f_equal mq_pol H) as H10. pose proof (f_equal mq_memo H) as H11.
    cbn [mq_root mq_native mq_nullifier mq_fee mq_mint_rc mq_chg_rc mq_amount mq_code mq_internal mq_pol mq_memo] in *.
    apply f_of_u128_inj in H4. apply f_of_u128_inj in H7. apply pol_value_inj in H10. apply memo_value_inj in H11. subst. reflexivity.
  Qed.
  Lemma freeze_public_inj p q : length (fp_nullifiers p) = length (fp_nullifiers q) -> freeze_to_scalars p = freeze_to_scalars q -> p = q.
  Proof.
    intros L1 H. rewrite <- !freeze_scalars_api in H. apply freeze_scalars_inj in H; auto.
    destruct p as [a0 a1 a2 a3 a4], q as [b0 b1 b2 b3 b4]. unfold freeze_pub_value in H. cbn [fp_root fp_native fp_fee fp_nullifiers fp_commitments] in *.
    pose proof (f_equal fq_root H) as H1. pose proof (f_equal fq_native H) as H2. pose proof (f_equal fq_fee H) as H3.
    pose proof (f_equal fq_nullifiers H) as H4. pose proof (f_equal fq_commitments H) as H5.
    cbn [fq_root fq_native fq_fee fq_nullifiers fq_commitments] in *. apply f_of_u128_inj in H3. subst. reflexivity.
  Qed.
End Inj.

(** ** An honest proof is accepted only with the note it was made for *)
Section Tamper.
  Context {C : CapConfig} {S : Snark C} (L : CapLaws C) (SL : SnarkLaws S).

  Lemma honest_pubs s pub : check_circuit_satisfiability s pub = true -> map (env_of (wit s)) (pubs s) = pub.
  Proof. unfold check_circuit_satisfiability. rewrite circuit_sat_iff. tauto. Qed.

  Lemma transfer_tamper g n_in n_out d pk vk r inputs outputs vu extra n sk n' root ts :
    transfer_preprocess g n_in n_out d = Ok (pk, vk) -> transfer_generate r inputs outputs pk vu extra = Ok (n, sk) ->
    tn_proof n' = tn_proof n -> length (tn_nullifiers n') = length (tn_nullifiers n) ->
    length (tn_commitments n') = length (tn_commitments n) ->
    transfer_verify n' vk root ts = Ok tt -> n' = n.
  Proof.
    intros HP HG Hprf L1 L2 HV. apply transfer_preprocess_keys in HP. destruct HP as (s0 & Hb & Hk & E1 & E2 & E3 & _).
    destruct (transfer_generate_inv L _ _ _ _ _ _ _ _ HG) as (w & p & s & G).
    pose proof (tg_shape L _ _ _ _ _ _ _ _ _ _ _ G) as HS. rewrite E1, E3 in HS.
    destruct (new_unchecked_inv L _ _ _ _ (tg_witness _ _ _ _ _ _ _ _ _ _ _ G)) as (_ & Wo & _ & _).
    destruct (tg_lens _ _ _ _ _ _ _ _ _ _ _ G) as (_ & LO & _).
    destruct (transfer_honest_circuit L _ _ _ _ _ _ _ Hb (tg_public _ _ _ _ _ _ _ _ _ _ _ G) HS) as (s' & Hs & Hsim); [congruence|].
    rewrite (tg_circuit _ _ _ _ _ _ _ _ _ _ _ G) in Hs. injection Hs as <-.
    apply transfer_verify_iff in HV. destruct HV as (_ & _ & HV). rewrite Hprf in HV.
    destruct (snark_binding _ SL _ _ _ _ _ _ _ _ _ _ Hk Hsim (tg_prove _ _ _ _ _ _ _ _ _ _ _ G) HV) as [Hm Hpub].
    rewrite (honest_pubs _ _ (tg_sat _ _ _ _ _ _ _ _ _ _ _ G)), <- (tg_note _ _ _ _ _ _ _ _ _ _ _ G) in Hpub.
    apply (transfer_public_inj L) in Hpub; auto. apply app_inj_len in Hm; [|apply (ser_verkey_len _ SL)]. destruct Hm as [Hm1 Hm2].
    apply (ser_verkey_inj _ SL) in Hm1. destruct (tg_aux _ _ _ _ _ _ _ _ _ _ _ G) as (A1 & A2 & A3).
    rewrite <- (tg_sk _ _ _ _ _ _ _ _ _ _ _ G), <- A2 in Hm1. rewrite <- A3 in Hm2. clear - Hpub Hm1 Hm2 Hprf.
    destruct n' as [nl rc prf memo [root fee vu mvk ex]], n as [nl' rc' prf' memo' [root' fee' vu' mvk' ex']].
    unfold transfer_note_public in Hpub. cbn [tn_nullifiers tn_commitments tn_proof tn_memo tn_aux ta_root ta_fee ta_valid_until ta_memo_vk ta_extra] in *.
    pose proof (f_equal tp_root Hpub) as H1. pose proof (f_equal tp_valid_until Hpub) as H3.
    pose proof (f_equal tp_fee Hpub) as H4. pose proof (f_equal tp_nullifiers Hpub) as H5. pose proof (f_equal tp_commitments Hpub) as H6.
    pose proof (f_equal tp_memo Hpub) as H7. cbn [tp_root tp_valid_until tp_fee tp_nullifiers tp_commitments tp_memo] in *. subst. reflexivity.
  Qed.

  Lemma mint_tamper g d pk vk r mint_ro seed description fee n sk n' root :
    mint_preprocess g d = Ok (pk, vk) -> mint_generate r mint_ro seed description fee pk = Ok (n, sk) ->
    mn_proof n' = mn_proof n -> mint_verify n' vk root = Ok tt -> n' = n.
  Proof.
    intros HP HG Hprf HV. apply mint_preprocess_keys in HP. destruct HP as (s0 & Hb & Hk & E1 & _).
    destruct (mint_generate_inv L _ _ _ _ _ _ _ _ HG) as (p & s & G).
    destruct (mint_honest_circuit _ _ _ _ Hb (mg_public _ _ _ _ _ _ _ _ _ _ G)) as (s' & Hs & Hsim).
    { cbn. rewrite <- E1. apply (mg_depth _ _ _ _ _ _ _ _ _ _ G). }
    rewrite (mg_circuit _ _ _ _ _ _ _ _ _ _ G) in Hs. injection Hs as <-.
    apply mint_verify_iff in HV. destruct HV as (_ & _ & HV). rewrite Hprf in HV.
    destruct (snark_binding _ SL _ _ _ _ _ _ _ _ _ _ Hk Hsim (mg_prove _ _ _ _ _ _ _ _ _ _ G) HV) as [Hm Hpub].
    rewrite (mint_exposed _ _ _ (mg_circuit _ _ _ _ _ _ _ _ _ _ G)), <- (mg_note _ _ _ _ _ _ _ _ _ _ G) in Hpub. apply (mint_public_inj L) in Hpub.
    apply (ser_verkey_inj _ SL) in Hm. destruct (mg_aux _ _ _ _ _ _ _ _ _ _ G) as (_ & _ & A). rewrite <- (mg_sk _ _ _ _ _ _ _ _ _ _ G), <- A in Hm.
    clear - Hpub Hm Hprf. destruct n' as [nl chg mt am [cd po] it prf memo [root fee mvk]], n as [nl' chg' mt' am' [cd' po'] it' prf' memo' [root' fee' mvk']].
    unfold mint_note_public in Hpub. cbn [mn_nullifier mn_chg mn_mint mn_amount mn_def mn_internal mn_proof mn_memo mn_aux ma_root ma_fee ma_memo_vk code policy] in *.
    pose proof (f_equal mp_root Hpub) as H1. pose proof (f_equal mp_nullifier Hpub) as H3.
    pose proof (f_equal mp_fee Hpub) as H4. pose proof (f_equal mp_mint_rc Hpub) as H5. pose proof (f_equal mp_chg_rc Hpub) as H6.
    pose proof (f_equal mp_mint_amount Hpub) as H7. pose proof (f_equal mp_mint_ac Hpub) as H8. pose proof (f_equal mp_mint_internal_ac Hpub) as H9.
    pose proof (f_equal mp_policy Hpub) as H10. pose proof (f_equal mp_memo Hpub) as H11.
    cbn [mp_root mp_native mp_nullifier mp_fee mp_mint_rc mp_chg_rc mp_mint_amount mp_mint_ac mp_mint_internal_ac mp_policy mp_memo] in *. subst. reflexivity.
  Qed.

  Lemma freeze_tamper g fk num d pk vk r inputs fee n sk outs n' root :
    freeze_preprocess g fk num d = Ok (pk, vk) -> freeze_generate r inputs fee pk = Ok (n, sk, outs) ->
    length (acc_path (fi_acc (fee_input fee))) = d -> (forall i, In i inputs -> length (acc_path (zi_acc i)) = d) ->
    fn_proof n' = fn_proof n -> length (fn_nullifiers n') = length (fn_nullifiers n) ->
    freeze_verify n' vk root = Ok tt -> n' = n.
  Proof.
    intros HP HG Hd Hds Hprf LN' HV. apply freeze_preprocess_keys in HP. destruct HP as (s0 & Hb & Hk & E1 & _ & E3 & _).
    destruct (freeze_generate_inv L _ _ _ _ _ _ _ HG) as (p & s & G). destruct (fg_len _ _ _ _ _ _ _ _ _ G) as (_ & LN & _).
    destruct (freeze_honest_circuit _ _ _ _ _ _ Hb (fg_public _ _ _ _ _ _ _ _ _ G)) as (s' & Hs & Hsim).
    { cbn [freeze_new_unchecked fw_inputs length]. rewrite map_length. lia. }
    { cbn [freeze_new_unchecked fw_accs]. constructor; auto. rewrite Forall_map. apply Forall_forall. auto. }
    rewrite (fg_circuit _ _ _ _ _ _ _ _ _ G) in Hs. injection Hs as <-.
    apply freeze_verify_iff in HV. destruct HV as (_ & HV). rewrite Hprf in HV.
    destruct (snark_binding _ SL _ _ _ _ _ _ _ _ _ _ Hk Hsim (fg_prove _ _ _ _ _ _ _ _ _ G) HV) as [Hm Hpub].
    rewrite (honest_pubs _ _ (fg_sat _ _ _ _ _ _ _ _ _ G)), <- (fg_note _ _ _ _ _ _ _ _ _ G) in Hpub. apply freeze_public_inj in Hpub; auto.
    apply (ser_verkey_inj _ SL) in Hm. destruct (fg_aux _ _ _ _ _ _ _ _ _ G) as (_ & _ & A). rewrite <- (fg_sk _ _ _ _ _ _ _ _ _ G), <- A in Hm.
    clear - Hpub Hm Hprf. destruct n' as [nl rc prf [root fee mvk]], n as [nl' rc' prf' [root' fee' mvk']].
    unfold freeze_note_public in Hpub. cbn [fn_nullifiers fn_commitments fn_proof fn_aux fa_root fa_fee fa_memo_vk] in *.
    pose proof (f_equal fp_root Hpub) as H1. pose proof (f_equal fp_fee Hpub) as H3. pose proof (f_equal fp_nullifiers Hpub) as H4.
    pose proof (f_equal fp_commitments Hpub) as H5. cbn [fp_root fp_fee fp_nullifiers fp_commitments] in *. subst. reflexivity.
  Qed.
End Tamper.

(** ** Batch verification *)
Section Batch.
  Context {C : CapConfig} {S : Snark C} (SL : SnarkLaws S).

  (** the key is of the note's kind *)
  Definition same_kind (t : TransactionNote) (k : TransactionVerifyingKey) : Prop :=
    match t, k with
    | TxTransfer _, VkTransfer _ | TxMint _, VkMint _ | TxFreeze _, VkFreeze _ => True
    | _, _ => False
    end.
  (** what the batch checks of one note: as its own verification, without the asset code of a mint *)
  Definition batch_ok (t : TransactionNote) (k : TransactionVerifyingKey) (root : F) (ts : u64) : Prop :=
    exists pub, batch_public_input t root ts = Ok pub /\ snark_verify (get_key_ref k) pub (tx_proof t) (batch_message t) = true.

  Lemma batch_iff txns roots ts keys : txns <> [] ->
    (txn_batch_verify txns roots ts keys = Ok tt <->
     length keys = length txns /\ length roots = length txns /\
     forall i t k root, nth_error txns i = Some t -> nth_error keys i = Some k -> nth_error roots i = Some root -> batch_ok t k root ts).
  Proof.
    intros Hne. unfold txn_batch_verify. split.
    - intros H. failH H. apply orb_false_iff in K. destruct K as [K1 K2]. apply negb_false_iff, Nat.eqb_eq in K1. apply negb_false_iff, Nat.eqb_eq in K2.
      bindH H pbs Hp. apply fail_if_ok, negb_false_iff in H. apply mapM_ok in Hp.
      rewrite (batch_all _ SL) in H.
      2:{ destruct txns, keys, roots; try discriminate; [contradiction|]. inversion Hp; subst. discriminate. }
      conjs; auto. clear Hne. revert roots keys pbs K1 K2 Hp H.
      induction txns as [|t txns IH]; intros [|r roots] [|k keys] pbs K1 K2 Hp H; try discriminate; [intros []; discriminate|].
      cbn [combine] in Hp. inversion Hp as [|? pub ? pbs' Hp1 Hp2]; subst. cbn [map combine forallb] in H. apply andb_true_iff in H. destruct H as [H1 H2].
      cbn [fst snd] in Hp1. intros [|i] t' k' r'; cbn [nth_error].
      + intros [= <-] [= <-] [= <-]. exists pub. auto.
      + apply (IH roots keys pbs'); auto.
    - intros (K1 & K2 & H). rewrite K1, K2, Nat.eqb_refl. cbn [negb orb fail_if bind].
      assert (HP : exists pbs, mapM (fun tr => batch_public_input (fst tr) (snd tr) ts) (combine txns roots) = Ok pbs /\
        length pbs = length txns /\
        forallb (fun x => let '(vk, pub, prf, msg) := x in snark_verify vk pub prf msg)
          (combine (combine (combine (map get_key_ref keys) pbs) (map tx_proof txns)) (map batch_message txns)) = true).
      { clear Hne. revert roots keys K1 K2 H. induction txns as [|t txns IH]; intros [|r roots] [|k keys] K1 K2 H; try discriminate.
        - exists []. auto.
        - destruct (H 0%nat t k r eq_refl eq_refl eq_refl) as (pub & P1 & P2).
          destruct (IH roots keys) as (pbs & Q1 & Q2 & Q3); [cbn in K1; lia|cbn in K2; lia|intros i; apply (H (Datatypes.S i))|].
          exists (pub :: pbs). cbn [combine mapM fst snd]. rewrite P1. cbn [bind]. rewrite Q1. cbn [bind map combine forallb length].
          rewrite P2, Q3, Q2. auto. }
      destruct HP as (pbs & P1 & P2 & P3). rewrite P1. cbn [bind]. rewrite (batch_all _ SL), P3; [reflexivity|].
      destruct txns, keys, pbs; try discriminate. contradiction.
  Qed.

  (** for one note with a key of its kind *)
  Lemma batch_ok_iff t k root ts : same_kind t k ->
    (tx_verify t k root ts = Ok tt <->
     batch_ok t k root ts /\ match t with TxMint n => code (mn_def n) = new_domestic_from_internal (mn_internal n) | _ => True end).
  Proof.
    unfold batch_ok, batch_message. destruct t as [n|n|n], k as [k|k|k]; cbn [same_kind]; try tauto; intros _; cbn [tx_verify batch_public_input get_key_ref tx_proof batch_message tx_memo_vk].
    - rewrite transfer_verify_iff. split.
      + intros (-> & Ht & H). split; auto. exists (transfer_to_scalars (transfer_note_public n)). split; auto.
        apply bind_ok. exists (transfer_note_public n). split; auto. apply transfer_check_instance_iff; auto.
      + intros ((pub & H1 & H2) & _). bindH H1 p Hp. injection H1 as <-. apply transfer_check_instance_iff in Hp. destruct Hp as (-> & Ht & ->). auto.
    - rewrite mint_verify_iff. split.
      + intros (-> & Hc & H). split; auto. exists (mint_to_scalars (mint_note_public n)). rewrite app_nil_r. split; auto.
        apply bind_ok. exists (mint_note_public n). split; auto. apply mint_check_instance_iff; auto.
      + intros ((pub & H1 & H2) & Hc). rewrite app_nil_r in H2. bindH H1 p Hp. injection H1 as <-. apply mint_check_instance_iff in Hp. destruct Hp as (-> & ->). auto.
    - rewrite freeze_verify_iff. split.
      + intros (-> & H). split; auto. exists (freeze_to_scalars (freeze_note_public n)). rewrite app_nil_r. split; auto.
        apply bind_ok. exists (freeze_note_public n). split; auto. apply freeze_check_instance_iff; auto.
      + intros ((pub & H1 & H2) & _). rewrite app_nil_r in H2. bindH H1 p Hp. injection H1 as <-. apply freeze_check_instance_iff in Hp. destruct Hp as (-> & ->). auto.
  Qed.

  (** notes, keys and roots in positions *)
  Lemma batch_individual txns roots ts keys : txns <> [] -> Forall2 same_kind txns keys ->
    ((length roots = length txns /\
      (forall i t k root, nth_error txns i = Some t -> nth_error keys i = Some k -> nth_error roots i = Some root -> tx_verify t k root ts = Ok tt))
     <-> txn_batch_verify txns roots ts keys = Ok tt /\
         (forall n, In (TxMint n) txns -> code (mn_def n) = new_domestic_from_internal (mn_internal n))).
  Proof.
    intros Hne HK. rewrite batch_iff by auto. pose proof (Forall2_len _ _ _ HK) as HL.
    assert (HKi : forall i t k, nth_error txns i = Some t -> nth_error keys i = Some k -> same_kind t k).
    { clear - HK. induction HK as [|t k txns keys H HK IH]; intros [|i]; cbn; try discriminate; intros t' k'; [intros [= <-] [= <-]; auto|apply IH]. }
    split.
    - intros [LR H]. split.
      + conjs; auto. intros i t k root H1 H2 H3. apply (batch_ok_iff t k root ts); eauto.
      + intros n Hn. apply In_nth_error in Hn. destruct Hn as (i & Hi).
        assert (Hlt : (i < length txns)%nat) by (apply nth_error_Some; congruence).
        destruct (nth_error keys i) as [k|] eqn:Ek; [|apply nth_error_None in Ek; lia].
        destruct (nth_error roots i) as [rt|] eqn:Er; [|apply nth_error_None in Er; lia].
        pose proof (H _ _ _ _ Hi Ek Er) as HV. apply batch_ok_iff in HV; eauto. apply HV.
    - intros ((LK & LR & H) & Hm). split; auto. intros i t k root H1 H2 H3. apply batch_ok_iff; eauto. split; eauto.
      destruct t; auto. apply Hm. eapply nth_error_In; eauto.
  Qed.
End Batch.

(** ** Receiver memo signatures *)
Section MemoSigs.
  Context {C : CapConfig} {S : Snark C} {E : MemoSer C} (L : CapLaws C) (EL : MemoSerLaws E).

  Lemma memos_bytes_concat l : memos_bytes l = concat (map memo_ser l).
  Proof.
    unfold memos_bytes. assert (H : forall l acc, fold_left (fun acc m => acc ++ memo_ser m) l acc = acc ++ concat (map memo_ser l)).
    { clear l. induction l as [|m l IH]; intros acc; cbn; [rewrite app_nil_r; auto|]. rewrite IH, <- app_assoc. reflexivity. }
    rewrite H. reflexivity.
  Qed.
  Lemma memos_bytes_inj l : forall l', memos_bytes l = memos_bytes l' -> l = l'.
  Proof.
    rewrite memos_bytes_concat. induction l as [|m l IH]; intros [|m' l']; rewrite memos_bytes_concat; cbn [map concat]; intros H; auto.
    - symmetry in H. apply app_eq_nil in H. destruct H as [H _]. destruct (memo_ser_nonempty _ EL _ H).
    - apply app_eq_nil in H. destruct H as [H _]. destruct (memo_ser_nonempty _ EL _ H).
    - apply (memo_ser_prefix_free _ EL) in H. destruct H as [-> H]. f_equal. apply IH. rewrite memos_bytes_concat. exact H.
  Qed.
  Lemma memo_signature_spec :
    (forall sk l, l <> [] -> exists sg, sign_receiver_memos sk l = Ok sg /\
       forall t, tx_memo_vk t = ver_key sk -> verify_receiver_memos_signature t l sg = Ok tt) /\
    (forall sk, sign_receiver_memos sk [] = Err InternalError) /\
    (forall t sg, verify_receiver_memos_signature t [] sg = Err InternalError) /\
    (forall t l sg, l <> [] ->
       (verify_receiver_memos_signature t l sg = Ok tt <-> sig_ok (tx_memo_vk t) [hash_to_f (memos_bytes l)] sg = true)) /\
    (** a signature on one list that verifies on another: a hash collision or a signature valid on two messages *)
    (forall t l l' sg, l <> l' -> verify_receiver_memos_signature t l sg = Ok tt -> verify_receiver_memos_signature t l' sg = Ok tt ->
       memos_bytes l <> memos_bytes l' /\
       ((hash_to_f (memos_bytes l) = hash_to_f (memos_bytes l')) \/
        ([hash_to_f (memos_bytes l)] <> [hash_to_f (memos_bytes l')] /\ sig_ok (tx_memo_vk t) [hash_to_f (memos_bytes l)] sg = true /\
         sig_ok (tx_memo_vk t) [hash_to_f (memos_bytes l')] sg = true))).
  Proof.
    assert (HV : forall t l sg, l <> [] ->
       (verify_receiver_memos_signature t l sg = Ok tt <-> sig_ok (tx_memo_vk t) [hash_to_f (memos_bytes l)] sg = true)).
    { intros t l sg Hl. unfold verify_receiver_memos_signature, get_receiver_memos_digest. destruct l; [contradiction|]. cbn [length Nat.eqb fail_if bind].
      destruct (sig_ok _ _ _); cbn; split; congruence. }
    conjs; auto.
    - intros sk l Hl. exists (sig_sign sk [hash_to_f (memos_bytes l)]). split; [destruct l; [contradiction|reflexivity]|].
      intros t Ht. apply HV; auto. rewrite Ht. apply (sig_correct L).
    - intros t l l' sg Hne H1 H2.
      assert (N1 : l <> []) by (intros ->; discriminate H1). assert (N2 : l' <> []) by (intros ->; discriminate H2).
      apply HV in H1; auto. apply HV in H2; auto.
      split; [intros Hb; apply Hne, memos_bytes_inj, Hb|].
      destruct (zmod_eq_dec (hash_to_f (memos_bytes l)) (hash_to_f (memos_bytes l'))) as [Eh|Eh]; [left; exact Eh|].
      right. conjs; auto. congruence.
  Qed.
End MemoSigs.

(** ** Fee records *)
Section FeeRecords.
  Context {C : CapConfig}.
  Lemma fee_records_spec :
    (forall collectors fees blinds rcs, derive_txns_fee_records collectors fees blinds = Ok rcs ->
       fees <> [] /\ length collectors = length fees /\ length blinds = length fees /\ length rcs = length fees /\
       forall i f o b, nth_error fees i = Some f -> nth_error collectors i = Some o -> nth_error blinds i = Some b ->
         nth_error rcs i = Some (derive_record_commitment (mkRO f asset_def_native o Unfrozen b))) /\
    (forall collectors fees blinds, fees <> [] -> length collectors = length fees -> length blinds = length fees ->
       exists rcs, derive_txns_fee_records collectors fees blinds = Ok rcs) /\
    (forall collectors fees blinds, fees = [] \/ length collectors <> length fees \/ length blinds <> length fees ->
       derive_txns_fee_records collectors fees blinds = Err InvalidParameter).
  Proof.
    assert (HL : forall collectors (fees : list Amount) (blinds : list F), fees <> [] -> length collectors = length fees -> length blinds = length fees ->
       derive_txns_fee_records collectors fees blinds = Ok (map (fun x => derive_record_commitment (mkRO (fst x) asset_def_native (fst (snd x)) Unfrozen (snd (snd x))))
            (combine fees (combine collectors blinds)))).
    { intros cs fs bs H1 H2 H3. unfold derive_txns_fee_records. rewrite H2, H3, Nat.eqb_refl. destruct fs; [contradiction|]. reflexivity. }
    assert (HE : forall collectors (fees : list Amount) (blinds : list F), fees = [] \/ length collectors <> length fees \/ length blinds <> length fees ->
       derive_txns_fee_records collectors fees blinds = Err InvalidParameter).
    { intros cs fs bs H. unfold derive_txns_fee_records. destruct fs as [|f fs]; [reflexivity|].
      change ((length (f :: fs) =? 0)%nat) with false. cbn [fail_if bind].
      destruct H as [H|H]; [discriminate|].
      destruct (Nat.eqb_spec (length (f :: fs)) (length cs)) as [E1|E1]; cbn [negb orb]; [|reflexivity].
      destruct (Nat.eqb_spec (length (f :: fs)) (length bs)) as [E2|E2]; cbn [negb]; [|reflexivity]. destruct H; congruence. }
    conjs; auto.
    - intros cs fs bs rcs H.
      assert (H0 : fs <> [] /\ length cs = length fs /\ length bs = length fs).
      { destruct fs as [|f fs]; [discriminate|]. destruct (Nat.eq_dec (length cs) (length (f :: fs))) as [E1|E1].
        - destruct (Nat.eq_dec (length bs) (length (f :: fs))) as [E2|E2]; [conjs; auto; discriminate|rewrite HE in H by auto; discriminate].
        - rewrite HE in H by auto; discriminate. }
      destruct H0 as (H1 & H2 & H3). rewrite HL in H by auto. injection H as <-. conjs; auto.
      + rewrite map_length, !combine_length. lia.
      + clear H1. revert cs bs H2 H3. induction fs as [|f fs IH]; intros [|c cs] [|b bs] H2 H3; try discriminate; intros [|i]; cbn [nth_error]; try discriminate.
        * intros f' c' b' [= <-] [= <-] [= <-]. reflexivity.
        * intros f' c' b'. apply IH; auto.
    - eauto.
  Qed.
End FeeRecords.
