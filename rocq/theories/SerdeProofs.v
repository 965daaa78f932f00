(** Proofs about the encodings of Serde.v. *)
From Verif Require Import Base Config Structs Keys Utils Memo Plonk Witness Circuits Snark Notes CodecProofs Serde.

Section SerdeProofs.
  Context {C : CapConfig} {S : Snark C} {Z0 : Ser C S} (L : SerLaws Z0).

  (** sizes a 64-bit machine can hold *)
  Definition len64 {A} (l : list A) : Prop := Z.of_nat (length l) < 2 ^ 64.
  Definition note_fits (t : TransactionNote) : Prop :=
    match t with
    | TxTransfer n => len64 (tn_nullifiers n) /\ len64 (tn_commitments n) /\ len64 (vm_data (tn_memo n)) /\ len64 (ta_extra (tn_aux n))
    | TxMint n => len64 (vm_data (mn_memo n))
    | TxFreeze n => len64 (fn_nullifiers n) /\ len64 (fn_commitments n)
    end.
  Definition key_fits (k : TransactionVerifyingKey) : Prop :=
    match k with
    | VkTransfer k => Z.of_nat (tvk_n_in k) < 2 ^ 64 /\ Z.of_nat (tvk_n_out k) < 2 ^ 64 /\ Z.of_nat (tvk_depth k) < 256
    | VkMint k => Z.of_nat (mvk_depth k) < 256
    | VkFreeze k => Z.of_nat (fvk_num_input k) < 2 ^ 64 /\ Z.of_nat (fvk_depth k) < 256
    end.

  Lemma f_ok x : reads_back c_f x.
  Proof. apply c_int_ok; [intros; apply fz_small; auto|]. pose proof modulus_ub. change (256 ^ Z.of_nat 32) with (2 ^ 256). lia. Qed.
  Lemma fj_ok x : reads_back c_fj x.
  Proof.
    apply c_int_ok; [intros; apply zred_small; auto|].
    pose proof modulus_ub. pose proof sub_order_ub. change (256 ^ Z.of_nat 32) with (2 ^ 256). lia.
  Qed.
  Lemma u64_ok x : reads_back c_u64 x.
  Proof. apply c_int_ok; [intros; apply zred_small; auto|]. apply Z.le_refl. Qed.
  Lemma u8_ok x : reads_back c_u8 x.
  Proof. apply c_int_ok; [intros; apply zred_small; auto|]. apply Z.le_refl. Qed.
  Lemma amount_ok x : reads_back c_amount x.
  Proof. destruct amount_codec as (H1 & H2 & _). split; [apply H2|apply H1]. Qed.
  Lemma rm_reads x : reads_back c_rm x.
  Proof. destruct rm_codec as (H1 & H2 & _). split; [apply H2|apply H1]. Qed.
  Lemma flag_ok x : reads_back c_flag x.
  Proof. destruct freeze_flag_codec as (_ & _ & H & _). split; [apply H|destruct x; reflexivity]. Qed.
  Lemma point_ok x : reads_back c_point x. Proof. apply (point_reads_back _ L). Qed.
  Lemma enckey_ok x : reads_back c_enckey x. Proof. apply (enckey_reads_back _ L). Qed.
  Lemma proof_ok x : reads_back c_proof x. Proof. apply (proof_reads_back _ L). Qed.
  Lemma vkey_ok x : reads_back c_vkey x. Proof. apply (vkey_reads_back _ L). Qed.
  Lemma fs_ok l : len64 l -> reads_back (c_vec c_f) l.
  Proof. intros H. apply c_vec_ok; [apply Forall_forall; intros; apply f_ok|exact H]. Qed.
  Lemma bytes_ok l : len64 l -> reads_back (c_vec c_u8) l.
  Proof. intros H. apply c_vec_ok; [apply Forall_forall; intros; apply u8_ok|exact H]. Qed.

  Ltac fields := repeat first [apply c_pair_ok|apply point_ok|apply enckey_ok|apply proof_ok|apply vkey_ok|apply rm_reads|apply amount_ok|
                               apply flag_ok|apply u64_ok|apply f_ok|apply fj_ok|apply fs_ok|apply bytes_ok|apply c_usize_ok|apply c_depth_ok].
  Lemma policy_ok x : reads_back c_policy x.
  Proof. apply c_iso_ok; [destruct x as [? ? ? ? ?]; reflexivity|]. fields. Qed.
  Lemma def_ok x : reads_back c_def x.
  Proof. apply c_iso_ok; [destruct x as [? ?]; reflexivity|]. fields. apply policy_ok. Qed.
  Lemma userpk_ok x : reads_back c_userpk x.
  Proof. apply c_iso_ok; [destruct x as [? ?]; reflexivity|]. fields. Qed.
  Lemma ro_ok x : reads_back c_ro x.
  Proof. apply c_iso_ok; [destruct x as [? ? ? ? ?]; reflexivity|]. fields; [apply def_ok|apply userpk_ok]. Qed.
  Lemma sig_reads x : reads_back c_sig x.
  Proof. destruct x. unfold c_sig. fields. Qed.
  Lemma cred_ok x : len64 (cr_attrs x) -> reads_back c_cred x.
  Proof. intros H. apply c_iso_ok; [destruct x as [? ? ? ? ?]; reflexivity|]. fields; auto. apply sig_reads. Qed.
  Lemma memo_ok x : len64 (vm_data x) -> reads_back c_memo x.
  Proof. intros H. apply c_iso_ok; [destruct x as [? ?]; reflexivity|]. fields; auto. Qed.
  Lemma taux_ok x : len64 (ta_extra x) -> reads_back c_transfer_aux x.
  Proof. intros H. apply c_iso_ok; [destruct x as [? ? ? ? ?]; reflexivity|]. fields; auto. Qed.
  Lemma maux_ok x : reads_back c_mint_aux x.
  Proof. apply c_iso_ok; [destruct x as [? ? ?]; reflexivity|]. fields; auto. Qed.
  Lemma faux_ok x : reads_back c_freeze_aux x.
  Proof. apply c_iso_ok; [destruct x as [? ? ?]; reflexivity|]. fields; auto. Qed.
  Lemma tnote_ok n : note_fits (TxTransfer n) -> reads_back c_transfer_note n.
  Proof. intros (H1 & H2 & H3 & H4). apply c_iso_ok; [destruct n as [? ? ? ? ?]; reflexivity|]. fields; auto; [apply memo_ok|apply taux_ok]; auto. Qed.
  Lemma mnote_ok n : note_fits (TxMint n) -> reads_back c_mint_note n.
  Proof.
    intros H1. apply c_iso_ok; [destruct n as [? ? ? ? ? ? ? ? ?]; reflexivity|].
    fields; auto; [apply def_ok|apply memo_ok; auto|apply maux_ok].
  Qed.
  Lemma fnote_ok n : note_fits (TxFreeze n) -> reads_back c_freeze_note n.
  Proof. intros (H1 & H2). apply c_iso_ok; [destruct n as [? ? ? ?]; reflexivity|]. fields; auto; apply faux_ok. Qed.

  Lemma tag_read (b : byte) s : read_exact 1 (b :: s) = Ok ([b], s).
  Proof. apply (read_exact_app_n 1 [b]). reflexivity. Qed.
  Lemma tx_ok t : note_fits t -> reads_back c_tx t.
  Proof.
    intros H. split.
    - intros s. cbn [enc dec c_tx]. unfold tx_deserialize.
      destruct t as [n|n|n]; cbn [tx_serialize]; rewrite <- app_comm_cons, tag_read; cbn [bind].
      + destruct (tnote_ok n H) as [K _]. change (zv (b8 0) =? 0) with true. cbv iota. rewrite K. reflexivity.
      + destruct (mnote_ok n H) as [K _]. change (zv (b8 1) =? 0) with false. change (zv (b8 1) =? 1) with true. cbv iota. rewrite K. reflexivity.
      + destruct (fnote_ok n H) as [K _]. change (zv (b8 2) =? 0) with false. change (zv (b8 2) =? 1) with false. change (zv (b8 2) =? 2) with true.
        cbv iota. rewrite K. reflexivity.
    - cbn [enc size c_tx]. destruct t as [n|n|n]; cbn [tx_serialize tx_serialized_size length].
      + destruct (tnote_ok n H) as [_ K]. rewrite K. lia.
      + destruct (mnote_ok n H) as [_ K]. rewrite K. lia.
      + destruct (fnote_ok n H) as [_ K]. rewrite K. lia.
  Qed.
  Lemma txvk_ok t : key_fits t -> reads_back c_txvk t.
  Proof.
    intros H.
    assert (H1 : forall k, key_fits (VkTransfer k) -> reads_back c_tvk k)
      by (intros k (K1 & K2 & K3); apply c_iso_ok; [destruct k as [? ? ? ?]; reflexivity|]; fields; auto).
    assert (H2 : forall k, key_fits (VkMint k) -> reads_back c_mvk k)
      by (intros k K1; apply c_iso_ok; [destruct k as [? ?]; reflexivity|]; fields; auto).
    assert (H3 : forall k, key_fits (VkFreeze k) -> reads_back c_fvk k)
      by (intros k (K1 & K2); apply c_iso_ok; [destruct k as [? ? ?]; reflexivity|]; fields; auto).
    split.
    - intros s. cbn [enc dec c_txvk]. unfold vk_deserialize.
      destruct t as [n|n|n]; cbn [vk_serialize]; rewrite <- app_comm_cons, tag_read; cbn [bind].
      + destruct (H1 n H) as [K _]. change (zv (b8 0) =? 0) with true. cbv iota. rewrite K. reflexivity.
      + destruct (H2 n H) as [K _]. change (zv (b8 1) =? 0) with false. change (zv (b8 1) =? 1) with true. cbv iota. rewrite K. reflexivity.
      + destruct (H3 n H) as [K _]. change (zv (b8 2) =? 0) with false. change (zv (b8 2) =? 1) with false. change (zv (b8 2) =? 2) with true.
        cbv iota. rewrite K. reflexivity.
    - cbn [enc size c_txvk]. destruct t as [n|n|n]; cbn [vk_serialize vk_serialized_size length].
      + destruct (H1 n H) as [_ K]. rewrite K. lia.
      + destruct (H2 n H) as [_ K]. rewrite K. lia.
      + destruct (H3 n H) as [_ K]. rewrite K. lia.
  Qed.

  Lemma tx_codec :
    (forall t s, note_fits t -> tx_deserialize (tx_serialize t ++ s) = Ok (t, s)) /\
    (forall t, note_fits t -> length (tx_serialize t) = tx_serialized_size t) /\
    (forall (b : byte) s, 2 < zv b -> tx_deserialize (b :: s) = Err SerInvalidData) /\
    tx_deserialize [] = Err SerIoError /\
    (forall t t', note_fits t -> note_fits t' -> tx_serialize t = tx_serialize t' -> t = t') /\
    (forall t t', note_fits t -> note_fits t' -> tx_commit_preimage t = tx_commit_preimage t' -> t = t').
  Proof.
    assert (I : forall t t', note_fits t -> note_fits t' -> tx_serialize t = tx_serialize t' -> t = t').
    { intros t t' H H' E. destruct (enc_determines c_tx t t' [] [] (tx_ok t H) (tx_ok t' H')); auto. cbn [enc c_tx]. rewrite E. reflexivity. }
    conjs.
    - intros t s H. apply (tx_ok t H).
    - intros t H. apply (tx_ok t H).
    - intros b s H. unfold tx_deserialize. rewrite tag_read. cbn [bind].
      destruct (Z.eqb_spec (zv b) 0); [lia|]. destruct (Z.eqb_spec (zv b) 1); [lia|]. destruct (Z.eqb_spec (zv b) 2); [lia|]. reflexivity.
    - reflexivity.
    - exact I.
    - intros t t' H H' E. apply I; auto. unfold tx_commit_preimage in E.
      apply (f_equal (skipn 8)) in E. rewrite !skipn_app, !skipn_all2 in E by (rewrite le_bytes_length; lia).
      rewrite !le_bytes_length in E. exact E.
  Qed.
  Lemma txvk_codec :
    (forall k s, key_fits k -> vk_deserialize (vk_serialize k ++ s) = Ok (k, s)) /\
    (forall k, key_fits k -> length (vk_serialize k) = vk_serialized_size k) /\
    (forall (b : byte) s, 2 < zv b -> vk_deserialize (b :: s) = Err SerInvalidData) /\
    vk_deserialize [] = Err SerIoError /\
    (forall k k', key_fits k -> key_fits k' -> vk_serialize k = vk_serialize k' -> k = k').
  Proof.
    conjs.
    - intros t s H. apply (txvk_ok t H).
    - intros t H. apply (txvk_ok t H).
    - intros b s H. unfold vk_deserialize. rewrite tag_read. cbn [bind].
      destruct (Z.eqb_spec (zv b) 0); [lia|]. destruct (Z.eqb_spec (zv b) 1); [lia|]. destruct (Z.eqb_spec (zv b) 2); [lia|]. reflexivity.
    - reflexivity.
    - intros t t' H H' E. destruct (enc_determines c_txvk t t' [] [] (txvk_ok t H) (txvk_ok t' H')); auto. cbn [enc c_txvk]. rewrite E. reflexivity.
  Qed.
  (** decoding of lists of records: the tail is left for the next value *)
  Lemma record_codec :
    (forall r s, dec c_ro (enc c_ro r ++ s) = Ok (r, s)) /\ (forall d s, dec c_def (enc c_def d ++ s) = Ok (d, s)) /\
    (forall k s, dec c_userpk (enc c_userpk k ++ s) = Ok (k, s)) /\
    (forall c s, Z.of_nat (length (cr_attrs c)) < 2 ^ 64 -> dec c_cred (enc c_cred c ++ s) = Ok (c, s)) /\
    (forall m s, Z.of_nat (length (vm_data m)) < 2 ^ 64 -> dec c_memo (enc c_memo m ++ s) = Ok (m, s)) /\
    (forall r, length (enc c_ro r) = size c_ro r) /\
    (forall r r', enc c_ro r = enc c_ro r' -> r = r').
  Proof.
    conjs.
    - intros r. apply (ro_ok r).
    - intros d. apply (def_ok d).
    - intros k. apply (userpk_ok k).
    - intros c s H. apply (cred_ok c H).
    - intros m s H. apply (memo_ok m H).
    - intros r. apply (ro_ok r).
    - intros r r' E. destruct (enc_determines c_ro r r' [] [] (ro_ok r) (ro_ok r')); auto. rewrite E. reflexivity.
  Qed.
End SerdeProofs.
