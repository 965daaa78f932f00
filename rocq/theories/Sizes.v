(** Proofs of C85: sizes. *)
From Verif Require Import Base Config Structs Keys Utils Memo Plonk Witness Circuits Snark Notes Serde CodecProofs MemoProofs NoteProofs NoteGen NoteGen2 Accepted SizesSpec.

Lemma vec_len {A} (c : Codec A) k l : (forall x, length (enc c x) = k) -> length (enc (c_vec c) l) = (8 + k * length l)%nat.
Proof.
  intros H. cbn [enc c_vec]. rewrite app_length, le_bytes_length. f_equal. induction l as [|x l IH]; cbn [flat_map length]; [lia|].
  rewrite app_length, H, IH. lia.
Qed.

Section Sizes.
  Context {C : CapConfig} {S : Snark C} {Z0 : Ser C S} (L : CapLaws C) (pt ek pf : nat) (FX : Fixed Z0 pt ek pf).
  Lemma f_len x : length (enc c_f x) = 32%nat. Proof. apply le_bytes_length. Qed.
  Lemma u8_len x : length (enc c_u8 x) = 1%nat. Proof. apply le_bytes_length. Qed.
  Lemma amount_len x : length (enc c_amount x) = 16%nat. Proof. apply le_bytes_length. Qed.
  Lemma rm_len x : length (enc c_rm x) = 20%nat.
  Proof. cbn [enc c_rm]. unfold rm_serialize. rewrite app_length, map_length, le_bytes_length. destruct x as [l Hl]. pose proof (proj1 (Nat.eqb_eq _ _) Hl) as E. cbn [Structs.rm]. rewrite E. reflexivity. Qed.
  Lemma def_len d : length (enc c_def d) = (32 + 3 * pt + 20 + 16)%nat.
  Proof. cbn [enc c_def c_policy c_iso c_pair fst snd]. rewrite !app_length, f_len, rm_len, amount_len, !(fixed_point _ _ _ FX). lia. Qed.
  Lemma memo_len m : length (enc c_memo m) = (pt + 8 + 32 * length (vm_data m))%nat.
  Proof. cbn [enc c_memo c_iso c_pair fst snd]. rewrite app_length, (fixed_point _ _ _ FX), (vec_len _ 32) by exact f_len. lia. Qed.
  Theorem opening_len r : length (enc c_ro r) = opening_size pt ek.
  Proof.
    unfold opening_size. cbn [enc c_ro c_userpk c_iso c_pair fst snd]. rewrite !app_length, def_len, amount_len, f_len, (fixed_point _ _ _ FX), (fixed_enckey _ _ _ FX).
    change (length (enc c_flag (freeze_flag r))) with 1%nat. lia.
  Qed.
  (** the sizes of notes by the lengths of their lists *)
  Lemma tx_transfer_len n : length (tx_serialize (TxTransfer n)) =
    (1 + (8 + 32 * length (tn_nullifiers n)) + (8 + 32 * length (tn_commitments n)) + length (enc c_proof (tn_proof n)) +
     (pt + 8 + 32 * length (vm_data (tn_memo n))) + (32 + 16 + 8 + pt + 8 + length (ta_extra (tn_aux n))))%nat.
  Proof.
    cbn [tx_serialize enc c_transfer_note c_transfer_aux c_iso c_pair fst snd length].
    rewrite !app_length, !(vec_len _ 32), memo_len by exact f_len. rewrite (vec_len c_u8 1), f_len, amount_len, (fixed_point _ _ _ FX) by exact u8_len.
    replace (length (enc c_u64 (ta_valid_until (tn_aux n)))) with 8%nat by (symmetry; apply le_bytes_length). unfold Nullifier, RecordCommitment, bytes in *. lia.
  Qed.
  Lemma tx_mint_len n : length (tx_serialize (TxMint n)) =
    (1 + 3 * 32 + 16 + (32 + 3 * pt + 20 + 16) + 32 + length (enc c_proof (mn_proof n)) + (pt + 8 + 32 * length (vm_data (mn_memo n))) + (32 + 16 + pt))%nat.
  Proof.
    cbn [tx_serialize enc c_mint_note c_mint_aux c_iso c_pair fst snd length].
    rewrite !app_length, memo_len, def_len, !f_len, !amount_len, !(fixed_point _ _ _ FX). lia.
  Qed.
  Lemma tx_freeze_len n : length (tx_serialize (TxFreeze n)) =
    (1 + (8 + 32 * length (fn_nullifiers n)) + (8 + 32 * length (fn_commitments n)) + length (enc c_proof (fn_proof n)) + (32 + 16 + pt))%nat.
  Proof.
    cbn [tx_serialize enc c_freeze_note c_freeze_aux c_iso c_pair fst snd length].
    rewrite !app_length, !(vec_len _ 32), f_len, amount_len, (fixed_point _ _ _ FX) by exact f_len. unfold Nullifier, RecordCommitment in *. lia.
  Qed.

  (** ** Generated notes *)
  Theorem transfer_len r inputs outputs pk vu extra n sk : transfer_generate r inputs outputs pk vu extra = Ok (n, sk) ->
    length (tx_serialize (TxTransfer n)) = transfer_size pt pf (length inputs) (length outputs) (length extra).
  Proof.
    intros H. destruct (transfer_generate_inv L _ _ _ _ _ _ _ _ H) as (w & p & s & G).
    destruct (new_unchecked_inv L _ _ _ _ (tg_witness _ _ _ _ _ _ _ _ _ _ _ G)) as (_ & _ & _ & Wi). apply Forall2_len in Wi.
    pose proof (tg_memo _ _ _ _ _ _ _ _ _ _ _ G) as HM. apply (memo_length L) in HM; [|rewrite !map_length; symmetry; exact Wi]. rewrite map_length in HM.
    pose proof (tg_aux _ _ _ _ _ _ _ _ _ _ _ G) as (_ & _ & HE).
    rewrite tx_transfer_len, HM, HE, (fixed_proof _ _ _ FX _ _ _ _ _ (tg_prove _ _ _ _ _ _ _ _ _ _ _ G)).
    rewrite (tg_nullifiers _ _ _ _ _ _ _ _ _ _ _ G), (tg_commitments _ _ _ _ _ _ _ _ _ _ _ G), !map_length. reflexivity.
  Qed.
  Theorem mint_len r mint_ro seed description fee pk n sk : mint_generate r mint_ro seed description fee pk = Ok (n, sk) ->
    length (tx_serialize (TxMint n)) = mint_size pt pf.
  Proof.
    intros H. destruct (mint_generate_inv L _ _ _ _ _ _ _ _ H) as (p & s & G).
    rewrite tx_mint_len, (fixed_proof _ _ _ FX _ _ _ _ _ (mg_prove _ _ _ _ _ _ _ _ _ _ G)), (mg_memo _ _ _ _ _ _ _ _ _ _ G).
    assert (E : length (vm_data (memo_for_mint_note mint_ro (mrd_enc r))) = 3%nat); [|rewrite E; reflexivity].
    unfold memo_for_mint_note. destruct (point_eqb _ _); reflexivity.
  Qed.
  Theorem freeze_len r inputs fee pk n sk outs : freeze_generate r inputs fee pk = Ok (n, sk, outs) ->
    length (tx_serialize (TxFreeze n)) = freeze_size pt pf (1 + length inputs).
  Proof.
    intros H. destruct (freeze_generate_inv L _ _ _ _ _ _ _ H) as (p & s & G).
    rewrite tx_freeze_len, (fixed_proof _ _ _ FX _ _ _ _ _ (fg_prove _ _ _ _ _ _ _ _ _ G)).
    rewrite (fg_nullifiers _ _ _ _ _ _ _ _ _ G), (fg_commitments _ _ _ _ _ _ _ _ _ G), (fg_outs _ _ _ _ _ _ _ _ _ G). cbn [length]. rewrite !map_length.
    assert (E : length (freeze_get_output_ros (frd_blinds r) inputs) = length inputs); [|rewrite E; unfold freeze_size; lia].
    unfold freeze_get_output_ros. rewrite map_length, ?combine_length, ?seq_length. lia.
  Qed.

  (** ** Accepted notes, however they were made *)
  Context (SL : SnarkLaws S).
  Theorem transfer_accepted_len n_in n_out d n root ts : transfer_accepted n_in n_out d n root ts ->
    length (enc c_proof (tn_proof n)) = pf -> length (tx_serialize (TxTransfer n)) = transfer_size pt pf n_in n_out (length (ta_extra (tn_aux n))).
  Proof.
    intros H HP. destruct (transfer_accepted_opens L SL _ _ _ _ _ _ H) as (_ & _ & HM & _). destruct H as (_ & _ & _ & _ & _ & L1 & L2).
    rewrite tx_transfer_len, HM, HP, L1, L2. reflexivity.
  Qed.
  Theorem mint_accepted_len d n root : mint_accepted d n root -> length (enc c_proof (mn_proof n)) = pf ->
    length (tx_serialize (TxMint n)) = mint_size pt pf.
  Proof. intros H HP. destruct (mint_accepted_opens SL _ _ _ H) as (_ & _ & HM & _). rewrite tx_mint_len, HM, HP. reflexivity. Qed.
  Theorem freeze_accepted_len num d n root : freeze_accepted num d n root -> length (enc c_proof (fn_proof n)) = pf ->
    length (tx_serialize (TxFreeze n)) = freeze_size pt pf num.
  Proof.
    intros H HP. destruct (freeze_accepted_opens SL _ _ _ _ H) as (_ & HM & _). destruct H as (_ & _ & _ & _ & _ & _ & L1).
    rewrite tx_freeze_len, HM, HP, L1. unfold freeze_size. lia.
  Qed.
End Sizes.
