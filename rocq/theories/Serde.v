(** Model of the [CanonicalSerialize]/[CanonicalDeserialize] encodings of records, credentials, notes and verifying keys:
    the hand-written ones of src/structs.rs (amounts, reveal maps, freeze flags) and of src/lib.rs (transaction notes and
    verifying keys, one tag byte) and the derived ones (fields in declaration order).

    External and kept abstract (fields of the class [Ser]): the encodings of curve points, of public encryption keys, of
    proofs and of the proof system's verifying keys.  The encodings of machine integers, field elements and vectors are
    those of ark-serialize: fixed-width little endian, values at or above the modulus refused; a vector is its
    length as a u64 followed by its elements. *)
From Verif Require Import Base Config Structs Keys Utils Memo Plonk Witness Circuits Snark Notes.

(** [CanonicalSerialize]: [serialize], [serialized_size]; [CanonicalDeserialize]: [deserialize], which also returns the
    unread rest *)
Record Codec (A : Type) := mkCodec { enc : A -> bytes; size : A -> nat; dec : bytes -> res (A * bytes) }.
Arguments mkCodec {A}. Arguments enc {A}. Arguments size {A}. Arguments dec {A}.

(** ** Combinators *)
(** little-endian integer below [m] on [n] bytes: u8, u64, field elements *)
Definition c_int (n : nat) (m : Z) (mk : Z -> zmod m) : Codec (zmod m) :=
  mkCodec (fun x => le_bytes n (zv x)) (fun _ => n)
    (fun s => let* (b, r) := read_exact n s in
              if from_le b <? m then Ok (mk (from_le b), r) else Err SerInvalidData).
Definition c_pair {A B} (a : Codec A) (b : Codec B) : Codec (A * B) :=
  mkCodec (fun x => enc a (fst x) ++ enc b (snd x)) (fun x => (size a (fst x) + size b (snd x))%nat)
    (fun s => let* (x, r) := dec a s in let* (y, r') := dec b r in Ok ((x, y), r')).
(** a struct, as the tuple of its fields *)
Definition c_iso {A B} (f : A -> B) (g : B -> A) (b : Codec B) : Codec A :=
  mkCodec (fun x => enc b (f x)) (fun x => size b (f x)) (fun s => let* (y, r) := dec b s in Ok (g y, r)).
(** [usize]: 8 bytes *)
Definition c_usize : Codec nat :=
  mkCodec (fun n => le_bytes 8 (Z.of_nat n)) (fun _ => 8%nat)
    (fun s => let* (b, r) := read_exact 8 s in Ok (Z.to_nat (from_le b), r)).
(** [u8] fields read into a number (tree depths) *)
Definition c_depth : Codec nat :=
  mkCodec (fun n => le_bytes 1 (Z.of_nat n)) (fun _ => 1%nat)
    (fun s => let* (b, r) := read_exact 1 s in Ok (Z.to_nat (from_le b), r)).
Fixpoint dec_many {A} (a : Codec A) (n : nat) (s : bytes) : res (list A * bytes) :=
  match n with
  | O => Ok ([], s)
  | S n' => let* (x, r) := dec a s in let* (l, r') := dec_many a n' r in Ok (x :: l, r')
  end.
Definition c_vec {A} (a : Codec A) : Codec (list A) :=
  mkCodec (fun l => le_bytes 8 (Z.of_nat (length l)) ++ flat_map (enc a) l)
    (fun l => (8 + fold_right (fun x n => (size a x + n)%nat) 0%nat l)%nat)
    (fun s => let* (b, r) := read_exact 8 s in dec_many a (Z.to_nat (from_le b)) r).

(** ** Laws *)
(** [x] is read back from its encoding followed by anything, and [serialized_size] is the length of the encoding *)
Definition reads_back {A} (c : Codec A) (x : A) : Prop :=
  (forall s, dec c (enc c x ++ s) = Ok (x, s)) /\ length (enc c x) = size c x.

Lemma c_int_ok n m mk (x : zmod m) : (forall z, 0 <= z < m -> zv (mk z) = z) -> m <= 256 ^ Z.of_nat n -> reads_back (c_int n m mk) x.
Proof.
  intros Hm Hb. pose proof (zv_range x) as R. split; [|apply le_bytes_length]. intros s. cbn [enc dec c_int].
  rewrite (read_exact_app_n n) by apply le_bytes_length. cbn [bind]. rewrite from_le_le_bytes, Z.mod_small by lia.
  destruct (Z.ltb_spec (zv x) m); [|lia]. do 2 f_equal. apply zmod_ext. rewrite Hm; lia.
Qed.
Lemma c_pair_ok {A B} (a : Codec A) (b : Codec B) x y : reads_back a x -> reads_back b y -> reads_back (c_pair a b) (x, y).
Proof.
  intros [H1 H2] [H3 H4]. split.
  - intros s. cbn [enc dec c_pair fst snd]. rewrite <- app_assoc, H1. cbn [bind]. rewrite H3. reflexivity.
  - cbn [enc size c_pair fst snd]. rewrite app_length, H2, H4. reflexivity.
Qed.
Lemma c_iso_ok {A B} (f : A -> B) g (b : Codec B) x : g (f x) = x -> reads_back b (f x) -> reads_back (c_iso f g b) x.
Proof.
  intros Hg [H1 H2]. split; [|exact H2]. intros s. cbn [enc dec c_iso]. rewrite H1. cbn [bind]. rewrite Hg. reflexivity.
Qed.
Lemma c_usize_ok n : Z.of_nat n < 2 ^ 64 -> reads_back c_usize n.
Proof.
  intros H. split; [|apply le_bytes_length]. intros s. cbn [enc dec c_usize]. rewrite (read_exact_app_n 8) by apply le_bytes_length. cbn [bind].
  rewrite from_le_le_bytes. change (256 ^ Z.of_nat 8) with (2 ^ 64). rewrite Z.mod_small, Nat2Z.id by lia. reflexivity.
Qed.
Lemma c_depth_ok n : Z.of_nat n < 256 -> reads_back c_depth n.
Proof.
  intros H. split; [|apply le_bytes_length]. intros s. cbn [enc dec c_depth]. rewrite (read_exact_app_n 1) by apply le_bytes_length. cbn [bind].
  rewrite from_le_le_bytes. change (256 ^ Z.of_nat 1) with 256. rewrite Z.mod_small, Nat2Z.id by lia. reflexivity.
Qed.
Lemma dec_many_ok {A} (a : Codec A) l : Forall (reads_back a) l -> forall s, dec_many a (length l) (flat_map (enc a) l ++ s) = Ok (l, s).
Proof.
  intros H. induction H as [|x l [Hx _] H IH]; intros s; [reflexivity|]. cbn [length flat_map dec_many].
  rewrite <- app_assoc, Hx. cbn [bind]. rewrite IH. reflexivity.
Qed.
Lemma c_vec_ok {A} (a : Codec A) l : Forall (reads_back a) l -> Z.of_nat (length l) < 2 ^ 64 -> reads_back (c_vec a) l.
Proof.
  intros H Hl. split.
  - intros s. cbn [enc dec c_vec]. rewrite <- app_assoc, (read_exact_app_n 8) by apply le_bytes_length. cbn [bind].
    rewrite from_le_le_bytes. change (256 ^ Z.of_nat 8) with (2 ^ 64). rewrite Z.mod_small, Nat2Z.id by lia. apply dec_many_ok, H.
  - cbn [enc size c_vec]. rewrite app_length, le_bytes_length. f_equal. clear Hl. induction H as [|x l [_ Hx] H IH]; [reflexivity|].
    cbn [flat_map fold_right]. rewrite app_length, Hx, IH. reflexivity.
Qed.
(** two values with the same encoding, even followed by other bytes, are equal *)
Lemma enc_determines {A} (c : Codec A) x y s t : reads_back c x -> reads_back c y -> enc c x ++ s = enc c y ++ t -> x = y /\ s = t.
Proof. intros [H _] [K _] E. pose proof (H s) as H1. rewrite E, K in H1. injection H1 as -> ->. auto. Qed.

(** ** The external encodings *)
Class Ser {C : CapConfig} {S : Snark C} := {
  c_point : Codec point;              (* compressed affine point *)
  c_enckey : Codec enc_key;           (* aead::EncKey *)
  c_proof : Codec proof;              (* jf_plonk Proof *)
  c_vkey : Codec vkey                 (* jf_plonk VerifyingKey *)
}.
Arguments Ser C S : clear implicits.
Record SerLaws {C : CapConfig} {S : Snark C} (Z : Ser C S) : Prop := {
  point_reads_back : forall x, reads_back c_point x;
  enckey_reads_back : forall x, reads_back c_enckey x;
  proof_reads_back : forall x, reads_back c_proof x;
  vkey_reads_back : forall x, reads_back c_vkey x
}.
Arguments SerLaws {C S} Z.

Section Serde.
  Context {C : CapConfig} {S : Snark C} {Z0 : Ser C S}.

  (** field elements of the circuit field and of the embedded scalar field: 32 bytes.  Newtypes ([Nullifier],
      [RecordCommitment], [AssetCode], [BlindFactor], [IdentityAttribute], ...; structs.rs 60-110, 222-235, 786-850,
      1059-1090) are encoded as their content. *)
  Definition c_f : Codec F := c_int 32 modulus fz.
  Definition c_fj : Codec Fj := c_int 32 sub_order sz.
  Definition c_u64 : Codec u64 := c_int 8 u64_mod w64.
  Definition c_u8 : Codec byte := c_int 1 256 b8.
  (** structs.rs 174-194, 331-372, 915-942 *)
  Definition c_amount : Codec Amount := mkCodec amount_serialize (fun _ => 16%nat) amount_deserialize.
  Definition c_rm : Codec RevealMap := mkCodec rm_serialize (fun _ => 20%nat) rm_deserialize.
  Definition c_flag : Codec FreezeFlag := mkCodec flag_serialize (fun _ => 1%nat) flag_deserialize.
  (** structs.rs 491-507 *)
  Definition c_policy : Codec AssetPolicy :=
    c_iso (fun p => (viewer_pk p, (cred_pk p, (freezer_pk p, (reveal_map p, reveal_threshold p)))))
          (fun x => let '(a, (b, (c, (d, e)))) := x in mkPolicy a b c d e)
          (c_pair c_point (c_pair c_point (c_pair c_point (c_pair c_rm c_amount)))).
  (** structs.rs 722-737 *)
  Definition c_def : Codec AssetDefinition :=
    c_iso (fun d => (code d, policy d)) (fun x => mkDef (fst x) (snd x)) (c_pair c_f c_policy).
  (** keys.rs 83-96 *)
  Definition c_userpk : Codec UserPubKey :=
    c_iso (fun k => (address k, uenc_key k)) (fun x => mkUserPubKey (fst x) (snd x)) (c_pair c_point c_enckey).
  (** structs.rs 945-967 *)
  Definition c_ro : Codec RecordOpening :=
    c_iso (fun r => (amount r, (asset_def r, (pub_key r, (freeze_flag r, blind r)))))
          (fun x => let '(a, (b, (c, (d, e)))) := x in mkRO a b c d e)
          (c_pair c_amount (c_pair c_def (c_pair c_userpk (c_pair c_flag c_f)))).
  (** structs.rs 1059-1067 (a signature: scalar, point), 1151-1167 *)
  Definition c_sig : Codec (Fj * point) := c_pair c_fj c_point.
  Definition c_cred : Codec ExpirableCredential :=
    c_iso (fun c => (cr_user_addr c, (cr_attrs c, (cr_expiry c, (cr_cred c, cr_creator_pk c)))))
          (fun x => let '(a, (b, (c, (d, e)))) := x in mkCred a b c d e)
          (c_pair c_point (c_pair (c_vec c_f) (c_pair c_u64 (c_pair c_sig c_point)))).
  (** structs.rs 1259-1268: an ElGamal ciphertext, ephemeral key and data *)
  Definition c_memo : Codec ViewableMemo :=
    c_iso (fun m => (vm_ephemeral m, vm_data m)) (fun x => mkMemo (fst x) (snd x)) (c_pair c_point (c_vec c_f)).

  (** transfer.rs 78-91, 54-66 *)
  Definition c_transfer_aux : Codec TransferAux :=
    c_iso (fun a => (ta_root a, (ta_fee a, (ta_valid_until a, (ta_memo_vk a, ta_extra a)))))
          (fun x => let '(a, (b, (c, (d, e)))) := x in mkTAux a b c d e)
          (c_pair c_f (c_pair c_amount (c_pair c_u64 (c_pair c_point (c_vec c_u8))))).
  Definition c_transfer_note : Codec TransferNote :=
    c_iso (fun n => (tn_nullifiers n, (tn_commitments n, (tn_proof n, (tn_memo n, tn_aux n)))))
          (fun x => let '(a, (b, (c, (d, e)))) := x in mkTNote a b c d e)
          (c_pair (c_vec c_f) (c_pair (c_vec c_f) (c_pair c_proof (c_pair c_memo c_transfer_aux)))).
  (** mint.rs 71-79, 41-60 *)
  Definition c_mint_aux : Codec MintAux :=
    c_iso (fun a => (ma_root a, (ma_fee a, ma_memo_vk a))) (fun x => let '(a, (b, c)) := x in mkMAux a b c)
          (c_pair c_f (c_pair c_amount c_point)).
  Definition c_mint_note : Codec MintNote :=
    c_iso (fun n => (mn_nullifier n, (mn_chg n, (mn_mint n, (mn_amount n, (mn_def n, (mn_internal n, (mn_proof n, (mn_memo n, mn_aux n)))))))))
          (fun x => let '(a, (b, (c, (d, (e, (f, (g, (h, i)))))))) := x in mkMNote a b c d e f g h i)
          (c_pair c_f (c_pair c_f (c_pair c_f (c_pair c_amount (c_pair c_def (c_pair c_f (c_pair c_proof (c_pair c_memo c_mint_aux)))))))).
  (** freeze.rs 61-69, 41-50 *)
  Definition c_freeze_aux : Codec FreezeAux :=
    c_iso (fun a => (fa_root a, (fa_fee a, fa_memo_vk a))) (fun x => let '(a, (b, c)) := x in mkFAux a b c)
          (c_pair c_f (c_pair c_amount c_point)).
  Definition c_freeze_note : Codec FreezeNote :=
    c_iso (fun n => (fn_nullifiers n, (fn_commitments n, (fn_proof n, fn_aux n))))
          (fun x => let '(a, (b, (c, d))) := x in mkFNote a b c d)
          (c_pair (c_vec c_f) (c_pair (c_vec c_f) (c_pair c_proof c_freeze_aux))).
  (** proof/transfer.rs 80-95, proof/mint.rs 57-63, proof/freeze.rs 70-78 *)
  Definition c_tvk : Codec TransferVerifyingKey :=
    c_iso (fun k => (tvk_key k, (tvk_n_in k, (tvk_n_out k, tvk_depth k)))) (fun x => let '(a, (b, (c, d))) := x in mkTVK a b c d)
          (c_pair c_vkey (c_pair c_usize (c_pair c_usize c_depth))).
  Definition c_mvk : Codec MintVerifyingKey :=
    c_iso (fun k => (mvk_key k, mvk_depth k)) (fun x => mkMVK (fst x) (snd x)) (c_pair c_vkey c_depth).
  Definition c_fvk : Codec FreezeVerifyingKey :=
    c_iso (fun k => (fvk_key k, (fvk_depth k, fvk_num_input k))) (fun x => let '(a, (b, c)) := x in mkFVK a b c)
          (c_pair c_vkey (c_pair c_depth c_usize)).

  (** lib.rs 216-265 *)
  Definition tx_serialize (t : TransactionNote) : bytes :=
    match t with
    | TxTransfer n => b8 0 :: enc c_transfer_note n
    | TxMint n => b8 1 :: enc c_mint_note n
    | TxFreeze n => b8 2 :: enc c_freeze_note n
    end.
  Definition tx_serialized_size (t : TransactionNote) : nat :=
    match t with
    | TxTransfer n => size c_transfer_note n + 1
    | TxMint n => size c_mint_note n + 1
    | TxFreeze n => size c_freeze_note n + 1
    end.
  Definition tx_deserialize (s : bytes) : res (TransactionNote * bytes) :=
    let* (flag, r) := read_exact 1 s in
    match flag with
    | [b] =>
        if zv b =? 0 then let* (n, r') := dec c_transfer_note r in Ok (TxTransfer n, r')
        else if zv b =? 1 then let* (n, r') := dec c_mint_note r in Ok (TxMint n, r')
        else if zv b =? 2 then let* (n, r') := dec c_freeze_note r in Ok (TxFreeze n, r')
        else Err SerInvalidData
    | _ => Panic (* unreachable *)
    end.
  Definition c_tx : Codec TransactionNote := mkCodec tx_serialize tx_serialized_size tx_deserialize.

  (** lib.rs 386-437 *)
  Definition vk_serialize (t : TransactionVerifyingKey) : bytes :=
    match t with
    | VkTransfer n => b8 0 :: enc c_tvk n
    | VkMint n => b8 1 :: enc c_mvk n
    | VkFreeze n => b8 2 :: enc c_fvk n
    end.
  Definition vk_serialized_size (t : TransactionVerifyingKey) : nat :=
    match t with
    | VkTransfer n => size c_tvk n + 1
    | VkMint n => size c_mvk n + 1
    | VkFreeze n => size c_fvk n + 1
    end.
  Definition vk_deserialize (s : bytes) : res (TransactionVerifyingKey * bytes) :=
    let* (flag, r) := read_exact 1 s in
    match flag with
    | [b] =>
        if zv b =? 0 then let* (n, r') := dec c_tvk r in Ok (VkTransfer n, r')
        else if zv b =? 1 then let* (n, r') := dec c_mvk r in Ok (VkMint n, r')
        else if zv b =? 2 then let* (n, r') := dec c_fvk r in Ok (VkFreeze n, r')
        else Err SerInvalidData
    | _ => Panic (* unreachable *)
    end.
  Definition c_txvk : Codec TransactionVerifyingKey := mkCodec vk_serialize vk_serialized_size vk_deserialize.

  (** lib.rs 267-276: what the note commitment hashes, after the external [RawCommitmentBuilder]'s domain separator *)
  Definition tx_commit_preimage (t : TransactionNote) : bytes := le_bytes 8 (Z.of_nat (length (tx_serialize t))) ++ tx_serialize t.
End Serde.
