(** Property theorems: one encoding per value, text forms (C75, C76).

    [one_encoding_of c x] (CanonSpec.v): the only bytes that [c] reads as [x] are the encoding of [x].  [plain_tx t]: the
    curve points and the proof in [t], whose encodings are defined outside the repository, have that property.
    [text_of crc k v] (Text.v): the tag of kind [k], [~], and the bytes [v] with their checksum in base64. *)
From Coq Require Import String.
From Verif Require Import Base Config Structs Keys Utils Memo Plonk Snark Notes Serde CodecProofs SerdeProofs Ledger CanonSpec Canon Text TextProofs
  Toy ToySer.

(** ** C75: one encoding per value *)
(** bytes that are read as a transaction are that transaction's encoding, whoever produced them *)
Theorem C75_transaction (C : CapConfig) (S : Snark C) (Z0 : Ser C S) s t r :
  plain_tx t -> tx_deserialize s = Ok (t, r) -> s = tx_serialize t ++ r.
Proof. exact (fun P => c_tx_one t P s r). Qed.
Print Assumptions C75_transaction.
(** two messages that are the same transaction are the same message *)
Theorem C75_transactions_equal (C : CapConfig) (S : Snark C) (Z0 : Ser C S) s s' t :
  plain_tx t -> tx_deserialize s = Ok (t, []) -> tx_deserialize s' = Ok (t, []) -> s = s'.
Proof. intros P H H'. rewrite (c_tx_one t P s [] H), (c_tx_one t P s' [] H'). reflexivity. Qed.
Print Assumptions C75_transactions_equal.
(** and what is hashed as the transaction's commitment is the length of the message that was received, and the message *)
Theorem C75_commitment (C : CapConfig) (S : Snark C) (Z0 : Ser C S) s t :
  plain_tx t -> tx_deserialize s = Ok (t, []) -> tx_commit_preimage t = le_bytes 8 (Z.of_nat (List.length s)) ++ s.
Proof. intros P H. apply (c_tx_one t P) in H. cbn [enc c_tx] in H. rewrite app_nil_r in H. unfold tx_commit_preimage. rewrite H. reflexivity. Qed.
Print Assumptions C75_commitment.
(** records, asset definitions, user keys, credentials, memos, verifying keys and blocks *)
Theorem C75_values (C : CapConfig) (S : Snark C) (Z0 : Ser C S) :
  (forall r, plain_points (record_points r) -> one_encoding_of c_enckey (uenc_key (pub_key r)) -> one_encoding_of c_ro r) /\
  (forall d, plain_points (policy_points (policy d)) -> one_encoding_of c_def d) /\
  (forall k, one_encoding_of c_point (address k) -> one_encoding_of c_enckey (uenc_key k) -> one_encoding_of c_userpk k) /\
  (forall c, plain_points (cred_points c) -> one_encoding_of c_cred c) /\
  (forall m, one_encoding_of c_point (vm_ephemeral m) -> one_encoding_of c_memo m) /\
  (forall k, one_encoding_of c_vkey (tx_vkey k) -> one_encoding_of c_txvk k) /\
  (forall b, (forall t, In t (bk_txns b) -> plain_tx t) -> one_encoding_of c_point (address (bk_proposer b)) ->
     one_encoding_of c_enckey (uenc_key (bk_proposer b)) -> one_encoding_of c_block b).
Proof.
  repeat split; eauto using c_ro_one, c_def_one, c_userpk_one, c_cred_one, c_memo_one, c_txvk_one, c_block_one.
  all: try (intros ? ?; auto using c_ro_one, c_def_one, c_userpk_one, c_cred_one, c_memo_one, c_txvk_one, c_block_one).
Qed.
Print Assumptions C75_values.
(** amounts, reveal maps, freeze flags and field elements (codes, commitments, nullifiers, blinding factors): no condition *)
Theorem C75_plain_values (C : CapConfig) :
  one_encoding c_amount /\ one_encoding c_rm /\ one_encoding c_flag /\ one_encoding c_f /\ one_encoding c_fj.
Proof. exact (conj c_amount_one (conj c_rm_one (conj c_flag_one (conj c_f_one c_fj_one)))). Qed.
Print Assumptions C75_plain_values.
(** reading returns a value or an error for every sequence of bytes *)
Theorem C75_reading_returns (C : CapConfig) (S : Snark C) (Z0 : Ser C S) : SerReturns Z0 ->
  never_panics c_tx /\ never_panics c_txvk /\ never_panics c_ro /\ never_panics c_def /\ never_panics c_userpk /\
  never_panics c_cred /\ never_panics c_memo /\ never_panics c_block /\
  never_panics c_amount /\ never_panics c_rm /\ never_panics c_flag.
Proof.
  intros H. repeat apply conj; auto using c_tx_returns, c_txvk_returns, c_ro_returns, c_def_returns, c_userpk_returns, c_cred_returns,
    c_memo_returns, c_block_returns, c_amount_returns, c_rm_returns, c_flag_returns.
Qed.
Print Assumptions C75_reading_returns.

(** Non-vacuity: encodings of points, keys and proofs with one encoding per value; a transfer note and a mint note are
    plain, their encodings are read back, and a byte changed inside is either an error or another transaction. *)
Section Toy.
  Notation T := (toy true).
  (** integers in unary, the sign in the lowest bit; other bytes are refused *)
  Definition zig (z : Z) : nat := Z.to_nat (if z <? 0 then - 2 * z - 1 else 2 * z).
  Definition zag (n : nat) : Z := if Z.odd (Z.of_nat n) then - ((Z.of_nat n + 1) / 2) else Z.of_nat n / 2.
  Fixpoint strict_unary (s : bytes) : res (nat * bytes) :=
    match s with
    | [] => Err SerIoError
    | b :: r => if zv b =? 0 then Ok (0%nat, r) else if zv b =? 1 then let* (n, r') := strict_unary r in Ok (Datatypes.S n, r') else Err SerInvalidData
    end.
  Definition c_zz : Codec Z := mkCodec (fun z => repeat (b8 1) (zig z) ++ [b8 0]) (fun z => Datatypes.S (zig z))
    (fun s => let* (n, r) := strict_unary s in Ok (zag n, r)).
  Lemma zig_zag n : zig (zag n) = n.
  Proof.
    unfold zig, zag. assert (H0 : 0 <= Z.of_nat n) by lia. pose proof (Zodd_mod (Z.of_nat n)) as M.
    destruct (Z.odd (Z.of_nat n)); rewrite ?Zeq_is_eq_bool in M.
    - assert (Z.of_nat n mod 2 = 1) by (apply Zeq_bool_eq; symmetry; exact M). destruct (Z.ltb_spec (- ((Z.of_nat n + 1) / 2)) 0); Z.to_euclidean_division_equations; lia.
    - assert (Z.of_nat n mod 2 <> 1) by (apply Zeq_bool_neq; symmetry; exact M). destruct (Z.ltb_spec (Z.of_nat n / 2) 0); Z.to_euclidean_division_equations; lia.
  Qed.
  Lemma strict_unary_one s n r : strict_unary s = Ok (n, r) -> s = (repeat (b8 1) n ++ [b8 0]) ++ r.
  Proof.
    revert n. induction s as [|b s IH]; intros n H; cbn [strict_unary] in H; [discriminate H|].
    destruct (Z.eqb_spec (zv b) 0) as [E|_]; [injection H as <- <-; rewrite (byte_is _ _ E); reflexivity|].
    destruct (Z.eqb_spec (zv b) 1) as [E|_]; [|discriminate H]. apply bind_ok in H. destruct H as ([m r'] & H1 & H). injection H as <- <-.
    rewrite (IH m H1), (byte_is _ _ E). reflexivity.
  Qed.
  Lemma c_zz_one : one_encoding c_zz.
  Proof.
    intros z s r H. cbn [dec c_zz enc] in *. apply bind_ok in H. destruct H as ([n r'] & H1 & H). injection H as <- <-. rewrite zig_zag. apply strict_unary_one, H1.
  Qed.
  Lemma zag_zig z : zag (zig z) = z.
  Proof.
    unfold zig, zag. destruct (Z.ltb_spec z 0).
    - rewrite Z2Nat.id by lia. replace (- 2 * z - 1) with (1 + 2 * (- z - 1)) by lia. rewrite Z.odd_add_mul_2.
      change (Z.odd 1) with true. cbv iota. Z.to_euclidean_division_equations; lia.
    - rewrite Z2Nat.id by lia. replace (Z.odd (2 * z)) with false by (rewrite Z.odd_mul; reflexivity). Z.to_euclidean_division_equations; lia.
  Qed.
  Lemma c_zz_ok z : reads_back c_zz z.
  Proof.
    assert (U : forall n s, strict_unary ((repeat (b8 1) n ++ [b8 0]) ++ s) = Ok (n, s)).
    { induction n as [|n IH]; intros s; [reflexivity|]. cbn [repeat app strict_unary]. change (zv (b8 1) =? 0) with false. change (zv (b8 1) =? 1) with true. cbv iota. rewrite IH. reflexivity. }
    split.
    - intros s. cbn [enc dec c_zz]. rewrite U. cbn [bind]. rewrite zag_zig. reflexivity.
    - cbn [enc size c_zz]. rewrite app_length, repeat_length. cbn. lia.
  Qed.
  Definition canon_ser : Ser T doc_snark := @Build_Ser T doc_snark
    (c_int 32 bn_l tpz) c_zz (c_int 32 bn_p (@fz toy_field)) (c_int 32 bn_p (@fz toy_field)).
  Lemma canon_ser_laws : SerLaws canon_ser.
  Proof.
    constructor.
    - intros x. apply (c_int_ok 32 bn_l tpz); [intros z Hz; rewrite zv_tpz; apply Z.mod_small, Hz|]. discriminate.
    - exact c_zz_ok.
    - intros x. apply (c_int_ok 32 bn_p (@fz toy_field)); [intros z Hz; apply (@fz_small toy_field), Hz|]. discriminate.
    - intros x. apply (c_int_ok 32 bn_p (@fz toy_field)); [intros z Hz; apply (@fz_small toy_field), Hz|]. discriminate.
  Qed.
  Lemma toy_point_one : one_encoding (@c_point T doc_snark canon_ser).
  Proof. apply (c_int_one 32 bn_l tpz). intros z Hz. rewrite zv_tpz. apply Z.mod_small, Hz. Qed.
  Lemma toy_proof_one : one_encoding (@c_proof T doc_snark canon_ser).
  Proof. apply (c_int_one 32 bn_p (@fz toy_field)). intros z Hz. apply (@fz_small toy_field), Hz. Qed.
  Lemma toy_returns : SerReturns canon_ser.
  Proof.
    constructor; try apply c_int_returns. intros s. cbn [dec c_enckey canon_ser c_zz]. apply bind_returns; [|intros [n r] _; discriminate].
    induction s as [|b s IH]; cbn [strict_unary]; [discriminate|]. destruct (_ =? _); [discriminate|]. destruct (_ =? _); [|discriminate].
    apply bind_returns; [exact IH|]. intros [n r] _. discriminate.
  Qed.
  Lemma toy_plain t : @plain_tx T doc_snark canon_ser t.
  Proof. split; [intros P _; apply toy_point_one|apply toy_proof_one]. Qed.
  Example C75_example :
    @plain_tx T doc_snark canon_ser doc_note /\ @plain_tx T doc_snark canon_ser doc_mint /\ SerReturns canon_ser /\
    @tx_deserialize T doc_snark canon_ser (@tx_serialize T doc_snark canon_ser doc_note) = Ok (doc_note, []).
  Proof.
    split; [apply toy_plain|]. split; [apply toy_plain|]. split; [exact toy_returns|].
    rewrite <- (app_nil_r (@tx_serialize T doc_snark canon_ser doc_note)).
    apply (tx_ok canon_ser_laws doc_note). unfold len64; cbn. repeat split; lia.
  Qed.
End Toy.

(** ** C76: text forms *)
(** the text of a value is read back as the value *)
Theorem C76_round_trip crc A (c : Codec A) k x : reads_back c x -> parse crc k c (show crc k c x) = Ok x.
Proof. exact (parse_show crc k c x). Qed.
Print Assumptions C76_round_trip.
(** a text of one kind is refused where another kind is expected, whatever the two types and their encodings: a public key
    is never read as a secret key, a commitment never as a nullifier *)
Theorem C76_kinds_not_confused crc A (c : Codec A) k k' v : k <> k' -> parse crc k' c (text_of crc k v) = Err SerInvalidData.
Proof. exact (parse_other crc k k' c v). Qed.
Print Assumptions C76_kinds_not_confused.
(** what can be read at all: exactly the texts of kind [k]; so every bit of a text counts *)
Theorem C76_texts crc k t v : text_bytes crc k t = Ok v <-> t = text_of crc k v.
Proof. exact (text_bytes_iff crc k t v). Qed.
Print Assumptions C76_texts.
Theorem C76_texts_differ crc k k' v v' : text_of crc k v = text_of crc k' v' -> k = k' /\ v = v'.
Proof. exact (text_of_inj crc k k' v v'). Qed.
Print Assumptions C76_texts_differ.
(** a text that is read as a value is the text of its encoding, up to bytes that follow the value *)
Theorem C76_one_text crc A (c : Codec A) k t x : one_encoding_of c x -> parse crc k c t = Ok x -> exists r, t = text_of crc k (enc c x ++ r).
Proof. exact (parse_exact crc k c t x). Qed.
Print Assumptions C76_one_text.
(** reading returns for every text *)
Theorem C76_reading_returns crc A (c : Codec A) k t : never_panics c -> parse crc k c t <> Panic.
Proof. exact (parse_returns crc k c t). Qed.
Print Assumptions C76_reading_returns.

(** Key pairs of freezers are stored with both halves.  A pair that was generated is read back; but the halves are not
    compared when a pair is read, so a stored pair can be read whose public half belongs to another secret. *)
Theorem C76_freezer_pair (C : CapConfig) (S : Snark C) (Z0 : Ser C S) (L : SerLaws Z0) crc k :
  parse crc KFreezeKey c_freezer_pair (show crc KFreezeKey c_freezer_pair (freezer_pair k)) = Ok (freezer_pair k).
Proof. apply parse_show. apply c_pair_ok; [apply fj_ok|apply point_ok, L]. Qed.
Print Assumptions C76_freezer_pair.
Theorem C76_freezer_pair_consistent_refuted :
  exists (C : CapConfig) (L : CapLaws C) (S : Snark C) (Z0 : Ser C S) (SL : SerLaws Z0) crc t sk pk,
    parse crc KFreezeKey c_freezer_pair t = Ok (sk, pk) /\ pk <> freezer_pub_key sk.
Proof.
  exists (toy true), (toy_laws true), doc_snark, canon_ser, canon_ser_laws, (fun _ _ => b8 0).
  exists (show (fun _ _ => b8 0) KFreezeKey (@c_freezer_pair _ _ canon_ser) (@sz toy_field 2, @freezer_pub_key (toy true) (@sz toy_field 3))).
  exists (@sz toy_field 2), (@freezer_pub_key (toy true) (@sz toy_field 3)). split.
  - apply parse_show. apply c_pair_ok; [apply fj_ok|apply point_ok, canon_ser_laws].
  - intros H. apply (f_equal (fun P : tp => zv P)) in H. vm_compute in H. discriminate H.
Qed.
Print Assumptions C76_freezer_pair_consistent_refuted.

(** the types of the repository: what is shown is read back *)
Theorem C76_types_round_trip (C : CapConfig) (S : Snark C) (Z0 : Ser C S) (L : SerLaws Z0) crc :
  (forall x, parse crc KNullifier c_f (show crc KNullifier c_f x) = Ok x) /\
  (forall x, parse crc KCommitment c_f (show crc KCommitment c_f x) = Ok x) /\
  (forall x, parse crc KAssetCode c_f (show crc KAssetCode c_f x) = Ok x) /\
  (forall x, parse crc KBlind c_f (show crc KBlind c_f x) = Ok x) /\
  (forall x, parse crc KAssetDef c_def (show crc KAssetDef c_def x) = Ok x) /\
  (forall x, parse crc KUserPubKey c_userpk (show crc KUserPubKey c_userpk x) = Ok x) /\
  (forall x, parse crc KFreezePubKey c_point (show crc KFreezePubKey c_point x) = Ok x) /\
  (forall x, parse crc KViewPubKey c_point (show crc KViewPubKey c_point x) = Ok x) /\
  (forall x, parse crc KCredPubKey c_point (show crc KCredPubKey c_point x) = Ok x) /\
  (forall x, parse crc KCredential c_sig (show crc KCredential c_sig x) = Ok x) /\
  (forall x, len64 (vm_data x) -> parse crc KViewMemo c_memo (show crc KViewMemo c_memo x) = Ok x) /\
  (forall x, key_fits x -> parse crc KTxVerKey c_txvk (show crc KTxVerKey c_txvk x) = Ok x).
Proof.
  repeat apply conj; intros; apply parse_show;
    first [apply f_ok|apply def_ok, L|apply userpk_ok, L|apply point_ok, L|apply sig_reads, L|apply memo_ok; assumption|apply txvk_ok; assumption].
Qed.
Print Assumptions C76_types_round_trip.

(** Non-vacuity: the text of a nullifier, with a checksum that adds the bytes up; read as a nullifier, refused as a
    commitment, refused with the last character changed, refused with a character missing. *)
Definition sum_crc (tag v : bytes) : byte := b8 (fold_right (fun (b : byte) s => zv b + s) 0 (tag ++ v)).
Definition doc_nul : string := "NUL~-QIAAAAAAAAAAAAAAAAAAAAAAAAAAAAAAAAAAAAAAADq".
Definition refused {A} (r : res A) : bool := match r with Err _ => true | _ => false end.
Example C76_example :
  show sum_crc KNullifier (@c_f (toy true)) (@fz toy_field 761) = chars doc_nul /\
  parse sum_crc KNullifier (@c_f (toy true)) (chars doc_nul) = Ok (@fz toy_field 761) /\
  parse sum_crc KCommitment (@c_f (toy true)) (chars doc_nul) = Err SerInvalidData /\
  refused (parse sum_crc KNullifier (@c_f (toy true)) (chars "NUL~-QIAAAAAAAAAAAAAAAAAAAAAAAAAAAAAAAAAAAAAAADr")) = true /\
  refused (parse sum_crc KNullifier (@c_f (toy true)) (chars "NUL~-QIAAAAAAAAAAAAAAAAAAAAAAAAAAAAAAAAAAAAAADq")) = true.
Proof.
  assert (E : show sum_crc KNullifier (@c_f (toy true)) (@fz toy_field 761) = chars doc_nul)
    by (apply same_bytes_iff; vm_compute; reflexivity).
  split; [exact E|]. split; [rewrite <- E; apply parse_show, (@f_ok (toy true))|]. split; [rewrite <- E; apply parse_other; discriminate|].
  split; vm_compute; reflexivity.
Qed.
