(** A concrete instance of the external encodings satisfying [SerLaws], over the toy configuration and a placeholder
    proof system whose proofs and keys are field elements (only the encodings matter here).  For examples only. *)
From Verif Require Import Base Config Structs Keys Utils Memo Plonk Snark Notes Serde SerdeProofs Toy.

Section ToySer.
  Notation T := (toy true).
  Definition doc_snark : Snark T := @Build_Snark T unit unit (@F toy_field) (@F toy_field) unit
    (fun _ _ => Ok (tt, @f0 toy_field)) (fun _ _ _ _ => Ok (@f0 toy_field)) (fun _ _ _ _ => true) (fun _ => true)
    (fun P : tp => le_bytes 32 (zv P)).

  (** integers: a sign byte, then the absolute value in unary *)
  Fixpoint dec_unary (s : bytes) : res (nat * bytes) :=
    match s with
    | [] => Err SerIoError
    | b :: r => if zv b =? 0 then Ok (0%nat, r) else let* (n, r') := dec_unary r in Ok (Datatypes.S n, r')
    end.
  Definition c_z : Codec Z := mkCodec
    (fun z => b8 (if z <? 0 then 1 else 0) :: repeat (b8 1) (Z.to_nat (Z.abs z)) ++ [b8 0])
    (fun z => (2 + Z.to_nat (Z.abs z))%nat)
    (fun s => match s with
              | [] => Err SerIoError
              | b :: r => let* (n, r') := dec_unary r in Ok (if zv b =? 1 then - Z.of_nat n else Z.of_nat n, r')
              end).
  Lemma dec_unary_ok n s : dec_unary ((repeat (b8 1) n ++ [b8 0]) ++ s) = Ok (n, s).
  Proof. induction n as [|n IH]; [reflexivity|]. cbn [repeat app dec_unary]. change (zv (b8 1) =? 0) with false. cbv iota. rewrite IH. reflexivity. Qed.
  Lemma c_z_ok z : reads_back c_z z.
  Proof.
    split.
    - intros s. cbn [enc dec c_z app]. rewrite dec_unary_ok. cbn [bind]. do 2 f_equal.
      destruct (Z.ltb_spec z 0); [change (zv (b8 1) =? 1) with true|change (zv (b8 0) =? 1) with false]; cbv iota; rewrite Z2Nat.id; lia.
    - cbn [enc size c_z]. cbn [length]. rewrite app_length, repeat_length. cbn. lia.
  Qed.

  Definition doc_ser : Ser T doc_snark := @Build_Ser T doc_snark
    (c_int 32 bn_l tpz) c_z (c_int 32 bn_p (@fz toy_field)) (c_int 32 bn_p (@fz toy_field)).
  Lemma doc_ser_laws : @SerLaws T doc_snark doc_ser.
  Proof.
    constructor.
    - intros x. apply (c_int_ok 32 bn_l tpz); [intros z Hz; rewrite zv_tpz; apply Z.mod_small, Hz|]. discriminate.
    - exact c_z_ok.
    - intros x. apply (c_int_ok 32 bn_p (@fz toy_field)); [intros z Hz; apply (@fz_small toy_field), Hz|]. discriminate.
    - intros x. apply (c_int_ok 32 bn_p (@fz toy_field)); [intros z Hz; apply (@fz_small toy_field), Hz|]. discriminate.
  Qed.

  (** a transfer note and a verifying key to encode *)
  Definition doc_note : @TransactionNote T doc_snark :=
    TxTransfer (@mkTNote T doc_snark [@fz toy_field 3; @fz toy_field (-1)] [@fz toy_field 5] (@fz toy_field 8)
                         (@mkMemo T (tpz 9) [@fz toy_field 10]) (@mkTAux T (@fz toy_field 1) (w128 77) (w64 500) (tpz (-2)) [b8 1; b8 255])).
  Definition doc_mint : @TransactionNote T doc_snark :=
    TxMint (@mkMNote T doc_snark (@fz toy_field 3) (@fz toy_field 4) (@fz toy_field 5) (w128 6)
              (@mkDef T (@fz toy_field 7) (@policy_default T)) (@fz toy_field 8) (@fz toy_field 9) (@mkMemo T (tpz 10) [])
              (@mkMAux T (@fz toy_field 1) (w128 2) (tpz 3))).
  Definition doc_key : @TransactionVerifyingKey T doc_snark := VkFreeze (@mkFVK T doc_snark (@fz toy_field 8) 26 5).
End ToySer.
