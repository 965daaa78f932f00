(** A concrete wallet over the toy configuration: three records, a native payment, the scans of sender and receiver.
    For examples only. *)
From Verif Require Import Base Config Structs Keys Utils Memo Plonk Witness Circuits Relation Snark Notes Serde ToySer SerdeProofs
  GadgetProofs NoteProofs Accepted Decide CircuitFacts Toy ToySnark Samples NoteSamples Ledger LedgerSpec Wallet WalletSpec WalletProofs WalletPay WalletPay2.

(** an encoding of record openings with the round-trip property *)
Definition w_codec : @RoCodec T := {|
  ro_encode r := enc (@c_ro T doc_snark doc_ser) r;
  ro_decode s := match dec (@c_ro T doc_snark doc_ser) s with Ok (r, _) => Some r | _ => None end
|}.
Lemma w_codec_laws : RoCodecLaws w_codec.
Proof.
  intros r. cbn [ro_encode ro_decode w_codec]. destruct (@ro_ok T doc_snark doc_ser doc_ser_laws r) as [H _]. specialize (H []).
  rewrite app_nil_r in H. rewrite H. reflexivity.
Qed.
#[local] Existing Instance toy_snark.
#[local] Existing Instance w_codec.
#[local] Instance toy_memo_i : MemoSer T := toy_memo_ser true.
#[local] Instance toy_w : CapConfig := T.


(** the wallet of user 11, given native records of 7 and 20, a record of an asset with viewer, issuer and freezer, and a
    credential *)
Definition ws_r0 := s_native true 7 11 100.
Definition ws_r1 := s_ro true 30 (s_def true) 11 Unfrozen 101.
Definition ws_r2 := s_native true 20 11 102.
Definition ws_w0 : @Wallet T := @wallet_new T (s_user true 11).
Definition ws_w1 := @add_record_opening T ws_w0 ws_r0 (w64 0).
Definition ws_w2 := @add_record_opening T ws_w1 ws_r1 (w64 1).
Definition ws_w3 := @add_record_opening T ws_w2 ws_r2 (w64 2).
Definition ws_w := @set_credential T ws_w3 (s_cred true 11 8 900).
Definition ws_l0 : @Ledger T := @ledger_new T 2.
Definition ws_l1 := @mock_mint T 2 ws_l0 ws_r0.
Definition ws_l2 := @mock_mint T 2 ws_l1 ws_r1.
Definition ws_l := @mock_mint T 2 ws_l2 ws_r2.
Definition ws_seen : list (@Owned T) := [(ws_r0, w64 0); (ws_r1, w64 1); (ws_r2, w64 2)].
(** a payment of 10 to user 13 and 4 to user 12 with fee 3: both native records are needed, or one of the other asset *)
Definition ws_outs : list (@UserPubKey T * Amount) := [(@user_pub_key T (s_user true 13), s_amount 10); (@user_pub_key T (s_user true 12), s_amount 4)].
Definition ws_rand : @SpendRand T TS :=
  @mkSpendRand T TS (s_user true 77) (@fz toy_field 500) (fun i => @fz toy_field (600 + Z.of_nat i)) (fun _ => tt) (@fz toy_field 700) (h_rand true).
Definition ws_native w := @spend_native T TS w_codec toy_memo_i tt 2 w ws_rand ws_outs (s_amount 3) (lg_leaves ws_l).
Definition ws_other w := @spend_non_native T TS w_codec toy_memo_i tt 2 w ws_rand (s_def true) ws_outs (s_amount 3) (lg_leaves ws_l).

(** ** The hypotheses *)
Definition distinct_b (w : @Wallet T) (se : list (@Owned T)) : bool :=
  forallb (fun x => forallb (fun y => negb (zeqb (@w_nullify T w x) (@w_nullify T w y)) || @owned_eqb T x y) se) se.
Lemma distinct_b_ok w se : distinct_b w se = true -> distinct_nullifiers w se.
Proof.
  unfold distinct_b. rewrite forallb_forall. intros H x y Hx Hy E. specialize (H x Hx). rewrite forallb_forall in H. specialize (H y Hy).
  apply orb_true_iff in H. destruct H as [H|H]; [|apply (owned_eqb_iff (toy_laws true)) in H; exact H].
  apply negb_true_iff in H. apply zeqb_neq in H. contradiction (H E).
Qed.
Definition ordinary_b (w : @Wallet T) (lv : list (@F toy_field)) (se : list (@Owned T)) (sh : list (@Nullifier T * nat)) : bool :=
  (Z.of_nat (length lv) <? 2 ^ 64) && distinct_b w se &&
  forallb (fun x => forallb (fun nk => negb (zeqb (@w_nullify T w x) (fst nk)) || (zv (snd x) <? Z.of_nat (snd nk))) sh) se.
Lemma ordinary_b_ok w lv se sh : ordinary_b w lv se sh = true -> ordinary w lv se sh.
Proof.
  unfold ordinary_b. rewrite !andb_true_iff. intros [[H1 H2] H3]. split; [apply Z.ltb_lt in H1; exact H1|]. split; [apply distinct_b_ok, H2|].
  rewrite forallb_forall in H3. intros x k Hx Hk. specialize (H3 x Hx). rewrite forallb_forall in H3. specialize (H3 _ Hk). cbn [fst snd] in H3.
  apply orb_true_iff in H3. destruct H3 as [H3|H3]; [|apply Z.ltb_lt in H3; exact H3].
  apply negb_true_iff in H3. apply zeqb_neq in H3. contradiction H3. reflexivity.
Qed.
Lemma ws_in_step : @in_step T TS w_codec toy_memo_i ws_w ws_l ws_seen [].
Proof.
  split; [|intros n; cbn; split; [intros []|intros (k & [])]].
  apply run_credential. change ws_seen with ([] ++ [(ws_r0, w64 0)] ++ [(ws_r1, w64 1)] ++ [(ws_r2, w64 2)]). rewrite !app_assoc.
  apply (run_own ws_w2 (lg_leaves ws_l2)); [|reflexivity|reflexivity].
  apply (run_own ws_w1 (lg_leaves ws_l1)); [|reflexivity|reflexivity].
  apply (run_own ws_w0 (lg_leaves ws_l0)); [|reflexivity|reflexivity].
  exact (run_new (s_user true 11)).
Qed.
Lemma mint_root (d : nat) (l : @Ledger T) ro : In (@tree_root T d (lg_leaves (@mock_mint T d l ro))) (lg_roots (@mock_mint T d l ro)).
Proof. left. reflexivity. Qed.
Lemma ws_ordinary : @ordinary T ws_w (lg_leaves ws_l) ws_seen [].
Proof. apply ordinary_b_ok. vm_compute. reflexivity. Qed.
Definition fresh_b (w : @Wallet T) (se : list (@Owned T)) (r : @SpendRand T TS) : bool :=
  forallb (fun x => negb (zeqb (@w_nullify T w x) (@dummy_nullifier T TS r))) se.
Lemma fresh_b_ok w se r : fresh_b w se r = true -> forall x, In x se -> @w_nullify T w x <> @dummy_nullifier T TS r.
Proof. unfold fresh_b. rewrite forallb_forall. intros H x Hx E. specialize (H x Hx). apply negb_true_iff in H. apply zeqb_neq in H. exact (H E). Qed.
Lemma ws_keys n_out k : n_out = 3%nat \/ n_out = 4%nat -> (2 <= k <= length (@held T ws_w) + 1)%nat -> exists keys, @transfer_preprocess T TS tt k n_out 2 = Ok keys.
Proof.
  intros Hn Hk. change (length (@held T ws_w) + 1)%nat with 4%nat in Hk.
  assert (G : get (@transfer_preprocess T TS tt k n_out 2) (fun _ => true) = true).
  { assert (K : k = 2%nat \/ k = 3%nat \/ k = 4%nat) by lia. destruct Hn as [->| ->]; destruct K as [->|[->| ->]]; vm_compute; reflexivity. }
  destruct (get_ok _ _ G) as (keys & HK & _). exists keys. exact HK.
Qed.

(** ** Scans *)
(** the wallet of another user, who has seen nothing yet *)
Definition ws_receiver (k : Z) : @Wallet T := @wallet_new T (s_user true k).
Lemma ws_receiver_runs k : @runs T TS w_codec toy_memo_i (ws_receiver k) (lg_leaves ws_l) [] [].
Proof. apply (run_other _ (lg_leaves ws_l2)), (run_other _ (lg_leaves ws_l1)), (run_other _ (lg_leaves ws_l0)). apply run_new. Qed.
Definition funds (w : @Wallet T) (c : @AssetCode T) : Z := match @available_funds T w c with Ok a => zv a | _ => -1 end.
Notation ws_notes := (@TransferNote T TS * list (@ReceiverMemo T) * (@Fj toy_field * @point T))%type.
(** the note in the ledger *)
Definition ws_after (n : @TransferNote T TS) : @Ledger T := @store_current_mt_root T 2 (@insert_transfer_note T TS ws_l n).
(** balances after the scans, and whether the scanned state is ordinary *)
Definition ws_scan (w : @Wallet T) (se : list (@Owned T)) (x : ws_notes) (cs : list (@AssetCode T)) : list Z * bool :=
  let '(n, memos, _) := x in
  match @scan_txn T TS w_codec w (TxTransfer n) memos 3 with
  | Ok (w2, _) => (map (funds w2) cs,
      ordinary_b w2 (lg_leaves ws_l ++ tn_commitments n) (se ++ @paid_list T TS w_codec w (TxTransfer n) memos 3)
        (map (fun k => (k, (3 + length (tn_commitments n))%nat)) (tn_nullifiers n)) &&
      fresh_b w2 (se ++ @paid_list T TS w_codec w (TxTransfer n) memos 3) ws_rand)
  | _ => ([], false)
  end.
(** a block with one note by user 20, scanned by a wallet and stored by the ledger; the fee record is last *)
Definition ws_block (x : ws_notes) : @Block T TS := @mkBlock T TS [TxTransfer (fst (fst x))] (@fz toy_field 777) (@user_pub_key T (s_user true 20)).
Definition ws_block_scan (w : @Wallet T) (x : ws_notes) (c : @AssetCode T) : Z * Z * bool :=
  match @scan_block T TS w_codec w (ws_block x) [snd (fst x)] 3, @insert_block T TS 2 ws_l (ws_block x), @block_fee_record T TS (ws_block x) with
  | Ok (w', _), (l', Ok _), Ok ro =>
      (funds w' c, zv (amount ro),
       match nth_error (lg_leaves l') (length (lg_leaves l') - 1) with Some y => zeqb y (@derive_record_commitment T ro) | None => false end)
  | _, _, _ => (-1, -1, false)
  end.
