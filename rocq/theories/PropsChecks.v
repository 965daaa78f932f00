(** Property theorems: transaction-building checks and memos (C03, C16-C21, C31-C33). *)
From Coq Require Import Permutation.
From Verif Require WalletSamples.
From Verif Require Import Base Config Structs Keys Utils Memo Toy Samples CodecProofs PolicyProofs UtilsProofs MemoProofs MovedAsset.

(** ** C03: total fee *)
Theorem C03_calculate_fee :
  (forall fees f, calculate_fee fees = Ok f <-> fold_right Z.add 0 (map zv fees) = zv f) /\
  (forall fees, fold_right Z.add 0 (map zv fees) < 2 ^ 128 -> exists f, calculate_fee fees = Ok f) /\
  (forall fees, 2 ^ 128 <= fold_right Z.add 0 (map zv fees) -> calculate_fee fees = Err IncorrectFee) /\
  (forall fees fees', Permutation fees fees' -> calculate_fee fees = calculate_fee fees').
Proof. exact calculate_fee_spec. Qed.
Print Assumptions C03_calculate_fee.
Example C03_example : calculate_fee [w128 (2 ^ 127); w128 (2 ^ 127)] = Err IncorrectFee /\
  fold_right Z.add 0 (map zv [w128 (2 ^ 127); w128 5]) = zv (w128 (2 ^ 127 + 5)).
Proof. split; reflexivity. Qed.

(** ** C16: receiver memos *)
Theorem C16_receiver_memo (C : CapConfig) (L : CapLaws C) (K : RoCodec) (KL : RoCodecLaws K) :
  (forall rnd ro label m kp, receiver_memo_from_ro rnd ro label = Ok m -> pub_key ro = user_pub_key kp ->
     receiver_memo_decrypt m kp (derive_record_commitment ro) label = Ok ro) /\
  (forall m kp rc label ro, receiver_memo_decrypt m kp rc label = Ok ro ->
     pub_key ro = user_pub_key kp /\ derive_record_commitment ro = rc).
Proof. exact (receiver_memo_spec L K KL). Qed.
Print Assumptions C16_receiver_memo.
(** a memo for the record of a user with secret 11, with a label: the user reads it, another user does not, nor does the
    user under another label or for another commitment *)
Example C16_example : RoCodecLaws WalletSamples.w_codec /\ exists m,
  let r := s_ro true 30 (s_def true) 11 Unfrozen 101 in let read := @receiver_memo_decrypt (toy true) WalletSamples.w_codec m in
  let rc := @derive_record_commitment (toy true) in
  @receiver_memo_from_ro (toy true) WalletSamples.w_codec tt r [b8 7] = Ok m /\ pub_key r = @user_pub_key (toy true) (s_user true 11) /\
  read (s_user true 11) (rc r) [b8 7] = Ok r /\ is_ok (read (s_user true 12) (rc r) [b8 7]) = false /\
  is_ok (read (s_user true 11) (rc r) [b8 8]) = false /\
  is_ok (read (s_user true 11) (rc (s_ro true 31 (s_def true) 11 Unfrozen 101)) [b8 7]) = false.
Proof.
  split; [exact WalletSamples.w_codec_laws|].
  set (r := s_ro true 30 (s_def true) 11 Unfrozen 101).
  assert (G : match @receiver_memo_from_ro (toy true) WalletSamples.w_codec tt r [b8 7] with
              | Ok m => let read := @receiver_memo_decrypt (toy true) WalletSamples.w_codec m in let rc := @derive_record_commitment (toy true) in
                  negb (is_ok (read (s_user true 12) (rc r) [b8 7])) && negb (is_ok (read (s_user true 11) (rc r) [b8 8])) &&
                  negb (is_ok (read (s_user true 11) (rc (s_ro true 31 (s_def true) 11 Unfrozen 101)) [b8 7]))
              | _ => false end = true) by (vm_compute; reflexivity).
  destruct (@receiver_memo_from_ro (toy true) WalletSamples.w_codec tt r [b8 7]) as [m|e|] eqn:E; [|discriminate G|discriminate G].
  cbv zeta in G. rewrite !andb_true_iff, !negb_true_iff in G. destruct G as ((G1 & G2) & G3).
  exists m. cbv zeta. split; [exact E|]. assert (U : pub_key r = @user_pub_key (toy true) (s_user true 11)) by reflexivity. split; [exact U|].
  split; [exact (proj1 (C16_receiver_memo (toy true) (toy_laws true) WalletSamples.w_codec WalletSamples.w_codec_laws) tt r _ m (s_user true 11) E U)|]. auto.
Qed.

(** ** C17: fee information *)
Theorem C17_txn_fee_info (C : CapConfig) (L : CapLaws C) :
  (forall blind fin fee, zv (amount (fi_ro fin)) < zv fee -> txn_fee_info_new blind fin fee = Err InvalidParameter) /\
  (forall blind fin fee, zv fee <= zv (amount (fi_ro fin)) ->
     exists info chg, txn_fee_info_new blind fin fee = Ok (info, chg) /\
       fee_input info = fin /\ fee_amount info = fee /\ fee_chg_ro info = chg /\
       zv (amount chg) = zv (amount (fi_ro fin)) - zv fee /\ asset_def chg = asset_def_native /\
       pub_key chg = pub_key (fi_ro fin) /\ freeze_flag chg = Unfrozen /\ Structs.blind chg = blind /\
       (asset_def (fi_ro fin) = asset_def_native ->
        merkle_root_of (f_of_u64 (acc_uid (fi_acc fin))) (derive_record_commitment (fi_ro fin)) (acc_path (fi_acc fin))
          = acc_root (fi_acc fin) ->
        check_fee info = Ok tt)).
Proof. exact (txn_fee_info_spec L). Qed.
Print Assumptions C17_txn_fee_info.
Theorem C17_check_fee (C : CapConfig) (L : CapLaws C) (f : TxnFeeInfo) :
  check_fee f = Ok tt <->
    zv (fee_amount f) <= zv (amount (fi_ro (fee_input f))) /\
    zv (amount (fee_chg_ro f)) = zv (amount (fi_ro (fee_input f))) - zv (fee_amount f) /\
    asset_def (fi_ro (fee_input f)) = asset_def_native /\
    asset_def (fee_chg_ro f) = asset_def_native /\
    pub_key (fee_chg_ro f) = pub_key (fi_ro (fee_input f)) /\
    merkle_root_of (f_of_u64 (acc_uid (fi_acc (fee_input f)))) (derive_record_commitment (fi_ro (fee_input f)))
                   (acc_path (fi_acc (fee_input f))) = acc_root (fi_acc (fee_input f)).
Proof. exact (check_fee_iff L f). Qed.
Print Assumptions C17_check_fee.
Example C17_example :
  let r := s_native true 20 3 4 in
  let f := @mkFeeInfo (toy true) (@mkFeeInput (toy true) r (s_acc true 6 r) (s_user true 3)) (w128 5) (s_native true 15 3 8) in
  @check_fee (toy true) f = Ok tt.
Proof. vm_compute. reflexivity. Qed.

(** ** C18: balance of a transfer *)
(** any profile, any records: an accepted transfer balances for every asset code modulo 2^128 *)
Theorem C18_balance_mod (C : CapConfig) (inputs outputs : list RecordOpening) (fee : Amount) i0 rest :
  inputs = i0 :: rest -> check_balance inputs outputs = Ok fee ->
  zv fee < 2 ^ 127 /\
  forall c, (code_sum c (non_dummy inputs)) mod 2 ^ 128 =
            (code_sum c outputs + (if zeqb (code (asset_def i0)) c then zv fee else 0)) mod 2 ^ 128.
Proof. exact (check_balance_mod inputs outputs fee i0 rest). Qed.
Print Assumptions C18_balance_mod.
(** after the other API checks, and with totals below 2^127: accepted exactly when every asset code balances, the fee
    being the native surplus *)
Theorem C18_balance_exact (C : CapConfig) (L : CapLaws C) (inputs outputs : list RecordOpening) (fee : Amount) :
  check_asset_def inputs outputs = Ok tt -> check_dummy_inputs inputs = Ok tt ->
  (forall r, In r inputs -> code (asset_def r) = native_asset_code -> asset_def r = asset_def_native) ->
  amt_sum inputs < 2 ^ 127 -> amt_sum outputs < 2 ^ 127 ->
  (check_balance inputs outputs = Ok fee <->
   forall c, code_sum c (non_dummy inputs) = code_sum c outputs + (if zeqb native_asset_code c then zv fee else 0)).
Proof. exact (check_balance_exact L inputs outputs fee). Qed.
Print Assumptions C18_balance_exact.
Example C18_example :
  let ins := [s_native true 20 3 4; s_ro true 7 (s_free_def true) 3 Unfrozen 5; s_dummy true 6] in
  let outs := [s_native true 18 3 9; s_ro true 3 (s_free_def true) 4 Unfrozen 7; s_ro true 4 (s_free_def true) 3 Unfrozen 8] in
  @check_asset_def (toy true) ins outs = Ok tt /\ @check_dummy_inputs (toy true) ins = Ok tt /\
  @amt_sum (toy true) ins = 27 /\ @amt_sum (toy true) outs = 25 /\
  match @check_balance (toy true) ins outs with Ok f => zv f =? 2 | _ => false end = true.
Proof. vm_compute. repeat split. Qed.
(** without the bound a release build accepts a transfer that does not balance over the integers *)
Theorem C18_balance_unbounded_refuted :
  exists (C : CapConfig) (L : CapLaws C) (inputs outputs : list RecordOpening) (fee : Amount) c,
    check_asset_def inputs outputs = Ok tt /\ check_dummy_inputs inputs = Ok tt /\
    check_balance inputs outputs = Ok fee /\
    code_sum c (non_dummy inputs) <> code_sum c outputs + (if zeqb native_asset_code c then zv fee else 0).
Proof.
  exists (toy false), (toy_laws false), [s_native false (2 ^ 127) 3 4; s_native false (2 ^ 127) 3 5], [s_native false 0 3 6],
    (w128 0), (@native_asset_code toy_field).
  conjs; [vm_compute; reflexivity|vm_compute; reflexivity|vm_compute; reflexivity|vm_compute; discriminate].
Qed.
Print Assumptions C18_balance_unbounded_refuted.

(** ** C19: asset definitions of a transfer *)
(** [transferred rest d]: d is the definition of the first non-dummy record of [rest], the native one if there is none *)
Theorem C19_check_asset_def (C : CapConfig) (L : CapLaws C) (inputs outputs : list RecordOpening) :
  check_asset_def inputs outputs = Ok tt <->
  exists i0 irest o0 orest d,
    inputs = i0 :: irest /\ outputs = o0 :: orest /\
    asset_def i0 = asset_def_native /\ asset_def o0 = asset_def_native /\
    transferred irest d /\
    (forall r, In r irest -> asset_def r = asset_def_dummy \/ asset_def r = d) /\
    (forall r, In r orest -> asset_def r = d) /\
    (forall r, In r (inputs ++ outputs) ->
       freezer_pk (policy (asset_def r)) <> pt_id -> viewer_pk (policy (asset_def r)) <> pt_id).
Proof. exact (check_asset_def_iff L inputs outputs). Qed.
Print Assumptions C19_check_asset_def.
Example C19_example :
  @check_asset_def (toy true) [s_native true 20 3 4; s_dummy true 6; s_ro true 7 (s_def true) 3 Unfrozen 5]
                              [s_native true 18 3 9; s_ro true 7 (s_def true) 4 Unfrozen 7] = Ok tt /\
  @check_asset_def (toy true) [s_native true 20 3 4; s_ro true 7 (s_free_def true) 3 Unfrozen 5]
                              [s_native true 18 3 9; s_ro true 7 (s_def true) 4 Unfrozen 7] = Err InvalidParameter.
Proof. split; vm_compute; reflexivity. Qed.

(** ** C20: distinct input nullifiers *)
Theorem C20_distinct_nullifiers (C : CapConfig) (l : list Nullifier) :
  (check_distinct_input_nullifiers l = Ok tt <-> NoDup l) /\
  (~ NoDup l -> check_distinct_input_nullifiers l = Err InvalidParameter).
Proof. exact (check_distinct_iff l). Qed.
Print Assumptions C20_distinct_nullifiers.
Example C20_example : @check_distinct_input_nullifiers (toy true) (map fz [3; 5; 3]) = Err InvalidParameter /\
  @check_distinct_input_nullifiers (toy true) (map fz [3; 5; 4]) = Ok tt.
Proof. split; vm_compute; reflexivity. Qed.

(** ** C21: outputs of a freeze *)
Theorem C21_freeze_outputs (C : CapConfig) (blinds : nat -> F) (inputs : list FreezeNoteInput) :
  length (freeze_get_output_ros blinds inputs) = length inputs /\
  forall i x y, nth_error inputs i = Some x -> nth_error (freeze_get_output_ros blinds inputs) i = Some y ->
    amount y = amount (zi_ro x) /\ asset_def y = asset_def (zi_ro x) /\ pub_key y = pub_key (zi_ro x) /\
    freeze_flag y = flip (freeze_flag (zi_ro x)) /\ blind y = blinds i.
Proof. exact (freeze_outputs_spec blinds inputs). Qed.
Print Assumptions C21_freeze_outputs.
(** freezing and unfreezing restores the record up to its blind *)
Theorem C21_freeze_twice (C : CapConfig) (b b' : F) (r : RecordOpening) :
  freeze_flip_ro b' (freeze_flip_ro b r) = mkRO (amount r) (asset_def r) (pub_key r) (freeze_flag r) b'.
Proof. exact (freeze_twice b b' r). Qed.
Print Assumptions C21_freeze_twice.
Example C21_example :
  let r := s_ro true 7 (s_def true) 3 Unfrozen 5 in
  map freeze_flag (@freeze_get_output_ros (toy true) (fun i => fz (Z.of_nat i)) [@mkFIn (toy true) r (s_acc true 1 r) (sz 9)]) = [Frozen].
Proof. reflexivity. Qed.

(** ** C31: the viewer sees exactly what the policy reveals *)
Theorem C31_viewer_sees_policy (C : CapConfig) (L : CapLaws C) ins outs creds r memo ad kp :
  moved_asset ins ad ->
  length creds = length ins ->
  memo_for_transfer_note ins outs creds r = Ok memo ->
  viewer_pub_key kp = viewer_pk (policy ad) -> viewer_pk (policy ad) <> pt_id -> above_threshold ad ins ->
  (forall o, In o (skipn 1 outs) -> asset_def o = ad) ->
  rm_bit (reveal_map (policy ad)) 0 = rm_bit (reveal_map (policy ad)) 1 ->
  (forall x, In x (skipn 1 ins) -> asset_def x <> asset_def_dummy -> address (pub_key x) <> pt_id) ->
  (0 < length outs)%nat ->
  Z.of_nat (1 + 12 * length ins + 4 * length outs) < 2 ^ 64 ->
  open_transfer_viewing_memo kp ad (length ins) (length outs) memo =
  Ok (map (fun rc => entry ad (fst rc) (shown_attrs ad (cr_attrs (snd rc))))
          (filter (fun rc => negb (is_dummy_def (asset_def (fst rc)))) (combine (skipn 1 ins) (skipn 1 creds))),
      map (fun o => entry ad o hidden_attrs) (skipn 1 outs)).
Proof. intros H. exact (viewer_sees_policy L ins outs creds r memo ad kp (moved_asset_ok L ins ad H)). Qed.
Print Assumptions C31_viewer_sees_policy.
Theorem C31_wrong_key (C : CapConfig) (L : CapLaws C) kp ad n m memo :
  viewer_pub_key kp <> viewer_pk (policy ad) -> open_transfer_viewing_memo kp ad n m memo = Err InvalidParameter.
Proof. exact (open_wrong_key L kp ad n m memo). Qed.
Print Assumptions C31_wrong_key.
(** a transfer of 7 + 5 > 10 units with a dummy input: two input entries, one output entry *)
Example C31_example :
  let d := s_def true in
  let ins := [s_native true 20 3 4; s_ro true 7 d 3 Unfrozen 5; s_dummy true 6; s_ro true 5 d 4 Unfrozen 6] in
  let outs := [s_native true 18 3 9; s_ro true 12 d 4 Unfrozen 7] in
  let creds := [s_cred true 3 8 100; s_cred true 3 8 100; s_cred true 77 8 100; s_cred true 4 8 100] in
  match @memo_for_transfer_note (toy true) ins outs creds (sz 99) with
  | Ok memo =>
    match @open_transfer_viewing_memo (toy true) (sz 7) d 4 2 memo with
    | Ok (vi, vo) => (length vi =? 2)%nat && (length vo =? 1)%nat &&
        match map vd_amount vi with [Some a; Some b] => (zv a =? 7) && (zv b =? 5) | _ => false end
    | _ => false end
  | _ => false end = true.
Proof. vm_compute. reflexivity. Qed.

(** ** C32: mint memos *)
Theorem C32_mint_memo (C : CapConfig) (L : CapLaws C) (ro : RecordOpening) (r : Fj) (kp : ViewerKeyPair) :
  viewer_pub_key kp = viewer_pk (policy (asset_def ro)) -> viewer_pk (policy (asset_def ro)) <> pt_id ->
  address (pub_key ro) <> pt_id ->
  open_mint_viewing_memo kp (asset_def ro) (amount ro) (memo_for_mint_note ro r) = Ok (entry (asset_def ro) ro []).
Proof. exact (mint_memo_open L ro r kp). Qed.
Print Assumptions C32_mint_memo.
(** the encrypted plaintext carries address and blind whatever the policy reveals *)
Theorem C32_mint_memo_plaintext (C : CapConfig) (L : CapLaws C) (ro : RecordOpening) (r : Fj) (kp : ViewerKeyPair) :
  viewer_pub_key kp = viewer_pk (policy (asset_def ro)) -> viewer_pk (policy (asset_def ro)) <> pt_id ->
  elgamal_decrypt kp (vm_ephemeral (memo_for_mint_note ro r), vm_data (memo_for_mint_note ro r)) =
  [fst (pt_xy (address (pub_key ro))); snd (pt_xy (address (pub_key ro))); blind ro].
Proof. exact (mint_memo_plaintext L ro r kp). Qed.
Print Assumptions C32_mint_memo_plaintext.
Example C32_example : let ro := s_ro true 7 (s_def true) 3 Unfrozen 5 in
  @viewer_pub_key (toy true) (sz 7) = viewer_pk (policy (asset_def ro)) /\
  viewer_pk (policy (asset_def ro)) <> @pt_id (toy true) /\ address (pub_key ro) <> @pt_id (toy true).
Proof. split; [reflexivity|]. split; intros H; apply (f_equal zv) in H; discriminate H. Qed.

(** ** C33: memo length *)
Theorem C33_memo_length (C : CapConfig) (L : CapLaws C) ins outs creds r memo :
  length creds = length ins -> memo_for_transfer_note ins outs creds r = Ok memo ->
  length (vm_data memo) = (1 + (length ins - 1) * 12 + (length outs - 1) * 4)%nat.
Proof. exact (memo_length L ins outs creds r memo). Qed.
Print Assumptions C33_memo_length.
(** the exact plaintext: either the revealed fields under the viewer key, or zeros under a throw-away key *)
Theorem C33_memo_plaintext (C : CapConfig) (L : CapLaws C) ins outs creds r memo ad :
  moved_asset ins ad -> length creds = length ins ->
  memo_for_transfer_note ins outs creds r = Ok memo ->
  viewer_pk (policy ad) = pt_id \/ ~ above_threshold ad ins ->
  memo = memo_of (viewer_encrypt (rand_viewer_pk r) r (repeat f0 (1 + (length ins - 1) * 12 + (length outs - 1) * 4))).
Proof.
  intros H1 H2 H3 H4. apply (moved_asset_ok L) in H1. destruct (memo_transfer_exact L _ _ _ _ _ _ H1 H2 H3) as [(Hv & Ha & _)|(_ & _ & ->)]; [|reflexivity].
  destruct H4; contradiction.
Qed.
Print Assumptions C33_memo_plaintext.
Example C33_example :
  let ins := [s_native true 20 3 4; s_ro true 7 (s_def true) 3 Unfrozen 5] in
  let outs := [s_native true 18 3 9; s_ro true 7 (s_def true) 4 Unfrozen 7] in
  let creds := [s_cred true 3 8 100; s_cred true 3 8 100] in
  match @memo_for_transfer_note (toy true) ins outs creds (sz 99) with
  | Ok memo => (length (vm_data memo) =? 17)%nat | _ => false end = true.
Proof. vm_compute. reflexivity. Qed.
