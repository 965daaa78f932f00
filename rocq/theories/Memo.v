(** Model of the viewing memos and receiver memos of src/structs.rs 1259-1655. *)
From Verif Require Import Base Config Structs Keys Utils.

Section Memo.
  Context {C : CapConfig}.

  (** structs.rs 1268: an ElGamal ciphertext (ephemeral key, masked scalars) *)
  Record ViewableMemo := mkMemo { vm_ephemeral : point; vm_data : list F }.
  Definition memo_of (c : point * list F) : ViewableMemo := mkMemo (fst c) (snd c).

  Definition addr_x (p : point) : F := fst (pt_xy p).
  Definition addr_y (p : point) : F := snd (pt_xy p).

  (** structs.rs 1285-1297 *)
  Definition memo_for_mint_note (ro : RecordOpening) (r : Fj) : ViewableMemo :=
    let vpk := viewer_pk (policy (asset_def ro)) in
    let msg := if point_eqb vpk pt_id then [f0; f0; f0]
               else [addr_x (address (pub_key ro)); addr_y (address (pub_key ro)); blind ro] in
    memo_of (viewer_encrypt vpk r msg).

  (** usize subtraction; the wrapped release value is never used as a length by the callers because the API
      rejects empty input and output lists first, so underflow is modelled as a panic in both profiles *)
  Definition usize_sub (a b : nat) : res nat := if (b <=? a)%nat then Ok (a - b)%nat else Panic.

  (** structs.rs 1397-1415 *)
  Definition memo_dummy_for_transfer_note (n_in n_out : nat) (r : Fj) : res ViewableMemo :=
    let* i := usize_sub n_in 1 in
    let* o := usize_sub n_out 1 in
    Ok (memo_of (viewer_encrypt (rand_viewer_pk r) r (repeat f0 (i * VIEWABLE_DATA_LEN + o * 4 + 1)))).

  (** structs.rs 1332-1362: the twelve scalars revealed for one input *)
  Definition memo_input_vals (m : RevealMap) (ro : RecordOpening) (cr : ExpirableCredential) : res (list F) :=
    if negb (length (cr_attrs cr) =? ATTRS_LEN)%nat then Panic (* copy_from_slice length mismatch *) else
    let vals := [addr_x (address (pub_key ro)); addr_y (address (pub_key ro)); f_of_u128 (amount ro); blind ro]
                ++ cr_attrs cr in
    let* rv := rm_hadamard_product m vals in
    Ok (if ro_is_dummy ro then [addr_x pt_id; addr_y pt_id] ++ skipn 2 rv else rv).

  (** structs.rs 1365-1383: the four scalars revealed for one output, masked by the output's own reveal map *)
  Definition memo_output_vals (ro : RecordOpening) : res (list F) :=
    rm_hadamard_product (reveal_map (policy (asset_def ro)))
      [addr_x (address (pub_key ro)); addr_y (address (pub_key ro)); f_of_u128 (amount ro); blind ro].

  (** structs.rs 1300-1390 *)
  Definition memo_transfer_amount (input_ros : list RecordOpening) : res Amount :=
    ok_or (safe_sum_amount (map amount (filter (fun r => negb (is_dummy_def (asset_def r))) (skipn 1 input_ros))))
          InvalidParameter.
  Definition memo_for_transfer_note (input_ros output_ros : list RecordOpening) (creds : list ExpirableCredential)
      (r : Fj) : res ViewableMemo :=
    let* ad := get_asset_def_in_transfer_txn input_ros in
    if is_dummy_def ad then Err InternalError else
    let* amt := memo_transfer_amount input_ros in
    let vpk := viewer_pk (policy ad) in
    if negb (point_eqb vpk pt_id) && amount_ltb (reveal_threshold (policy ad)) amt then
      let* ins := mapM (fun rc => memo_input_vals (reveal_map (policy ad)) (fst rc) (snd rc))
                       (skipn 1 (combine input_ros creds)) in
      let* outs := mapM memo_output_vals (skipn 1 output_ros) in
      Ok (memo_of (viewer_encrypt vpk r (code ad :: concat ins ++ concat outs)))
    else memo_dummy_for_transfer_note (length input_ros) (length output_ros) r.

  (** ** ViewableData (structs.rs 1424-1590) *)
  Record ViewableData := mkVD {
    vd_asset_code : AssetCode;
    vd_user_address : option point;
    vd_amount : option Amount;
    vd_blind : option F;
    vd_attributes : list (option IdentityAttribute)
  }.

  (** structs.rs 1444-1472 *)
  Definition fetch_address (x y : F) (ad : AssetDefinition) : res (option point) :=
    match pt_of_xy (x, y) with
    | None => if rm_is_user_address_revealed (reveal_map (policy ad)) then Err FailedViewableMemoDecryption else Ok None
    | Some P => if rm_is_user_address_revealed (reveal_map (policy ad)) || point_eqb P pt_id then Ok (Some P) else Ok None
    end.
  (** structs.rs 1474-1487 *)
  Definition fetch_blind_factor (v : F) (ad : AssetDefinition) : option F :=
    if rm_is_blinding_factor_revealed (reveal_map (policy ad)) then Some v else None.
  (** structs.rs 1489-1514, from the note's asset definition and amount *)
  Definition vd_from_mint_note (data : list F) (ad : AssetDefinition) (mint_amount : Amount) : res ViewableData :=
    match data with
    | [x; y; b] =>
      let* ua := fetch_address x y ad in
      Ok (mkVD (code ad) ua (if rm_is_amount_revealed (reveal_map (policy ad)) then Some mint_amount else None)
               (fetch_blind_factor b ad) [])
    | _ => Err FailedViewableMemoDecryption
    end.

  Inductive InOrOut := VIn | VOut.
  (** structs.rs 1515-1590 *)
  Definition vd_amount_of (ad : AssetDefinition) (v : F) : res (option Amount) :=
    if rm_is_amount_revealed (reveal_map (policy ad)) then
      if 2 ^ 128 - 1 <? zv v then Err FailedViewableMemoDecryption
      else Ok (Some (w128 (from_le (firstn 16 (f_to_bytes_le v)))))
    else Ok None.
  Definition vd_from_xfr_data_and_asset (ad : AssetDefinition) (data : list F) (d : InOrOut) : res ViewableData :=
    if negb (length data =? match d with VIn => VIEWABLE_DATA_LEN | VOut => 4 end)%nat
    then Err FailedViewableMemoDecryption else
    match data with
    | x :: y :: v :: b :: attrs =>
      let* ua := fetch_address x y ad in
      let* am := vd_amount_of ad v in
      let* ats := match d with
                  | VIn => mapM (fun ia => let* rev := rm_is_ith_attribute_revealed (reveal_map (policy ad)) (fst ia) in
                                           Ok (if rev : bool then Some (snd ia) else None))
                                (combine (seq 0 (length attrs)) attrs)
                  | VOut => Ok (repeat None ATTRS_LEN)
                  end in
      Ok (mkVD (code ad) ua am (fetch_blind_factor b ad) ats)
    | _ => Panic (* unreachable: the length is 12 or 4 *)
    end.

  (** [for _ in 0..count { chunk = &plaintext[off..off+len]; ... }]: take [count] chunks of [len] > 0 scalars;
      slicing beyond the end panics.  The fuel [S (length data)] is never exhausted. *)
  Fixpoint process_chunks {A} (fuel : nat) (count : Z) (len : nat) (f : list F -> res A) (data : list F)
    : res (list A * list F) :=
    if count <=? 0 then Ok ([], data) else
    match fuel with
    | O => Panic
    | S fuel' =>
      if (length data <? len)%nat then Panic else
      let* a := f (firstn len data) in
      let* (l, rest) := process_chunks fuel' (count - 1) len f (skipn len data) in
      Ok (a :: l, rest)
    end.

  (** [usize] [len - 1] as an integer: underflow panics with overflow checks and wraps to 2^64 - 1 without *)
  Definition usize_pred (n : nat) : res Z :=
    match n with
    | O => if overflow_checks then Panic else Ok (2 ^ 64 - 1)
    | S n' => Ok (Z.of_nat n')
    end.

  Definition vd_not_dummy (d : ViewableData) : bool :=
    match vd_user_address d with None => true | Some P => negb (point_eqb P pt_id) end.

  (** keys.rs 379-434; the note enters through the lengths of its two lists and its viewing memo.  The product
      and sum computing [expected_len] are reduced modulo 2^64 (they cannot overflow unless the predecessor
      underflowed; with overflow checks that case has panicked before). *)
  Definition open_transfer_viewing_memo (kp : ViewerKeyPair) (ad : AssetDefinition)
      (n_nullifiers n_commitments : nat) (memo : ViewableMemo) : res (list ViewableData * list ViewableData) :=
    if negb (point_eqb (viewer_pub_key kp) (viewer_pk (policy ad))) then Err InvalidParameter else
    let* n_in := usize_pred n_nullifiers in
    let* n_out := usize_pred n_commitments in
    let plaintext := elgamal_decrypt kp (vm_ephemeral memo, vm_data memo) in
    let expected := (1 + n_in * Z.of_nat VIEWABLE_DATA_LEN + n_out * 4) mod 2 ^ 64 in
    if negb (Z.of_nat (length plaintext) =? expected) then Err FailedViewableMemoDecryption else
    match plaintext with
    | [] => Panic
    | c :: data =>
      if negb (zeqb (code ad) c) then Err FailedViewableMemoDecryption else
      let* (ins, rest) := process_chunks (S (length data)) n_in VIEWABLE_DATA_LEN
                             (fun ch => vd_from_xfr_data_and_asset ad ch VIn) data in
      let* (outs, _) := process_chunks (S (length rest)) n_out 4 (fun ch => vd_from_xfr_data_and_asset ad ch VOut) rest in
      Ok (filter vd_not_dummy ins, outs)
    end.

  (** keys.rs 437-451 *)
  Definition open_mint_viewing_memo (kp : ViewerKeyPair) (ad : AssetDefinition) (mint_amount : Amount)
      (memo : ViewableMemo) : res ViewableData :=
    let plaintext := elgamal_decrypt kp (vm_ephemeral memo, vm_data memo) in
    if negb (length plaintext =? 3)%nat then Err FailedViewableMemoDecryption
    else vd_from_mint_note plaintext ad mint_amount.
End Memo.

(** ** Receiver memos (structs.rs 1592-1655) *)

(** The serde/bincode byte format of a record opening is external; what is used of it is the round trip. *)
Class RoCodec {C : CapConfig} := {
  ro_encode : RecordOpening -> bytes;
  ro_decode : bytes -> option RecordOpening
}.
Definition RoCodecLaws {C : CapConfig} (K : RoCodec) : Prop := forall r, ro_decode (ro_encode r) = Some r.

Section Receiver.
  Context {C : CapConfig} {K : RoCodec}.
  Definition ReceiverMemo := aead_ctxt.
  (** structs.rs 1605-1617; [rnd] is the encryption randomness *)
  Definition receiver_memo_from_ro (rnd : aead_rand) (ro : RecordOpening) (label : bytes) : res ReceiverMemo :=
    ok_or (aead_encrypt (uenc_key (pub_key ro)) rnd (ro_encode ro) label) FailedPrimitives.
  (** structs.rs 1624-1653 *)
  Definition receiver_memo_decrypt (m : ReceiverMemo) (kp : UserKeyPair) (rc : RecordCommitment) (label : bytes)
    : res RecordOpening :=
    let* b := ok_or (aead_decrypt (enc_dk kp) m label) FailedPrimitives in
    let* ro := ok_or (ro_decode b) DeserializationError in
    if negb (user_pub_key_eqb (pub_key ro) (user_pub_key kp)) then Err InternalError else
    if negb (zeqb (derive_record_commitment ro) rc) then Err InvalidParameter else
    Ok ro.
End Receiver.
