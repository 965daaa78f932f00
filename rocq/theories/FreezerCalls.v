(** What the calls of a freezer do: freezing and releasing the records of a user. *)
From Coq Require Import ZifyBool ZifyNat.
From Verif Require Import Base Config Structs Keys Utils Memo Plonk Witness Circuits Relation GadgetProofs Snark Notes Serde Ledger Wallet WalletSpec Roles RolesSpec FreezerSpec
  CodecProofs PolicyProofs UtilsProofs MemoProofs NoteProofs NoteGen NoteGen2 NoteFacts WalletProofs FreezerBooks.
From Coq Require Import Permutation.

Section Calls.
  Context {C : CapConfig} (L : CapLaws C) {S : Snark C} {K : @RoCodec C} {E : MemoSer C}.

  (** the pending changes that a call uses *)
  Definition call_pending (f : Freezer) (freeze : bool) := if freeze then fm_freezing f else fm_releasing f.
  Definition set_pending (f : Freezer) (freeze : bool) m := if freeze then fm_set_freezing f m else fm_set_releasing f m.
  (** the inputs of a freeze note: the records between two dummies *)
  Definition call_inputs (depth : nat) (r : FreezeUserRand) (freeze : bool) (is : list FreezeNoteInput) : list FreezeNoteInput :=
    dummy_freeze_input depth (fu_kp0 r) (fu_blind0 r) (call_flag freeze) :: is ++ [dummy_freeze_input depth (fu_kp1 r) (fu_blind1 r) (call_flag freeze)].

  Record freeze_made (g : srs) (depth : nat) (f : Freezer) (r : FreezeUserRand) (user : point) (fee : Amount) (leaves : list F) (freeze : bool)
      (f' : Freezer) (n : FreezeNote) (memos : list ReceiverMemo) (sg : Fj * point)
      (records : list Owned) (x : Owned) (a : AccMemberWitness) (info : TxnFeeInfo) (chg : RecordOpening) (is : list FreezeNoteInput)
      (keys : FreezeProvingKey * FreezeVerifyingKey) (sk : Fj) (outs : list RecordOpening) (m : list (Nullifier * Change)) : Prop := {
    fd_book : amap_get user (call_book f freeze) = Some records;
    fd_fee : find_record_for_fee (fm_wallet f) fee = Ok x;
    fd_look : lookup_from_tree depth leaves (snd x) = Ok a;
    fd_info : txn_fee_info_new (fu_fee_blind r) (mkFeeInput (fst x) a (w_kp (fm_wallet f))) fee = Ok (info, chg);
    fd_inputs : freeze_inputs (fm_kp f) depth leaves records = Ok is;
    fd_keys : freeze_preprocess g (fu_key r) (length (call_inputs depth r freeze is) + 1) depth = Ok keys;
    fd_gen : freeze_generate (fu_note r) (call_inputs depth r freeze is) info (fst keys) = Ok (n, sk, outs);
    fd_memos : payment_memos (fu_enc r) 0 outs = Ok memos;
    fd_sign : sign_receiver_memos sk memos = Ok sg;
    fd_pending : note_changes (fm_kp f) outs records (call_pending f freeze) = Ok m;
    fd_after : f' = fm_set_wallet (set_pending f freeze m)
                 (set_chg (mark_unconfirmed_spent (fm_wallet f) (user_nullify (w_kp (fm_wallet f)) pt_id (snd x) (derive_record_commitment (fst x))) x)
                    (set_insert ro_eqb chg (w_pending_chg (fm_wallet f))))
  }.

  Lemma call_ok g depth f r user fee leaves freeze f' n memos sg :
    freeze_user_internal g depth f r user fee leaves freeze = (f', Ok (n, memos, sg)) ->
    exists records x a info chg is keys sk outs m, freeze_made g depth f r user fee leaves freeze f' n memos sg records x a info chg is keys sk outs m.
  Proof.
    unfold freeze_user_internal. change (if freeze then fm_freezable f else fm_releasable f) with (call_book f freeze).
    destruct (amap_get user (call_book f freeze)) as [records|] eqn:HB; [|discriminate].
    match goal with |- context [match ?q with Ok _ => _ | Err _ => _ | Panic => _ end] => destruct q as [[x a]| |] eqn:HX end; try discriminate.
    match goal with |- context [match ?q with Ok _ => _ | Err _ => _ | Panic => _ end] => destruct q as [[[[[n' memos'] sg'] chg] m]| |] eqn:HG end; try discriminate.
    intros H. injection H as <- -> -> ->.
    apply bind_ok in HX. destruct HX as (x' & HF & HX). apply bind_ok in HX. destruct HX as (a' & HLk & HX). injection HX as -> ->.
    apply bind_ok in HG. destruct HG as ([info chg'] & HI & HG). apply unwrap_ok in HI.
    apply bind_ok in HG. destruct HG as (is & His & HG). apply bind_ok in HG. destruct HG as (keys & HK & HG). apply unwrap_ok in HK.
    apply bind_ok in HG. destruct HG as ([[n' sk] outs] & HN & HG). apply unwrap_ok in HN.
    apply bind_ok in HG. destruct HG as (memos' & HM & HG). apply unwrap_ok in HM.
    apply bind_ok in HG. destruct HG as (sg' & HS & HG). apply bind_ok in HG. destruct HG as (m' & HC & HG). injection HG as -> -> -> -> ->.
    exists records, x, a, info, chg, is, keys, sk, outs, m. constructor; auto. destruct freeze; reflexivity.
  Qed.
  (** a call that fails marks at most the fee record *)
  Lemma call_fails g depth f r user fee leaves freeze f' e :
    freeze_user_internal g depth f r user fee leaves freeze = (f', e) -> (forall y, e <> Ok y) ->
    f' = f \/ exists x, find_record_for_fee (fm_wallet f) fee = Ok x /\
      f' = fm_set_wallet f (mark_unconfirmed_spent (fm_wallet f) (user_nullify (w_kp (fm_wallet f)) pt_id (snd x) (derive_record_commitment (fst x))) x).
  Proof.
    unfold freeze_user_internal. destruct (amap_get user _) as [records|] eqn:HB; [|intros [= <- _]; auto].
    match goal with |- context [match ?q with Ok _ => _ | Err _ => _ | Panic => _ end] => destruct q as [[x a]| |] eqn:HX end; [|intros [= <- _]; auto|intros [= <- _]; auto].
    apply bind_ok in HX. destruct HX as (x' & HF & HX). apply bind_ok in HX. destruct HX as (a' & HLk & HX). injection HX as -> ->.
    match goal with |- context [match ?q with Ok _ => _ | Err _ => _ | Panic => _ end] => destruct q as [[[[[n' memos'] sg'] chg] m]| |] eqn:HG end.
    - intros H HE. injection H as _ He. exfalso. exact (HE _ (eq_sym He)).
    - intros [= <- _] _. right. exists x. auto.
    - intros [= <- _] _. right. exists x. auto.
  Qed.

  (** *** The inputs *)
  Lemma freeze_inputs_spec kp depth leaves l : forall is, freeze_inputs kp depth leaves l = Ok is ->
    Forall2 (fun x i => zi_ro i = fst x /\ zi_kp i = kp /\ lookup_from_tree depth leaves (snd x) = Ok (zi_acc i) /\ acc_uid (zi_acc i) = snd x) l is.
  Proof.
    induction l as [|[ro uid] l IH]; intros is H; cbn [freeze_inputs] in H; [injection H as <-; constructor|].
    apply bind_ok in H. destruct H as (a & Ha & H). apply bind_ok in H. destruct H as (is' & His & H). injection H as <-.
    constructor; [|apply IH, His]. cbn [zi_ro zi_kp zi_acc fst snd]. repeat split; auto. apply lookup_from_tree_spec in Ha. destruct Ha as [_ ->]. reflexivity.
  Qed.
  Definition outs_from (bl : nat -> F) (k : nat) (inputs : list FreezeNoteInput) : list RecordOpening :=
    map (fun ni => freeze_flip_ro (bl (fst ni)) (zi_ro (snd ni))) (combine (seq k (length inputs)) inputs).
  Lemma outs_from_cons bl k i l : outs_from bl k (i :: l) = freeze_flip_ro (bl k) (zi_ro i) :: outs_from bl (Datatypes.S k) l.
  Proof. reflexivity. Qed.
  Lemma outs_from_nth bl l : forall k i, nth_error (outs_from bl k l) i = option_map (fun x => freeze_flip_ro (bl (k + i)%nat) (zi_ro x)) (nth_error l i).
  Proof.
    induction l as [|x l IH]; intros k [|i]; try reflexivity; rewrite outs_from_cons; cbn [nth_error].
    - cbn [option_map]. rewrite Nat.add_0_r. reflexivity.
    - rewrite IH. replace (Datatypes.S k + i)%nat with (k + Datatypes.S i)%nat by lia. reflexivity.
  Qed.
  Lemma dummy_is_dummy depth kp bl fl b : ro_is_dummy (freeze_flip_ro b (zi_ro (dummy_freeze_input depth kp bl fl))) = true.
  Proof. unfold ro_is_dummy. apply (is_dummy_iff L). reflexivity. Qed.

  Definition null_of (kp : FreezerKeyPair) (x : Owned) : Nullifier := freezer_nullify kp (address (pub_key (fst x))) (snd x) (derive_record_commitment (fst x)).
  Lemma note_changes_real kp depth bl dkp dbl fl l is m : forall k,
    Forall2 (fun (x : Owned) i => zi_ro i = fst x) l is -> Forall (fun x : Owned => ro_is_dummy (fst x) = false) l ->
    NoDup (map fst m) ->
    exists m', note_changes kp (outs_from bl k (is ++ [dummy_freeze_input depth dkp dbl fl])) l m = Ok m' /\ NoDup (map fst m') /\
      (forall nl v, map_get nl m' = Some v -> map_get nl m = Some v \/
         exists i x, nth_error l i = Some x /\ nl = null_of kp x /\ v = (address (pub_key (fst x)), x, freeze_flip_ro (bl (k + i)%nat) (fst x))) /\
      (forall nl, ~ In nl (map (null_of kp) l) -> map_get nl m' = map_get nl m) /\
      (forall i x, nth_error l i = Some x -> NoDup (map (null_of kp) l) ->
         map_get (null_of kp x) m' = Some (address (pub_key (fst x)), x, freeze_flip_ro (bl (k + i)%nat) (fst x))).
  Proof.
    intros k F2. revert k m. induction F2 as [|x i l is Hx F2 IH]; intros k m FD N.
    - cbn [app]. rewrite outs_from_cons. cbn [note_changes]. rewrite dummy_is_dummy. cbn [outs_from length seq combine map note_changes].
      exists m. split; [reflexivity|]. split; [exact N|]. split; [auto|]. split; [reflexivity|]. intros [|i] x H; discriminate.
    - inversion FD as [|? ? D1 D2]; subst. cbn [app]. rewrite outs_from_cons. cbn [note_changes].
      assert (Dx : ro_is_dummy (freeze_flip_ro (bl k) (zi_ro i)) = false) by (rewrite Hx; exact D1). rewrite Dx. destruct x as [ro uid]. cbn [fst snd] in *.
      set (v0 := (address (pub_key ro), (ro, uid), freeze_flip_ro (bl k) (zi_ro i))).
      set (nl0 := freezer_nullify kp (address (pub_key ro)) uid (derive_record_commitment ro)).
      destruct (IH (Datatypes.S k) (map_put nl0 v0 m) D2 (map_put_nodup _ _ _ N)) as (m' & H & N' & H1 & H2 & H3).
      exists m'. split; [exact H|]. split; [exact N'|].
      assert (E0 : null_of kp (ro, uid) = nl0) by reflexivity.
      split; [|split].
      + intros nl v G. apply H1 in G. destruct G as [G|(j & y & G1 & G2 & G3)].
        * rewrite map_get_put in G. destruct (zeqb_reflect nl nl0) as [->|Q]; [|auto]. right. exists 0%nat, (ro, uid). split; [reflexivity|]. split; [reflexivity|].
          injection G as <-. unfold v0. rewrite Nat.add_0_r, Hx. reflexivity.
        * right. exists (Datatypes.S j), y. split; [exact G1|]. split; [exact G2|]. rewrite G3. replace (k + Datatypes.S j)%nat with (Datatypes.S k + j)%nat by lia. reflexivity.
      + intros nl Hn. cbn [map] in Hn. rewrite H2; [|intros G; apply Hn; right; exact G]. rewrite map_get_put. destruct (zeqb_reflect nl nl0) as [->|Q]; [|reflexivity].
        exfalso. apply Hn. left. exact E0.
      + intros [|j] y G ND; cbn [nth_error] in G; cbn [map] in ND; apply NoDup_cons_iff in ND; destruct ND as [ND1 ND2].
        * injection G as <-. rewrite H2 by exact ND1. rewrite map_get_put. change (null_of kp (ro, uid)) with nl0. rewrite zeqb_refl. unfold v0. rewrite Nat.add_0_r, Hx. reflexivity.
        * rewrite (H3 j y G ND2). replace (k + Datatypes.S j)%nat with (Datatypes.S k + j)%nat by lia. reflexivity.
  Qed.
  (** what a call notes *)
  Lemma note_changes_call kp depth bl r freeze l is m :
    Forall2 (fun (x : Owned) i => zi_ro i = fst x) l is -> Forall (fun x : Owned => ro_is_dummy (fst x) = false) l -> NoDup (map fst m) ->
    exists m', note_changes kp (freeze_get_output_ros bl (call_inputs depth r freeze is)) l m = Ok m' /\ NoDup (map fst m') /\
      (forall nl v, map_get nl m' = Some v -> map_get nl m = Some v \/
         exists i x, nth_error l i = Some x /\ nl = null_of kp x /\ v = (address (pub_key (fst x)), x, freeze_flip_ro (bl (1 + i)%nat) (fst x))) /\
      (forall nl, ~ In nl (map (null_of kp) l) -> map_get nl m' = map_get nl m) /\
      (forall i x, nth_error l i = Some x -> NoDup (map (null_of kp) l) ->
         map_get (null_of kp x) m' = Some (address (pub_key (fst x)), x, freeze_flip_ro (bl (1 + i)%nat) (fst x))).
  Proof.
    intros F2 FD N. unfold call_inputs. change (freeze_get_output_ros bl ?i) with (outs_from bl 0 i).
    rewrite outs_from_cons. cbn [note_changes]. rewrite dummy_is_dummy. apply note_changes_real; auto.
  Qed.
End Calls.
