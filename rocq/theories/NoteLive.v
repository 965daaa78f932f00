(** Liveness of note generation: conditions under which [transfer_generate], [mint_generate] and [freeze_generate]
    succeed.  The heart is that the memo made by the API is the memo the circuit recomputes. *)
From Verif Require Import Base Config Structs Keys Utils Memo Plonk Witness Circuits Relation CircuitLogic CodecProofs PolicyProofs
  UtilsProofs MemoProofs GadgetProofs StructGadgetProofs SpendGadgetProofs TransferCircuitProofs MintCircuitProofs
  FreezeCircuitProofs CircuitShape CircuitTheorems Snark Notes NoteProofs NoteGen NoteGen2 Security.

Section Live.
  Context {C : CapConfig} {S : Snark C} (L : CapLaws C).

  (** ** Specification *)

  (** An input that its holder can spend in a tree of the given depth and root, up to the given expiry time. *)
  Record spendable (depth : nat) (root : F) (vu : u64) (i : TransferNoteInput) : Prop := {
    sp_path : length (acc_path (ti_acc i)) = depth;
    sp_owner : address (pub_key (ti_ro i)) = user_address (ti_kp i);
    sp_key : asset_def (ti_ro i) <> asset_def_dummy -> pub_key (ti_ro i) = user_pub_key (ti_kp i);
    sp_dummy : asset_def (ti_ro i) = asset_def_dummy -> zv (amount (ti_ro i)) = 0;
    sp_unfrozen : freeze_flag (ti_ro i) = Unfrozen;
    sp_member : asset_def (ti_ro i) <> asset_def_dummy ->
      acc_root (ti_acc i) = root /\
      merkle_root_of (f_of_u64 (acc_uid (ti_acc i))) (derive_record_commitment (ti_ro i)) (acc_path (ti_acc i)) = root;
    sp_cred : cred_pk (policy (asset_def (ti_ro i))) <> pt_id ->
      exists c, ti_cred i = Some c /\ cred_verify c vu = Ok tt /\ length (cr_attrs c) = 8%nat /\
                zv (cr_expiry c) < zv vu + 2 ^ 20
  }.

  (** A transfer of asset [d] that should go through: the first input and output are native, the other inputs are
      of [d] or dummies, the other outputs are of [d]. *)
  Record transferable (depth : nat) (root : F) (vu : u64) (inputs : list TransferNoteInput) (outputs : list RecordOpening)
      (fee : Amount) (d : AssetDefinition) : Prop := {
    tq_assets : exists i0 irest o0 orest,
      inputs = i0 :: irest /\ outputs = o0 :: orest /\
      asset_def (ti_ro i0) = asset_def_native /\ asset_def o0 = asset_def_native /\ transferred (map ti_ro irest) d /\
      (forall i, In i irest -> asset_def (ti_ro i) = asset_def_dummy \/ asset_def (ti_ro i) = d) /\
      (forall o, In o orest -> asset_def o = d) /\
      (** the two ways of reading the policy of [d] agree *)
      (viewer_pk (policy d) <> pt_id ->
         rm_bit (reveal_map (policy d)) 0 = rm_bit (reveal_map (policy d)) 1 /\
         zv (reveal_threshold (policy d)) < 2 ^ 127 + amt_sum (map ti_ro irest));
    tq_def : code d <> dummy_asset_code /\ (code d = native_asset_code -> d = asset_def_native) /\
             (freezer_pk (policy d) <> pt_id -> viewer_pk (policy d) <> pt_id);
    tq_spendable : forall i, In i inputs -> spendable depth root vu i;
    tq_outputs : forall o, In o outputs -> freeze_flag o = Unfrozen;
    tq_expiry : zv vu < 2 ^ 20;
    tq_balance : forall c, code_sum c (non_dummy (map ti_ro inputs)) =
                           code_sum c outputs + (if zeqb native_asset_code c then zv fee else 0);
    tq_amounts : amt_sum (map ti_ro inputs) < 2 ^ 127;
    tq_distinct : NoDup (map (fun i => user_nullify (ti_kp i) (freezer_pk (policy (asset_def (ti_ro i)))) (acc_uid (ti_acc i))
                                                    (derive_record_commitment (ti_ro i))) inputs)
  }.

  (** ** Helpers *)
  Lemma fsum_amounts l : amt_sum l < modulus -> zv (fsum (map (fun r => f_of_u128 (amount r)) l)) = amt_sum l.
  Proof.
    intros H. assert (E : isum (map (fun r => f_of_u128 (amount r)) l) = amt_sum l).
    { clear H. induction l as [|r l IH]; [reflexivity|]. rewrite amt_sum_cons. cbn [map isum fold_right].
      fold (isum (map (fun r => f_of_u128 (amount r)) l)). rewrite IH, zv_f_of_u128. reflexivity. }
    rewrite <- E in *. apply fsum_isum, H.
  Qed.
  Lemma reveal_bit_rm m i : (i < 12)%nat -> reveal_bit (rm_to_scalar m) i = rm_bit m i.
  Proof. intros H. unfold reveal_bit, VIEWABLE_DATA_LEN. destruct rm_scalar_spec as (_ & _ & K). apply K, H. Qed.
  Lemma cred_dummy_ok : exists c, cred_dummy_unexpired = Ok c /\ length (cr_attrs c) = 8%nat /\ zv (cr_expiry c) = 2 ^ 20 - 1.
  Proof. unfold cred_dummy_unexpired, cred_create. cbn [attr_default_vector repeat length ATTRS_LEN Nat.eqb negb map_err]. eexists; conjs; reflexivity. Qed.
  Definition pick_def (ad : AssetDefinition) (i : TransferNoteInput) : AssetDefinition :=
    if negb (is_native (asset_def (ti_ro i))) && negb (is_dummy_def (asset_def (ti_ro i))) then asset_def (ti_ro i) else ad.
  Lemma pick_keep d l : (forall i, In i l -> asset_def (ti_ro i) = asset_def_dummy \/ asset_def (ti_ro i) = d) ->
    forall b, is_native d = true \/ b = d -> fold_left pick_def l b = b.
  Proof.
    induction l as [|j l IH]; intros HI b Hb; [reflexivity|]. cbn [fold_left].
    assert (E : pick_def b j = b).
    { unfold pick_def. destruct (HI j (or_introl eq_refl)) as [Ej|Ej]; rewrite Ej.
      - assert (E : is_dummy_def asset_def_dummy = true) by (apply (is_dummy_iff L); reflexivity). rewrite E, andb_false_r. reflexivity.
      - destruct Hb as [->| ->]; [reflexivity|]. destruct (_ && _); reflexivity. }
    rewrite E. apply IH; auto. intros; apply HI; right; auto.
  Qed.
  Lemma witness_def l d : (forall i, In i l -> asset_def (ti_ro i) = asset_def_dummy \/ asset_def (ti_ro i) = d) ->
    transferred (map ti_ro l) d -> fold_left pick_def l asset_def_native = d.
  Proof.
    induction l as [|i l IH]; intros HI HT; cbn [fold_left map] in *; [inversion HT; reflexivity|].
    assert (HI' : forall x, In x l -> asset_def (ti_ro x) = asset_def_dummy \/ asset_def (ti_ro x) = d) by (intros; apply HI; right; auto).
    inversion HT as [|r l0 d0 Hd HT' E1 E2|r l0 Hd E1 E2]; subst.
    - unfold pick_def at 2. apply (is_dummy_iff L) in Hd. rewrite Hd, andb_false_r. apply IH; auto.
    - unfold pick_def at 2. assert (Hdd : is_dummy_def (asset_def (ti_ro i)) = false) by (apply not_true_iff_false; rewrite (is_dummy_iff L); exact Hd).
      rewrite Hdd, andb_true_r. destruct (is_native (asset_def (ti_ro i))) eqn:En; cbn [negb].
      + rewrite (pick_keep (asset_def (ti_ro i))) by auto. symmetry. apply (is_native_iff L), En.
      + apply (pick_keep (asset_def (ti_ro i))); auto.
  Qed.
  Lemma get_def i0 irest d : asset_def i0 = asset_def_native -> transferred irest d -> get_asset_def_in_transfer_txn (i0 :: irest) = Ok d.
  Proof.
    intros E HT. unfold get_asset_def_in_transfer_txn. assert (En : is_native (asset_def i0) = true) by (apply (is_native_iff L); auto).
    rewrite En. cbn [negb]. apply (transferred_iff L) in HT. subst d. unfold xfr_def.
    change (fun r => negb (is_dummy_def (asset_def r))) with (fun r => negb (asset_def_eqb (asset_def r) asset_def_dummy)).
    destruct (find _ irest); [reflexivity|]. rewrite E. reflexivity.
  Qed.

  Lemma Forall2_maps {A B A' B'} (R : A -> B -> Prop) (P : B' -> A' -> Prop) (f : B -> B') (g : A -> A') k l :
    Forall2 R k l -> (forall x y, In x k -> In y l -> R x y -> P (f y) (g x)) -> Forall2 P (map f l) (map g k).
  Proof. induction 1 as [|x y k l HR H IH]; intros HP; cbn; constructor; [apply HP; cbn; auto|]. apply IH. intros; apply HP; cbn; auto. Qed.
  Lemma zv_f0 : zv (f0 : F) = 0.
  Proof. unfold f0. rewrite zv_fz. apply Z.mod_0_l. pose proof modulus_pos; lia. Qed.
  Lemma policy_empty_weak_dummy : policy_empty_weak (pol_value (policy asset_def_dummy)).
  Proof.
    unfold policy_empty_weak. cbn [policy asset_def_dummy policy_default pol_value po_viewer po_cred po_freezer po_map po_threshold viewer_pk cred_pk freezer_pk reveal_map reveal_threshold].
    rewrite (no_key_id L). conjs; reflexivity.
  Qed.
  Lemma cred_signed_ok c now : cred_verify c now = Ok tt -> cred_signed (cred_value c).
  Proof.
    unfold cred_verify. destruct (cred_is_expired c now); [discriminate|]. destruct (sig_ok _ _ _) eqn:E; [|discriminate]. intros _.
    unfold cred_signed, cred_message. cbn [cred_value cr_v_creator cr_v_expiry cr_v_addr cr_v_attrs cr_v_sig].
    rewrite (csig_agrees L). destruct (cr_cred c) as [s R]. exact E.
  Qed.

  Section T.
    Context depth root vu inputs outputs fee d (Q : transferable depth root vu inputs outputs fee d).

    Lemma q_dummy r : In r (map ti_ro inputs) -> asset_def r = asset_def_dummy -> zv (amount r) = 0.
    Proof. intros Hr. apply in_map_iff in Hr. destruct Hr as (i & <- & Hi). apply (sp_dummy _ _ _ _ (tq_spendable _ _ _ _ _ _ _ Q i Hi)). Qed.
    Lemma q_not_dummy : d <> asset_def_dummy.
    Proof. intros E. destruct (tq_def _ _ _ _ _ _ _ Q) as (H & _). apply H. rewrite E. reflexivity. Qed.
    Lemma native_not_dummy : asset_def_native <> asset_def_dummy.
    Proof. intros E. apply (f_equal code) in E. apply native_neq_dummy, E. Qed.
    (** all definitions that occur *)
    Lemma q_in_defs i : In i inputs -> asset_def (ti_ro i) = asset_def_dummy \/ asset_def (ti_ro i) = asset_def_native \/ asset_def (ti_ro i) = d.
    Proof.
      intros Hi. destruct (tq_assets _ _ _ _ _ _ _ Q) as (i0 & irest & o0 & orest & Ei & Eo & Di & Do & HT & HI & HO & HV).
      rewrite Ei in Hi. destruct Hi as [<-|Hi]; auto. destruct (HI i Hi); auto.
    Qed.
    Lemma q_out_defs o : In o outputs -> asset_def o = asset_def_native \/ asset_def o = d.
    Proof.
      intros Hi. destruct (tq_assets _ _ _ _ _ _ _ Q) as (i0 & irest & o0 & orest & Ei & Eo & Di & Do & HT & HI & HO & HV).
      rewrite Eo in Hi. destruct Hi as [<-|Hi]; auto.
    Qed.
    Lemma q_code i : In i inputs -> (code (asset_def (ti_ro i)) = dummy_asset_code <-> asset_def (ti_ro i) = asset_def_dummy).
    Proof.
      intros Hi. split; [|intros ->; reflexivity]. intros E. destruct (q_in_defs i Hi) as [K|[K|K]]; auto.
      - rewrite K in E. exfalso. apply native_neq_dummy, E.
      - rewrite K in E. exfalso. apply (proj1 (tq_def _ _ _ _ _ _ _ Q)), E.
    Qed.

    Lemma q_check_asset : check_asset_def (map ti_ro inputs) outputs = Ok tt.
    Proof.
      destruct (tq_assets _ _ _ _ _ _ _ Q) as (i0 & irest & o0 & orest & Ei & Eo & Di & Do & HT & HI & HO & HV).
      apply (check_asset_def_iff L). exists (ti_ro i0), (map ti_ro irest), o0, orest, d. conjs; auto.
      - rewrite Ei. reflexivity.
      - intros r Hr. apply in_map_iff in Hr. destruct Hr as (i & <- & Hi). auto.
      - intros r Hr Hf. assert (K : asset_def r = asset_def_dummy \/ asset_def r = asset_def_native \/ asset_def r = d).
        { apply in_app_or in Hr. destruct Hr as [Hr|Hr].
          - apply in_map_iff in Hr. destruct Hr as (i & <- & Hi). apply q_in_defs, Hi.
          - destruct (q_out_defs r Hr); auto. }
        destruct K as [K|[K|K]]; rewrite K in *; try (exfalso; apply Hf; reflexivity).
        apply (tq_def _ _ _ _ _ _ _ Q), Hf.
    Qed.
    Lemma q_check_dummy : check_dummy_inputs (map ti_ro inputs) = Ok tt.
    Proof.
      pose proof q_dummy as HD.
      destruct (tq_assets _ _ _ _ _ _ _ Q) as (i0 & irest & o0 & orest & Ei & Eo & Di & Do & HT & HI & HO & HV).
      rewrite Ei in *. unfold check_dummy_inputs. cbn [map].
      assert (E : ro_is_dummy (ti_ro i0) = false).
      { unfold ro_is_dummy. apply not_true_iff_false. rewrite (is_dummy_iff L), Di. apply native_not_dummy. }
      rewrite E. destruct (existsb _ _) eqn:Ex; [|reflexivity]. exfalso. apply existsb_exists in Ex. destruct Ex as (r & Hr & K).
      apply andb_true_iff in K. destruct K as [K1 K2]. apply (is_dummy_iff L) in K1. rewrite (HD r) in K2; auto; [discriminate K2|]. right. exact Hr.
    Qed.
    Lemma q_amt : amt_sum (non_dummy (map ti_ro inputs)) = amt_sum (map ti_ro inputs).
    Proof. apply (amt_sum_non_dummy L), q_dummy. Qed.
    (** the plain sums *)
    Lemma q_sums : amt_sum (map ti_ro inputs) = amt_sum outputs + zv fee.
    Proof.
      rewrite <- q_amt.
      assert (Ci : forall r, In r (non_dummy (map ti_ro inputs)) -> code (asset_def r) = native_asset_code \/ code (asset_def r) = code d).
      { intros r Hr. apply (non_dummy_In L) in Hr. destruct Hr as [Hr Hd]. apply in_map_iff in Hr. destruct Hr as (i & <- & Hi).
        destruct (q_in_defs i Hi) as [K|[K|K]]; [contradiction|left|right]; rewrite K; reflexivity. }
      assert (Co : forall r, In r outputs -> code (asset_def r) = native_asset_code \/ code (asset_def r) = code d).
      { intros r Hr. destruct (q_out_defs r Hr) as [K|K]; [left|right]; rewrite K; reflexivity. }
      rewrite (two_codes _ _ Ci), (two_codes _ _ Co). pose proof (tq_balance _ _ _ _ _ _ _ Q native_asset_code) as B1. rewrite zeqb_refl in B1.
      pose proof (tq_balance _ _ _ _ _ _ _ Q (code d)) as B2. destruct (zeqb native_asset_code (code d)); lia.
    Qed.
    Lemma q_out_small : amt_sum outputs < 2 ^ 127.
    Proof. pose proof q_sums. pose proof (tq_amounts _ _ _ _ _ _ _ Q). pose proof (amount_range fee). lia. Qed.
    Lemma q_check_balance : check_balance (map ti_ro inputs) outputs = Ok fee.
    Proof.
      apply (check_balance_exact L); [apply q_check_asset|apply q_check_dummy| |apply (tq_amounts _ _ _ _ _ _ _ Q)|apply q_out_small|apply (tq_balance _ _ _ _ _ _ _ Q)].
      intros r Hr Hc. apply in_map_iff in Hr. destruct Hr as (i & <- & Hi). destruct (q_in_defs i Hi) as [K|[K|K]]; auto.
      - rewrite K in Hc. exfalso. symmetry in Hc. apply native_neq_dummy, Hc.
      - rewrite K in *. apply (tq_def _ _ _ _ _ _ _ Q), Hc.
    Qed.
    Lemma q_check_pub : check_input_pub_keys inputs = Ok tt.
    Proof.
      unfold check_input_pub_keys. apply fail_if_ok, negb_false_iff, forallb_forall. intros i Hi. apply filter_In in Hi. destruct Hi as [Hi Hd].
      apply (user_pub_key_eqb_spec L). apply (sp_key _ _ _ _ (tq_spendable _ _ _ _ _ _ _ Q i Hi)).
      apply negb_true_iff, not_true_iff_false in Hd. rewrite (is_dummy_iff L) in Hd. exact Hd.
    Qed.
    Lemma q_check_unfrozen : check_unfrozen (map ti_ro inputs) outputs = Ok tt.
    Proof.
      unfold check_unfrozen. apply fail_if_ok. apply existsb_false. intros r Hr. assert (E : freeze_flag r = Unfrozen).
      { apply in_app_or in Hr. destruct Hr as [Hr|Hr]; [|apply (tq_outputs _ _ _ _ _ _ _ Q), Hr].
        apply in_map_iff in Hr. destruct Hr as (i & <- & Hi). apply (sp_unfrozen _ _ _ _ (tq_spendable _ _ _ _ _ _ _ Q i Hi)). }
      rewrite E. reflexivity.
    Qed.
    Lemma q_first : exists i0 irest, inputs = i0 :: irest /\ acc_root (ti_acc i0) = root.
    Proof.
      destruct (tq_assets _ _ _ _ _ _ _ Q) as (i0 & irest & o0 & orest & Ei & Eo & Di & Do & HT & HI & HO & HV).
      exists i0, irest. split; auto. apply (sp_member _ _ _ _ (tq_spendable _ _ _ _ _ _ _ Q i0 ltac:(rewrite Ei; left; auto))).
      rewrite Di. apply native_not_dummy.
    Qed.
    Lemma q_check_roots : check_and_get_roots inputs = Ok root.
    Proof.
      destruct q_first as (i0 & irest & Ei & E). unfold check_and_get_roots. rewrite Ei at 1. rewrite E.
      destruct (existsb _ _) eqn:Ex; [|reflexivity]. exfalso. apply existsb_exists in Ex. destruct Ex as (i & Hi & K).
      apply filter_In in Hi. destruct Hi as [Hi Hd]. unfold ro_is_dummy in Hd. apply negb_true_iff, not_true_iff_false in Hd. rewrite (is_dummy_iff L) in Hd.
      destruct (sp_member _ _ _ _ (tq_spendable _ _ _ _ _ _ _ Q i Hi) Hd) as [K1 _]. rewrite K1, zeqb_refl in K. discriminate K.
    Qed.
    Lemma q_check_creds : check_creds inputs vu = Ok tt.
    Proof.
      unfold check_creds. apply forM_ok. intros i Hi. destruct (point_eqb _ _) eqn:E; [reflexivity|]. cbn [negb].
      apply (point_eqb_neq L) in E. destruct (sp_cred _ _ _ _ (tq_spendable _ _ _ _ _ _ _ Q i Hi) E) as (c & -> & Hc & _). exact Hc.
    Qed.
    Lemma q_check_key : transfer_check_proving_key_consistency (length inputs) (length outputs) depth inputs (length outputs) = Ok tt.
    Proof.
      unfold transfer_check_proving_key_consistency. rewrite !Nat.eqb_refl. cbn [negb fail_if bind]. apply fail_if_ok, negb_false_iff, forallb_forall.
      intros i Hi. apply Nat.eqb_eq, (sp_path _ _ _ _ (tq_spendable _ _ _ _ _ _ _ Q i Hi)).
    Qed.

    (** the witness *)
    Lemma q_witness r : exists w, transfer_new_unchecked r inputs outputs = Ok w.
    Proof.
      unfold transfer_new_unchecked. destruct cred_dummy_ok as (dc & Edc & _).
      assert (E : exists l, mapM input_secret_of inputs = Ok l).
      { assert (HS : forall i, In i inputs -> exists s, input_secret_of i = Ok s).
        { intros i Hi. unfold input_secret_of. destruct (point_eqb _ _) eqn:E; [rewrite Edc; cbn [bind]; eauto|].
          apply (point_eqb_neq L) in E. destruct (sp_cred _ _ _ _ (tq_spendable _ _ _ _ _ _ _ Q i Hi) E) as (c & -> & _). cbn; eauto. }
        clear -HS. induction inputs as [|i l IH]; [cbn; eauto|]. destruct (HS i (or_introl eq_refl)) as (s & Es).
        destruct IH as (k & Ek); [intros; apply HS; right; auto|]. cbn [mapM]. rewrite Es. cbn [bind]. rewrite Ek. cbn; eauto. }
      destruct E as (l & ->). cbn; eauto.
    Qed.

    (** what the witness is made of *)
    Section W.
      Context r w (W : transfer_new_unchecked r inputs outputs = Ok w).
      Lemma w_def : tw_asset_def w = d.
      Proof.
        destruct (new_unchecked_inv L _ _ _ _ W) as (-> & _). unfold witness_asset_def.
        destruct (tq_assets _ _ _ _ _ _ _ Q) as (i0 & irest & o0 & orest & Ei & Eo & Di & Do & HT & HI & HO & HV). rewrite Ei.
        change (fold_left pick_def (i0 :: irest) asset_def_native = d). cbn [fold_left]. unfold pick_def at 2. rewrite Di.
        assert (En : is_native asset_def_native = true) by (apply (is_native_iff L); reflexivity). rewrite En. cbn [negb andb]. apply witness_def; auto.
      Qed.
      Lemma w_ros : map is_ro (tw_inputs w) = map ti_ro inputs.
      Proof. destruct (new_unchecked_inv L _ _ _ _ W) as (_ & _ & _ & Wi). apply map_inputs in Wi. apply Wi. Qed.
      Lemma w_cred s : In s (tw_inputs w) -> length (cr_attrs (is_cred s)) = 8%nat /\
        zv vu <= zv (cr_expiry (is_cred s)) < zv vu + 2 ^ 20 /\
        (cred_pk (policy (asset_def (is_ro s))) <> pt_id -> cred_verify (is_cred s) vu = Ok tt).
      Proof.
        intros Hs. destruct (new_unchecked_inv L _ _ _ _ W) as (_ & _ & _ & Wi).
        destruct (Forall2_In_r _ _ _ _ Wi Hs) as (i & Hi & _ & K2 & _ & K4 & K5). rewrite K2.
        destruct (point_eqb (cred_pk (policy (asset_def (ti_ro i)))) pt_id) eqn:E.
        - apply (point_eqb_spec L) in E. specialize (K4 E). destruct cred_dummy_ok as (dc & Edc & Ea & Ee). rewrite Edc in K4. injection K4 as K4.
          rewrite <- K4, Ea, Ee. pose proof (tq_expiry _ _ _ _ _ _ _ Q). pose proof (zv_range vu). conjs; try lia. intros; contradiction.
        - apply (point_eqb_neq L) in E. specialize (K5 E). destruct (sp_cred _ _ _ _ (tq_spendable _ _ _ _ _ _ _ Q i Hi) E) as (c & Ec & Hv & Hl & He).
          rewrite K5 in Ec. injection Ec as Ec. rewrite Ec. conjs; auto. unfold cred_verify, cred_is_expired in Hv.
          destruct (Z.ltb_spec (zv (cr_expiry c)) (zv vu)); [discriminate Hv|lia].
      Qed.
      Lemma w_input i : In i inputs -> exists s, In s (tw_inputs w) /\ is_kp s = ti_kp i /\ is_ro s = ti_ro i /\ is_acc s = ti_acc i.
      Proof.
        intros Hi. destruct (new_unchecked_inv L _ _ _ _ W) as (_ & _ & _ & Wi).
        destruct (Forall2_In_l _ _ _ _ Wi Hi) as (s & Hs & K1 & K2 & K3 & _). eauto 6.
      Qed.
      Lemma w_secret s : In s (tw_inputs w) -> exists i, In i inputs /\ is_kp s = ti_kp i /\ is_ro s = ti_ro i /\ is_acc s = ti_acc i.
      Proof.
        intros Hs. destruct (new_unchecked_inv L _ _ _ _ W) as (_ & _ & _ & Wi).
        destruct (Forall2_In_r _ _ _ _ Wi Hs) as (i & Hi & K1 & K2 & K3 & _). eauto 6.
      Qed.

      (** the memo exists *)
      Lemma w_memo : exists memo, memo_for_transfer_note (map ti_ro inputs) outputs (map is_cred (tw_inputs w)) r = Ok memo.
      Proof.
        destruct (tq_assets _ _ _ _ _ _ _ Q) as (i0 & irest & o0 & orest & Ei & Eo & Di & Do & HT & HI & HO & HV).
        assert (Eg : get_asset_def_in_transfer_txn (map ti_ro inputs) = Ok d) by (rewrite Ei; apply get_def; auto).
        unfold memo_for_transfer_note. rewrite Eg. cbn [bind].
        assert (Hd : is_dummy_def d = false) by (apply not_true_iff_false; rewrite (is_dummy_iff L); apply q_not_dummy). rewrite Hd.
        assert (Ha : exists a, memo_transfer_amount (map ti_ro inputs) = Ok a).
        { unfold memo_transfer_amount. rewrite safe_sum_spec, map_map. rewrite Ei. cbn [map skipn].
          change (zsum (map (fun x => zv (amount x)) (filter (fun r0 => negb (is_dummy_def (asset_def r0))) (map ti_ro irest)))) with (amt_sum (non_dummy (map ti_ro irest))).
          rewrite (amt_sum_non_dummy L).
          2:{ intros x Hx. apply q_dummy. rewrite Ei. right. exact Hx. }
          pose proof (tq_amounts _ _ _ _ _ _ _ Q) as HA. rewrite Ei in HA. cbn [map] in HA. rewrite amt_sum_cons in HA.
          pose proof (amount_range (amount (ti_ro i0))). destruct (Z.ltb_spec (amt_sum (map ti_ro irest)) (2 ^ 128)); [cbn; eauto|lia]. }
        destruct Ha as (a & ->). cbn [bind]. destruct (_ && _).
        - rewrite (mapM_map _ (fun rc => in_vals d (fst rc) (cr_attrs (snd rc)))).
          2:{ intros [x c] Hx. cbn [fst snd]. apply (memo_input_vals_eq L).
              assert (Hc : In c (map is_cred (tw_inputs w))).
              { rewrite combine_skipn1 in Hx. apply in_combine_r in Hx. destruct (map is_cred (tw_inputs w)); [destruct Hx|right; exact Hx]. }
              apply in_map_iff in Hc. destruct Hc as (s & <- & Hs). apply (w_cred s Hs). }
          cbn [bind]. rewrite (mapM_map _ out_vals) by (intros; apply memo_output_vals_eq). cbn [bind]. eauto.
        - unfold memo_dummy_for_transfer_note, usize_sub. rewrite map_length, Ei, Eo. cbn [length Nat.leb bind]. eauto.
      Qed.
      Lemma w_public : exists p, transfer_from_witness w vu = Ok p /\
        memo_for_transfer_note (map ti_ro inputs) outputs (map is_cred (tw_inputs w)) r = Ok (tp_memo p) /\
        p = mkTPI root native_asset_code vu fee
              (map (fun i => user_nullify (ti_kp i) (freezer_pk (policy (asset_def (ti_ro i)))) (acc_uid (ti_acc i)) (derive_record_commitment (ti_ro i))) inputs)
              (map derive_record_commitment outputs) (tp_memo p).
      Proof.
        destruct (new_unchecked_inv L _ _ _ _ W) as (_ & Wo & Wr & Wi). pose proof (map_inputs _ _ Wi) as [Mro Mnl].
        destruct w_memo as (memo & Hm).
        destruct (tq_assets _ _ _ _ _ _ _ Q) as (i0 & irest & o0 & orest & Ei & Eo & Di & Do & _).
        destruct q_first as (i0' & irest' & Ei' & Er). rewrite Ei in Ei'. apply cons_inj in Ei'. destruct Ei' as [<- <-].
        unfold transfer_from_witness.
        assert (Es : exists s0, hd_error (tw_inputs w) = Some s0 /\ is_acc s0 = ti_acc i0).
        { rewrite Ei in Wi. inversion Wi as [|? s0 ? ? (_ & _ & A & _) _ E1 E2]. exists s0. split; auto. }
        destruct Es as (s0 & -> & Ea). cbn [ok_or bind]. rewrite Wo, Eo. cbn [hd_error ok_or bind]. rewrite <- Eo.
        assert (E1 : safe_sum_amount (map (fun s => amount (is_ro s)) (filter (fun s => negb (is_dummy_def (asset_def (is_ro s)))) (tw_inputs w))) =
                     Some (w128 (amt_sum (map ti_ro inputs)))).
        { apply safe_sum_some. rewrite zv_w128_small.
          2:{ pose proof (tq_amounts _ _ _ _ _ _ _ Q). pose proof (amt_sum_nonneg (map ti_ro inputs)). lia. }
          rewrite <- q_amt. unfold amt_sum, non_dummy. rewrite <- Mro.
          rewrite <- (filter_map_comm is_ro (fun r => negb (is_dummy_def (asset_def r)))), !map_map. reflexivity. }
        assert (E2 : safe_sum_amount (map amount outputs) = Some (w128 (amt_sum outputs))).
        { apply safe_sum_some. rewrite zv_w128_small.
          2:{ pose proof q_out_small. pose proof (amt_sum_nonneg outputs). lia. }
          unfold amt_sum. rewrite map_map. reflexivity. }
        rewrite E1, E2. cbn [ok_or bind].
        rewrite !zv_w128_small by (pose proof (tq_amounts _ _ _ _ _ _ _ Q); pose proof q_out_small; pose proof (amt_sum_nonneg (map ti_ro inputs)); pose proof (amt_sum_nonneg outputs); lia).
        pose proof q_sums as HS. pose proof (amount_range fee). destruct (Z.leb_spec (amt_sum outputs) (amt_sum (map ti_ro inputs))); [|lia]. cbn [bind].
        rewrite Mro, Wr, Hm. cbn [bind]. eexists; split; [reflexivity|]. cbn [tp_memo]. split; [reflexivity|].
        rewrite Ea, Er, Mnl, Do. f_equal. apply zmod_ext. rewrite zv_w128_small; lia.
      Qed.

      Section P.
        Context p (HP : p = mkTPI root native_asset_code vu fee
              (map (fun i => user_nullify (ti_kp i) (freezer_pk (policy (asset_def (ti_ro i)))) (acc_uid (ti_acc i)) (derive_record_commitment (ti_ro i))) inputs)
              (map derive_record_commitment outputs) (tp_memo p))
          (HM : memo_for_transfer_note (map ti_ro inputs) outputs (map is_cred (tw_inputs w)) r = Ok (tp_memo p)).
        Let t := transfer_value w.
        Let q := transfer_pub_value p.
        Lemma p_input b i s : In i inputs -> In s (tw_inputs w) -> is_kp s = ti_kp i -> is_ro s = ti_ro i -> is_acc s = ti_acc i ->
          (if b : bool then asset_def (ti_ro i) = asset_def_native else asset_def (ti_ro i) = asset_def_dummy \/ asset_def (ti_ro i) = d) ->
          input_ok t q b (input_value s)
            (user_nullify (ti_kp i) (freezer_pk (policy (asset_def (ti_ro i)))) (acc_uid (ti_acc i)) (derive_record_commitment (ti_ro i))).
        Proof.
          intros Hi Hs K1 K2 K3 Hb. pose proof (tq_spendable _ _ _ _ _ _ _ Q i Hi) as SP. destruct (w_cred s Hs) as (C1 & C2 & C3).
          rewrite K2 in C3.
          assert (Enat : tq_native q = native_asset_code) by (unfold q; rewrite HP; reflexivity).
          constructor; cbn [input_value in_ro in_sk in_place in_cred]; rewrite ?K1, ?K2, ?K3, ?commitment_of_ro_value.
          - cbn [ro_flag ro_value]. rewrite (sp_unfrozen _ _ _ _ SP). reflexivity.
          - intros Hc. apply (q_code i Hi) in Hc. apply (sp_dummy _ _ _ _ SP) in Hc. cbn [ro_amount ro_value]. apply zmod_ext. rewrite zv_f_of_u128, zv_f0. exact Hc.
          - rewrite Enat. destruct b.
            + destruct (policy_empty_native L _ Hb) as [E1 E2]. split; auto.
            + split; intros Hc.
              * apply (q_code i Hi) in Hc. cbn [ro_pol ro_value]. rewrite Hc. apply policy_empty_weak_dummy.
              * unfold t, transfer_value. cbn [ro_pol ro_value tv_pol]. rewrite w_def. destruct Hb as [Hb|Hb]; [|rewrite Hb; reflexivity].
                exfalso. apply Hc. apply (q_code i Hi), Hb.
          - apply (owns_iff L). apply (sp_owner _ _ _ _ SP).
          - unfold nullifier_of. cbn [ro_pol ro_value pol_value po_freezer place_value pl_uid]. rewrite (spending_key_user L). reflexivity.
          - intros Hc. assert (Hd : asset_def (ti_ro i) <> asset_def_dummy) by (intros E; apply Hc, (q_code i Hi), E).
            destruct (sp_member _ _ _ _ SP Hd) as [_ E]. unfold root_from, q. cbn [place_value pl_uid pl_path]. rewrite E, HP. reflexivity.
          - cbn [cred_value cr_v_attrs]. exact C1.
          - cbn [cred_value cr_v_expiry]. unfold q. rewrite HP. cbn [transfer_pub_value tq_valid_until tp_valid_until]. unfold in_range, fsub.
            rewrite zv_fz, !zv_f_of_u64. rewrite Z.mod_small; [apply Z.ltb_lt; change (Z.of_nat MAX_TIMESTAMP_LEN) with 20; lia|].
            pose proof big_modulus. assert (2 ^ 20 < 2 ^ 200) by reflexivity. lia.
          - apply scalar_ok_fr.
          - intros Hc. apply (cred_signed_ok _ vu), C3. intros E. apply Hc. cbn [ro_pol ro_value pol_value po_cred]. apply (is_no_key L), E.
        Qed.
        Lemma p_output b o : In o outputs -> (if b : bool then asset_def o = asset_def_native else asset_def o = d) ->
          output_ok t q b (ro_value o) (derive_record_commitment o).
        Proof.
          intros Ho Hb. constructor.
          - cbn [ro_flag ro_value]. rewrite (tq_outputs _ _ _ _ _ _ _ Q o Ho). reflexivity.
          - destruct b.
            + destruct (policy_empty_native L _ Hb) as [E1 E2]. split; auto. unfold q. rewrite HP. exact E2.
            + unfold t, transfer_value. cbn [ro_code ro_pol ro_value tv_code tv_pol]. rewrite w_def, Hb. auto.
          - rewrite commitment_of_ro_value. reflexivity.
          - apply in_range_amount. pose proof q_out_small as HS. revert HS. clear -Ho. induction outputs as [|x l IH]; [destruct Ho|].
            rewrite amt_sum_cons. pose proof (amount_range (amount x)). pose proof (amt_sum_nonneg l). destruct Ho as [<-|Ho]; [lia|]. intros. apply IH; auto. lia.
        Qed.
        Lemma p_balanced : balanced t q.
        Proof.
          pose proof q_sums as HS. pose proof (tq_amounts _ _ _ _ _ _ _ Q) as HA. pose proof (tq_balance _ _ _ _ _ _ _ Q) as HB.
          pose proof q_dummy as HD. pose proof q_code as HC.
          destruct (tq_assets _ _ _ _ _ _ _ Q) as (i0 & irest & o0 & orest & Ei & Eo & Di & Do & HT & HI & HO & HV).
          destruct (new_unchecked_inv L _ _ _ _ W) as (_ & Wo & _ & _). pose proof w_ros as Mro.
          unfold balanced, transfer_in, transfer_out, fee_in, fee_change, tail_sum.
          assert (E1 : map (fun i => ro_amount (in_ro i)) (tv_ins t) = map (fun x => f_of_u128 (amount x)) (map ti_ro inputs)).
          { rewrite <- Mro. unfold t, transfer_value. cbn [tv_ins]. rewrite !map_map. reflexivity. }
          assert (E2 : map ro_amount (tv_outs t) = map (fun x => f_of_u128 (amount x)) outputs).
          { unfold t, transfer_value. cbn [tv_outs]. rewrite !map_map, Wo. reflexivity. }
          rewrite E1, E2. unfold t, q. rewrite HP. cbn [transfer_value transfer_pub_value tv_code tq_native tq_fee tp_native tp_fee]. rewrite w_def.
          rewrite Ei, Eo in *. cbn [map tl hd]. cbn [map] in HS, HA, HB. rewrite !amt_sum_cons in HS. rewrite amt_sum_cons in HA.
          assert (HD' : amt_sum (non_dummy (map ti_ro irest)) = amt_sum (map ti_ro irest)).
          { apply (amt_sum_non_dummy L). intros x Hx. apply HD. right. exact Hx. }
          pose proof (amount_range (amount (ti_ro i0))). pose proof (amount_range (amount o0)). pose proof (amount_range fee).
          pose proof (amt_sum_nonneg (map ti_ro irest)). pose proof (amt_sum_nonneg orest).
          pose proof big_modulus. assert (2 ^ 130 < 2 ^ 200) by reflexivity.
          assert (F1 : zv (fsum (map (fun x => f_of_u128 (amount x)) (map ti_ro irest))) = amt_sum (map ti_ro irest)) by (apply fsum_amounts; lia).
          assert (F2 : zv (fsum (map (fun x => f_of_u128 (amount x)) orest)) = amt_sum orest) by (apply fsum_amounts; lia).
          destruct (zeqb native_asset_code (code d)) eqn:Ec.
          - apply zmod_ext. rewrite !fadd_small; rewrite ?F1, ?F2, ?zv_f_of_u128; try rewrite fadd_small; rewrite ?F1, ?F2, ?zv_f_of_u128; lia.
          - assert (Hn : forall c : F, zeqb native_asset_code c = false -> native_asset_code <> c).
            { intros c E K. subst c. rewrite zeqb_refl in E. discriminate E. }
            assert (A1 : code_sum (code d) (non_dummy (ti_ro i0 :: map ti_ro irest)) = amt_sum (map ti_ro irest)).
            { unfold non_dummy. cbn [filter]. assert (Hd0 : is_dummy_def (asset_def (ti_ro i0)) = false).
              { apply not_true_iff_false. rewrite (is_dummy_iff L), Di. apply native_not_dummy. }
              rewrite Hd0. cbn [negb]. rewrite code_sum_cons, Di. change (code asset_def_native) with native_asset_code. rewrite Ec, Z.add_0_l.
              rewrite <- HD'. apply code_sum_all. intros x Hx. apply (non_dummy_In L) in Hx. destruct Hx as [Hx Hd]. apply in_map_iff in Hx. destruct Hx as (i & <- & Hi).
              destruct (HI i Hi) as [K|K]; [contradiction|rewrite K; reflexivity]. }
            assert (A2 : code_sum (code d) (o0 :: orest) = amt_sum orest).
            { rewrite code_sum_cons, Do. change (code asset_def_native) with native_asset_code. rewrite Ec, Z.add_0_l. apply code_sum_all. intros x Hx. rewrite (HO x Hx). reflexivity. }
            specialize (HB (code d)). rewrite Ec in HB. rewrite A1, A2 in HB. split; apply zmod_ext.
            + rewrite F1, F2. lia.
            + rewrite fadd_small; rewrite !zv_f_of_u128; lia.
        Qed.
        Lemma p_message : viewer_pk (policy d) <> pt_id -> rm_bit (reveal_map (policy d)) 0 = rm_bit (reveal_map (policy d)) 1 ->
          transfer_message t =
            code d :: concat (map (fun rc => in_vals d (fst rc) (cr_attrs (snd rc))) (combine (skipn 1 (map ti_ro inputs)) (skipn 1 (map is_cred (tw_inputs w)))))
                   ++ concat (map out_vals (skipn 1 outputs)).
        Proof.
          intros Hv Hbits.
          assert (HD : forall x, In x (tw_inputs w) -> zeqb (code (asset_def (is_ro x))) dummy_asset_code = is_dummy_def (asset_def (is_ro x))).
          { intros x Hx. destruct (w_secret x Hx) as (i & Hi & _ & -> & _). pose proof (q_code i Hi) as HC.
            destruct (zeqb_reflect (code (asset_def (ti_ro i))) dummy_asset_code) as [E|E].
            - symmetry. apply (is_dummy_iff L), HC, E.
            - symmetry. apply not_true_iff_false. rewrite (is_dummy_iff L). intros K. apply E, HC, K. }
          assert (HA : forall x, In x (tw_inputs w) -> length (cr_attrs (is_cred x)) = 8%nat) by (intros x Hx; apply (w_cred x Hx)).
          destruct (tq_assets _ _ _ _ _ _ _ Q) as (i0 & irest & o0 & orest & Ei & Eo & Di & Do & HT & HI & HO & HV).
          destruct (new_unchecked_inv L _ _ _ _ W) as (_ & Wo & _ & _). rewrite <- w_ros.
          unfold transfer_message, t, transfer_value. cbn [tv_code tv_pol tv_ins tv_outs]. rewrite w_def, Wo, Eo. f_equal. f_equal.
          - f_equal. destruct (tw_inputs w) as [|s0 srest]; [reflexivity|]. cbn [map tl skipn].
            assert (G : forall l, (forall x, In x l -> In x (s0 :: srest)) ->
              map (memo_of_input (po_map (pol_value (policy d)))) (map input_value l) =
              map (fun rc => in_vals d (fst rc) (cr_attrs (snd rc))) (combine (map is_ro l) (map is_cred l))).
            { induction l as [|x l IH]; intros Hl; [reflexivity|]. cbn [map combine fst snd]. rewrite IH by (intros; apply Hl; right; auto). f_equal.
              assert (Hx : In x (s0 :: srest)) by (apply Hl; left; auto). specialize (HD x Hx). specialize (HA x Hx).
              unfold memo_of_input, in_vals. cbn [input_value in_ro in_cred ro_value ro_code ro_owner ro_amount ro_blind cred_value cr_v_attrs pol_value po_map].
              assert (HA' : @length F (cr_attrs (is_cred x)) = 8%nat) by exact HA.
              rewrite HD, HA', !reveal_bit_rm by lia.
              assert (E : map (fun ka => shown (reveal_bit (rm_to_scalar (reveal_map (policy d))) (4 + fst ka)) (snd ka)) (combine (seq 0 ATTRS_LEN) (cr_attrs (is_cred x))) =
                          map (fun ia => sel (rm_bit (reveal_map (policy d)) (4 + fst ia)) (snd ia)) (combine (seq 0 8) (cr_attrs (is_cred x)))).
              { apply map_ext_in. intros [k v] Hk. apply in_combine_l in Hk. apply in_seq in Hk. cbn [fst snd]. rewrite reveal_bit_rm by lia. reflexivity. }
              destruct (is_dummy_def (asset_def (is_ro x))); cbn [app]; [|rewrite <- Hbits];
                exact (f_equal2 cons eq_refl (f_equal2 cons eq_refl (f_equal2 cons eq_refl (f_equal2 cons eq_refl E)))). }
            apply G. intros; right; auto.
          - f_equal. cbn [map tl skipn]. rewrite map_map. apply map_ext_in. intros o Ho. unfold memo_of_output, out_vals.
            cbn [ro_value ro_owner ro_amount ro_blind pol_value po_map]. rewrite !reveal_bit_rm by lia. rewrite (HO o Ho). reflexivity.
        Qed.
        Lemma p_viewing : under_limit t \/ po_viewer (tv_pol t) = no_key \/ transfer_memo_ok t (tq_memo q).
        Proof.
          pose proof q_dummy as HD. pose proof (tq_amounts _ _ _ _ _ _ _ Q) as HA. pose proof p_message as HMsg.
          destruct (tq_assets _ _ _ _ _ _ _ Q) as (i0 & irest & o0 & orest & Ei & Eo & Di & Do & HT & HI & HO & HV).
          assert (Et : tv_pol t = pol_value (policy d)) by (unfold t, transfer_value; cbn [tv_pol]; rewrite w_def; reflexivity).
          destruct (point_eqb (viewer_pk (policy d)) pt_id) eqn:Ev.
          { right; left. rewrite Et. cbn [pol_value po_viewer]. apply (is_no_key L), (point_eqb_spec L), Ev. }
          apply (point_eqb_neq L) in Ev. destruct (HV Ev) as [Hbits Hthr].
          assert (Eg : get_asset_def_in_transfer_txn (map ti_ro inputs) = Ok d) by (rewrite Ei; apply get_def; auto).
          assert (El : length (map is_cred (tw_inputs w)) = length (map ti_ro inputs)) by (rewrite <- w_ros, !map_length; reflexivity).
          assert (HD' : amt_sum (non_dummy (map ti_ro irest)) = amt_sum (map ti_ro irest)).
          { apply (amt_sum_non_dummy L). intros x Hx. apply HD. rewrite Ei. right. exact Hx. }
          destruct (memo_transfer_exact L _ _ _ _ _ _ Eg El HM) as [(_ & _ & _ & Em)|([K|K] & _)]; [|contradiction|].
          - right; right. unfold transfer_memo_ok. rewrite (HMsg Ev Hbits), Et. cbn [pol_value po_viewer].
            destruct (new_unchecked_inv L _ _ _ _ W) as (_ & _ & Wr & _).
            unfold t, transfer_value. cbn [tv_rand]. rewrite Wr, (celgamal_honest L), <- Em. reflexivity.
          - left. unfold above_threshold in K. rewrite Ei in K, HA. cbn [map skipn] in K, HA.
            change (zsum (map (fun x => zv (amount x)) (filter (fun r0 => negb (is_dummy_def (asset_def r0))) (map ti_ro irest)))) with (amt_sum (non_dummy (map ti_ro irest))) in K.
            rewrite HD' in K. rewrite amt_sum_cons in HA. pose proof (amount_range (amount (ti_ro i0))). pose proof (amt_sum_nonneg (map ti_ro irest)).
            pose proof big_modulus. assert (2 ^ 130 < 2 ^ 200) by reflexivity. pose proof (amount_range (reveal_threshold (policy d))).
            unfold under_limit, transfer_in, tail_sum. rewrite Et. cbn [pol_value po_threshold].
            assert (E1 : map (fun i => ro_amount (in_ro i)) (tv_ins t) = map (fun x => f_of_u128 (amount x)) (map ti_ro inputs)).
            { rewrite <- w_ros. unfold t, transfer_value. cbn [tv_ins]. rewrite !map_map. reflexivity. }
            rewrite E1, Ei. cbn [map tl]. unfold in_range, fsub. rewrite zv_fz, fsum_amounts by lia. rewrite zv_f_of_u128.
            rewrite Z.mod_small by lia. apply Z.ltb_lt. change (Z.of_nat AMOUNT_LEN) with 127. lia.
        Qed.
        Lemma p_relation : transfer_relation q t.
        Proof.
          destruct (new_unchecked_inv L _ _ _ _ W) as (_ & Wo & Wr & Wi).
          constructor.
          - pose proof p_input as PI. destruct (tq_assets _ _ _ _ _ _ _ Q) as (i0 & irest & o0 & orest & Ei & Eo & Di & Do & HT & HI & HO & HV).
            assert (En : tq_nullifiers q = map (fun i => user_nullify (ti_kp i) (freezer_pk (policy (asset_def (ti_ro i)))) (acc_uid (ti_acc i)) (derive_record_commitment (ti_ro i))) inputs) by (unfold q; rewrite HP; reflexivity).
            assert (Eti : tv_ins t = map input_value (tw_inputs w)) by reflexivity.
            rewrite En, Eti. rewrite Ei in *. inversion Wi as [|? s0 ? srest K0 KR E1 E2]. rewrite <- E2 in *. cbn [map Forall2_first]. split.
            + destruct K0 as (K1 & K2 & K3 & _). apply (PI true i0 s0); cbn; auto.
            + eapply Forall2_maps; [exact KR|]. cbv beta. intros xx yy Hx Hy (J1 & J2 & J3 & _). apply (PI false xx yy); cbn; auto.
          - pose proof p_output as PO. destruct (tq_assets _ _ _ _ _ _ _ Q) as (i0 & irest & o0 & orest & Ei & Eo & Di & Do & HT & HI & HO & HV).
            assert (En : tq_commitments q = map derive_record_commitment outputs) by (unfold q; rewrite HP; reflexivity).
            assert (Eti : tv_outs t = map ro_value outputs) by (unfold t, transfer_value; cbn [tv_outs]; rewrite Wo; reflexivity).
            rewrite En, Eti. rewrite Eo in *. cbn [map Forall2_first]. split.
            + apply (PO true); cbn; auto.
            + assert (G : forall l, (forall x, In x l -> In x orest) -> Forall2 (output_ok t q false) (map ro_value l) (map derive_record_commitment l)).
              { induction l as [|x l IH]; intros Hl; cbn [map]; constructor; [apply (PO false); [right|apply HO]; apply Hl; left; auto|]. apply IH. intros; apply Hl; right; auto. }
              apply G; auto.
          - apply p_balanced.
          - unfold t, transfer_value. cbn [tv_pol]. cbn [pol_value po_map]. unfold in_range. apply Z.ltb_lt. destruct rm_scalar_spec as (K & _). apply K.
          - unfold t, transfer_value. cbn [tv_rand]. apply scalar_ok_fr.
          - apply p_viewing.
        Qed.
      End P.
    End W.
  End T.

  (** ** Generation succeeds *)
  Lemma transfer_generate_live (SL : SnarkLaws S) g n_in n_out depth pk vk root vu inputs outputs fee d r extra :
    transfer_preprocess g n_in n_out depth = Ok (pk, vk) -> length inputs = n_in -> length outputs = n_out ->
    transferable depth root vu inputs outputs fee d ->
    exists n, transfer_generate r inputs outputs pk vu extra = Ok (n, tr_sig r) /\
      ta_root (tn_aux n) = root /\ ta_fee (tn_aux n) = fee.
  Proof.
    intros HPre Li Lo Q. destruct (q_witness _ _ _ _ _ _ _ Q (tr_enc r)) as (w & W).
    destruct (w_public _ _ _ _ _ _ _ Q _ _ W) as (p & Hp & HM & HP).
    pose proof (p_relation _ _ _ _ _ _ _ Q _ _ W p HP HM) as HR.
    apply transfer_preprocess_keys in HPre. destruct HPre as (s0 & Hb & Hk & E1 & E2 & E3 & _).
    destruct (new_unchecked_inv L _ _ _ _ W) as (_ & Wo & _ & Wi).
    assert (HS : map input_shape (tw_inputs w) = repeat (depth, ATTRS_LEN) n_in).
    { rewrite <- Li, (Forall2_len _ _ _ Wi).
      assert (HF : forall x, In x (tw_inputs w) -> input_shape x = (depth, ATTRS_LEN)).
      { intros x Hx. destruct (w_cred _ _ _ _ _ _ _ Q _ _ W x Hx) as (C1 & _). destruct (w_secret _ _ _ _ W x Hx) as (i & Hi & _ & _ & K3).
        unfold input_shape. rewrite C1, K3, (sp_path _ _ _ _ (tq_spendable _ _ _ _ _ _ _ Q i Hi)). reflexivity. }
      revert HF. generalize (tw_inputs w) as l. induction l as [|x l IH]; intros HF; [reflexivity|]. cbn [map length repeat].
      rewrite HF by (left; auto). f_equal. apply IH. intros; apply HF; right; auto. }
    destruct (transfer_honest_circuit L _ _ _ _ _ _ _ Hb Hp HS) as (s & Hs & Hsim); [congruence|].
    assert (Hsat : check_circuit_satisfiability s (transfer_to_scalars p) = true).
    { eapply transfer_honest; [apply (transfer_from_witness_lengths L _ _ _ Hp)|exact Hs|exact HR]. }
    destruct (snark_complete _ SL _ _ _ _ (tr_prand r) _ _ (ser_verkey (ver_key (tr_sig r)) ++ extra) Hk Hsim Hsat) as (prf & Hprf & _).
    eexists. unfold transfer_generate.
    assert (E0 : (length inputs =? 0)%nat || (length outputs =? 0)%nat = false).
    { destruct (tq_assets _ _ _ _ _ _ _ Q) as (i0 & irest & o0 & orest & -> & -> & _). reflexivity. }
    rewrite E0. cbn [fail_if bind]. cbv zeta. rewrite E1, E2, E3, <- Li, <- Lo, (q_check_key _ _ _ _ _ _ _ Q). cbn [bind].
    rewrite (q_check_pub _ _ _ _ _ _ _ Q). cbn [bind]. rewrite (q_check_dummy _ _ _ _ _ _ _ Q). cbn [bind].
    rewrite (q_check_balance _ _ _ _ _ _ _ Q). cbn [bind]. rewrite (q_check_asset _ _ _ _ _ _ _ Q). cbn [bind].
    rewrite (q_check_unfrozen _ _ _ _ _ _ _ Q). cbn [bind]. rewrite (q_check_roots _ _ _ _ _ _ _ Q). cbn [bind].
    rewrite (q_check_creds _ _ _ _ _ _ _ Q). cbn [bind]. rewrite W. cbn [bind]. rewrite Hp. cbn [bind].
    assert (Hd : check_distinct_input_nullifiers (tp_nullifiers p) = Ok tt).
    { apply check_distinct_iff. rewrite HP. apply (tq_distinct _ _ _ _ _ _ _ Q). }
    rewrite Hd. cbn [bind]. unfold transfer_prove. rewrite Hs. cbn [map_err bind]. rewrite Hsat. cbn [negb fail_if bind].
    rewrite Hprf. cbn [map_err bind]. split; [reflexivity|]. split; reflexivity.
  Qed.
End Live.
