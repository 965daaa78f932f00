(** Supporting lemmas for the Props files: small facts about gadgets, and accepted concrete notes together with openings. *)
From Verif Require Import Base Config Structs Keys Utils Memo Plonk Witness Circuits CircuitLogic Relation GadgetProofs
  CodecProofs PolicyProofs UtilsProofs StructGadgetProofs TransferCircuitProofs MintCircuitProofs FreezeCircuitProofs CircuitShape CircuitTheorems Snark Notes NoteProofs NoteGen NoteGen2
  NoteThms Security Accepted Decide Toy ToySnark Samples NoteSamples.

Section Facts.
  Context {C : CapConfig}.
  Lemma commitment_sound v s s' c rho :
    compute_record_commitment v s = Ok (c, s') -> sat rho s' -> rho c = commitment_of (vro rho v).
  Proof. intros H Hs. destruct (g_commitment v rho) as (_ & G & _). destruct (G _ _ _ H Hs) as [_ E]. exact E. Qed.
  Lemma owner_with_freezer (L : CapLaws C) (r : RoV) (uid sk nl sk' nl' : F) (fpk : point) :
    owner_spend r uid sk nl -> owner_spend r uid sk' nl' -> po_freezer (ro_pol r) = pt_xy fpk -> fpk <> pt_id -> nl = nl'.
  Proof. intros [O1 ->] [O2 ->] E H. rewrite E, (owner_key_any_scalar L sk sk' _ _ O1 O2 H). reflexivity. Qed.

  Lemma transfer_key_circuit (L : CapLaws C) n_in n_out d s0 w vu p :
    transfer_build_for_preprocessing n_in n_out d = Ok s0 -> transfer_from_witness w vu = Ok p ->
    length (tw_inputs w) = n_in -> length (tw_outputs w) = n_out ->
    (forall i, In i (tw_inputs w) -> length (acc_path (is_acc i)) = d /\ length (cr_attrs (is_cred i)) = ATTRS_LEN) ->
    exists s, transfer_circuit w p = Ok s /\ length (wit s) = length (wit s0) /\ gates s = gates s0 /\ pubs s = pubs s0.
  Proof.
    intros H0 Hp LI LO HI. destruct (transfer_honest_circuit L n_in n_out d s0 w vu p) as (s & Hs & S1 & S2 & S3); auto.
    - rewrite <- LI. clear -HI. induction (tw_inputs w) as [|i l IH]; [reflexivity|]. cbn [map length repeat].
      f_equal; [|apply IH; intros; apply HI; cbn; auto]. unfold input_shape. destruct (HI i) as [-> ->]; cbn; auto.
    - exists s. conjs; auto.
  Qed.
  Lemma mint_key_circuit d s0 w p : mint_build_for_preprocessing d = Ok s0 -> mint_from_witness w = Ok p -> length (acc_path (mw_acc w)) = d ->
    exists s, mint_circuit w p = Ok s /\ length (wit s) = length (wit s0) /\ gates s = gates s0 /\ pubs s = pubs s0.
  Proof. intros H0 Hp HD. destruct (mint_honest_circuit d s0 w p H0 Hp HD) as (s & Hs & S1 & S2 & S3). exists s. conjs; auto. Qed.
  Lemma freeze_key_circuit fk d n s0 w p : freeze_build_for_preprocessing fk d n = Ok s0 -> freeze_from_witness w = Ok p ->
    length (fw_inputs w) = n -> (forall a, In a (fw_accs w) -> length (acc_path a) = d) ->
    exists s, freeze_circuit_unchecked w p = Ok s /\ length (wit s) = length (wit s0) /\ gates s = gates s0 /\ pubs s = pubs s0.
  Proof.
    intros H0 Hp HN HD. destruct (freeze_honest_circuit fk d n s0 w p H0 Hp HN) as (s & Hs & S1 & S2 & S3); [apply Forall_forall; auto|]. exists s. conjs; auto.
  Qed.

  Context {S : Snark C} (L : CapLaws C).
  Lemma note_public_injective :
  (forall n n', length (tn_nullifiers n) = length (tn_nullifiers n') -> length (tn_commitments n) = length (tn_commitments n') ->
     transfer_to_scalars (transfer_note_public n) = transfer_to_scalars (transfer_note_public n') ->
     ta_root (tn_aux n) = ta_root (tn_aux n') /\ ta_fee (tn_aux n) = ta_fee (tn_aux n') /\ ta_valid_until (tn_aux n) = ta_valid_until (tn_aux n') /\
     tn_nullifiers n = tn_nullifiers n' /\ tn_commitments n = tn_commitments n' /\ tn_memo n = tn_memo n') /\
  (forall n n', mint_to_scalars (mint_note_public n) = mint_to_scalars (mint_note_public n') ->
     ma_root (mn_aux n) = ma_root (mn_aux n') /\ ma_fee (mn_aux n) = ma_fee (mn_aux n') /\ mn_nullifier n = mn_nullifier n' /\
     mn_mint n = mn_mint n' /\ mn_chg n = mn_chg n' /\ mn_amount n = mn_amount n' /\ mn_def n = mn_def n' /\
     mn_internal n = mn_internal n' /\ mn_memo n = mn_memo n') /\
  (forall n n', length (fn_nullifiers n) = length (fn_nullifiers n') ->
     freeze_to_scalars (freeze_note_public n) = freeze_to_scalars (freeze_note_public n') ->
     fa_root (fn_aux n) = fa_root (fn_aux n') /\ fa_fee (fn_aux n) = fa_fee (fn_aux n') /\
     fn_nullifiers n = fn_nullifiers n' /\ fn_commitments n = fn_commitments n').
  Proof.
    split; [|split].
    - intros n n' H1 H2 H. apply (transfer_public_inj L) in H; auto.
      conjs; [exact (f_equal tp_root H)|exact (f_equal tp_fee H)|exact (f_equal tp_valid_until H)|exact (f_equal tp_nullifiers H)|
              exact (f_equal tp_commitments H)|exact (f_equal tp_memo H)].
    - intros n n' H. apply (mint_public_inj L) in H.
      pose proof (f_equal mp_mint_ac H) as K1. pose proof (f_equal mp_policy H) as K2.
      conjs; [exact (f_equal mp_root H)|exact (f_equal mp_fee H)|exact (f_equal mp_nullifier H)|exact (f_equal mp_mint_rc H)|
              exact (f_equal mp_chg_rc H)|exact (f_equal mp_mint_amount H)| |exact (f_equal mp_mint_internal_ac H)|exact (f_equal mp_memo H)].
      destruct n as [a1 a2 a3 a4 [c p] a6 a7 a8 a9], n' as [b1 b2 b3 b4 [c' p'] b6 b7 b8 b9].
      cbn [mint_note_public mp_mint_ac mp_policy mn_def code policy] in *. congruence.
    - intros n n' H1 H. apply freeze_public_inj in H; auto.
      conjs; [exact (f_equal fp_root H)|exact (f_equal fp_fee H)|exact (f_equal fp_nullifiers H)|exact (f_equal fp_commitments H)].
  Qed.
  Lemma generated_exposed :
  (forall r inputs outputs pk vu extra n sk, transfer_generate r inputs outputs pk vu extra = Ok (n, sk) ->
     exists w s, transfer_circuit w (transfer_note_public n) = Ok s /\
       snark_prove (tr_prand r) s (tpk_key pk) (ser_verkey (ver_key sk) ++ extra) = Ok (tn_proof n) /\
       forall vk root ts, transfer_verify n vk root ts = Ok tt ->
         snark_verify (tvk_key vk) (map (env_of (wit s)) (pubs s)) (tn_proof n) (ser_verkey (ver_key sk) ++ extra) = true) /\
  (forall r mint_ro seed desc fee pk n sk, mint_generate r mint_ro seed desc fee pk = Ok (n, sk) ->
     exists w s, mint_circuit w (mint_note_public n) = Ok s /\
       snark_prove (mrd_prand r) s (mpk_key pk) (ser_verkey (ver_key sk)) = Ok (mn_proof n) /\
       forall vk root, mint_verify n vk root = Ok tt ->
         snark_verify (mvk_key vk) (map (env_of (wit s)) (pubs s)) (mn_proof n) (ser_verkey (ver_key sk)) = true) /\
  (forall r inputs fee pk n sk outs, freeze_generate r inputs fee pk = Ok (n, sk, outs) ->
     exists w s, freeze_circuit_unchecked w (freeze_note_public n) = Ok s /\
       snark_prove (frd_prand r) s (fpk_key pk) (ser_verkey (ver_key sk)) = Ok (fn_proof n) /\
       forall vk root, freeze_verify n vk root = Ok tt ->
         snark_verify (fvk_key vk) (map (env_of (wit s)) (pubs s)) (fn_proof n) (ser_verkey (ver_key sk)) = true).
  Proof.
    split; [|split].
    - intros r inputs outputs pk vu extra n sk H. destruct (transfer_generate_inv L _ _ _ _ _ _ _ _ H) as (w & p & s & G). exists w, s.
      destruct (tg_aux _ _ _ _ _ _ _ _ _ _ _ G) as (_ & A2 & A3). rewrite (tg_note _ _ _ _ _ _ _ _ _ _ _ G).
      pose proof (tg_circuit _ _ _ _ _ _ _ _ _ _ _ G) as Hc. split; [exact Hc|]. rewrite (tg_sk _ _ _ _ _ _ _ _ _ _ _ G) in *.
      split; [apply (tg_prove _ _ _ _ _ _ _ _ _ _ _ G)|]. intros vk root ts HV. apply transfer_verify_iff in HV. destruct HV as (_ & _ & HV).
      rewrite (tg_note _ _ _ _ _ _ _ _ _ _ _ G), A2, A3 in HV. rewrite (transfer_exposed _ _ _ Hc). exact HV.
    - intros r mint_ro seed desc fee pk n sk H. destruct (mint_generate_inv L _ _ _ _ _ _ _ _ H) as (p & s & G). eexists _, s.
      destruct (mg_aux _ _ _ _ _ _ _ _ _ _ G) as (_ & _ & A3). rewrite (mg_note _ _ _ _ _ _ _ _ _ _ G).
      pose proof (mg_circuit _ _ _ _ _ _ _ _ _ _ G) as Hc. split; [exact Hc|]. rewrite (mg_sk _ _ _ _ _ _ _ _ _ _ G) in *.
      split; [apply (mg_prove _ _ _ _ _ _ _ _ _ _ G)|]. intros vk root HV. apply mint_verify_iff in HV. destruct HV as (_ & _ & HV).
      rewrite (mg_note _ _ _ _ _ _ _ _ _ _ G), A3 in HV. rewrite (mint_exposed _ _ _ Hc). exact HV.
    - intros r inputs fee pk n sk outs H. destruct (freeze_generate_inv L _ _ _ _ _ _ _ H) as (p & s & G). eexists _, s.
      destruct (fg_aux _ _ _ _ _ _ _ _ _ G) as (_ & _ & A3). rewrite (fg_note _ _ _ _ _ _ _ _ _ G).
      pose proof (fg_circuit _ _ _ _ _ _ _ _ _ G) as Hc. split; [exact Hc|]. rewrite (fg_sk _ _ _ _ _ _ _ _ _ G) in *.
      split; [apply (fg_prove _ _ _ _ _ _ _ _ _ G)|]. intros vk root HV. apply freeze_verify_iff in HV. destruct HV as (_ & HV).
      rewrite (fg_note _ _ _ _ _ _ _ _ _ G), A3 in HV. rewrite (freeze_exposed _ _ _ Hc). exact HV.
  Qed.
  Context (SL : SnarkLaws S).
  Lemma accepted_has_opening n_in n_out d n root ts : transfer_accepted n_in n_out d n root ts -> exists t, transfer_opens d n t.
  Proof. intros H. destruct (transfer_accepted_opens L SL _ _ _ _ _ _ H) as (_ & _ & _ & t & HO). eauto. Qed.
  Lemma accepted_root_opening n_in n_out d n root ts : transfer_accepted n_in n_out d n root ts ->
    root = ta_root (tn_aux n) /\ exists t, transfer_opens d n t.
  Proof. intros H. destruct (transfer_accepted_opens L SL _ _ _ _ _ _ H) as (? & _ & _ & t & HO). eauto. Qed.
  Lemma accepted_time_opening n_in n_out d n root ts : transfer_accepted n_in n_out d n root ts ->
    zv ts <= zv (ta_valid_until (tn_aux n)) /\ exists t, transfer_opens d n t.
  Proof. intros H. destruct (transfer_accepted_opens L SL _ _ _ _ _ _ H) as (_ & ? & _ & t & HO). eauto. Qed.
End Facts.

(** ** Concrete notes *)
Definition get {A} (r : res A) (P : A -> bool) : bool := match r with Ok x => P x | _ => false end.
Lemma get_ok {A} (r : res A) P : get r P = true -> exists x, r = Ok x /\ P x = true.
Proof. destruct r; cbn; try discriminate. eauto. Qed.
Definition done (r : res unit) : bool := match r with Ok _ => true | _ => false end.
Lemma done_ok r : done r = true -> r = Ok tt.
Proof. destruct r as [[]| |]; cbn; auto; discriminate. Qed.

Definition bad_code {A} (r : res A) : bool := match r with Err FailedAssetCodeVerification => true | _ => false end.
Lemma bad_code_ok {A} (r : res A) : bad_code r = true -> r = Err FailedAssetCodeVerification.
Proof. destruct r as [|[]|]; cbn; try discriminate; auto. Qed.

Notation T := (toy true).
Notation TS := (toy_snark true).
#[local] Existing Instance toy_snark.

Definition transfer_good (ni no d : nat) (root : @F toy_field) (ts : u64) (t : @TransferV T) (n : @TransferNote T TS) : bool :=
  get (@transfer_preprocess T TS tt ni no d) (fun k => done (@transfer_verify T TS n (snd k) root ts)) &&
  (length (tn_nullifiers n) =? ni)%nat && (length (tn_commitments n) =? no)%nat && (0 <? ni)%nat && (0 <? no)%nat &&
  forallb (fun i => (length (pl_path (in_place i)) =? d)%nat) (tv_ins t) &&
  @transfer_b T (@transfer_pub_value T (@transfer_note_public T TS n)) t.
Lemma transfer_good_ok ni no d root ts t n : transfer_good ni no d root ts t n = true ->
  @transfer_accepted T TS ni no d n root ts /\ @transfer_opens T TS d n t.
Proof.
  unfold transfer_good. rewrite !andb_true_iff, !Nat.eqb_eq, !Nat.ltb_lt. intros ((((((H1 & H2) & H3) & H4) & H5) & H6) & H7).
  apply get_ok in H1. destruct H1 as ([pk vk] & Hk & Hv). apply done_ok in Hv. cbn [snd] in Hv. split.
  - exists tt, pk, vk. auto.
  - split; [intros E; rewrite E in H2; cbn in H2; lia|]. split; [intros E; rewrite E in H3; cbn in H3; lia|].
    split; [|apply transfer_b_ok; exact H7]. apply Forall_forall. intros i Hi. rewrite forallb_forall in H6. apply Nat.eqb_eq. auto.
Qed.
Definition mint_good (d : nat) (root : @F toy_field) (t : @MintV T) (n : @MintNote T TS) : bool :=
  get (@mint_preprocess T TS tt d) (fun k => done (@mint_verify T TS n (snd k) root)) &&
  (length (pl_path (mv_place t)) =? d)%nat && @mint_b T (@mint_pub_value T (@mint_note_public T TS n)) t.
Lemma mint_good_ok d root t n : mint_good d root t n = true -> @mint_accepted T TS d n root /\ @mint_opens T TS d n t.
Proof.
  unfold mint_good. rewrite !andb_true_iff, Nat.eqb_eq. intros ((H1 & H2) & H3).
  apply get_ok in H1. destruct H1 as ([pk vk] & Hk & Hv). apply done_ok in Hv. cbn [snd] in Hv.
  split; [exists tt, pk, vk; auto|split; [auto|apply mint_b_ok; auto]].
Qed.
Definition freeze_good (num d : nat) (root : @F toy_field) (t : @FreezeV T) (n : @FreezeNote T TS) : bool :=
  get (@freeze_preprocess T TS tt (@sz toy_field 55) num d) (fun k => done (@freeze_verify T TS n (snd k) root)) &&
  (length (fn_nullifiers n) =? num)%nat && (length (pl_path (fv_place t)) =? d)%nat &&
  forallb (fun x => (length (pl_path (fz_place x)) =? d)%nat) (fv_pairs t) && @freeze_b T (@freeze_pub_value T (@freeze_note_public T TS n)) t.
Lemma freeze_good_ok num d root t n : freeze_good num d root t n = true -> @freeze_accepted T TS num d n root /\ @freeze_opens T TS d n t.
Proof.
  unfold freeze_good. rewrite !andb_true_iff, !Nat.eqb_eq. intros ((((H1 & H2) & H3) & H4) & H5).
  apply get_ok in H1. destruct H1 as ([pk vk] & Hk & Hv). apply done_ok in Hv. cbn [snd] in Hv.
  split; [exists tt, (@sz toy_field 55), pk, vk; auto|]. split; [|apply freeze_b_ok; auto]. split; auto.
  apply Forall_forall. intros i Hi. rewrite forallb_forall in H4. apply Nat.eqb_eq. auto.
Qed.

(** openings of the sample notes *)
Definition h_opening : @TransferV T :=
  @transfer_value T (ok_of (x_witness true) (@transfer_new_unchecked T (@tr_enc T TS (h_rand true)) (h_inputs true) (h_outputs true))).
Definition h_root : @F toy_field := n_root true (h_fee true) (h_in1 true) (h_in2 true).
Definition m_place : @PlaceV T := @place_value T (h_acc true 0).
Definition m_opening (sk chg : Z) (minted : @RecordOpening T) : @MintV T :=
  let r := @ro_value T (s_native true 0 11 200) in
  @mkMintV T (@ro_value T minted) (@fz toy_field sk) (@ro_value T (h_fee true)) m_place
    (@mkRoV T (@fz toy_field chg) (ro_code r) (ro_owner r) (ro_pol r) (ro_flag r) (ro_blind r))
    h_seed (@digest_from_description T h_desc) (@fz toy_field 302).
Definition f_opening (chg : Z) : @FreezeV T :=
  let r := @ro_value T (s_native true 0 11 200) in
  @mkFreezeV T (@ro_value T (h_fee true)) m_place (@fz toy_field 11)
    (@mkRoV T (@fz toy_field chg) (ro_code r) (ro_owner r) (ro_pol r) (ro_flag r) (ro_blind r))
    (map (fun x => @mkPairV T (@ro_value T (zi_ro (fst x))) (@place_value T (zi_acc (fst x))) (@fz toy_field 9) (@ro_value T (snd x)))
         (combine (f_inputs true) (@freeze_get_output_ros T (fun i => @fz toy_field (400 + Z.of_nat i)) (f_inputs true)))).

Lemma h_transfer_good : exists n sk, h_transfer true = Ok (n, sk) /\
  @transfer_accepted T TS 2 3 2 n h_root (w64 500) /\ @transfer_opens T TS 2 n h_opening.
Proof.
  assert (H : get (h_transfer true) (fun n => transfer_good 2 3 2 h_root (w64 500) h_opening (fst n)) = true) by (vm_compute; reflexivity).
  apply get_ok in H. destruct H as ([n sk] & E & H). exists n, sk. split; [exact E|]. apply transfer_good_ok. exact H.
Qed.
Lemma h_mint_good : exists n sk, h_mint true = Ok (n, sk) /\ @mint_accepted T TS 2 n h_root /\ @mint_opens T TS 2 n (m_opening 11 15 (h_mint_ro true)).
Proof.
  assert (H : get (h_mint true) (fun n => mint_good 2 h_root (m_opening 11 15 (h_mint_ro true)) (fst n)) = true) by (vm_compute; reflexivity).
  apply get_ok in H. destruct H as ([n sk] & E & H). exists n, sk. split; [exact E|]. apply mint_good_ok. exact H.
Qed.
Lemma h_freeze_good : exists n sk outs, h_freeze true = Ok (n, sk, outs) /\ @freeze_accepted T TS 3 2 n h_root /\ @freeze_opens T TS 2 n (f_opening 15).
Proof.
  assert (H : get (h_freeze true) (fun n => freeze_good 3 2 h_root (f_opening 15) (fst (fst n))) = true) by (vm_compute; reflexivity).
  apply get_ok in H. destruct H as ([[n sk] outs] & E & H). exists n, sk, outs. split; [exact E|]. apply freeze_good_ok. exact H.
Qed.

Lemma fz_neq (a b : Z) : (a mod bn_p =? b mod bn_p) = false -> @fz toy_field a <> @fz toy_field b.
Proof. intros H E. apply (f_equal zv) in E. rewrite !zv_fz in E. apply Z.eqb_neq in H. exact (H E). Qed.
Lemma zeqb_neq {m} (a b : zmod m) : zeqb a b = false -> a <> b.
Proof. intros H ->. rewrite zeqb_refl in H. discriminate. Qed.

Lemma two_nullifiers :
  exists n1 n2 root, @mint_accepted T TS 2 n1 root /\ @mint_accepted T TS 2 n2 root /\
    mn_nullifier n1 <> mn_nullifier n2 /\
    exists r uid, @spends T TS r uid (@fz toy_field 11) (mn_nullifier n1) (TxMint n1) /\
                  @spends T TS r uid (@fz toy_field (11 + bn_l)) (mn_nullifier n2) (TxMint n2).
Proof.
  assert (H : get (h_mint true) (fun n1 => get (d_note true) (fun n2 =>
    mint_good 2 h_root (m_opening 11 15 (h_mint_ro true)) (fst n1) && mint_good 2 h_root (m_opening (11 + bn_l) 15 (h_mint_ro true)) n2 &&
    negb (zeqb (mn_nullifier (fst n1)) (mn_nullifier n2)))) = true) by (vm_compute; reflexivity).
  apply get_ok in H. destruct H as ([n1 sk] & E1 & H). apply get_ok in H. destruct H as (n2 & E2 & H). cbn [fst] in H.
  apply andb_true_iff in H. destruct H as [H H3]. apply andb_true_iff in H. destruct H as [H1 H2]. apply negb_true_iff in H3.
  apply mint_good_ok in H1. apply mint_good_ok in H2. destruct H1 as [A1 O1], H2 as [A2 O2].
  exists n1, n2, h_root. split; [exact A1|]. split; [exact A2|]. split; [apply zeqb_neq; exact H3|].
  exists (@ro_value T (h_fee true)), (pl_uid m_place). split.
  - eapply spends_mint; [exact O1|reflexivity..].
  - eapply spends_mint; [exact O2|reflexivity..].
Qed.
Lemma identity_owner :
  exists (r : @RoV T) uid sk nl sk' nl',
    @owner_spend T r uid sk nl /\ @freezer_spend T r uid sk' nl' /\
    zv sk < bn_l /\ zv sk' < bn_l /\ @po_freezer T (ro_pol r) <> @no_key T /\ nl <> nl'.
Proof.
  set (r := @ro_value T (s_ro true 30 (s_def true) 0 Unfrozen 101)).
  exists r, (@fz toy_field 4), (@fz toy_field 0), (@nullifier_of T (@spending_key T (@fz toy_field 0) (po_freezer (ro_pol r))) (@fz toy_field 4) (@commitment_of T r)),
    (@fz toy_field 9), (@nullifier_of T (@spending_key T (@fz toy_field 9) (ro_owner r)) (@fz toy_field 4) (@commitment_of T r)).
  split; [split; [apply owns_b_ok; vm_compute; reflexivity|reflexivity]|].
  split; [split; [apply owns_b_ok; vm_compute; reflexivity|reflexivity]|].
  split; [vm_compute; reflexivity|]. split; [vm_compute; reflexivity|]. split.
  - intros E. apply (@xy_eqb_spec T) in E. vm_compute in E. discriminate.
  - apply zeqb_neq. vm_compute. reflexivity.
Qed.

(** a transfer that turns 30 units of one asset into 30 units of another *)
Lemma asset_switch :
  exists n root ts t i o, @transfer_accepted T TS 2 2 2 n root ts /\ @transfer_opens T TS 2 n t /\
    In i (tl (tv_ins t)) /\ In o (tl (tv_outs t)) /\
    ro_code (in_ro i) <> dummy_asset_code /\ zv (ro_amount (in_ro i)) = 30 /\ zv (ro_amount o) = 30 /\ ro_code (in_ro i) <> ro_code o.
Proof.
  set (root := n_root true (h_fee true) (x_in true) (h_in2 true)).
  assert (H : get (x_note true) (transfer_good 2 2 2 root (w64 500) (@transfer_value T (x_witness true))) = true) by (vm_compute; reflexivity).
  apply get_ok in H. destruct H as (n & E & H). apply transfer_good_ok in H. destruct H as [HA HO].
  exists n, root, (w64 500), (@transfer_value T (x_witness true)).
  eexists _, _. split; [exact HA|]. split; [exact HO|]. split; [left; reflexivity|]. split; [left; reflexivity|].
  split; [apply zeqb_neq; vm_compute; reflexivity|]. split; [vm_compute; reflexivity|]. split; [vm_compute; reflexivity|].
  apply zeqb_neq; vm_compute; reflexivity.
Qed.
(** a transfer made by the API with a credential of another issuer for another user *)
Lemma foreign_credential :
  exists pk vk r inputs outputs vu n sk i c,
    @transfer_preprocess T TS tt 2 3 2 = Ok (pk, vk) /\
    @transfer_generate T TS r inputs outputs pk vu [] = Ok (n, sk) /\ @transfer_verify T TS n vk (ta_root (tn_aux n)) vu = Ok tt /\
    In i inputs /\ ti_cred i = Some c /\ cred_pk (policy (asset_def (ti_ro i))) <> @pt_id T /\
    cr_creator_pk c <> cred_pk (policy (asset_def (ti_ro i))) /\ cr_user_addr c <> address (pub_key (ti_ro i)).
Proof.
  assert (H : get (@transfer_preprocess T TS tt 2 3 2) (fun k => get (@transfer_generate T TS (h_rand true) (c_inputs true) (h_outputs true) (fst k) (w64 500) [])
     (fun n => done (@transfer_verify T TS (fst n) (snd k) (ta_root (tn_aux (fst n))) (w64 500)))) = true) by (vm_compute; reflexivity).
  apply get_ok in H. destruct H as ([pk vk] & Hk & H). apply get_ok in H. destruct H as ([n sk] & Hg & H). apply done_ok in H. cbn [fst snd] in *.
  exists pk, vk, (h_rand true), (c_inputs true), (h_outputs true), (w64 500), n, sk.
  eexists _, _. split; [exact Hk|]. split; [exact Hg|]. split; [exact H|]. split; [right; left; reflexivity|]. split; [reflexivity|].
  split; [apply zeqb_neq; vm_compute; reflexivity|]. split; apply zeqb_neq; vm_compute; reflexivity.
Qed.
(** mint and freeze notes whose fee exceeds the record it is paid from *)
Lemma uncovered_mint_fee : exists n root t, @mint_accepted T TS 2 n root /\ @mint_opens T TS 2 n t /\
  zv (ro_amount (mv_fee_ro t)) = 20 /\ zv (ma_fee (mn_aux n)) = 100.
Proof.
  assert (H : get (z_note true) (fun n => mint_good 2 h_root (m_opening 11 (20 - 100) (h_mint_ro true)) n && (zv (ma_fee (mn_aux n)) =? 100)) = true)
    by (vm_compute; reflexivity).
  apply get_ok in H. destruct H as (n & E & H). apply andb_true_iff in H. destruct H as [H F]. apply mint_good_ok in H. destruct H as [HA HO].
  exists n, h_root, (m_opening 11 (20 - 100) (h_mint_ro true)). split; [exact HA|]. split; [exact HO|]. split; [vm_compute; reflexivity|apply Z.eqb_eq; exact F].
Qed.
Lemma uncovered_freeze_fee : exists n root t, @freeze_accepted T TS 3 2 n root /\ @freeze_opens T TS 2 n t /\
  zv (ro_amount (fv_fee_ro t)) = 20 /\ zv (fa_fee (fn_aux n)) = 100.
Proof.
  assert (H : get (zf_note true) (fun n => freeze_good 3 2 h_root (f_opening (20 - 100)) n && (zv (fa_fee (fn_aux n)) =? 100)) = true)
    by (vm_compute; reflexivity).
  apply get_ok in H. destruct H as (n & E & H). apply andb_true_iff in H. destruct H as [H F]. apply freeze_good_ok in H. destruct H as [HA HO].
  exists n, h_root, (f_opening (20 - 100)). split; [exact HA|]. split; [exact HO|]. split; [vm_compute; reflexivity|apply Z.eqb_eq; exact F].
Qed.
(** a mint note of the native asset: refused alone, accepted in a batch *)
Lemma native_mint_in_batch : exists n pk vk root ts, @mint_preprocess T TS tt 2 = Ok (pk, vk) /\
  @txn_batch_verify T TS [TxMint n] [root] ts [VkMint vk] = Ok tt /\
  @tx_verify T TS (TxMint n) (VkMint vk) root ts = Err FailedAssetCodeVerification /\
  mn_def n = @asset_def_native T /\ zv (mn_amount n) = 1000000.
Proof.
  assert (H : get (y_note true) (fun n => get (@mint_preprocess T TS tt 2) (fun k =>
    done (@txn_batch_verify T TS [TxMint n] [h_root] (w64 0) [VkMint (snd k)]) &&
    bad_code (@tx_verify T TS (TxMint n) (VkMint (snd k)) h_root (w64 0)) &&
    @is_native T (mn_def n) && (zv (mn_amount n) =? 1000000))) = true) by (vm_compute; reflexivity).
  apply get_ok in H. destruct H as (n & E & H). apply get_ok in H. destruct H as ([pk vk] & Hk & H). cbn [snd] in H.
  apply andb_true_iff in H. destruct H as [H H4]. apply andb_true_iff in H. destruct H as [H H3]. apply andb_true_iff in H. destruct H as [H1 H2].
  exists n, pk, vk, h_root, (w64 0). split; [exact Hk|]. split; [apply done_ok; exact H1|].
  split; [apply bad_code_ok; exact H2|].
  split; [apply (is_native_iff (toy_laws true)); exact H3|apply Z.eqb_eq; exact H4].
Qed.
(** one proof, two notes: a commitment moved among the nullifiers *)
Lemma moved_boundary : exists pk vk n n' root ts,
  @transfer_preprocess T TS tt 2 3 2 = Ok (pk, vk) /\
  @transfer_verify T TS n vk root ts = Ok tt /\ @transfer_verify T TS n' vk root ts = Ok tt /\
  tn_proof n' = tn_proof n /\ tn_memo n' = tn_memo n /\ tn_aux n' = tn_aux n /\
  length (tn_nullifiers n) = 2%nat /\ length (tn_nullifiers n') = 3%nat /\
  @transfer_to_scalars T (@transfer_note_public T TS n') = @transfer_to_scalars T (@transfer_note_public T TS n).
Proof.
  assert (H : get (@transfer_preprocess T TS tt 2 3 2) (fun k => get (h_transfer true) (fun n =>
    done (@transfer_verify T TS (fst n) (snd k) h_root (w64 500)) && done (@transfer_verify T TS (shift_note true (fst n)) (snd k) h_root (w64 500)) &&
    (length (tn_nullifiers (fst n)) =? 2)%nat && (length (tn_nullifiers (shift_note true (fst n))) =? 3)%nat &&
    @flist_eqb T (@transfer_to_scalars T (@transfer_note_public T TS (shift_note true (fst n)))) (@transfer_to_scalars T (@transfer_note_public T TS (fst n))))) = true)
    by (vm_compute; reflexivity).
  apply get_ok in H. destruct H as ([pk vk] & Hk & H). apply get_ok in H. destruct H as ([n sk] & Hg & H). cbn [fst snd] in H.
  apply andb_true_iff in H. destruct H as [H H5]. apply andb_true_iff in H. destruct H as [H H4]. apply andb_true_iff in H. destruct H as [H H3]. apply andb_true_iff in H. destruct H as [H1 H2].
  exists pk, vk, n, (shift_note true n), h_root, (w64 500). split; [exact Hk|]. split; [apply done_ok; exact H1|]. split; [apply done_ok; exact H2|].
  split; [reflexivity|]. split; [reflexivity|]. split; [reflexivity|]. split; [apply Nat.eqb_eq; exact H3|]. split; [apply Nat.eqb_eq; exact H4|]. apply (@flist_eqb_ok T). exact H5.
Qed.

(** the same record spent by its owner in the sample transfer and by its freezer in the sample freeze *)
Lemma spend_sample :
  exists n sk n' sk' outs nl nl', h_transfer true = Ok (n, sk) /\ h_freeze true = Ok (n', sk', outs) /\
    let r := @ro_value T (h_in1 true) in
    @spends T TS r (@fz toy_field 1) (@fz toy_field 12) nl (TxTransfer n) /\
    @spends T TS r (@fz toy_field 1) (@fz toy_field 9) nl' (TxFreeze n') /\
    @ro_owner T r <> @no_key T /\ @ro_code T r <> dummy_asset_code.
Proof.
  destruct h_transfer_good as (n & sk & E & A & O). destruct h_freeze_good as (n' & sk' & outs & E' & A' & O').
  assert (LN : length (tn_nullifiers n) = 2%nat) by (destruct A as (g & pk & vk & _ & _ & H & _); exact H).
  assert (LF : length (fn_nullifiers n') = 3%nat) by (destruct A' as (g & fk & pk & vk & _ & _ & H); exact H).
  destruct (tn_nullifiers n) as [|n0 [|n1 [|]]] eqn:EN; try discriminate LN.
  destruct (fn_nullifiers n') as [|m0 [|m1 [|m2 [|]]]] eqn:EF; try discriminate LF.
  exists n, sk, n', sk', outs, n1, m1. split; [exact E|]. split; [exact E'|]. cbv zeta.
  set (d0 := @mkInV T f0 (@ro_value T (h_fee true)) m_place (@mkCredV T [] f0 (f0, @no_key T) (@no_key T) (@no_key T))).
  set (d1 := @mkPairV T (@ro_value T (h_fee true)) m_place f0 (@ro_value T (h_fee true))).
  assert (L1 : length (tv_ins h_opening) = 2%nat) by (vm_compute; reflexivity).
  assert (L2 : length (fv_pairs (f_opening 15)) = 2%nat) by (vm_compute; reflexivity).
  split; [|split; [|split]].
  - apply (spends_transfer _ _ _ _ 2 n h_opening (nth 1 (tv_ins h_opening) d0)).
    + exact O.
    + rewrite EN. revert L1. generalize (tv_ins h_opening). intros l Hl. destruct l as [|a [|b [|]]]; try discriminate Hl. cbn. auto.
    + symmetry. apply rov_eqb_ok. vm_compute. reflexivity.
    + apply zmod_ext. vm_compute. reflexivity.
    + apply zmod_ext. vm_compute. reflexivity.
  - apply (spends_freeze _ _ _ _ 2 n' (f_opening 15) (nth 0 (fv_pairs (f_opening 15)) d1)).
    + exact O'.
    + rewrite EF. revert L2. generalize (fv_pairs (f_opening 15)). intros l Hl. destruct l as [|a [|b [|]]]; try discriminate Hl. cbn. auto.
    + symmetry. apply rov_eqb_ok. vm_compute. reflexivity.
    + apply zmod_ext. vm_compute. reflexivity.
    + apply zmod_ext. vm_compute. reflexivity.
  - intros H. apply (@xy_eqb_spec T) in H. vm_compute in H. discriminate H.
  - apply zeqb_neq. vm_compute. reflexivity.
Qed.
Lemma circuit_sample :
  exists s0 s p, @transfer_build_for_preprocessing T 2 2 2 = Ok s0 /\ @transfer_from_witness T (x_witness true) (w64 500) = Ok p /\
    @transfer_circuit T (x_witness true) p = Ok s /\ (length (gates s0) =? length (gates s))%nat = true /\ (100 <? length (gates s))%nat = true.
Proof.
  assert (H : get (@transfer_build_for_preprocessing T 2 2 2) (fun s0 => get (@transfer_from_witness T (x_witness true) (w64 500)) (fun p =>
    get (@transfer_circuit T (x_witness true) p) (fun s => (length (gates s0) =? length (gates s))%nat && (100 <? length (gates s))%nat))) = true)
    by (vm_compute; reflexivity).
  apply get_ok in H. destruct H as (s0 & H0 & H). apply get_ok in H. destruct H as (p & Hp & H). apply get_ok in H. destruct H as (s & Hs & H).
  apply andb_true_iff in H. destruct H. exists s0, s, p. auto.
Qed.
