(** Proofs about note generation: what a generated note contains and that it verifies. *)
From Verif Require Import Base Config Structs Keys Utils Memo Plonk Witness Circuits Relation CircuitLogic CodecProofs PolicyProofs
  UtilsProofs MemoProofs GadgetProofs StructGadgetProofs SpendGadgetProofs TransferCircuitProofs MintCircuitProofs
  FreezeCircuitProofs CircuitShape CircuitTheorems Snark Notes NoteProofs.

Lemma Forall2_In_l {A B} (P : A -> B -> Prop) l k x : Forall2 P l k -> In x l -> exists y, In y k /\ P x y.
Proof. intros H; induction H as [|a b l k HP H IH]; intros []; subst; [exists b; cbn; auto|]. destruct IH as (y & ? & ?); auto. exists y; cbn; auto. Qed.
Lemma Forall2_In_r {A B} (P : A -> B -> Prop) l k y : Forall2 P l k -> In y k -> exists x, In x l /\ P x y.
Proof. intros H; induction H as [|a b l k HP H IH]; intros []; subst; [exists a; cbn; auto|]. destruct IH as (x & ? & ?); auto. exists x; cbn; auto. Qed.
Lemma Forall2_len {A B} (P : A -> B -> Prop) l k : Forall2 P l k -> length l = length k.
Proof. induction 1; cbn; congruence. Qed.

Lemma Forall2_imp {A B} (P Q : A -> B -> Prop) l k : (forall x y, P x y -> Q x y) -> Forall2 P l k -> Forall2 Q l k.
Proof. intros H. induction 1; constructor; auto. Qed.

Section TransferGen.
  Context {C : CapConfig} {S : Snark C} (L : CapLaws C).

  Definition all_ros (inputs : list TransferNoteInput) : list RecordOpening := map ti_ro inputs.

  (** ** Arithmetic of the transferred amounts *)
  Lemma two_codes l c : (forall r, In r l -> code (asset_def r) = native_asset_code \/ code (asset_def r) = c) ->
    amt_sum l = if zeqb native_asset_code c then code_sum native_asset_code l else code_sum native_asset_code l + code_sum c l.
  Proof.
    induction l as [|r l IH]; intros H; [cbn; destruct (zeqb _ _); reflexivity|].
    rewrite amt_sum_cons, !code_sum_cons, IH by (intros; apply H; right; auto).
    destruct (H r (or_introl eq_refl)) as [E|E]; rewrite E; rewrite ?zeqb_refl.
    - destruct (zeqb native_asset_code c) eqn:Ec; lia.
    - rewrite (zeqb_sym c). destruct (zeqb native_asset_code c) eqn:Ec; lia.
  Qed.
  Lemma non_dummy_In r l : In r (non_dummy l) <-> In r l /\ asset_def r <> asset_def_dummy.
  Proof.
    unfold non_dummy. rewrite filter_In, negb_true_iff, <- not_true_iff_false, (is_dummy_iff L). tauto.
  Qed.

  (** integer balance from the i128 check and the exact sums of the public input *)
  Lemma balance_exact inputs outputs fee i0 irest o0 orest d :
    inputs = i0 :: irest -> outputs = o0 :: orest ->
    asset_def i0 = asset_def_native -> asset_def o0 = asset_def_native ->
    (forall r, In r irest -> asset_def r = asset_def_dummy \/ asset_def r = d) ->
    (forall r, In r orest -> asset_def r = d) ->
    check_balance inputs outputs = Ok fee ->
    amt_sum (non_dummy inputs) < 2 ^ 128 -> amt_sum outputs < 2 ^ 128 -> amt_sum outputs <= amt_sum (non_dummy inputs) ->
    zv fee = amt_sum (non_dummy inputs) - amt_sum outputs /\
    forall c, code_sum c (non_dummy inputs) = code_sum c outputs + (if zeqb native_asset_code c then zv fee else 0).
  Proof.
    intros Ei Eo Di Do HI HO HB Bi Bo Hle.
    destruct (check_balance_mod _ _ _ _ _ Ei HB) as [Hf HM]. rewrite Di in HM. change (code asset_def_native) with native_asset_code in HM.
    assert (Ci : forall r, In r (non_dummy inputs) -> code (asset_def r) = native_asset_code \/ code (asset_def r) = code d).
    { intros r Hr. apply non_dummy_In in Hr. destruct Hr as [Hr Hd]. rewrite Ei in Hr. destruct Hr as [<-|Hr]; [left; rewrite Di; reflexivity|].
      destruct (HI r Hr) as [E|E]; [contradiction|right; rewrite E; reflexivity]. }
    assert (Co : forall r, In r outputs -> code (asset_def r) = native_asset_code \/ code (asset_def r) = code d).
    { intros r Hr. rewrite Eo in Hr. destruct Hr as [<-|Hr]; [left; rewrite Do; reflexivity|]. rewrite (HO r Hr); auto. }
    pose proof (two_codes _ _ Ci) as Ti. pose proof (two_codes _ _ Co) as To.
    assert (Hother : forall c, zeqb native_asset_code c = false -> code_sum c (non_dummy inputs) = code_sum c outputs).
    { intros c Hc. specialize (HM c). rewrite Hc in HM. unfold eq128 in HM. rewrite Z.add_0_r in HM.
      rewrite !Z.mod_small in HM; auto; split; try apply code_sum_nonneg; eapply Z.le_lt_trans; try apply code_sum_le; auto. }
    assert (Hnat : code_sum native_asset_code (non_dummy inputs) - code_sum native_asset_code outputs
                   = amt_sum (non_dummy inputs) - amt_sum outputs).
    { rewrite Ti, To. destruct (zeqb native_asset_code (code d)) eqn:Ec; [lia|]. rewrite (Hother _ Ec). lia. }
    assert (E : zv fee = amt_sum (non_dummy inputs) - amt_sum outputs).
    { pose proof (HM native_asset_code) as HN. rewrite zeqb_refl in HN. unfold eq128 in HN.
      pose proof (amount_range fee) as Hr.
      assert (HN2 : (amt_sum (non_dummy inputs) - amt_sum outputs) mod 2 ^ 128 = zv fee mod 2 ^ 128).
      { rewrite <- Hnat. rewrite Zminus_mod, HN, <- Zminus_mod. f_equal. lia. }
      pose proof (amt_sum_nonneg outputs). rewrite !Z.mod_small in HN2; lia. }
    split; auto. intros c. destruct (zeqb_reflect native_asset_code c) as [<-|Hn]; [lia|].
    rewrite (Hother c); [lia|]. destruct (zeqb_reflect native_asset_code c); congruence.
  Qed.

  (** ** Inversion of generation *)
  Lemma new_unchecked_inv r inputs outputs w : transfer_new_unchecked r inputs outputs = Ok w ->
    tw_asset_def w = witness_asset_def inputs /\ tw_outputs w = outputs /\ tw_rand w = r /\
    Forall2 (fun i s => is_kp s = ti_kp i /\ is_ro s = ti_ro i /\ is_acc s = ti_acc i /\
                        (cred_pk (policy (asset_def (ti_ro i))) = pt_id -> cred_dummy_unexpired = Ok (is_cred s)) /\
                        (cred_pk (policy (asset_def (ti_ro i))) <> pt_id -> ti_cred i = Some (is_cred s)))
            inputs (tw_inputs w).
  Proof.
    unfold transfer_new_unchecked. intros H. bindH H secs Hs. injection H as <-. cbn [tw_asset_def tw_inputs tw_outputs tw_rand]. conjs; auto.
    apply mapM_ok in Hs. eapply Forall2_imp; [|exact Hs]. cbv beta. intros i s Hi. unfold input_secret_of in Hi.
    bindH Hi cred Hc. injection Hi as <-. cbn [is_kp is_ro is_acc is_cred]. conjs; auto.
    - intros E. rewrite E, (point_eqb_refl L) in Hc. exact Hc.
    - intros E. apply (point_eqb_neq L) in E. rewrite E in Hc. apply ok_or_ok in Hc. exact Hc.
  Qed.
  Lemma map_inputs inputs secs : Forall2 (fun i s => is_kp s = ti_kp i /\ is_ro s = ti_ro i /\ is_acc s = ti_acc i /\
                        (cred_pk (policy (asset_def (ti_ro i))) = pt_id -> cred_dummy_unexpired = Ok (is_cred s)) /\
                        (cred_pk (policy (asset_def (ti_ro i))) <> pt_id -> ti_cred i = Some (is_cred s))) inputs secs ->
    map is_ro secs = map ti_ro inputs /\
    map input_nullifier secs =
      map (fun i => user_nullify (ti_kp i) (freezer_pk (policy (asset_def (ti_ro i)))) (acc_uid (ti_acc i))
                                 (derive_record_commitment (ti_ro i))) inputs.
  Proof.
    induction 1 as [|i s l k (K & R & A & _) H [IH1 IH2]]; cbn; auto. split; f_equal; auto.
    unfold input_nullifier, user_nullify. rewrite K, R, A. reflexivity.
  Qed.
  Lemma filter_map_comm {A B} (f : A -> B) (p : B -> bool) l : map f (filter (fun x => p (f x)) l) = filter p (map f l).
  Proof. induction l as [|x l IH]; cbn; auto. destruct (p (f x)); cbn; congruence. Qed.

  (** Everything that holds when generation succeeds. *)
  Record transfer_generated (r : TransferRand) (inputs : list TransferNoteInput) (outputs : list RecordOpening)
      (pk : TransferProvingKey) (vu : u64) (extra : bytes) (n : TransferNote) (sk : Fj)
      (w : TransferWitness) (p : TransferPublicInput) (s : cs) : Prop := {
    tg_sk : sk = tr_sig r;
    tg_lens : length inputs = tpk_n_in pk /\ length outputs = tpk_n_out pk /\
              forall i, In i inputs -> length (acc_path (ti_acc i)) = tpk_depth pk;
    tg_keys : forall i, In i inputs -> asset_def (ti_ro i) <> asset_def_dummy -> pub_key (ti_ro i) = user_pub_key (ti_kp i);
    tg_assets : exists i0 irest o0 orest d,
      inputs = i0 :: irest /\ outputs = o0 :: orest /\
      asset_def (ti_ro i0) = asset_def_native /\ asset_def o0 = asset_def_native /\ transferred (map ti_ro irest) d /\
      (forall i, In i irest -> asset_def (ti_ro i) = asset_def_dummy \/ asset_def (ti_ro i) = d) /\
      (forall o, In o orest -> asset_def o = d) /\
      (forall o, In o (map ti_ro inputs ++ outputs) ->
         freezer_pk (policy (asset_def o)) <> pt_id -> viewer_pk (policy (asset_def o)) <> pt_id);
    tg_dummy : forall i, In i inputs -> asset_def (ti_ro i) = asset_def_dummy -> zv (amount (ti_ro i)) = 0;
    tg_unfrozen : (forall i, In i inputs -> freeze_flag (ti_ro i) = Unfrozen) /\ (forall o, In o outputs -> freeze_flag o = Unfrozen);
    tg_roots : (exists i0, hd_error inputs = Some i0 /\ ta_root (tn_aux n) = acc_root (ti_acc i0)) /\
               (forall i, In i inputs -> asset_def (ti_ro i) <> asset_def_dummy -> acc_root (ti_acc i) = ta_root (tn_aux n));
    tg_creds : forall i, In i inputs -> cred_pk (policy (asset_def (ti_ro i))) <> pt_id ->
                 exists c, ti_cred i = Some c /\ cred_verify c vu = Ok tt;
    tg_balance : forall c, code_sum c (non_dummy (map ti_ro inputs)) =
                           code_sum c outputs + (if zeqb native_asset_code c then zv (ta_fee (tn_aux n)) else 0);
    tg_sums : amt_sum (non_dummy (map ti_ro inputs)) < 2 ^ 128 /\ amt_sum outputs < 2 ^ 128;
    tg_witness : transfer_new_unchecked (tr_enc r) inputs outputs = Ok w;
    tg_public : transfer_from_witness w vu = Ok p;
    tg_note : transfer_note_public n = p;
    tg_nullifiers : tn_nullifiers n = map (fun i => user_nullify (ti_kp i) (freezer_pk (policy (asset_def (ti_ro i))))
                                            (acc_uid (ti_acc i)) (derive_record_commitment (ti_ro i))) inputs;
    tg_commitments : tn_commitments n = map derive_record_commitment outputs;
    tg_memo : memo_for_transfer_note (map ti_ro inputs) outputs (map is_cred (tw_inputs w)) (tr_enc r) = Ok (tn_memo n);
    tg_distinct : NoDup (tn_nullifiers n);
    tg_circuit : transfer_circuit w p = Ok s;
    tg_sat : check_circuit_satisfiability s (transfer_to_scalars p) = true;
    tg_prove : snark_prove (tr_prand r) s (tpk_key pk) (ser_verkey (ver_key (tr_sig r)) ++ extra) = Ok (tn_proof n);
    tg_aux : ta_valid_until (tn_aux n) = vu /\ ta_memo_vk (tn_aux n) = ver_key sk /\ ta_extra (tn_aux n) = extra
  }.

  Lemma transfer_generate_inv r inputs outputs pk vu extra n sk :
    transfer_generate r inputs outputs pk vu extra = Ok (n, sk) ->
    exists w p s, transfer_generated r inputs outputs pk vu extra n sk w p s.
  Proof.
    unfold transfer_generate. intros H. failH H. bindH H u1 Hkey. bindH H u2 Hpub. bindH H u3 Hdum. bindH H fee Hbal.
    bindH H u4 Had. bindH H u5 Hfz. bindH H root Hroot. bindH H u6 Hcred. bindH H w Hw. bindH H p Hp.
    bindH H u7 Hnd. bindH H prf Hprf. injection H as <- <-. destruct u1, u2, u3, u4, u5, u6, u7.
    unfold transfer_prove in Hprf. bindH Hprf s Hs. apply map_err_ok in Hs. failH Hprf. apply map_err_ok in Hprf.
    apply negb_false_iff in K0.
    exists w, p, s.
    (* key *)
    unfold transfer_check_proving_key_consistency in Hkey. failH Hkey. failH Hkey. apply fail_if_ok in Hkey.
    apply negb_false_iff, Nat.eqb_eq in K1. apply negb_false_iff, Nat.eqb_eq in K2. apply negb_false_iff in Hkey. rewrite forallb_forall in Hkey.
    (* assets *)
    apply (check_asset_def_iff L) in Had. destruct Had as (i0 & irest & o0 & orest & d & Ei & Eo & Di & Do & Htr & HI & HO & HV).
    destruct inputs as [|j0 jrest]; [discriminate|]. cbn [map] in Ei. apply cons_inj in Ei. destruct Ei as [Ei0 Eir].
    pose proof (new_unchecked_inv _ _ _ _ Hw) as (Wa & Wo & Wr & Wi).
    pose proof (map_inputs _ _ Wi) as [Mro Mnl].
    (* public input *)
    pose proof Hp as Hp'. unfold transfer_from_witness in Hp'.
    bindH Hp' s0 Hs0. bindH Hp' oo Hoo. bindH Hp' si Hsi. bindH Hp' so Hso. bindH Hp' fe Hfe. bindH Hp' memo Hmemo.
    injection Hp' as Hp'. apply ok_or_ok in Hs0, Hoo, Hsi, Hso.
    apply safe_sum_some in Hsi, Hso.
    assert (Esi : amt_sum (non_dummy (map ti_ro (j0 :: jrest))) = zv si).
    { rewrite <- Hsi. unfold amt_sum, non_dummy. rewrite <- Mro.
      rewrite <- (filter_map_comm is_ro (fun r => negb (is_dummy_def (asset_def r)))), !map_map. reflexivity. }
    assert (Eso : amt_sum outputs = zv so).
    { rewrite <- Hso, Wo. unfold amt_sum. rewrite map_map. reflexivity. }
    destruct (Z.leb_spec (zv so) (zv si)) as [Hle|]; [|discriminate]. injection Hfe as Hfe.
    pose proof (amount_range si) as Rsi. pose proof (amount_range so) as Rso.
    destruct (balance_exact (map ti_ro (j0 :: jrest)) outputs fee i0 irest o0 orest d) as [Efee Ebal]; auto; try lia.
    { cbn [map]. congruence. }
    assert (Efe : fe = fee).
    { subst fe. apply zmod_ext. rewrite Efee, Esi, Eso. rewrite zv_w128_small; lia. }
    (* root *)
    unfold check_and_get_roots in Hroot.
    destruct (existsb _ _) eqn:Hex in Hroot; [discriminate|]. injection Hroot as Hroot. rewrite existsb_false in Hex.
    assert (Eroot : acc_root (is_acc s0) = root).
    { inversion Wi as [|? ? ? ? (_ & _ & A & _) _ E1 E2]; subst. rewrite <- E2 in Hs0. cbn in Hs0. injection Hs0 as <-. rewrite A. reflexivity. }
    assert (Enat : code (asset_def oo) = native_asset_code).
    { rewrite Wo, Eo in Hoo. cbn in Hoo. injection Hoo as <-. rewrite Do. reflexivity. }
    assert (Hnote : mkTPI root native_asset_code vu fee (tp_nullifiers p) (tp_commitments p) (tp_memo p) = p).
    { rewrite <- Hp'. cbn. rewrite Eroot, Enat, Efe. reflexivity. }
    assert (Enl : tp_nullifiers p = map (fun i => user_nullify (ti_kp i) (freezer_pk (policy (asset_def (ti_ro i))))
                                            (acc_uid (ti_acc i)) (derive_record_commitment (ti_ro i))) (j0 :: jrest)).
    { rewrite <- Hp'. exact Mnl. }
    constructor; cbn [tn_nullifiers tn_commitments tn_proof tn_memo tn_aux ta_root ta_fee ta_valid_until ta_memo_vk ta_extra]; auto.
    - conjs; auto. intros i Hi. apply Nat.eqb_eq, Hkey, Hi.
    - intros i Hi Hd. unfold check_input_pub_keys in Hpub. apply fail_if_ok, negb_false_iff in Hpub. rewrite forallb_forall in Hpub.
      apply (user_pub_key_eqb_spec L), Hpub, filter_In. split; auto. apply negb_true_iff, not_true_iff_false. rewrite (is_dummy_iff L). auto.
    - exists j0, jrest, o0, orest, d. subst i0. rewrite Eir. conjs; auto.
      intros i Hi. apply HI. rewrite <- Eir. apply in_map, Hi.
    - unfold check_dummy_inputs in Hdum. cbn [map] in Hdum. unfold ro_is_dummy in Hdum.
      destruct (is_dummy_def (asset_def (ti_ro j0))) eqn:E0; [discriminate|].
      destruct (existsb _ _) eqn:E1 in Hdum; [discriminate|]. rewrite existsb_false in E1.
      intros i [<-|Hi] Hd.
      + apply (is_dummy_iff L) in Hd. congruence.
      + specialize (E1 (ti_ro i) (in_map _ _ _ Hi)). apply (is_dummy_iff L) in Hd. rewrite Hd in E1. cbn [andb] in E1. apply negb_false_iff, Z.eqb_eq in E1. exact E1.
    - unfold check_unfrozen in Hfz. apply fail_if_ok in Hfz. rewrite existsb_false in Hfz. split.
      + intros i Hi. specialize (Hfz (ti_ro i) (in_or_app _ _ _ (or_introl (in_map ti_ro _ _ Hi)))).
        destruct (freeze_flag (ti_ro i)); [discriminate Hfz||reflexivity|reflexivity||discriminate Hfz].
      + intros o Ho. specialize (Hfz o (in_or_app _ _ _ (or_intror Ho))).
        destruct (freeze_flag o); [discriminate Hfz||reflexivity|reflexivity||discriminate Hfz].
    - split; [exists j0; split; [reflexivity|auto]|]. intros i Hi Hd. specialize (Hex i).
      assert (HF : In i (filter (fun i => negb (ro_is_dummy (ti_ro i))) (j0 :: jrest))).
      { apply filter_In. split; auto. unfold ro_is_dummy. apply negb_true_iff, not_true_iff_false. rewrite (is_dummy_iff L). auto. }
      apply Hex, negb_false_iff, zeqb_spec in HF. congruence.
    - unfold check_creds in Hcred. rewrite forM_ok in Hcred. intros i Hi Hc. specialize (Hcred i Hi).
      apply (point_eqb_neq L) in Hc. cbv beta in Hcred. rewrite Hc in Hcred. cbn [negb] in Hcred.
      destruct (ti_cred i) as [c|]; [|discriminate]. eauto.
    - rewrite Esi, Eso. split; [apply Rsi|apply Rso].
    - rewrite <- Hp'. cbn. rewrite Wo. reflexivity.
    - rewrite <- Mro, <- Wo, <- Wr, Hmemo. rewrite <- Hp'. reflexivity.
    - apply check_distinct_iff; auto.
  Qed.

  (** ** What the satisfied circuit adds *)
  Lemma policy_weak_dummy d : code d = dummy_asset_code -> policy_empty_weak (pol_value (policy d)) -> d = asset_def_dummy.
  Proof.
    destruct d as [c [v cr f m t]]. cbn [code policy]. intros -> (Hv & Hc & Hf & Hs). cbn in Hv, Hc, Hf, Hs.
    unfold no_key, neutral_xy in *. rewrite <- (pt_xy_id L) in *.
    apply (pt_xy_inj L) in Hv, Hc, Hf. subst. unfold asset_def_dummy, policy_default. do 2 f_equal.
    - destruct rm_scalar_spec as (Hr & Hinj & _). pose proof (Hr m) as Hm.
      assert (zv (rm_to_scalar m) = 0).
      { apply (f_equal zv) in Hs. revert Hs. unfold fadd. rewrite zv_fz. pose proof modulus_lb. pose proof (amount_range t).
        rewrite zv_f_of_u128. rewrite Z.mod_small by lia. intros Hs. change (zv f0) with (0 mod modulus) in Hs.
        rewrite Z.mod_0_l in Hs by lia. lia. }
      apply Hinj. apply zmod_ext. rewrite H. reflexivity.
    - apply zmod_ext. apply (f_equal zv) in Hs. revert Hs. unfold fadd. rewrite zv_fz.
      destruct rm_scalar_spec as (Hr & _). pose proof (Hr m) as Hm. pose proof modulus_lb. pose proof (amount_range t).
        rewrite zv_f_of_u128. rewrite Z.mod_small by lia. intros Hs. change (zv f0) with (0 mod modulus) in Hs.
        rewrite Z.mod_0_l in Hs by lia. change (zv (w128 0)) with 0. lia.
  Qed.

  Lemma Forall2_first_In {A B} (P : bool -> A -> B -> Prop) l k x : Forall2_first P l k -> In x l -> exists b y, In y k /\ P b x y.
  Proof.
    destruct l as [|a l], k as [|b k]; cbn [Forall2_first]; [intros _ []|intros []|intros []|]. intros [H0 H] [<-|Hx]; [exists true, b; cbn; auto|].
    destruct (Forall2_In_l _ _ _ _ H Hx) as (y & Hy & HP). exists false, y; cbn; auto.
  Qed.

  Section Gen.
    Context r inputs outputs pk vu extra n sk w p s (G : transfer_generated r inputs outputs pk vu extra n sk w p s).

    Lemma tg_relation : transfer_relation (transfer_pub_value p) (transfer_value w).
    Proof.
      eapply transfer_honest; [apply (transfer_from_witness_lengths L _ _ _ (tg_public _ _ _ _ _ _ _ _ _ _ _ G))|
        apply (tg_circuit _ _ _ _ _ _ _ _ _ _ _ G)|apply (tg_sat _ _ _ _ _ _ _ _ _ _ _ G)].
    Qed.
    Lemma tg_secret i : In i inputs -> exists s, In s (tw_inputs w) /\ is_kp s = ti_kp i /\ is_ro s = ti_ro i /\ is_acc s = ti_acc i /\
      (cred_pk (policy (asset_def (ti_ro i))) <> pt_id -> ti_cred i = Some (is_cred s)).
    Proof.
      intros Hi. destruct (new_unchecked_inv _ _ _ _ (tg_witness _ _ _ _ _ _ _ _ _ _ _ G)) as (_ & _ & _ & W).
      destruct (Forall2_In_l _ _ _ _ W Hi) as (s' & Hs & K1 & K2 & K3 & _ & K4). eauto 10.
    Qed.
    Lemma tg_secret_ok s' : In s' (tw_inputs w) -> exists b nl, In nl (tn_nullifiers n) /\
      input_ok (transfer_value w) (transfer_pub_value p) b (input_value s') nl.
    Proof.
      intros Hs. pose proof (tr_inputs _ _ tg_relation) as H. cbn [tv_ins transfer_value tq_nullifiers transfer_pub_value] in H.
      destruct (Forall2_first_In _ _ _ _ H (in_map input_value _ _ Hs)) as (b & nl & Hn & Hok). exists b, nl. split; auto.
      rewrite <- (tg_note _ _ _ _ _ _ _ _ _ _ _ G) in Hn. exact Hn.
    Qed.
    (** the owner of every input, dummy or not, is the given key pair's address *)
    Lemma tg_owner i : In i inputs -> address (pub_key (ti_ro i)) = user_address (ti_kp i).
    Proof.
      intros Hi. destruct (tg_secret i Hi) as (s' & Hs & K1 & K2 & _). destruct (tg_secret_ok s' Hs) as (b & nl & _ & Hok).
      destruct (io_owner _ _ _ _ _ Hok) as [_ E]. cbn [ro_owner in_ro in_sk input_value ro_value] in E. rewrite K1, K2 in E.
      rewrite zv_fr_to_fq in E. apply (pt_xy_inj L) in E. exact E.
    Qed.
    (** every input that is not the dummy asset is in the tree with the note's root *)
    Lemma tg_member i : In i inputs -> asset_def (ti_ro i) <> asset_def_dummy ->
      merkle_root_of (f_of_u64 (acc_uid (ti_acc i))) (derive_record_commitment (ti_ro i)) (acc_path (ti_acc i)) = ta_root (tn_aux n).
    Proof.
      intros Hi Hd. destruct (tg_secret i Hi) as (s' & Hs & K1 & K2 & K3 & _). destruct (tg_secret_ok s' Hs) as (b & nl & _ & Hok).
      pose proof (io_member _ _ _ _ _ Hok) as HM. cbn [in_place in_ro input_value] in HM. rewrite commitment_of_ro_value, K2, K3 in HM.
      unfold root_from in HM. cbn [place_value pl_uid pl_path] in HM. rewrite HM.
      - rewrite <- (tg_note _ _ _ _ _ _ _ _ _ _ _ G). reflexivity.
      - intros Hc. apply Hd. pose proof (io_policy _ _ _ _ _ Hok) as HP. cbn [in_ro input_value] in HP. rewrite K2 in HP.
        unfold is_dummy_code in *. cbn [ro_code ro_pol ro_value] in *. destruct b.
        + destruct HP as [HN (H1 & H2 & H3 & H4 & H5)]. apply policy_weak_dummy; auto. unfold policy_empty_weak. rewrite H1, H2, H3, H4, H5. conjs; auto.
        + apply policy_weak_dummy; auto. apply HP; auto.
    Qed.
    Lemma tg_shape : map input_shape (tw_inputs w) = repeat (tpk_depth pk, ATTRS_LEN) (tpk_n_in pk).
    Proof.
      destruct (new_unchecked_inv _ _ _ _ (tg_witness _ _ _ _ _ _ _ _ _ _ _ G)) as (_ & _ & _ & W).
      destruct (tg_lens _ _ _ _ _ _ _ _ _ _ _ G) as (L1 & _ & L3). rewrite <- L1, (Forall2_len _ _ _ W).
      assert (HF : forall s', In s' (tw_inputs w) -> input_shape s' = (tpk_depth pk, ATTRS_LEN)).
      { intros s' Hs. destruct (Forall2_In_r _ _ _ _ W Hs) as (i & Hi & _ & _ & K3 & _). unfold input_shape. rewrite K3, (L3 i Hi). f_equal.
        destruct (tg_secret_ok s' Hs) as (b & nl & _ & Hok). apply (io_cred_len _ _ _ _ _ Hok). }
      revert HF. generalize (tw_inputs w) as l. induction l as [|x l IH]; intros HF; [reflexivity|]. cbn [map length repeat].
      rewrite HF by (left; auto). f_equal. apply IH. intros; apply HF; right; auto.
    Qed.
  End Gen.

  (** ** A generated note verifies *)
  Lemma transfer_generate_verifies (SL : SnarkLaws S) g n_in n_out d pk vk r inputs outputs vu extra n sk ts :
    transfer_preprocess g n_in n_out d = Ok (pk, vk) ->
    transfer_generate r inputs outputs pk vu extra = Ok (n, sk) -> zv ts <= zv vu ->
    transfer_verify n vk (ta_root (tn_aux n)) ts = Ok tt.
  Proof.
    intros HP HG Ht. apply transfer_preprocess_keys in HP. destruct HP as (s0 & Hb & Hk & E1 & E2 & E3 & _).
    destruct (transfer_generate_inv _ _ _ _ _ _ _ _ HG) as (w & p & s & G).
    apply transfer_verify_iff. destruct (tg_aux _ _ _ _ _ _ _ _ _ _ _ G) as (A1 & A2 & A3). rewrite A1, A2, A3. conjs; auto.
    rewrite (tg_note _ _ _ _ _ _ _ _ _ _ _ G).
    pose proof (tg_shape _ _ _ _ _ _ _ _ _ _ _ G) as HS. rewrite E1, E3 in HS.
    destruct (new_unchecked_inv _ _ _ _ (tg_witness _ _ _ _ _ _ _ _ _ _ _ G)) as (_ & Wo & _ & _).
    destruct (tg_lens _ _ _ _ _ _ _ _ _ _ _ G) as (_ & L2 & _).
    destruct (transfer_honest_circuit L _ _ _ _ _ _ _ Hb (tg_public _ _ _ _ _ _ _ _ _ _ _ G) HS) as (s' & Hs & Hsim); [congruence|].
    rewrite (tg_circuit _ _ _ _ _ _ _ _ _ _ _ G) in Hs. injection Hs as <-.
    destruct (snark_complete _ SL _ _ _ _ (tr_prand r) _ _ (ser_verkey (ver_key (tr_sig r)) ++ extra) Hk Hsim (tg_sat _ _ _ _ _ _ _ _ _ _ _ G)) as (prf & Hprf & Hv).
    rewrite (tg_prove _ _ _ _ _ _ _ _ _ _ _ G) in Hprf. injection Hprf as <-. rewrite (tg_sk _ _ _ _ _ _ _ _ _ _ _ G). exact Hv.
  Qed.

  (** ** The native entry point: the note's fee is the requested fee *)
  Lemma native_def_in l : (forall r0, In r0 l -> asset_def r0 = asset_def_native) -> amt_sum l = code_sum native_asset_code l.
  Proof. intros H. symmetry. apply code_sum_all. intros r0 Hr. rewrite (H r0 Hr). reflexivity. Qed.
  Lemma transfer_native_inv r inputs outputs fee vu pk n sk chg :
    transfer_generate_native r inputs outputs fee vu pk = Ok (n, sk, chg) ->
    transfer_generate r inputs (chg :: outputs) pk vu [] = Ok (n, sk) /\
    ta_fee (tn_aux n) = fee /\
    exists i0 rest, inputs = i0 :: rest /\
      asset_def (ti_ro i0) = asset_def_native /\
      (forall i, In i rest -> asset_def (ti_ro i) = asset_def_dummy \/ asset_def (ti_ro i) = asset_def_native) /\
      (forall o, In o outputs -> asset_def o = asset_def_native) /\
      asset_def chg = asset_def_native /\ pub_key chg = pub_key (ti_ro i0) /\ freeze_flag chg = Unfrozen /\ blind chg = tr_chg_blind r /\
      zv (amount chg) = amt_sum (non_dummy (map ti_ro inputs)) - amt_sum outputs - zv fee.
  Proof.
    unfold transfer_generate_native. intros H. destruct inputs as [|i0 rest]; [discriminate|]. failH H.
    bindH H ti Hti. bindH H to Hto. bindH H need Hneed. failH H. bindH H d Hd. bindH H ch Hch. cbv zeta in H. bindH H nk Hnk. injection H as <- <- <-.
    destruct nk as [n sk]. cbn [fst snd].
    apply orb_false_iff in K. destruct K as [K K3]. apply orb_false_iff in K. destruct K as [K1 K2].
    apply negb_false_iff, (is_native_iff L) in K1. rewrite existsb_false in K2. rewrite existsb_false in K3.
    assert (HI : forall i, In i rest -> asset_def (ti_ro i) = asset_def_dummy \/ asset_def (ti_ro i) = asset_def_native).
    { intros i Hi. specialize (K2 i Hi). apply negb_false_iff, orb_true_iff in K2. rewrite (is_native_iff L) in K2. unfold ro_is_dummy in K2.
      rewrite (is_dummy_iff L) in K2. exact K2. }
    assert (HO : forall o, In o outputs -> asset_def o = asset_def_native).
    { intros o Ho. specialize (K3 o Ho). apply negb_false_iff, (is_native_iff L) in K3. exact K3. }
    split; [exact Hnk|].
    apply ok_or_ok, safe_sum_some in Hti, Hto.
    assert (Eti : amt_sum (non_dummy (map ti_ro (i0 :: rest))) = zv ti).
    { rewrite <- Hti. unfold amt_sum, non_dummy. rewrite <- (filter_map_comm ti_ro (fun r => negb (is_dummy_def (asset_def r)))), !map_map. reflexivity. }
    assert (Eto : amt_sum outputs = zv to) by (rewrite <- Hto; unfold amt_sum; rewrite map_map; reflexivity).
    destruct (transfer_generate_inv _ _ _ _ _ _ _ _ Hnk) as (w & p & s & G).
    pose proof (tg_balance _ _ _ _ _ _ _ _ _ _ _ G native_asset_code) as HB. rewrite zeqb_refl in HB.
    rewrite <- native_def_in in HB.
    2:{ intros r0 Hr. apply non_dummy_In in Hr. destruct Hr as [Hr Hd']. apply in_map_iff in Hr. destruct Hr as (i & <- & Hi).
        destruct Hi as [<-|Hi]; auto. destruct (HI i Hi); auto. contradiction. }
    rewrite <- native_def_in in HB by (intros r0 [<-|Hr]; [reflexivity|apply HO, Hr]).
    rewrite amt_sum_cons, Eti, Eto in HB. cbn [amount ro_new] in HB.
    (* the change is the difference modulo 2^128, whatever the build profile *)
    assert (HE : forall a b c, amount_sub a b = Ok c -> zv c = (zv a - zv b) mod 2 ^ 128).
    { intros a b c Hs. unfold amount_sub in Hs. destruct (zv b <=? zv a); [|destruct overflow_checks; [discriminate|]]; injection Hs as <-; apply zv_w128. }
    apply HE in Hd, Hch. rewrite Hd in Hch. rewrite Zminus_mod_idemp_l in Hch.
    pose proof (amount_range ti). pose proof (amount_range to). pose proof (amount_range fee). pose proof (amount_range ch).
    pose proof (amount_range (ta_fee (tn_aux n))).
    assert (HF : zv (ta_fee (tn_aux n)) = zv fee).
    { assert (Hmod : zv (ta_fee (tn_aux n)) mod 2 ^ 128 = zv fee mod 2 ^ 128).
      { replace (zv (ta_fee (tn_aux n))) with (zv ti - zv to - zv ch) by lia. rewrite Zminus_mod, Hch, Zmod_mod, <- Zminus_mod. f_equal. lia. }
      rewrite !Z.mod_small in Hmod; auto. }
    split; [apply zmod_ext; exact HF|]. exists i0, rest. conjs; auto. cbn [amount ro_new]. lia.
  Qed.
End TransferGen.
