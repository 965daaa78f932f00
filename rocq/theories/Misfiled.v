(** Records that a wallet files under a wrong position cannot be spent; where the fee record of a block is. *)
From Verif Require Import Base Config Structs Keys Utils Memo Plonk Witness Circuits Relation CircuitLogic CodecProofs PolicyProofs
  UtilsProofs MemoProofs GadgetProofs Snark Notes NoteProofs NoteGen NoteGen2 NoteThms Security Accepted NoteFacts NoteLive NoteLive2
  Serde Ledger LedgerSpec LedgerProofs Wallet WalletSpec WalletProofs WalletPay WalletPay2 LedgerBlocks ExactSpec Proposer.

Section Misfiled.
  Context {C : CapConfig} (L : CapLaws C) {S : Snark C} {K : @RoCodec C} {MS : MemoSer C}.

  Lemma in_place depth leaves (uid : u64) com :
    merkle_root_of (f_of_u64 uid) com (tree_path leaves 0 depth (Z.to_nat (zv uid))) = tree_root depth leaves ->
    hash_collision_free (lookup_hashes depth leaves uid com) -> Z.of_nat (length leaves) < 2 ^ 64 ->
    nth_error leaves (Z.to_nat (zv uid)) = Some com.
  Proof.
    intros HM HC HL. pose proof (tree_path_length leaves depth 0 (Z.to_nat (zv uid))) as EL.
    destruct (membership_binding (lookup_hashes depth leaves uid com) leaves (f_of_u64 uid) com (tree_path leaves 0 depth (Z.to_nat (zv uid))) HC) as (j & Hj & Eu & _).
    - intros x Hx. apply in_or_app. right. exact Hx.
    - intros x Hx. apply in_or_app. left. rewrite EL in Hx. exact Hx.
    - rewrite EL. exact HM.
    - assert (Lj : (j < length leaves)%nat) by (apply nth_error_Some; congruence).
      assert (E : zv uid = Z.of_nat j).
      { apply (f_equal zv) in Eu. rewrite zv_f_of_u64, zv_fz, Z.mod_small in Eu; [exact Eu|]. pose proof modulus_lb. lia. }
      rewrite E, Nat2Z.id. exact Hj.
  Qed.

  Lemma in_place_of depth leaves x : merkle_root_of (f_of_u64 (snd x)) (derive_record_commitment (fst x)) (tree_path leaves 0 depth (Z.to_nat (zv (snd x)))) = tree_root depth leaves ->
    hash_collision_free (lookup_hashes depth leaves (snd x) (derive_record_commitment (fst x))) -> Z.of_nat (length leaves) < 2 ^ 64 -> ~ misfiled leaves x.
  Proof. intros H1 H2 H3 M. apply M, (in_place depth); assumption. Qed.

  Lemma inputs_in_place depth leaves w cred r pk outputs vu extra before records n sk rr :
    (forall x, In x records -> ro_is_dummy (fst x) = false) ->
    transfer_generate rr (before ++ map (input_of w depth leaves cred) records ++ [dummy_input depth r]) outputs pk vu extra = Ok (n, sk) ->
    Z.of_nat (length leaves) < 2 ^ 64 -> forall x, In x records ->
    hash_collision_free (lookup_hashes depth leaves (snd x) (derive_record_commitment (fst x))) -> ~ misfiled leaves x.
  Proof.
    intros ND GG HL x Hx CF. apply (generated_transfer L) in GG. destruct GG as (_ & _ & _ & _ & _ & _ & _ & _ & B1 & _).
    destruct (B1 (input_of w depth leaves cred x)) as (_ & E1 & _ & E2).
    { apply in_or_app. right. apply in_or_app. left. apply in_map, Hx. }
    { cbn [input_of ti_ro]. intros E. pose proof (ND x Hx) as N. unfold ro_is_dummy in N. rewrite (proj2 (is_dummy_iff L _) E) in N. discriminate N. }
    cbn [input_of ti_ro ti_acc acc_root acc_uid acc_path] in E1, E2. apply (in_place_of depth); [congruence|exact CF|exact HL].
  Qed.

  Lemma native_in_place g depth w r outs fee leaves w1 n memos sg : wallet_ok w -> Z.of_nat (length leaves) < 2 ^ 64 ->
    spend_native g depth w r outs fee leaves = (w1, Ok (n, memos, sg)) ->
    exists records dn, records <> [] /\ tn_nullifiers n = map (w_nullify w) records ++ [dn] /\
      forall x, In x records -> holds w x /\ code (asset_def (fst x)) = native_asset_code /\
        (hash_collision_free (lookup_hashes depth leaves (snd x) (derive_record_commitment (fst x))) -> ~ misfiled leaves x).
  Proof.
    intros W HL H. unfold spend_native in H. destruct (let* t := total_amount outs in _) as [[records chg0]| |] eqn:F; try discriminate H.
    apply bind_ok in F. destruct F as (t0 & _ & F). apply bind_ok in F. destruct F as (tot & _ & F).
    destruct (find_records_sub _ _ _ _ _ F) as (b & rest & Gb & Hb & Hr). pose proof (find_records_some _ _ _ _ _ F) as Hne. clear F.
    cbn [ro_dummy] in H. change (ro_new (sr_dummy_blind r) (w128 0) asset_def_dummy (user_pub_key (sr_dummy_kp r)) Unfrozen) with (dummy_ro r) in H.
    destruct (let* inputs := _ in _) as [[[[note ms] sig] chg]| |] eqn:G; try discriminate H. injection H as <- <- <- <-.
    apply bind_ok in G. destruct G as (inputs & GI & G). apply bind_ok in G. destruct G as (keys & _ & G). apply bind_ok in G.
    destruct G as ([[n0 sk] chg'] & GG & G). apply bind_ok in G. destruct G as (ms' & _ & G). apply bind_ok in G. destruct G as (sg' & _ & G). injection G as <- <- <- <-.
    assert (CO : forall x, In x records -> code (asset_def (fst x)) = native_asset_code).
    { intros x Hx. rewrite (bucket_code w _ _ W Gb x); [reflexivity|]. rewrite Hb. apply in_or_app. left; exact Hx. }
    assert (ND : forall x, In x records -> ro_is_dummy (fst x) = false).
    { intros x Hx. apply (not_dummy_of_code L). rewrite (CO x Hx). apply native_neq_dummy. }
    destruct (payment_inputs_inv L _ _ _ _ _ _ ND _ GI) as [-> Hu]. clear GI.
    apply (transfer_native_inv L) in GG. destruct GG as (GG & _).
    exists records, (dummy_nullifier r). split; [exact Hne|]. split.
    - apply (generated_transfer L) in GG. destruct GG as (_ & _ & _ & _ & _ & _ & _ & _ & _ & _ & B1 & _). rewrite B1. apply input_nullifiers.
    - intros x Hx. split; [|split].
      + apply map_get_in in Gb. exists native_asset_code, b. split; [exact Gb|]. rewrite Hb. apply in_or_app. left; exact Hx.
      + exact (CO x Hx).
      + exact (inputs_in_place depth leaves w None r _ _ _ _ [] records _ _ _ ND GG HL x Hx).
  Qed.

  Lemma non_native_in_place g depth w r d outs fee leaves w1 n memos sg : wallet_ok w -> Z.of_nat (length leaves) < 2 ^ 64 ->
    code d <> native_asset_code -> code d <> dummy_asset_code ->
    spend_non_native g depth w r d outs fee leaves = (w1, Ok (n, memos, sg)) ->
    exists fee_rec records dn, records <> [] /\ tn_nullifiers n = map (w_nullify w) (fee_rec :: records) ++ [dn] /\
      code (asset_def (fst fee_rec)) = native_asset_code /\
      forall x, In x (fee_rec :: records) -> holds w x /\
        (hash_collision_free (lookup_hashes depth leaves (snd x) (derive_record_commitment (fst x))) -> ~ misfiled leaves x).
  Proof.
    intros W HL Dn Dd H. unfold spend_non_native in H. destruct (asset_def_eqb d asset_def_native); [discriminate H|].
    destruct (let* total := total_amount outs in _) as [[total frec]| |] eqn:F; try discriminate H.
    apply bind_ok in F. destruct F as (t0 & _ & F). apply bind_ok in F. destruct F as (fr & FF & F). injection F as _ <-.
    destruct (fee_record_holds _ _ _ FF) as [Hf (bf & Gf & If)].
    match type of H with context [match ?x with Ok _ => _ | Err _ => _ | Panic => _ end] => destruct x as [[[[[note ms] sig] records] chg]| |] eqn:G end; try discriminate H.
    injection H as _ <- <- <-.
    apply bind_ok in G. destruct G as (a & Ha & G). apply bind_ok in G. destruct G as ([info fee_chg] & GF & G). apply unwrap_ok in GF.
    apply bind_ok in G. destruct G as ([records' change] & GR & G). cbn [ro_dummy] in G.
    apply bind_ok in G. destruct G as (inputs & GI & G). apply bind_ok in G. destruct G as (keys & _ & G).
    apply bind_ok in G. destruct G as ([n0 sk] & GG & G). apply bind_ok in G. destruct G as (ms' & GM & G). apply bind_ok in G. destruct G as (sg' & _ & G).
    injection G as <- <- <- <- <-.
    destruct (find_records_sub _ _ _ _ _ GR) as (b & rest & Gb & Hb & Hr). pose proof (find_records_some _ _ _ _ _ GR) as Hne.
    assert (ND : forall x, In x records' -> ro_is_dummy (fst x) = false).
    { intros x Hx. apply (not_dummy_of_code L). rewrite (bucket_code w _ _ W Gb x); [exact Dd|]. rewrite Hb. apply in_or_app. left; exact Hx. }
    change (ro_new (sr_dummy_blind r) (w128 0) asset_def_dummy (user_pub_key (sr_dummy_kp r)) Unfrozen) with (dummy_ro r) in GI.
    destruct (payment_inputs_inv L _ _ _ _ _ _ ND _ GI) as [-> Hu]. clear GI.
    apply lookup_from_tree_spec in Ha. destruct Ha as [Hlt ->].
    assert (EI : fee_input info = mkFeeInput (fst fr) (mkAcc (snd fr) (tree_path leaves 0 depth (Z.to_nat (zv (snd fr)))) (tree_root depth leaves)) (w_kp w)).
    { unfold txn_fee_info_new in GF. cbn [fi_ro] in GF. destruct (amount_ltb _ _); [discriminate GF|].
      apply bind_ok in GF. destruct GF as (am & _ & GF). injection GF as <- _. reflexivity. }
    apply generated_non_native in GG. destruct GG as [HF GG].
    exists fr, records', (dummy_nullifier r). split; [exact Hne|]. split; [|split].
    - apply (generated_transfer L) in GG. destruct GG as (_ & _ & _ & _ & _ & _ & _ & _ & _ & _ & B1 & _). rewrite B1. cbn [map].
      rewrite input_nullifiers. rewrite EI. reflexivity.
    - exact (bucket_code w _ _ W Gf fr If).
    - intros x [<-|Hx]; (split; [|intros CF]).
      + exact Hf.
      + apply (check_fee_iff L) in HF. destruct HF as (_ & _ & _ & _ & _ & HF).
        rewrite EI in HF. cbn [fi_ro fi_acc acc_uid acc_path acc_root] in HF. apply (in_place_of depth); [exact HF|exact CF|exact HL].
      + apply map_get_in in Gb. exists (code d), b. split; [exact Gb|]. rewrite Hb. apply in_or_app. left; exact Hx.
      + exact (inputs_in_place depth leaves w _ r _ _ _ _ [fee_to_transfer_input (fee_input info)] records' _ _ _ ND GG HL x Hx CF).
  Qed.
End Misfiled.

Section FeePosition.
  Context {C : CapConfig} (L : CapLaws C) {S : Snark C} {Z0 : Ser C S}.
  Lemma outputs_at_least (txns : list TransactionNote) : (forall t, In t txns -> tx_output_commitments t <> []) ->
    (length txns <= length (flat_map tx_output_commitments txns))%nat.
  Proof.
    induction txns as [|t txns IH]; intros H; [apply Nat.le_refl|]. cbn [flat_map length]. rewrite app_length.
    specialize (IH (fun x Hx => H x (or_intror Hx))). specialize (H t (or_introl eq_refl)). destruct (tx_output_commitments t); [contradiction|]. cbn [length]. lia.
  Qed.
  (** where the fee record of a block is, and where the test's proposer files it *)
  Lemma fee_position v l wallet bl txns ro b sig :
    collect_fee_and_build_block wallet bl txns = Ok (ro, b, sig) ->
    exists l', insert_block (vd_depth v) l b = (l', Ok tt) /\
      nth_error (lg_leaves l') (length (lg_leaves l) + length (flat_map tx_output_commitments txns)) = Some (derive_record_commitment ro) /\
      length (lg_leaves l') = Datatypes.S (length (lg_leaves l) + length (flat_map tx_output_commitments txns)) /\
      (txns <> [] -> (forall t, In t txns -> tx_output_commitments t <> []) ->
       claimed_position (length (lg_leaves l)) b < Z.of_nat (length (lg_leaves l) + length (flat_map tx_output_commitments txns)) /\
       exists c, nth_error (lg_leaves l') (Z.to_nat (claimed_position (length (lg_leaves l)) b)) = Some c /\ In c (flat_map tx_output_commitments txns)).
  Proof.
    intros H. destruct (LedgerBlocks.built_block L v l wallet bl txns ro b sig (w64 0) H) as (ET & _ & _ & _ & _ & _ & _ & l' & HI & HL & _).
    exists l'. split; [exact HI|]. rewrite HL. split; [|split].
    - rewrite app_assoc, nth_error_app2; rewrite app_length; [|apply Nat.le_refl]. rewrite Nat.sub_diag. reflexivity.
    - rewrite !app_length. cbn [length]. lia.
    - intros HN HO. pose proof (outputs_at_least txns HO) as LE. unfold claimed_position. rewrite ET.
      assert (0 < length txns)%nat by (destruct txns; [contradiction|cbn [length]; lia]). split; [lia|].
      replace (Z.to_nat _) with (length (lg_leaves l) + (length txns - 1))%nat by lia.
      rewrite nth_error_app2 by (unfold F in *; lia). replace (length (lg_leaves l) + (length txns - 1) - length (lg_leaves l))%nat with (length txns - 1)%nat by lia.
      rewrite nth_error_app1 by (unfold F in *; lia).
      destruct (nth_error (flat_map tx_output_commitments txns) (length txns - 1)) as [c|] eqn:N.
      + exists c. split; [reflexivity|]. exact (nth_error_In _ _ N).
      + apply nth_error_None in N. lia.
  Qed.
End FeePosition.
