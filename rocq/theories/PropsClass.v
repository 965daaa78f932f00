(** C88: an asset under a policy. *)
From Verif Require Import Base Config Structs Keys Utils Memo Plonk Witness Circuits Relation Snark Notes Serde ToySer
  GadgetProofs TransferCircuitProofs NoteProofs NoteGen NoteGen2 Accepted CircuitFacts Toy ToySnark Samples NoteSamples
  Ledger LedgerSpec LedgerSamples OriginSpec LibrarySpec Library ClassSpec Class.
#[local] Existing Instance toy_snark.
#[local] Existing Instance l_ser.

(** In every history the unspent records of a code under a policy hold exactly what was minted of that code under that policy: units
    never move from one policy to another, even if the code was minted under both. *)
Theorem C88_supply (C : CapConfig) (L : CapLaws C) (S : Snark C) (Z0 : Ser C S) (v : Validator)
  (op : TransactionNote -> Opening) (h : list event) : (vd_depth v <= 100)%nat ->
  (forall t, In t (accepted v h) -> tx_opens (vd_depth v) t (op t)) ->
  let spends := spends_of op (accepted v h) in
  hash_collision_free (history_hashes (vd_depth v) (lg_leaves (ledger_after v h)) spends) ->
  commitment_binding (records op v h ++ map sp_ro spends) ->
  (forall s, In s spends -> zv (sp_sk s) < sub_order /\ ro_owner (sp_ro s) <> no_key) ->
  (forall t, In t (accepted v h) -> supply_condition t (op t)) ->
  forall c p, c <> dummy_asset_code -> c <> native_asset_code ->
  class_total c p (unspent (records op v h) spends) = sumz (map (class_mints c p) (effective v (ledger_new (vd_depth v)) h)).
Proof. intros Hd HO spends HF HB HK HC. exact (class_supply L v op Hd h HO HF HB HC HK). Qed.
Print Assumptions C88_supply.
(** If all mints of a code name the same keys and threshold, so does every record of a positive amount of it. *)
Theorem C88_one_policy (C : CapConfig) (L : CapLaws C) (S : Snark C) (Z0 : Ser C S) (v : Validator)
  (op : TransactionNote -> Opening) (h : list event) : (vd_depth v <= 100)%nat ->
  (forall t, In t (accepted v h) -> tx_opens (vd_depth v) t (op t)) ->
  let spends := spends_of op (accepted v h) in
  hash_collision_free (history_hashes (vd_depth v) (lg_leaves (ledger_after v h)) spends) ->
  commitment_binding (records op v h ++ map sp_ro spends) ->
  (forall s, In s spends -> zv (sp_sk s) < sub_order /\ ro_owner (sp_ro s) <> no_key) ->
  (forall t, In t (accepted v h) -> supply_condition t (op t)) ->
  forall c p, c <> dummy_asset_code -> c <> native_asset_code ->
  (forall a, In a (minted_defs v h) -> code a = c -> same_policy (pol_value (policy a)) p) ->
  forall r, In r (records op v h) -> ro_code r = c -> 0 < zv (ro_amount r) -> same_policy (ro_pol r) p.
Proof. intros Hd HO spends HF HB HK HC. exact (one_policy L v op Hd h HO HF HB HC HK). Qed.
Print Assumptions C88_one_policy.
(** The same for ledgers of transactions made with this library, without conditions on secrets, codes or fees. *)
Theorem C88_library (C : CapConfig) (L : CapLaws C) (S : Snark C) (SL : SnarkLaws S) (Z0 : Ser C S) (v : Validator) (h : list event)
  (from : TransactionNote -> list Spend * list RoV) : (vd_depth v <= 100)%nat ->
  (forall t, In t (accepted v h) -> made (vd_depth v) t (fst (from t)) (snd (from t))) ->
  let spends := offered_in from (accepted v h) in
  let recs := created_in from v h in
  hash_collision_free (history_hashes (vd_depth v) (lg_leaves (ledger_after v h)) spends) ->
  commitment_binding (recs ++ map sp_ro spends) ->
  (forall s, In s spends -> ro_owner (sp_ro s) <> no_key) ->
  forall c p, c <> dummy_asset_code -> c <> native_asset_code ->
  class_total c p (unspent recs spends) = sumz (map (class_mints c p) (effective v (ledger_new (vd_depth v)) h)).
Proof.
  intros Hd HM spends recs HF HB HK. destruct (library_openings L SL v h from HM) as (op & HO).
  assert (ES : spends_of op (accepted v h) = spends) by (apply spends_offered; intros t Ht; apply (HO t Ht)).
  assert (ER : records op v h = recs) by (apply records_created; intros t Ht; apply (HO t Ht)).
  assert (HK' : forall s, In s spends -> zv (sp_sk s) < sub_order /\ ro_owner (sp_ro s) <> no_key).
  { intros s Hs. split; [exact (offered_secrets v h from HM s Hs)|exact (HK s Hs)]. }
  rewrite <- ES, <- ER in *.
  exact (class_supply L v op Hd h (fun t Ht => proj1 (HO t Ht)) HF HB (fun t Ht => proj2 (proj2 (proj2 (HO t Ht)))) HK').
Qed.
Print Assumptions C88_library.

(** Two mints of one code in one block, both made with the library from the same seed and description: a thousand units with viewer,
    issuer and freezer, and seven units without. *)
Definition cl_fee0 := s_native true 20 11 100.
Definition cl_fee1 := s_native true 20 11 101.
Definition cl_last := h_in2 true.
Definition cl_acc := n_acc true cl_fee0 cl_fee1 cl_last.
Definition cl_free : @AssetDefinition T := @mkDef T (@new_domestic T h_seed h_desc) (@policy_default T).
Definition cl_ro0 : @RecordOpening T := h_mint_ro true.
Definition cl_ro1 : @RecordOpening T := s_ro true 7 cl_free 13 Unfrozen 211.
Definition cl_info (fee : @RecordOpening T) (k : nat) (b : Z) : @TxnFeeInfo T :=
  @mkFeeInfo T (@mkFeeInput T fee (cl_acc k) (s_user true 11)) (s_amount 5) (s_native true 15 11 b).
Definition cl_mint (ro fee : @RecordOpening T) (k : nat) (b : Z) : res (@MintNote T TS * @Fj toy_field) :=
  let* p := m_keys true in @mint_generate T TS (m_rand true) ro h_seed h_desc (cl_info fee k b) (fst p).
Definition cl_opening (ro fee : @RecordOpening T) (k : nat) (b : Z) : @MintV T :=
  @mkMintV T (@ro_value T ro) (@fz toy_field 11) (@ro_value T fee) (@place_value T (cl_acc k)) (@ro_value T (s_native true 15 11 b))
    h_seed (@digest_from_description T h_desc) (@fz toy_field 302).
Definition cl_op : @TransactionNote T TS -> @Opening T := fun t =>
  OpMint (match t with TxMint m => if zv (mn_amount m) =? 7 then cl_opening cl_ro1 cl_fee1 1 201 else cl_opening cl_ro0 cl_fee0 0 200
          | _ => cl_opening cl_ro0 cl_fee0 0 200 end).
Definition cl_root := n_root true cl_fee0 cl_fee1 cl_last.
Definition cl_block (n n' : @MintNote T TS) : list (@TransactionNote T TS) := [TxMint n; TxMint n'].
Definition cl_check (n n' : @MintNote T TS) : bool :=
    let txns := cl_block n n' in
    let h := l_history cl_fee0 cl_fee1 cl_last [txns] in
    let sp := @spends_of T TS cl_op txns in
    let un := @unspent T (l_records cl_op h) sp in
    @valid_b T TS l_ser l_validator (l_start cl_fee0 cl_fee1 cl_last) (l_event txns) &&
    negb (zv (mn_amount n) =? 7) && (zv (mn_amount n') =? 7) &&
    mint_good 2 cl_root (cl_opening cl_ro0 cl_fee0 0 200) n && mint_good 2 cl_root (cl_opening cl_ro1 cl_fee1 1 201) n' &&
    hyps_b cl_op txns h && secrets_b sp && (zv (ma_fee (mn_aux n)) <=? zv (ro_amount (mv_fee_ro (cl_opening cl_ro0 cl_fee0 0 200)))) &&
    (zv (ma_fee (mn_aux n')) <=? zv (ro_amount (mv_fee_ro (cl_opening cl_ro1 cl_fee1 1 201)))) &&
    (@class_total T (code cl_free) (@pol_value T (s_policy true)) un =? 1000) &&
    (@class_total T (code cl_free) (@pol_value T (@policy_default T)) un =? 7).
Lemma cl_made x ro fee k b n sk :
  (let* p := m_keys true in @mint_generate T TS (m_rand true) ro h_seed h_desc (cl_info fee k b) (fst p)) = x -> x = Ok (n, sk) ->
  mn_def n = asset_def ro /\ exists ins outs, @made T TS 2 (TxMint n) ins outs.
Proof.
  intros E Ex. rewrite Ex in E. apply bind_ok in E. destruct E as ([pk vk] & Hk & E). cbn [fst] in E. split.
  - destruct (mint_generate_inv (toy_laws true) _ _ _ _ _ _ _ _ E) as (pf & sg & G). exact (proj1 (proj2 (mg_amount _ _ _ _ _ _ _ _ _ _ G))).
  - eexists. eexists. exists (m_rand true), ro, h_seed, h_desc, (cl_info fee k b), pk, sk. split; [exact E|]. split; [|split; reflexivity].
    assert (Q : get (m_keys true) (fun p => (mpk_depth (fst p) =? 2)%nat) = true) by (vm_compute; reflexivity).
    rewrite Hk in Q. apply Nat.eqb_eq in Q. exact Q.
Qed.
Lemma cl_facts : exists n sk n' sk', cl_mint cl_ro0 cl_fee0 0 200 = Ok (n, sk) /\ cl_mint cl_ro1 cl_fee1 1 201 = Ok (n', sk') /\
  let h := l_history cl_fee0 cl_fee1 cl_last [cl_block n n'] in
  l_effective h = h /\ l_accepted h = cl_block n n' /\
  (forall t, In t (l_accepted h) -> @tx_opens T TS 2 t (cl_op t)) /\
  @hash_collision_free T (@history_hashes T 2 (lg_leaves (l_after h)) (l_spends cl_op h)) /\
  @commitment_binding T (l_records cl_op h ++ map sp_ro (l_spends cl_op h)) /\
  (forall s, In s (l_spends cl_op h) -> zv (sp_sk s) < @sub_order toy_field /\ ro_owner (sp_ro s) <> @no_key T) /\
  (forall t, In t (l_accepted h) -> @supply_condition T TS t (cl_op t)) /\
  mn_def n = asset_def cl_ro0 /\ mn_def n' = asset_def cl_ro1 /\
  @class_total T (code cl_free) (@pol_value T (s_policy true)) (@unspent T (l_records cl_op h) (l_spends cl_op h)) = 1000 /\
  @class_total T (code cl_free) (@pol_value T (@policy_default T)) (@unspent T (l_records cl_op h) (l_spends cl_op h)) = 7.
Proof.
  assert (H : get (cl_mint cl_ro0 cl_fee0 0 200) (fun x => get (cl_mint cl_ro1 cl_fee1 1 201) (fun x' => cl_check (fst x) (fst x'))) = true) by (vm_compute; reflexivity).
  apply get_ok in H. destruct H as ([n sk] & En & H). apply get_ok in H. destruct H as ([n' sk'] & En' & H). cbn [fst] in H.
  unfold cl_check in H. cbv zeta in H.
  apply andb_true_iff in H. destruct H as [H HB]. apply andb_true_iff in H. destruct H as [H HA]. apply andb_true_iff in H. destruct H as [H H9].
  apply andb_true_iff in H. destruct H as [H H8]. apply andb_true_iff in H. destruct H as [H H7]. apply andb_true_iff in H. destruct H as [H H6].
  apply andb_true_iff in H. destruct H as [H H5]. apply andb_true_iff in H. destruct H as [H H4]. apply andb_true_iff in H. destruct H as [H H3].
  apply andb_true_iff in H. destruct H as [H1 H2]. apply negb_true_iff in H2.
  exists n, sk, n', sk'. split; [exact En|]. split; [exact En'|]. cbv zeta. destruct (one_block _ _ _ _ H1) as [EF EA]. cbv zeta in EF, EA.
  assert (HH := hyps_b_ok cl_op (l_history cl_fee0 cl_fee1 cl_last [cl_block n n'])).
  rewrite EA in *. specialize (HH H6). cbv zeta in HH. split; [exact EF|]. split; [reflexivity|].
  split; [intros t [<-|[<-|[]]]; unfold cl_op; [rewrite H2; apply mint_good_ok in H4; apply H4|rewrite H3; apply mint_good_ok in H5; apply H5]|].
  split; [apply HH|]. split; [apply HH|]. split; [apply secrets_b_ok; exact H7|].
  split; [intros t [<-|[<-|[]]]; unfold cl_op; [rewrite H2|rewrite H3]; cbn [supply_condition tx_fee]; apply Z.leb_le; [exact H8|exact H9]|].
  clear - En En' HA HB.
  split; [exact (proj1 (cl_made (cl_mint cl_ro0 cl_fee0 0 200) cl_ro0 cl_fee0 0%nat 200 n sk eq_refl En))|].
  split; [exact (proj1 (cl_made (cl_mint cl_ro1 cl_fee1 1 201) cl_ro1 cl_fee1 1%nat 201 n' sk' eq_refl En'))|].
  split; apply Z.eqb_eq; [exact HA|exact HB].
Qed.
Example C88_example : exists n sk n' sk', cl_mint cl_ro0 cl_fee0 0 200 = Ok (n, sk) /\ cl_mint cl_ro1 cl_fee1 1 201 = Ok (n', sk') /\
  let h := l_history cl_fee0 cl_fee1 cl_last [cl_block n n'] in
  (vd_depth l_validator <= 100)%nat /\ l_accepted h = cl_block n n' /\
  (forall t, In t (l_accepted h) -> @tx_opens T TS 2 t (cl_op t)) /\
  @hash_collision_free T (@history_hashes T 2 (lg_leaves (l_after h)) (l_spends cl_op h)) /\
  @commitment_binding T (l_records cl_op h ++ map sp_ro (l_spends cl_op h)) /\
  (forall s, In s (l_spends cl_op h) -> zv (sp_sk s) < @sub_order toy_field /\ ro_owner (sp_ro s) <> @no_key T) /\
  (forall t, In t (l_accepted h) -> @supply_condition T TS t (cl_op t)) /\
  @class_total T (code cl_free) (@pol_value T (s_policy true)) (@unspent T (l_records cl_op h) (l_spends cl_op h)) = 1000 /\
  @class_total T (code cl_free) (@pol_value T (@policy_default T)) (@unspent T (l_records cl_op h) (l_spends cl_op h)) = 7.
Proof.
  destruct cl_facts as (n & sk & n' & sk' & E1 & E2 & _ & H1 & H2 & H3 & H4 & H5 & H6 & _ & _ & H7 & H8).
  exists n, sk, n', sk'. split; [exact E1|]. split; [exact E2|]. cbv zeta. split; [cbn; lia|]. split; [exact H1|]. split; [exact H2|].
  split; [exact H3|]. split; [exact H4|]. split; [exact H5|]. split; [exact H6|]. split; [exact H7|exact H8].
Qed.
(** the code of the asset of the honest history is minted once, by the test, with one policy *)
Example C88_one_policy_example : exists n n', l_accepted (l_history cl_fee0 cl_fee1 cl_last [cl_block n n']) = cl_block n n' /\
  (forall a, In a (@minted_defs T TS l_ser l_validator (l_history cl_fee0 cl_fee1 cl_last [cl_block n n'])) -> code a = code (s_def true) ->
     same_policy (@pol_value T (policy a)) (@pol_value T (s_policy true))) /\
  exists r, In r (l_records cl_op (l_history cl_fee0 cl_fee1 cl_last [cl_block n n'])) /\ ro_code r = code (s_def true) /\ zv (ro_amount r) = 8.
Proof.
  destruct cl_facts as (n & sk & n' & sk' & _ & _ & EF & EA & _ & _ & _ & _ & _ & D1 & D2 & _).
  exists n, n'. split; [exact EA|]. unfold minted_defs, records. change (vd_depth l_validator) with 2%nat. rewrite EF. split.
  - intros a Ha E. change (In a [asset_def cl_fee0; asset_def cl_fee1; asset_def cl_last; mn_def n; mn_def n']) in Ha. rewrite D1, D2 in Ha.
    assert (K : zeqb (code a) (code (s_def true)) = true) by (apply zeqb_spec; exact E). clear - Ha K.
    destruct Ha as [<-|[<-|[<-|[<-|[<-|[]]]]]]; try (vm_compute in K; discriminate K). apply Origin.same_policy_refl.
  - exists (@ro_value T cl_last). split; [|split; [reflexivity|vm_compute; reflexivity]].
    apply in_flat_map. exists (EvMint cl_last). split; [right; right; left; reflexivity|left; reflexivity].
Qed.

(** A code does not fix the policy: whoever knows the seed can mint more of the code under another policy, with the library's own
    constructor, and both mints are accepted. *)
Theorem C88_code_fixes_policy_refuted :
  ~ (forall (C : CapConfig) (L : CapLaws C) (S : Snark C) (SL : SnarkLaws S) (Z0 : Ser C S) (v : Validator) (h : list event),
       (forall t, In t (accepted v h) -> exists ins outs, made (vd_depth v) t ins outs) ->
       forall n n', In (TxMint n) (accepted v h) -> In (TxMint n') (accepted v h) -> code (mn_def n) = code (mn_def n') ->
       same_policy (pol_value (policy (mn_def n))) (pol_value (policy (mn_def n')))).
Proof.
  intros H. destruct cl_facts as (n & sk & n' & sk' & E1 & E2 & _ & EA & _ & _ & _ & _ & _ & D1 & D2 & _).
  specialize (H T (toy_laws true) TS (toy_snark_laws true) l_ser l_validator (l_history cl_fee0 cl_fee1 cl_last [cl_block n n'])).
  rewrite EA in H. change (vd_depth l_validator) with 2%nat in H.
  assert (HM : forall t, In t (cl_block n n') -> exists ins outs, @made T TS 2 t ins outs).
  { intros t [<-|[<-|[]]]; [exact (proj2 (cl_made (cl_mint cl_ro0 cl_fee0 0 200) cl_ro0 cl_fee0 0%nat 200 n sk eq_refl E1))|exact (proj2 (cl_made (cl_mint cl_ro1 cl_fee1 1 201) cl_ro1 cl_fee1 1%nat 201 n' sk' eq_refl E2))]. }
  specialize (H HM n n' (or_introl eq_refl) (or_intror (or_introl eq_refl))). rewrite D1, D2 in H. specialize (H eq_refl).
  apply same_policy_ok in H. vm_compute in H. discriminate H.
Qed.
Print Assumptions C88_code_fixes_policy_refuted.
