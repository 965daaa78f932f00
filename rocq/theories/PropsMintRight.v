(** C90: who can mint an asset. *)
From Verif Require Import Base Config Structs Keys Utils Memo Plonk Witness Circuits Relation Snark Notes Serde ToySer PolicyProofs
  GadgetProofs NoteProofs Accepted CircuitFacts Toy ToySnark Samples NoteSamples NoteFacts Ledger LedgerSpec LedgerSamples OriginSpec MintRight.
#[local] Existing Instance toy_snark.
#[local] Existing Instance l_ser.

(** A mint note that is accepted on its own was made with a seed and a digest from which the code of its asset is derived. *)
Theorem C90_seed_behind_mint (C : CapConfig) (L : CapLaws C) (S : Snark C) (SL : SnarkLaws S) d n root : mint_accepted d n root ->
  (exists t, mint_opens d n t) /\
  forall t, mint_opens d n t -> code (mn_def n) = new_domestic_from_digest (mv_seed t) (mv_digest t).
Proof.
  intros H. destruct (mint_accepted_opens SL d n root H) as (_ & E & _ & K). split; [exact K|]. intros t Ht.
  apply (checked_code L d n t); [|exact Ht]. apply asset_code_spec. exact E.
Qed.
Print Assumptions C90_seed_behind_mint.
(** Two such notes for one code were made with the same seed and the same digest, unless the two strings collide in the hash that makes
    codes or the two pairs in the pseudorandom function. *)
Theorem C90_one_seed (C : CapConfig) (L : CapLaws C) (S : Snark C) (SL : SnarkLaws S) d d' n n' root root' t t' :
  mint_accepted d n root -> mint_accepted d' n' root' -> mint_opens d n t -> mint_opens d' n' t' ->
  code (mn_def n) = code (mn_def n') ->
  let i := prf_eval (mv_seed t) [mv_digest t] in let i' := prf_eval (mv_seed t') [mv_digest t'] in
  (keccak_f (domestic_preimage i) = keccak_f (domestic_preimage i') -> i = i') ->
  (i = i' -> mv_seed t = mv_seed t' /\ mv_digest t = mv_digest t') ->
  mv_seed t = mv_seed t' /\ mv_digest t = mv_digest t'.
Proof.
  intros A A' O O' E i i' HK HP. apply HP, HK.
  rewrite (proj2 (C90_seed_behind_mint C L S SL d n root A) t O), (proj2 (C90_seed_behind_mint C L S SL d' n' root' A') t' O') in E. exact E.
Qed.
Print Assumptions C90_one_seed.
(** In a ledger that checks the code of every mint in its blocks, each record of a positive amount is of an asset that the test minted
    or whose code a mint note derived from its maker's seed. *)
Theorem C90_ledger (C : CapConfig) (L : CapLaws C) (S : Snark C) (Z0 : Ser C S) (v : Validator)
  (op : TransactionNote -> Opening) (h : list event) : (vd_depth v <= 100)%nat ->
  (forall t, In t (accepted v h) -> tx_opens (vd_depth v) t (op t)) ->
  let spends := spends_of op (accepted v h) in
  hash_collision_free (history_hashes (vd_depth v) (lg_leaves (ledger_after v h)) spends) ->
  commitment_binding (records op v h ++ map sp_ro spends) ->
  (forall s, In s spends -> zv (sp_sk s) < sub_order /\ ro_owner (sp_ro s) <> no_key) ->
  (forall t, In t (accepted v h) -> supply_condition t (op t)) ->
  (forall n, In (TxMint n) (accepted v h) -> verify_domestic (code (mn_def n)) (mn_internal n) = Ok tt) ->
  forall r, In r (records op v h) -> ro_code r <> dummy_asset_code -> 0 < zv (ro_amount r) ->
  (exists ro, In (EvMint ro) (effective v (ledger_new (vd_depth v)) h) /\ code (asset_def ro) = ro_code r) \/
  (exists n x, In (TxMint n) (accepted v h) /\ op (TxMint n) = OpMint x /\ 0 < zv (mn_amount n) /\
     ro_code r = new_domestic_from_digest (mv_seed x) (mv_digest x)).
Proof. intros Hd HO spends. exact (seed_origin L v op h Hd HO). Qed.
Print Assumptions C90_ledger.
(** The ledger of the integration test does not: it verifies blocks with [txn_batch_verify], which leaves this check out. Here it accepts a
    mint of a thousand units of an asset whose code was derived from the seed [h_seed], made with the seed [mi_seed], although everything
    that the other properties ask of a history holds. *)
Theorem C90_ledger_without_check_refuted : exists (n : @MintNote T TS) (h : list (@event T TS)) op,
  l_accepted h = [TxMint n] /\ op (TxMint n) = OpMint mi_opening /\
  (forall t, In t (l_accepted h) -> @tx_opens T TS (vd_depth l_validator) t (op t)) /\
  @hash_collision_free T (@history_hashes T (vd_depth l_validator) (lg_leaves (l_after h)) (l_spends op h)) /\
  @commitment_binding T (l_records op h ++ map sp_ro (l_spends op h)) /\
  (forall s, In s (l_spends op h) -> zv (sp_sk s) < @sub_order toy_field /\ ro_owner (sp_ro s) <> @no_key T) /\
  (forall t, In t (l_accepted h) -> @supply_condition T TS t (op t)) /\
  zv (mn_amount n) = 1000 /\ code (mn_def n) = @new_domestic T h_seed h_desc /\
  mv_seed mi_opening <> h_seed /\ code (mn_def n) <> @new_domestic_from_digest T (mv_seed mi_opening) (mv_digest mi_opening) /\
  (forall d root, ~ @mint_accepted T TS d n root).
Proof.
  destruct forged_mint as (n & h & op & H1 & H2 & H3 & H4 & H5 & H6 & H7 & H8 & H9). exists n, h, op.
  assert (N : code (mn_def n) <> @new_domestic_from_digest T (mv_seed mi_opening) (mv_digest mi_opening)).
  { rewrite H8. apply zeqb_neq. vm_compute. reflexivity. }
  assert (O : @mint_opens T TS 2 n mi_opening).
  { assert (I : In (TxMint n) (l_accepted h)) by (rewrite H1; left; reflexivity). apply H3 in I. rewrite H2 in I. exact I. }
  split; [exact H1|]. split; [exact H2|]. split; [exact H3|]. split; [exact H4|]. split; [exact H5|]. split; [exact H6|]. split; [exact H7|].
  split; [exact H9|]. split; [rewrite H8; reflexivity|]. split; [apply zeqb_neq; vm_compute; reflexivity|]. split; [exact N|].
  intros d root A. destruct (mint_accepted_opens (toy_snark_laws true) d n root A) as (_ & E & _). apply N. rewrite E.
  unfold new_domestic_from_digest, internal_new_internal. rewrite (internal_of (toy_laws true) 2 n mi_opening O). reflexivity.
Qed.
Print Assumptions C90_ledger_without_check_refuted.

(** A block with an honest mint meets all conditions of [C90_ledger]; the note is also accepted on its own. *)
Example C90_example : (exists n h op, l_accepted h = [TxMint n] /\
  (forall t, In t (l_accepted h) -> @tx_opens T TS (vd_depth l_validator) t (op t)) /\
  @hash_collision_free T (@history_hashes T (vd_depth l_validator) (lg_leaves (l_after h)) (l_spends op h)) /\
  @commitment_binding T (l_records op h ++ map sp_ro (l_spends op h)) /\
  (forall s, In s (l_spends op h) -> zv (sp_sk s) < @sub_order toy_field /\ ro_owner (sp_ro s) <> @no_key T) /\
  (forall t, In t (l_accepted h) -> @supply_condition T TS t (op t)) /\
  (forall m, In (TxMint m) (l_accepted h) -> @verify_domestic T (code (mn_def m)) (mn_internal m) = Ok tt) /\ zv (mn_amount n) = 1000) /\
  get (h_mint true) (fun n => get (m_keys true) (fun k =>
  match @mint_verify T TS (fst n) (snd k) h_root with Ok _ => true | _ => false end &&
  zeqb (code (mn_def (fst n))) (@new_domestic_from_digest T h_seed (@digest_from_description T h_desc)))) = true.
Proof.
  split; [|vm_compute; reflexivity].
  destruct honest_mint as (n & h & op & H1 & H2 & H3 & H4 & H5 & H6 & H7 & H8 & H9). exists n, h, op.
  split; [exact H1|]. split; [exact H3|]. split; [exact H4|]. split; [exact H5|]. split; [exact H6|]. split; [exact H7|]. split; [|exact H9].
  intros m I. rewrite H1 in I. destruct I as [I|[]].
  apply (f_equal (fun t => match t with TxMint x => x | _ => n end)) in I. cbv beta iota in I. subst m.
  apply (proj1 (@asset_code_spec T)). exact H8.
Qed.
