(** C66: what every call of the public parameter builders does, and when it panics (utils/params_builder.rs). *)
From Verif Require Import Base Config Structs Keys Utils Memo Plonk Witness Circuits Relation PolicyProofs Snark Notes NoteProofs Serde Ledger Wallet CircuitFacts Toy ToySnark Samples NoteSamples WalletSamples
  Builder BuilderSpec BuilderProofs BuilderChain BuilderLive BuilderRand BuilderOther BuilderCallSpec BuilderCalls BuilderTxns BuilderEnd BuilderSamples.
#[local] Existing Instance toy_snark.
#[local] Existing Instance w_codec.
#[local] Existing Instance toy_memo_i.
#[local] Existing Instance toy_w.

(** ** C66 *)

(** A call on the builder of a transfer does what its name says, to the records it names, and leaves the rest alone; or it panics *)
Theorem C66_transfer_call (C : CapConfig) (L : CapLaws C) start n_in n_out depth kps asset b0 l b c :
  size_ok start n_in n_out depth -> tb_new start n_in n_out depth kps asset = Ok b0 -> calls l b0 = Ok b ->
  (allowed c b -> exists b', call c b = Ok b' /\ effect c b b' /\ tb_num_in b' = n_in /\ tb_num_out b' = n_out /\ tb_depth b' = tb_depth b /\ tb_kps b' = kps) /\
  (~ allowed c b -> call c b = Panic).
Proof. exact (call_exact L start n_in n_out depth kps asset b0 l b c). Qed.
Print Assumptions C66_transfer_call.

(** A new builder of a freeze has the given amounts, keys and fee, its definitions name the freezers, and its witnesses are current *)
Theorem C66_freeze_new (C : CapConfig) (L : CapLaws C) s depth amounts fee_in fee fee_kp kps :
  Z.of_nat (length kps) + 1 < 2 ^ 64 -> Z.of_nat (length kps) + 1 <= 3 ^ Z.of_nat depth ->
  (length amounts = length kps -> exists b, fb_new s depth amounts fee_in fee fee_kp kps = Ok b /\ freeze_current b b /\
     fb_depth b = depth /\ fb_fee b = fee /\ map zi_kp (fb_inputs b) = kps /\ fi_kp (fb_fee_in b) = fee_kp /\
     fb_fee_ro b = mkRO fee_in asset_def_native (user_pub_key fee_kp) Unfrozen (fs_fee_blind s) /\
     map (fun i => amount (zi_ro i)) (fb_inputs b) = amounts /\
     forall i x, nth_error (fb_inputs b) i = Some x -> freeze_flag (zi_ro x) = Unfrozen /\ pub_key (zi_ro x) = user_pub_key (fs_user s i) /\ blind (zi_ro x) = fs_blind s i /\
       code (asset_def (zi_ro x)) = code (fs_def s i) /\ policy (asset_def (zi_ro x)) = set_freezer_pub_key (freezer_pub_key (zi_kp x)) (policy (fs_def s i))) /\
  (length amounts <> length kps -> fb_new s depth amounts fee_in fee fee_kp kps = Panic).
Proof.
  intros H1 H2. destruct (freeze_new_exact s depth amounts fee_in fee fee_kp kps H1 H2) as [A B]. split; [|exact B].
  intros HL. destruct (A HL) as (b & P1 & P2 & _ & P3). exists b. auto.
Qed.
Print Assumptions C66_freeze_new.
(** A call on it changes the one record it names; all witnesses, also that of the fee record, are current afterwards *)
Theorem C66_freeze_call (C : CapConfig) (L : CapLaws C) s depth amounts fee_in fee fee_kp kps b0 l b c :
  Z.of_nat (length kps) + 1 < 2 ^ 64 -> Z.of_nat (length kps) + 1 <= 3 ^ Z.of_nat depth ->
  fb_new s depth amounts fee_in fee fee_kp kps = Ok b0 -> acalls l b0 = Ok b ->
  freeze_current b0 b /\ (aallowed c b -> exists b', acall c b = Ok b' /\ aeffect c b b' /\ freeze_current b0 b') /\ (~ aallowed c b -> acall c b = Panic).
Proof. exact (acall_exact s depth amounts fee_in fee fee_kp kps b0 l b c). Qed.
Print Assumptions C66_freeze_call.

(** A new builder of a mint defines a domestic asset with the viewer's key and has a current witness of the fee record; it panics only when the code is a reserved one *)
Theorem C66_mint_new (C : CapConfig) (L : CapLaws C) bl_fee seed bl_mint depth input_amount fee mint_amount minter receiver viewer :
  let c := new_domestic seed arbitrary_description in
  (c = native_asset_code \/ c = dummy_asset_code -> mb_new bl_fee seed bl_mint depth input_amount fee mint_amount minter receiver viewer = Panic) /\
  (c <> native_asset_code -> c <> dummy_asset_code -> exists b, mb_new bl_fee seed bl_mint depth input_amount fee mint_amount minter receiver viewer = Ok b /\
    mb_fee_ro b = mkRO input_amount asset_def_native (user_pub_key minter) Unfrozen bl_fee /\ mb_fee b = fee /\ mb_minter b = minter /\ mb_depth b = depth /\
    mb_mint_ro b = mkRO mint_amount (mb_def b) (user_pub_key receiver) Unfrozen bl_mint /\ mb_seed b = seed /\ mb_receiver b = receiver /\ mb_viewer b = viewer /\
    code (mb_def b) = new_domestic seed (mb_description b) /\ policy (mb_def b) = set_viewer_pub_key (viewer_pub_key viewer) policy_default /\
    acc_uid (mb_acc b) = w64 0 /\ proves depth (tree_root depth [derive_record_commitment (mb_fee_ro b)]) (mb_fee_ro b) (mb_acc b)).
Proof. exact (mint_new_exact bl_fee seed bl_mint depth input_amount fee mint_amount minter receiver viewer). Qed.
Print Assumptions C66_mint_new.
(** Revealing more adds exactly the named flags to the definition and to the minted record; the index of an attribute out of range panics *)
Theorem C66_mint_reveal (C : CapConfig) a b :
  (index_in_range a -> exists b', mb_policy_reveal a b = Ok b' /\ code (mb_def b') = code (mb_def b) /\ flags_added a (policy (mb_def b)) (policy (mb_def b')) /\
     mb_mint_ro b' = mkRO (amount (mb_mint_ro b)) (mb_def b') (pub_key (mb_mint_ro b)) (freeze_flag (mb_mint_ro b)) (blind (mb_mint_ro b)) /\
     mb_fee_ro b' = mb_fee_ro b /\ mb_fee b' = mb_fee b /\ mb_minter b' = mb_minter b /\ mb_depth b' = mb_depth b /\ mb_seed b' = mb_seed b /\
     mb_description b' = mb_description b /\ mb_receiver b' = mb_receiver b /\ mb_viewer b' = mb_viewer b /\ mb_acc b' = mb_acc b) /\
  (~ index_in_range a -> mb_policy_reveal a b = Panic).
Proof. exact (mint_reveal_exact a b). Qed.
Print Assumptions C66_mint_reveal.

(** The hypotheses can be met.  A builder with three inputs, one of them made a dummy: some calls are allowed, others not *)
Example C66_transfer_example : exists b0 b, bx_new3 = Ok b0 /\ @calls T bx_chain3 b0 = Ok b /\ size_ok 1 3 3 None /\
  @allowed T (CInputAmount 0 (s_amount 7)) b /\ @allowed T (CDummyInput 1) b /\ ~ @allowed T (CDummyInput 2) b /\
  ~ @allowed T (COutputAmounts bx_users bx_blind2 (s_amount 15) [s_amount 18; s_amount 12]) b /\ ~ @allowed T (CPolicyReveal RevAmount) b.
Proof.
  assert (G : get (let* b := bx_new3 in @calls T bx_chain3 b)
    (fun b => (length (tb_ins b) =? 3)%nat && (length (tb_outs b) =? 2)%nat && existsb (fun r => @point_eqb T (viewer_pk (policy (asset_def r))) (@pt_id T)) (skipn 1 (tb_ins b))) = true)
    by (vm_compute; reflexivity).
  destruct (get_ok _ _ G) as (b & HB & H). apply bind_inv in HB. destruct HB as (b0 & H0 & HB). exists b0, b. split; [exact H0|]. split; [exact HB|].
  split; [intros _; split; [vm_compute; discriminate|right; reflexivity]|].
  apply andb_true_iff in H; destruct H as [H R]. apply andb_true_iff in H; destruct H as [Hi Ho]. apply Nat.eqb_eq in Hi, Ho. cbn [allowed].
  unfold T in *. split; [lia|]. split; [lia|]. split; [lia|]. split.
  - intros [Q _]. rewrite Q in Ho. discriminate Ho.
  - intros (_ & _ & Q). apply existsb_exists in R. destruct R as (r & R1 & R2). destruct (Q r (in_or_app _ _ _ (or_introl R1))) as [N _]. apply N.
    apply (point_eqb_spec (toy_laws true)), R2.
Qed.
Example C66_freeze_example : exists b0 b, @fb_new T bx_fsample 3 [s_amount 10; s_amount 11] (s_amount 30) (s_amount 2) (s_user true 16) [@sz toy_field 9; @sz toy_field 10] = Ok b0 /\
  @acalls T [AnyFlag 1 Frozen; AnyFeeAmount (s_amount 40); AnyPolicy 0 (@policy_default T)] b0 = Ok b /\
  @aallowed T (AnyFlag 1 Unfrozen) b /\ ~ @aallowed T (AnyFlag 2 Unfrozen) b.
Proof.
  assert (G : get (let* b := @fb_new T bx_fsample 3 [s_amount 10; s_amount 11] (s_amount 30) (s_amount 2) (s_user true 16) [@sz toy_field 9; @sz toy_field 10] in
    @acalls T [AnyFlag 1 Frozen; AnyFeeAmount (s_amount 40); AnyPolicy 0 (@policy_default T)] b) (fun b => (length (fb_inputs b) =? 2)%nat) = true) by (vm_compute; reflexivity).
  destruct (get_ok _ _ G) as (b & HB & H). apply bind_inv in HB. destruct HB as (b0 & H0 & HB). exists b0, b. split; [exact H0|]. split; [exact HB|].
  apply Nat.eqb_eq in H. cbn [aallowed]. unfold T in *. split; lia.
Qed.
Example C66_mint_example :
  @new_domestic T (@fz toy_field 802) arbitrary_description <> @native_asset_code toy_field /\ @new_domestic T (@fz toy_field 802) arbitrary_description <> @dummy_asset_code toy_field /\
  @index_in_range (IdAttr 7) /\ ~ @index_in_range (IdAttr 8).
Proof.
  split; [|split; [|split; cbn; lia]];
    (intros Q; apply (f_equal zv) in Q; vm_compute in Q; discriminate Q).
Qed.
