(** Concrete issuer of the toy instance. *)
From Verif Require Import Base Config Structs Keys Utils Memo Plonk Witness Circuits Snark Notes Serde Ledger Wallet WalletSpec Roles RolesSpec.
From Verif Require Import NoteProofs WalletProofs WalletPay WalletPay2 CircuitFacts Toy ToySnark Samples NoteSamples WalletSamples RolesIssuer.
#[local] Existing Instance toy_snark.
#[local] Existing Instance w_codec.
#[local] Existing Instance toy_memo_i.
#[local] Open Scope Z_scope.

(** an issuer with the native records of 7 and 20 units of [ws_l] and one asset of its own *)
Definition is_given (i : @Issuer T TS) : @Issuer T TS :=
  iu_set_wallet i (@add_record_opening T (@add_record_opening T (iu_wallet i) ws_r0 (w64 0)) ws_r2 (w64 2)).
Definition is_policy : @AssetPolicy T := s_policy true.
Definition is_seed : @AssetCodeSeed T := @fz toy_field 5001.
Definition is_desc : bytes := h_desc.
Definition is_code : @AssetCode T := @new_domestic T is_seed is_desc.
Definition is_seen : list (@Owned T) := [(ws_r0, w64 0); (ws_r2, w64 2)].
Definition is_rand : @MintUserRand T TS := @mkMintUserRand T TS (@fz toy_field 801) tt (@fz toy_field 802) (m_rand true).
(** 50 units for user 13, fee 3 *)
Definition is_owner : @UserPubKey T := @user_pub_key T (s_user true 13).
Definition is_mint i amt := @issuer_mint T TS w_codec toy_memo_i 2 i is_rand (s_amount 3) is_code (s_amount amt) is_owner (lg_leaves ws_l).

Definition is_make (i0 : @Issuer T TS) : @Issuer T TS :=
  mkIssuer (iu_wallet (is_given i0)) (iu_key (is_given i0)) (map_put is_code (@mkDef T is_code is_policy, is_seed, is_desc) (iu_assets (is_given i0))).
Lemma is_asset_made i0 : @new_asset_definition T TS (is_given i0) is_seed is_desc is_policy = Ok (is_make i0, is_code).
Proof.
  unfold new_asset_definition, asset_def_new. change (@new_domestic T is_seed is_desc) with is_code.
  match goal with |- context [if ?b then _ else _] => assert (E : b = false) by (vm_compute; reflexivity); rewrite E end. reflexivity.
Qed.
Lemma issuer_new_wallet g d kp i : @issuer_new T TS g d kp = Ok i -> iu_wallet i = @wallet_new T kp.
Proof. unfold issuer_new. intros H. apply bind_ok in H. destruct H as (k & _ & H). injection H as <-. reflexivity. Qed.
Lemma is_new_ok : exists i0, @issuer_new T TS tt 2 (s_user true 11) = Ok i0.
Proof.
  assert (G : get (@issuer_new T TS tt 2 (s_user true 11)) (fun _ => true) = true) by (vm_compute; reflexivity). destruct (get_ok _ _ G) as (i & H & _). exists i. exact H.
Qed.
Lemma is_in_step i0 : @issuer_new T TS tt 2 (s_user true 11) = Ok i0 -> @issuer_in_step T TS w_codec toy_memo_i tt 2 (is_make i0) ws_l is_seen [].
Proof.
  intros H2. pose proof (issuer_new_wallet _ _ _ _ H2) as E. split; [|split; [intros n; cbn; split; [intros []|intros (k & [])]|]].
  - refine (ir_asset _ _ _ _ _ _ _ _ _ _ _ _ (is_asset_made i0)).
    change is_seen with (([] ++ [(ws_r0, w64 0)]) ++ [(ws_r2, w64 2)]).
    refine (ir_own _ 2 (iu_set_wallet i0 (@add_record_opening T (iu_wallet i0) ws_r0 (w64 0))) (lg_leaves ws_l2) _ _ ws_r2 _ _ _).
    + refine (ir_other _ 2 _ (lg_leaves ws_l1) _ _ _ _). refine (ir_own _ 2 i0 [] [] [] ws_r0 _ _ _).
      * exact (ir_new _ 2 (s_user true 11) i0 H2).
      * rewrite E. reflexivity.
      * reflexivity.
    + cbn [iu_set_wallet iu_wallet]. rewrite E. reflexivity.
    + reflexivity.
  - intros x [<-|[<-|[]]] _; reflexivity.
Qed.
Lemma is_wallet i0 : @issuer_new T TS tt 2 (s_user true 11) = Ok i0 ->
  iu_wallet (is_make i0) = @add_record_opening T (@add_record_opening T (@wallet_new T (s_user true 11)) ws_r0 (w64 0)) ws_r2 (w64 2) /\
  @asset_definition T TS (is_make i0) is_code = Some (@mkDef T is_code is_policy).
Proof.
  intros H2. pose proof (issuer_new_wallet _ _ _ _ H2) as E. split.
  - unfold is_make, is_given. cbn [iu_wallet iu_set_wallet]. rewrite E. reflexivity.
  - destruct (proj1 (new_asset_spec (is_given i0) is_seed is_desc is_policy) _ _ (is_asset_made i0)) as (_ & A & _). exact A.
Qed.
Lemma is_ordinary i0 : @issuer_new T TS tt 2 (s_user true 11) = Ok i0 -> @ordinary T (iu_wallet (is_make i0)) (lg_leaves ws_l) is_seen [].
Proof. intros H. rewrite (proj1 (is_wallet i0 H)). apply ordinary_b_ok. vm_compute. reflexivity. Qed.

(** the mint made, accepted and scanned by its receiver and by the issuer: what each then holds of native units and of
    the new asset *)
Notation is_notes := (@MintNote T TS * (@Fj toy_field * @point T) * @ReceiverMemo T)%type.
Definition is_scanned (i : @Issuer T TS) (x : is_notes) : list Z * list Z :=
  let '(n, _, memo) := x in
  (match @issuer_scan_txn T TS w_codec i (TxMint n) [memo] 3 with
   | Ok i2 => [funds (iu_wallet i2) (@native_asset_code toy_field); funds (iu_wallet i2) is_code]
   | _ => [] end,
   match @scan_txn T TS w_codec (ws_receiver 13) (TxMint n) [memo] 3 with
   | Ok (w2, _) => [funds w2 (@native_asset_code toy_field); funds w2 is_code]
   | _ => [] end).
Definition is_run : list Z * list Z :=
  match @issuer_new T TS tt 2 (s_user true 11) with
  | Ok i0 => match is_mint (is_make i0) 50 with (i1, Ok x) => is_scanned i1 x | _ => ([], []) end
  | _ => ([], [])
  end.
(** two mints without a scan in between *)
Definition is_twice : bool :=
  match @issuer_new T TS tt 2 (s_user true 11) with
  | Ok i0 => match is_mint (is_make i0) 50 with
             | (i1, Ok (n, _, _)) => match is_mint i1 60 with (_, Ok (n', _, _)) => zeqb (mn_nullifier n) (mn_nullifier n') && negb (zeqb (mn_mint n) (mn_mint n')) | _ => false end
             | _ => false end
  | _ => false
  end.
