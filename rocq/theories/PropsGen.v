(** C56: the command-line tool that prepares the parameter files. *)
From Coq Require Strings.String.
From Verif Require Import Base Config Structs Keys Utils Memo Plonk Witness Circuits Snark Notes Serde SerdeProofs ToySer Toy Params ParamsProofs PropsParams GenParams.
Import String.StringSyntax.
#[local] Open Scope string_scope.

Section C56.
  Context {C : CapConfig} {S : Snark C} {Z0 : Ser C S} {P0 : ParSer C S} (PL : ParSerLaws P0).
  Context (dir : option string) (fk : FreezerKeyPair) (setup : nat -> res srs) (s : fs).

  (** a set of parameters of the given size is stored under the given or the default path and nothing else is touched;
      if the setup fails the tool stops with a panic *)
  Theorem C56_universal_srs n dest :
    (forall g, setup n = Ok g -> exists s', gen_parameters dir fk setup (UniversalSrs n dest) s = Ok s' /\
       load_universal_parameter dir dest s' = Ok g /\ forall q, q <> or_default dest (universal_srs_path dir) -> s' q = s q) /\
    ((forall g, setup n <> Ok g) -> gen_parameters dir fk setup (UniversalSrs n dest) s = Panic).
  Proof.
    split.
    - intros g Hg. cbn [gen_parameters]. rewrite Hg. destruct (store_srs PL dir g dest) as (l & Hl & HL). rewrite Hl. cbn [unwrap_or_die bind].
      eexists. split; [reflexivity|]. destruct (HL s) as (H1 & H2 & _). split; [exact H1|]. intros q Hq. rewrite <- stopped_all. apply H2, Hq.
    - intros H. cbn [gen_parameters]. unfold store_universal_parameter_for_demo. destruct (setup n) as [g| |]; [destruct (H g eq_refl)| |]; reflexivity.
  Qed.
  (** "transfer" does what it says: both keys of the transfer circuit of the given size are stored under the default paths *)
  Theorem C56_transfer a b d path g pk vk :
    Z.of_nat a < 2 ^ 64 -> Z.of_nat b < 2 ^ 64 -> Z.of_nat d < 256 ->
    load_universal_parameter dir path s = Ok g -> transfer_preprocess g a b d = Ok (pk, vk) ->
    exists s', gen_parameters dir fk setup (ProverSrs a b d CkTransfer path None) s = Ok s' /\
      load_transfer_proving_key dir a b d None s' = Ok pk /\ load_transfer_verifying_key dir a b d None s' = Ok vk /\
      forall q, q <> transfer_pk_path dir a b d -> q <> transfer_vk_path dir a b d -> s' q = s q.
  Proof.
    intros Ha Hb Hd Hg Hk. cbn [gen_parameters]. rewrite Hg. cbn [unwrap_or_die bind].
    destruct (store_transfer_pk PL dir g a b d pk vk Ha Hb Hd Hk) as (l & Hl & HL). rewrite Hl. cbn [unwrap_or_die bind].
    eexists. split; [reflexivity|]. destruct (HL s) as (H1 & H2 & H3 & _). split; [exact H1|]. split; [exact H2|]. intros q Hq Hq'. rewrite <- stopped_all. apply H3; auto.
  Qed.
  (** "freezing" makes the keys of the mint circuit, and "mint" those of the freeze circuit *)
  Theorem C56_freezing_makes_mint_keys a b d path g pk vk : Z.of_nat d < 256 ->
    load_universal_parameter dir path s = Ok g -> mint_preprocess g d = Ok (pk, vk) ->
    exists s', gen_parameters dir fk setup (ProverSrs a b d CkFreezing path None) s = Ok s' /\
      load_mint_proving_key dir d None s' = Ok pk /\ load_mint_verifying_key dir d None s' = Ok vk /\
      forall n e, load_freeze_proving_key dir n e None s' = load_freeze_proving_key dir n e None s /\
                  load_freeze_verifying_key dir n e None s' = load_freeze_verifying_key dir n e None s.
  Proof.
    intros Hd Hg Hk. cbn [gen_parameters]. rewrite Hg. cbn [unwrap_or_die bind].
    destruct (store_mint_pk PL dir g d pk vk Hd Hk) as (l & Hl & HL). rewrite Hl. cbn [unwrap_or_die bind].
    eexists. split; [reflexivity|]. destruct (HL s) as (H1 & H2 & H3 & _). split; [exact H1|]. split; [exact H2|]. intros n e.
    split; unfold load_freeze_proving_key, load_freeze_verifying_key, load_data; cbn [or_default]; rewrite <- stopped_all, H3; auto;
      intros E; [apply (param_path_inj dir (FreezePkFile n e) (MintPkFile d)) in E|apply (param_path_inj dir (FreezePkFile n e) (MintVkFile d)) in E
                |apply (param_path_inj dir (FreezeVkFile n e) (MintPkFile d)) in E|apply (param_path_inj dir (FreezeVkFile n e) (MintVkFile d)) in E]; discriminate E.
  Qed.
  Theorem C56_mint_makes_freeze_keys a b d path g pk vk : Z.of_nat a < 2 ^ 64 -> Z.of_nat d < 256 ->
    load_universal_parameter dir path s = Ok g -> freeze_preprocess g fk a d = Ok (pk, vk) ->
    exists s', gen_parameters dir fk setup (ProverSrs a b d CkMint path None) s = Ok s' /\
      load_freeze_proving_key dir a d None s' = Ok pk /\ load_freeze_verifying_key dir a d None s' = Ok vk /\
      forall e, load_mint_proving_key dir e None s' = load_mint_proving_key dir e None s /\
                load_mint_verifying_key dir e None s' = load_mint_verifying_key dir e None s.
  Proof.
    intros Ha Hd Hg Hk. cbn [gen_parameters]. rewrite Hg. cbn [unwrap_or_die bind].
    destruct (store_freeze_pk PL dir g fk a d pk vk Ha Hd Hk) as (l & Hl & HL). rewrite Hl. cbn [unwrap_or_die bind].
    eexists. split; [reflexivity|]. destruct (HL s) as (H1 & H2 & H3 & _). split; [exact H1|]. split; [exact H2|]. intros e.
    split; unfold load_mint_proving_key, load_mint_verifying_key, load_data; cbn [or_default]; rewrite <- stopped_all, H3; auto;
      intros E; [apply (param_path_inj dir (MintPkFile e) (FreezePkFile a d)) in E|apply (param_path_inj dir (MintPkFile e) (FreezeVkFile a d)) in E
                |apply (param_path_inj dir (MintVkFile e) (FreezePkFile a d)) in E|apply (param_path_inj dir (MintVkFile e) (FreezeVkFile a d)) in E]; discriminate E.
  Qed.
End C56.
Print Assumptions C56_universal_srs. Print Assumptions C56_transfer.
Print Assumptions C56_freezing_makes_mint_keys. Print Assumptions C56_mint_makes_freeze_keys.

(** so the keys asked for cannot be loaded after a run that reported success *)
Theorem C56_named_circuit_refuted :
  ~ (forall dir fk setup a b d s s', @gen_parameters T par_snark par_ser par_par dir fk setup (ProverSrs a b d CkFreezing None None) s = Ok s' ->
       exists k, @load_freeze_proving_key T par_snark par_par dir a d None s' = Ok k) /\
  ~ (forall dir fk setup a b d s s', @gen_parameters T par_snark par_ser par_par dir fk setup (ProverSrs a b d CkMint None None) s = Ok s' ->
       exists k, @load_mint_proving_key T par_snark par_par dir d None s' = Ok k).
Proof.
  set (st := fs_run empty_fs (store_data (@c_srs T par_snark par_par) (@fz toy_field 5) (universal_srs_path None))).
  assert (Hst : forall q, q <> universal_srs_path None -> st q = None) by (intros q Hq; unfold st, store_data; rewrite run_store_other by exact Hq; reflexivity).
  assert (Hg : @load_universal_parameter T par_snark par_par None None st = Ok (@fz toy_field 5)) by (apply load_run, c_tp32_ok).
  split; intros H.
  - assert (G : is_ok (@mint_preprocess T par_snark (@fz toy_field 5) 2) = true) by (vm_compute; reflexivity).
    destruct (@mint_preprocess T par_snark (@fz toy_field 5) 2) as [[pk vk]|e|] eqn:Hk; [|discriminate G|discriminate G].
    destruct (C56_freezing_makes_mint_keys par_laws None (@sz toy_field 1) (fun _ => Panic) st 2 2 2 None _ pk vk eq_refl Hg Hk) as (s' & Hs & _ & _ & H3).
    destruct (H _ _ _ _ _ _ _ _ Hs) as (k & Hk'). rewrite (proj1 (H3 2%nat 2%nat)) in Hk'. unfold load_freeze_proving_key, load_data in Hk'.
    cbn [or_default] in Hk'. rewrite Hst in Hk'; [discriminate Hk'|]. intros E. apply (param_path_inj None (FreezePkFile 2 2) SrsFile) in E. discriminate E.
  - assert (G : is_ok (@freeze_preprocess T par_snark (@fz toy_field 5) (@sz toy_field 1) 2 2) = true) by (vm_compute; reflexivity).
    destruct (@freeze_preprocess T par_snark (@fz toy_field 5) (@sz toy_field 1) 2 2) as [[pk vk]|e|] eqn:Hk; [|discriminate G|discriminate G].
    destruct (C56_mint_makes_freeze_keys par_laws None (@sz toy_field 1) (fun _ => Panic) st 2 2 2 None _ pk vk eq_refl eq_refl Hg Hk) as (s' & Hs & _ & _ & H3).
    destruct (H _ _ _ _ _ _ _ _ Hs) as (k & Hk'). rewrite (proj1 (H3 2%nat)) in Hk'. unfold load_mint_proving_key, load_data in Hk'.
    cbn [or_default] in Hk'. rewrite Hst in Hk'; [discriminate Hk'|]. intros E. apply (param_path_inj None (MintPkFile 2) SrsFile) in E. discriminate E.
Qed.
Print Assumptions C56_named_circuit_refuted.
Theorem C56_circuit_names : forall x,
  (circuit_from_str x = Ok CkTransfer <-> x = "transfer") /\ (circuit_from_str x = Ok CkFreezing <-> x = "freezing") /\
  (circuit_from_str x = Ok CkMint <-> x = "mint") /\
  (x <> "transfer" -> x <> "freezing" -> x <> "mint" -> circuit_from_str x = Err InvalidParameter).
Proof.
  intros x. unfold circuit_from_str.
  destruct (String.eqb_spec x "transfer") as [E1|E1]; [subst; repeat split; intros; try discriminate; try reflexivity; congruence|].
  destruct (String.eqb_spec x "freezing") as [E2|E2]; [subst; repeat split; intros; try discriminate; try reflexivity; congruence|].
  destruct (String.eqb_spec x "mint") as [E3|E3]; [subst; repeat split; intros; try discriminate; try reflexivity; congruence|].
  repeat split; intros; try discriminate; try congruence.
Qed.
Print Assumptions C56_circuit_names.

(** first the parameters, then the keys for transfers of 2 inputs and 2 outputs: both runs succeed, and the keys load *)
Example C56_example :
  let go c s := @gen_parameters T par_snark par_ser par_par None (@sz toy_field 1) (fun _ => Ok (@fz toy_field 5)) c s in
  exists s1 s2 pk vk, go (UniversalSrs 10 None) empty_fs = Ok s1 /\ go (ProverSrs 2 2 2 CkTransfer None None) s1 = Ok s2 /\
    @transfer_preprocess T par_snark (@fz toy_field 5) 2 2 2 = Ok (pk, vk) /\
    @load_transfer_proving_key T par_snark par_par None 2 2 2 None s2 = Ok pk /\
    @load_transfer_verifying_key T par_snark par_ser None 2 2 2 None s2 = Ok vk.
Proof.
  cbv zeta. set (setup := fun _ : nat => Ok (@fz toy_field 5)).
  destruct (proj1 (C56_universal_srs par_laws None (@sz toy_field 1) setup empty_fs 10 None) (@fz toy_field 5) eq_refl) as (s1 & H1 & H2 & _).
  assert (G : is_ok (@transfer_preprocess T par_snark (@fz toy_field 5) 2 2 2) = true) by (vm_compute; reflexivity).
  destruct (@transfer_preprocess T par_snark (@fz toy_field 5) 2 2 2) as [[pk vk]|e|] eqn:Hk; [|discriminate G|discriminate G].
  destruct (C56_transfer par_laws None (@sz toy_field 1) setup s1 2 2 2 None _ pk vk eq_refl eq_refl eq_refl H2 Hk) as (s2 & H3 & H4 & H5 & _).
  exists s1, s2, pk, vk. auto.
Qed.
