(** Stored parameters: C46 and C47. *)
From Coq Require Strings.String Strings.Ascii.
From Verif Require Import Base Config Structs Keys Utils Memo Plonk Witness Circuits Snark Notes Serde SerdeProofs ToySer Toy Params ParamsProofs.
Import String.StringSyntax Ascii.AsciiSyntax.
#[local] Open Scope string_scope.

(** ** A concrete instance: keys and reference strings are field elements, preprocessing depends on the string only *)
Notation T := (toy true).
Definition par_snark : Snark T := @Build_Snark T (@F toy_field) (@F toy_field) (@F toy_field) (@F toy_field) unit
  (fun g _ => Ok (fadd g (@fz toy_field 1), fadd g (@fz toy_field 2))) (fun _ _ _ _ => Ok (@f0 toy_field)) (fun _ _ _ _ => true) (fun _ => true)
  (fun P : tp => le_bytes 32 (zv P)).
Definition c_tp32 : Codec (@F toy_field) := c_int 32 bn_p (@fz toy_field).
Lemma c_tp32_ok x : reads_back c_tp32 x.
Proof. apply (c_int_ok 32 bn_p (@fz toy_field)); [intros z Hz; apply (@fz_small toy_field), Hz|]. discriminate. Qed.
Definition par_ser : Ser T par_snark := @Build_Ser T par_snark (c_int 32 bn_l tpz) c_z c_tp32 c_tp32.
Lemma par_ser_laws : @SerLaws T par_snark par_ser.
Proof.
  constructor.
  - intros x. apply (c_int_ok 32 bn_l tpz); [intros z Hz; rewrite zv_tpz; apply Z.mod_small, Hz|]. discriminate.
  - exact c_z_ok.
  - exact c_tp32_ok.
  - exact c_tp32_ok.
Qed.
(** a leading byte 77, so that other encodings are recognised as foreign *)
Definition c_tag {A} (c : Codec A) : Codec A := mkCodec (fun x => (b8 77 :: enc c x)%list) (fun x => Datatypes.S (size c x))
  (fun s => match s with [] => Err SerIoError | b :: r => if zv b =? 77 then dec c r else Err SerInvalidData end).
Lemma c_tag_ok {A} (c : Codec A) x : reads_back c x -> reads_back (c_tag c) x.
Proof. intros [H1 H2]. split; [intros s; exact (H1 s)|cbn; rewrite H2; reflexivity]. Qed.
Lemma c_tag_streams {A} (c : Codec A) : streams c -> streams (c_tag c).
Proof. intros H s x r t. destruct s as [|b s]; cbn [c_tag dec app]; [intros E; discriminate E|]. destruct (zv b =? 77); [apply H|intros E; discriminate E]. Qed.
Definition par_par : ParSer T par_snark := @Build_ParSer T par_snark (c_tag c_tp32) c_tp32.
Lemma par_laws : @ParSerLaws T par_snark par_ser par_par.
Proof.
  constructor.
  - exact par_ser_laws.
  - intros x. apply c_tag_ok, c_tp32_ok.
  - exact c_tp32_ok.
  - apply c_tag_streams, c_int_streams.
  - apply c_int_streams.
  - apply c_int_streams.
Qed.

(** ** C46 *)
Section C46.
  Context {C : CapConfig} {S : Snark C} {Z0 : Ser C S} {P0 : ParSer C S}.
  Theorem C46_transfer_keys : ParSerLaws P0 -> forall dir g n_in n_out d pk vk,
    Z.of_nat n_in < 2 ^ 64 -> Z.of_nat n_out < 2 ^ 64 -> Z.of_nat d < 256 -> transfer_preprocess g n_in n_out d = Ok (pk, vk) ->
    exists l, store_transfer_proving_key dir n_in n_out d g None = Ok l /\
      stores_pair l (transfer_pk_path dir n_in n_out d) (transfer_vk_path dir n_in n_out d)
        (load_transfer_proving_key dir n_in n_out d None) (load_transfer_verifying_key dir n_in n_out d None) pk vk.
  Proof. exact store_transfer_pk. Qed.
  Theorem C46_mint_keys : ParSerLaws P0 -> forall dir g d pk vk,
    Z.of_nat d < 256 -> mint_preprocess g d = Ok (pk, vk) ->
    exists l, store_mint_proving_key dir d g None = Ok l /\
      stores_pair l (mint_pk_path dir d) (mint_vk_path dir d) (load_mint_proving_key dir d None) (load_mint_verifying_key dir d None) pk vk.
  Proof. exact store_mint_pk. Qed.
  Theorem C46_freeze_keys : ParSerLaws P0 -> forall dir g fk n d pk vk,
    Z.of_nat n < 2 ^ 64 -> Z.of_nat d < 256 -> freeze_preprocess g fk n d = Ok (pk, vk) ->
    exists l, store_freeze_proving_key dir fk n d g None = Ok l /\
      stores_pair l (freeze_pk_path dir n d) (freeze_vk_path dir n d) (load_freeze_proving_key dir n d None) (load_freeze_verifying_key dir n d None) pk vk.
  Proof. exact store_freeze_pk. Qed.
  Theorem C46_transfer_verifying_key : ParSerLaws P0 -> forall dir g n_in n_out d dest pk vk,
    Z.of_nat n_in < 2 ^ 64 -> Z.of_nat n_out < 2 ^ 64 -> Z.of_nat d < 256 -> transfer_preprocess g n_in n_out d = Ok (pk, vk) ->
    exists l, store_transfer_verifying_key dir n_in n_out d g dest = Ok l /\
      stores_one l (or_default dest (transfer_vk_path dir n_in n_out d)) (load_transfer_verifying_key dir n_in n_out d dest) vk.
  Proof. exact store_transfer_vk. Qed.
  Theorem C46_mint_verifying_key : ParSerLaws P0 -> forall dir g d dest pk vk,
    Z.of_nat d < 256 -> mint_preprocess g d = Ok (pk, vk) ->
    exists l, store_mint_verifying_key dir d g dest = Ok l /\
      stores_one l (or_default dest (mint_vk_path dir d)) (load_mint_verifying_key dir d dest) vk.
  Proof. exact store_mint_vk. Qed.
  Theorem C46_freeze_verifying_key : ParSerLaws P0 -> forall dir g fk n d dest pk vk,
    Z.of_nat n < 2 ^ 64 -> Z.of_nat d < 256 -> freeze_preprocess g fk n d = Ok (pk, vk) ->
    exists l, store_freeze_verifying_key dir fk n d g dest = Ok l /\
      stores_one l (or_default dest (freeze_vk_path dir n d)) (load_freeze_verifying_key dir n d dest) vk.
  Proof. exact store_freeze_vk. Qed.
  Theorem C46_universal_parameters : ParSerLaws P0 -> forall dir g dest,
    exists l, store_universal_parameter_for_demo dir (Ok g) dest = Ok l /\
      stores_one l (or_default dest (universal_srs_path dir)) (load_universal_parameter dir dest) g.
  Proof. exact store_srs. Qed.
  (** under an explicit path the proving key is overwritten: the file is the encoding of the verifying key *)
  Theorem C46_explicit_path_holds_verifying_key : forall dir p s,
    (forall g n_in n_out d pk vk l, transfer_preprocess g n_in n_out d = Ok (pk, vk) ->
       store_transfer_proving_key dir n_in n_out d g (Some p) = Ok l -> fs_run s l p = Some (enc c_tvk vk)) /\
    (forall g d pk vk l, mint_preprocess g d = Ok (pk, vk) ->
       store_mint_proving_key dir d g (Some p) = Ok l -> fs_run s l p = Some (enc c_mvk vk)) /\
    (forall g fk n d pk vk l, freeze_preprocess g fk n d = Ok (pk, vk) ->
       store_freeze_proving_key dir fk n d g (Some p) = Ok l -> fs_run s l p = Some (enc c_fvk vk)).
  Proof. intros dir p s. conjs; intros; [eapply explicit_pk|eapply explicit_mpk|eapply explicit_fpk]; eassumption. Qed.
  Theorem C46_embedded_parameters : ParSerLaws P0 -> forall sha256 expected bs m m' g, m <= 2 ^ 17 -> m' <= 2 ^ 17 ->
    load_srs sha256 expected bs m = load_srs sha256 expected bs m' /\ load_srs sha256 (sha256 (enc c_srs g)) (enc c_srs g) m = Ok g.
  Proof. intros PL sha e bs m m' g H H'. split; [apply load_srs_degree; auto|apply load_srs_ok; auto]. Qed.
End C46.
Print Assumptions C46_transfer_keys. Print Assumptions C46_mint_keys. Print Assumptions C46_freeze_keys.
Print Assumptions C46_transfer_verifying_key. Print Assumptions C46_mint_verifying_key. Print Assumptions C46_freeze_verifying_key.
Print Assumptions C46_universal_parameters. Print Assumptions C46_explicit_path_holds_verifying_key. Print Assumptions C46_embedded_parameters.

Definition empty_fs : fs := fun _ => None.
(** storing a proving key under an explicit path and loading it from there does not give it back *)
Theorem C46_explicit_path_refuted : ~ (forall dir n_in n_out d g p l pk vk,
  @transfer_preprocess T par_snark g n_in n_out d = Ok (pk, vk) ->
  @store_transfer_proving_key T par_snark par_ser par_par dir n_in n_out d g (Some p) = Ok l ->
  @load_transfer_proving_key T par_snark par_par dir n_in n_out d (Some p) (fs_run empty_fs l) = Ok pk).
Proof.
  intros H. specialize (H None 2%nat 2%nat 1%nat (@fz toy_field 5) "keys.bin").
  assert (G : match @transfer_preprocess T par_snark (@fz toy_field 5) 2 2 1,
    @store_transfer_proving_key T par_snark par_ser par_par None 2 2 1 (@fz toy_field 5) (Some "keys.bin") with
    | Ok _, Ok l => match @load_transfer_proving_key T par_snark par_par None 2 2 1 (Some "keys.bin") (fs_run empty_fs l) with Ok _ => false | _ => true end
    | _, _ => false end = true) by (vm_compute; reflexivity).
  destruct (@transfer_preprocess T par_snark (@fz toy_field 5) 2 2 1) as [[pk vk]| |]; [|discriminate G|discriminate G].
  destruct (@store_transfer_proving_key T par_snark par_ser par_par None 2 2 1 (@fz toy_field 5) (Some "keys.bin")) as [l| |]; [|discriminate G|discriminate G].
  rewrite (H l pk vk eq_refl eq_refl) in G. discriminate G.
Qed.
Print Assumptions C46_explicit_path_refuted.
(** a store that is interrupted destroys the key that was stored before: the old value is not kept until the new one is complete *)
Theorem C46_atomic_refuted : ~ (forall dir d g dest s l k old,
  @load_mint_verifying_key T par_snark par_ser dir d dest s = Ok old ->
  @store_mint_verifying_key T par_snark par_ser dir d g dest = Ok l ->
  exists y, @load_mint_verifying_key T par_snark par_ser dir d dest (stopped s l k) = Ok y).
Proof.
  intros H. specialize (H None 1%nat (@fz toy_field 5) None).
  assert (G : match @store_mint_verifying_key T par_snark par_ser None 1 (@fz toy_field 5) None with
    | Ok l => match @load_mint_verifying_key T par_snark par_ser None 1 None (fs_run empty_fs l),
                    @load_mint_verifying_key T par_snark par_ser None 1 None (stopped (fs_run empty_fs l) l 9) with Ok _, Ok _ => false | Ok _, _ => true | _, _ => false end
    | _ => false end = true) by (vm_compute; reflexivity).
  destruct (@store_mint_verifying_key T par_snark par_ser None 1 (@fz toy_field 5) None) as [l| |]; [|discriminate G|discriminate G].
  specialize (H (fs_run empty_fs l) l 9%nat).
  destruct (@load_mint_verifying_key T par_snark par_ser None 1 None (fs_run empty_fs l)) as [vk| |]; [|discriminate G|discriminate G].
  destruct (H vk eq_refl eq_refl) as [y Hy]. rewrite Hy in G. discriminate G.
Qed.
Print Assumptions C46_atomic_refuted.
Example C46_example : @ParSerLaws T par_snark par_ser par_par /\
  (exists k, @transfer_preprocess T par_snark (@fz toy_field 5) 2 3 2 = Ok k) /\
  (exists k, @mint_preprocess T par_snark (@fz toy_field 5) 2 = Ok k) /\
  store_result [FCreate "a"; FAppend "a" (b8 1)] 2 = Ok tt /\ store_result [FCreate "a"; FAppend "a" (b8 1)] 1 = Err IoError.
Proof.
  assert (G : forall A (m : res A), match m with Ok _ => true | _ => false end = true -> exists k, m = Ok k) by (intros A [k| |] E; [eauto|discriminate E|discriminate E]).
  split; [exact par_laws|]. split; [apply G; vm_compute; reflexivity|]. split; [apply G; vm_compute; reflexivity|]. split; reflexivity.
Qed.

(** ** C47 *)
Theorem C47_default_paths_distinct : forall dir f g, param_path dir f = param_path dir g -> f = g.
Proof. exact param_path_inj. Qed.
Print Assumptions C47_default_paths_distinct.
Example C47_example :
  param_path None (TransferPkFile 2 3 26) = "./data/transfer_prover_2_input_3_output_26_depth.bin" /\
  param_path None (TransferPkFile 2 3 26) <> param_path None (TransferPkFile 23 2 6) /\
  param_path (Some "/tmp") (FreezeVkFile 12 20) = "/tmp/data/freeze_verifier_12_input_12_output_20_depth.bin" /\
  param_path (Some "/tmp") SrsFile = "/tmp/data/universal_srs.bin".
Proof. conjs; try (vm_compute; reflexivity). intros E. vm_compute in E. discriminate E. Qed.
