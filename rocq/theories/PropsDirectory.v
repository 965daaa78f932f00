(** C89: the parameter directory over any history of store calls and crashes. *)
From Coq Require Strings.String Strings.Ascii.
From Verif Require Import Base Config Structs Keys Utils Memo Plonk Witness Circuits Snark Notes Serde SerdeProofs ToySer Toy Params ParamsProofs
  ParamHistory PropsParams.
Import String.StringSyntax Ascii.AsciiSyntax.
#[local] Open Scope string_scope.

Section C89.
  Context {C : CapConfig} {S : Snark C} {Z0 : Ser C S} {P0 : ParSer C S}.
  (** Whatever was stored, in which order and however often the process was stopped in the middle of a call: what a load function
      returns without an error is the result of preprocessing, for exactly the sizes asked for, of one of the calls. *)
  Theorem C89_never_wrong : ParSerLaws P0 -> forall dir h f y, (forall c k, In (c, k) h -> sized c) ->
    load_file dir f (after dir h (fun _ => None)) = Ok y -> exists c k, In (c, k) h /\ In (f, y) (contents c).
  Proof.
    intros PL dir h f y HS H. destruct (after_read dir PL h f y _ HS H) as [K|K]; [exact K|]. exfalso. destruct f; discriminate K.
  Qed.
  (** What the last call for a file stored is read back, if that call returned [Ok], whatever happened to other files since. *)
  Theorem C89_last_store : ParSerLaws P0 -> forall dir h1 c k l h2 f y s,
    (forall c' k', In (c', k') (h1 ++ (c, k) :: h2) -> sized c') ->
    steps_of dir c = Ok l -> store_result l k = Ok tt -> In (f, y) (contents c) ->
    (forall c' k', In (c', k') h2 -> ~ In f (map fst (contents c'))) ->
    load_file dir f (after dir (h1 ++ (c, k) :: h2) s) = Ok y.
  Proof. intros PL dir. exact (after_last dir PL). Qed.
  (** No call touches a file other than its own. *)
  Theorem C89_other_files : ParSerLaws P0 -> forall dir h q s, (forall c k, In (c, k) h -> sized c) ->
    (forall c k f, In (c, k) h -> In f (map fst (contents c)) -> q <> param_path dir f) -> after dir h s q = s q.
  Proof. intros PL dir h q s. exact (after_other dir PL h q s). Qed.
End C89.
Print Assumptions C89_never_wrong. Print Assumptions C89_last_store. Print Assumptions C89_other_files.

(** The keys for mints are stored, then stored again for another reference string, but the process stops after the proving key. *)
Definition dr_call (g : Z) : @store_call T par_snark := @StoreMintKeys T par_snark 2 (@fz toy_field g).
Definition dr_steps (g : Z) : list fop := match @steps_of T par_snark par_ser par_par None (dr_call g) with Ok l => l | _ => [] end.
Definition dr_history : list (@store_call T par_snark * nat) := [(dr_call 5, 69%nat); (dr_call 6, 35%nat)].
Definition dr_fs : fs := @after T par_snark par_ser par_par None dr_history empty_fs.
Lemma dr_sized c k : In (c, k) dr_history -> sized c.
Proof. intros [E|[E|[]]]; apply (f_equal fst) in E; cbn [fst] in E; subst c; reflexivity. Qed.
Definition is_err {A} (x : res A) : bool := match x with Err IoError => true | _ => false end.
Definition is_ok {A} (x : res A) : bool := match x with Ok _ => true | _ => false end.
Example C89_example : @ParSerLaws T par_snark par_ser par_par /\ (forall c k, In (c, k) dr_history -> sized c) /\
  is_ok (@steps_of T par_snark par_ser par_par None (dr_call 5)) = true /\ length (dr_steps 5) = 69%nat /\
  is_ok (store_result (dr_steps 5) 69) = true /\ is_err (store_result (dr_steps 6) 35) = true /\
  map fst (contents (dr_call 5)) = [MintPkFile 2; MintVkFile 2] /\
  is_err (@load_file T par_snark par_ser par_par None (TransferPkFile 2 2 2) dr_fs) = true.
Proof.
  split; [exact par_laws|]. split; [exact dr_sized|]. split; [vm_compute; reflexivity|]. split; [vm_compute; reflexivity|].
  split; [vm_compute; reflexivity|]. split; [vm_compute; reflexivity|]. split; vm_compute; reflexivity.
Qed.
(** The two keys of one shape need not belong together: the proving key that is loaded here was made from the new reference string,
    the verifying key from the old one, and no reference string gives both. *)
Theorem C89_pair_matches_refuted : ~ (forall h d pk vk, (forall c k, In (c, k) h -> @sized T par_snark c) ->
  @load_mint_proving_key T par_snark par_par None d None (@after T par_snark par_ser par_par None h empty_fs) = Ok pk ->
  @load_mint_verifying_key T par_snark par_ser None d None (@after T par_snark par_ser par_par None h empty_fs) = Ok vk ->
  exists g, @mint_preprocess T par_snark g d = Ok (pk, vk)).
Proof.
  intros H.
  assert (K : match @load_mint_proving_key T par_snark par_par None 2 None dr_fs, @load_mint_verifying_key T par_snark par_ser None 2 None dr_fs with
    | Ok pk, Ok vk => negb (zv (@fadd toy_field (@mpk_key T par_snark pk) (@fz toy_field 1)) =? zv (@mvk_key T par_snark vk)) | _, _ => false end = true)
    by (vm_compute; reflexivity).
  specialize (H dr_history 2%nat). fold dr_fs in H.
  destruct (@load_mint_proving_key T par_snark par_par None 2 None dr_fs) as [pk| |]; [|discriminate K|discriminate K].
  destruct (@load_mint_verifying_key T par_snark par_ser None 2 None dr_fs) as [vk| |]; [|discriminate K|discriminate K].
  destruct (H pk vk dr_sized eq_refl eq_refl) as (g & E). unfold mint_preprocess in E. apply bind_ok in E. destruct E as (c & _ & E).
  apply bind_ok in E. destruct E as (kk & E1 & E2). change (Ok (@fadd toy_field g (@fz toy_field 1), @fadd toy_field g (@fz toy_field 2)) = Ok kk) in E1.
  apply (f_equal (fun r => match r with Ok w => w | _ => kk end)) in E1. cbv beta iota in E1. subst kk.
  apply (f_equal (fun r => match r with Ok w => w | _ => (pk, vk) end)) in E2. cbv beta iota in E2.
  pose proof (f_equal fst E2) as A1. pose proof (f_equal snd E2) as A2. cbn [fst snd] in A1, A2. subst pk vk. cbn [mpk_key mvk_key] in K.
  apply Bool.negb_true_iff in K. apply Z.eqb_neq in K. apply K. f_equal.
  rewrite <- fadd_assoc. f_equal.
Qed.
Print Assumptions C89_pair_matches_refuted.
