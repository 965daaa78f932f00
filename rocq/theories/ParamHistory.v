(** The parameter directory over a history of store calls, each of which may be cut short. *)
From Coq Require Strings.String Strings.Ascii.
From Verif Require Import Base Config Structs Keys Utils Memo Plonk Witness Circuits Snark Notes Serde SerdeProofs Params ParamsProofs.

Section ParamHistory.
  Context {C : CapConfig} {S : Snark C} {Z0 : Ser C S} {P0 : ParSer C S}.
  Context (dir : option String.string).

  (** parameters.rs: the seven store functions, called without an explicit path *)
  Inductive store_call :=
  | StoreSrs (g : srs)
  | StoreTransferKeys (n_in n_out d : nat) (g : srs) | StoreTransferVk (n_in n_out d : nat) (g : srs)
  | StoreMintKeys (d : nat) (g : srs) | StoreMintVk (d : nat) (g : srs)
  | StoreFreezeKeys (fk : FreezerKeyPair) (n d : nat) (g : srs) | StoreFreezeVk (fk : FreezerKeyPair) (n d : nat) (g : srs).
  (** parameters.rs 45-65, 111-149, 190-214, 245-281, 315-336, 367-404, 440-461 *)
  Definition steps_of (c : store_call) : res (list fop) :=
    match c with
    | StoreSrs g => store_universal_parameter_for_demo dir (Ok g) None
    | StoreTransferKeys a b d g => store_transfer_proving_key dir a b d g None
    | StoreTransferVk a b d g => store_transfer_verifying_key dir a b d g None
    | StoreMintKeys d g => store_mint_proving_key dir d g None
    | StoreMintVk d g => store_mint_verifying_key dir d g None
    | StoreFreezeKeys fk n d g => store_freeze_proving_key dir fk n d g None
    | StoreFreezeVk fk n d g => store_freeze_verifying_key dir fk n d g None
    end.
  (** the file system after a history of calls; the number with a call says how many steps the operating system let pass *)
  Definition after (h : list (store_call * nat)) (s : fs) : fs :=
    fold_left (fun s x => match steps_of (fst x) with Ok l => stopped s l (snd x) | _ => s end) h s.

  (** what the load functions, called without an explicit path, return *)
  Inductive stored :=
  | VSrs (x : srs) | VTransferPk (x : TransferProvingKey) | VTransferVk (x : TransferVerifyingKey)
  | VMintPk (x : MintProvingKey) | VMintVk (x : MintVerifyingKey) | VFreezePk (x : FreezeProvingKey) | VFreezeVk (x : FreezeVerifyingKey).
  (** parameters.rs 67-102, 154-177, 219-238, 286-304, 341-359, 409-428, 466-482 *)
  Definition load_file (f : param_file) (s : fs) : res stored :=
    match f with
    | SrsFile => let* x := load_universal_parameter dir None s in Ok (VSrs x)
    | TransferPkFile a b d => let* x := load_transfer_proving_key dir a b d None s in Ok (VTransferPk x)
    | TransferVkFile a b d => let* x := load_transfer_verifying_key dir a b d None s in Ok (VTransferVk x)
    | MintPkFile d => let* x := load_mint_proving_key dir d None s in Ok (VMintPk x)
    | MintVkFile d => let* x := load_mint_verifying_key dir d None s in Ok (VMintVk x)
    | FreezePkFile n d => let* x := load_freeze_proving_key dir n d None s in Ok (VFreezePk x)
    | FreezeVkFile n d => let* x := load_freeze_verifying_key dir n d None s in Ok (VFreezeVk x)
    end.

  (** ** Specification *)
  (** the files that a call is to write and what is to be read from them: the result of preprocessing for its sizes *)
  Definition contents (c : store_call) : list (param_file * stored) :=
    match c with
    | StoreSrs g => [(SrsFile, VSrs g)]
    | StoreTransferKeys a b d g =>
        match transfer_preprocess g a b d with Ok (pk, vk) => [(TransferPkFile a b d, VTransferPk pk); (TransferVkFile a b d, VTransferVk vk)] | _ => [] end
    | StoreTransferVk a b d g => match transfer_preprocess g a b d with Ok (_, vk) => [(TransferVkFile a b d, VTransferVk vk)] | _ => [] end
    | StoreMintKeys d g => match mint_preprocess g d with Ok (pk, vk) => [(MintPkFile d, VMintPk pk); (MintVkFile d, VMintVk vk)] | _ => [] end
    | StoreMintVk d g => match mint_preprocess g d with Ok (_, vk) => [(MintVkFile d, VMintVk vk)] | _ => [] end
    | StoreFreezeKeys fk n d g =>
        match freeze_preprocess g fk n d with Ok (pk, vk) => [(FreezePkFile n d, VFreezePk pk); (FreezeVkFile n d, VFreezeVk vk)] | _ => [] end
    | StoreFreezeVk fk n d g => match freeze_preprocess g fk n d with Ok (_, vk) => [(FreezeVkFile n d, VFreezeVk vk)] | _ => [] end
    end.
  (** sizes that the types of the code can hold: [usize] and [u8] *)
  Definition sized (c : store_call) : Prop :=
    match c with
    | StoreSrs _ => True
    | StoreTransferKeys a b d _ | StoreTransferVk a b d _ => Z.of_nat a < 2 ^ 64 /\ Z.of_nat b < 2 ^ 64 /\ Z.of_nat d < 256
    | StoreMintKeys d _ | StoreMintVk d _ => Z.of_nat d < 256
    | StoreFreezeKeys _ n d _ | StoreFreezeVk _ n d _ => Z.of_nat n < 2 ^ 64 /\ Z.of_nat d < 256
    end.

  (** ** Proofs *)
  Lemma load_file_ext f s s' : s (param_path dir f) = s' (param_path dir f) -> load_file f s = load_file f s'.
  Proof.
    destruct f; cbn [param_path load_file]; intros E;
      unfold load_universal_parameter, load_transfer_proving_key, load_transfer_verifying_key, load_mint_proving_key, load_mint_verifying_key,
        load_freeze_proving_key, load_freeze_verifying_key, load_data; cbn [or_default]; rewrite E; reflexivity.
  Qed.
  (** one call, as seen through the load functions *)
  Record call_ok (c : store_call) (l : list fop) : Prop := {
    ck_done : forall s f y, In (f, y) (contents c) -> load_file f (fs_run s l) = Ok y;
    ck_read : forall s k f y, load_file f (stopped s l k) = Ok y -> In (f, y) (contents c) \/ load_file f s = Ok y;
    ck_other : forall s k q, (forall f, In f (map fst (contents c)) -> q <> param_path dir f) -> stopped s l k q = s q
  }.
  Lemma load_other c f s s' : ~ In f (map fst (contents c)) ->
    (forall q, (forall f, In f (map fst (contents c)) -> q <> param_path dir f) -> s q = s' q) -> load_file f s = load_file f s'.
  Proof. intros Hf H. apply load_file_ext, H. intros g Hg E. apply param_path_inj in E. subst g. contradiction. Qed.
  Definition file_dec (f g : param_file) : {f = g} + {f <> g}.
  Proof. decide equality; apply Nat.eq_dec. Defined.

  Lemma one_call c l f A (x : A) (load : fs -> res A) (mk : A -> stored) : contents c = [(f, mk x)] -> (forall s, load_file f s = (let* y := load s in Ok (mk y))) ->
    stores_one l (param_path dir f) load x -> call_ok c l.
  Proof.
    intros EC EL HS.
    assert (O : forall s k q, (forall g, In g (map fst (contents c)) -> q <> param_path dir g) -> stopped s l k q = s q).
    { intros s k q Hq. destruct (HS s) as (_ & H & _). apply H. apply Hq. rewrite EC. left. reflexivity. }
    constructor; [| |exact O].
    - intros s g y Hg. rewrite EC in Hg. destruct Hg as [Hg|[]]. injection Hg as <- <-. rewrite EL. destruct (HS s) as (H & _). rewrite H. reflexivity.
    - intros s k g y Hy. destruct (file_dec g f) as [->|Hne].
      + rewrite EL in Hy. apply bind_ok in Hy. destruct Hy as (z & Hz & E). apply (f_equal (fun r => match r with Ok w => w | _ => y end)) in E. cbv beta iota in E. subst y.
        destruct (HS s) as (_ & _ & H). destruct (H k z Hz) as [->|(_ & K)]; [left; rewrite EC; left; reflexivity|right; rewrite EL, K; reflexivity].
      + right. rewrite <- Hy. symmetry. apply (load_other c); [rewrite EC; intros [K|[]]; apply Hne; symmetry; exact K|]. intros q Hq. apply O, Hq.
  Qed.
  Lemma two_call c l f1 f2 A B (x1 : A) (x2 : B) (load1 : fs -> res A) (load2 : fs -> res B) (mk1 : A -> stored) (mk2 : B -> stored) :
    contents c = [(f1, mk1 x1); (f2, mk2 x2)] ->
    (forall s, load_file f1 s = (let* y := load1 s in Ok (mk1 y))) -> (forall s, load_file f2 s = (let* y := load2 s in Ok (mk2 y))) ->
    stores_pair l (param_path dir f1) (param_path dir f2) load1 load2 x1 x2 -> call_ok c l.
  Proof.
    intros EC E1 E2 HS.
    assert (O : forall s k q, (forall g, In g (map fst (contents c)) -> q <> param_path dir g) -> stopped s l k q = s q).
    { intros s k q Hq. destruct (HS s) as (_ & _ & H & _). rewrite EC in Hq. apply H; apply Hq; [left|right; left]; reflexivity. }
    constructor; [| |exact O].
    - intros s g y Hg. rewrite EC in Hg. destruct (HS s) as (H1 & H2 & _). destruct Hg as [Hg|[Hg|[]]]; injection Hg as <- <-; [rewrite E1, H1|rewrite E2, H2]; reflexivity.
    - intros s k g y Hy. destruct (HS s) as (_ & _ & _ & H1 & H2). destruct (file_dec g f1) as [->|Hne1]; [|destruct (file_dec g f2) as [->|Hne2]].
      + rewrite E1 in Hy. apply bind_ok in Hy. destruct Hy as (z & Hz & E). apply (f_equal (fun r => match r with Ok w => w | _ => y end)) in E. cbv beta iota in E. subst y.
        destruct (H1 k z Hz) as [->|(_ & K)]; [left; rewrite EC; left; reflexivity|right; rewrite E1, K; reflexivity].
      + rewrite E2 in Hy. apply bind_ok in Hy. destruct Hy as (z & Hz & E). apply (f_equal (fun r => match r with Ok w => w | _ => y end)) in E. cbv beta iota in E. subst y.
        destruct (H2 k z Hz) as [->|K]; [left; rewrite EC; right; left; reflexivity|right; rewrite E2, K; reflexivity].
      + right. rewrite <- Hy. symmetry. apply (load_other c); [rewrite EC; cbn [map fst]; intros [K|[K|[]]]; [apply Hne1|apply Hne2]; symmetry; exact K|]. intros q Hq. apply O, Hq.
  Qed.

  Context (PL : ParSerLaws P0).
  Lemma call_steps c : sized c -> match steps_of c with Ok l => call_ok c l | _ => contents c = [] end.
  Proof.
    destruct c as [g|a b d g|a b d g|d g|d g|fk n d g|fk n d g]; cbn [sized steps_of]; intros Hs.
    - destruct (store_srs PL dir g None) as (l & E & K). rewrite E. exact (one_call (StoreSrs g) l SrsFile _ g _ VSrs eq_refl (fun s => eq_refl) K).
    - destruct Hs as (Ha & Hb & Hd). destruct (transfer_preprocess g a b d) as [[pk vk]|e|] eqn:EP.
      2,3: unfold store_transfer_proving_key, contents; rewrite EP; reflexivity.
      destruct (store_transfer_pk PL dir g a b d pk vk Ha Hb Hd EP) as (l & E & K). rewrite E.
      apply (two_call (StoreTransferKeys a b d g) l (TransferPkFile a b d) (TransferVkFile a b d) _ _ pk vk (load_transfer_proving_key dir a b d None) (load_transfer_verifying_key dir a b d None) VTransferPk VTransferVk); [cbn [contents]; rewrite EP; reflexivity|reflexivity|reflexivity|exact K].
    - destruct Hs as (Ha & Hb & Hd). destruct (transfer_preprocess g a b d) as [[pk vk]|e|] eqn:EP.
      2,3: unfold store_transfer_verifying_key, contents; rewrite EP; reflexivity.
      destruct (store_transfer_vk PL dir g a b d None pk vk Ha Hb Hd EP) as (l & E & K). rewrite E.
      apply (one_call (StoreTransferVk a b d g) l (TransferVkFile a b d) _ vk (load_transfer_verifying_key dir a b d None) VTransferVk); [cbn [contents]; rewrite EP; reflexivity|reflexivity|exact K].
    - destruct (mint_preprocess g d) as [[pk vk]|e|] eqn:EP.
      2,3: unfold store_mint_proving_key, contents; rewrite EP; reflexivity.
      destruct (store_mint_pk PL dir g d pk vk Hs EP) as (l & E & K). rewrite E.
      apply (two_call (StoreMintKeys d g) l (MintPkFile d) (MintVkFile d) _ _ pk vk (load_mint_proving_key dir d None) (load_mint_verifying_key dir d None) VMintPk VMintVk); [cbn [contents]; rewrite EP; reflexivity|reflexivity|reflexivity|exact K].
    - destruct (mint_preprocess g d) as [[pk vk]|e|] eqn:EP.
      2,3: unfold store_mint_verifying_key, contents; rewrite EP; reflexivity.
      destruct (store_mint_vk PL dir g d None pk vk Hs EP) as (l & E & K). rewrite E.
      apply (one_call (StoreMintVk d g) l (MintVkFile d) _ vk (load_mint_verifying_key dir d None) VMintVk); [cbn [contents]; rewrite EP; reflexivity|reflexivity|exact K].
    - destruct Hs as (Hn & Hd). destruct (freeze_preprocess g fk n d) as [[pk vk]|e|] eqn:EP.
      2,3: unfold store_freeze_proving_key, contents; rewrite EP; reflexivity.
      destruct (store_freeze_pk PL dir g fk n d pk vk Hn Hd EP) as (l & E & K). rewrite E.
      apply (two_call (StoreFreezeKeys fk n d g) l (FreezePkFile n d) (FreezeVkFile n d) _ _ pk vk (load_freeze_proving_key dir n d None) (load_freeze_verifying_key dir n d None) VFreezePk VFreezeVk); [cbn [contents]; rewrite EP; reflexivity|reflexivity|reflexivity|exact K].
    - destruct Hs as (Hn & Hd). destruct (freeze_preprocess g fk n d) as [[pk vk]|e|] eqn:EP.
      2,3: unfold store_freeze_verifying_key, contents; rewrite EP; reflexivity.
      destruct (store_freeze_vk PL dir g fk n d None pk vk Hn Hd EP) as (l & E & K). rewrite E.
      apply (one_call (StoreFreezeVk fk n d g) l (FreezeVkFile n d) _ vk (load_freeze_verifying_key dir n d None) VFreezeVk); [cbn [contents]; rewrite EP; reflexivity|reflexivity|exact K].
  Qed.

  Lemma after_cons x h s : after (x :: h) s = after h (match steps_of (fst x) with Ok l => stopped s l (snd x) | _ => s end).
  Proof. reflexivity. Qed.
  Theorem after_read h f y : forall s, (forall c k, In (c, k) h -> sized c) -> load_file f (after h s) = Ok y ->
    (exists c k, In (c, k) h /\ In (f, y) (contents c)) \/ load_file f s = Ok y.
  Proof.
    induction h as [|[c k] h IH]; intros s HS H; [right; exact H|]. rewrite after_cons in H. cbn [fst snd] in H.
    destruct (IH _ (fun c' k' K => HS c' k' (or_intror K)) H) as [(c' & k' & I & K)|K]; [left; exists c', k'; split; [right; exact I|exact K]|].
    pose proof (call_steps c (HS c k (or_introl eq_refl))) as CK. destruct (steps_of c) as [l| |]; [|right; exact K|right; exact K].
    destruct (ck_read _ _ CK s k f y K) as [Q|Q]; [left; exists c, k; split; [left; reflexivity|exact Q]|right; exact Q].
  Qed.
  Theorem after_other h q : forall s, (forall c k, In (c, k) h -> sized c) ->
    (forall c k f, In (c, k) h -> In f (map fst (contents c)) -> q <> param_path dir f) -> after h s q = s q.
  Proof.
    induction h as [|[c k] h IH]; intros s HS H; [reflexivity|]. rewrite after_cons. cbn [fst snd].
    rewrite IH; [|intros; eapply HS; right; eassumption|intros; eapply H; [right; eassumption|assumption]].
    pose proof (call_steps c (HS c k (or_introl eq_refl))) as CK. destruct (steps_of c) as [l| |]; [|reflexivity|reflexivity].
    apply (ck_other _ _ CK). intros f. apply (H c k). left. reflexivity.
  Qed.
  Theorem after_last h1 c k l h2 f y s : (forall c' k', In (c', k') (h1 ++ (c, k) :: h2) -> sized c') -> steps_of c = Ok l ->
    store_result l k = Ok tt -> In (f, y) (contents c) ->
    (forall c' k', In (c', k') h2 -> ~ In f (map fst (contents c'))) -> load_file f (after (h1 ++ (c, k) :: h2) s) = Ok y.
  Proof.
    intros HS E HK HI HN. unfold after. rewrite fold_left_app. fold (after h1 s). change (load_file f (after ((c, k) :: h2) (after h1 s)) = Ok y).
    rewrite after_cons. cbn [fst snd]. rewrite E.
    rewrite (load_file_ext f _ (stopped (after h1 s) l k)).
    - assert (I : In (c, k) (h1 ++ (c, k) :: h2)%list) by (apply in_or_app; right; left; reflexivity).
      pose proof (call_steps c (HS c k I)) as CK. rewrite E in CK.
      unfold store_result in HK. destruct (Nat.leb_spec (length l) k) as [G|G]; [|discriminate HK].
      unfold stopped. rewrite firstn_all2 by exact G. apply (ck_done _ _ CK), HI.
    - apply after_other; [intros c' k' H; apply (HS c' k'), in_or_app; right; right; exact H|].
      intros c' k' g I Hg X. apply param_path_inj in X. subst g. exact (HN c' k' I Hg).
  Qed.
End ParamHistory.
