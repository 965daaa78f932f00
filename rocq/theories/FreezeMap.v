(** Freezing and the reveal map.  A record commitment packs the reveal map [m] and the freeze flag [f] into the single
    scalar [2 m + f], and the freeze circuit neither bounds [m] nor compares it with anything but the output's.  The
    scalar can therefore be opened in two ways, and the record that comes out can have a different reveal map. *)
From Verif Require Import Base Config Structs Keys Utils Memo Plonk Witness Circuits Relation CircuitLogic CodecProofs PolicyProofs
  UtilsProofs GadgetProofs FreezeCircuitProofs Snark Notes NoteProofs NoteGen2 Accepted Decide CircuitFacts Toy ToySnark Samples NoteSamples Ledger LedgerSpec.

Section FreezeMap.
  Context {C : CapConfig} (L : CapLaws C) {S : Snark C}.

  Lemma packed_value m f : zv (fadd (fadd (rm_to_scalar m) (rm_to_scalar m)) (fbool (flag_bool f))) =
    2 * zv (rm_to_scalar m) + (if flag_bool f then 1 else 0).
  Proof.
    pose proof (proj1 rm_scalar_spec m) as Hr. pose proof modulus_lb as Hm. assert (2 ^ 14 < 2 ^ 252) by reflexivity.
    assert (2 ^ 12 * 4 = 2 ^ 14) by reflexivity. unfold fadd. rewrite (fz_small (zv (rm_to_scalar m) + zv (rm_to_scalar m))) by lia.
    assert (Hf : zv (fbool (flag_bool f) : F) = if flag_bool f then 1 else 0) by (destruct f; cbn [flag_bool fbool]; apply fz_small; lia).
    rewrite Hf, fz_small; destruct (flag_bool f); lia.
  Qed.
  (** what the two packed scalars of a frozen pair have to do with each other *)
  Lemma packed_step (M : F) m f m' f' :
    (fadd (fadd (rm_to_scalar m) (rm_to_scalar m)) (fbool (flag_bool f)) = fadd (fadd M M) f0 /\
     fadd (fadd (rm_to_scalar m') (rm_to_scalar m')) (fbool (flag_bool f')) = fadd (fadd M M) f1 \/
     fadd (fadd (rm_to_scalar m) (rm_to_scalar m)) (fbool (flag_bool f)) = fadd (fadd M M) f1 /\
     fadd (fadd (rm_to_scalar m') (rm_to_scalar m')) (fbool (flag_bool f')) = fadd (fadd M M) f0) ->
    f' = flip f /\
    (m' = m \/ f = Unfrozen /\ zv (rm_to_scalar m') = zv (rm_to_scalar m) - 1 \/ f = Frozen /\ zv (rm_to_scalar m') = zv (rm_to_scalar m) + 1).
  Proof.
    intros H. pose proof (proj1 rm_scalar_spec m) as Hr. pose proof (proj1 rm_scalar_spec m') as Hr'. pose proof modulus_lb as Hm.
    assert (B : 2 ^ 14 < 2 ^ 252) by reflexivity. assert (B' : 2 ^ 12 * 4 = 2 ^ 14) by reflexivity.
    set (K := zv (fadd M M)) in *. pose proof (zv_range (fadd M M)) as RK. fold K in RK.
    assert (E0 : zv (fadd (fadd M M) f0) = K).
    { unfold fadd at 1. fold K. replace (zv (f0 : F)) with 0 by (symmetry; apply fz_small; lia). rewrite Z.add_0_r. apply fz_small. lia. }
    assert (E1 : zv (fadd (fadd M M) f1) = (K + 1) mod modulus).
    { unfold fadd at 1. fold K. replace (zv (f1 : F)) with 1 by (symmetry; apply fz_small; lia). apply zv_fz. }
    assert (Hstep : 2 * zv (rm_to_scalar m) + (if flag_bool f then 1 else 0) = K /\ 2 * zv (rm_to_scalar m') + (if flag_bool f' then 1 else 0) = (K + 1) mod modulus \/
                    2 * zv (rm_to_scalar m) + (if flag_bool f then 1 else 0) = (K + 1) mod modulus /\ 2 * zv (rm_to_scalar m') + (if flag_bool f' then 1 else 0) = K).
    { destruct H as [[H1 H2]|[H1 H2]]; apply (f_equal zv) in H1; apply (f_equal zv) in H2; rewrite packed_value in H1, H2; rewrite ?E0, ?E1 in *; auto. }
    assert (KB : K < 2 ^ 14) by (destruct Hstep as [[H1 H2]|[H1 H2]]; destruct (flag_bool f), (flag_bool f'); lia).
    rewrite Z.mod_small in Hstep by lia.
    assert (Hmap : zv (rm_to_scalar m') = zv (rm_to_scalar m) -> m' = m) by (intros E; apply (proj1 (proj2 rm_scalar_spec)), zmod_ext, E).
    destruct f, f'; cbn [flag_bool flip] in *; (split; [first [reflexivity|exfalso; lia]|]).
    all: destruct Hstep as [[H1 H2]|[H1 H2]]; first [exfalso; lia|left; apply Hmap; lia|right; left; split; [reflexivity|lia]|right; right; split; [reflexivity|lia]].
  Qed.

  Lemma f_of_u128_inj (a b : Amount) : (f_of_u128 a : F) = f_of_u128 b -> a = b.
  Proof. intros H. apply (f_equal zv) in H. rewrite !zv_f_of_u128 in H. apply zmod_ext, H. Qed.
  (** for records with 12-bit reveal maps: what an accepted freeze does to them *)
  Lemma freeze_records d n t x r r' :
    freeze_opens d n t -> In x (fv_pairs t) ->
    derive_record_commitment r = commitment_of (fz_in x) -> derive_record_commitment r' = commitment_of (fz_out x) ->
    commitment_binding [ro_value r; fz_in x; ro_value r'; fz_out x] ->
    amount r' = amount r /\ code (asset_def r') = code (asset_def r) /\ address (pub_key r') = address (pub_key r) /\
    viewer_pk (policy (asset_def r')) = viewer_pk (policy (asset_def r)) /\
    cred_pk (policy (asset_def r')) = cred_pk (policy (asset_def r)) /\
    freezer_pk (policy (asset_def r')) = freezer_pk (policy (asset_def r)) /\
    reveal_threshold (policy (asset_def r')) = reveal_threshold (policy (asset_def r)) /\
    freeze_flag r' = flip (freeze_flag r) /\
    (reveal_map (policy (asset_def r')) = reveal_map (policy (asset_def r)) \/
     freeze_flag r = Unfrozen /\ zv (rm_to_scalar (reveal_map (policy (asset_def r')))) = zv (rm_to_scalar (reveal_map (policy (asset_def r)))) - 1 \/
     freeze_flag r = Frozen /\ zv (rm_to_scalar (reveal_map (policy (asset_def r')))) = zv (rm_to_scalar (reveal_map (policy (asset_def r)))) + 1).
  Proof.
    intros HO HX E E' B.
    destruct (freeze_opens_facts _ _ _ HO) as (nl & nls & rc & rcs & _ & _ & _ & _ & _ & _ & _ & _ & _ & _ & _ & _ & _ & _ & H).
    assert (HP : ro_amount (fz_out x) = ro_amount (fz_in x) /\ ro_owner (fz_out x) = ro_owner (fz_in x) /\
      ro_code (fz_out x) = ro_code (fz_in x) /\ ro_pol (fz_out x) = ro_pol (fz_in x) /\
      (ro_flag (fz_in x) = f0 /\ ro_flag (fz_out x) = f1 \/ ro_flag (fz_in x) = f1 /\ ro_flag (fz_out x) = f0)).
    { clear -H HX. induction H as [|a b c la lb lc HA HF IH]; [destruct HX|]. destruct HX as [<-|HX]; [|apply IH, HX]. tauto. }
    destruct HP as (P1 & P2 & P3 & P4 & P5).
    rewrite <- commitment_of_ro_value in E, E'.
    pose proof (B (ro_value r) (fz_in x) ltac:(cbn; auto) ltac:(cbn; auto) E) as Q.
    pose proof (B (ro_value r') (fz_out x) ltac:(cbn; auto) ltac:(cbn; auto) E') as Q'.
    unfold content in Q, Q'. rewrite P1, P2, P3, P4 in Q'.
    cbn [ro_amount ro_code ro_owner ro_pol ro_flag ro_blind ro_value pol_value po_viewer po_cred po_freezer po_map po_threshold] in Q, Q'.
    apply pair_equal_spec in Q, Q'. destruct Q as [Q _], Q' as [Q' _].
    repeat match goal with H : _ :: _ = _ :: _ |- _ => apply cons_inj in H; let a := fresh "K" in destruct H as [a H] end.
    assert (XY : forall P Q : point, fst (pt_xy P) = fst (pt_xy Q) -> snd (pt_xy P) = snd (pt_xy Q) -> P = Q).
    { intros P Q0 H1 H2. apply (pt_xy_inj L). destruct (pt_xy P), (pt_xy Q0). cbn in *. congruence. }
    destruct (packed_step (po_map (ro_pol (fz_in x))) (reveal_map (policy (asset_def r))) (freeze_flag r)
                (reveal_map (policy (asset_def r'))) (freeze_flag r')) as [S1 S2].
    { destruct P5 as [[F1 F2]|[F1 F2]]; rewrite F1, F2 in *; [left|right]; split; assumption. }
    repeat split; try (apply f_of_u128_inj; congruence); try (apply XY; congruence); try congruence.
  Qed.
End FreezeMap.

(** ** A freeze followed by an unfreeze that clears the reveal map *)
#[local] Existing Instance toy_snark.
#[local] Notation fz := (@Config.fz toy_field).
Definition g_policy (m : list bool) : @AssetPolicy T := @mkPolicy T (s_point true 7) (s_point true 8) (s_point true 9) (s_map m) (s_amount 10).
Definition g_def (m : list bool) : @AssetDefinition T := @mkDef T (fz 1234) (g_policy m).
(** the asset's policy reveals the last identity attribute *)
Definition g_one : list bool := repeat false 11 ++ [true].
Definition g_none : list bool := repeat false 12.
(** a map that stands for [1 - 1/2] while the circuit is built *)
Definition g_mark : list bool := [true; false; true; false; true; false; true; true; true; false; true; true].
Definition g_in : @RecordOpening T := s_ro true 30 (g_def g_one) 12 Unfrozen 101.
Definition g_mid : @RecordOpening T := s_ro true 30 (g_def g_none) 12 Frozen 401.
Definition g_out : @RecordOpening T := s_ro true 30 (g_def g_none) 12 Unfrozen 402.
Definition g_half : @F toy_field := fz ((bn_p + 1) / 2).
Definition g_acc := n_acc true (h_fee true) g_in (h_in2 true).
Definition g_root := n_root true (h_fee true) g_in (h_in2 true).
Definition g_fin (r : @RecordOpening T) a : list (@FreezeNoteInput T) := [@mkFIn T r a (@sz toy_field 9)].
Definition g_fee (a : @AccMemberWitness T) : @TxnFeeInfo T :=
  @mkFeeInfo T (@mkFeeInput T (h_fee true) a (s_user true 11)) (s_amount 5) (s_native true 15 11 200).
(** the witness claims a frozen input and an unfrozen output *)
Definition g_witness : @FreezeWitness T :=
  @freeze_new_unchecked T (g_fin (s_ro true 30 (g_def g_mark) 12 Frozen 101) (g_acc 1)) [s_ro true 30 (g_def g_mark) 12 Unfrozen 401] (g_fee (g_acc 0)).
Definition g_public : res (@FreezePublicInput T) :=
  @freeze_from_witness T (@freeze_new_unchecked T (g_fin g_in (g_acc 1)) [g_mid] (g_fee (g_acc 0))).
Definition g_note : res (@FreezeNote T TS) :=
  let* p := g_public in
  let* s := @freeze_circuit_unchecked T g_witness p in
  let w := reeval true (gates s) (subst_val (@rm_to_scalar T (s_map g_mark)) g_half (wit s)) in
  let vk := @ver_key T (@sz toy_field 301) in
  Ok (@mkFNote T TS (fp_nullifiers p) (fp_commitments p) (w, @ser_verkey T TS vk) (@mkFAux T (fp_root p) (fp_fee p) vk)).
(** [1 - 1/2 = 1/2] in the field *)
Definition g_pol_half (r : @RoV T) (f : @F toy_field) : @RoV T :=
  @mkRoV T (ro_amount r) (ro_code r) (ro_owner r)
    (@mkPolV T (po_viewer (ro_pol r)) (po_cred (ro_pol r)) (po_freezer (ro_pol r)) g_half (po_threshold (ro_pol r))) f (ro_blind r).
Definition g_opening : @FreezeV T :=
  @mkFreezeV T (@ro_value T (h_fee true)) (@place_value T (g_acc 0)) (fz 11) (@ro_value T (s_native true 15 11 200))
    [@mkPairV T (g_pol_half (@ro_value T g_in) (fz 1)) (@place_value T (g_acc 1)) (fz 9) (g_pol_half (@ro_value T g_mid) (fz 0))].
(** then the record is unfrozen through the API *)
Definition g_acc2 := n_acc true (h_fee true) g_mid (h_in2 true).
Definition g_root2 := n_root true (h_fee true) g_mid (h_in2 true).
Definition g_rand : @FreezeRand T TS := @mkFRand T TS (fun i => fz (402 + Z.of_nat i)) (@sz toy_field 301) tt.
Definition g_keys := @freeze_preprocess T TS tt (@sz toy_field 55) 2 2.
Definition g_note2 : res (@FreezeNote T TS * @Fj toy_field * list (@RecordOpening T)) :=
  let* k := g_keys in @freeze_generate T TS g_rand (g_fin g_mid (g_acc2 1)) (g_fee (g_acc2 0)) (fst k).

Lemma reveal_map_cleared :
  exists fk pk vk fee rr r acc n r' acc' n' sk' r'',
    @freeze_preprocess T TS tt (@sz toy_field 55) 2 2 = Ok (pk, vk) /\
    freeze_flag r = Unfrozen /\ @freezer_pub_key T fk = freezer_pk (policy (asset_def r)) /\
    (* the first note spends [r] and creates [r'] *)
    @freeze_verify T TS n vk (@merkle_root_of T (@f_of_u64 toy_field (acc_uid acc)) (@derive_record_commitment T r) (acc_path acc)) = Ok tt /\
    nth_error (fn_nullifiers n) 1 = Some (@freezer_nullify T fk (address (pub_key r)) (acc_uid acc) (@derive_record_commitment T r)) /\
    nth_error (fn_commitments n) 1 = Some (@derive_record_commitment T r') /\
    freeze_flag r' = Frozen /\
    (* the second, made by the API, releases [r'] *)
    @freeze_generate T TS rr [@mkFIn T r' acc' fk] fee pk = Ok (n', sk', [r'']) /\
    @freeze_verify T TS n' vk (@merkle_root_of T (@f_of_u64 toy_field (acc_uid acc')) (@derive_record_commitment T r') (acc_path acc')) = Ok tt /\
    freeze_flag r'' = Unfrozen /\ amount r'' = amount r /\ pub_key r'' = pub_key r /\ code (asset_def r'') = code (asset_def r) /\
    viewer_pk (policy (asset_def r'')) = viewer_pk (policy (asset_def r)) /\
    rm_bit (reveal_map (policy (asset_def r))) 11 = true /\ (forall i, (i < 12)%nat -> rm_bit (reveal_map (policy (asset_def r''))) i = false).
Proof.
  assert (H : get (@freeze_preprocess T TS tt (@sz toy_field 55) 2 2) (fun k => get g_note (fun n => get (@freeze_generate T TS g_rand (g_fin g_mid (g_acc2 1)) (g_fee (g_acc2 0)) (fst k)) (fun n' =>
     done (@freeze_verify T TS n (snd k) (@merkle_root_of T (@f_of_u64 toy_field (acc_uid (g_acc 1))) (@derive_record_commitment T g_in) (acc_path (g_acc 1)))) &&
     done (@freeze_verify T TS (fst (fst n')) (snd k) (@merkle_root_of T (@f_of_u64 toy_field (acc_uid (g_acc2 1))) (@derive_record_commitment T g_mid) (acc_path (g_acc2 1)))) &&
     match fn_nullifiers n with [_; a] => zeqb a (@freezer_nullify T (@sz toy_field 9) (address (pub_key g_in)) (acc_uid (g_acc 1)) (@derive_record_commitment T g_in)) | _ => false end &&
     match fn_commitments n with [_; a] => zeqb a (@derive_record_commitment T g_mid) | _ => false end))) = true) by (vm_compute; reflexivity).
  apply get_ok in H. destruct H as ([pk vk] & Hk & H). apply get_ok in H. destruct H as (n & Hn & H). apply get_ok in H. destruct H as ([[n' sk'] outs] & Hn' & H).
  cbn [fst snd] in *. rewrite !andb_true_iff in H. destruct H as [[[H1 H2] H3] H4]. apply done_ok in H1. apply done_ok in H2.
  assert (HO : outs = [@freeze_flip_ro T (fz 402) g_mid]).
  { destruct (freeze_generate_inv (toy_laws true) _ _ _ _ _ _ _ Hn') as (p & s & G). rewrite (fg_outs _ _ _ _ _ _ _ _ _ G). reflexivity. }
  subst outs. exists (@sz toy_field 9), pk, vk, (g_fee (g_acc2 0)), g_rand, g_in, (g_acc 1), n, g_mid, (g_acc2 1), n', sk', (@freeze_flip_ro T (fz 402) g_mid).
  split; [exact Hk|]. split; [reflexivity|]. split; [apply zmod_ext; vm_compute; reflexivity|]. split; [exact H1|].
  split; [destruct (fn_nullifiers n) as [|a [|b [|? ?]]]; try discriminate H3; apply zeqb_spec in H3; rewrite <- H3; reflexivity|].
  split; [destruct (fn_commitments n) as [|a [|b [|? ?]]]; try discriminate H4; apply zeqb_spec in H4; rewrite <- H4; reflexivity|].
  split; [reflexivity|]. split; [exact Hn'|]. split; [exact H2|].
  split; [reflexivity|]. split; [reflexivity|]. split; [reflexivity|]. split; [reflexivity|]. split; [reflexivity|]. split; [reflexivity|].
  intros i Hi. do 12 (destruct i as [|i]; [reflexivity|]). lia.
Qed.
