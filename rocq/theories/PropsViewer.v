(** C61: what the viewer of the integration test reads from accepted notes, whoever made them. *)
From Verif Require Import Base Config Structs Keys Utils Memo MemoProofs Plonk Witness Circuits Relation CircuitLogic GadgetProofs StructGadgetProofs
  TransferCircuitProofs Snark Notes Serde Ledger Wallet Roles.
From Verif Require Import Security Accepted Decide RolesView RolesViewer CircuitFacts Toy ToySnark Samples NoteSamples ViewerSamples.
#[local] Existing Instance toy_snark.
#[local] Open Scope Z_scope.

(** An accepted transfer of the viewer's asset above the threshold, to addresses that are points: the scan returns the
    inputs that are no padding and, for every output after the fee change, the entry of the record behind the commitment
    and the position of that commitment. *)
Theorem C61_transfer_seen (C : CapConfig) (L : CapLaws C) (S : Snark C) (SL : SnarkLaws S) n_in n_out d n root ts :
  transfer_accepted n_in n_out d n root ts ->
  (exists t, transfer_opens d n t) /\
  forall t (v : Viewer) off, transfer_opens d n t ->
    tv_code t = code (vw_def v) -> tv_pol t = pol_value (policy (vw_def v)) ->
    viewer_pub_key (vw_kp v) = viewer_pk (policy (vw_def v)) -> viewer_pk (policy (vw_def v)) <> pt_id ->
    rm_bit (reveal_map (policy (vw_def v))) 0 = rm_bit (reveal_map (policy (vw_def v))) 1 ->
    Forall (fun i => zv (ro_amount (in_ro i)) < 2 ^ 128) (tl (tv_ins t)) ->
    zv (reveal_threshold (policy (vw_def v))) < isum (tl (in_amounts t)) ->
    Z.of_nat (1 + 12 * n_in + 4 * n_out) < 2 ^ 64 ->
    (forall o, In o (tl (tv_outs t)) -> exists P, ro_owner o = pt_xy P) ->
    exists ins xs outs, viewer_scan_xfr v n off = Ok (ins, outs) /\
      length outs = length (tl (tv_outs t)) /\ length outs = length (tl (tn_commitments n)) /\
      (forall i o, nth_error (tl (tv_outs t)) i = Some o -> exists r, ro_value r = o /\ shown_output v n off outs i r) /\
      Forall2 stands_for_input xs (real_inputs t) /\
      ((forall i, In i (real_inputs t) -> ro_owner (in_ro i) <> no_key) ->
       ins = map (fun x => entry (vw_def v) (fst x) (shown_attrs (vw_def v) (snd x))) xs).
Proof.
  intros HA. destruct (transfer_accepted_opens L SL _ _ _ _ _ _ HA) as (_ & _ & _ & t0 & H0). split; [exists t0; exact H0|].
  intros t v off HO H1 H2 H3 H4 H5 H6 H7 H8 H9. destruct HA as (g & pk & vk & _ & _ & <- & <-).
  exact (scan_shows L d n t v off HO H1 H2 H3 H4 H5 H6 H7 H8 H9).
Qed.
Print Assumptions C61_transfer_seen.

(** An accepted mint under the viewer's key to an address that is a point and not the identity *)
Theorem C61_mint_seen (C : CapConfig) (L : CapLaws C) (S : Snark C) (SL : SnarkLaws S) d n root :
  mint_accepted d n root ->
  (exists t, mint_opens d n t) /\
  forall t (v : Viewer) P off, mint_opens d n t -> viewer_pub_key (vw_kp v) = viewer_pk (policy (mn_def n)) -> viewer_pk (policy (mn_def n)) <> pt_id ->
    ro_owner (mv_mint t) = pt_xy P -> P <> pt_id ->
    exists r, viewer_scan_mint v n off = Ok (entry (mn_def n) r [], w64 (Z.of_nat (off + 1))) /\
      ro_value r = mv_mint t /\ asset_def r = mn_def n /\ freeze_flag r = Unfrozen /\ amount r = mn_amount n /\ address (pub_key r) = P /\
      derive_record_commitment r = mn_mint n.
Proof.
  intros HA. destruct (mint_accepted_opens SL _ _ _ HA) as (_ & _ & _ & t0 & H0). split; [exists t0; exact H0|].
  intros t v P off HO H1 H2 H3 H4. exact (scan_mint_shows L d n t v P off HO H1 H2 H3 H4).
Qed.
Print Assumptions C61_mint_seen.

(** *** Without the condition on addresses this fails: an output of amount 0 to coordinates that are no point makes the
    whole transfer unreadable, and the validator accepts it *)
Theorem C61_every_transfer_seen_refuted :
  exists n t, @transfer_accepted T TS 2 3 2 n h_root (w64 500) /\ @transfer_opens T TS 2 n t /\
    tv_code t = code (vw_def vs_viewer) /\ tv_pol t = @pol_value T (policy (vw_def vs_viewer)) /\
    @viewer_pub_key T (vw_kp vs_viewer) = viewer_pk (policy (vw_def vs_viewer)) /\ viewer_pk (policy (vw_def vs_viewer)) <> @pt_id T /\
    rm_bit (reveal_map (policy (vw_def vs_viewer))) 0 = rm_bit (reveal_map (policy (vw_def vs_viewer))) 1 /\
    Forall (fun i => zv (ro_amount (in_ro i)) < 2 ^ 128) (tl (tv_ins t)) /\
    zv (reveal_threshold (policy (vw_def vs_viewer))) < @isum T (tl (@in_amounts T t)) /\
    map (fun o => zv (ro_amount o)) (tl (tv_outs t)) = [30; 0] /\
    forall off, viewer_scan_xfr vs_viewer n off = Err FailedViewableMemoDecryption.
Proof.
  assert (H : get vs_forged (fun n => transfer_good 2 3 2 h_root (w64 500) vs_opening n &&
     match @open_transfer_viewing_memo T (vw_kp vs_viewer) (vw_def vs_viewer) (length (tn_nullifiers n)) (length (tn_commitments n)) (tn_memo n) with
     | Err FailedViewableMemoDecryption => true | _ => false end) = true) by (vm_compute; reflexivity).
  apply get_ok in H. destruct H as (n & _ & H). apply andb_true_iff in H. destruct H as [H HE]. apply transfer_good_ok in H. destruct H as [HA HO].
  exists n, vs_opening. split; [exact HA|]. split; [exact HO|].
  assert (G : vs_hyp vs_opening = true) by (vm_compute; reflexivity). unfold vs_hyp, vs_about in G. rewrite !andb_true_iff in G. destruct G as [[[G1 G2] G3] _].
  split; [apply zeqb_spec, G1|]. split; [reflexivity|]. split; [reflexivity|]. split; [intros K; apply (f_equal zv) in K; vm_compute in K; discriminate K|].
  split; [vm_compute; reflexivity|].
  split; [apply Forall_forall; intros i Hi; rewrite forallb_forall in G3; apply Z.ltb_lt, G3, Hi|]. split; [apply Z.ltb_lt, G2|].
  split; [vm_compute; reflexivity|]. intros off. unfold viewer_scan_xfr.
  destruct HA as (g & pk & vk & _ & _ & E1 & E2). rewrite E1, E2 in *. cbn [usize_pred bind].
  destruct (open_transfer_viewing_memo _ _ _ _ _) as [|[]|]; try discriminate HE. reflexivity.
Qed.
Print Assumptions C61_every_transfer_seen_refuted.

(** *** What a viewer reads need not be true: the memo of an accepted transfer of an asset without viewer may claim a
    transfer of 1000 units of the viewer's asset *)
Theorem C61_reads_truth_refuted :
  exists n t d, @transfer_accepted T TS 2 2 2 n vb_root (w64 500) /\ @transfer_opens T TS 2 n t /\
    Forall (fun i => ro_code (in_ro i) <> code (vw_def vs_viewer)) (tv_ins t) /\ Forall (fun o => ro_code o <> code (vw_def vs_viewer)) (tv_outs t) /\
    viewer_scan_xfr vs_viewer n 0 = Ok (fst d, snd d) /\
    vs_amounts (viewer_scan_xfr vs_viewer n 0) = ([1000], [(1000, 1)]) /\ Forall (fun x => vd_asset_code (fst x) = code (vw_def vs_viewer)) (snd d).
Proof.
  assert (H : get vb_forged (fun n => transfer_good 2 2 2 vb_root (w64 500) (@transfer_value T vb_witness) n &&
     match vs_amounts (@viewer_scan_xfr T TS vs_viewer n 0) with ([1000], [(1000, 1)]) => true | _ => false end &&
     get (@viewer_scan_xfr T TS vs_viewer n 0) (fun x => forallb (fun y => zeqb (vd_asset_code (fst y)) (code (vw_def vs_viewer))) (snd x))) = true)
    by (vm_compute; reflexivity).
  apply get_ok in H. destruct H as (n & _ & H). apply andb_true_iff in H. destruct H as [H HC]. apply andb_true_iff in H. destruct H as [H HV]. apply transfer_good_ok in H. destruct H as [HA HO].
  apply get_ok in HC. destruct HC as ([ins outs] & ES & HC). exists n, (@transfer_value T vb_witness), (ins, outs).
  split; [exact HA|]. split; [exact HO|].
  assert (G : forallb (fun i => negb (zeqb (ro_code (in_ro i)) (code (vw_def vs_viewer)))) (tv_ins (@transfer_value T vb_witness)) &&
              forallb (fun o => negb (zeqb (ro_code o) (code (vw_def vs_viewer)))) (tv_outs (@transfer_value T vb_witness)) = true) by (vm_compute; reflexivity).
  apply andb_true_iff in G. destruct G as [G1 G2]. rewrite forallb_forall in G1, G2.
  split; [apply Forall_forall; intros i Hi; specialize (G1 i Hi); apply negb_true_iff in G1; apply zeqb_neq in G1; exact G1|].
  split; [apply Forall_forall; intros i Hi; specialize (G2 i Hi); apply negb_true_iff in G2; apply zeqb_neq in G2; exact G2|].
  split; [exact ES|]. split.
  - destruct (vs_amounts _) as [a b]. clear -HV.
    assert (X : ((if list_eq_dec Z.eq_dec a [1000] then true else false) && (if list_eq_dec (fun x y : Z * Z => ltac:(decide equality; apply Z.eq_dec)) b [(1000, 1)] then true else false)) = true).
    { repeat (match type of HV with context [match ?x with _ => _ end] => destruct x; try discriminate HV end). reflexivity. }
    apply andb_true_iff in X. destruct X as [X1 X2]. destruct (list_eq_dec _ a _); [|discriminate X1]. destruct (list_eq_dec _ b _); [|discriminate X2]. subst. reflexivity.
  - apply Forall_forall. intros x Hx. rewrite forallb_forall in HC. apply zeqb_spec, HC, Hx.
Qed.
Print Assumptions C61_reads_truth_refuted.

(** the honest transfer of 30 units to two receivers, read by the holder of the viewer key at offset 5 *)
Example C61_example :
  exists n sk, h_transfer true = Ok (n, sk) /\ @transfer_accepted T TS 2 3 2 n h_root (w64 500) /\ @transfer_opens T TS 2 n h_opening /\
    tv_code h_opening = code (vw_def vs_viewer) /\ tv_pol h_opening = @pol_value T (policy (vw_def vs_viewer)) /\
    @viewer_pub_key T (vw_kp vs_viewer) = viewer_pk (policy (vw_def vs_viewer)) /\
    vs_hyp h_opening = true /\ vs_on_curve h_opening = true /\
    vs_amounts (viewer_scan_xfr vs_viewer n 5) = ([30], [(18, 6); (12, 7)]).
Proof.
  assert (H : get (h_transfer true) (fun n => transfer_good 2 3 2 h_root (w64 500) h_opening (fst n)) = true) by (vm_compute; reflexivity).
  apply get_ok in H. destruct H as ([n sk] & E & H). cbn [fst] in H. apply transfer_good_ok in H. destruct H as [HA HO].
  exists n, sk. split; [exact E|]. split; [exact HA|]. split; [exact HO|]. split; [apply zeqb_spec; vm_compute; reflexivity|]. split; [apply polv_eqb_ok; vm_compute; reflexivity|].
  split; [reflexivity|]. split; [vm_compute; reflexivity|]. split; [vm_compute; reflexivity|].
  assert (V : match h_transfer true with Ok x => vs_amounts (@viewer_scan_xfr T TS vs_viewer (fst x) 5) | _ => ([], []) end = ([30], [(18, 6); (12, 7)])) by (vm_compute; reflexivity).
  rewrite E in V. exact V.
Qed.
