(** Property theorems: what memos hide (C54) and what freezing does to a record's policy (C55). *)
From Verif Require Import Base Config Structs Keys Utils Memo Plonk Witness Circuits CircuitLogic Relation CodecProofs PolicyProofs UtilsProofs MemoProofs
  GadgetProofs Snark Notes NoteProofs Accepted Decide CircuitFacts Toy ToySnark Samples NoteSamples Ledger LedgerSpec FreezeMap MemoHide MovedAsset.

(** ** C54: a viewing memo contains only what the policy reveals *)
(** transfers: two transfers of the same asset whose inputs and outputs agree on what the reveal map shows ([inputs_alike],
    [shows_alike] in MemoHide.v), on which inputs are dummies and on whether the threshold is passed have the same memo *)
Theorem C54_transfer_memo_hides (C : CapConfig) (L : CapLaws C) ad ins outs creds ins' outs' creds' r memo memo' :
  moved_asset ins ad -> moved_asset ins' ad ->
  length creds = length ins -> length creds' = length ins' ->
  (above_threshold ad ins <-> above_threshold ad ins') ->
  Forall2 (inputs_alike (reveal_map (policy ad))) (combine (skipn 1 ins) (skipn 1 creds)) (combine (skipn 1 ins') (skipn 1 creds')) ->
  Forall2 (fun a b => asset_def a = ad /\ asset_def b = ad /\ shows_alike (reveal_map (policy ad)) a b) (skipn 1 outs) (skipn 1 outs') ->
  memo_for_transfer_note ins outs creds r = Ok memo -> memo_for_transfer_note ins' outs' creds' r = Ok memo' ->
  memo = memo'.
Proof. intros H H'. exact (transfer_memo_hides L ad ins outs creds ins' outs' creds' r memo memo' (moved_asset_ok L ins ad H) (moved_asset_ok L ins' ad H')). Qed.
Print Assumptions C54_transfer_memo_hides.
(** the sample policy shows addresses, amounts and attribute 0 but no blinding factor and no other attribute: another
    blinding factor, another fee record and other attributes *)
Definition v_cred (owner : Z) (attrs : list Z) : @ExpirableCredential T :=
  let c := s_cred true owner 8 100 in @mkCred T (cr_user_addr c) (map (@fz toy_field) attrs) (cr_expiry c) (cr_cred c) (cr_creator_pk c).
Definition v_ins (fee b : Z) : list (@RecordOpening T) :=
  [s_native true fee 3 4; s_ro true 7 (s_def true) 3 Unfrozen b; s_dummy true b; s_ro true 5 (s_def true) 4 Unfrozen 6].
Definition v_creds (x : Z) : list (@ExpirableCredential T) :=
  [v_cred 3 []; v_cred 3 [101; x; x; x; 5; 6; 7; 8]; v_cred 77 [101; x; 2; 3; 4; 5; 6; 7]; v_cred 4 [102; 1; x; 3; 4; 5; 6; 7]].
Definition v_outs (fee b : Z) : list (@RecordOpening T) := [s_native true fee 3 b; s_ro true 12 (s_def true) 4 Unfrozen b].
Example C54_example :
  @moved_asset T (v_ins 20 5) (s_def true) /\ @moved_asset T (v_ins 30 55) (s_def true) /\
  @above_threshold T (s_def true) (v_ins 20 5) /\ @above_threshold T (s_def true) (v_ins 30 55) /\
  Forall2 (@inputs_alike T (reveal_map (policy (s_def true)))) (combine (skipn 1 (v_ins 20 5)) (skipn 1 (v_creds 11))) (combine (skipn 1 (v_ins 30 55)) (skipn 1 (v_creds 22))) /\
  Forall2 (fun a b => asset_def a = s_def true /\ asset_def b = s_def true /\ @shows_alike T (reveal_map (policy (s_def true))) a b)
    (skipn 1 (v_outs 18 9)) (skipn 1 (v_outs 27 99)) /\
  (exists memo memo', @memo_for_transfer_note T (v_ins 20 5) (v_outs 18 9) (v_creds 11) (@sz toy_field 99) = Ok memo /\
     @memo_for_transfer_note T (v_ins 30 55) (v_outs 27 99) (v_creds 22) (@sz toy_field 99) = Ok memo').
Proof.
  assert (A : forall c c', length (cr_attrs c) = length (cr_attrs c') -> nth_error (@cr_attrs T c) 0 = nth_error (cr_attrs c') 0 ->
                @attrs_alike T (reveal_map (policy (s_def true))) c c').
  { intros c c' H H0. split; [exact H|]. intros i Hb. destruct i as [|i]; [exact H0|]. exfalso. do 7 (destruct i as [|i]; [discriminate Hb|]).
    cbn [Nat.add] in Hb. unfold rm_bit in Hb. rewrite nth_overflow in Hb; [discriminate Hb|]. rewrite rm_length. unfold VIEWABLE_DATA_LEN. lia. }
  assert (B : forall a b, pub_key a = pub_key b -> @amount T a = amount b -> @shows_alike T (reveal_map (policy (s_def true))) a b).
  { intros a b H1 H2. split; [intros _; rewrite H1; reflexivity|]. split; [auto|]. intros H. discriminate H. }
  assert (D : forall r0 r1 rest, asset_def r0 = @asset_def_native T -> @is_dummy_def T (asset_def r1) = false ->
                @moved_asset T (r0 :: r1 :: rest) (asset_def r1)).
  { intros r0 r1 rest H1 H2. exists r0, (r1 :: rest). split; [reflexivity|]. split; [exact H1|]. left. exists [], r1, rest. split; [reflexivity|].
    split; [intros y []|]. split; [|reflexivity]. intros E. apply (is_dummy_iff (toy_laws true)) in E. rewrite E in H2. discriminate H2. }
  split; [apply (D (s_native true 20 3 4) (s_ro true 7 (s_def true) 3 Unfrozen 5)); [reflexivity|vm_compute; reflexivity]|].
  split; [apply (D (s_native true 30 3 4) (s_ro true 7 (s_def true) 3 Unfrozen 55)); [reflexivity|vm_compute; reflexivity]|].
  split; [unfold above_threshold; vm_compute; reflexivity|]. split; [unfold above_threshold; vm_compute; reflexivity|].
  split; [|split].
  - repeat constructor; cbn [fst snd]; auto; try (intros E; exfalso; apply (f_equal (fun d => zv (code d))) in E; vm_compute in E; discriminate E);
      try (apply A; reflexivity); try (apply B; reflexivity).
  - constructor; [|constructor]. split; [reflexivity|]. split; [reflexivity|]. apply B; reflexivity.
  - assert (H : is_ok (@memo_for_transfer_note T (v_ins 20 5) (v_outs 18 9) (v_creds 11) (@sz toy_field 99)) &&
                is_ok (@memo_for_transfer_note T (v_ins 30 55) (v_outs 27 99) (v_creds 22) (@sz toy_field 99)) = true) by (vm_compute; reflexivity).
    apply andb_true_iff in H. destruct H as [H1 H2].
    destruct (@memo_for_transfer_note T (v_ins 20 5) (v_outs 18 9) (v_creds 11) (@sz toy_field 99)) as [m|e|]; [|discriminate H1|discriminate H1].
    destruct (@memo_for_transfer_note T (v_ins 30 55) (v_outs 27 99) (v_creds 22) (@sz toy_field 99)) as [m'|e|]; [|discriminate H2|discriminate H2].
    exists m, m'. split; reflexivity.
Qed.
(** mints: whatever the reveal map, the viewer decrypts the owner's address and the blinding factor *)
Theorem C54_mint_memo_shows_all_refuted (C : CapConfig) (L : CapLaws C) (ro : RecordOpening) (r : Fj) (kp : ViewerKeyPair) :
  viewer_pub_key kp = viewer_pk (policy (asset_def ro)) -> viewer_pk (policy (asset_def ro)) <> pt_id ->
  elgamal_decrypt kp (vm_ephemeral (memo_for_mint_note ro r), vm_data (memo_for_mint_note ro r)) =
  [fst (pt_xy (address (pub_key ro))); snd (pt_xy (address (pub_key ro))); blind ro].
Proof. exact (mint_memo_plaintext L ro r kp). Qed.
Print Assumptions C54_mint_memo_shows_all_refuted.
(** so two mints that differ only in what a map without any revealed bit hides have different memos *)
Theorem C54_mint_memo_hides_refuted : exists (C : CapConfig) (L : CapLaws C) (a b : RecordOpening) (r : Fj),
  viewer_pk (policy (asset_def a)) <> pt_id /\ (forall i, rm_bit (reveal_map (policy (asset_def a))) i = false) /\
  asset_def a = asset_def b /\ amount a = amount b /\ shows_alike (reveal_map (policy (asset_def a))) a b /\
  memo_for_mint_note a r <> memo_for_mint_note b r.
Proof.
  exists T, (toy_laws true), (s_ro true 30 (g_def g_none) 12 Unfrozen 1), (s_ro true 30 (g_def g_none) 12 Unfrozen 2), (@sz toy_field 5).
  split; [intros E; apply (f_equal zv) in E; vm_compute in E; discriminate E|].
  split; [intros i; do 12 (destruct i as [|i]; [reflexivity|]); unfold rm_bit; rewrite nth_overflow; [reflexivity|rewrite rm_length; unfold VIEWABLE_DATA_LEN; lia]|].
  split; [reflexivity|]. split; [reflexivity|]. split; [split; [reflexivity|split; [reflexivity|discriminate]]|].
  intros E. apply (f_equal (fun m => map zv (vm_data m))) in E. vm_compute in E. discriminate E.
Qed.
Print Assumptions C54_mint_memo_hides_refuted.

(** ** C55: freezing keeps the record's policy *)
(** [r] and [r'] are any records with the commitments of a frozen pair.  Everything but the blinding factor, the
    encryption key and the flag is kept, except that the reveal map may move by one (as a 12-bit number): down when the
    record is frozen, up when it is released. *)
Theorem C55_frozen_pair (C : CapConfig) (L : CapLaws C) (S : Snark C) d n t x r r' :
  freeze_opens d n t -> In x (fv_pairs t) ->
  derive_record_commitment r = commitment_of (fz_in x) -> derive_record_commitment r' = commitment_of (fz_out x) ->
  commitment_binding [ro_value r; fz_in x; ro_value r'; fz_out x] ->
  amount r' = amount r /\ code (asset_def r') = code (asset_def r) /\ address (pub_key r') = address (pub_key r) /\
  viewer_pk (policy (asset_def r')) = viewer_pk (policy (asset_def r)) /\
  cred_pk (policy (asset_def r')) = cred_pk (policy (asset_def r)) /\
  freezer_pk (policy (asset_def r')) = freezer_pk (policy (asset_def r)) /\
  reveal_threshold (policy (asset_def r')) = reveal_threshold (policy (asset_def r)) /\
  freeze_flag r' = flip (freeze_flag r) /\
  (reveal_map (policy (asset_def r')) = reveal_map (policy (asset_def r)) \/
   freeze_flag r = Unfrozen /\ zv (rm_to_scalar (reveal_map (policy (asset_def r')))) = zv (rm_to_scalar (reveal_map (policy (asset_def r)))) - 1 \/
   freeze_flag r = Frozen /\ zv (rm_to_scalar (reveal_map (policy (asset_def r')))) = zv (rm_to_scalar (reveal_map (policy (asset_def r)))) + 1).
Proof. exact (freeze_records L d n t x r r'). Qed.
Print Assumptions C55_frozen_pair.
(** the two records of the honest sample note *)
Example C55_example : exists n sk outs x r',
  h_freeze true = Ok (n, sk, outs) /\ @freeze_opens T TS 2 n (f_opening 15) /\ In x (fv_pairs (f_opening 15)) /\
  @derive_record_commitment T (h_in1 true) = @commitment_of T (fz_in x) /\ @derive_record_commitment T r' = @commitment_of T (fz_out x) /\
  @commitment_binding T [@ro_value T (h_in1 true); fz_in x; @ro_value T r'; fz_out x].
Proof.
  destruct h_freeze_good as (n & sk & outs & H1 & _ & H2).
  set (r' := @freeze_flip_ro T (@fz toy_field 400) (h_in1 true)).
  exists n, sk, outs, (@mkPairV T (@ro_value T (h_in1 true)) (@place_value T (h_acc true 1)) (@fz toy_field 9) (@ro_value T r')), r'.
  split; [exact H1|]. split; [exact H2|]. split; [left; reflexivity|]. cbn [fz_in fz_out].
  split; [symmetry; apply commitment_of_ro_value|]. split; [symmetry; apply commitment_of_ro_value|].
  intros a b [<-|[<-|[<-|[<-|[]]]]] [<-|[<-|[<-|[<-|[]]]]]; try (intros _; reflexivity);
    (intros E; exfalso; revert E; apply zeqb_neq; vm_compute; reflexivity).
Qed.
(** The reveal map does change: a record whose policy shows attribute 8 is frozen by one note and released by a second,
    honest one, and then has a policy that shows nothing. *)
Theorem C55_reveal_map_kept_refuted :
  exists fk pk vk fee rr r acc n r' acc' n' sk' r'',
    @freeze_preprocess T TS tt (@sz toy_field 55) 2 2 = Ok (pk, vk) /\
    freeze_flag r = Unfrozen /\ @freezer_pub_key T fk = freezer_pk (policy (asset_def r)) /\
    (* the first note spends [r] and creates [r'] *)
    @freeze_verify T TS n vk (@merkle_root_of T (@f_of_u64 toy_field (acc_uid acc)) (@derive_record_commitment T r) (acc_path acc)) = Ok tt /\
    nth_error (fn_nullifiers n) 1 = Some (@freezer_nullify T fk (address (pub_key r)) (acc_uid acc) (@derive_record_commitment T r)) /\
    nth_error (fn_commitments n) 1 = Some (@derive_record_commitment T r') /\
    freeze_flag r' = Frozen /\
    (* the second, made by the API, releases [r'] *)
    @freeze_generate T TS rr [@mkFIn T r' acc' fk] fee pk = Ok (n', sk', [r'']) /\
    @freeze_verify T TS n' vk (@merkle_root_of T (@f_of_u64 toy_field (acc_uid acc')) (@derive_record_commitment T r') (acc_path acc')) = Ok tt /\
    freeze_flag r'' = Unfrozen /\ amount r'' = amount r /\ pub_key r'' = pub_key r /\ code (asset_def r'') = code (asset_def r) /\
    viewer_pk (policy (asset_def r'')) = viewer_pk (policy (asset_def r)) /\
    rm_bit (reveal_map (policy (asset_def r))) 11 = true /\ (forall i, (i < 12)%nat -> rm_bit (reveal_map (policy (asset_def r''))) i = false).
Proof. exact reveal_map_cleared. Qed.
Print Assumptions C55_reveal_map_kept_refuted.
