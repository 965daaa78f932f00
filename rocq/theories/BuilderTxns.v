(** A generated list of transactions verifies. *)
From Verif Require Import Base Config Structs Keys Utils Memo Plonk Witness Circuits Relation CodecProofs PolicyProofs UtilsProofs Snark
  Notes NoteProofs NoteThms NoteFacts NoteLive2 Serde Ledger Wallet WalletProofs WalletPay Builder BuilderSpec BuilderLive BuilderProofs
  BuilderChain BuilderRand BuilderOther.

Section BuilderTxns.
  Context {C : CapConfig} {S : Snark C} {K : @RoCodec C} {E : MemoSer C} (L : CapLaws C) (SL : SnarkLaws S).

  (** ** Freezes *)
  Lemma fcalls_ready : forall l b b', fb_shape b -> fb_room b -> (fb_depth b < 256)%nat -> fcalls l b = Ok b' ->
    freeze_ready b (tree_root (fb_depth b) (fb_leaves b)) ->
    fb_shape b' /\ fb_room b' /\ freeze_ready b' (tree_root (fb_depth b') (fb_leaves b')) /\ fb_depth b' = fb_depth b /\ fb_fee b' = fb_fee b /\
    map zi_kp (fb_inputs b') = map zi_kp (fb_inputs b) /\ fi_kp (fb_fee_in b') = fi_kp (fb_fee_in b) /\
    map (fun i => pub_key (zi_ro i)) (fb_inputs b') = map (fun i => pub_key (zi_ro i)) (fb_inputs b) /\
    ((forall a, ~ In (FFeeAmount a) l) -> amount (fb_fee_ro b') = amount (fb_fee_ro b)).
  Proof.
    induction l as [|c l IH]; intros b b' Sh Ro HD H FR; cbn [fcalls] in H.
    - injection H as <-. repeat (split; [assumption||reflexivity|]). reflexivity.
    - apply bind_inv in H. destruct H as (b1 & H1 & H). destruct (fcall_ready _ _ _ Sh Ro HD H1) as (A1 & A2 & A3 & A4 & A5 & A6 & A7 & A8 & A9).
      destruct (IH _ _ A1 A2 ltac:(rewrite A4; exact HD) H A3) as (B1 & B2 & B3 & B4 & B5 & B6 & B7 & B8 & B9).
      split; [exact B1|]. split; [exact B2|]. split; [exact B3|]. split; [congruence|]. split; [congruence|]. split; [congruence|]. split; [congruence|]. split; [congruence|].
      intros N. rewrite B9 by (intros a G; apply (N a); right; exact G). rewrite A9. destruct c as [i f|a]; [reflexivity|]. destruct (N a). left; reflexivity.
  Qed.
  Lemma fold_fcalls (flags : nat -> bool) : forall l m, fold_left (fun acc i => let* b := acc in if flags i then fb_update_input_freeze_flag i Frozen b else Ok b) l m =
    let* b := m in fcalls (map (fun i => FInputFlag i Frozen) (filter flags l)) b.
  Proof.
    induction l as [|i l IH]; intros m; cbn [fold_left filter map]; [destruct m; reflexivity|]. rewrite IH. destruct m as [b| |]; cbn [bind]; try reflexivity.
    destruct (flags i); cbn [map fcalls fcall bind]; [|reflexivity]. destruct (fb_update_input_freeze_flag i Frozen b); reflexivity.
  Qed.
  Lemma freeze_users s : forall l i x, In x (freeze_inputs s i l) -> exists n, pub_key (zi_ro x) = user_pub_key (fs_user s n).
  Proof. induction l as [|[a k] l IH]; intros i x; cbn [freeze_inputs]; [intros []|]. intros [<-|H]; [exists i; reflexivity|exact (IH _ _ H)]. Qed.
  Lemma fb_rand_ready s flags depth amounts fee_in fee fee_kp kps b : fb_rand s flags depth amounts fee_in fee fee_kp kps = Ok b ->
    (depth < 256)%nat -> Z.of_nat (length kps) + 1 < 2 ^ 64 -> Z.of_nat (length kps) + 1 <= 3 ^ Z.of_nat depth ->
    fb_shape b /\ freeze_ready b (tree_root depth (fb_leaves b)) /\ fb_depth b = depth /\ fb_fee b = fee /\ map zi_kp (fb_inputs b) = kps /\
    amount (fb_fee_ro b) = fee_in /\ forall x, In x (fb_inputs b) -> exists n, pub_key (zi_ro x) = user_pub_key (fs_user s n).
  Proof.
    intros H HD R1 R2. unfold fb_rand in H. destruct (Nat.eqb_spec (length kps) 0) as [|N]; [discriminate|]. apply bind_inv in H. destruct H as (b0 & H0 & H).
    rewrite fold_fcalls in H. cbn [bind] in H.
    destruct (fb_new_ready _ _ _ _ _ _ _ _ H0 ltac:(intros ->; apply N; reflexivity) HD R1 R2) as (A1 & A2 & A3 & A4 & A5 & A6 & A7 & A8 & A9).
    destruct (fcalls_ready _ _ _ A1 A2 ltac:(rewrite A4; exact HD) H ltac:(rewrite A4; exact A3)) as (B1 & B2 & B3 & B4 & B5 & B6 & B7 & B8 & B9).
    split; [exact B1|]. split; [rewrite B4, A4 in B3; exact B3|]. split; [congruence|]. split; [congruence|]. split; [congruence|]. split.
    - rewrite B9; [exact A7|]. intros a G. apply in_map_iff in G. destruct G as (i & G & _). discriminate.
    - intros x Hx. apply In_nth_error in Hx. destruct Hx as (j & Hx).
      destruct (nth_map_ro (fun i => pub_key (zi_ro i)) _ _ _ _ B8 Hx) as (y & Y1 & Y2).
      destruct (nth_map_ro zi_ro _ _ _ _ A9 Y1) as (z & Z1 & Z2).
      destruct (freeze_users _ _ _ _ (nth_error_In _ _ Z1)) as (n & G). exists n. congruence.
  Qed.

  (** ** Offsets *)
  Lemma flat_map_length {A B} (f : A -> list B) l : length (flat_map f l) = fold_right (fun x n => (length (f x) + n)%nat) 0%nat l.
  Proof. induction l as [|x l IH]; [reflexivity|]. cbn [flat_map fold_right]. rewrite app_length, IH. reflexivity. Qed.
  Lemma nth_mid {A} (pre m post : list A) i x : nth_error m i = Some x -> nth_error (pre ++ m ++ post) (length pre + i) = Some x.
  Proof.
    intros H. rewrite nth_error_app2 by lia. replace (length pre + i - length pre)%nat with i by lia.
    rewrite nth_error_app1 by (apply nth_error_Some; congruence). exact H.
  Qed.

  Definition located (depth : nat) (leaves : list F) (b b' : TransferBuilder) : Prop :=
    exists accs, b' = tb_set_accs b accs (tree_root depth leaves) /\ length accs = length (tb_accs b) /\
      forall i r a, nth_error (tb_ins b) i = Some r -> nth_error accs i = Some a -> proves depth (tree_root depth leaves) r a.
  Lemma offset_transfers_spec depth leaves : Z.of_nat (length leaves) < 2 ^ 64 -> Z.of_nat (length leaves) <= 3 ^ Z.of_nat depth ->
    forall bs pre post r, leaves = pre ++ flat_map (fun b => map derive_record_commitment (tb_ins b)) bs ++ post ->
      offset_transfers depth leaves (length pre) bs = Ok r ->
      snd r = length (pre ++ flat_map (fun b => map derive_record_commitment (tb_ins b)) bs) /\ Forall2 (located depth leaves) bs (fst r).
  Proof.
    intros H64 Hcap. induction bs as [|b bs IH]; intros pre post r HL H; cbn [offset_transfers] in H.
    - injection H as <-. cbn [fst snd flat_map]. rewrite app_nil_r. auto.
    - apply bind_inv in H. destruct H as (b1 & H1 & H). apply bind_inv in H. destruct H as (r' & H2 & H). injection H as <-. cbn [fst snd].
      cbn [flat_map] in HL. set (m := map derive_record_commitment (tb_ins b)) in *.
      assert (HL2 : leaves = (pre ++ m) ++ flat_map (fun b => map derive_record_commitment (tb_ins b)) bs ++ post) by (rewrite HL, <- !app_assoc; reflexivity).
      destruct (IH (pre ++ m) post r' HL2) as [I1 I2]; [rewrite app_length; unfold m; rewrite map_length; exact H2|].
      split; [rewrite I1; cbn [flat_map]; rewrite app_assoc; reflexivity|]. constructor; [|exact I2].
      apply update_accs_spec in H1. destruct H1 as (accs & l & -> & HP & Hl & ->). destruct (put_accs_spec _ _ _ _ _ _ HP) as (P1 & P2 & P3).
      exists accs. split; [reflexivity|]. split; [exact P1|]. intros i x a Hx Ha.
      assert (Hi : (i < length (tb_ins b))%nat) by (apply nth_error_Some; congruence).
      destruct (P2 i _ (uids_from_nth (length pre) _ i Hi)) as (a' & A1 & A2). change (0 + i)%nat with i in A1. rewrite Ha in A1. injection A1 as <-.
      refine (proj2 (lookup_proves depth leaves (length pre + i) x a H64 Hcap _ A2)). rewrite HL, <- app_assoc. apply nth_mid. unfold m. rewrite nth_error_map, Hx. reflexivity.
  Qed.
  Definition mlocated (depth : nat) (leaves : list F) (b b' : MintBuilder) : Prop :=
    exists a, b' = mb_set_acc b a /\ proves depth (tree_root depth leaves) (mb_fee_ro b) a.
  Lemma offset_mints_spec depth leaves : Z.of_nat (length leaves) < 2 ^ 64 -> Z.of_nat (length leaves) <= 3 ^ Z.of_nat depth ->
    forall bs pre post r, leaves = pre ++ map (fun b => derive_record_commitment (mb_fee_ro b)) bs ++ post ->
      offset_mints depth leaves (length pre) bs = Ok r ->
      snd r = length (pre ++ map (fun b => derive_record_commitment (mb_fee_ro b)) bs) /\ Forall2 (mlocated depth leaves) bs (fst r).
  Proof.
    intros H64 Hcap. induction bs as [|b bs IH]; intros pre post r HL H; cbn [offset_mints] in H.
    - injection H as <-. cbn [fst snd map]. rewrite app_nil_r. auto.
    - apply bind_inv in H. destruct H as (b1 & H1 & H). apply bind_inv in H. destruct H as (r' & H2 & H). injection H as <-. cbn [fst snd].
      cbn [map] in HL. set (m := [derive_record_commitment (mb_fee_ro b)]).
      assert (HL2 : leaves = (pre ++ m) ++ map (fun b => derive_record_commitment (mb_fee_ro b)) bs ++ post) by (rewrite HL; unfold m; rewrite <- !app_assoc; reflexivity).
      destruct (IH (pre ++ m) post r' HL2) as [I1 I2]; [rewrite app_length; exact H2|].
      split; [rewrite I1; cbn [map]; unfold m; rewrite <- app_assoc; reflexivity|]. constructor; [|exact I2].
      unfold mb_update_acc in H1. apply bind_inv in H1. destruct H1 as (a & Ha & H1). injection H1 as <-. exists a. split; [reflexivity|].
      refine (proj2 (lookup_proves depth leaves (length pre) (mb_fee_ro b) a H64 Hcap _ Ha)). rewrite HL, <- (Nat.add_0_r (length pre)).
      change (derive_record_commitment (mb_fee_ro b) :: map (fun b => derive_record_commitment (mb_fee_ro b)) bs) with (m ++ map (fun b => derive_record_commitment (mb_fee_ro b)) bs).
      rewrite <- app_assoc. apply nth_mid. reflexivity.
  Qed.
  Definition flocated (depth : nat) (leaves : list F) (b b' : FreezeBuilder) : Prop :=
    freeze_ready b' (tree_root depth leaves) /\ fb_depth b' = fb_depth b /\ fb_fee b' = fb_fee b /\ map zi_ro (fb_inputs b') = map zi_ro (fb_inputs b) /\
    map zi_kp (fb_inputs b') = map zi_kp (fb_inputs b) /\ fb_fee_ro b' = fb_fee_ro b.
  Lemma offset_freezes_spec depth leaves : Z.of_nat (length leaves) < 2 ^ 64 -> Z.of_nat (length leaves) <= 3 ^ Z.of_nat depth -> (depth < 256)%nat ->
    forall bs pre post r, (forall b, In b bs -> fb_shape b /\ fb_depth b = depth) ->
      leaves = pre ++ flat_map (fun b => fb_leaves b) bs ++ post ->
      offset_freezes depth leaves (length pre) bs = Ok r -> Forall2 (flocated depth leaves) bs (fst r).
  Proof.
    intros H64 Hcap HD. induction bs as [|b bs IH]; intros pre post r HS HL H; cbn [offset_freezes] in H.
    - injection H as <-. constructor.
    - cbv zeta in H. apply bind_inv in H. destruct H as (b1 & H1 & H). apply bind_inv in H. destruct H as (r' & H2 & H). injection H as <-. cbn [fst snd].
      cbn [flat_map] in HL. destruct (HS b (or_introl eq_refl)) as [Sh Dp].
      assert (HL2 : leaves = (pre ++ fb_leaves b) ++ flat_map (fun b => fb_leaves b) bs ++ post) by (rewrite HL, <- !app_assoc; reflexivity).
      constructor; [|apply (IH (pre ++ fb_leaves b) post); [intros x Hx; apply HS; right; exact Hx|exact HL2|]].
      + apply (fb_updated depth leaves _ _ (length pre)) in H1; auto.
        * destruct H1 as (U1 & U2 & U3 & U4 & U5 & U6 & U7 & U8 & U9 & U10). split; [|auto]. apply (fb_shape_ready _ _ _ (length pre)); auto; [rewrite U2, Dp; exact HD|congruence].
        * intros i x Hx. rewrite HL, <- app_assoc. apply nth_mid. exact Hx.
      + rewrite app_length, fb_leaves_length. replace (length pre + (length (fb_inputs b) + 1))%nat with (length pre + length (fb_inputs b) + 1)%nat by lia. exact H2.
  Qed.

  (** ** What a built transfer tells *)
  Lemma memos_encrypt enc : forall outs i l, payment_memos enc i outs = Ok l -> forall j ro, nth_error outs j = Some ro -> exists m, receiver_memo_from_ro (enc (i + j)%nat) ro [] = Ok m.
  Proof.
    induction outs as [|o outs IH]; intros i l H [|j] ro Hj; try discriminate; cbn [payment_memos nth_error] in *.
    - apply bind_inv in H. destruct H as (m & H & _). injection Hj as <-. rewrite Nat.add_0_r. eauto.
    - apply bind_inv in H. destruct H as (m & _ & H). apply bind_inv in H. destruct H as (ms & H & _).
      replace (i + Datatypes.S j)%nat with (i + 1 + j)%nat by lia. exact (IH _ _ H j ro Hj).
  Qed.
  Lemma unwrap_inv {A} (x : res A) a : unwrap x = Ok a -> x = Ok a.
  Proof. destruct x; cbn [unwrap]; intros H; (exact H || discriminate H). Qed.
  Lemma native_generate_inv r inputs outs fee vu pk n : transfer_generate_native r inputs outs fee vu pk = Ok n ->
    exists outs', transfer_generate r inputs outs' pk vu [] = Ok (fst n).
  Proof.
    unfold transfer_generate_native. destruct inputs as [|i0 rest]; [discriminate|]. intros H.
    apply bind_inv in H; destruct H as (? & _ & H). apply bind_inv in H; destruct H as (? & _ & H). apply bind_inv in H; destruct H as (? & _ & H).
    apply bind_inv in H; destruct H as (? & _ & H). apply bind_inv in H; destruct H as (? & _ & H). apply bind_inv in H; destruct H as (? & _ & H).
    apply bind_inv in H; destruct H as (? & _ & H). cbv zeta in H. apply bind_inv in H. destruct H as (nk & HG & H). injection H as <-.
    eexists. cbn [fst]. rewrite <- surjective_pairing. exact HG.
  Qed.
  Lemma len_check_ok b : len_check b = Ok tt -> length (tb_ins b) = tb_num_in b /\ length (tb_accs b) = tb_num_in b /\ length (tb_kps b) = tb_num_in b /\ length (tb_creds b) = tb_num_in b.
  Proof.
    unfold len_check. destruct (_ && _ && _ && _) eqn:EQ; [|discriminate]. intros _. apply andb_true_iff in EQ. destruct EQ as [EQ E4].
    apply andb_true_iff in EQ. destruct EQ as [EQ E3]. apply andb_true_iff in EQ. destruct EQ as [E1 E2]. apply Nat.eqb_eq in E1, E2, E3, E4. auto.
  Qed.
  Lemma built_facts r pk vu extra b x : tb_build_note r pk vu extra b = Ok x -> NoDup (tb_nullifiers b) /\ can_encrypt (br_enc r) (tb_outs b).
  Proof.
    unfold tb_build_note. destruct (tb_asset b) as [nn|].
    - unfold tb_build_non_native. intros H. apply bind_inv in H. destruct H as ([] & HL & H). apply len_check_ok in HL. destruct HL as (L1 & L2 & L3 & L4).
      apply bind_inv in H. destruct H as (in0 & H0 & H). apply bind_inv in H. destruct H as (acc0 & H1 & H). apply bind_inv in H. destruct H as (kp0 & H2 & H).
      apply bind_inv in H. destruct H as (fee & H3 & H). cbv zeta in H. apply bind_inv in H. destruct H as ([n sk] & HG & H). apply bind_inv in H. destruct H as (memos & HM & _).
      split; [|intros i ro Hi; exact (memos_encrypt _ _ 0 _ HM i ro Hi)].
      apply generated_non_native in HG. destruct HG as [_ HG]. apply (generated_transfer L) in HG. destruct HG as (_ & _ & _ & _ & _ & _ & _ & _ & _ & _ & N1 & N2 & _).
      rewrite N1 in N2. rewrite <- (tb_inputs_nullifiers b (tb_creds b)) by congruence.
      apply vec_get_ok in H0, H1, H2. unfold tb_inputs in *. destruct (tb_ins b) as [|r0 ri]; [discriminate|]. destruct (tb_accs b) as [|a0 ai]; [discriminate|].
      destruct (tb_kps b) as [|k0 ki]; [discriminate|]. destruct (tb_creds b) as [|c0 ci]; [cbn [length] in *; lia|]. cbn [nth_error] in *.
      injection H0 as ->. injection H1 as ->. injection H2 as ->. exact N2.
    - unfold tb_build_native. intros H. apply bind_inv in H. destruct H as ([] & HL & H). apply len_check_ok in HL. destruct HL as (L1 & L2 & L3 & L4).
      apply bind_inv in H. destruct H as (in0 & H0 & H). apply bind_inv in H. destruct H as (fee & H3 & H). apply bind_inv in H. destruct H as (nkc & HG & H).
      apply bind_inv in H. destruct H as (memos & HM & _). split; [|intros i ro Hi; exact (memos_encrypt _ _ 0 _ HM i ro Hi)].
      apply native_generate_inv in HG. destruct HG as (outs' & HG). destruct (fst nkc) as [n sk]. apply (generated_transfer L) in HG.
      destruct HG as (_ & _ & _ & _ & _ & _ & _ & _ & _ & _ & N1 & N2 & _). rewrite N1 in N2.
      rewrite <- (tb_inputs_nullifiers b (repeat None (tb_num_in b))); [exact N2|..]; rewrite ?repeat_length; congruence.
  Qed.
  Lemma freeze_built_facts bl r pk b x : fb_build_note bl r pk b = Ok x -> NoDup (fb_nullifiers b).
  Proof.
    unfold fb_build_note. intros H. apply bind_inv in H. destruct H as (fi & Hf & H). apply bind_inv in H. destruct H as ([[n sk] outs] & HG & _).
    apply (generated_freeze L) in HG. destruct HG as (_ & _ & _ & _ & _ & _ & _ & _ & _ & _ & _ & _ & _ & _ & _ & Z16 & Z17 & _).
    rewrite Z16 in Z17. unfold txn_fee_info_new in Hf. destruct (amount_ltb _ _); [discriminate|]. apply bind_inv in Hf. destruct Hf as (c & _ & Hf). cbv zeta in Hf. injection Hf as <-. exact Z17.
  Qed.

  (** ** The builders *)
  Lemma mapM_Forall2 {A B} (f : A -> res B) l l' : mapM f l = Ok l' -> Forall2 (fun x y => f x = Ok y) l l'.
  Proof.
    revert l'. induction l as [|x l IH]; intros l' H; cbn [mapM] in H; [injection H as <-; constructor|].
    apply bind_inv in H. destruct H as (y & Hy & H). apply bind_inv in H. destruct H as (ys & Hys & H). injection H as <-. constructor; auto.
  Qed.
  Lemma Forall2_len2 {A B} (R : A -> B -> Prop) l l' : Forall2 R l l' -> length l = length l'.
  Proof. induction 1; cbn [length]; congruence. Qed.
  Lemma combine_rel {A B D} (R : A -> B -> Prop) (Q : B -> D -> Prop) : forall l m n x z, Forall2 R l m -> Forall2 Q m n -> In (z, x) (combine n l) ->
    exists y, R x y /\ Q y z /\ In x l /\ In y m.
  Proof.
    intros l m n x z H. revert n. induction H as [|a b l m H0 H IH]; intros n HQ Hin; [destruct n; destruct Hin|].
    inversion HQ as [|? c ? n' Q0 Q1]; subst. cbn [combine In] in Hin. destruct Hin as [G|G].
    - injection G as -> ->. exists b. cbn [In]. auto.
    - destruct (IH _ Q1 G) as (y & Y1 & Y2 & Y3 & Y4). exists y. cbn [In]. auto.
  Qed.

  Definition bs_root (depth : byte) (bs : Builders) : F := tree_root (Z.to_nat (zv depth)) (bs_leaves bs).
  (** every builder is that of its job, with its records located in the common tree *)
  Lemma builders_located start depth kps tj mj fj bs : jobs_fit depth tj mj fj -> (forall j, In j mj -> mint_job_ok j) -> (forall j, In j fj -> freeze_job_ok j) ->
    (forall j, In j tj -> transfer_job_ok j) ->
    generate_builders start depth kps tj mj fj = Ok bs ->
    let d := Z.to_nat (zv depth) in
    length (bs_transfers bs) = length tj /\ length (bs_mints bs) = length mj /\ length (bs_freezes bs) = length fj /\
    (forall b' j, In (b', j) (combine (bs_transfers bs) tj) -> In j tj /\ exists b, tb_rand (tj_sample j) start 2 3 (Some depth) kps (w64 1000) = Ok b /\ located d (bs_leaves bs) b b') /\
    (forall b' j, In (b', j) (combine (bs_mints bs) mj) -> mint_ready b' (bs_root depth bs) /\ mb_depth b' = d) /\
    (forall b' j, In (b', j) (combine (bs_freezes bs) fj) -> freeze_ready b' (bs_root depth bs) /\ fb_depth b' = d /\ (length (fb_inputs b') + 1)%nat = 3%nat /\
       zv (fb_fee b') <= zv (amount (fb_fee_ro b')) /\ forall i, In i (fb_inputs b') -> freezer_pub_key (zi_kp i) <> pt_id /\ address (pub_key (zi_ro i)) <> pt_id).
  Proof.
    intros (J1 & J2) HM HF HT H d. assert (RD : 0 <= zv depth < 256) by apply (zv_range depth).
    assert (D256 : (d < 256)%nat) by (unfold d; lia). assert (Dz : Z.of_nat d = zv depth) by (unfold d; lia).
    unfold generate_builders in H. cbv zeta in H. fold d in H.
    apply bind_inv in H. destruct H as (ts & Hts & H). apply bind_inv in H. destruct H as (ms & Hms & H). apply bind_inv in H. destruct H as (fs & Hfs & H).
    apply bind_inv in H. destruct H as (ts1 & O1 & H). apply bind_inv in H. destruct H as (ms1 & O2 & H). apply bind_inv in H. destruct H as (fs1 & O3 & H). injection H as <-.
    cbn [bs_transfers bs_mints bs_freezes bs_leaves]. unfold bs_root. cbn [bs_leaves]. fold d.
    apply mapM_Forall2 in Hts, Hms, Hfs.
    set (leaves := builder_leaves ts ms fs) in *.
    assert (T2 : forall b, In b ts -> length (tb_ins b) = 2%nat).
    { intros b Hb. assert (exists j, In j tj /\ tb_rand (tj_sample j) start 2 3 (Some depth) kps (w64 1000) = Ok b) as (j & Hj & G).
      { clear - Hts Hb. induction Hts as [|x y l l' Hxy Hl IH]; [destruct Hb|]. destruct Hb as [<-|Hb]; [exists x; split; [left; reflexivity|exact Hxy]|].
        destruct (IH Hb) as (j & G1 & G2). exists j. split; [right; exact G1|exact G2]. }
      assert (SZ : size_ok start 2 3 (Some depth)) by (intros G'; discriminate G').
      destruct (rand_ready L _ _ _ _ _ _ _ _ SZ (proj1 (HT j Hj)) ltac:(lia) ltac:(lia) G) as (R & R1 & _).
      destruct (rd_ins _ _ R) as [_ Q]. congruence. }
    assert (F2 : forall b, In b fs -> fb_shape b /\ fb_depth b = d /\ length (fb_inputs b) = 2%nat /\ exists j, In j fj /\ fb_fee b = fj_fee j /\ map zi_kp (fb_inputs b) = fj_kps j /\
      amount (fb_fee_ro b) = fj_fee_in j /\ forall x, In x (fb_inputs b) -> exists n, pub_key (zi_ro x) = user_pub_key (fs_user (fj_sample j) n)).
    { intros b Hb. assert (exists j, In j fj /\ fb_rand (fj_sample j) (fj_flags j) d (fj_amounts j) (fj_fee_in j) (fj_fee j) (fj_fee_kp j) (fj_kps j) = Ok b) as (j & Hj & G).
      { clear - Hfs Hb. induction Hfs as [|x y l l' Hxy Hl IH]; [destruct Hb|]. destruct Hb as [<-|Hb]; [exists x; split; [left; reflexivity|exact Hxy]|].
        destruct (IH Hb) as (j & G1 & G2). exists j. split; [right; exact G1|exact G2]. }
      destruct (HF j Hj) as (Q1 & Q2 & Q3 & Q4).
      assert (3 <= 3 ^ Z.of_nat d). { rewrite Dz. assert (1 <= Z.of_nat (length fj)) by (destruct fj; [destruct Hj|cbn [length]; lia]). lia. }
      destruct (fb_rand_ready _ _ _ _ _ _ _ _ _ G D256) as (A1 & A2 & A3 & A4 & A5 & A6 & A7); [rewrite Q1; reflexivity|rewrite Q1; lia|].
      split; [exact A1|]. split; [exact A3|]. split; [rewrite <- (map_length zi_kp), A5; exact Q1|]. exists j. auto. }
    assert (Lv : Z.of_nat (length leaves) = 2 * Z.of_nat (length tj) + Z.of_nat (length mj) + 3 * Z.of_nat (length fj)).
    { unfold leaves, builder_leaves. rewrite !app_length, map_length.
      assert (A : length (flat_map (fun b => map derive_record_commitment (tb_ins b)) ts) = (2 * length ts)%nat).
      { clear - T2. induction ts as [|b l IH]; [reflexivity|]. cbn [flat_map length]. rewrite app_length, map_length, IH by (intros x Hx; apply T2; right; exact Hx).
        rewrite (T2 b (or_introl eq_refl)). lia. }
      assert (B : length (flat_map (fun b => map derive_record_commitment (fb_input_ros b) ++ [derive_record_commitment (fb_fee_ro b)]) fs) = (3 * length fs)%nat).
      { clear - F2. induction fs as [|b l IH]; [reflexivity|]. cbn [flat_map length]. rewrite !app_length, map_length, IH by (intros x Hx; apply F2; right; exact Hx).
        unfold fb_input_ros. rewrite map_length. destruct (F2 b (or_introl eq_refl)) as (_ & _ & -> & _). cbn [length]. lia. }
      rewrite A, B. rewrite <- (Forall2_len2 _ _ _ Hts), <- (Forall2_len2 _ _ _ Hms), <- (Forall2_len2 _ _ _ Hfs). lia. }
    assert (H64 : Z.of_nat (length leaves) < 2 ^ 64) by lia. assert (Hcap : Z.of_nat (length leaves) <= 3 ^ Z.of_nat d) by (rewrite Dz; lia).
    set (ml := map (fun b => derive_record_commitment (mb_fee_ro b)) ms) in *. set (tl := flat_map (fun b => map derive_record_commitment (tb_ins b)) ts) in *.
    assert (E1 : leaves = [] ++ tl ++ (ml ++ flat_map (fun b => fb_leaves b) fs)) by reflexivity.
    destruct (offset_transfers_spec d leaves H64 Hcap ts [] _ ts1 E1 O1) as [S1 A1]. cbn [app] in S1.
    rewrite S1 in O2. assert (E2 : leaves = tl ++ ml ++ flat_map (fun b => fb_leaves b) fs) by reflexivity.
    destruct (offset_mints_spec d leaves H64 Hcap ms tl _ ms1 E2 O2) as [S2 A2].
    rewrite S2 in O3. assert (E3 : leaves = (tl ++ ml) ++ flat_map (fun b => fb_leaves b) fs ++ []) by (rewrite app_nil_r, <- app_assoc; exact E2).
    pose proof (offset_freezes_spec d leaves H64 Hcap D256 fs (tl ++ ml) [] fs1 ltac:(intros b Hb; destruct (F2 b Hb) as (G1 & G2 & _); auto) E3 O3) as A3.
    split; [rewrite <- (Forall2_len2 _ _ _ A1), <- (Forall2_len2 _ _ _ Hts); reflexivity|].
    split; [rewrite <- (Forall2_len2 _ _ _ A2), <- (Forall2_len2 _ _ _ Hms); reflexivity|].
    split; [rewrite <- (Forall2_len2 _ _ _ A3), <- (Forall2_len2 _ _ _ Hfs); reflexivity|].
    split; [|split].
    - intros b' j Hin. destruct (combine_rel _ _ _ _ _ _ _ Hts A1 Hin) as (b & G1 & G2 & G3 & G4). split; [exact G3|]. exists b. auto.
    - intros b' j Hin. destruct (combine_rel _ _ _ _ _ _ _ Hms A2 Hin) as (b & G1 & (a & -> & G2) & G3 & G4).
      destruct (HM j G3) as (M1 & M2 & M3). unfold mb_rand in G1.
      destruct (mb_new_ready _ _ _ _ _ _ _ _ _ _ _ G1) as ([m1 m2 m3 m4 m5] & Q1 & _); [lia|lia|].
      split; [|exact Q1]. constructor; auto. cbn [mb_set_acc mb_depth mb_fee_ro mb_acc]. rewrite Q1. exact G2.
    - intros b' j Hin. destruct (combine_rel _ _ _ _ _ _ _ Hfs A3 Hin) as (b & G1 & (R & U1 & U2 & U3 & U4 & U5) & G3 & G4).
      destruct (F2 b G4) as (Sh & Dp & Li & j' & Hj' & V1 & V2 & V3 & V4). destruct (HF j' Hj') as (Q1 & Q2 & Q3 & Q4).
      split; [exact R|]. split; [congruence|]. split; [rewrite <- (map_length zi_ro (fb_inputs b')), U3, map_length, Li; reflexivity|].
      split; [rewrite U2, U5, V1, V3; exact Q2|]. intros i Hi. apply In_nth_error in Hi. destruct Hi as (k & Hi). split.
      + apply Q3. rewrite <- V2, <- U4. apply in_map. exact (nth_error_In _ _ Hi).
      + destruct (nth_map_ro zi_ro _ _ _ _ U3 Hi) as (y & Y1 & Y2). destruct (V4 y (nth_error_In _ _ Y1)) as (n & G). rewrite Y2, G. apply Q4.
  Qed.

  (** ** Notes *)
  Lemma located_builds start depth kps b b' s leaves g pk vk r extra (ts : u64) : transfer_sample_ok (w64 1000) s -> viewer_pub_key (ts_viewer s) <> pt_id ->
    tb_rand s start 2 3 (Some depth) kps (w64 1000) = Ok b -> located (Z.to_nat (zv depth)) leaves b b' ->
    transfer_preprocess g 2 3 (Z.to_nat (zv depth)) = Ok (pk, vk) -> can_encrypt (br_enc r) (tb_outs b') -> NoDup (tb_nullifiers b') -> zv ts <= 1000 ->
    exists n memos sg, tb_build_note r pk (w64 1000) extra b' = Ok (n, memos, sg) /\ transfer_verify n vk (tree_root (Z.to_nat (zv depth)) leaves) ts = Ok tt.
  Proof.
    intros HQ HV HR (accs & -> & La & Hp) HP HE HD Hts.
    assert (SZ : size_ok start 2 3 (Some depth)) by (intros G; discriminate G).
    destruct (rand_ready L _ _ _ _ _ _ _ _ SZ HQ ltac:(lia) ltac:(lia) HR) as (R & R1 & R2 & R3 & R4 & _).
    pose proof (R4 depth eq_refl) as Dp.
    destruct (rand_builds L SL s start 2 3 (Some depth) kps (w64 1000) b g pk vk r extra ts SZ HQ ltac:(lia) ltac:(lia) (fun _ => HV) HR
                (tb_set_accs b accs (tree_root (Z.to_nat (zv depth)) leaves)) (tree_root (Z.to_nat (zv depth)) leaves)) as (n & memos & sg & G1 & G2 & _).
    - repeat split.
    - cbn [tb_set_accs tb_accs]. rewrite La, (rd_accs _ _ R). exact R1.
    - cbn [tb_set_accs tb_accs tb_ins tb_depth]. rewrite Dp. exact Hp.
    - rewrite Dp. exact HP.
    - exact HE.
    - exact HD.
    - exact Hts.
    - exists n, memos, sg. auto.
  Qed.

  Lemma keys_ok p a b c : tp_vks p = [VkTransfer a; VkMint b; VkFreeze c] ->
    get_verifying_keys p = Ok (map (fun t => match t with TxTransfer _ => VkTransfer a | TxMint _ => VkMint b | TxFreeze _ => VkFreeze c end) (tp_txns p)).
  Proof.
    intros H. unfold get_verifying_keys. rewrite H. induction (tp_txns p) as [|t l IH]; [reflexivity|]. cbn [mapM map]. rewrite IH.
    destruct t; reflexivity.
  Qed.

  Lemma notes_kind {A} (f : A -> res TransactionNote) k l l' : mapM f l = Ok l' -> (forall x t, f x = Ok t -> kind_of t = k) -> map kind_of l' = repeat k (length l).
  Proof.
    intros H Hf. apply mapM_Forall2 in H. induction H as [|x y l l' H0 H IH]; [reflexivity|]. cbn [map length repeat]. rewrite IH, (Hf _ _ H0). reflexivity.
  Qed.

  (** ** C65: whatever list the function returns verifies *)
  Theorem generated_list_verifies g fk start depth kps tj mj fj p :
    (forall j, In j tj -> transfer_job_ok j) -> (forall j, In j mj -> mint_job_ok j) -> (forall j, In j fj -> freeze_job_ok j) -> jobs_fit depth tj mj fj ->
    generate_txns g fk start depth kps tj mj fj = Ok p ->
    map kind_of (tp_txns p) = repeat 0%nat (length tj) ++ repeat 1%nat (length mj) ++ repeat 2%nat (length fj) /\ zv (tp_until p) = 1000 /\
    exists keys, get_verifying_keys p = Ok keys /\ Forall2 (key_for p) (tp_txns p) keys /\
    forall ts : u64, zv ts <= zv (tp_until p) ->
      (forall i t k, nth_error (tp_txns p) i = Some t -> nth_error keys i = Some k -> tx_verify t k (tp_tree_root p) ts = Ok tt) /\
      (tp_txns p <> [] -> txn_batch_verify (tp_txns p) (get_merkle_roots p) ts keys = Ok tt).
  Proof.
    intros HT HM HF HJ H. unfold generate_txns in H. cbv zeta in H. set (d := Z.to_nat (zv depth)) in *.
    apply bind_inv in H. destruct H as ([tpk tvk] & P1 & H). apply bind_inv in H. destruct H as ([mpk mvk] & P2 & H). apply bind_inv in H. destruct H as ([fpk fvk] & P3 & H).
    assert (P1' : transfer_preprocess g 2 3 d = Ok (tpk, tvk)) by (apply unwrap_inv; exact P1).
    assert (P2' : mint_preprocess g d = Ok (mpk, mvk)) by (apply unwrap_inv; exact P2).
    assert (P3' : freeze_preprocess g fk 3 d = Ok (fpk, fvk)) by (apply unwrap_inv; exact P3).
    clear P1 P2 P3.
    apply bind_inv in H. destruct H as (bs & HB & H). cbn [fst snd] in H.
    apply bind_inv in H. destruct H as (tn & N1 & H). apply bind_inv in H. destruct H as (mn & N2 & H). apply bind_inv in H. destruct H as (fn & N3 & H).
    destruct (builders_located _ _ _ _ _ _ _ HJ HM HF HT HB) as (B1 & B2 & B3 & B4 & B5 & B6). fold d in B4, B5, B6.
    assert (EP : p = mkTP (tn ++ mn ++ fn) [VkTransfer tvk; VkMint mvk; VkFreeze fvk] (w64 1000) (tree_root d (bs_leaves bs))) by congruence. clear H.
    assert (Kd : map kind_of (tp_txns p) = repeat 0%nat (length tj) ++ repeat 1%nat (length mj) ++ repeat 2%nat (length fj)).
    { subst p. cbn [tp_txns]. rewrite !map_app. f_equal; [|f_equal].
      - rewrite (notes_kind _ 0%nat _ _ N1); [rewrite combine_length, B1, Nat.min_id; reflexivity|]. intros x t Hx. apply bind_inv in Hx. destruct Hx as (? & _ & Hx). injection Hx as <-. reflexivity.
      - rewrite (notes_kind _ 1%nat _ _ N2); [rewrite combine_length, B2, Nat.min_id; reflexivity|]. intros x t Hx. apply bind_inv in Hx. destruct Hx as (? & _ & Hx). injection Hx as <-. reflexivity.
      - rewrite (notes_kind _ 2%nat _ _ N3); [rewrite combine_length, B3, Nat.min_id; reflexivity|]. intros x t Hx. apply bind_inv in Hx. destruct Hx as (? & _ & Hx). injection Hx as <-. reflexivity. }
    split; [exact Kd|]. split; [subst p; reflexivity|].
    set (key := fun t => match t with TxTransfer _ => VkTransfer tvk | TxMint _ => VkMint mvk | TxFreeze _ => VkFreeze fvk end).
    exists (map key (tp_txns p)). split; [subst p; apply (keys_ok _ tvk mvk fvk); reflexivity|].
    assert (KF : Forall2 (key_for p) (tp_txns p) (map key (tp_txns p))).
    { assert (forall l, Forall2 (key_for p) l (map key l)) as G; [|apply G]. induction l as [|t l IH]; constructor; [|exact IH]. subst p. destruct t; cbn [key key_for tp_vks In]; auto. }
    split; [exact KF|]. intros ts Hts.
    assert (HV : forall t, In t (tp_txns p) -> tx_verify t (key t) (tp_tree_root p) ts = Ok tt).
    { intros t Ht. assert (U : zv (tp_until p) = 1000) by (subst p; reflexivity). rewrite U in Hts. subst p. cbn [tp_txns tp_tree_root] in *.
      apply in_app_or in Ht. destruct Ht as [Ht|Ht]; [|apply in_app_or in Ht; destruct Ht as [Ht|Ht]].
      - apply In_nth_error in Ht. destruct Ht as (i & Ht). destruct (proj2 (mapM_nth _ _ _ N1) i t Ht) as ([b' j] & X1 & X2). cbn [fst snd] in X2.
        apply bind_inv in X2. destruct X2 as (x & X2 & X3). injection X3 as <-.
        destruct (B4 b' j (nth_error_In _ _ X1)) as (Hj & b & G1 & G2). destruct (HT j Hj) as [Q1 Q2].
        assert (X2' : tb_build_note (tj_rand j) tpk (w64 1000) (tj_extra j) b' = Ok x) by (apply unwrap_inv; exact X2).
        destruct (built_facts _ _ _ _ _ _ X2') as [ND CE].
        destruct (located_builds _ _ _ _ _ _ _ g tpk tvk (tj_rand j) (tj_extra j) ts Q1 Q2 G1 G2 P1' CE ND Hts) as (n & memos & sg & Z1 & Z2).
        rewrite X2' in Z1. injection Z1 as ->. exact Z2.
      - apply In_nth_error in Ht. destruct Ht as (i & Ht). destruct (proj2 (mapM_nth _ _ _ N2) i t Ht) as ([b' j] & X1 & X2). cbn [fst snd] in X2.
        apply bind_inv in X2. destruct X2 as (x & X2 & X3). injection X3 as <-.
        destruct (B5 b' j (nth_error_In _ _ X1)) as (G1 & G2). rewrite <- G2 in P2'.
        destruct (mint_builds L SL g mpk mvk b' _ (mj_chg j) (mj_rand j) P2' G1) as (n & chg & Z1 & Z2 & _).
        rewrite Z1 in X2. cbn [unwrap] in X2. injection X2 as <-. exact Z2.
      - apply In_nth_error in Ht. destruct Ht as (i & Ht). destruct (proj2 (mapM_nth _ _ _ N3) i t Ht) as ([b' j] & X1 & X2). cbn [fst snd] in X2.
        apply bind_inv in X2. destruct X2 as (x & X2 & X3). injection X3 as <-.
        destruct (B6 b' j (nth_error_In _ _ X1)) as (G1 & G2 & G3 & G4 & G5).
        assert (X2' : fb_build_note (fj_chg j) (fj_rand j) fpk b' = Ok x) by (apply unwrap_inv; exact X2).
        pose proof (freeze_built_facts _ _ _ _ _ X2') as ND. rewrite <- G2, <- G3 in P3'.
        destruct (freeze_builds L SL g fk fpk fvk b' _ (fj_chg j) (fj_rand j) P3' G1 (Build_freeze_payable b' G5 G4 ND)) as (n & chg & outs & Z1 & Z2 & _).
        rewrite X2' in Z1. injection Z1 as ->. exact Z2. }
    assert (HVi : forall i t k, nth_error (tp_txns p) i = Some t -> nth_error (map key (tp_txns p)) i = Some k -> tx_verify t k (tp_tree_root p) ts = Ok tt).
    { intros i t k Ht Hk. rewrite nth_error_map, Ht in Hk. injection Hk as <-. apply HV. exact (nth_error_In _ _ Ht). }
    split; [exact HVi|]. intros NE.
    assert (SK : Forall2 same_kind (tp_txns p) (map key (tp_txns p))).
    { clear - KF. induction KF as [|t k l l' H0 H IH]; constructor; [|exact IH]. destruct t, k; cbn [key_for same_kind] in *; auto. }
    apply (proj1 (batch_individual SL (tp_txns p) (get_merkle_roots p) ts (map key (tp_txns p)) NE SK)). split; [apply repeat_length|].
    intros i t k root Ht Hk Hr. assert (root = tp_tree_root p) as -> by (apply (repeat_spec (length (tp_txns p))); exact (nth_error_In _ _ Hr)).
    exact (HVi i t k Ht Hk).
  Qed.

  (** and it returns one, if keys can be made, no nullifier repeats within a note and the memos can be encrypted *)
  Lemma mapM_total {A B} (f : A -> res B) l : (forall x, In x l -> exists y, f x = Ok y) -> exists l', mapM f l = Ok l'.
  Proof.
    induction l as [|x l IH]; intros H; [exists []; reflexivity|]. destruct (H x (or_introl eq_refl)) as (y & Hy).
    destruct IH as (l' & Hl); [intros z Hz; apply H; right; exact Hz|]. exists (y :: l'). cbn [mapM]. rewrite Hy. cbn [bind]. rewrite Hl. reflexivity.
  Qed.
  Theorem list_generated g fk start depth kps tj mj fj bs tk mk zk :
    (forall j, In j tj -> transfer_job_ok j) -> (forall j, In j mj -> mint_job_ok j) -> (forall j, In j fj -> freeze_job_ok j) -> jobs_fit depth tj mj fj ->
    transfer_preprocess g 2 3 (Z.to_nat (zv depth)) = Ok tk -> mint_preprocess g (Z.to_nat (zv depth)) = Ok mk -> freeze_preprocess g fk 3 (Z.to_nat (zv depth)) = Ok zk ->
    generate_builders start depth kps tj mj fj = Ok bs ->
    (forall b j, In (b, j) (combine (bs_transfers bs) tj) -> NoDup (tb_nullifiers b) /\ can_encrypt (br_enc (tj_rand j)) (tb_outs b)) ->
    (forall b, In b (bs_freezes bs) -> NoDup (fb_nullifiers b)) ->
    exists p, generate_txns g fk start depth kps tj mj fj = Ok p.
  Proof.
    intros HT HM HF HJ P1 P2 P3 HB C1 C2. destruct tk as [tpk tvk], mk as [mpk mvk], zk as [fpk fvk]. set (d := Z.to_nat (zv depth)) in *.
    destruct (builders_located _ _ _ _ _ _ _ HJ HM HF HT HB) as (B1 & B2 & B3 & B4 & B5 & B6). fold d in B4, B5, B6.
    unfold generate_txns. cbv zeta. fold d. rewrite P1, P2, P3. cbn [unwrap bind]. rewrite HB. cbn [unwrap bind fst snd].
    match goal with |- exists p, bind (mapM ?f ?l) _ = _ => destruct (mapM_total f l) as (tn & N1) end.
    { intros [b' j] Hx. cbn [fst snd]. destruct (B4 b' j Hx) as (Hj & b & G1 & G2). destruct (HT j Hj) as [Q1 Q2]. destruct (C1 b' j Hx) as [ND CE].
      destruct (located_builds _ _ _ _ _ _ _ g tpk tvk (tj_rand j) (tj_extra j) (w64 0) Q1 Q2 G1 G2 P1 CE ND) as (n & memos & sg & Z1 & Z2); [change (zv (w64 0)) with 0; lia|].
      rewrite Z1. cbn [unwrap bind]. eexists. reflexivity. }
    rewrite N1. cbn [bind].
    match goal with |- exists p, bind (mapM ?f ?l) _ = _ => destruct (mapM_total f l) as (mn & N2) end.
    { intros [b' j] Hx. cbn [fst snd]. destruct (B5 b' j Hx) as (G1 & G2). pose proof P2 as P2'. rewrite <- G2 in P2'.
      destruct (mint_builds L SL g mpk mvk b' _ (mj_chg j) (mj_rand j) P2' G1) as (n & chg & Z1 & Z2 & _). rewrite Z1. cbn [unwrap bind]. eexists. reflexivity. }
    rewrite N2. cbn [bind].
    match goal with |- exists p, bind (mapM ?f ?l) _ = _ => destruct (mapM_total f l) as (fn & N3) end.
    { intros [b' j] Hx. cbn [fst snd]. destruct (B6 b' j Hx) as (G1 & G2 & G3 & G4 & G5). pose proof P3 as P3'. rewrite <- G2, <- G3 in P3'.
      assert (ND : NoDup (fb_nullifiers b')) by (apply C2; exact (in_combine_l _ _ _ _ Hx)).
      destruct (freeze_builds L SL g fk fpk fvk b' _ (fj_chg j) (fj_rand j) P3' G1 (Build_freeze_payable b' G5 G4 ND)) as (n & chg & outs & Z1 & Z2 & _).
      rewrite Z1. cbn [unwrap bind]. eexists. reflexivity. }
    rewrite N3. eexists. reflexivity.
  Qed.
End BuilderTxns.
