(** The builders of mints and freezes. *)
From Verif Require Import Base Config Structs Keys Utils Memo Plonk Witness Circuits Relation CodecProofs PolicyProofs UtilsProofs Snark
  Notes NoteProofs NoteFacts NoteLive2 Serde Ledger Wallet WalletProofs WalletPay Builder BuilderSpec BuilderLive BuilderProofs BuilderChain BuilderRand.

Section BuilderOther.
  Context {C : CapConfig} {S : Snark C} {K : @RoCodec C} {E : MemoSer C} (L : CapLaws C) (SL : SnarkLaws S).

  Lemma fee_info_ready bl fin fee : zv fee <= zv (amount (fi_ro fin)) ->
    exists chg, txn_fee_info_new bl fin fee = Ok (mkFeeInfo fin fee chg, chg) /\ asset_def chg = asset_def_native /\ freeze_flag chg = Unfrozen /\
      pub_key chg = pub_key (fi_ro fin) /\ zv (amount chg) = zv (amount (fi_ro fin)) - zv fee.
  Proof.
    intros H. unfold txn_fee_info_new, amount_ltb. destruct (Z.ltb_spec (zv (amount (fi_ro fin))) (zv fee)); [lia|].
    pose proof (amount_range fee). pose proof (amount_range (amount (fi_ro fin))).
    rewrite amount_sub_ok by lia. cbn [bind]. eexists. split; [reflexivity|]. repeat split. cbn [ro_new amount]. rewrite zv_w128_small; lia.
  Qed.

  (** ** Mints *)
  Lemma mb_new_ready bl_fee seed bl_mint depth input_amount fee mint_amount minter receiver viewer b :
    mb_new bl_fee seed bl_mint depth input_amount fee mint_amount minter receiver viewer = Ok b ->
    zv fee <= zv input_amount -> zv mint_amount < 2 ^ 127 ->
    mint_ready b (tree_root depth [derive_record_commitment (mb_fee_ro b)]) /\ mb_depth b = depth /\
    amount (mb_fee_ro b) = input_amount /\ amount (mb_mint_ro b) = mint_amount /\ pub_key (mb_mint_ro b) = user_pub_key receiver /\
    mb_fee b = fee /\ asset_def (mb_mint_ro b) = mb_def b /\ viewer_pk (policy (mb_def b)) = viewer_pub_key viewer.
  Proof.
    intros H Hf Hm. unfold mb_new in H. cbv zeta in H. apply bind_inv in H. destruct H as (d0 & Hd & H). unfold mb_refresh in H. apply bind_inv in H. destruct H as (a & Ha & H).
    injection H as <-. cbn [mb_set_acc mb_depth mb_fee_ro mb_minter mb_fee mb_mint_ro mb_seed mb_description mb_def mb_viewer mb_acc] in *.
    assert (D : d0 = mkDef (new_domestic seed arbitrary_description) policy_default).
    { unfold asset_def_new in Hd. destruct (zeqb _ _ || zeqb _ _); cbn [unwrap] in Hd; [discriminate|]. injection Hd as <-. reflexivity. }
    subst d0. split; [|repeat split].
    constructor; cbn [mb_set_acc mb_depth mb_fee_ro mb_minter mb_fee mb_mint_ro mb_seed mb_description mb_def mb_viewer mb_acc]; try (repeat split; assumption).
    destruct (lookup_proves depth [derive_record_commitment (ro_new bl_fee input_amount asset_def_native (user_pub_key minter) Unfrozen)] 0
                (ro_new bl_fee input_amount asset_def_native (user_pub_key minter) Unfrozen) a) as [_ G]; [reflexivity| |reflexivity|exact Ha|exact G].
    cbn [length]. pose proof (Z.pow_pos_nonneg 3 (Z.of_nat depth)). lia.
  Qed.
  Lemma mb_reveal_ready a b b' root : mb_policy_reveal a b = Ok b' -> mint_ready b root -> asset_def (mb_mint_ro b) = mb_def b -> 
    mint_ready b' root /\ asset_def (mb_mint_ro b') = mb_def b'.
  Proof.
    unfold mb_policy_reveal. intros H [m1 m2 m3 m4 m5] D. apply bind_inv in H. destruct H as (m & _ & H). cbv zeta in H. injection H as <-.
    split; [|reflexivity]. constructor; auto. cbn [mb_mint_ro mb_seed mb_description ro_set_def asset_def code]. rewrite <- D. exact m4.
  Qed.
  Theorem mint_builds g pk vk b root bl r : mint_preprocess g (mb_depth b) = Ok (pk, vk) -> mint_ready b root ->
    exists n chg, mb_build_note bl r pk b = Ok (n, mrd_sig r, chg) /\ mint_verify n vk root = Ok tt /\
      zv (amount chg) = zv (amount (mb_fee_ro b)) - zv (mb_fee b) /\ mn_amount n = amount (mb_mint_ro b) /\ mn_def n = asset_def (mb_mint_ro b) /\
      mn_mint n = derive_record_commitment (mb_mint_ro b) /\ mn_chg n = derive_record_commitment chg /\ ma_fee (mn_aux n) = mb_fee b.
  Proof.
    intros HP [(m1 & m1' & m1'') (m2 & m2' & m2'') m3 m4 (m5 & m6)]. unfold mb_build_note.
    destruct (fee_info_ready bl (mkFeeInput (mb_fee_ro b) (mb_acc b) (mb_minter b)) (mb_fee b) m3) as (chg & G1 & G2 & G3 & G4 & G5).
    rewrite G1. cbn [bind fst snd]. cbn [fi_ro] in *.
    assert (PY : payable (mb_depth b) (mkFeeInfo (mkFeeInput (mb_fee_ro b) (mb_acc b) (mb_minter b)) (mb_fee b) chg)).
    { constructor; cbn [fee_input fi_acc fi_ro fi_kp fee_chg_ro fee_amount]; auto; [lia|congruence]. }
    destruct (mint_generate_live L SL g _ pk vk r (mb_mint_ro b) (mb_seed b) (mb_description b) _ HP PY m4 m5 m6) as (n & HG & HV).
    rewrite HG. cbn [bind fst snd]. exists n, chg. split; [reflexivity|]. cbn [fee_input fi_acc] in HV. rewrite m1' in HV. split; [exact HV|]. split; [exact G5|].
    destruct (generated_mint L _ _ _ _ _ _ _ _ HG) as (_ & _ & _ & M4 & M5 & M6 & _ & _ & _ & _ & M11 & _ & _ & _ & _ & _ & M17 & _). auto.
  Qed.

  (** ** Freezes *)
  Definition fkeys (i : FreezeNoteInput) : FreezerKeyPair * UserPubKey * AssetDefinition := (zi_kp i, pub_key (zi_ro i), asset_def (zi_ro i)).
  Lemma put_freeze_accs_spec depth leaves : forall uids idx l l', put_freeze_accs depth leaves idx uids l = Ok l' ->
    map zi_ro l' = map zi_ro l /\ map zi_kp l' = map zi_kp l /\
    (forall j u, nth_error uids j = Some u -> exists i, nth_error l' (idx + j) = Some i /\ lookup_from_tree depth leaves u = Ok (zi_acc i)) /\
    (forall j, (j < idx)%nat \/ (idx + length uids <= j)%nat -> nth_error l' j = nth_error l j).
  Proof.
    induction uids as [|u us IH]; intros idx l l' H; cbn [put_freeze_accs] in H.
    - injection H as <-. repeat split; auto. intros [|j] u; discriminate.
    - apply bind_inv in H. destruct H as (i & Hi & H). apply vec_get_ok in Hi. apply bind_inv in H. destruct H as (a & Ha & H).
      apply bind_inv in H. destruct H as (l1 & H1 & H). apply vec_set_ok in H1. destruct H1 as [V1 ->].
      destruct (IH _ _ _ H) as (I1 & I2 & I3 & I4).
      assert (M : forall (A : Type) (f : FreezeNoteInput -> A), f (zi_set_acc a i) = f i -> map f (list_set idx (zi_set_acc a i) l) = map f l).
      { intros A f Hf. clear - Hi Hf. revert l Hi. induction idx as [|n IH]; intros [|x l] Hi; cbn [nth_error list_set map] in *; try discriminate.
        - injection Hi as ->. rewrite Hf. reflexivity.
        - rewrite (IH l Hi). reflexivity. }
      split; [rewrite I1; apply M; reflexivity|]. split; [rewrite I2; apply M; reflexivity|]. split.
      + intros [|j] u' Hj; cbn [nth_error] in Hj.
        * injection Hj as <-. exists (zi_set_acc a i). split; [|exact Ha]. rewrite Nat.add_0_r, I4 by lia. rewrite list_set_nth by exact V1. rewrite Nat.eqb_refl. reflexivity.
        * destruct (I3 j u' Hj) as (i' & G1 & G2). exists i'. split; [|exact G2]. rewrite <- G1. f_equal. lia.
      + intros j Hj. cbn [length] in Hj. rewrite I4 by lia. rewrite list_set_nth by exact V1. destruct (Nat.eqb_spec j idx); [lia|reflexivity].
  Qed.

  (** the part of being ready that does not depend on the tree *)
  Record fb_shape (b : FreezeBuilder) : Prop := {
    fs_some : fb_inputs b <> [];
    fs_key : forall i, In i (fb_inputs b) -> freezer_pk (policy (asset_def (zi_ro i))) = freezer_pub_key (zi_kp i);
    fs_fee_ok : asset_def (fb_fee_ro b) = asset_def_native /\ freeze_flag (fb_fee_ro b) = Unfrozen /\ pub_key (fb_fee_ro b) = user_pub_key (fi_kp (fb_fee_in b))
  }.
  Lemma nth_map_ro {A} (f : FreezeNoteInput -> A) l l' i x : map f l = map f l' -> nth_error l i = Some x -> exists y, nth_error l' i = Some y /\ f x = f y.
  Proof.
    intros M Hx. apply (f_equal (fun l => nth_error l i)) in M. rewrite !nth_error_map, Hx in M. destruct (nth_error l' i) as [y|]; [|discriminate]. injection M as M. eauto.
  Qed.

  (** A builder whose witnesses have been looked up at [off, off + 1, ...] of a tree that holds its records there *)
  Lemma fb_updated depth leaves uids fee_uid off b b' : fb_shape b ->
    Z.of_nat (length leaves) < 2 ^ 64 -> Z.of_nat (length leaves) <= 3 ^ Z.of_nat depth ->
    (uids = None /\ off = 0%nat \/ uids = Some (uids_from off (length (fb_inputs b)))) ->
    (fee_uid = None /\ off = 0%nat \/ fee_uid = Some (w64 (Z.of_nat (off + length (fb_inputs b))))) ->
    (forall i r, nth_error (map derive_record_commitment (fb_input_ros b) ++ [derive_record_commitment (fb_fee_ro b)]) i = Some r -> nth_error leaves (off + i) = Some r) ->
    fb_update_accs depth leaves uids fee_uid b = Ok b' ->
    fb_shape b' /\ fb_depth b' = fb_depth b /\ fb_fee b' = fb_fee b /\ map zi_ro (fb_inputs b') = map zi_ro (fb_inputs b) /\ map zi_kp (fb_inputs b') = map zi_kp (fb_inputs b) /\
    fb_fee_ro b' = fb_fee_ro b /\ fi_kp (fb_fee_in b') = fi_kp (fb_fee_in b) /\
    (forall i x, nth_error (fb_inputs b') i = Some x -> acc_uid (zi_acc x) = w64 (Z.of_nat (off + i)) /\ proves depth (tree_root depth leaves) (zi_ro x) (zi_acc x)) /\
    acc_uid (fi_acc (fb_fee_in b')) = w64 (Z.of_nat (off + length (fb_inputs b))) /\
    proves depth (tree_root depth leaves) (fb_fee_ro b') (fi_acc (fb_fee_in b')).
  Proof.
    intros Sh H64 Hcap HU HF HL H. unfold fb_update_accs in H. apply bind_inv in H. destruct H as (l & Hl & H). cbv zeta in H.
    assert (El : l = uids_from off (length (fb_inputs b))).
    { destruct HU as [[-> ->]| ->]; [injection Hl as <-; reflexivity|]. rewrite uids_from_length, Nat.eqb_refl in Hl. injection Hl as <-. reflexivity. }
    assert (Ef : match fee_uid with Some u => u | None => w64 (Z.of_nat (length (fb_inputs b))) end = w64 (Z.of_nat (off + length (fb_inputs b)))).
    { destruct HF as [[-> ->]| ->]; reflexivity. }
    rewrite Ef in H. subst l. apply bind_inv in H. destruct H as (ins & Hi & H). apply bind_inv in H. destruct H as (a & Ha & H). injection H as <-.
    destruct (put_freeze_accs_spec _ _ _ _ _ _ Hi) as (P1 & P2 & P3 & P4).
    cbn [fb_inputs fb_depth fb_fee fb_fee_in fi_ro fi_kp fi_acc]. unfold fb_fee_ro. cbn [fb_fee_in fi_ro].
    assert (Li : length ins = length (fb_inputs b)) by (rewrite <- (map_length zi_ro ins), P1, map_length; reflexivity).
    destruct Sh as [s1 s2 s3].
    split; [|split; [reflexivity|split; [reflexivity|split; [exact P1|split; [exact P2|split; [reflexivity|split; [reflexivity|split; [|split]]]]]]]].
    - constructor.
      + cbn [fb_inputs]. intros G. subst ins. destruct (fb_inputs b); [contradiction|discriminate].
      + cbn [fb_inputs]. intros i Hin. apply In_nth_error in Hin. destruct Hin as (j & Hin).
        destruct (nth_map_ro (fun x => (zi_ro x, zi_kp x)) ins (fb_inputs b) j i) as (y & Y1 & Y2); [|exact Hin|].
        * clear - P1 P2. revert P1 P2. generalize (fb_inputs b) as l. induction ins as [|x ins IH]; intros [|y l] P1 P2; try discriminate; [reflexivity|].
          cbn [map] in *. injection P1 as A1 A2. injection P2 as B1 B2. rewrite A1, B1, (IH l A2 B2). reflexivity.
        * injection Y2 as -> ->. apply s2. exact (nth_error_In _ _ Y1).
      + exact s3.
    - intros i x Hx. assert (Hin : (i < length (fb_inputs b))%nat) by (rewrite <- Li; apply nth_error_Some; congruence).
      destruct (P3 i _ (uids_from_nth off _ i Hin)) as (x' & X1 & X2). change (0 + i)%nat with i in X1. rewrite Hx in X1. injection X1 as <-.
      destruct (nth_map_ro zi_ro _ _ _ _ P1 Hx) as (y & Y1 & Y2).
      apply (lookup_proves depth leaves (off + i) (zi_ro x) (zi_acc x) H64 Hcap); [|exact X2].
      apply HL. rewrite nth_error_app1 by (rewrite map_length; unfold fb_input_ros; rewrite map_length; exact Hin).
      unfold fb_input_ros. rewrite !nth_error_map, Y1. cbn [option_map]. rewrite Y2. reflexivity.
    - refine (proj1 (lookup_proves depth leaves (off + length (fb_inputs b)) (fb_fee_ro b) a H64 Hcap _ Ha)).
      apply HL. rewrite nth_error_app2 by (rewrite map_length; unfold fb_input_ros; rewrite map_length; lia).
      unfold fb_input_ros. rewrite !map_length, Nat.sub_diag. reflexivity.
    - refine (proj2 (lookup_proves depth leaves (off + length (fb_inputs b)) (fb_fee_ro b) a H64 Hcap _ Ha)).
      apply HL. rewrite nth_error_app2 by (rewrite map_length; unfold fb_input_ros; rewrite map_length; lia).
      unfold fb_input_ros. rewrite !map_length, Nat.sub_diag. reflexivity.
  Qed.
  Lemma fb_shape_ready depth leaves b off : fb_shape b -> (fb_depth b < 256)%nat -> fb_depth b = depth ->
    (forall i x, nth_error (fb_inputs b) i = Some x -> acc_uid (zi_acc x) = w64 (Z.of_nat (off + i)) /\ proves depth (tree_root depth leaves) (zi_ro x) (zi_acc x)) ->
    proves depth (tree_root depth leaves) (fb_fee_ro b) (fi_acc (fb_fee_in b)) -> freeze_ready b (tree_root depth leaves).
  Proof.
    intros [s1 s2 s3] HD <- H1 H2. constructor; auto. intros i Hi. split; [|exact (s2 i Hi)].
    apply In_nth_error in Hi. destruct Hi as (j & Hi). exact (proj2 (H1 j i Hi)).
  Qed.

  (** the leaves of a builder's own tree *)
  Definition fb_leaves (b : FreezeBuilder) : list F := map derive_record_commitment (fb_input_ros b) ++ [derive_record_commitment (fb_fee_ro b)].
  Definition fb_room (b : FreezeBuilder) : Prop :=
    Z.of_nat (length (fb_inputs b)) + 1 < 2 ^ 64 /\ Z.of_nat (length (fb_inputs b)) + 1 <= 3 ^ Z.of_nat (fb_depth b).
  Lemma fb_leaves_length b : length (fb_leaves b) = (length (fb_inputs b) + 1)%nat.
  Proof. unfold fb_leaves, fb_input_ros. rewrite app_length, !map_length. reflexivity. Qed.
  Lemma fb_refreshed b b' : fb_shape b -> fb_room b -> (fb_depth b < 256)%nat -> fb_refresh b = Ok b' ->
    fb_shape b' /\ fb_depth b' = fb_depth b /\ fb_fee b' = fb_fee b /\ map zi_ro (fb_inputs b') = map zi_ro (fb_inputs b) /\ map zi_kp (fb_inputs b') = map zi_kp (fb_inputs b) /\
    fb_fee_ro b' = fb_fee_ro b /\ fi_kp (fb_fee_in b') = fi_kp (fb_fee_in b) /\ freeze_ready b' (tree_root (fb_depth b') (fb_leaves b')).
  Proof.
    intros Sh [R1 R2] HD H. unfold fb_refresh in H.
    apply (fb_updated (fb_depth b) (fb_leaves b) None None 0) in H; auto; try (rewrite fb_leaves_length; lia).
    destruct H as (U1 & U2 & U3 & U4 & U5 & U6 & U7 & U8 & U9 & U10).
    repeat (split; [assumption|]).
    assert (EL : fb_leaves b' = fb_leaves b) by (unfold fb_leaves, fb_input_ros; rewrite U4, U6; reflexivity).
    rewrite EL, U2. apply (fb_shape_ready _ _ _ 0); auto; rewrite U2; auto.
  Qed.

  Lemma freeze_inputs_spec s : forall l i, length (freeze_inputs s i l) = length l /\
    map zi_kp (freeze_inputs s i l) = map snd l /\
    forall x, In x (freeze_inputs s i l) -> freezer_pk (policy (asset_def (zi_ro x))) = freezer_pub_key (zi_kp x).
  Proof.
    induction l as [|[a k] l IH]; intros i; cbn [freeze_inputs]; [repeat split; intros x []|]. destruct (IH (i + 1)%nat) as (I1 & I2 & I3).
    split; [cbn [length]; rewrite I1; reflexivity|]. split; [cbn [map snd zi_kp]; rewrite I2; reflexivity|].
    intros x [<-|Hx]; [reflexivity|exact (I3 x Hx)].
  Qed.
  Lemma combine_snd {A B} : forall (l : list A) (l' : list B), length l = length l' -> map snd (combine l l') = l'.
  Proof. induction l as [|x l IH]; intros [|y l'] H; try discriminate; [reflexivity|]. cbn [combine map snd]. rewrite IH by (cbn [length] in H; lia). reflexivity. Qed.

  Lemma fb_new_ready s depth amounts fee_in fee fee_kp kps b : fb_new s depth amounts fee_in fee fee_kp kps = Ok b ->
    kps <> [] -> (depth < 256)%nat -> Z.of_nat (length kps) + 1 < 2 ^ 64 -> Z.of_nat (length kps) + 1 <= 3 ^ Z.of_nat depth ->
    fb_shape b /\ fb_room b /\ freeze_ready b (tree_root depth (fb_leaves b)) /\ fb_depth b = depth /\ fb_fee b = fee /\ map zi_kp (fb_inputs b) = kps /\
    amount (fb_fee_ro b) = fee_in /\ fi_kp (fb_fee_in b) = fee_kp /\
    map zi_ro (fb_inputs b) = map zi_ro (freeze_inputs s 0 (combine amounts kps)).
  Proof.
    intros H Hk HD R1 R2. unfold fb_new in H. destruct (Nat.eqb_spec (length amounts) (length kps)) as [El|]; cbn [negb] in H; [|discriminate].
    set (b0 := mkFB _ _ _ _) in H. destruct (freeze_inputs_spec s (combine amounts kps) 0) as (I1 & I2 & I3).
    assert (Lc : length (combine amounts kps) = length kps) by (rewrite combine_length, El, Nat.min_id; reflexivity).
    assert (Sh : fb_shape b0).
    { constructor; [|exact I3|repeat split]. unfold b0. cbn [fb_inputs]. intros G. rewrite G in I1. rewrite Lc in I1. destruct kps; [contradiction|discriminate]. }
    assert (Ro : fb_room b0) by (unfold fb_room, b0; cbn [fb_inputs fb_depth]; rewrite I1, Lc; auto).
    destruct (fb_refreshed _ _ Sh Ro HD H) as (U1 & U2 & U3 & U4 & U5 & U6 & U7 & U8).
    assert (Lb : length (fb_inputs b) = length kps) by (rewrite <- (map_length zi_ro (fb_inputs b)), U4, map_length; unfold b0; cbn [fb_inputs]; congruence).
    split; [exact U1|]. split; [unfold fb_room; rewrite Lb, U2; auto|]. split; [rewrite U2 in U8; exact U8|]. split; [exact U2|]. split; [exact U3|].
    split; [rewrite U5; unfold b0; cbn [fb_inputs]; rewrite I2; apply combine_snd; exact El|].
    split; [rewrite U6; reflexivity|]. split; [exact U7|exact U4].
  Qed.
  Lemma fcall_ready c b b' : fb_shape b -> fb_room b -> (fb_depth b < 256)%nat -> fcall c b = Ok b' ->
    fb_shape b' /\ fb_room b' /\ freeze_ready b' (tree_root (fb_depth b') (fb_leaves b')) /\ fb_depth b' = fb_depth b /\ fb_fee b' = fb_fee b /\
    map zi_kp (fb_inputs b') = map zi_kp (fb_inputs b) /\ fi_kp (fb_fee_in b') = fi_kp (fb_fee_in b) /\
    map (fun i => pub_key (zi_ro i)) (fb_inputs b') = map (fun i => pub_key (zi_ro i)) (fb_inputs b) /\
    amount (fb_fee_ro b') = match c with FFeeAmount a => a | _ => amount (fb_fee_ro b) end.
  Proof.
    intros [s1 s2 s3] [R1 R2] HD H. destruct c as [i f|a]; cbn [fcall] in H.
    - unfold fb_update_input_freeze_flag in H. apply bind_inv in H. destruct H as ([] & Hi & H). unfold fb_change_input in H.
      apply bind_inv in H. destruct H as (x & Hx & H). apply vec_get_ok in Hx. apply bind_inv in H. destruct H as (l & Hl & H). apply vec_set_ok in Hl. destruct Hl as [V ->].
      set (b0 := mkFB _ _ _ _) in H.
      assert (M : forall (A : Type) (g : FreezeNoteInput -> A), g (zi_set_ro (ro_set_flag f (zi_ro x)) x) = g x -> map g (fb_inputs b0) = map g (fb_inputs b)).
      { intros A g Hg. unfold b0. cbn [fb_inputs]. clear - Hx Hg. revert Hx. generalize (fb_inputs b) as l. induction i as [|n IH]; intros [|y l] Hi; cbn [nth_error list_set map] in *; try discriminate.
        - injection Hi as ->. rewrite Hg. reflexivity.
        - rewrite (IH l Hi). reflexivity. }
      assert (Lb : length (fb_inputs b0) = length (fb_inputs b)) by apply list_set_length.
      assert (Sh : fb_shape b0).
      { constructor; [intros G; rewrite G in Lb; destruct (fb_inputs b); [contradiction|discriminate]| |exact s3].
        intros y Hy. unfold b0 in Hy. cbn [fb_inputs] in Hy. apply In_nth_error in Hy. destruct Hy as (j & Hy). rewrite list_set_nth in Hy by exact V.
        destruct (Nat.eqb j i); [|exact (s2 y (nth_error_In _ _ Hy))]. injection Hy as <-. exact (s2 x (nth_error_In _ _ Hx)). }
      assert (Ro : fb_room b0) by (unfold fb_room; rewrite Lb; split; assumption).
      destruct (fb_refreshed _ _ Sh Ro HD H) as (U1 & U2 & U3 & U4 & U5 & U6 & U7 & U8).
      assert (Lb' : length (fb_inputs b') = length (fb_inputs b)) by (rewrite <- (map_length zi_ro (fb_inputs b')), U4, map_length; exact Lb).
      split; [exact U1|]. split; [unfold fb_room; rewrite Lb', U2; split; assumption|]. split; [exact U8|]. split; [exact U2|]. split; [exact U3|].
      split; [rewrite U5; apply M; reflexivity|]. split; [exact U7|]. split.
      + rewrite <- (map_map zi_ro pub_key (fb_inputs b')), U4, map_map. apply M. reflexivity.
      + rewrite U6. reflexivity.
    - unfold fb_update_fee_input_amount, fb_change_fee in H. set (b0 := mkFB _ _ _ _) in H.
      assert (Sh : fb_shape b0) by (constructor; assumption).
      assert (Ro : fb_room b0) by (split; assumption).
      destruct (fb_refreshed _ _ Sh Ro HD H) as (U1 & U2 & U3 & U4 & U5 & U6 & U7 & U8).
      assert (Lb' : length (fb_inputs b') = length (fb_inputs b)) by (rewrite <- (map_length zi_ro (fb_inputs b')), U4, map_length; reflexivity).
      split; [exact U1|]. split; [unfold fb_room; rewrite Lb', U2; split; assumption|]. split; [exact U8|]. split; [exact U2|]. split; [exact U3|].
      split; [exact U5|]. split; [exact U7|]. split; [rewrite <- (map_map zi_ro pub_key (fb_inputs b')), U4, map_map; reflexivity|rewrite U6; reflexivity].
  Qed.
  Theorem freeze_builds g fk pk vk b root bl r : freeze_preprocess g fk (length (fb_inputs b) + 1) (fb_depth b) = Ok (pk, vk) ->
    freeze_ready b root -> freeze_payable b ->
    exists n chg outs, fb_build_note bl r pk b = Ok (n, frd_sig r, chg, outs) /\ freeze_verify n vk root = Ok tt /\
      fn_nullifiers n = fb_nullifiers b /\ zv (amount chg) = zv (amount (fb_fee_ro b)) - zv (fb_fee b) /\ length outs = length (fb_inputs b) /\
      fn_commitments n = map derive_record_commitment (chg :: outs) /\
      forall k i o, nth_error (fb_inputs b) k = Some i -> nth_error outs k = Some o ->
        amount o = amount (zi_ro i) /\ asset_def o = asset_def (zi_ro i) /\ pub_key o = pub_key (zi_ro i) /\ freeze_flag o = flip (freeze_flag (zi_ro i)).
  Proof.
    intros HP [e1 e2 e3 (e4 & e4' & e4'') (e5 & e5' & e5'')] [p1 p2 p3]. unfold fb_build_note.
    destruct (fee_info_ready bl (fb_fee_in b) (fb_fee b) p2) as (chg & G1 & G2 & G3 & G4 & G5).
    rewrite G1. cbn [bind fst snd]. unfold fb_fee_ro in *.
    assert (PY : payable (fb_depth b) (mkFeeInfo (fb_fee_in b) (fb_fee b) chg)).
    { constructor; cbn [fee_input fi_acc fi_ro fi_kp fee_chg_ro fee_amount]; auto; [lia|congruence]. }
    assert (FZ : forall i, In i (fb_inputs b) -> freezable (fb_depth b) (acc_root (fi_acc (fee_input (mkFeeInfo (fb_fee_in b) (fb_fee b) chg)))) i).
    { intros i Hi. destruct (e3 i Hi) as ((M1 & M2 & M3) & M4). destruct (p1 i Hi) as [Q1 Q2]. cbn [fee_input]. constructor; auto; [intros _; congruence|].
      intros _. rewrite e4'. auto. }
    destruct (freeze_generate_live L SL g fk _ _ pk vk r (fb_inputs b) _ HP e2 eq_refl e1 PY FZ p3) as (n & HG & HV).
    rewrite HG. cbn [bind fst snd]. exists n, chg, (freeze_get_output_ros (frd_blinds r) (fb_inputs b)). split; [reflexivity|].
    cbn [fee_input fi_acc] in HV. rewrite e4' in HV. split; [exact HV|].
    destruct (generated_freeze L _ _ _ _ _ _ _ HG) as (_ & _ & Z3 & Z4 & _ & _ & _ & _ & _ & _ & _ & _ & _ & _ & _ & Z16 & _ & Z18 & _).
    cbn [fee_input fee_chg_ro] in *. split; [exact Z16|]. split; [exact G5|]. split; [exact Z3|]. split; [exact Z18|].
    intros k i o Hi Ho. destruct (Z4 k i o Hi Ho) as (Q1 & Q2 & Q3 & Q4 & _). auto.
  Qed.
End BuilderOther.
