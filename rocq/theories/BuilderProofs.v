(** The depth of a builder's tree, and what stays true of a transfer builder whatever calls are made. *)
From Verif Require Import Base Config Structs Keys Utils Memo Plonk Witness Circuits Relation CodecProofs PolicyProofs UtilsProofs Snark
  Notes NoteProofs Serde Ledger Wallet WalletProofs WalletPay Builder BuilderSpec BuilderLive.

(** ** Depth *)
Lemma usize_pow3_ok e p : usize_pow3 e = Ok p <-> p = 3 ^ Z.of_nat e /\ p < 2 ^ 64.
Proof.
  unfold usize_pow3. destruct (Z.ltb_spec (3 ^ Z.of_nat e) (2 ^ 64)); split.
  - intros G; injection G as <-. auto.
  - intros [-> _]. reflexivity.
  - discriminate.
  - intros [-> G]. lia.
Qed.
Lemma pow3_mono a b : (a <= b)%nat -> 3 ^ Z.of_nat a <= 3 ^ Z.of_nat b.
Proof. intros H. apply Z.pow_le_mono_r; lia. Qed.
Lemma pow3_from_ok current k : 3 ^ Z.of_nat k < 2 ^ 64 -> current <= 3 ^ Z.of_nat k ->
  (forall j, (j < k)%nat -> 3 ^ Z.of_nat j < current) ->
  forall fuel e, (e <= k)%nat -> (k < e + fuel)%nat -> pow3_from fuel e current = Ok (3 ^ Z.of_nat k).
Proof.
  intros Hk Hc Hm. induction fuel as [|fuel IH]; intros e He Hf; [lia|]. cbn [pow3_from].
  assert (HP : usize_pow3 e = Ok (3 ^ Z.of_nat e)) by (apply usize_pow3_ok; split; [reflexivity|pose proof (pow3_mono e k He); lia]).
  rewrite HP. cbn [bind]. destruct (Z.ltb_spec (3 ^ Z.of_nat e) current) as [G|G].
  - apply IH; [|lia]. destruct (Nat.eq_dec e k) as [->|]; lia.
  - f_equal. destruct (Nat.eq_dec e k) as [->|Hne]; [reflexivity|]. specialize (Hm e). lia.
Qed.
Lemma least_power current : 0 < current -> exists k, current <= 3 ^ Z.of_nat k /\ forall j, (j < k)%nat -> 3 ^ Z.of_nat j < current.
Proof.
  intros Hc. assert (H : exists n, current <= 3 ^ Z.of_nat n).
  { exists (Z.to_nat current). rewrite Z2Nat.id by lia. apply Z.lt_le_incl, Z.pow_gt_lin_r; lia. }
  destruct H as [n Hn]. induction n as [|n IH].
  - exists 0%nat. split; [exact Hn|intros j Hj; lia].
  - destruct (Z.le_gt_cases current (3 ^ Z.of_nat n)) as [G|G]; [apply IH, G|].
    exists (Datatypes.S n). split; [exact Hn|]. intros j Hj. apply Z.le_lt_trans with (3 ^ Z.of_nat n); [apply pow3_mono; lia|exact G].
Qed.
(** the smallest power of three that is not smaller *)
Lemma next_power_of_three_spec start current : 0 < current <= 3 ^ 40 -> start_ok start current ->
  exists k, (k <= 40)%nat /\ next_power_of_three start current = Ok (3 ^ Z.of_nat k) /\ current <= 3 ^ Z.of_nat k /\
            forall j, (j < k)%nat -> 3 ^ Z.of_nat j < current.
Proof.
  intros Hc Hs. destruct (least_power current) as (k & K1 & K2); [lia|].
  assert (K40 : (k <= 40)%nat).
  { destruct (le_lt_dec k 40) as [G|G]; [exact G|]. exfalso. specialize (K2 40%nat G). change (Z.of_nat 40) with 40 in K2. lia. }
  exists k. split; [exact K40|]. split; [|auto]. unfold next_power_of_three. apply pow3_from_ok; [|exact K1|exact K2| |lia].
  - apply Z.le_lt_trans with (3 ^ 40); [|reflexivity]. change 40 with (Z.of_nat 40). apply pow3_mono. exact K40.
  - destruct Hs as [->|Hs]; [lia|]. destruct (le_lt_dec start k) as [G|G]; [exact G|exfalso].
    assert (3 ^ Z.of_nat k <= 3 ^ (Z.of_nat start - 1)) by (apply Z.pow_le_mono_r; lia). lia.
Qed.
Lemma power_byte k : (k <= 38)%nat -> Z.of_nat k <= zv (b8 (3 ^ Z.of_nat k)).
Proof.
  intros H. assert (A : forallb (fun k => Z.of_nat k <=? (3 ^ Z.of_nat k) mod 256) (seq 0 39) = true) by (vm_compute; reflexivity).
  rewrite forallb_forall in A. specialize (A k). rewrite in_seq in A. apply Z.leb_le, A. lia.
Qed.

(** a tree that is made has room for all records *)
Lemma tree_depth_room start n_in n_out depth d : size_ok start n_in n_out depth -> calculate_tree_depth start n_in n_out depth = Ok d ->
  (1 <= n_in)%nat /\ (1 <= n_out)%nat /\ Z.of_nat n_in + Z.of_nat n_out <= 3 ^ zv d /\ Z.of_nat n_in + Z.of_nat n_out < 2 ^ 64 /\
  (forall d0, depth = Some d0 -> d = d0).
Proof.
  intros HS. unfold calculate_tree_depth. destruct (Nat.eqb_spec n_in 0) as [|H1]; [discriminate|]. destruct (Nat.eqb_spec n_out 0) as [|H2]; [discriminate|].
  destruct depth as [d0|].
  - destruct (usize_pow3 _) as [cap| |] eqn:G; cbn [bind]; try discriminate. apply usize_pow3_ok in G. destruct G as [-> G].
    destruct (Z.leb_spec (Z.of_nat n_in + Z.of_nat n_out) (3 ^ Z.of_nat (Z.to_nat (zv d0)))) as [H|H]; [|discriminate].
    intros Q. injection Q as <-. pose proof (zv_range d0). rewrite Z2Nat.id in * by lia. repeat split; try lia. intros d1 Q. congruence.
  - destruct (HS eq_refl) as [S1 S2].
    destruct (next_power_of_three_spec start (Z.of_nat n_in + Z.of_nat n_out)) as (k & K1 & K2 & K3 & K4); [split; [lia|apply Z.le_trans with (3 ^ 38); [exact S1|vm_compute; discriminate]]|exact S2|].
    rewrite K2. cbn [bind]. intros Q. injection Q as <-.
    assert (K38 : (k <= 38)%nat).
    { destruct (le_lt_dec k 38) as [G|G]; [exact G|]. exfalso. specialize (K4 38%nat G). change (Z.of_nat 38) with 38 in K4. lia. }
    pose proof (power_byte k K38) as PB. repeat split; try lia.
    + apply Z.le_trans with (3 ^ Z.of_nat k); [exact K3|]. apply Z.pow_le_mono_r; lia.
    + discriminate.
Qed.
(** without a depth the builder finds one *)
Lemma tree_depth_found start n_in n_out : (1 <= n_in)%nat -> (1 <= n_out)%nat -> size_ok start n_in n_out None ->
  exists d, calculate_tree_depth start n_in n_out None = Ok d.
Proof.
  intros H1 H2 HS. destruct (HS eq_refl) as [S1 S2]. unfold calculate_tree_depth.
  destruct (Nat.eqb_spec n_in 0); [lia|]. destruct (Nat.eqb_spec n_out 0); [lia|].
  destruct (next_power_of_three_spec start (Z.of_nat n_in + Z.of_nat n_out)) as (k & K1 & K2 & K3 & K4);
    [split; [lia|apply Z.le_trans with (3 ^ 38); [exact S1|vm_compute; discriminate]]|exact S2|].
  rewrite K2. eexists. reflexivity.
Qed.

(** ** Lists *)
Lemma list_set_length {A} : forall i (v : A) l, length (list_set i v l) = length l.
Proof. induction i as [|i IH]; intros v [|x l]; cbn [list_set length]; try reflexivity. rewrite IH. reflexivity. Qed.
Lemma list_set_nth {A} : forall i (v : A) l j, (i < length l)%nat ->
  nth_error (list_set i v l) j = if (j =? i)%nat then Some v else nth_error l j.
Proof.
  induction i as [|i IH]; intros v [|x l] j H; cbn [length] in H; try lia; destruct j as [|j]; cbn [list_set nth_error Nat.eqb]; try reflexivity.
  apply IH. lia.
Qed.
Lemma vec_set_ok {A} i (v : A) l l' : vec_set i v l = Ok l' <-> (i < length l)%nat /\ l' = list_set i v l.
Proof.
  unfold vec_set. destruct (Nat.ltb_spec i (length l)); split; try discriminate; try (intros [? ?]; lia).
  - intros G; injection G as <-; auto.
  - intros [_ ->]; reflexivity.
Qed.
Lemma vec_get_ok {A} (l : list A) i x : vec_get l i = Ok x <-> nth_error l i = Some x.
Proof. unfold vec_get. destruct (nth_error l i); split; intros G; try discriminate; injection G as <-; reflexivity. Qed.
Lemma mapM_nth {A B} (f : A -> res B) : forall l l', mapM f l = Ok l' -> length l' = length l /\
  forall i y, nth_error l' i = Some y -> exists x, nth_error l i = Some x /\ f x = Ok y.
Proof.
  induction l as [|x l IH]; intros l' H; cbn [mapM] in H; [injection H as <-; split; [reflexivity|intros [|i] y; discriminate]|].
  destruct (f x) as [y0| |] eqn:E; cbn [bind] in H; try discriminate. destruct (mapM f l) as [l0| |] eqn:E2; cbn [bind] in H; try discriminate.
  injection H as <-. destruct (IH _ eq_refl) as [I1 I2]. split; [cbn [length]; rewrite I1; reflexivity|].
  intros [|i] y Hy; cbn [nth_error] in *; [injection Hy as <-; eauto|apply I2, Hy].
Qed.

Section BuilderProofs.
  Context {C : CapConfig} {S : Snark C} {K : @RoCodec C} {E : MemoSer C} (L : CapLaws C).

  (** ** Membership witnesses *)
  Lemma put_accs_spec depth leaves : forall uids idx accs accs', put_accs depth leaves idx uids accs = Ok accs' ->
    length accs' = length accs /\
    (forall j u, nth_error uids j = Some u -> exists a, nth_error accs' (idx + j) = Some a /\ lookup_from_tree depth leaves u = Ok a) /\
    (forall j, (j < idx)%nat \/ (idx + length uids <= j)%nat -> nth_error accs' j = nth_error accs j).
  Proof.
    induction uids as [|u us IH]; intros idx accs accs' H; cbn [put_accs] in H.
    - injection H as <-. split; [reflexivity|]. split; [intros [|j] u; discriminate|auto].
    - destruct (lookup_from_tree depth leaves u) as [a| |] eqn:EL; cbn [bind] in H; try discriminate.
      destruct (vec_set idx a accs) as [accs1| |] eqn:EV; cbn [bind] in H; try discriminate. apply vec_set_ok in EV. destruct EV as [V1 ->].
      destruct (IH _ _ _ H) as (I1 & I2 & I3). rewrite list_set_length in I1. split; [exact I1|]. split.
      + intros [|j] u' Hj; cbn [nth_error] in Hj.
        * injection Hj as <-. exists a. split; [|exact EL]. rewrite Nat.add_0_r. rewrite I3 by lia. rewrite list_set_nth by exact V1. rewrite Nat.eqb_refl. reflexivity.
        * destruct (I2 j u' Hj) as (a' & G1 & G2). exists a'. split; [|exact G2]. rewrite <- G1. f_equal. lia.
      + intros j Hj. cbn [length] in Hj. rewrite I3 by lia. rewrite list_set_nth by exact V1. destruct (Nat.eqb_spec j idx); [lia|reflexivity].
  Qed.
  Lemma put_accs_live depth leaves : forall uids idx accs, (idx + length uids <= length accs)%nat ->
    (forall u, In u uids -> exists a, lookup_from_tree depth leaves u = Ok a) -> exists accs', put_accs depth leaves idx uids accs = Ok accs'.
  Proof.
    induction uids as [|u us IH]; intros idx accs Hl H; cbn [put_accs]; [eexists; reflexivity|].
    destruct (H u (or_introl eq_refl)) as (a & ->). cbn [bind]. cbn [length] in Hl.
    assert (EV : vec_set idx a accs = Ok (list_set idx a accs)) by (apply vec_set_ok; split; [lia|reflexivity]).
    rewrite EV. cbn [bind]. apply IH; [rewrite list_set_length; lia|]. intros u' Hu. apply H. right; exact Hu.
  Qed.
  Lemma uids_from_nth from n i : (i < n)%nat -> nth_error (uids_from from n) i = Some (w64 (Z.of_nat (from + i))).
  Proof.
    intros H. unfold uids_from. rewrite nth_error_map.
    assert (G : nth_error (seq from n) i = Some (from + i)%nat).
    { rewrite (nth_error_nth' _ 0%nat) by (rewrite seq_length; exact H). rewrite seq_nth by exact H. reflexivity. }
    rewrite G. reflexivity.
  Qed.
  Lemma zv_w64_nat i : Z.of_nat i < 2 ^ 64 -> zv (w64 (Z.of_nat i)) = Z.of_nat i.
  Proof. intros H. unfold w64. rewrite zv_zred. apply Z.mod_small. change u64_mod with (2 ^ 64). lia. Qed.
  Lemma uids_from_length from n : length (uids_from from n) = n.
  Proof. unfold uids_from. rewrite map_length, seq_length. reflexivity. Qed.

  (** looking up a leaf shows that the record behind it is in the tree *)
  Lemma lookup_proves depth leaves i r a : Z.of_nat (length leaves) < 2 ^ 64 -> Z.of_nat (length leaves) <= 3 ^ Z.of_nat depth ->
    nth_error leaves i = Some (derive_record_commitment r) -> lookup_from_tree depth leaves (w64 (Z.of_nat i)) = Ok a ->
    acc_uid a = w64 (Z.of_nat i) /\ proves depth (tree_root depth leaves) r a.
  Proof.
    intros H64 Hcap Hn Ha. assert (Hi : (i < length leaves)%nat) by (apply nth_error_Some; congruence).
    assert (Z1 : Z.to_nat (zv (w64 (Z.of_nat i))) = i) by (rewrite zv_w64_nat by lia; lia).
    destruct (tree_lookup depth leaves (w64 (Z.of_nat i)) (derive_record_commitment r)) as (a' & A1 & A2 & A3 & A4 & A5).
    - rewrite Z1. exact Hn.
    - apply Nat2Z.inj_le. rewrite Nat2Z.inj_pow. exact Hcap.
    - rewrite Ha in A1. injection A1 as <-. split; [exact A2|]. split; [exact A3|]. split; [exact A4|]. rewrite A2. exact A5.
  Qed.

  (** ** The invariant *)
  Record shape (b : TransferBuilder) : Prop := {
    sh_kps : length (tb_kps b) = tb_num_in b;
    sh_creds : length (tb_creds b) = tb_num_in b;
    sh_accs : length (tb_accs b) = tb_num_in b;
    sh_num : (1 <= tb_num_in b)%nat;
    sh_room : Z.of_nat (tb_num_in b) <= 3 ^ Z.of_nat (tb_depth b);
    sh_64 : Z.of_nat (tb_num_in b) < 2 ^ 64;
    sh_ins : tb_ins b = [] \/ length (tb_ins b) = tb_num_in b;
    sh_outs : tb_outs b = [] \/ (length (tb_outs b) + 1)%nat = tb_num_out b;
    sh_owner : forall i r k, nth_error (tb_ins b) i = Some r -> nth_error (tb_kps b) i = Some k -> pub_key r = user_pub_key k;
    sh_chg : tb_outs b <> [] -> freeze_flag (tb_chg b) = Unfrozen /\
             forall k, nth_error (tb_kps b) 0 = Some k -> pub_key (tb_chg b) = user_pub_key k;
    sh_out_flags : forall o, In o (tb_outs b) -> freeze_flag o = Unfrozen
  }.
  Definition current (b : TransferBuilder) : Prop :=
    tb_ins b <> [] -> tb_root b = tree_root (tb_depth b) (map derive_record_commitment (tb_ins b)) /\
    forall i, (i < length (tb_ins b))%nat -> exists a, nth_error (tb_accs b) i = Some a /\
      lookup_from_tree (tb_depth b) (map derive_record_commitment (tb_ins b)) (w64 (Z.of_nat i)) = Ok a.

  Lemma update_accs_spec depth leaves uids b b' : tb_update_accs depth leaves uids b = Ok b' ->
    exists accs l, b' = tb_set_accs b accs (tree_root depth leaves) /\ put_accs depth leaves 0 l (tb_accs b) = Ok accs /\
      length l = length (tb_ins b) /\ l = match uids with Some l => l | None => uids_from 0 (length (tb_ins b)) end.
  Proof.
    unfold tb_update_accs. intros H.
    destruct uids as [l|].
    - destruct (Nat.eqb_spec (length l) (length (tb_ins b))) as [G|G]; cbn [bind] in H; [|discriminate].
      destruct (put_accs _ _ _ _ _) as [accs| |] eqn:EP; cbn [bind] in H; try discriminate. injection H as <-. exists accs, l. auto.
    - cbn [bind] in H. destruct (put_accs _ _ _ _ _) as [accs| |] eqn:EP; cbn [bind] in H; try discriminate. injection H as <-.
      exists accs, (uids_from 0 (length (tb_ins b))). rewrite uids_from_length. auto.
  Qed.
  Lemma refresh_current b b' : shape b -> tb_refresh b = Ok b' -> shape b' /\ current b' /\ exists accs root, b' = tb_set_accs b accs root.
  Proof.
    intros Sh H. unfold tb_refresh in H. apply update_accs_spec in H. destruct H as (accs & l & -> & HP & Hl & ->).
    destruct (put_accs_spec _ _ _ _ _ _ HP) as (P1 & P2 & P3).
    split; [|split].
    - destruct Sh. constructor; cbn [tb_set_accs tb_kps tb_creds tb_accs tb_num_in tb_num_out tb_depth tb_ins tb_outs tb_chg] in *; auto. congruence.
    - intros _. cbn [tb_set_accs tb_ins tb_depth tb_root tb_accs]. split; [reflexivity|]. intros i Hi.
      destruct (P2 i (w64 (Z.of_nat i))) as (a & A1 & A2); [apply (uids_from_nth 0); exact Hi|]. exists a. auto.
    - eauto.
  Qed.

  Lemma map_rest_nth {A} (f : A -> A) l i x : nth_error (map_rest f l) i = Some x ->
    exists y, nth_error l i = Some y /\ (x = y \/ x = f y).
  Proof.
    destruct l as [|y l]; [destruct i; discriminate|]. destruct i as [|i]; cbn [map_rest nth_error]; [intros H; injection H as <-; eauto|].
    rewrite nth_error_map. destruct (nth_error l i) as [y'|]; cbn [option_map]; [|discriminate]. intros H. injection H as <-. eauto.
  Qed.
  Lemma map_rest_length {A} (f : A -> A) l : length (map_rest f l) = length l.
  Proof. destruct l; cbn [map_rest length]; [reflexivity|]. rewrite map_length. reflexivity. Qed.
  Lemma mapM_rest_nth {A} (f : A -> res A) l l' : mapM_rest f l = Ok l' -> length l' = length l /\
    forall i y, nth_error l' i = Some y -> exists x, nth_error l i = Some x /\ (x = y \/ f x = Ok y).
  Proof.
    destruct l as [|x l]; cbn [mapM_rest]; [intros H; injection H as <-; split; [reflexivity|intros [|i] y; discriminate]|].
    destruct (mapM f l) as [l2| |] eqn:EM; cbn [bind]; try discriminate. intros H. injection H as <-. destruct (mapM_nth _ _ _ EM) as [M1 M2].
    split; [cbn [length]; rewrite M1; reflexivity|]. intros [|i] y Hy; cbn [nth_error] in *; [injection Hy as <-; eauto|].
    destruct (M2 i y Hy) as (x' & G1 & G2). eauto.
  Qed.
  Lemma ro_reveal_same a r r' : ro_reveal a r = Ok r' -> pub_key r' = pub_key r /\ freeze_flag r' = freeze_flag r.
  Proof. unfold ro_reveal. destruct (policy_reveal _ _); cbn [bind]; try discriminate. intros H; injection H as <-. split; reflexivity. Qed.

  (** changes of the records that keep owners (and flags of outputs) *)
  Lemma shape_records b ins outs : shape b ->
    (length ins = length (tb_ins b)) -> (forall i r, nth_error ins i = Some r -> exists r0, nth_error (tb_ins b) i = Some r0 /\ pub_key r = pub_key r0) ->
    (length outs = length (tb_outs b)) -> (forall i o, nth_error outs i = Some o -> exists o0, nth_error (tb_outs b) i = Some o0 /\ freeze_flag o = freeze_flag o0) ->
    shape (tb_set_outs (tb_set_ins b ins) outs).
  Proof.
    intros Sh L1 H1 L2 H2. destruct Sh as [s1 s2 s3 s4 s5 s6 s7 s8 s9 s10 s11].
    constructor; cbn [tb_set_ins tb_set_outs tb_kps tb_creds tb_accs tb_num_in tb_num_out tb_depth tb_ins tb_outs tb_chg]; auto.
    - destruct s7 as [Q|Q]; [left; rewrite Q in L1; destruct ins; [reflexivity|discriminate]|right; congruence].
    - destruct s8 as [Q|Q]; [left; rewrite Q in L2; destruct outs; [reflexivity|discriminate]|right; congruence].
    - intros i r k Hr Hk. destruct (H1 i r Hr) as (r0 & G1 & G2). rewrite G2. exact (s9 i r0 k G1 Hk).
    - intros G. apply s10. intros Q. rewrite Q in L2. destruct outs; [contradiction|discriminate].
    - intros o Ho. apply In_nth_error in Ho. destruct Ho as (i & Ho). destruct (H2 i o Ho) as (o0 & G1 & G2). rewrite G2. apply s11. apply (nth_error_In _ i). exact G1.
  Qed.
  Lemma shape_asset b a : shape b -> shape (tb_set_asset b a).
  Proof. intros [s1 s2 s3 s4 s5 s6 s7 s8 s9 s10 s11]. constructor; assumption. Qed.
  Lemma set_outs_ins b l : tb_set_outs (tb_set_ins b l) (tb_outs b) = tb_set_ins b l.
  Proof. destruct b; reflexivity. Qed.
  Lemma set_ins_same b : tb_set_ins b (tb_ins b) = b.
  Proof. destruct b; reflexivity. Qed.

  (** what never changes *)
  Definition same_frame (b b' : TransferBuilder) : Prop :=
    tb_num_in b' = tb_num_in b /\ tb_num_out b' = tb_num_out b /\ tb_depth b' = tb_depth b /\ tb_kps b' = tb_kps b.
  
  Lemma frame_trans a b c : same_frame a b -> same_frame b c -> same_frame a c.
  Proof. unfold same_frame. intuition congruence. Qed.

  Lemma change_input_spec i f b b' : shape b -> (forall r, pub_key (f r) = pub_key r) -> tb_change_input i f b = Ok b' ->
    shape b' /\ current b' /\ same_frame b b' /\ tb_creds b' = tb_creds b /\ tb_asset b' = tb_asset b /\ tb_outs b' = tb_outs b /\ tb_chg b' = tb_chg b /\
    exists r, nth_error (tb_ins b) i = Some r /\ tb_ins b' = list_set i (f r) (tb_ins b).
  Proof.
    intros Sh Hf H. unfold tb_change_input in H. destruct (vec_get _ _) as [r| |] eqn:EG; cbn [bind] in H; try discriminate. apply vec_get_ok in EG.
    destruct (vec_set _ _ _) as [l| |] eqn:EV; cbn [bind] in H; try discriminate. apply vec_set_ok in EV. destruct EV as [V1 ->].
    apply refresh_current in H.
    - destruct H as (S1 & C1 & accs & root & ->). split; [exact S1|]. split; [exact C1|]. split; [repeat split|].
      repeat (split; [reflexivity|]). exists r. split; [exact EG|reflexivity].
    - rewrite <- (set_outs_ins b). apply shape_records; [exact Sh|apply list_set_length| |reflexivity|intros j o Ho; eauto].
      intros j r' Hr. rewrite list_set_nth in Hr by exact V1. destruct (Nat.eqb_spec j i) as [->|Hne]; [|eauto].
      injection Hr as <-. exists r. split; [exact EG|apply Hf].
  Qed.

  Lemma input_records_spec b bl : forall amounts i rs, input_records b bl i amounts = Ok rs -> length rs = length amounts /\
    forall j r, nth_error rs j = Some r -> exists k a, nth_error (tb_kps b) (i + 1 + j) = Some k /\ nth_error amounts j = Some a /\
      r = ro_new (bl (i + 1 + j)%nat) a (tb_def b) (user_pub_key k) Unfrozen.
  Proof.
    induction amounts as [|a l IH]; intros i rs H; cbn [input_records] in H; [injection H as <-; split; [reflexivity|intros [|j] r; discriminate]|].
    unfold input_upk_at in H. destruct (vec_get _ _) as [k| |] eqn:EG; cbn [bind] in H; try discriminate. apply vec_get_ok in EG.
    destruct (input_records b bl (i + 1) l) as [rs'| |] eqn:ER; cbn [bind] in H; try discriminate. injection H as <-.
    destruct (IH _ _ ER) as [I1 I2]. split; [cbn [length]; rewrite I1; reflexivity|].
    intros [|j] r Hr; cbn [nth_error] in Hr.
    - injection Hr as <-. exists k, a. rewrite Nat.add_0_r. auto.
    - destruct (I2 j r Hr) as (k' & a' & G1 & G2 & G3). exists k', a'. cbn [nth_error]. replace (i + 1 + Datatypes.S j)%nat with (i + 1 + 1 + j)%nat by lia. auto.
  Qed.
  Lemma output_records_spec d kps bl : forall amounts i, length (output_records d kps bl i amounts) = length amounts /\
    forall j, nth_error (output_records d kps bl i amounts) j =
      option_map (fun a => ro_new (bl (i + 1 + j)%nat) a d (user_pub_key (kps (i + j)%nat)) Unfrozen) (nth_error amounts j).
  Proof.
    induction amounts as [|a l IH]; intros i; [split; [reflexivity|intros [|j]; reflexivity]|]. destruct (IH (i + 1)%nat) as [I1 I2].
    split; [cbn [output_records length]; rewrite I1; reflexivity|]. intros [|j]; cbn [output_records nth_error option_map].
    - rewrite !Nat.add_0_r. reflexivity.
    - rewrite I2. replace (i + 1 + 1 + j)%nat with (i + 1 + Datatypes.S j)%nat by lia. replace (i + 1 + j)%nat with (i + Datatypes.S j)%nat by lia. reflexivity.
  Qed.
  Lemma put_creds_spec attrs expiry b : forall l creds creds', NoDup l -> put_creds attrs expiry b l creds = Ok creds' ->
    length creds' = length creds /\
    forall i, (In i l -> exists c, input_cred attrs expiry b i = Ok c /\ nth_error creds' i = Some c) /\
              (~ In i l -> nth_error creds' i = nth_error creds i).
  Proof.
    induction l as [|j l IH]; intros creds creds' ND H; cbn [put_creds] in H; [injection H as <-; split; [reflexivity|intros i; split; [intros []|reflexivity]]|].
    apply NoDup_cons_iff in ND. destruct ND as [N1 N2].
    destruct (input_cred attrs expiry b j) as [c| |] eqn:EC; cbn [bind] in H; try discriminate.
    destruct (vec_set j c creds) as [c1| |] eqn:EV; cbn [bind] in H; try discriminate. apply vec_set_ok in EV. destruct EV as [V1 ->].
    destruct (IH _ _ N2 H) as [I1 I2]. rewrite list_set_length in I1. split; [exact I1|]. intros i. destruct (I2 i) as [A B]. split.
    - intros [<-|Hi]; [|apply A, Hi]. exists c. split; [exact EC|]. rewrite (B N1). rewrite list_set_nth by exact V1. rewrite Nat.eqb_refl. reflexivity.
    - intros Hi. rewrite B by (intros G; apply Hi; right; exact G). rewrite list_set_nth by exact V1.
      destruct (Nat.eqb_spec i j) as [->|]; [destruct Hi; left; reflexivity|reflexivity].
  Qed.

  Lemma set_inputs_spec bl fee amounts b b' : shape b -> tb_set_input_amounts bl fee amounts b = Ok b' ->
    shape b' /\ current b' /\ same_frame b b' /\ tb_creds b' = tb_creds b /\ tb_asset b' = tb_asset b /\ tb_outs b' = tb_outs b /\ tb_chg b' = tb_chg b /\
    exists k rs, nth_error (tb_kps b) 0 = Some k /\ input_records b bl 0 amounts = Ok rs /\ (length amounts + 1)%nat = tb_num_in b /\
      tb_ins b' = ro_new (bl 0%nat) fee asset_def_native (user_pub_key k) Unfrozen :: rs.
  Proof.
    intros Sh H. unfold tb_set_input_amounts in H. destruct (Nat.eqb_spec (length (tb_ins b)) 0) as [E0|]; cbn [negb] in H; [|discriminate].
    destruct (Nat.eqb_spec (length amounts + 1) (tb_num_in b)) as [E1|]; cbn [negb] in H; [|discriminate].
    unfold input_upk_at in H. destruct (vec_get (tb_kps b) 0) as [k| |] eqn:EG; cbn [bind] in H; try discriminate. apply vec_get_ok in EG.
    destruct (input_records b bl 0 amounts) as [rs| |] eqn:ER; cbn [bind] in H; try discriminate.
    destruct (input_records_spec _ _ _ _ _ ER) as [I1 I2].
    apply refresh_current in H.
    - destruct H as (S1 & C1 & accs & root & ->). split; [exact S1|]. split; [exact C1|]. split; [repeat split|].
      repeat (split; [reflexivity|]). exists k, rs. auto.
    - destruct Sh as [s1 s2 s3 s4 s5 s6 s7 s8 s9 s10 s11]. constructor; cbn [tb_set_ins tb_kps tb_creds tb_accs tb_num_in tb_num_out tb_depth tb_ins tb_outs tb_chg]; auto.
      + right. cbn [length]. lia.
      + intros [|i] r k' Hr Hk; cbn [nth_error] in Hr; [injection Hr as <-; cbn [ro_new pub_key]; congruence|].
        destruct (I2 i r Hr) as (k2 & a & G1 & G2 & ->). cbn [ro_new pub_key]. change (0 + 1 + i)%nat with (Datatypes.S i) in G1. congruence.
  Qed.
  Lemma set_outputs_spec kps bl chg amounts b b' : shape b -> tb_set_output_amounts kps bl chg amounts b = Ok b' ->
    shape b' /\ (current b -> current b') /\ same_frame b b' /\ tb_creds b' = tb_creds b /\ tb_asset b' = tb_asset b /\ tb_ins b' = tb_ins b /\
    exists k, nth_error (tb_kps b) 0 = Some k /\ (length amounts + 1)%nat = tb_num_out b /\
      tb_chg b' = ro_new (bl 0%nat) chg asset_def_native (user_pub_key k) Unfrozen /\ tb_outs b' = output_records (tb_def b) kps bl 0 amounts.
  Proof.
    intros Sh H. unfold tb_set_output_amounts in H. destruct (Nat.eqb_spec (length (tb_outs b)) 0) as [E0|]; cbn [negb] in H; [|discriminate].
    destruct (Nat.eqb_spec (length amounts + 1) (tb_num_out b)) as [E1|]; cbn [negb] in H; [|discriminate].
    unfold input_upk_at in H. destruct (vec_get (tb_kps b) 0) as [k| |] eqn:EG; cbn [bind] in H; try discriminate. apply vec_get_ok in EG.
    injection H as <-. destruct (output_records_spec (tb_def b) kps bl amounts 0) as [O1 O2].
    split; [|split; [intros Q; exact Q|split; [repeat split|]]].
    - destruct Sh as [s1 s2 s3 s4 s5 s6 s7 s8 s9 s10 s11]. constructor; cbn [tb_set_outs tb_set_chg tb_kps tb_creds tb_accs tb_num_in tb_num_out tb_depth tb_ins tb_outs tb_chg]; auto.
      + right. rewrite O1. exact E1.
      + intros _. split; [reflexivity|]. intros k' Hk. cbn [ro_new pub_key]. congruence.
      + intros o Ho. apply In_nth_error in Ho. destruct Ho as (i & Ho). rewrite O2 in Ho. destruct (nth_error amounts i); [|discriminate].
        injection Ho as <-. reflexivity.
    - repeat (split; [reflexivity|]). exists k. auto.
  Qed.
  Lemma set_creds_spec attrs expiry b b' : shape b -> tb_set_input_creds attrs expiry b = Ok b' ->
    shape b' /\ (current b -> current b') /\ same_frame b b' /\ tb_asset b' = tb_asset b /\ tb_ins b' = tb_ins b /\ tb_outs b' = tb_outs b /\ tb_chg b' = tb_chg b /\
    tb_accs b' = tb_accs b /\ tb_root b' = tb_root b /\
    forall i, (i < tb_num_in b)%nat -> exists c, input_cred attrs expiry b i = Ok c /\ nth_error (tb_creds b') i = Some c.
  Proof.
    intros Sh H. unfold tb_set_input_creds in H. destruct (put_creds _ _ _ _ _) as [creds| |] eqn:EP; cbn [bind] in H; try discriminate. injection H as <-.
    destruct (put_creds_spec _ _ _ _ _ _ (seq_NoDup _ _) EP) as [P1 P2].
    split; [|split; [intros Q; exact Q|split; [repeat split|]]].
    - destruct Sh as [s1 s2 s3 s4 s5 s6 s7 s8 s9 s10 s11]. constructor; cbn [tb_set_creds tb_kps tb_creds tb_accs tb_num_in tb_num_out tb_depth tb_ins tb_outs tb_chg]; auto. congruence.
    - repeat (split; [reflexivity|]). intros i Hi. apply P2. apply in_seq. lia.
  Qed.

  (** every call keeps the shape, the frame and the witnesses *)
  Lemma call_shape c b b' : shape b -> current b -> call c b = Ok b' -> shape b' /\ current b' /\ same_frame b b'.
  Proof.
    intros Sh Cu H. destruct c; cbn [call] in H.
    - unfold tb_policy_reveal in H. destruct (tb_asset b) as [nn|]; [|discriminate].
      destruct (map_reveal _ _) as [m| |]; cbn [bind] in H; try discriminate. cbv zeta in H.
      destruct (mapM_rest _ _) as [ins| |] eqn:EI; cbn [bind] in H; try discriminate.
      destruct (mapM _ _) as [outs| |] eqn:EO; cbn [bind] in H; try discriminate.
      destruct (mapM_rest_nth _ _ _ EI) as [I1 I2]. destruct (mapM_nth _ _ _ EO) as [O1 O2].
      apply refresh_current in H.
      + destruct H as (S1 & C1 & accs & root & ->). split; [exact S1|]. split; [exact C1|]. repeat split.
      + apply shape_records; [apply shape_asset, Sh|exact I1| |exact O1|].
        * intros i r Hr. destruct (I2 i r Hr) as (x & G1 & [->|G2]); [eauto|]. exists x. split; [exact G1|]. exact (proj1 (ro_reveal_same _ _ _ G2)).
        * intros i o Ho. destruct (O2 i o Ho) as (x & G1 & G2). exists x. split; [exact G1|]. exact (proj2 (ro_reveal_same _ _ _ G2)).
    - unfold tb_set_reveal_threshold, tb_change_policy in H. destruct (tb_asset b) as [nn|]; [|discriminate]. cbv zeta in H.
      apply refresh_current in H.
      + destruct H as (S1 & C1 & accs & root & ->). split; [exact S1|]. split; [exact C1|]. repeat split.
      + apply shape_records; [apply shape_asset, Sh|apply map_rest_length| |apply map_length|].
        * intros i r Hr. apply map_rest_nth in Hr. destruct Hr as (y & G1 & [->| ->]); eauto.
        * intros i o Ho. rewrite nth_error_map in Ho. destruct (nth_error _ i) as [y|] eqn:G; [|discriminate]. injection Ho as <-. eauto.
    - unfold tb_set_reveal_map, tb_change_policy in H. destruct (tb_asset b) as [nn|]; [|discriminate]. cbv zeta in H.
      apply refresh_current in H.
      + destruct H as (S1 & C1 & accs & root & ->). split; [exact S1|]. split; [exact C1|]. repeat split.
      + apply shape_records; [apply shape_asset, Sh|apply map_rest_length| |apply map_length|].
        * intros i r Hr. apply map_rest_nth in Hr. destruct Hr as (y & G1 & [->| ->]); eauto.
        * intros i o Ho. rewrite nth_error_map in Ho. destruct (nth_error _ i) as [y|] eqn:G; [|discriminate]. injection Ho as <-. eauto.
    - apply set_inputs_spec in H; [|exact Sh]. destruct H as (S1 & C1 & F1 & _). auto.
    - apply set_outputs_spec in H; [|exact Sh]. destruct H as (S1 & C1 & F1 & _). auto.
    - apply set_creds_spec in H; [|exact Sh]. destruct H as (S1 & C1 & F1 & _). auto.
    - unfold tb_update_input_freeze_flag in H. destruct (assert_index _ _) as [[]| |]; cbn [bind] in H; try discriminate.
      apply change_input_spec in H; [|exact Sh|reflexivity]. destruct H as (S1 & C1 & F1 & _). auto.
    - apply change_input_spec in H; [|exact Sh|reflexivity]. destruct H as (S1 & C1 & F1 & _). auto.
    - unfold tb_update_input_asset_def in H. destruct (assert_index _ _) as [[]| |]; cbn [bind] in H; try discriminate.
      apply change_input_spec in H; [|exact Sh|reflexivity]. destruct H as (S1 & C1 & F1 & _). auto.
    - unfold tb_set_dummy_input_record in H. destruct (assert_index _ _) as [[]| |]; cbn [bind] in H; try discriminate.
      apply change_input_spec in H; [|exact Sh|reflexivity]. destruct H as (S1 & C1 & F1 & _). auto.
    - unfold tb_update_fee_chg_asset_def in H. injection H as <-. split; [|split; [exact Cu|repeat split]].
      destruct Sh as [s1 s2 s3 s4 s5 s6 s7 s8 s9 s10 s11]. constructor; auto.
    - unfold tb_update_output_asset_def in H. destruct (vec_get _ _) as [r| |] eqn:EG; cbn [bind] in H; try discriminate. apply vec_get_ok in EG.
      destruct (vec_set _ _ _) as [l| |] eqn:EV; cbn [bind] in H; try discriminate. apply vec_set_ok in EV. destruct EV as [V1 ->]. injection H as <-.
      split; [|split; [exact Cu|repeat split]]. rewrite <- (set_ins_same b) at 1. apply shape_records; [exact Sh|reflexivity|intros j x Hx; eauto|apply list_set_length|].
      intros j o Ho. rewrite list_set_nth in Ho by exact V1. destruct (Nat.eqb_spec j i) as [->|]; [|eauto]. injection Ho as <-. exists r. split; [exact EG|reflexivity].
    - apply change_input_spec in H; [|exact Sh|reflexivity]. destruct H as (S1 & C1 & F1 & _). auto.
    - unfold tb_update_input_amount in H. destruct (assert_index _ _) as [[]| |]; cbn [bind] in H; try discriminate.
      apply change_input_spec in H; [|exact Sh|reflexivity]. destruct H as (S1 & C1 & F1 & _). auto.
  Qed.
  Lemma calls_shape : forall l b b', shape b -> current b -> calls l b = Ok b' -> shape b' /\ current b' /\ same_frame b b'.
  Proof.
    induction l as [|c l IH]; intros b b' Sh Cu H; cbn [calls] in H; [injection H as <-; split; [exact Sh|split; [exact Cu|repeat split]]|].
    destruct (call c b) as [b1| |] eqn:EC; cbn [bind] in H; try discriminate. destruct (call_shape _ _ _ Sh Cu EC) as (S1 & C1 & F1).
    destruct (IH _ _ S1 C1 H) as (S2 & C2 & F2). split; [exact S2|]. split; [exact C2|]. exact (frame_trans _ _ _ F1 F2).
  Qed.

  Lemma new_shape start n_in n_out depth kps asset b : size_ok start n_in n_out depth -> tb_new start n_in n_out depth kps asset = Ok b ->
    shape b /\ current b /\ tb_num_in b = n_in /\ tb_num_out b = n_out /\ tb_kps b = kps /\ tb_asset b = asset /\
    (forall d, depth = Some d -> tb_depth b = Z.to_nat (zv d)) /\ tb_ins b = [] /\ tb_outs b = [] /\ (1 <= n_out)%nat.
  Proof.
    intros HS H. unfold tb_new in H. destruct (Nat.eqb_spec (length kps) n_in) as [Ek|]; cbn [negb] in H; [|discriminate].
    destruct (calculate_tree_depth start n_in n_out depth) as [d| |] eqn:ED; cbn [bind] in H; try discriminate. injection H as <-.
    destruct (tree_depth_room _ _ _ _ _ HS ED) as (D1 & D2 & D3 & D4 & D5). pose proof (zv_range d) as RD.
    split; [|split; [|repeat (split; [reflexivity|]); split; [intros d0 Hd; rewrite (D5 d0 Hd); reflexivity|auto]]].
    - constructor; cbn [tb_kps tb_creds tb_accs tb_num_in tb_num_out tb_depth tb_ins tb_outs tb_chg]; auto.
      + apply repeat_length.
      + apply repeat_length.
      + rewrite Z2Nat.id by lia. lia.
      + lia.
      + intros [|i] r k Hr; discriminate.
      + intros G. destruct G. reflexivity.
      + intros o [].
    - intros G. destruct G. reflexivity.
  Qed.

  (** ** C64: the witnesses of a builder are those of its records, whatever calls are made *)
  Theorem witnesses_current start n_in n_out depth kps asset b0 l b :
    size_ok start n_in n_out depth -> tb_new start n_in n_out depth kps asset = Ok b0 -> calls l b0 = Ok b ->
    tb_kps b = kps /\ tb_depth b = tb_depth b0 /\
    forall i r, nth_error (tb_ins b) i = Some r -> exists a k, nth_error (tb_accs b) i = Some a /\ nth_error kps i = Some k /\
      pub_key r = user_pub_key k /\ acc_uid a = w64 (Z.of_nat i) /\ proves (tb_depth b) (tb_root b) r a.
  Proof.
    intros HS HN HC. destruct (new_shape _ _ _ _ _ _ _ HS HN) as (S0 & C0 & N1 & N2 & N3 & N4 & N5 & N6 & N7 & N8).
    destruct (calls_shape _ _ _ S0 C0 HC) as (S1 & C1 & (F1 & F2 & F3 & F4)). split; [congruence|]. split; [exact F3|].
    intros i r Hr. assert (Hi : (i < length (tb_ins b))%nat) by (apply nth_error_Some; congruence).
    destruct C1 as [R A]; [intros G; rewrite G in Hi; cbn in Hi; lia|]. destruct (A i Hi) as (a & A1 & A2).
    assert (Li : length (tb_ins b) = tb_num_in b) by (destruct (sh_ins _ S1) as [G|G]; [rewrite G in Hi; cbn in Hi; lia|exact G]).
    destruct (nth_error kps i) as [k|] eqn:Ek; [|exfalso; apply nth_error_None in Ek; pose proof (sh_kps _ S1); rewrite F4, N3 in *; lia].
    exists a, k. split; [exact A1|]. split; [reflexivity|]. split; [apply (sh_owner _ S1 i r k Hr); rewrite F4, N3; exact Ek|].
    rewrite R. apply lookup_proves.
    - rewrite map_length, Li. exact (sh_64 _ S1).
    - rewrite map_length, Li. exact (sh_room _ S1).
    - rewrite nth_error_map, Hr. reflexivity.
    - exact A2.
  Qed.
End BuilderProofs.
