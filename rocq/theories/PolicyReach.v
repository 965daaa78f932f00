(** Which policies can be built, and the random policies of the test helpers (C87). *)
From Verif Require Import Base Config Structs Keys PolicyProofs CodecProofs Builder.

Section Reach.
  Context {C : CapConfig} (L : CapLaws C).

  (** ** Vocabulary *)
  (** a reveal of a field needs a viewer, of an attribute also an issuer; the two coordinates of the address go together *)
  Definition sound_policy (p : AssetPolicy) : Prop :=
    (forall i, rm_bit (reveal_map p) i = true -> viewer_pk p <> pt_id) /\
    (forall i, (4 <= i)%nat -> rm_bit (reveal_map p) i = true -> cred_pk p <> pt_id) /\
    rm_bit (reveal_map p) 0 = rm_bit (reveal_map p) 1.
  (** params_builder.rs 1450-1456: the amount is a [u64], the flag is unfrozen *)
  Definition ro_rand (a : u64) (d : AssetDefinition) (pk : UserPubKey) (b : F) : RecordOpening := mkRO (w128 (zv a)) d pk Unfrozen b.

  (** ** Proofs *)
  Lemma rm_bits_ext (a b : RevealMap) : (forall i, (i < 12)%nat -> rm_bit a i = rm_bit b i) -> a = b.
  Proof.
    intros H. apply rm_ext. destruct a as [a Ha], b as [b Hb]. cbn [rm]. unfold rm_bit in H. cbn [rm] in H.
    apply Nat.eqb_eq in Ha, Hb. unfold VIEWABLE_DATA_LEN in *. apply (nth_ext _ _ false false); [etransitivity; [exact Ha|symmetry; exact Hb]|].
    intros i Hi. apply H. rewrite Ha in Hi. exact Hi.
  Qed.
  Definition applies (p : AssetPolicy) (op : builder_op) : Prop :=
    needs_viewer op = true /\ is_viewer_pub_key_set p = true /\ (needs_cred op = true -> is_cred_creator_pub_key_set p = true) /\ index_ok op = true.
  Lemma run_reveals ops : forall p, Forall (applies p) ops ->
    let q := fold_left builder_step ops p in
    viewer_pk q = viewer_pk p /\ cred_pk q = cred_pk p /\ freezer_pk q = freezer_pk p /\ reveal_threshold q = reveal_threshold p /\
    forall i, rm_bit (reveal_map q) i = existsb (fun op => selects op i) ops || rm_bit (reveal_map p) i.
  Proof.
    induction ops as [|op ops IH]; intros p H; cbn [fold_left]; [cbv zeta; conjs; auto|]. inversion H as [|? ? H0 Hr]; subst.
    destruct H0 as (A1 & A2 & A3 & A4). pose proof (reveal_call_exact op p A1) as K.
    replace (is_viewer_pub_key_set p && (negb (needs_cred op) || is_cred_creator_pub_key_set p) && index_ok op) with true in K.
    2:{ rewrite A2, A4. destruct (needs_cred op); cbn [negb orb andb]; [rewrite A3 by reflexivity; reflexivity|reflexivity]. }
    destruct K as (p' & E & K1 & K2 & K3 & K4 & K5). unfold builder_step at 2 4 6 8 10. rewrite E.
    assert (Hr' : Forall (applies p') ops).
    { eapply Forall_impl; [|exact Hr]. intros o (B1 & B2 & B3 & B4). unfold applies, is_viewer_pub_key_set, is_cred_creator_pub_key_set in *. rewrite K1, K2. auto. }
    destruct (IH p' Hr') as (I1 & I2 & I3 & I4 & I5). rewrite I1, I2, I3, I4. conjs; auto.
    intros i. rewrite I5, K5. cbn [existsb]. destruct (selects op i), (existsb _ ops); reflexivity.
  Qed.

  Definition key_op (mk : point -> builder_op) (k : point) : list builder_op := if point_eqb k pt_id then [] else [mk k].
  Definition reveal_ops (m : RevealMap) : list builder_op :=
    (if rm_bit m 0 then [RevealAddress] else []) ++ (if rm_bit m 2 then [RevealAmount] else []) ++ (if rm_bit m 3 then [RevealBlind] else []) ++
    flat_map (fun j => if rm_bit m (4 + j) then [RevealAttr j] else []) (seq 0 8).
  Definition ops_of (p : AssetPolicy) : list builder_op :=
    key_op SetViewer (viewer_pk p) ++ key_op SetCred (cred_pk p) ++ key_op SetFreezer (freezer_pk p) ++ [SetThreshold (reveal_threshold p)] ++
    reveal_ops (reveal_map p).
  Lemma key_run mk (set : point -> AssetPolicy -> AssetPolicy) k p : (forall k p, builder_call (mk k) p = Ok (set k p)) -> (k = pt_id -> set k p = p) ->
    fold_left builder_step (key_op mk k) p = set k p.
  Proof.
    intros H1 H2. unfold key_op. destruct (point_eqb k pt_id) eqn:E; cbn [fold_left].
    - apply (point_eqb_spec L) in E. symmetry. auto.
    - unfold builder_step. rewrite H1. reflexivity.
  Qed.
  Lemma key_real mk k : (k <> pt_id -> real_key (mk k)) -> Forall real_key (key_op mk k).
  Proof. intros H. unfold key_op. destruct (point_eqb k pt_id) eqn:E; constructor; [|constructor]. apply H. apply (point_eqb_neq L), E. Qed.
  Lemma existsb_if {A} (f : A -> bool) (b : bool) x : existsb f (if b then [x] else []) = b && f x.
  Proof. destruct b; [apply orb_false_r|reflexivity]. Qed.
  Lemma selects_bits m i : (i < 12)%nat -> rm_bit m 0 = rm_bit m 1 -> existsb (fun op => selects op i) (reveal_ops m) = rm_bit m i.
  Proof.
    intros Hi H01. unfold reveal_ops. cbn [flat_map seq Nat.add]. rewrite !existsb_app, !existsb_if.
    do 12 (destruct i as [|i]; [cbn [selects Nat.ltb Nat.leb Nat.eqb Nat.add existsb]; rewrite ?andb_true_r, ?andb_false_r, ?orb_false_r, ?orb_false_l; auto|]). exfalso. clear - Hi. lia.
  Qed.
  Theorem reachable_iff p : (exists ops, Forall real_key ops /\ builder_run ops = p) <-> sound_policy p.
  Proof.
    split; [intros (ops & Hk & <-); exact (builder_inv_run L ops Hk)|]. intros (H1 & H2 & H3). exists (ops_of p). split.
    - unfold ops_of. rewrite !Forall_app. conjs; try (apply key_real; cbn; auto); [repeat constructor|].
      unfold reveal_ops. rewrite !Forall_app. conjs; try (match goal with |- Forall _ (if ?b then _ else _) => destruct b end; repeat constructor).
      apply Forall_forall. intros op Hop. apply in_flat_map in Hop. destruct Hop as (j & _ & Hop). revert Hop. destruct (rm_bit (reveal_map p) (4 + j)); [intros [<-|[]]; exact I|intros []].
    - unfold builder_run, ops_of. rewrite !fold_left_app.
      rewrite (key_run SetViewer set_viewer_pub_key) by (auto; intros ->; reflexivity).
      rewrite (key_run SetCred set_cred_creator_pub_key) by (auto; intros ->; reflexivity).
      rewrite (key_run SetFreezer set_freezer_pub_key) by (auto; intros ->; reflexivity).
      cbn [fold_left]. unfold builder_step at 2. cbn [builder_call].
      set (p0 := set_reveal_threshold _ _). assert (E0 : p0 = mkPolicy (viewer_pk p) (cred_pk p) (freezer_pk p) rm_default (reveal_threshold p)) by reflexivity.
      assert (HA : Forall (applies p0) (reveal_ops (reveal_map p))).
      { assert (V : forall i, rm_bit (reveal_map p) i = true -> is_viewer_pub_key_set p0 = true).
        { intros i Hi. apply (viewer_set_iff L). rewrite E0. exact (H1 i Hi). }
        unfold reveal_ops. rewrite !Forall_app. conjs.
        - destruct (rm_bit (reveal_map p) 0) eqn:E; constructor; [|constructor]. unfold applies. conjs; try reflexivity; [exact (V _ E)|discriminate].
        - destruct (rm_bit (reveal_map p) 2) eqn:E; constructor; [|constructor]. unfold applies. conjs; try reflexivity; [exact (V _ E)|discriminate].
        - destruct (rm_bit (reveal_map p) 3) eqn:E; constructor; [|constructor]. unfold applies. conjs; try reflexivity; [exact (V _ E)|discriminate].
        - apply Forall_forall. intros op Hop. apply in_flat_map in Hop. destruct Hop as (j & Hj & Hop). revert Hop. destruct (rm_bit (reveal_map p) (4 + j)) eqn:E; [|intros []].
          intros [<-|[]]. unfold applies. conjs; [reflexivity|exact (V _ E)| |].
          + intros _. apply (cred_set_iff L). rewrite E0. apply (H2 (4 + j)%nat); [lia|exact E].
          + cbn [index_ok]. apply Nat.ltb_lt. apply in_seq in Hj. lia. }
      destruct (run_reveals _ p0 HA) as (K1 & K2 & K3 & K4 & K5). set (q := fold_left builder_step (reveal_ops (reveal_map p)) p0) in *.
      assert (EM : reveal_map q = reveal_map p).
      { apply rm_bits_ext. intros i Hi. rewrite K5, E0. cbn [reveal_map]. rewrite (selects_bits _ i Hi H3).
        replace (rm_bit rm_default i) with false; [apply orb_false_r|]. unfold rm_bit, rm_default. cbn [rm]. symmetry.
        do 12 (destruct i as [|i]; [reflexivity|]). exfalso. clear - Hi. lia. }
      rewrite E0 in K1, K2, K3, K4. cbn [viewer_pk cred_pk freezer_pk reveal_threshold] in *. destruct q, p. cbn in *. congruence.
  Qed.

  Lemma rm_rand_bits bits i : (i < 12)%nat -> rm_bit (rm_rand bits) i = bits (Nat.max 1 i).
  Proof.
    intros Hi. unfold rm_rand. destruct (rm_make _) as [m|] eqn:E.
    - apply rm_make_ok in E. unfold rm_bit. rewrite E. do 12 (destruct i as [|i]; [reflexivity|]). exfalso. clear - Hi. lia.
    - exfalso. unfold rm_make in E. destruct (bool_dec _ _) as [H|H]; [discriminate|]. apply H. reflexivity.
  Qed.
  Theorem rand_sound v c f bits t : viewer_pub_key v <> pt_id -> ver_key c <> pt_id -> sound_policy (policy_rand v c f bits t).
  Proof.
    intros Hv Hc. unfold sound_policy, policy_rand. cbn [reveal_map viewer_pk cred_pk]. conjs; auto.
  Qed.
  (** every sound reveal map is a possible outcome *)
  Theorem rand_all m : rm_bit m 0 = rm_bit m 1 -> exists bits, rm_rand bits = m.
  Proof.
    intros H. exists (rm_bit m). apply rm_bits_ext. intros i Hi. rewrite rm_rand_bits by auto. destruct i as [|i]; [symmetry; exact H|reflexivity].
  Qed.
  Theorem rand_sum (l : list (u64 * AssetDefinition * UserPubKey * F)) : Z.of_nat (length l) <= 2 ^ 63 ->
    fold_right (fun r s => zv (amount r) + s) 0 (map (fun x => let '(a, d, pk, b) := x in ro_rand a d pk b) l) < 2 ^ 127.
  Proof.
    intros Hl.
    assert (K : fold_right (fun r s => zv (amount r) + s) 0 (map (fun x => let '(a, d, pk, b) := x in ro_rand a d pk b) l) <= Z.of_nat (length l) * (2 ^ 64 - 1)).
    { clear Hl. induction l as [|[[[a d] pk] b] l IH]; [cbn; lia|]. cbn [map fold_right length]. rewrite Nat2Z.inj_succ. unfold ro_rand at 1. cbn [amount].
      pose proof (zv_range a) as Ha. change (0 <= zv a < 2 ^ 64) in Ha. unfold w128 at 1. rewrite zred_small; [lia|]. change (0 <= zv a < 2 ^ 128). lia. }
    nia.
  Qed.
End Reach.
