(** What a viewing memo does not contain.  [shows_alike] says that two records agree on everything the reveal map [m]
    shows; the memo of a transfer is the same for records that do. *)
From Verif Require Import Base Config Structs Keys Utils Memo CodecProofs PolicyProofs UtilsProofs MemoProofs.

Section Hide.
  Context {C : CapConfig}.
  (** the two records agree on the parts shown by the map: address (bits 0 and 1), amount (2), blinding factor (3) *)
  Definition shows_alike (m : RevealMap) (a b : RecordOpening) : Prop :=
    (rm_bit m 0 = true \/ rm_bit m 1 = true -> address (pub_key a) = address (pub_key b)) /\
    (rm_bit m 2 = true -> amount a = amount b) /\
    (rm_bit m 3 = true -> blind a = blind b).
  (** the two credentials agree on the attributes shown by the map (bits 4 to 11) *)
  Definition attrs_alike (m : RevealMap) (c c' : ExpirableCredential) : Prop :=
    length (cr_attrs c) = length (cr_attrs c') /\
    forall i, rm_bit m (4 + i) = true -> nth_error (cr_attrs c) i = nth_error (cr_attrs c') i.
  (** for an input: both are dummies or both are not; the address of a dummy is never shown *)
  Definition inputs_alike (m : RevealMap) (x x' : RecordOpening * ExpirableCredential) : Prop :=
    (asset_def (fst x) = asset_def_dummy <-> asset_def (fst x') = asset_def_dummy) /\
    shows_alike m (fst x) (fst x') /\ attrs_alike m (snd x) (snd x').

  Context (L : CapLaws C).
  Lemma sel_eq (b : bool) (x y : F) : (b = true -> x = y) -> sel b x = sel b y.
  Proof. destruct b; cbn; auto. Qed.
  Lemma attrs_sel m l : forall l' k, length l = length l' ->
    (forall i, rm_bit m (4 + (k + i)) = true -> nth_error l i = nth_error l' i) ->
    map (fun ia => sel (rm_bit m (4 + fst ia)) (snd ia)) (combine (seq k (length l)) l) =
    map (fun ia => sel (rm_bit m (4 + fst ia)) (snd ia)) (combine (seq k (length l')) l').
  Proof.
    induction l as [|a l IH]; intros [|a' l'] k Hl H; try discriminate Hl; [reflexivity|]. cbn [length seq combine map fst snd]. f_equal.
    - apply sel_eq. intros Hb. specialize (H 0%nat). rewrite Nat.add_0_r in H. specialize (H Hb). cbn in H. congruence.
    - apply IH; [cbn in Hl; lia|]. intros i Hb. apply (H (Datatypes.S i)). rewrite <- Hb. f_equal. lia.
  Qed.
  Lemma in_vals_alike ad x x' : inputs_alike (reveal_map (policy ad)) x x' ->
    in_vals ad (fst x) (cr_attrs (snd x)) = in_vals ad (fst x') (cr_attrs (snd x')).
  Proof.
    intros (HD & (H0 & H2 & H3) & HL & HA). unfold in_vals. cbn zeta.
    assert (ED : is_dummy_def (asset_def (fst x)) = is_dummy_def (asset_def (fst x'))).
    { apply eq_true_iff_eq. rewrite !(is_dummy_iff L). exact HD. }
    rewrite ED, (attrs_sel _ _ _ 0 HL HA).
    rewrite (sel_eq (rm_bit (reveal_map (policy ad)) 2) (f_of_u128 (amount (fst x))) (f_of_u128 (amount (fst x')))) by (intros E; rewrite H2; auto).
    rewrite (sel_eq (rm_bit (reveal_map (policy ad)) 3) (blind (fst x)) (blind (fst x'))) by auto.
    destruct (is_dummy_def (asset_def (fst x'))); [reflexivity|].
    rewrite (sel_eq (rm_bit (reveal_map (policy ad)) 0) (addr_x (address (pub_key (fst x)))) (addr_x (address (pub_key (fst x'))))) by (intros E; rewrite H0; auto).
    rewrite (sel_eq (rm_bit (reveal_map (policy ad)) 1) (addr_y (address (pub_key (fst x)))) (addr_y (address (pub_key (fst x'))))) by (intros E; rewrite H0; auto).
    reflexivity.
  Qed.
  Lemma out_vals_alike a b : asset_def a = asset_def b -> shows_alike (reveal_map (policy (asset_def a))) a b -> out_vals a = out_vals b.
  Proof.
    intros E (H0 & H2 & H3). unfold out_vals. cbn zeta. rewrite <- E.
    rewrite (sel_eq (rm_bit (reveal_map (policy (asset_def a))) 0) (addr_x (address (pub_key a))) (addr_x (address (pub_key b)))) by (intros Hb; rewrite H0; auto).
    rewrite (sel_eq (rm_bit (reveal_map (policy (asset_def a))) 1) (addr_y (address (pub_key a))) (addr_y (address (pub_key b)))) by (intros Hb; rewrite H0; auto).
    rewrite (sel_eq (rm_bit (reveal_map (policy (asset_def a))) 2) (f_of_u128 (amount a)) (f_of_u128 (amount b))) by (intros Hb; rewrite H2; auto).
    rewrite (sel_eq (rm_bit (reveal_map (policy (asset_def a))) 3) (blind a) (blind b)) by auto. reflexivity.
  Qed.
  Lemma map_alike {A B} (P : A -> A -> Prop) (f : A -> B) l l' : (forall x y, P x y -> f x = f y) -> Forall2 P l l' -> map f l = map f l'.
  Proof. intros H. induction 1; cbn [map]; [reflexivity|]. f_equal; auto. Qed.

  Lemma transfer_memo_hides ad ins outs creds ins' outs' creds' r memo memo' :
    get_asset_def_in_transfer_txn ins = Ok ad -> get_asset_def_in_transfer_txn ins' = Ok ad ->
    length creds = length ins -> length creds' = length ins' ->
    (above_threshold ad ins <-> above_threshold ad ins') ->
    Forall2 (inputs_alike (reveal_map (policy ad))) (combine (skipn 1 ins) (skipn 1 creds)) (combine (skipn 1 ins') (skipn 1 creds')) ->
    Forall2 (fun a b => asset_def a = ad /\ asset_def b = ad /\ shows_alike (reveal_map (policy ad)) a b) (skipn 1 outs) (skipn 1 outs') ->
    memo_for_transfer_note ins outs creds r = Ok memo -> memo_for_transfer_note ins' outs' creds' r = Ok memo' ->
    memo = memo'.
  Proof.
    intros A A' Hl Hl' HT HI HO H H'.
    assert (LI : length (combine (skipn 1 ins) (skipn 1 creds)) = length (combine (skipn 1 ins') (skipn 1 creds'))) by (clear -HI; induction HI; cbn; congruence).
    assert (LO : length (skipn 1 outs) = length (skipn 1 outs')) by (clear -HO; induction HO; cbn; congruence).
    rewrite !combine_length, !skipn_length, Hl, Hl', !Nat.min_id in LI. rewrite !skipn_length in LO.
    destruct (memo_transfer_exact L _ _ _ _ _ _ A Hl H) as [(V & TH & _ & ->)|(V & P1 & ->)];
      destruct (memo_transfer_exact L _ _ _ _ _ _ A' Hl' H') as [(V' & TH' & _ & ->)|(V' & P1' & ->)].
    - assert (HA : forall a b, asset_def a = ad /\ asset_def b = ad /\ shows_alike (reveal_map (policy ad)) a b -> out_vals a = out_vals b).
      { intros a b (E1 & E2 & E3). apply out_vals_alike; [congruence|rewrite E1; exact E3]. }
      rewrite (map_alike _ _ _ _ (in_vals_alike ad) HI).
      rewrite (map_alike _ out_vals (skipn 1 outs) (skipn 1 outs') HA HO).
      reflexivity.
    - exfalso. tauto.
    - exfalso. tauto.
    - rewrite LI, LO. reflexivity.
  Qed.
End Hide.
