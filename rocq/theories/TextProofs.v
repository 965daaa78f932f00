(** Proofs about text forms. *)
From Coq Require Import String Ascii.
From Verif Require Import Base Config Structs Keys Utils Memo Plonk Snark Notes Serde CodecProofs SerdeProofs CanonSpec Canon Text.

(** ** Base64 *)
Lemma b64_char_range v : 0 <= v < 64 -> 0 <= b64_char v < 256 /\ b64_char v <> 126.
Proof.
  intros H. unfold b64_char. destruct (Z.ltb_spec v 26); [lia|]. destruct (Z.ltb_spec v 52); [lia|].
  destruct (Z.ltb_spec v 62); [lia|]. destruct (Z.eqb_spec v 62); lia.
Qed.
Lemma b64_value_char v : 0 <= v < 64 -> b64_value (b64_char v) = Some v.
Proof.
  intros H. unfold b64_char. 
  destruct (Z.ltb_spec v 26) as [A|A].
  { unfold b64_value. replace ((65 <=? v + 65) && (v + 65 <=? 90)) with true by lia. f_equal. lia. }
  destruct (Z.ltb_spec v 52) as [B|B].
  { unfold b64_value. replace ((65 <=? v + 71) && (v + 71 <=? 90)) with false by lia.
    replace ((97 <=? v + 71) && (v + 71 <=? 122)) with true by lia. f_equal. lia. }
  destruct (Z.ltb_spec v 62) as [D|D].
  { unfold b64_value. replace ((65 <=? v - 4) && (v - 4 <=? 90)) with false by lia.
    replace ((97 <=? v - 4) && (v - 4 <=? 122)) with false by lia. replace ((48 <=? v - 4) && (v - 4 <=? 57)) with true by lia. f_equal. lia. }
  destruct (Z.eqb_spec v 62) as [->|E]; [reflexivity|]. replace v with 63 by lia. reflexivity.
Qed.
Lemma b64_char_value c v : b64_value c = Some v -> 0 <= v < 64 /\ b64_char v = c.
Proof.
  unfold b64_value. destruct ((65 <=? c) && (c <=? 90)) eqn:A.
  { intros H. injection H as <-. unfold b64_char. replace (c - 65 <? 26) with true by lia. lia. }
  destruct ((97 <=? c) && (c <=? 122)) eqn:B.
  { intros H. injection H as <-. unfold b64_char. replace (c - 71 <? 26) with false by lia. replace (c - 71 <? 52) with true by lia. lia. }
  destruct ((48 <=? c) && (c <=? 57)) eqn:D.
  { intros H. injection H as <-. unfold b64_char. replace (c + 4 <? 26) with false by lia. replace (c + 4 <? 52) with false by lia.
    replace (c + 4 <? 62) with true by lia. lia. }
  destruct (Z.eqb_spec c 45) as [->|_]; [intros H; injection H as <-; split; [lia|reflexivity]|].
  destruct (Z.eqb_spec c 95) as [->|_]; [intros H; injection H as <-; split; [lia|reflexivity]|discriminate].
Qed.
Lemma byte_range (b : byte) : 0 <= zv b < 256.
Proof. exact (zv_range b). Qed.
Lemma b8_of (b : byte) z : z = zv b -> b8 z = b.
Proof. intros ->. symmetry. apply byte_is. reflexivity. Qed.
Lemma zv_b8 z : 0 <= z < 256 -> zv (b8 z) = z.
Proof. intros H. apply zred_small. exact H. Qed.

Lemma three_ind (P : bytes -> Prop) : P [] -> (forall a, P [a]) -> (forall a b, P [a; b]) -> (forall a b c r, P r -> P (a :: b :: c :: r)) -> forall l, P l.
Proof.
  intros H0 H1 H2 H3. assert (G : forall n l, (List.length l <= n)%nat -> P l).
  { induction n as [|n IH]; intros l Hl; [destruct l; [exact H0|cbn in Hl; lia]|].
    destruct l as [|a [|b [|c r]]]; auto. apply H3. apply IH. cbn in Hl. lia. }
  intros l. apply (G _ l (Nat.le_refl _)).
Qed.
Lemma four_ind (P : list Z -> Prop) : P [] -> (forall a, P [a]) -> (forall a b, P [a; b]) -> (forall a b c, P [a; b; c]) ->
  (forall a b c d r, P r -> P (a :: b :: c :: d :: r)) -> forall l, P l.
Proof.
  intros H0 H1 H2 H3 H4. assert (G : forall n l, (List.length l <= n)%nat -> P l).
  { induction n as [|n IH]; intros l Hl; [destruct l; [exact H0|cbn in Hl; lia]|].
    destruct l as [|a [|b [|c [|d r]]]]; auto. apply H4. apply IH. cbn in Hl. lia. }
  intros l. apply (G _ l (Nat.le_refl _)).
Qed.
Ltac divs := repeat match goal with b : byte |- _ => let H := fresh in pose proof (byte_range b) as H; revert H; generalize (zv b); clear b; intros end;
  Z.to_euclidean_division_equations; lia.
Lemma sextets_range l : Forall (fun v => 0 <= v < 64) (sextets l).
Proof.
  induction l as [|a|a b|a b c r IH] using three_ind; cbn [sextets]; repeat constructor; try exact IH; try (clear IH); divs.
Qed.
Lemma unsextets_sextets l : unsextets (sextets l) = Ok l.
Proof.
  induction l as [|a|a b|a b c r IH] using three_ind; cbn [sextets unsextets].
  - reflexivity.
  - replace (zv a mod 4 * 16 mod 16 =? 0) with true by (symmetry; apply Z.eqb_eq; divs). do 2 f_equal. apply b8_of. divs.
  - replace (zv b mod 16 * 4 mod 4 =? 0) with true by (symmetry; apply Z.eqb_eq; divs). do 2 f_equal; [apply b8_of; divs|f_equal; apply b8_of; divs].
  - rewrite IH. cbn [bind]. f_equal. clear IH. f_equal; [apply b8_of; divs|]. f_equal; [apply b8_of; divs|]. f_equal. apply b8_of; divs.
Qed.
Lemma sextets_unsextets v : Forall (fun z => 0 <= z < 64) v -> forall l, unsextets v = Ok l -> sextets l = v.
Proof.
  induction v as [|w|w x|w x y|w x y z r IH] using four_ind; intros HF l H; cbn [unsextets] in H.
  - injection H as <-. reflexivity.
  - discriminate H.
  - destruct (Z.eqb_spec (x mod 16) 0) as [E|]; [|discriminate H]. injection H as <-. inversion_clear HF as [|? ? R1 HF']. inversion_clear HF' as [|? ? R2 _].
    cbn [sextets]. rewrite zv_b8 by (clear - R1 R2; Z.to_euclidean_division_equations; lia).
    f_equal; [|f_equal]; clear - R1 R2 E; Z.to_euclidean_division_equations; lia.
  - destruct (Z.eqb_spec (y mod 4) 0) as [E|]; [|discriminate H]. injection H as <-. inversion_clear HF as [|? ? R1 HF']. inversion_clear HF' as [|? ? R2 HF].
    inversion_clear HF as [|? ? R3 _]. cbn [sextets]. rewrite !zv_b8 by (clear - R1 R2 R3; Z.to_euclidean_division_equations; lia).
    f_equal; [|f_equal; [|f_equal]]; clear - R1 R2 R3 E; Z.to_euclidean_division_equations; lia.
  - apply bind_ok in H. destruct H as (t & H1 & H). injection H as <-. inversion_clear HF as [|? ? R1 HF']. inversion_clear HF' as [|? ? R2 HF].
    inversion_clear HF as [|? ? R3 HF']. inversion_clear HF' as [|? ? R4 HF].
    cbn [sextets]. rewrite (IH HF t H1). rewrite !zv_b8 by (clear - R1 R2 R3 R4; Z.to_euclidean_division_equations; lia).
    f_equal; [|f_equal; [|f_equal; [|f_equal]]]; clear - R1 R2 R3 R4; Z.to_euclidean_division_equations; lia.
Qed.
Lemma b64_values_chars l : Forall (fun v => 0 <= v < 64) l -> b64_values (map (fun v => b8 (b64_char v)) l) = Ok l.
Proof.
  induction 1 as [|v l Hv _ IH]; cbn [map b64_values]; [reflexivity|]. rewrite zv_b8 by (apply b64_char_range, Hv). rewrite b64_value_char by exact Hv.
  rewrite IH. reflexivity.
Qed.
Lemma b64_chars_values t l : b64_values t = Ok l -> Forall (fun v => 0 <= v < 64) l /\ map (fun v => b8 (b64_char v)) l = t.
Proof.
  revert l. induction t as [|c t IH]; intros l H; cbn [b64_values] in H; [injection H as <-; auto|].
  destruct (b64_value (zv c)) as [v|] eqn:E; [|discriminate H]. apply bind_ok in H. destruct H as (l' & H1 & H). injection H as <-.
  apply b64_char_value in E. destruct E as [E1 E2]. destruct (IH l' H1) as [I1 I2]. split; [constructor; assumption|]. cbn [map]. rewrite I2. f_equal.
  apply b8_of, E2.
Qed.
Lemma b64_decode_iff t l : b64_decode t = Ok l <-> t = b64_encode l.
Proof.
  unfold b64_decode, b64_encode. split.
  - intros H. apply bind_ok in H. destruct H as (v & H1 & H2). apply b64_chars_values in H1. destruct H1 as [F <-]. f_equal. symmetry. apply sextets_unsextets; assumption.
  - intros ->. rewrite b64_values_chars by apply sextets_range. cbn [bind]. apply unsextets_sextets.
Qed.

(** ** Tags *)
Lemma tag_of_inj k k' : chars (tag_of k) = chars (tag_of k') -> k = k'.
Proof.
  intros H. apply (f_equal (map (fun b : byte => zv b))) in H. destruct k, k'; try reflexivity; vm_compute in H; discriminate H.
Qed.
Lemma tag_safe k : safe_tag (chars (tag_of k)) = true.
Proof. destruct k; vm_compute; reflexivity. Qed.
Lemma same_byte_iff x y : same_byte x y = true <-> x = y.
Proof. unfold same_byte. rewrite Z.eqb_eq. split; [apply zmod_ext|intros ->; reflexivity]. Qed.
Lemma same_bytes_iff a b : same_bytes a b = true <-> a = b.
Proof.
  revert b. induction a as [|x a IH]; intros [|y b]; cbn [same_bytes]; try (split; [discriminate|discriminate]); [tauto|].
  rewrite andb_true_iff, same_byte_iff, IH. split; [intros [-> ->]; reflexivity|intros H; injection H as -> ->; auto].
Qed.
Lemma split_tilde_iff t a b : split_tilde t = Some (a, b) <-> t = a ++ tilde :: b /\ ~ In tilde a.
Proof.
  revert a b. induction t as [|c t IH]; intros a b; cbn [split_tilde].
  - split; [discriminate|]. intros [H _]. destruct a; discriminate H.
  - destruct (Z.eqb_spec (zv c) 126) as [E|E].
    + assert (Ec : c = tilde) by (apply byte_is, E). split.
      * intros H. injection H as <- <-. rewrite Ec. split; [reflexivity|intros []].
      * intros [H N]. destruct a as [|x a]; [injection H as _ ->; reflexivity|]. injection H as <- _. elim N. left. exact Ec.
    + destruct (split_tilde t) as [[a' b']|] eqn:Et.
      * assert (I := proj1 (IH a' b') eq_refl). destruct I as [I1 I2]. split.
        -- intros H. injection H as <- <-. rewrite I1. split; [reflexivity|]. intros [X|X]; [|exact (I2 X)]. subst c. apply E. reflexivity.
        -- intros [H N]. destruct a as [|x a]; [injection H as H _; subst c; elim E; reflexivity|]. injection H as <- H.
           assert (J : Some (a', b') = Some (a, b)) by (apply IH; split; [exact H|intros X; apply N; right; exact X]). injection J as -> ->. reflexivity.
      * split; [discriminate|]. intros [H N]. destruct a as [|x a]; [injection H as H _; subst c; elim E; reflexivity|]. injection H as <- H.
        assert (J : None = Some (a, b)) by (apply IH; split; [exact H|intros X; apply N; right; exact X]). discriminate J.
Qed.
Lemma split_last_iff l v x : split_last l = Some (v, x) <-> l = v ++ [x].
Proof.
  unfold split_last. split.
  - destruct (rev l) as [|y r] eqn:E; [discriminate|]. intros H. injection H as <- <-. rewrite <- (rev_involutive l), E. reflexivity.
  - intros ->. rewrite rev_unit, rev_involutive. reflexivity.
Qed.
Lemma safe_no_tilde a : safe_tag a = true -> ~ In tilde a.
Proof.
  intros H I. assert (X := proj1 (forallb_forall _ a) H tilde I). cbv beta in X. change (b64_value (zv tilde)) with (@None Z) in X. discriminate X.
Qed.

Section TextProofs.
  Context (crc : bytes -> bytes -> byte).
  Lemma text_bytes_iff k t v : text_bytes crc k t = Ok v <-> t = text_of crc k v.
  Proof.
    unfold text_bytes, text_of. split.
    - destruct (split_tilde t) as [[tag body]|] eqn:E; [|discriminate]. apply split_tilde_iff in E. destruct E as [-> _].
      destruct (safe_tag tag); [|discriminate]. intros H. apply bind_ok in H. destruct H as (l & H1 & H). apply b64_decode_iff in H1. subst body.
      destruct (split_last l) as [[v' x]|] eqn:E2; [|discriminate H]. apply split_last_iff in E2. subst l.
      destruct (same_byte x (crc tag v')) eqn:E3; [|discriminate H]. apply same_byte_iff in E3. subst x.
      destruct (same_bytes tag (chars (tag_of k))) eqn:E4; [|discriminate H]. apply same_bytes_iff in E4. subst tag. injection H as <-. reflexivity.
    - intros ->. assert (E : split_tilde (chars (tag_of k) ++ tilde :: b64_encode (v ++ [crc (chars (tag_of k)) v])) =
        Some (chars (tag_of k), b64_encode (v ++ [crc (chars (tag_of k)) v]))).
      { apply split_tilde_iff. split; [reflexivity|]. apply safe_no_tilde, tag_safe. }
      rewrite E. rewrite tag_safe. assert (D : b64_decode (b64_encode (v ++ [crc (chars (tag_of k)) v])) = Ok (v ++ [crc (chars (tag_of k)) v])) by (apply b64_decode_iff; reflexivity).
      rewrite D. cbn [bind]. assert (SL : split_last (v ++ [crc (chars (tag_of k)) v]) = Some (v, crc (chars (tag_of k)) v)) by (apply split_last_iff; reflexivity).
      rewrite SL. rewrite (proj2 (same_byte_iff _ _) eq_refl), (proj2 (same_bytes_iff _ _) eq_refl). reflexivity.
  Qed.
  Lemma text_of_inj k k' v v' : text_of crc k v = text_of crc k' v' -> k = k' /\ v = v'.
  Proof.
    intros H. assert (E : split_tilde (text_of crc k v) = split_tilde (text_of crc k' v')) by (rewrite H; reflexivity).
    rewrite (proj2 (split_tilde_iff (text_of crc k v) (chars (tag_of k)) (b64_encode (v ++ [crc (chars (tag_of k)) v]))) (conj eq_refl (safe_no_tilde _ (tag_safe k)))) in E.
    rewrite (proj2 (split_tilde_iff (text_of crc k' v') (chars (tag_of k')) (b64_encode (v' ++ [crc (chars (tag_of k')) v']))) (conj eq_refl (safe_no_tilde _ (tag_safe k')))) in E.
    assert (E1 : chars (tag_of k) = chars (tag_of k')) by congruence. apply tag_of_inj in E1. subst k'. split; [reflexivity|].
    assert (E2 := proj2 (text_bytes_iff k (text_of crc k v) v) eq_refl). assert (E3 := proj2 (text_bytes_iff k (text_of crc k v') v') eq_refl). rewrite H in E2. congruence.
  Qed.
  Lemma parse_show {A} k (c : Codec A) x : reads_back c x -> parse crc k c (show crc k c x) = Ok x.
  Proof.
    intros [R _]. unfold parse, show. rewrite (proj2 (text_bytes_iff k _ (enc c x)) eq_refl). cbn [bind].
    specialize (R []). rewrite app_nil_r in R. rewrite R. reflexivity.
  Qed.
  Lemma text_bytes_other k k' v : k <> k' -> text_bytes crc k' (text_of crc k v) = Err SerInvalidData.
  Proof.
    intros N. unfold text_bytes. rewrite (proj2 (split_tilde_iff (text_of crc k v) (chars (tag_of k)) (b64_encode (v ++ [crc (chars (tag_of k)) v]))) (conj eq_refl (safe_no_tilde _ (tag_safe k)))).
    rewrite tag_safe. rewrite (proj2 (b64_decode_iff _ _) eq_refl). cbn [bind]. rewrite (proj2 (split_last_iff _ v _) eq_refl), (proj2 (same_byte_iff _ _) eq_refl).
    destruct (same_bytes _ _) eqn:E; [|reflexivity]. apply same_bytes_iff, tag_of_inj in E. contradiction.
  Qed.
  Lemma parse_other {A} k k' (c : Codec A) v : k <> k' -> parse crc k' c (text_of crc k v) = Err SerInvalidData.
  Proof. intros N. unfold parse. rewrite text_bytes_other by exact N. reflexivity. Qed.
  Lemma parse_exact {A} k (c : Codec A) t x : one_encoding_of c x -> parse crc k c t = Ok x -> exists r, t = text_of crc k (enc c x ++ r).
  Proof.
    intros H P. unfold parse in P. apply bind_ok in P. destruct P as (v & P1 & P). apply bind_ok in P. destruct P as ([y r] & P2 & P). injection P as ->.
    apply text_bytes_iff in P1. apply H in P2. exists r. rewrite P1, P2. reflexivity.
  Qed.
  Lemma text_bytes_returns k t : text_bytes crc k t <> Panic.
  Proof.
    unfold text_bytes. destruct (split_tilde t) as [[tag body]|]; [|discriminate]. destruct (safe_tag tag); [|discriminate].
    apply bind_returns.
    - unfold b64_decode. apply bind_returns.
      + clear. induction body as [|c r IH]; cbn [b64_values]; [discriminate|]. destruct (b64_value _); [|discriminate]. apply bind_returns; [exact IH|discriminate].
      + intros l _. induction l as [|w|w x|w x y|w x y z r IH] using four_ind; cbn [unsextets]; try discriminate; try (destruct (_ =? _); discriminate).
        apply bind_returns; [exact IH|discriminate].
    - intros l _. destruct (split_last l) as [[v x]|]; [|discriminate]. destruct (same_byte _ _); [|discriminate]. destruct (same_bytes _ _); discriminate.
  Qed.
  Lemma parse_returns {A} k (c : Codec A) t : never_panics c -> parse crc k c t <> Panic.
  Proof.
    intros N. unfold parse. apply bind_returns; [apply text_bytes_returns|]. intros v _. apply bind_returns; [apply N|]. intros [x r] _. discriminate.
  Qed.
End TextProofs.
