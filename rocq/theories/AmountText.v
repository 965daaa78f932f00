(** Amounts as text, and the operators of [Amount]: structs.rs 127-164 derives both from [u128]. *)
From Coq Require Import String Ascii.
From Verif Require Import Base Config Structs Text.

(** ** Text *)
(** the digits of a number, least significant first *)
Fixpoint digits_from (fuel : nat) (z : Z) : list Z :=
  match fuel with
  | O => []
  | S n => if z <? 10 then [z] else z mod 10 :: digits_from n (z / 10)
  end.
(** structs.rs 158 ([Display]): decimal digits, no sign, no leading zero; 39 digits are enough for [u128] *)
Definition amount_to_string (a : Amount) : bytes := map (fun d => b8 (48 + d)) (rev (digits_from 39 (zv a))).
(** structs.rs 161 ([LowerHex], without flags): base 16 with the letters a to f, no prefix, no leading zero; 32 digits are enough *)
Fixpoint hex_from (fuel : nat) (z : Z) : list Z :=
  match fuel with
  | O => []
  | S n => if z <? 16 then [z] else z mod 16 :: hex_from n (z / 16)
  end.
Definition amount_to_hex (a : Amount) : bytes := map (fun d => b8 (if d <? 10 then 48 + d else 87 + d)) (rev (hex_from 32 (zv a))).
Definition digit_of (c : byte) : option Z := if (48 <=? zv c) && (zv c <=? 57) then Some (zv c - 48) else None.
(** [u128::from_str]: digits are added one by one; an invalid digit and an overflow are errors ([ParseIntError]; here one error) *)
Fixpoint read_digits (acc : Z) (t : bytes) : res Amount :=
  match t with
  | [] => Ok (w128 acc)
  | c :: r => match digit_of c with
              | Some d => if acc * 10 + d <? 2 ^ 128 then read_digits (acc * 10 + d) r else Err SerInvalidData
              | None => Err SerInvalidData
              end
  end.
(** structs.rs 159 ([FromStr]): one leading plus sign is allowed *)
Definition amount_from_str (t : bytes) : res Amount :=
  match t with
  | [] => Err SerInvalidData
  | c :: r => if zv c =? 43 then match r with [] => Err SerInvalidData | _ => read_digits 0 r end else read_digits 0 t
  end.

(** ** Operators *)
Section Operators.
  Context {C : CapConfig}.
  (** structs.rs 146-153: [Mul], [Div], [Rem] ([Add] and [Sub] are in Structs.v); an overflow panics or wraps like [u128]'s;
      dividing by zero panics in every build *)
  Definition amount_mul (a b : Amount) : res Amount :=
    if zv a * zv b <? 2 ^ 128 then Ok (w128 (zv a * zv b)) else if overflow_checks then Panic else Ok (w128 (zv a * zv b)).
  Definition amount_div (a b : Amount) : res Amount := if zv b =? 0 then Panic else Ok (w128 (zv a / zv b)).
  Definition amount_rem (a b : Amount) : res Amount := if zv b =? 0 then Panic else Ok (w128 (zv a mod zv b)).
  (** structs.rs 156: [Sum] *)
  Definition amount_sum (l : list Amount) : res Amount := fold_left (fun acc x => let* a := acc in amount_add a x) l (Ok (w128 0)).
End Operators.

(** ** Proofs *)
(** the number that a sequence of digits denotes *)
Fixpoint denoted (acc : Z) (t : bytes) : Z := match t with [] => acc | c :: r => denoted (acc * 10 + (zv c - 48)) r end.
Definition all_digits (t : bytes) : Prop := Forall (fun c : byte => 48 <= zv c <= 57) t.
Lemma digit_of_iff c d : digit_of c = Some d <-> 48 <= zv c <= 57 /\ d = zv c - 48.
Proof.
  unfold digit_of. destruct ((48 <=? zv c) && (zv c <=? 57)) eqn:E.
  - apply andb_true_iff in E. destruct E as [E1 E2]. apply Z.leb_le in E1, E2. split; [intros H; injection H as <-; auto|intros [_ ->]; reflexivity].
  - split; [discriminate|]. intros [H _]. exfalso. apply Bool.not_true_iff_false in E. apply E. apply andb_true_iff. rewrite !Z.leb_le. lia.
Qed.
Lemma denoted_ge t acc : all_digits t -> 0 <= acc -> acc <= denoted acc t.
Proof.
  intros H. revert acc. induction H as [|c t Hc _ IH]; intros acc Ha; cbn [denoted]; [lia|]. specialize (IH (acc * 10 + (zv c - 48))). lia.
Qed.
Lemma zv_w128_id z : 0 <= z < 2 ^ 128 -> zv (w128 z) = z.
Proof. intros H. apply zred_small. exact H. Qed.
Lemma read_digits_iff t acc a : 0 <= acc < 2 ^ 128 -> (read_digits acc t = Ok a <-> all_digits t /\ denoted acc t = zv a).
Proof.
  revert acc. induction t as [|c t IH]; intros acc Ha; cbn [read_digits denoted].
  - split.
    + intros H. injection H as <-. split; [constructor|]. symmetry. apply zv_w128_id, Ha.
    + intros [_ H]. f_equal. apply zmod_ext. rewrite <- H. apply zv_w128_id, Ha.
  - destruct (digit_of c) as [d|] eqn:E.
    + apply digit_of_iff in E. destruct E as [E ->]. destruct (Z.ltb_spec (acc * 10 + (zv c - 48)) (2 ^ 128)) as [L|L].
      * rewrite IH by lia. split; intros [H1 H2]; (split; [|exact H2]); [constructor; assumption|inversion H1; assumption].
      * split; [discriminate|]. intros [H1 H2]. exfalso. inversion_clear H1 as [|? ? _ H3]. pose proof (denoted_ge t (acc * 10 + (zv c - 48)) H3).
        pose proof (zv_range a : 0 <= zv a < 2 ^ 128). lia.
    + split; [discriminate|]. intros [H1 _]. exfalso. inversion_clear H1 as [|? ? H3 _]. assert (X : digit_of c = Some (zv c - 48)) by (apply digit_of_iff; auto). congruence.
Qed.
(** what is accepted, and as which amount *)
Lemma amount_from_str_iff t a : amount_from_str t = Ok a <->
  exists ds, (t = ds \/ t = b8 43 :: ds) /\ ds <> [] /\ all_digits ds /\ denoted 0 ds = zv a.
Proof.
  assert (H0 : 0 <= 0 < 2 ^ 128) by lia. unfold amount_from_str. destruct t as [|c r].
  - split; [discriminate|]. intros (ds & [H|H] & N & _); [congruence|discriminate H].
  - destruct (Z.eqb_spec (zv c) 43) as [E|E].
    + assert (Ec : c = b8 43) by (apply zmod_ext; exact E). destruct r as [|c' r'].
      * split; [discriminate|]. intros (ds & [H|H] & N & D & _).
        -- subst ds. inversion_clear D as [|? ? X _]. lia.
        -- injection H as _ <-. contradiction.
      * rewrite (read_digits_iff _ _ a H0). split.
        -- intros [D1 D2]. exists (c' :: r'). repeat split; auto; [right; rewrite Ec; reflexivity|discriminate].
        -- intros (ds & [H|H] & N & D & V).
           ++ subst ds. inversion_clear D as [|? ? X _]. lia.
           ++ assert (R : c' :: r' = ds) by congruence. rewrite R. auto.
    + rewrite (read_digits_iff _ _ a H0). split.
      * intros [D1 D2]. exists (c :: r). repeat split; auto. discriminate.
      * intros (ds & [H|H] & N & D & V); [rewrite H; auto|]. injection H as H _. exfalso. apply E. rewrite H. reflexivity.
Qed.
Lemma amount_from_str_returns t : amount_from_str t <> Panic.
Proof.
  assert (R : forall t acc, read_digits acc t <> Panic).
  { clear. induction t as [|c t IH]; intros acc; cbn [read_digits]; [discriminate|]. destruct (digit_of c); [|discriminate]. destruct (_ <? _); [apply IH|discriminate]. }
  unfold amount_from_str. destruct t as [|c r]; [discriminate|]. destruct (_ =? _); [|apply R]. destruct r; [discriminate|apply R].
Qed.
(** printing *)
Lemma denoted_app a b acc : denoted acc (a ++ b) = denoted (denoted acc a) b.
Proof. revert acc. induction a as [|x a IH]; intros acc; cbn [app denoted]; [reflexivity|apply IH]. Qed.
Lemma zv_digit d : 0 <= d <= 9 -> zv (b8 (48 + d)) = 48 + d.
Proof. intros H. apply zred_small. change u8_mod with 256. lia. Qed.
Lemma digits_ok fuel z : 0 <= z < 10 ^ Z.of_nat fuel ->
  let ds := map (fun d => b8 (48 + d)) (rev (digits_from fuel z)) in all_digits ds /\ denoted 0 ds = z /\ (fuel <> O -> ds <> []).
Proof.
  revert z. induction fuel as [|n IH]; intros z Hz; cbn [digits_from]; [cbn in *; repeat split; [constructor|lia|congruence]|].
  destruct (Z.ltb_spec z 10) as [L|L].
  - cbn [rev app map denoted]. rewrite zv_digit by lia. repeat split; [constructor; [rewrite zv_digit by lia; lia|constructor]|lia|discriminate].
  - assert (Hq : 0 <= z / 10 < 10 ^ Z.of_nat n).
    { split; [apply Z.div_pos; lia|]. apply Z.div_lt_upper_bound; [lia|]. rewrite Nat2Z.inj_succ, Z.pow_succ_r in Hz by lia. lia. }
    destruct (IH _ Hq) as (I1 & I2 & _). pose proof (Z.mod_pos_bound z 10). cbn [rev]. rewrite map_app. cbn [map]. cbv zeta. repeat split.
    + apply Forall_app. split; [exact I1|]. constructor; [rewrite zv_digit by lia; lia|constructor].
    + rewrite denoted_app, I2. cbn [denoted]. rewrite zv_digit by lia. pose proof (Z.div_mod z 10). lia.
    + intros _ H1. apply (f_equal (@List.length byte)) in H1. rewrite app_length in H1. cbn in H1. lia.
Qed.
Lemma amount_text_spec a : all_digits (amount_to_string a) /\ denoted 0 (amount_to_string a) = zv a /\ amount_to_string a <> [].
Proof.
  destruct (digits_ok 39 (zv a)) as (H1 & H2 & H3); [pose proof (zv_range a : 0 <= zv a < 2 ^ 128); change (10 ^ Z.of_nat 39) with (10 ^ 39); lia|].
  split; [exact H1|]. split; [exact H2|]. apply H3. discriminate.
Qed.
Lemma amount_text_back a : amount_from_str (amount_to_string a) = Ok a.
Proof. destruct (amount_text_spec a) as (H1 & H2 & H3). apply amount_from_str_iff. exists (amount_to_string a). auto. Qed.
(** no leading zero *)
Lemma digits_lead fuel z : 0 < z < 10 ^ Z.of_nat fuel -> exists d l, rev (digits_from fuel z) = d :: l /\ d <> 0.
Proof.
  revert z. induction fuel as [|n IH]; intros z Hz; [cbn in Hz; lia|]. cbn [digits_from]. destruct (Z.ltb_spec z 10) as [L|L]; [exists z, []; split; [reflexivity|lia]|].
  assert (Hq : 0 < z / 10 < 10 ^ Z.of_nat n).
  { split; [apply Z.div_str_pos; lia|]. apply Z.div_lt_upper_bound; [lia|]. rewrite Nat2Z.inj_succ, Z.pow_succ_r in Hz by lia. lia. }
  destruct (IH _ Hq) as (d & l & E & N). exists d, (l ++ [z mod 10]). cbn [rev]. rewrite E. auto.
Qed.

(** the digits of a number without a leading zero *)
Definition no_lead (ds : bytes) : Prop := match ds with [] => False | [_] => True | c :: _ => zv c <> 48 end.
Lemma denoted_pos ds : all_digits ds -> ds <> [] -> zv (hd (b8 48) ds) <> 48 -> 0 < denoted 0 ds.
Proof.
  intros D N L. destruct ds as [|c r]; [contradiction|]. cbn [hd] in L. inversion_clear D as [|? ? H1 H2]. cbn [denoted].
  pose proof (denoted_ge r (0 * 10 + (zv c - 48)) H2). lia.
Qed.
Lemma digits_unique ds : all_digits ds -> no_lead ds -> forall fuel, denoted 0 ds < 10 ^ Z.of_nat fuel -> (0 < fuel)%nat ->
  map (fun d => b8 (48 + d)) (rev (digits_from fuel (denoted 0 ds))) = ds.
Proof.
  induction ds as [|c ds IH] using rev_ind; intros D N fuel Hf H0; [contradiction|]. apply Forall_app in D. destruct D as [D1 D2]. inversion_clear D2 as [|? ? Dc _].
  rewrite denoted_app in *. cbn [denoted] in *. destruct fuel as [|n]; [lia|]. cbn [digits_from].
  assert (Hb : b8 (48 + (zv c - 48)) = c) by (apply zmod_ext; rewrite zv_digit by lia; lia).
  destruct ds as [|c0 ds'].
  - cbn [denoted] in *. replace (0 * 10 + (zv c - 48)) with (zv c - 48) by lia. destruct (Z.ltb_spec (zv c - 48) 10); [|lia]. cbn [rev app map]. rewrite Hb. reflexivity.
  - assert (L : zv c0 <> 48) by (cbn [app no_lead] in N; destruct (ds' ++ [c]) eqn:E; [destruct ds'; discriminate E|exact N]).
    assert (P : 0 < denoted 0 (c0 :: ds')) by (apply denoted_pos; [exact D1|discriminate|exact L]).
    set (v := denoted 0 (c0 :: ds')) in *. destruct (Z.ltb_spec (v * 10 + (zv c - 48)) 10); [lia|].
    assert (Eq : (v * 10 + (zv c - 48)) / 10 = v) by (Z.to_euclidean_division_equations; lia).
    assert (Em : (v * 10 + (zv c - 48)) mod 10 = zv c - 48) by (Z.to_euclidean_division_equations; lia).
    rewrite Eq, Em. cbn [rev]. rewrite map_app. cbn [map]. rewrite Hb. f_equal.
    assert (B : v < 10 ^ Z.of_nat n) by (rewrite Nat2Z.inj_succ, Z.pow_succ_r in Hf by lia; lia).
    apply IH; [exact D1| |exact B|].
    + cbn [no_lead]. destruct ds'; [exact I|exact L].
    + destruct n; [cbn in B; lia|lia].
Qed.
Lemma amount_text_unique t a : amount_from_str t = Ok a -> no_lead t -> zv (hd (b8 0) t) <> 43 -> t = amount_to_string a.
Proof.
  intros H N S. apply amount_from_str_iff in H. destruct H as (ds & [E|E] & N1 & D & V).
  - subst ds. unfold amount_to_string. rewrite <- V. symmetry. apply digits_unique; [exact D|exact N| |lia].
    rewrite V. pose proof (zv_range a : 0 <= zv a < 2 ^ 128). change (10 ^ Z.of_nat 39) with (10 ^ 39). lia.
  - rewrite E in S. cbn [hd] in S. exfalso. apply S. reflexivity.
Qed.

Section Ops.
  Context {C : CapConfig}.
  Let R (x : Amount) : 0 <= zv x < 2 ^ 128 := zv_range x.
  Lemma add_exact a b : (zv a + zv b < 2 ^ 128 -> exists c, amount_add a b = Ok c /\ zv c = zv a + zv b) /\
    (2 ^ 128 <= zv a + zv b -> amount_add a b = if overflow_checks then Panic else Ok (w128 (zv a + zv b))).
  Proof.
    pose proof (R a). pose proof (R b). unfold amount_add. split; intros HH.
    - rewrite (proj2 (Z.ltb_lt (zv a + zv b) u128_mod) HH). eexists. split; [reflexivity|]. apply zv_w128_id. lia.
    - rewrite (proj2 (Z.ltb_ge (zv a + zv b) u128_mod) HH). reflexivity.
  Qed.
  Lemma sub_exact a b : (zv b <= zv a -> exists c, amount_sub a b = Ok c /\ zv c = zv a - zv b) /\
    (zv a < zv b -> amount_sub a b = if overflow_checks then Panic else Ok (w128 (zv a - zv b))).
  Proof.
    pose proof (R a). pose proof (R b). unfold amount_sub. split; intros HH.
    - replace (zv b <=? zv a) with true by lia. eexists. split; [reflexivity|]. apply zv_w128_id. lia.
    - replace (zv b <=? zv a) with false by lia. reflexivity.
  Qed.
  Lemma mul_exact a b : (zv a * zv b < 2 ^ 128 -> exists c, amount_mul a b = Ok c /\ zv c = zv a * zv b) /\
    (2 ^ 128 <= zv a * zv b -> amount_mul a b = if overflow_checks then Panic else Ok (w128 (zv a * zv b))).
  Proof.
    pose proof (R a). pose proof (R b). unfold amount_mul. split; intros HH.
    - replace (zv a * zv b <? 2 ^ 128) with true by lia. eexists. split; [reflexivity|]. apply zv_w128_id. split; [|exact HH]. apply Z.mul_nonneg_nonneg; lia.
    - replace (zv a * zv b <? 2 ^ 128) with false by lia. reflexivity.
  Qed.
  Lemma div_exact a b : (zv b = 0 -> amount_div a b = Panic /\ amount_rem a b = Panic) /\
    (zv b <> 0 -> exists q r, amount_div a b = Ok q /\ amount_rem a b = Ok r /\ zv a = zv q * zv b + zv r /\ zv r < zv b).
  Proof.
    pose proof (R a). pose proof (R b). unfold amount_div, amount_rem. split; intros HH.
    - rewrite HH. auto.
    - destruct (Z.eqb_spec (zv b) 0); [contradiction|]. do 2 eexists. split; [reflexivity|]. split; [reflexivity|].
      assert (B : 0 < zv b) by lia. pose proof (Z.mod_pos_bound (zv a) (zv b) B). pose proof (Z.div_mod (zv a) (zv b) HH).
      assert (Q : 0 <= zv a / zv b <= zv a) by (split; [apply Z.div_pos; lia|apply Z.div_le_upper_bound; nia]).
      rewrite !zv_w128_id by lia. split; lia.
  Qed.
  Lemma sum_from l acc : 0 <= acc -> acc + fold_right (fun x s => zv x + s) 0 l < 2 ^ 128 ->
    exists c, fold_left (fun r x => let* a := r in amount_add a x) l (Ok (w128 acc)) = Ok c /\ zv c = acc + fold_right (fun x s => zv x + s) 0 l.
  Proof.
    assert (P : forall l : list Amount, 0 <= fold_right (fun x s => zv x + s) 0 l) by (induction l0 as [|x l0 IH]; cbn [fold_right]; [lia|pose proof (R x); lia]).
    revert acc. induction l as [|x l IH]; intros acc H0 HS; cbn [fold_left fold_right bind] in *.
    - eexists. split; [reflexivity|]. rewrite zv_w128_id; lia.
    - pose proof (R x). pose proof (P l). destruct (proj1 (add_exact (w128 acc) x)) as (c & E & V); [rewrite zv_w128_id; lia|]. rewrite E. rewrite zv_w128_id in V by lia.
      assert (Ec : c = w128 (acc + zv x)) by (apply zmod_ext; rewrite zv_w128_id by lia; exact V). rewrite Ec.
      destruct (IH (acc + zv x)) as (c' & E' & V'); [lia|lia|]. exists c'. split; [exact E'|]. lia.
  Qed.
  Lemma sum_exact l : fold_right (fun x s => zv x + s) 0 l < 2 ^ 128 ->
    exists c, amount_sum l = Ok c /\ zv c = fold_right (fun x s => zv x + s) 0 l.
  Proof. intros H. destruct (sum_from l 0) as (c & E & V); [lia|lia|]. exists c. auto. Qed.
  Lemma sum_panics l : overflow_checks = true -> 2 ^ 128 <= fold_right (fun x s => zv x + s) 0 l -> amount_sum l = Panic.
  Proof.
    intros O. assert (PP : forall l, fold_left (fun r x => let* a := r in amount_add a x) l Panic = Panic) by (induction l0 as [|x l0 IH]; [reflexivity|exact IH]).
    assert (G : forall l acc, 0 <= acc < 2 ^ 128 -> 2 ^ 128 <= acc + fold_right (fun x s => zv x + s) 0 l ->
      fold_left (fun r x => let* a := r in amount_add a x) l (Ok (w128 acc)) = Panic).
    { clear l. induction l as [|x l IH]; intros acc Ha HS; cbn [fold_left fold_right bind] in *; [lia|]. pose proof (R x).
      destruct (Z_lt_le_dec (acc + zv x) (2 ^ 128)) as [L|L].
      - destruct (proj1 (add_exact (w128 acc) x)) as (c & E & V); [rewrite zv_w128_id; lia|]. rewrite E. rewrite zv_w128_id in V by lia.
        assert (Ec : c = w128 (acc + zv x)) by (apply zmod_ext; rewrite zv_w128_id by lia; exact V). rewrite Ec. apply IH; lia.
      - rewrite (proj2 (add_exact (w128 acc) x)) by (rewrite zv_w128_id; lia). rewrite O. apply PP. }
    intros HS. apply G; lia.
  Qed.
End Ops.

(** ** Hexadecimal text *)
(** the value of a hexadecimal digit and of a sequence of them *)
Definition hex_value (c : byte) : Z := if zv c <=? 57 then zv c - 48 else zv c - 87.
Definition all_hex (t : bytes) : Prop := Forall (fun c : byte => 48 <= zv c <= 57 \/ 97 <= zv c <= 102) t.
Definition hex_denoted (t : bytes) : Z := fold_left (fun acc c => 16 * acc + hex_value c) t 0.
Lemma zv_hex d : 0 <= d <= 15 -> zv (b8 (if d <? 10 then 48 + d else 87 + d)) = if d <? 10 then 48 + d else 87 + d.
Proof. intros H. apply zred_small. change (0 <= (if d <? 10 then 48 + d else 87 + d) < 256). destruct (d <? 10); lia. Qed.
Lemma hex_value_digit d : 0 <= d <= 15 -> hex_value (b8 (if d <? 10 then 48 + d else 87 + d)) = d.
Proof.
  intros H. unfold hex_value. rewrite zv_hex by auto. destruct (d <? 10) eqn:E; [apply Z.ltb_lt in E|apply Z.ltb_ge in E].
  - replace (48 + d <=? 57) with true by (symmetry; apply Z.leb_le; lia). lia.
  - replace (87 + d <=? 57) with false by (symmetry; apply Z.leb_gt; lia). lia.
Qed.
Lemma hex_ok fuel z : 0 <= z < 16 ^ Z.of_nat fuel -> (0 < fuel)%nat ->
  Forall (fun d => 0 <= d <= 15) (hex_from fuel z) /\
  hex_denoted (map (fun d => b8 (if d <? 10 then 48 + d else 87 + d)) (rev (hex_from fuel z))) = z /\
  exists d l, rev (hex_from fuel z) = d :: l /\ (d = 0 -> z = 0 /\ l = []).
Proof.
  revert z. induction fuel as [|f IH]; intros z Hz Hf; [lia|]. cbn [hex_from]. destruct (z <? 16) eqn:E.
  - apply Z.ltb_lt in E. split; [repeat constructor; lia|]. split; [|exists z, []; auto]. cbn [rev app map hex_denoted fold_left].
    unfold hex_denoted. cbn [fold_left]. rewrite hex_value_digit by lia. lia.
  - apply Z.ltb_ge in E. rewrite Nat2Z.inj_succ, Z.pow_succ_r in Hz by lia.
    assert (B : 0 <= z / 16 < 16 ^ Z.of_nat f) by (split; [apply Z.div_pos; lia|apply Z.div_lt_upper_bound; lia]).
    destruct f as [|f]; [cbn in B; assert (1 <= z / 16) by (apply Z.div_le_lower_bound; lia); lia|].
    destruct (IH (z / 16) B) as (H1 & H2 & d & l & H3 & H4); [lia|].
    pose proof (Z.mod_pos_bound z 16 ltac:(lia)) as HM. split; [constructor; [lia|exact H1]|].
    cbn [rev]. split.
    + rewrite map_app. unfold hex_denoted in *. rewrite fold_left_app, H2. cbn [map fold_left]. rewrite hex_value_digit by lia.
      pose proof (Z.div_mod z 16). lia.
    + rewrite H3. exists d, (l ++ [z mod 16]). split; [reflexivity|]. intros Hd. exfalso. destruct (H4 Hd) as [H5 _].
      assert (1 <= z / 16) by (apply Z.div_le_lower_bound; lia). lia.
Qed.
Lemma amount_hex_spec a : let t := amount_to_hex a in
  all_hex t /\ hex_denoted t = zv a /\ t <> [] /\ (zv (hd (b8 0) t) = 48 -> t = [b8 48]).
Proof.
  cbv zeta. pose proof (zv_range a) as HA. change (0 <= zv a < 16 ^ Z.of_nat 32) in HA.
  destruct (hex_ok 32 (zv a) HA) as (H1 & H2 & d & l & H3 & H4); [lia|]. unfold amount_to_hex.
  assert (HD : Forall (fun d => 0 <= d <= 15) (rev (hex_from 32 (zv a)))) by (apply Forall_rev; exact H1).
  split; [|split; [exact H2|]].
  - unfold all_hex. apply Forall_forall. intros c Hc. apply in_map_iff in Hc. destruct Hc as (x & <- & Hx). rewrite Forall_forall in HD. specialize (HD x Hx).
    rewrite zv_hex by auto. destruct (x <? 10) eqn:E; [apply Z.ltb_lt in E|apply Z.ltb_ge in E]; lia.
  - rewrite H3 in *. split; [discriminate|]. cbn [map hd]. inversion HD as [|? ? Hd _]; subst. rewrite zv_hex by auto.
    destruct (d <? 10) eqn:E; [apply Z.ltb_lt in E|apply Z.ltb_ge in E]; intros Hz; [|lia]. assert (d = 0) by lia. destruct (H4 H) as [_ ->]. subst d. reflexivity.
Qed.
Lemma amount_hex_inj a b : amount_to_hex a = amount_to_hex b -> a = b.
Proof. intros H. apply zmod_ext. rewrite <- (proj1 (proj2 (amount_hex_spec a))), <- (proj1 (proj2 (amount_hex_spec b))), H. reflexivity. Qed.
