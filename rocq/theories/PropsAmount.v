(** Property theorems: amounts as text, arithmetic on amounts (C77).

    [denoted 0 ds] is the number that the decimal digits [ds] denote; [no_lead ds]: no leading zero (AmountText.v). *)
From Coq Require Import String.
From Verif Require Import Base Config Structs Text TextProofs AmountText Toy.

(** ** C77: amounts as text, and arithmetic on amounts *)
(** exactly the texts that are accepted: an optional plus sign and decimal digits that denote the amount; nothing wraps *)
Theorem C77_text_exact t a : amount_from_str t = Ok a <->
  exists ds, (t = ds \/ t = b8 43 :: ds) /\ ds <> [] /\ Forall (fun c : byte => 48 <= zv c <= 57) ds /\ denoted 0 ds = zv a.
Proof. exact (amount_from_str_iff t a). Qed.
Print Assumptions C77_text_exact.
(** an amount is printed as its digits, without leading zero, and is read back *)
Theorem C77_text_round_trip a : amount_from_str (amount_to_string a) = Ok a.
Proof. exact (amount_text_back a). Qed.
Print Assumptions C77_text_round_trip.
(** apart from a sign and leading zeros an amount has one text *)
Theorem C77_text_unique t a : amount_from_str t = Ok a -> no_lead t -> zv (hd (b8 0) t) <> 43 -> t = amount_to_string a.
Proof. exact (amount_text_unique t a). Qed.
Print Assumptions C77_text_unique.
Theorem C77_text_returns t : amount_from_str t <> Panic.
Proof. exact (amount_from_str_returns t). Qed.
Print Assumptions C77_text_returns.
(** the hexadecimal form: digits 0-9 and a-f that denote the amount, no leading zero; two amounts never print alike *)
Theorem C77_hex a : let t := amount_to_hex a in
  (Forall (fun c : byte => 48 <= zv c <= 57 \/ 97 <= zv c <= 102) t /\ hex_denoted t = zv a /\ t <> [] /\
   (zv (hd (b8 0) t) = 48 -> t = [b8 48])) /\
  forall b, amount_to_hex b = amount_to_hex a -> b = a.
Proof. exact (conj (amount_hex_spec a) (fun b H => amount_hex_inj b a H)). Qed.
Print Assumptions C77_hex.
Example C77_hex_example : amount_to_hex (w128 48879) = map b8 [98; 101; 101; 102] /\ amount_to_hex (w128 0) = [b8 48].
Proof. split; vm_compute; reflexivity. Qed.
(** operators: exact if the result is an amount; otherwise they panic, or wrap in a build without overflow checks *)
Theorem C77_operators (C : CapConfig) (a b : Amount) :
  (zv a + zv b < 2 ^ 128 -> exists c, amount_add a b = Ok c /\ zv c = zv a + zv b) /\
  (2 ^ 128 <= zv a + zv b -> amount_add a b = if overflow_checks then Panic else Ok (w128 (zv a + zv b))) /\
  (zv b <= zv a -> exists c, amount_sub a b = Ok c /\ zv c = zv a - zv b) /\
  (zv a < zv b -> amount_sub a b = if overflow_checks then Panic else Ok (w128 (zv a - zv b))) /\
  (zv a * zv b < 2 ^ 128 -> exists c, amount_mul a b = Ok c /\ zv c = zv a * zv b) /\
  (2 ^ 128 <= zv a * zv b -> amount_mul a b = if overflow_checks then Panic else Ok (w128 (zv a * zv b))) /\
  (zv b <> 0 -> exists q r, amount_div a b = Ok q /\ amount_rem a b = Ok r /\ zv a = zv q * zv b + zv r /\ zv r < zv b) /\
  (zv b = 0 -> amount_div a b = Panic /\ amount_rem a b = Panic).
Proof.
  exact (conj (proj1 (add_exact a b)) (conj (proj2 (add_exact a b)) (conj (proj1 (sub_exact a b)) (conj (proj2 (sub_exact a b))
    (conj (proj1 (mul_exact a b)) (conj (proj2 (mul_exact a b)) (conj (proj2 (div_exact a b)) (proj1 (div_exact a b))))))))).
Qed.
Print Assumptions C77_operators.
(** summing up: exact if the sum is an amount, and with overflow checks only then *)
Theorem C77_sum (C : CapConfig) l : let s := fold_right (fun x s => zv x + s) 0 l in
  (s < 2 ^ 128 -> exists c, amount_sum l = Ok c /\ zv c = s) /\ (overflow_checks = true -> 2 ^ 128 <= s -> amount_sum l = Panic).
Proof. exact (conj (sum_exact l) (sum_panics l)). Qed.
Print Assumptions C77_sum.
(** so without overflow checks a sum of amounts can be a different, smaller amount *)
Theorem C77_sum_exact_refuted : exists (C : CapConfig) (L : CapLaws C) l c, amount_sum l = Ok c /\ zv c <> fold_right (fun x s => zv x + s) 0 l.
Proof.
  exists (toy false), (toy_laws false), [w128 (2 ^ 128 - 1); w128 3], (w128 (2 ^ 128 + 2)). split; [|discriminate].
  assert (E : @amount_sum (toy false) [w128 (2 ^ 128 - 1); w128 3] = Ok (w128 (zv (w128 (0 + (2 ^ 128 - 1))) + 3))) by (vm_compute; reflexivity).
  rewrite E. reflexivity.
Qed.
Print Assumptions C77_sum_exact_refuted.
(** Non-vacuity *)
Example C77_example :
  amount_to_string (w128 (2 ^ 128 - 1)) = chars "340282366920938463463374607431768211455" /\
  amount_from_str (chars "340282366920938463463374607431768211455") = Ok (w128 (2 ^ 128 - 1)) /\
  amount_from_str (chars "340282366920938463463374607431768211456") = Err SerInvalidData /\
  amount_from_str (chars "+0017") = Ok (w128 17) /\ amount_from_str (chars "-1") = Err SerInvalidData /\ amount_from_str (chars "") = Err SerInvalidData /\
  amount_to_string (w128 0) = chars "0".
Proof.
  assert (E : amount_to_string (w128 (2 ^ 128 - 1)) = chars "340282366920938463463374607431768211455") by (apply same_bytes_iff; vm_compute; reflexivity).
  split; [exact E|]. split; [rewrite <- E; apply amount_text_back|]. split; [vm_compute; reflexivity|]. split; [vm_compute; reflexivity|].
  split; [vm_compute; reflexivity|]. split; [reflexivity|]. apply same_bytes_iff. vm_compute. reflexivity.
Qed.
