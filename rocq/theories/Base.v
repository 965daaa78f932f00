(** Base vocabulary of the model: typed machine integers, results, list helpers.

    Nothing here models a particular function of /repo; it fixes how Rust values are represented:
    - [zmod m]: an integer together with a proof that it lies in [0, m).  Bytes, u64, u128, u256 and prime-field
      elements are instances, so "for all u128" is quantification over exactly 2^128 values.
    - [res A]: [Ok], [Err] (a Rust [Result::Err] carrying the error variant without its message) or [Panic]
      (the Rust call does not return: index out of bounds, arithmetic overflow with overflow checks, assert). *)
From Coq Require Export ZArith List Bool Lia.
From Coq Require Import ZifyBool Eqdep_dec.
Export ListNotations.
Open Scope Z_scope.

(** ** Bounded integers *)

Record zmod (m : Z) : Type := mkz { zv : Z; zv_ok : (0 <=? zv) && (zv <? m) = true }.
Arguments mkz {m} _ _.
Arguments zv {m} _.
Arguments zv_ok {m} _.

Lemma zv_range {m} (a : zmod m) : 0 <= zv a < m.
Proof. pose proof (zv_ok a); lia. Qed.

Lemma zmod_ext {m} (a b : zmod m) : zv a = zv b -> a = b.
Proof.
  destruct a as [x Hx], b as [y Hy]; cbn; intros ->.
  f_equal; apply UIP_dec, bool_dec.
Qed.

Lemma zmod_ext_iff {m} (a b : zmod m) : a = b <-> zv a = zv b.
Proof. split; [intros ->; reflexivity | apply zmod_ext]. Qed.

Definition zeqb {m} (a b : zmod m) : bool := zv a =? zv b.

Lemma zeqb_spec {m} (a b : zmod m) : zeqb a b = true <-> a = b.
Proof. unfold zeqb; rewrite Z.eqb_eq; symmetry; apply zmod_ext_iff. Qed.

Lemma zeqb_refl {m} (a : zmod m) : zeqb a a = true.
Proof. apply zeqb_spec; reflexivity. Qed.

Lemma zeqb_reflect {m} (a b : zmod m) : reflect (a = b) (zeqb a b).
Proof. apply iff_reflect; symmetry; apply zeqb_spec. Qed.

Definition zmod_eq_dec {m} (a b : zmod m) : {a = b} + {a <> b}.
Proof.
  destruct (zeqb a b) eqn:E; [left; apply zeqb_spec; exact E|right].
  intros H; apply zeqb_spec in H; congruence.
Defined.

Lemma zred_ok (m : Z) (Hm : 0 < m) (z : Z) : (0 <=? z mod m) && (z mod m <? m) = true.
Proof. pose proof (Z.mod_pos_bound z m Hm); lia. Qed.

(** Reduction of an integer modulo [m]. *)
Definition zred (m : Z) (Hm : 0 < m) (z : Z) : zmod m := mkz (z mod m) (zred_ok m Hm z).

Lemma zv_zred m Hm z : zv (zred m Hm z) = z mod m.
Proof. reflexivity. Qed.

Lemma zred_small m Hm z : 0 <= z < m -> zv (zred m Hm z) = z.
Proof. intros; cbn; apply Z.mod_small; lia. Qed.

Lemma zred_zv m Hm (a : zmod m) : zred m Hm (zv a) = a.
Proof. apply zmod_ext, zred_small, zv_range. Qed.

(** Fixed-size machine types. *)
Definition u8_mod : Z := 2 ^ 8.
Definition u64_mod : Z := 2 ^ 64.
Definition u128_mod : Z := 2 ^ 128.
Definition u256_mod : Z := 2 ^ 256.
Definition byte := zmod u8_mod.
Definition u64 := zmod u64_mod.
Definition u128 := zmod u128_mod.
Definition u256 := zmod u256_mod.
Definition bytes := list byte.

Lemma u8_pos : 0 < u8_mod. Proof. reflexivity. Qed.
Lemma u64_pos : 0 < u64_mod. Proof. reflexivity. Qed.
Lemma u128_pos : 0 < u128_mod. Proof. reflexivity. Qed.
Lemma u256_pos : 0 < u256_mod. Proof. reflexivity. Qed.

Definition b8 (z : Z) : byte := zred u8_mod u8_pos z.
Definition w64 (z : Z) : u64 := zred u64_mod u64_pos z.
Definition w128 (z : Z) : u128 := zred u128_mod u128_pos z.
Definition w256 (z : Z) : u256 := zred u256_mod u256_pos z.

(** ** Errors and results *)

(** src/errors.rs 21-60 [TxnApiError] (messages dropped), plus the two arkworks serialization errors and the
    circuit-builder errors that reach the same call sites. *)
Inductive error :=
| FailedPrimitives | FailedSnark | FailedConstraintSystem | FailedAssetCodeVerification
| FailedCredentialCreation | FailedCredentialVerification | FailedTransactionVerification
| FailedSerialization | FailedReceiverMemoSignature | FailedTxMemoSignature
| FailedViewableMemoDecryption | IoError | InvalidParameter | DeserializationError | IncorrectFee
| ParametersGenerationError | InternalError | InvalidAttribute
| SerInvalidData | SerIoError | CircuitError.

Inductive res (A : Type) : Type :=
| Ok (a : A)
| Err (e : error)
| Panic.
Arguments Ok {A} _.
Arguments Err {A} _.
Arguments Panic {A}.

Definition bind {A B} (m : res A) (k : A -> res B) : res B :=
  match m with Ok a => k a | Err e => Err e | Panic => Panic end.

Declare Scope res_scope.
Delimit Scope res_scope with res.
Notation "'let*' x := m 'in' k" := (bind m (fun x => k))
  (at level 200, x pattern, m at level 100, k at level 200) : res_scope.
Notation "m ;;; k" := (bind m (fun _ => k)) (at level 199, right associativity) : res_scope.
Open Scope res_scope.

Definition is_ok {A} (m : res A) : bool := match m with Ok _ => true | _ => false end.

(** [if b then return Err(e)] *)
Definition fail_if (b : bool) (e : error) : res unit := if b then Err e else Ok tt.

(** [opt.ok_or(e)] *)
Definition ok_or {A} (o : option A) (e : error) : res A := match o with Some a => Ok a | None => Err e end.

(** [r.map_err(|_| e)] *)
Definition map_err {A} (r : res A) (e : error) : res A := match r with Err _ => Err e | _ => r end.

Lemma bind_ok {A B} (m : res A) (k : A -> res B) b :
  bind m k = Ok b <-> exists a, m = Ok a /\ k a = Ok b.
Proof.
  destruct m; cbn; split; intros H; try discriminate.
  - eauto.
  - destruct H as (a' & E & Hk); congruence.
  - destruct H as (? & ? & ?); discriminate.
  - destruct H as (? & ? & ?); discriminate.
Qed.

Lemma fail_if_ok b e u : fail_if b e = Ok u <-> b = false.
Proof. destruct b, u; cbn; split; congruence. Qed.

Lemma ok_or_ok {A} (o : option A) e a : ok_or o e = Ok a <-> o = Some a.
Proof. destruct o; cbn; split; congruence. Qed.

(** Iterate a fallible function over a list ([iter().map(..).collect::<Result<Vec<_>,_>>()]). *)
Fixpoint mapM {A B} (f : A -> res B) (l : list A) : res (list B) :=
  match l with
  | [] => Ok []
  | x :: xs => let* y := f x in let* ys := mapM f xs in Ok (y :: ys)
  end.

(** A [for] loop whose body may fail and carries no state. *)
Fixpoint forM {A} (l : list A) (f : A -> res unit) : res unit :=
  match l with
  | [] => Ok tt
  | x :: xs => let* _ := f x in forM xs f
  end.

Lemma forM_ok {A} (l : list A) f u : forM l f = Ok u <-> (forall x, In x l -> f x = Ok tt).
Proof.
  destruct u; induction l as [|x xs IH]; cbn.
  - split; [intros _ ? []|reflexivity].
  - rewrite bind_ok; split.
    + intros ([] & Hx & Hxs) y [<-|Hy]; [exact Hx|]. apply IH; auto.
    + intros H; exists tt; split; [auto|]. apply IH; auto.
Qed.

Lemma mapM_ok {A B} (f : A -> res B) l ys :
  mapM f l = Ok ys <-> Forall2 (fun x y => f x = Ok y) l ys.
Proof.
  revert ys; induction l as [|x xs IH]; cbn; intros ys.
  - split; [intros [= <-]; constructor|]. intros H; inversion H; reflexivity.
  - rewrite bind_ok; split.
    + intros (y & Hy & H). apply bind_ok in H; destruct H as (zs & Hz & [= <-]).
      constructor; [exact Hy|]. apply IH; exact Hz.
    + intros H; inversion H as [|? y' ? zs Hy Hzs]; subst. exists y'; split; [exact Hy|].
      apply bind_ok; exists zs; split; [apply IH; exact Hzs|reflexivity].
Qed.

(** ** Little-endian digits *)

(** [n] little-endian base-256 digits of [z]. *)
Fixpoint le_bytes (n : nat) (z : Z) : bytes :=
  match n with
  | O => []
  | S n' => b8 z :: le_bytes n' (z / 256)
  end.

(** Value of a little-endian byte string. *)
Fixpoint from_le (l : bytes) : Z :=
  match l with
  | [] => 0
  | b :: bs => zv b + 256 * from_le bs
  end.

Lemma byte_range (b : byte) : 0 <= zv b < 256.
Proof. exact (zv_range b). Qed.

Lemma le_bytes_length n z : length (le_bytes n z) = n.
Proof. revert z; induction n; intros; cbn; auto. Qed.

Lemma pow256_succ n : 256 ^ Z.of_nat (S n) = 256 * 256 ^ Z.of_nat n.
Proof. rewrite Nat2Z.inj_succ, Z.pow_succ_r; lia. Qed.

Lemma from_le_le_bytes n z : from_le (le_bytes n z) = z mod 256 ^ Z.of_nat n.
Proof.
  revert z; induction n as [|n IH]; intros z.
  - cbn. rewrite Z.mod_1_r; reflexivity.
  - cbn [le_bytes from_le]. rewrite IH, pow256_succ.
    rewrite Z.rem_mul_r by (try apply Z.pow_nonzero; lia).
    change (zv (b8 z)) with (z mod 256). lia.
Qed.

Lemma from_le_bound l : 0 <= from_le l < 256 ^ Z.of_nat (length l).
Proof.
  induction l as [|b bs IH]; cbn [from_le length].
  - cbn; lia.
  - rewrite pow256_succ. pose proof (byte_range b) as Hb. lia.
Qed.

Lemma le_bytes_from_le l : le_bytes (length l) (from_le l) = l.
Proof.
  induction l as [|b bs IH]; cbn [from_le length le_bytes]; [reflexivity|].
  pose proof (byte_range b) as Hb.
  f_equal.
  - apply zmod_ext. change (zv (b8 ?z)) with (z mod 256).
    rewrite Z.mul_comm, Z.mod_add, Z.mod_small; lia.
  - rewrite Z.mul_comm, Z.div_add, Z.div_small, Z.add_0_l by lia. exact IH.
Qed.

Lemma le_bytes_inj n a b :
  0 <= a < 256 ^ Z.of_nat n -> 0 <= b < 256 ^ Z.of_nat n -> le_bytes n a = le_bytes n b -> a = b.
Proof.
  intros Ha Hb H. apply (f_equal from_le) in H. rewrite !from_le_le_bytes, !Z.mod_small in H by lia. exact H.
Qed.

(** [Read::read_exact] of [n] bytes: the bytes and the unread rest, or an I/O error. *)
Definition read_exact (n : nat) (s : bytes) : res (bytes * bytes) :=
  if (length s <? n)%nat then Err SerIoError else Ok (firstn n s, skipn n s).

Lemma read_exact_app a s : read_exact (length a) (a ++ s) = Ok (a, s).
Proof.
  unfold read_exact. rewrite app_length.
  destruct (Nat.ltb_spec (length a + length s) (length a)) as [H|H]; [lia|].
  f_equal; f_equal.
  - rewrite firstn_app, firstn_all, Nat.sub_diag; cbn; apply app_nil_r.
  - rewrite skipn_app, skipn_all, Nat.sub_diag; reflexivity.
Qed.

Lemma read_exact_app_n n a s : length a = n -> read_exact n (a ++ s) = Ok (a, s).
Proof. intros <-; apply read_exact_app. Qed.

Lemma read_exact_ok n s a r : read_exact n s = Ok (a, r) <-> s = a ++ r /\ length a = n.
Proof.
  split.
  - unfold read_exact; destruct (Nat.ltb_spec (length s) n) as [H|H]; [discriminate|].
    intros [= <- <-]. split; [symmetry; apply firstn_skipn|]. rewrite firstn_length; lia.
  - intros [-> <-]; apply read_exact_app.
Qed.

(** ** Misc list lemmas *)

Lemma Forall2_nth_error {A B} (P : A -> B -> Prop) l1 l2 :
  Forall2 P l1 l2 -> forall i a b, nth_error l1 i = Some a -> nth_error l2 i = Some b -> P a b.
Proof.
  induction 1; intros [|i] a b; cbn; try discriminate.
  - intros [= <-] [= <-]; assumption.
  - eauto.
Qed.

Lemma app_inj_len {A} (a b c d : list A) : length a = length c -> a ++ b = c ++ d -> a = c /\ b = d.
Proof.
  revert c; induction a as [|x a IH]; intros [|y c]; cbn; intros Hl H; try discriminate.
  - auto.
  - injection H as -> H. injection Hl as Hl. destruct (IH _ Hl H) as [-> ->]; auto.
Qed.

Lemma forallb_Forall {A} (f : A -> bool) l : forallb f l = true <-> Forall (fun x => f x = true) l.
Proof. rewrite forallb_forall, Forall_forall; reflexivity. Qed.

(** Split conjunctions only. *)
Ltac conjs := repeat match goal with |- _ /\ _ => split end.

Lemma cons_inj {A} (x y : A) l l' : x :: l = y :: l' -> x = y /\ l = l'.
Proof. intros [= -> ->]; auto. Qed.
