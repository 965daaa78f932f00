(** The constraint-system layer used by src/circuit/*.rs: the external crate jf_relation (PlonkCircuit, the [Circuit]
    trait and its gadgets) and the gadgets of jf_primitives::circuit.

    External code: it is not in /repo, so this file fixes what each gadget call means, not how jellyfish arithmetises
    it.  One [gate] stands for one gadget call.  A circuit is a deep object: the list of gates, the list of public
    variables and the prover's own assignment.  A gate is checked under an arbitrary assignment of field elements to
    variables ([gate_ok]), so soundness statements quantify over assignments a dishonest prover may choose.

    Simplifications: (1) a gadget call whose Rust version returns an error because the honest value is out of range
    (for example [unpack] of a too large value) inserts an unsatisfied gate here; every caller in src/proof turns both
    into the same [FailedSnark] error; (2) the non-zero check on the left child inside the Merkle gadget is left out. *)
From Verif Require Import Base Config Structs.

Section Plonk.
  Context {C : CapConfig}.

  (** [jf_relation::Variable]: an index into the witness vector *)
  Definition var := nat.
  (** [PointVariable]: two variables *)
  Definition ptv := (var * var)%type.

  (** ** Meaning of the gadgets on values *)

  Definition in_range (n : nat) (x : F) : bool := zv x <? 2 ^ Z.of_nat n.
  Definition scalar_ok (x : F) : bool := zv x <? 2 ^ scalar_bits.
  Definition is_bool (x : F) : bool := zeqb x f0 || zeqb x f1.
  Definition f_not (a : F) : F := fsub f1 a.
  Definition f_or (a b : F) : F := fsub (fadd a b) (fmul a b).
  (** [conditional_select(b, x_0, x_1)]: x_1 when b = 1, x_0 when b = 0 *)
  Definition f_sel (b x0 x1 : F) : F := fadd (fmul b x1) (fmul (f_not b) x0).
  Definition f_lc (l : list (F * F)) : F := fsum (map (fun qx => fmul (fst qx) (snd qx)) l).
  Definition neutral_xy : xy := (f0, f1).
  (** little-endian bits of an integer *)
  Definition f_bits (n : nat) (x : F) : list F := map (fun i => fbool (Z.testbit (zv x) (Z.of_nat i))) (seq 0 n).
  (** position of a Merkle node from the two flags of the gadget *)
  Definition pos_of (l r : F) : NodePos := if zeqb l f1 then PLeft else if zeqb r f1 then PRight else PMiddle.

  (** gadgets that compute output variables from input variables *)
  Inductive op :=
  | OAdd | OSub | OAddC (c : F) | OLc (qs : list F) | OSum | OMul
  | OIsZero | OIsEq | ONot | OOr | OAnd | OAndAll | OSel
  | OUnpack (n : nat)
  | OIsPtEq | OIsNeutral | OFixMul | OVarMul
  | ORescue | OPrf | OCommit | OElgamal | OSig | ONode.

  Definition pt_list (p : xy) : list F := [fst p; snd p].

  (** value of the outputs *)
  Definition op_eval (o : op) (ins : list F) : list F :=
    match o, ins with
    | OAdd, [a; b] => [fadd a b]
    | OSub, [a; b] => [fsub a b]
    | OAddC c, [a] => [fadd a c]
    | OLc qs, _ => [f_lc (combine qs ins)]
    | OSum, _ => [fsum ins]
    | OMul, [a; b] => [fmul a b]
    | OIsZero, [a] => [fbool (zeqb a f0)]
    | OIsEq, [a; b] => [fbool (zeqb a b)]
    | ONot, [a] => [f_not a]
    | OOr, [a; b] => [f_or a b]
    | OAnd, [a; b] => [fmul a b]
    | OAndAll, _ => [fold_right fmul f1 ins]
    | OSel, [b; x0; x1] => [f_sel b x0 x1]
    | OUnpack n, [a] => f_bits n a
    | OIsPtEq, [a; b; c; d] => [fbool (xy_eqb (a, b) (c, d))]
    | OIsNeutral, [a; b] => [fbool (xy_eqb (a, b) neutral_xy)]
    | OFixMul, [s] => pt_list (pt_xy (pt_mul (zv s) pt_gen))
    | OVarMul, [s; a; b] => pt_list (cmul (zv s) (a, b))
    | ORescue, [a; b; c] => [rescue3 a b c]
    | OPrf, k :: l => [prf_eval k l]
    | OCommit, r :: l => [commit l r]
    | OElgamal, r :: a :: b :: msg =>
        let ct := celgamal_encrypt (a, b) r msg in pt_list (fst ct) ++ snd ct
    | OSig, s :: rx :: ry :: a :: b :: msg => [fbool (csig_ok (a, b) msg (s, (rx, ry)))]
    | ONode, [cur; s1; s2; l; r] => [node_hash cur (mkNode (pos_of l r) s1 s2)]
    | _, _ => []
    end.

  (** side condition under which the gadget's constraints can be met: scalars are decomposed into
      [size_in_bits] bits of the embedded scalar field, [unpack(a, n)] needs a < 2^n *)
  Definition op_guard (o : op) (ins : list F) : bool :=
    match o, ins with
    | OUnpack n, [a] => in_range n a
    | OFixMul, s :: _ => scalar_ok s
    | OVarMul, s :: _ => scalar_ok s
    | OElgamal, s :: _ => scalar_ok s
    | OSig, s :: _ => scalar_ok s
    | _, _ => true
    end.

  (** gadgets that only constrain existing variables *)
  Inductive check :=
  | CConst (c : F) | CBool | CEq | CAdd | CMul | CMulAdd (q1 q2 : F) | COr | CRange (n : nat) | CPtEq.

  Definition check_eval (k : check) (ins : list F) : bool :=
    match k, ins with
    | CConst c, [a] => zeqb a c
    | CBool, [a] => is_bool a
    | CEq, [a; b] => zeqb a b
    | CAdd, [a; b; c] => zeqb (fadd a b) c
    | CMul, [a; b; c] => zeqb (fmul a b) c
    | CMulAdd q1 q2, [a; b; c; d; y] => zeqb (fadd (fmul q1 (fmul a b)) (fmul q2 (fmul c d))) y
    | COr, [a; b] => zeqb (f_or a b) f1
    | CRange n, [a] => in_range n a
    | CPtEq, [a; b; c; d] => xy_eqb (a, b) (c, d)
    | _, _ => false
    end.

  Inductive gate :=
  | GOp (o : op) (ins outs : list var)
  | GCheck (k : check) (ins : list var)
  (** [is_in_range]: a full-width bit decomposition need not be canonical, so a prover may also report "not in range"
      for a value in range; "in range" can only be reported truthfully *)
  | GIsRange (a : var) (n : nat) (y : var).

  (** ** Satisfaction under an arbitrary assignment *)
  Definition env := var -> F.
  Fixpoint flist_eqb (a b : list F) : bool :=
    match a, b with
    | [], [] => true
    | x :: a', y :: b' => zeqb x y && flist_eqb a' b'
    | _, _ => false
    end.
  Definition gate_ok (rho : env) (g : gate) : bool :=
    match g with
    | GOp o ins outs => op_guard o (map rho ins) && flist_eqb (map rho outs) (op_eval o (map rho ins))
    | GCheck k ins => check_eval k (map rho ins)
    | GIsRange a n y => is_bool (rho y) && (zeqb (rho y) f0 || in_range n (rho a))
    end.

  (** ** The circuit under construction *)
  Record cs := mkCS { wit : list F; gates : list gate; pubs : list var }.
  Definition M (A : Type) := cs -> res (A * cs).
  Definition ret {A} (a : A) : M A := fun s => Ok (a, s).
  Definition mbind {A B} (m : M A) (k : A -> M B) : M B :=
    fun s => match m s with Ok (a, s') => k a s' | Err e => Err e | Panic => Panic end.
  Definition mfail {A} (e : error) : M A := fun _ => Err e.
  Definition mpanic {A} : M A := fun _ => Panic.
  Fixpoint mmap {A B} (f : A -> M B) (l : list A) : M (list B) :=
    match l with
    | [] => ret []
    | x :: xs => mbind (f x) (fun y => mbind (mmap f xs) (fun ys => ret (y :: ys)))
    end.
  Fixpoint mfor {A} (l : list A) (f : A -> M unit) : M unit :=
    match l with
    | [] => ret tt
    | x :: xs => mbind (f x) (fun _ => mfor xs f)
    end.

  Definition gate_vars (g : gate) : list var :=
    match g with
    | GOp _ ins outs => ins ++ outs
    | GCheck _ ins => ins
    | GIsRange a _ y => [a; y]
    end.

  (** [Circuit::witness]: error when the variable does not exist ([check_var_bound]) *)
  Definition witness (v : var) : M F :=
    fun s => match nth_error (wit s) v with Some x => Ok (x, s) | None => Err CircuitError end.
  (** [create_variable] *)
  Definition create_variable (x : F) : M var :=
    fun s => Ok (length (wit s), mkCS (wit s ++ [x]) (gates s) (pubs s)).
  Definition insert_gate (g : gate) : M unit :=
    fun s => if forallb (fun v => (v <? length (wit s))%nat) (gate_vars g)
             then Ok (tt, mkCS (wit s) (gates s ++ [g]) (pubs s)) else Err CircuitError.
  (** [set_variable_public] *)
  Definition set_variable_public (v : var) : M unit :=
    fun s => Ok (tt, mkCS (wit s) (gates s) (pubs s ++ [v])).

  (** gadget with outputs: the prover computes the outputs, then the gate is inserted *)
  Definition apply_op (o : op) (ins : list var) : M (list var) :=
    mbind (mmap witness ins) (fun xs =>
    mbind (mmap create_variable (op_eval o xs)) (fun outs =>
    mbind (insert_gate (GOp o ins outs)) (fun _ => ret outs))).
  Definition apply1 (o : op) (ins : list var) : M var :=
    mbind (apply_op o ins) (fun outs => match outs with [y] => ret y | _ => mfail CircuitError end).
  Definition apply2 (o : op) (ins : list var) : M ptv :=
    mbind (apply_op o ins) (fun outs => match outs with [x; y] => ret (x, y) | _ => mfail CircuitError end).
  Definition enforce (k : check) (ins : list var) : M unit := insert_gate (GCheck k ins).

  (** [PlonkCircuit::new_turbo_plonk]: variables 0 and 1 are the constants zero and one *)
  Definition zero_var : var := 0%nat.
  Definition one_var : var := 1%nat.
  Definition new_circuit : cs :=
    mkCS [f0; f1] [GCheck (CConst f0) [zero_var]; GCheck (CConst f1) [one_var]] [].

  (** [circuit.check_circuit_satisfiability(pub_input)] *)
  Definition env_of (w : list F) : env := fun v => nth v w f0.
  Definition circuit_sat (s : cs) (rho : env) (pub : list F) : bool :=
    forallb (gate_ok rho) (gates s) && flist_eqb (map rho (pubs s)) pub.
  Definition check_circuit_satisfiability (s : cs) (pub : list F) : bool := circuit_sat s (env_of (wit s)) pub.

  (** ** jf_relation / jf_primitives gadget calls, as named at the call sites *)
  Definition px (p : ptv) : var := fst p.
  Definition py (p : ptv) : var := snd p.

  Definition create_public_variable (x : F) : M var :=
    mbind (create_variable x) (fun v => mbind (set_variable_public v) (fun _ => ret v)).
  Definition enforce_bool (v : var) : M unit := enforce CBool [v].
  Definition create_boolean_variable (b : bool) : M var :=
    mbind (create_variable (fbool b)) (fun v => mbind (enforce_bool v) (fun _ => ret v)).
  Definition create_point_variable (p : xy) : M ptv :=
    mbind (create_variable (fst p)) (fun x => mbind (create_variable (snd p)) (fun y => ret (x, y))).
  Definition neutral_point_variable : ptv := (zero_var, one_var).

  Definition enforce_constant (a : var) (c : F) : M unit := enforce (CConst c) [a].
  Definition enforce_equal (a b : var) : M unit := enforce CEq [a; b].
  Definition add_gate (a b c : var) : M unit := enforce CAdd [a; b; c].
  Definition mul_gate (a b c : var) : M unit := enforce CMul [a; b; c].
  Definition mul_add_gate (a b c d y : var) (q1 q2 : F) : M unit := enforce (CMulAdd q1 q2) [a; b; c; d; y].
  Definition logic_or_gate (a b : var) : M unit := enforce COr [a; b].
  Definition enforce_in_range (a : var) (n : nat) : M unit := enforce (CRange n) [a].
  Definition enforce_point_equal (p q : ptv) : M unit := enforce CPtEq [px p; py p; px q; py q].

  Definition add (a b : var) : M var := apply1 OAdd [a; b].
  Definition sub (a b : var) : M var := apply1 OSub [a; b].
  Definition add_constant (a : var) (c : F) : M var := apply1 (OAddC c) [a].
  Definition lc (ws : list var) (qs : list F) : M var := apply1 (OLc qs) ws.
  Definition sum (l : list var) : M var := apply1 OSum l.
  Definition mul (a b : var) : M var := apply1 OMul [a; b].
  Definition is_zero (a : var) : M var := apply1 OIsZero [a].
  Definition is_equal (a b : var) : M var := apply1 OIsEq [a; b].
  Definition logic_neg (a : var) : M var := apply1 ONot [a].
  Definition logic_or (a b : var) : M var := apply1 OOr [a; b].
  Definition logic_and (a b : var) : M var := apply1 OAnd [a; b].
  Definition logic_and_all (l : list var) : M var := apply1 OAndAll l.
  Definition conditional_select (b x0 x1 : var) : M var := apply1 OSel [b; x0; x1].
  Definition unpack (a : var) (n : nat) : M (list var) := apply_op (OUnpack n) [a].
  Definition is_point_equal (p q : ptv) : M var := apply1 OIsPtEq [px p; py p; px q; py q].
  Definition is_neutral_point (p : ptv) : M var := apply1 OIsNeutral [px p; py p].
  (** multiplication of the subgroup generator *)
  Definition fixed_base_scalar_mul (s : var) : M ptv := apply2 OFixMul [s].
  Definition variable_base_scalar_mul (s : var) (p : ptv) : M ptv := apply2 OVarMul [s; px p; py p].
  Definition rescue_sponge_no_padding (a b c : var) : M var := apply1 ORescue [a; b; c].
  Definition eval_prf (k : var) (l : list var) : M var := apply1 OPrf (k :: l).
  Definition commit_gadget (l : list var) (r : var) : M var := apply1 OCommit (r :: l).
  Definition is_in_range (a : var) (n : nat) : M var :=
    mbind (witness a) (fun x =>
    mbind (create_variable (fbool (in_range n x))) (fun y =>
    mbind (insert_gate (GIsRange a n y)) (fun _ => ret y))).

  (** [ElGamalEncryptionGadget::elgamal_encrypt] *)
  Definition elgamal_encrypt_gadget (pk : ptv) (msg : list var) (r : var) : M (ptv * list var) :=
    mbind (apply_op OElgamal (r :: px pk :: py pk :: msg)) (fun outs =>
    match outs with x :: y :: ct => ret ((x, y), ct) | _ => mfail CircuitError end).
  (** [SignatureGadget::check_signature_validity]; a signature variable is (s, R) *)
  Definition check_signature_validity (pk : ptv) (msg : list var) (sig : var * ptv) : M var :=
    apply1 OSig (fst sig :: px (snd sig) :: py (snd sig) :: px pk :: py pk :: msg).

  (** [AccMemberWitnessVar] and [MerkleTreeGadget] *)
  Record NodeVar := mkNodeVar { nv_sib1 : var; nv_sib2 : var; nv_left : var; nv_right : var }.
  Record AccVar := mkAccVar { av_uid : var; av_path : list NodeVar }.
  Definition node_is_left (n : MerklePathNode) : bool := match n_pos n with PLeft => true | _ => false end.
  Definition node_is_right (n : MerklePathNode) : bool := match n_pos n with PRight => true | _ => false end.
  Definition node_var_new (n : MerklePathNode) : M NodeVar :=
    mbind (create_variable (n_sib1 n)) (fun s1 =>
    mbind (create_variable (n_sib2 n)) (fun s2 =>
    mbind (create_boolean_variable (node_is_left n)) (fun l =>
    mbind (create_boolean_variable (node_is_right n)) (fun r =>
    mbind (add l r) (fun lr => mbind (enforce_bool lr) (fun _ => ret (mkNodeVar s1 s2 l r))))))).
  Definition acc_var_new (a : AccMemberWitness) : M AccVar :=
    mbind (create_variable (f_of_u64 (acc_uid a))) (fun u =>
    mbind (mmap node_var_new (acc_path a)) (fun p => ret (mkAccVar u p))).
  Fixpoint merkle_climb (cur : var) (path : list NodeVar) : M var :=
    match path with
    | [] => ret cur
    | n :: ns => mbind (apply1 ONode [cur; nv_sib1 n; nv_sib2 n; nv_left n; nv_right n]) (fun c => merkle_climb c ns)
    end.
  Definition compute_merkle_root (uid elem : var) (path : list NodeVar) : M var :=
    mbind (rescue_sponge_no_padding zero_var uid elem) (fun leaf => merkle_climb leaf path).
End Plonk.

Notation "'do' x <- m ; k" := (mbind m (fun x => k)) (at level 200, x pattern, m at level 100, k at level 200).
Notation "'run' m ; k" := (mbind m (fun _ => k)) (at level 200, m at level 100, k at level 200).
