(** Concrete viewers and notes of the toy instance: an honest transfer, and two that a dishonest sender makes. *)
From Verif Require Import Base Config Structs Keys Utils Memo MemoProofs Plonk Witness Circuits Relation CircuitLogic GadgetProofs StructGadgetProofs TransferCircuitProofs Snark Notes Serde Ledger Wallet Roles.
From Verif Require Import Security CircuitFacts Toy ToySnark Samples NoteSamples.
#[local] Existing Instance toy_snark.
#[local] Open Scope Z_scope.

(** the holder of viewer key 7 of the sample asset *)
Definition vs_viewer : @Viewer T := @mkViewer T (@sz toy_field 7) (s_def true).

(** a note of the given witness and public input, for which the prover gives value [b] to every variable of value [a] *)
Definition vs_note (w : @TransferWitness T) (p : @TransferPublicInput T) (a b : @F toy_field) : res (@TransferNote T TS) :=
  let* s := @transfer_circuit T w p in
  let vk := @ver_key T (@sz toy_field 301) in
  Ok (@mkTNote T TS (tp_nullifiers p) (tp_commitments p) (reeval true (gates s) (subst_val a b (wit s)), @ser_verkey T TS vk ++ []) (tp_memo p)
        (@mkTAux T (tp_root p) (tp_fee p) (tp_valid_until p) vk [])).

(** ** A third output of amount 0 for an address that is no point *)
Definition vs_mark : Z := 987654321.
Definition vs_third : @RecordOpening T := s_ro true 0 (s_def true) vs_mark Unfrozen 202.
Definition vs_witness : @TransferWitness T :=
  @mkTW T (s_def true)
    [@mkIS T (s_user true 11) (h_fee true) (h_acc true 0) (s_cred true 11 8 900);
     @mkIS T (s_user true 12) (h_in1 true) (h_acc true 1) (s_cred true 12 8 900)]
    [s_native true 15 11 200; s_ro true 30 (s_def true) 13 Unfrozen 201; vs_third] (@sz toy_field 302).
Definition vs_third_value : @RoV T :=
  let r := @ro_value T vs_third in @mkRoV T (ro_amount r) (ro_code r) (@fz toy_field (-1), snd (ro_owner r)) (ro_pol r) (ro_flag r) (ro_blind r).
Definition vs_opening : @TransferV T :=
  let t := @transfer_value T vs_witness in
  @mkTransferV T (tv_code t) (tv_pol t) (tv_ins t) (firstn 2 (tv_outs t) ++ [vs_third_value]) (tv_rand t).
Definition vs_public : res (@TransferPublicInput T) :=
  let* p := @transfer_from_witness T vs_witness (w64 500) in
  Ok (@mkTPI T (tp_root p) (tp_native p) (tp_valid_until p) (tp_fee p) (tp_nullifiers p)
        (firstn 2 (tp_commitments p) ++ [@commitment_of T vs_third_value])
        (mkMemo (vm_ephemeral (tp_memo p))
                (snd (@celgamal_encrypt T (po_viewer (tv_pol vs_opening)) (tv_rand vs_opening) (@transfer_message T vs_opening))))).
Definition vs_forged : res (@TransferNote T TS) :=
  let* p := vs_public in vs_note vs_witness p (@fz toy_field vs_mark) (@fz toy_field (-1)).

(** the checks that the statement about it needs, for a note and what opens it *)
Definition vs_about (t : @TransferV T) : bool :=
  zeqb (tv_code t) (code (s_def true)) &&
  (zv (reveal_threshold (policy (s_def true))) <? @isum T (tl (@in_amounts T t))).

(** ** A transfer of another asset, without viewer, with a memo about the viewer's asset *)
Definition vb_in : @RecordOpening T := s_ro true 30 (s_free_def true) 12 Unfrozen 101.
Definition vb_acc := n_acc true (h_fee true) vb_in (h_in2 true).
Definition vb_root : @F toy_field := n_root true (h_fee true) vb_in (h_in2 true).
Definition vb_witness : @TransferWitness T :=
  @mkTW T (s_free_def true)
    [@mkIS T (s_user true 11) (h_fee true) (vb_acc 0) (s_cred true 11 8 900);
     @mkIS T (s_user true 12) vb_in (vb_acc 1) (s_cred true 12 8 900)]
    [s_native true 15 11 200; s_ro true 30 (s_free_def true) 13 Unfrozen 201] (@sz toy_field 302).
(** what the memo says: user 99 paid 1000 units of the viewer's asset to itself *)
Definition vb_claim (b : Z) : @RecordOpening T := s_ro true 1000 (s_def true) 99 Unfrozen b.
Definition vb_public : res (@TransferPublicInput T) :=
  let* p := @transfer_from_witness T vb_witness (w64 500) in
  let* m := @memo_for_transfer_note T [h_fee true; vb_claim 1] [s_native true 15 11 200; vb_claim 2] [s_cred true 11 8 900; s_cred true 99 8 900] (@sz toy_field 302) in
  Ok (@mkTPI T (tp_root p) (tp_native p) (tp_valid_until p) (tp_fee p) (tp_nullifiers p) (tp_commitments p) m).
Definition vb_forged : res (@TransferNote T TS) :=
  let* p := vb_public in vs_note vb_witness p (@fz toy_field vs_mark) (@fz toy_field vs_mark).

(** the hypotheses about an opening, and about the owners of its outputs *)
Definition vs_hyp (t : @TransferV T) : bool :=
  vs_about t && forallb (fun i => zv (ro_amount (in_ro i)) <? 2 ^ 128) (tl (tv_ins t)) &&
  forallb (fun i => negb (@xy_eqb T (ro_owner (in_ro i)) (@no_key T))) (tl (tv_ins t)).
Definition vs_on_curve (t : @TransferV T) : bool :=
  forallb (fun o => match @pt_of_xy T (ro_owner o) with Some _ => true | None => false end) (tl (tv_outs t)).
Definition is_err {A} (r : res A) : bool := match r with Err _ => true | _ => false end.
(** amounts that a viewer reads from a note *)
Definition vs_amounts (r : res (list (@ViewableData T) * list (@ViewableData T * u64))) : list Z * list (Z * Z) :=
  let a d := match vd_amount d with Some x => zv x | None => -1 end in
  match r with Ok (ins, outs) => (map a ins, map (fun x => (a (fst x), zv (snd x))) outs) | _ => ([], []) end.
