(** Concrete notes over the toy configuration and the toy proof system: honest notes for the non-vacuity examples and
    forged notes for the counterexamples of the Props*.v files. *)
From Verif Require Import Base Config Structs Keys Utils Memo Plonk Witness Circuits Snark Notes Toy ToySnark Samples.

Definition ok_of {A} (d : A) (r : res A) : A := match r with Ok x => x | _ => d end.

Section S.
  Context (oc : bool).
  Notation CC := (toy oc).
  #[local] Instance toy_snark_i : Snark CC := toy_snark oc.
  Notation fz := (@fz toy_field).
  Notation rc r := (@derive_record_commitment CC r).

  (** three records at positions 0, 1, 2 of a tree of depth 2 *)
  Definition n_leaf (uid : Z) (r : @RecordOpening CC) := @merkle_leaf CC (fz uid) (rc r).
  Definition n_up : @MerklePathNode CC := @mkNode CC PLeft (fz 0) (fz 0).
  Definition n_root (r0 r1 r2 : @RecordOpening CC) : @F toy_field :=
    @node_hash CC (@rescue3 CC (n_leaf 0 r0) (n_leaf 1 r1) (n_leaf 2 r2)) n_up.
  Definition n_acc (r0 r1 r2 : @RecordOpening CC) (k : nat) : @AccMemberWitness CC :=
    let node := match k with
                | 0%nat => @mkNode CC PLeft (n_leaf 1 r1) (n_leaf 2 r2)
                | 1%nat => @mkNode CC PMiddle (n_leaf 0 r0) (n_leaf 2 r2)
                | _ => @mkNode CC PRight (n_leaf 0 r0) (n_leaf 1 r1)
                end in
    @mkAcc CC (w64 (Z.of_nat k)) [node; n_up] (n_root r0 r1 r2).

  (** ** Honest transfer of 30 units of an asset with viewer, issuer and freezer; fee 5 *)
  Definition h_fee : @RecordOpening CC := s_native oc 20 11 100.
  Definition h_in1 : @RecordOpening CC := s_ro oc 30 (s_def oc) 12 Unfrozen 101.
  Definition h_in2 : @RecordOpening CC := s_ro oc 8 (s_def oc) 12 Unfrozen 102.
  Definition h_acc := n_acc h_fee h_in1 h_in2.
  Definition h_inputs : list (@TransferNoteInput CC) :=
    [@mkTIn CC h_fee (h_acc 0) (s_user oc 11) None;
     @mkTIn CC h_in1 (h_acc 1) (s_user oc 12) (Some (s_cred oc 12 8 900))].
  Definition h_outputs : list (@RecordOpening CC) :=
    [s_native oc 15 11 200; s_ro oc 18 (s_def oc) 13 Unfrozen 201; s_ro oc 12 (s_def oc) 12 Unfrozen 202].
  Definition h_keys := @transfer_preprocess CC (toy_snark oc) tt 2 3 2.
  Definition h_rand : @TransferRand CC (toy_snark oc) := @mkTRand CC (toy_snark oc) (fz 300) (@sz toy_field 301) (@sz toy_field 302) tt.
  Definition h_transfer : res (@TransferNote CC (toy_snark oc) * @Fj toy_field) :=
    let* k := h_keys in
    @transfer_generate CC (toy_snark oc) h_rand h_inputs h_outputs (fst k) (w64 500) (map b8 [1; 2; 3]).
  Definition h_transfer_verify (ts : Z) : res unit :=
    let* k := h_keys in let* n := h_transfer in
    @transfer_verify CC (toy_snark oc) (fst n) (snd k) (n_root h_fee h_in1 h_in2) (w64 ts).

  (** ** Honest mint of 1000 units of a new asset with the sample policy; fee 5 *)
  Definition h_seed : @F toy_field := fz 4242.
  Definition h_desc : bytes := map b8 [7; 7; 7].
  Definition h_mint_def : @AssetDefinition CC := @mkDef CC (@new_domestic CC h_seed h_desc) (s_policy oc).
  Definition h_mint_ro : @RecordOpening CC := s_ro oc 1000 h_mint_def 12 Unfrozen 210.
  Definition h_fee_info : @TxnFeeInfo CC :=
    @mkFeeInfo CC (@mkFeeInput CC h_fee (h_acc 0) (s_user oc 11)) (s_amount 5) (s_native oc 15 11 200).
  Definition m_keys := @mint_preprocess CC (toy_snark oc) tt 2.
  Definition m_rand : @MintRand CC (toy_snark oc) := @mkMRand CC (toy_snark oc) (@sz toy_field 301) (@sz toy_field 302) tt.
  Definition h_mint : res (@MintNote CC (toy_snark oc) * @Fj toy_field) :=
    let* k := m_keys in @mint_generate CC (toy_snark oc) m_rand h_mint_ro h_seed h_desc h_fee_info (fst k).
  Definition h_mint_verify (root : @F toy_field) : res unit :=
    let* k := m_keys in let* n := h_mint in @mint_verify CC (toy_snark oc) (fst n) (snd k) root.

  (** ** Honest freeze of two records; fee 5 *)
  Definition f_keys := @freeze_preprocess CC (toy_snark oc) tt (@sz toy_field 55) 3 2.
  Definition f_inputs : list (@FreezeNoteInput CC) :=
    [@mkFIn CC h_in1 (h_acc 1) (@sz toy_field 9); @mkFIn CC h_in2 (h_acc 2) (@sz toy_field 9)].
  Definition f_rand : @FreezeRand CC (toy_snark oc) :=
    @mkFRand CC (toy_snark oc) (fun i => fz (400 + Z.of_nat i)) (@sz toy_field 301) tt.
  Definition h_freeze : res (@FreezeNote CC (toy_snark oc) * @Fj toy_field * list (@RecordOpening CC)) :=
    let* k := f_keys in @freeze_generate CC (toy_snark oc) f_rand f_inputs h_fee_info (fst k).
  Definition h_freeze_verify (root : @F toy_field) : res unit :=
    let* k := f_keys in let* n := h_freeze in @freeze_verify CC (toy_snark oc) (fst (fst n)) (snd k) root.

  (** ** Forged notes: what a prover that runs the circuit builders on values of its own choice can produce *)

  (** a transfer note made from a witness without any of the checks of the API *)
  Definition forge_transfer (w : @TransferWitness CC) (vu : Z) : res (@TransferNote CC (toy_snark oc)) :=
    let* p := @transfer_from_witness CC w (w64 vu) in
    let* k := @transfer_preprocess CC (toy_snark oc) tt (length (tw_inputs w)) (length (tw_outputs w)) 2 in
    let* prf := @transfer_prove CC (toy_snark oc) tt (fst k) w p (@ver_key CC (@sz toy_field 301)) [] in
    Ok (@mkTNote CC (toy_snark oc) (tp_nullifiers p) (tp_commitments p) prf (tp_memo p)
          (@mkTAux CC (tp_root p) (tp_fee p) (w64 vu) (@ver_key CC (@sz toy_field 301)) [])).

  (** a record of asset 4321 becomes a record of asset 8888 with the same (empty) policy *)
  Definition x_def (c : Z) : @AssetDefinition CC := @mkDef CC (fz c) (@policy_default CC).
  Definition x_in : @RecordOpening CC := s_ro oc 30 (x_def 4321) 12 Unfrozen 101.
  Definition x_out : @RecordOpening CC := s_ro oc 30 (x_def 8888) 12 Unfrozen 201.
  Definition x_acc := n_acc h_fee x_in h_in2.
  Definition x_witness : @TransferWitness CC :=
    @mkTW CC (x_def 8888)
      [@mkIS CC (s_user oc 11) h_fee (x_acc 0) (s_cred oc 11 8 900);
       @mkIS CC (s_user oc 12) x_in (x_acc 1) (s_cred oc 12 8 900)]
      [s_native oc 15 11 200; x_out] (@sz toy_field 302).
  Definition x_note := forge_transfer x_witness 500.
  Definition x_verify : res unit :=
    let* k := @transfer_preprocess CC (toy_snark oc) tt 2 2 2 in let* n := x_note in
    @transfer_verify CC (toy_snark oc) n (snd k) (n_root h_fee x_in h_in2) (w64 500).

  (** a credential issued by key 66 to user 99 used for a record of user 12 whose policy names issuer 8 *)
  Definition c_inputs : list (@TransferNoteInput CC) :=
    [@mkTIn CC h_fee (h_acc 0) (s_user oc 11) None;
     @mkTIn CC h_in1 (h_acc 1) (s_user oc 12) (Some (s_cred oc 99 66 900))].
  Definition c_transfer : res (@TransferNote CC (toy_snark oc) * @Fj toy_field) :=
    let* k := h_keys in
    @transfer_generate CC (toy_snark oc) h_rand c_inputs h_outputs (fst k) (w64 500) [].
  Definition c_verify : res unit :=
    let* k := h_keys in let* n := c_transfer in
    @transfer_verify CC (toy_snark oc) (fst n) (snd k) (n_root h_fee h_in1 h_in2) (w64 500).

  (** a mint note whose asset code is the native one; the internal code is derived from any seed *)
  Definition y_ro : @RecordOpening CC := s_native oc 1000000 12 210.
  Definition y_witness : @MintWitness CC :=
    @mkMW CC (s_user oc 11) (h_acc 0) h_fee y_ro (s_native oc 15 11 200) h_seed (@digest_from_description CC h_desc) (@sz toy_field 302).
  Definition y_public : res (@MintPublicInput CC) :=
    let* p := @mint_from_witness CC y_witness in
    Ok (@mkMPI CC (mp_root p) (mp_native p) (mp_nullifier p) (mp_fee p) (mp_mint_rc p) (mp_chg_rc p) (mp_mint_amount p)
          (@native_asset_code toy_field) (mp_mint_internal_ac p) (mp_policy p) (mp_memo p)).
  Definition y_note : res (@MintNote CC (toy_snark oc)) :=
    let* k := m_keys in let* p := y_public in
    let* prf := @mint_prove CC (toy_snark oc) tt (fst k) y_witness p (@ver_key CC (@sz toy_field 301)) in
    Ok (@mkMNote CC (toy_snark oc) (mp_nullifier p) (mp_chg_rc p) (mp_mint_rc p) (mp_mint_amount p)
          (@asset_def_native CC) (mp_mint_internal_ac p) prf (mp_memo p)
          (@mkMAux CC (mp_root p) (mp_fee p) (@ver_key CC (@sz toy_field 301)))).

  (** re-evaluation of a circuit after some of its free variables were given other values *)
  Fixpoint set_nth (i : nat) (x : @F toy_field) (l : list (@F toy_field)) : list (@F toy_field) :=
    match i, l with
    | _, [] => []
    | O, _ :: t => x :: t
    | S j, a :: t => a :: set_nth j x t
    end.
  Definition set_all (vs : list nat) (xs : list (@F toy_field)) (w : list (@F toy_field)) : list (@F toy_field) :=
    fold_left (fun w vx => set_nth (fst vx) (snd vx) w) (combine vs xs) w.
  Definition reeval (gs : list (@gate CC)) (w : list (@F toy_field)) : list (@F toy_field) :=
    fold_left (fun w g => match g with
                          | GOp o ins outs => set_all outs (@op_eval CC o (map (@env_of CC w) ins)) w
                          | _ => w
                          end) gs w.
  Definition subst_val (a b : @F toy_field) (w : list (@F toy_field)) : list (@F toy_field) :=
    map (fun x => if zeqb x a then b else x) w.

  (** A mint note with fee 100 paid from a record of 20: the change record has amount -80 modulo the field order.
      The amount 987654321 stands for it while the circuit is built. *)
  Definition z_mark : Z := 987654321.
  Definition z_chg_rc : @F toy_field :=
    let r := s_native oc 0 11 200 in
    @commit CC (fz (20 - 100) :: tl (@ro_scalars CC r)) (@blind CC r).
  Definition z_witness : @MintWitness CC :=
    @mkMW CC (s_user oc 11) (h_acc 0) h_fee h_mint_ro (s_native oc z_mark 11 200) h_seed (@digest_from_description CC h_desc) (@sz toy_field 302).
  Definition z_public : res (@MintPublicInput CC) :=
    let* p := @mint_from_witness CC (@mkMW CC (s_user oc 11) (h_acc 0) h_fee h_mint_ro (s_native oc 20 11 200) h_seed (@digest_from_description CC h_desc) (@sz toy_field 302)) in
    Ok (@mkMPI CC (mp_root p) (mp_native p) (mp_nullifier p) (s_amount 100) (mp_mint_rc p) z_chg_rc (mp_mint_amount p)
          (mp_mint_ac p) (mp_mint_internal_ac p) (mp_policy p) (mp_memo p)).
  Definition z_note : res (@MintNote CC (toy_snark oc)) :=
    let* p := z_public in
    let* s := @mint_circuit CC z_witness p in
    let w := reeval (gates s) (subst_val (fz z_mark) (fz (20 - 100)) (wit s)) in
    let vk := @ver_key CC (@sz toy_field 301) in
    Ok (@mkMNote CC (toy_snark oc) (mp_nullifier p) (mp_chg_rc p) (mp_mint_rc p) (mp_mint_amount p)
          h_mint_def (mp_mint_internal_ac p) (w, @ser_verkey CC (toy_snark oc) vk) (mp_memo p)
          (@mkMAux CC (mp_root p) (mp_fee p) vk)).
  Definition z_verify : res unit :=
    let* k := m_keys in let* n := z_note in @mint_verify CC (toy_snark oc) n (snd k) (n_root h_fee h_in1 h_in2).

  (** the same for a freeze note *)
  Definition zf_witness : @FreezeWitness CC :=
    @freeze_new_unchecked CC f_inputs (@freeze_get_output_ros CC (fun i => fz (400 + Z.of_nat i)) f_inputs)
      (@mkFeeInfo CC (@mkFeeInput CC h_fee (h_acc 0) (s_user oc 11)) (s_amount 0) (s_native oc z_mark 11 200)).
  Definition zf_public : res (@FreezePublicInput CC) :=
    let* p := @freeze_from_witness CC (@freeze_new_unchecked CC f_inputs (@freeze_get_output_ros CC (fun i => fz (400 + Z.of_nat i)) f_inputs)
      (@mkFeeInfo CC (@mkFeeInput CC h_fee (h_acc 0) (s_user oc 11)) (s_amount 0) (s_native oc 20 11 200))) in
    Ok (@mkFPI CC (fp_root p) (fp_native p) (s_amount 100) (fp_nullifiers p) (z_chg_rc :: tl (fp_commitments p))).
  Definition zf_note : res (@FreezeNote CC (toy_snark oc)) :=
    let* p := zf_public in
    let* s := @freeze_circuit_unchecked CC zf_witness p in
    let w := reeval (gates s) (subst_val (fz z_mark) (fz (20 - 100)) (wit s)) in
    let vk := @ver_key CC (@sz toy_field 301) in
    Ok (@mkFNote CC (toy_snark oc) (fp_nullifiers p) (fp_commitments p) (w, @ser_verkey CC (toy_snark oc) vk)
          (@mkFAux CC (fp_root p) (fp_fee p) vk)).
  Definition zf_verify : res unit :=
    let* k := f_keys in let* n := zf_note in @freeze_verify CC (toy_snark oc) n (snd k) (n_root h_fee h_in1 h_in2).

  (** The honest mint note again, but the prover uses the secret 11 + (order of the group) for the owner of the fee
      record.  The gate that multiplies the generator by the secret tells which variable holds it. *)
  Definition d_var (gs : list (@gate CC)) (w : list (@F toy_field)) : list nat :=
    flat_map (fun g => match g with
                       | GOp OFixMul [v] _ => if zeqb (@env_of CC w v) (fz 11) then [v] else []
                       | _ => []
                       end) gs.
  Definition d_nullifier : @F toy_field := @prf_eval CC (fz (11 + bn_l)) [fz 0; rc h_fee].
  Definition d_witness : @MintWitness CC :=
    @mkMW CC (s_user oc 11) (h_acc 0) h_fee h_mint_ro (s_native oc 15 11 200) h_seed (@digest_from_description CC h_desc) (@sz toy_field 302).
  Definition d_note : res (@MintNote CC (toy_snark oc)) :=
    let* p0 := @mint_from_witness CC d_witness in
    let p := @mkMPI CC (mp_root p0) (mp_native p0) d_nullifier (mp_fee p0) (mp_mint_rc p0) (mp_chg_rc p0) (mp_mint_amount p0)
               (mp_mint_ac p0) (mp_mint_internal_ac p0) (mp_policy p0) (mp_memo p0) in
    let* s := @mint_circuit CC d_witness p in
    let vs := d_var (gates s) (wit s) in
    let w := reeval (gates s) (set_all vs (map (fun _ => fz (11 + bn_l)) vs) (wit s)) in
    let vk := @ver_key CC (@sz toy_field 301) in
    Ok (@mkMNote CC (toy_snark oc) (mp_nullifier p) (mp_chg_rc p) (mp_mint_rc p) (mp_mint_amount p)
          h_mint_def (mp_mint_internal_ac p) (w, @ser_verkey CC (toy_snark oc) vk) (mp_memo p)
          (@mkMAux CC (mp_root p) (mp_fee p) vk)).
  Definition d_verify : res unit :=
    let* k := m_keys in let* n := d_note in @mint_verify CC (toy_snark oc) n (snd k) (n_root h_fee h_in1 h_in2).

  (** the honest transfer note with its first commitment moved to the end of the nullifiers *)
  Definition shift_note (n : @TransferNote CC (toy_snark oc)) : @TransferNote CC (toy_snark oc) :=
    @mkTNote CC (toy_snark oc) (tn_nullifiers n ++ firstn 1 (tn_commitments n)) (tl (tn_commitments n)) (tn_proof n) (tn_memo n) (tn_aux n).
  Definition shift_verify : res unit :=
    let* k := h_keys in let* n := h_transfer in
    @transfer_verify CC (toy_snark oc) (shift_note (fst n)) (snd k) (n_root h_fee h_in1 h_in2) (w64 500).

  (** generations that fail although every record is in order: reveal flags of the two address coordinates that differ,
      and an expiry of 2^20 or more with a credential that is still valid and with no credential at all *)
  Definition u_policy (m : list bool) (thr : Z) : @AssetPolicy CC :=
    @mkPolicy CC (s_point oc 7) (@pt_id CC) (s_point oc 9) (s_map m) (s_amount thr).
  Definition u_def (m : list bool) (thr : Z) : @AssetDefinition CC := @mkDef CC (fz 1234) (u_policy m thr).
  Definition u_in (m : list bool) (thr : Z) : @RecordOpening CC := s_ro oc 30 (u_def m thr) 12 Unfrozen 101.
  Definition u_transfer (m : list bool) (thr : Z) (vu : Z) : res (@TransferNote CC (toy_snark oc) * @Fj toy_field) :=
    let* k := @transfer_preprocess CC (toy_snark oc) tt 2 2 2 in
    let a := n_acc h_fee (u_in m thr) h_in2 in
    @transfer_generate CC (toy_snark oc) h_rand
      [@mkTIn CC h_fee (a 0%nat) (s_user oc 11) None; @mkTIn CC (u_in m thr) (a 1%nat) (s_user oc 12) None]
      [s_native oc 15 11 200; s_ro oc 30 (u_def m thr) 13 Unfrozen 201] (fst k) (w64 vu) [].
  Definition u_map (b0 b1 : bool) : list bool := [b0; b1; true; false; false; false; false; false; false; false; false; false].
End S.
