(** The mint circuit establishes exactly [mint_relation]. *)
From Verif Require Import Base Config Structs Keys Utils Memo Plonk Witness Circuits Relation CircuitLogic GadgetProofs
  StructGadgetProofs SpendGadgetProofs TransferCircuitProofs.

Section Vals.
  Context {C : CapConfig}.
  Definition vmint (rho : env) (w : MWitnessVar) : MintV :=
    mkMintV (vro rho (mwv_mint w)) (rho (mwv_sk w)) (vro rho (mwv_fee w)) (vacc rho (mwv_acc w)) (vro rho (mwv_chg w))
            (rho (mwv_seed w)) (rho (mwv_digest w)) (rho (mwv_rand w)).
  Definition vmpub (rho : env) (p : MPubVar) : MintPubV :=
    mkMintPubV (rho (mpv_root p)) (rho (mpv_native p)) (rho (mpv_nullifier p)) (rho (mpv_fee p)) (rho (mpv_mint_rc p))
               (rho (mpv_chg_rc p)) (rho (mpv_amount p)) (rho (mpv_ac p)) (rho (mpv_internal p)) (vpol rho (mpv_policy p))
               (vmemo rho (mpv_memo p)).
  Definition mint_value (w : MintWitness) : MintV :=
    mkMintV (ro_value (mw_mint_ro w)) (fr_to_fq (addr_sk (mw_kp w))) (ro_value (mw_fee_ro w)) (place_value (mw_acc w))
            (ro_value (mw_chg_ro w)) (mw_seed w) (mw_digest w) (fr_to_fq (mw_rand w)).
  Definition mint_pub_value (p : MintPublicInput) : MintPubV :=
    mkMintPubV (mp_root p) (mp_native p) (mp_nullifier p) (f_of_u128 (mp_fee p)) (mp_mint_rc p) (mp_chg_rc p)
               (f_of_u128 (mp_mint_amount p)) (mp_mint_ac p) (mp_mint_internal_ac p) (pol_value (mp_policy p))
               (memo_value (mp_memo p)).
End Vals.

Section Proofs.
  Context {C : CapConfig}.
  Notation T := (fun _ => True) (only parsing).
  Notation V1 rho x := (fun y : var => rho y = x) (only parsing).

  Lemma g_internal seed d rho : gspec (derive_internal_asset_code seed d) rho True
    (V1 rho (prf_eval (rho seed) [rho d])) (V1 rho (prf_eval (rho seed) [rho d])).
  Proof. exact (g_prf seed [d] rho). Qed.
  Hint Resolve g_internal : gspec.
  Lemma extm_mint_viewing w m : extm (mint_is_correct_viewing_memo w m).
  Proof. unfold mint_is_correct_viewing_memo. cbn zeta. gext. Qed.
  Hint Resolve extm_mint_viewing : gext.
  Lemma g_mint_viewing w m rho :
    gspec (mint_is_correct_viewing_memo w m) rho (scalar_ok (rho (mwv_rand w)) = true)
      (V1 rho (fbool (memo_eqb (vmemo rho m) (celgamal_encrypt (po_viewer (ro_pol (mv_mint (vmint rho w)))) (mv_rand (vmint rho w)) (mint_message (vmint rho w))))))
      (V1 rho (fbool (memo_eqb (vmemo rho m) (celgamal_encrypt (po_viewer (ro_pol (mv_mint (vmint rho w)))) (mv_rand (vmint rho w)) (mint_message (vmint rho w)))))).
  Proof.
    split; [apply extm_mint_viewing|]. unfold mint_is_correct_viewing_memo. cbn zeta. split.
    - apply snd_bind; [gext|]. eapply gspec_snd; [apply g_derive|]. intros d E1 Q1. sp v E2 Q2. split; [exact E1|].
      rewrite Q2, Q1. reflexivity.
    - intros E1. apply cmp_bind; [gext|]. eapply gspec_cmp; [apply g_derive|exact E1|]. intros d Q1. cp v Q2.
      rewrite Q2, Q1. reflexivity.
  Qed.
  Hint Resolve g_mint_viewing : gspec.

  Lemma extm_mint_constraints w p : extm (mint_constraints w p).
  Proof. unfold mint_constraints. repeat (apply extm_bind; [gext|intros]; try match goal with |- extm (let (_,_) := ?x in _) => destruct x end). gext. Qed.

  Lemma g_mint_constraints w p rho : consts rho ->
    gspec (mint_constraints w p) rho (mint_relation (vmpub rho p) (vmint rho w)) T T.
  Proof.
    intros Hc. split; [apply extm_mint_constraints|]. unfold mint_constraints. split.
    - sx v1 E1 Q1. sx v2 E2 Q2. sx v3 E3 Q3. sx v4 E4 Q4. sx v5 E5 Q5. sx v6 E6 Q6. sx v7 E7 Q7.
      apply snd_bind; [gext|]. eapply gspec_snd; [apply g_spend; auto|]. intros [vnl vroot] E8 [Q8 Q8'].
      sx v9 E9 Q9. sx v10 E10 Q10. sx v11 E11 Q11. sx v12 E12 Q12. sx v13 E13 Q13. sx v14 E14 Q14.
      sx v15 E15 Q15. sx v16 E16 Q16. sx v17 E17 Q17. sx v18 E18 Q18. sx v19 E19 Q19. sx v20 E20 Q20. sx v21 E21 Q21.
      sx v22 E22 Q22. sx v23 E23 Q23. sx v24 E24 Q24. sp v25 E25 Q25.
      split; [|auto]. rewrite (or_gate_l rho v23 v24 _ _ Q23 Q24) in E25. cbn [fst snd] in *.
      constructor; cbn [vmint vmpub mv_mint mv_sk mv_fee_ro mv_place mv_chg mv_seed mv_digest mv_rand mq_root mq_native mq_nullifier mq_fee mq_mint_rc mq_chg_rc mq_amount mq_code mq_internal mq_pol mq_memo].
      + rewrite <- E2. exact Q1.
      + rewrite <- E4. exact Q3.
      + rewrite <- E6. exact Q5.
      + exact E7.
      + exact E8.
      + rewrite <- E9. symmetry. exact Q8'.
      + rewrite <- E10. exact Q8.
      + auto.
      + exact E14.
      + exact E15.
      + exact E16.
      + symmetry. exact E17.
      + auto.
      + auto.
      + exact E22.
      + exact E24.
      + destruct (xy_eqb (po_viewer (vpol rho (mpv_policy p))) no_key) eqn:Ev.
        * left. apply xy_eqb_spec. exact Ev.
        * right. apply memo_eqb_spec. apply E25. reflexivity.
    - intros [I1 I2 I3 I4 I5 I6 I7 [I8 [I8' I8'']] I9 I10 I11 I12 [I13 I13'] [I14 I14'] I15 I16 I17].
      cx v1 Q1. cx v2 Q2. { rewrite Q1. symmetry. exact I1. }
      cx v3 Q3. cx v4 Q4. { rewrite Q3. symmetry. exact I2. }
      cx v5 Q5. cx v6 Q6. { rewrite Q5. symmetry. exact I3. }
      cx v7 Q7. { exact I4. }
      apply cmp_bind; [gext|]. eapply gspec_cmp; [apply g_spend; auto|exact I5|]. intros [vnl vroot] [Q8 Q8']. cbn [fst snd] in *.
      cx v9 Q9. { rewrite Q8'. exact I6. }
      cx v10 Q10. { rewrite Q8. symmetry. exact I7. }
      cx v11 Q11. { exact I8. } cx v12 Q12. { exact I8'. } cx v13 Q13. { exact I8''. }
      cx v14 Q14. { exact I9. } cx v15 Q15. { exact I10. } cx v16 Q16. { exact I11. }
      cx v17 Q17. { symmetry. exact I12. } cx v18 Q18. { exact I13. } cx v19 Q19. { exact I13'. }
      cx v20 Q20. { exact I14. } cx v21 Q21. { exact I14'. } cx v22 Q22. { exact I15. }
      cx v23 Q23. cx v24 Q24. { exact I16. } cp v25 Q25; [|auto].
      apply (or_gate_l rho v23 v24 _ _ Q23 Q24). intros Hv. apply memo_eqb_spec. destruct I17 as [H|H]; [|exact H].
      exfalso. apply xy_eqb_false in Hv. apply Hv. exact H.
  Qed.

  Lemma extm_mwitness w : extm (mint_witness_var_new w).
  Proof. unfold mint_witness_var_new; gext. Qed.
  Lemma g_mwitness w rho : gspec (mint_witness_var_new w) rho True T (fun v => vmint rho v = mint_value w).
  Proof.
    unfold mint_witness_var_new. gstart.
    - intros s a s' _ _; auto.
    - intros _. cx v1 Q1. cx v2 Q2. cx v3 Q3. cx v4 Q4. cx v5 Q5. cx v6 Q6. cx v7 Q7. cx v8 Q8. cret.
      unfold vmint, mint_value; cbn. congruence.
  Qed.
  Lemma extm_mpub p : extm (mint_pub_var_new p).
  Proof. unfold mint_pub_var_new; gext. Qed.
  Lemma g_mpub p rho : gspec (mint_pub_var_new p) rho True T (fun v => vmpub rho v = mint_pub_value p).
  Proof.
    unfold mint_pub_var_new. gstart.
    - intros s a s' _ _; auto.
    - intros _. cx v1 Q1. cx v2 Q2. cx v3 Q3. cx v4 Q4. cx v5 Q5. cx v6 Q6. cx v7 Q7. cx v8 Q8. cx v9 Q9. cx v10 Q10.
      cx v11 Q11. cx v12 Q12. cx v13 Q13. cret. unfold vmpub, mint_pub_value; cbn. congruence.
  Qed.

  Lemma mint_build_inv w p s wv pv s' : mint_build w p s = Ok ((wv, pv), s') ->
    exists s1 s2, mint_witness_var_new w s = Ok (wv, s1) /\ mint_pub_var_new p s1 = Ok (pv, s2) /\
                  mint_constraints wv pv s2 = Ok (tt, s').
  Proof.
    unfold mint_build. intros H. apply mbind_ok in H. destruct H as (wv' & s1 & H1 & H). apply mbind_ok in H. destruct H as (pv' & s2 & H2 & H).
    apply mbind_ok in H. destruct H as ([] & s3 & H3 & H). injection H as <- <- <-. eauto.
  Qed.
  Lemma mint_build_sound w p wv pv s rho :
    mint_build w p new_circuit = Ok ((wv, pv), s) -> sat rho s -> mint_relation (vmpub rho pv) (vmint rho wv).
  Proof.
    intros H Hs. apply mint_build_inv in H. destruct H as (s1 & s2 & H1 & H2 & H3).
    assert (Hc : consts rho).
    { apply new_circuit_consts. eapply ext_sat; [|exact Hs].
      eapply ext_trans; [eapply extm_mwitness; eauto|]. eapply ext_trans; [eapply extm_mpub; eauto|]. eapply extm_mint_constraints; eauto. }
    eapply (g_mint_constraints wv pv rho Hc); eauto.
  Qed.
  Lemma mint_build_complete w p wv pv s :
    mint_build w p new_circuit = Ok ((wv, pv), s) ->
    mint_relation (mint_pub_value p) (mint_value w) -> sat (env_of (wit s)) s.
  Proof.
    intros H HR. set (rho := env_of (wit s)).
    assert (Ha : agr rho s) by (intros v x Hv; unfold rho, env_of; apply nth_error_nth; exact Hv).
    apply mint_build_inv in H. destruct H as (s1 & s2 & H1 & H2 & H3).
    assert (Ha2 : agr rho s2) by (eapply ext_agr; [eapply extm_mint_constraints; eauto|auto]).
    assert (Ha1 : agr rho s1) by (eapply ext_agr; [eapply extm_mpub; eauto|auto]).
    assert (Ha0 : agr rho new_circuit) by (eapply ext_agr; [eapply extm_mwitness; eauto|auto]).
    destruct (new_circuit_agr rho Ha0) as [Hc Hs0].
    destruct (g_mwitness w rho) as (_ & _ & G1). destruct (G1 I _ _ _ H1 Ha1 Hs0) as [Hs1 V1].
    destruct (g_mpub p rho) as (_ & _ & G2). destruct (G2 I _ _ _ H2 Ha2 Hs1) as [Hs2 V2].
    destruct (g_mint_constraints wv pv rho Hc) as (_ & _ & G3).
    rewrite V1, V2 in G3. destruct (G3 HR _ _ _ H3 Ha Hs2); auto.
  Qed.
End Proofs.
