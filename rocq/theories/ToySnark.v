(** A concrete proof system and memo serialisation over the toy configuration satisfying every law of [SnarkLaws] and
    [MemoSerLaws]: a proof is the assignment itself together with the bound message.  It shows that the laws are
    consistent and is the setting of the examples and counterexamples; it is not a model of the real proof system. *)
From Verif Require Import Base Config Structs Keys Utils Memo Plonk CircuitLogic Snark Notes Toy.

Fixpoint bytes_eqb (a b : bytes) : bool :=
  match a, b with
  | [], [] => true
  | x :: a', y :: b' => zeqb x y && bytes_eqb a' b'
  | _, _ => false
  end.
Lemma bytes_eqb_spec a : forall b, bytes_eqb a b = true <-> a = b.
Proof.
  induction a as [|x a IH]; intros [|y b]; cbn; try (split; congruence).
  rewrite andb_true_iff, IH. split.
  - intros [H ->]. apply zeqb_spec in H. congruence.
  - intros H. apply cons_inj in H. destruct H as [-> ->]. split; auto. apply zeqb_refl.
Qed.

Section ToySnark.
  Context (oc : bool).
  Notation CC := (toy oc).

  Definition tproof : Type := (list (@F toy_field) * bytes)%type.
  Definition tkey : Type := (list (@gate CC) * list (@var))%type.
  Definition tverify (k : tkey) (pub : list (@F toy_field)) (p : tproof) (msg : bytes) : bool :=
    @circuit_sat CC (@mkCS CC [] (fst k) (snd k)) (@env_of CC (fst p)) pub && bytes_eqb (snd p) msg.
  Definition toy_snark : Snark CC := {|
    srs := unit; pkey := tkey; vkey := tkey; proof := tproof; prand := unit;
    snark_preprocess := fun _ s => Ok ((gates s, pubs s), (gates s, pubs s));
    snark_prove := fun _ s _ msg => Ok (wit s, msg);
    snark_verify := tverify;
    snark_batch_verify := forallb (fun x => let '(vk, pub, prf, msg) := x in tverify vk pub prf msg);
    ser_verkey := fun P : tp => le_bytes 32 (zv P)
  |}.

  Lemma toy_snark_laws : SnarkLaws toy_snark.
  Proof.
    constructor.
    - intros g s s' (_ & H1 & H2). cbn. rewrite H1, H2. reflexivity.
    - intros g s0 pk vk r s pub msg H (_ & H1 & H2) Hs. cbn in H. injection H as <- <-. exists (wit s, msg). split; [reflexivity|].
      cbn [snark_verify toy_snark]. unfold tverify. cbn [fst snd]. rewrite H1, H2. apply andb_true_iff. split; [exact Hs|]. apply bytes_eqb_spec. reflexivity.
    - intros g s0 pk vk pub prf msg H Hv. cbn in H. injection H as <- <-. cbn [snark_verify toy_snark] in Hv. unfold tverify in Hv.
      apply andb_true_iff in Hv. destruct Hv as [Hv _]. exists (@env_of CC (fst prf)). exact Hv.
    - intros g s0 pk vk r s msg prf pub' msg' H (_ & H1 & H2) Hp Hv. cbn in H. injection H as <- <-. cbn in Hp. injection Hp as <-.
      cbn [snark_verify toy_snark] in Hv. unfold tverify in Hv. apply andb_true_iff in Hv. destruct Hv as [Hv Hm]. apply bytes_eqb_spec in Hm.
      split; [symmetry; exact Hm|]. unfold circuit_sat in Hv. apply andb_true_iff in Hv. destruct Hv as [_ Hv].
      apply flist_eqb_spec in Hv. cbn [pubs fst snd] in Hv. rewrite <- H2. symmetry. exact Hv.
    - intros l _. reflexivity.
    - intros P Q H. cbn [ser_verkey toy_snark] in H. apply zmod_ext. apply (le_bytes_inj 32) in H; [exact H| |].
      + pose proof (zv_range (P : tp)) as R. assert (bn_l < 256 ^ Z.of_nat 32) by reflexivity. lia.
      + pose proof (zv_range (Q : tp)) as R. assert (bn_l < 256 ^ Z.of_nat 32) by reflexivity. lia.
    - intros P Q. cbn [ser_verkey toy_snark]. rewrite !le_bytes_length. reflexivity.
  Qed.

  (** unary lengths: simple and self-delimiting *)
  Definition enc_unary (n : nat) : bytes := repeat (b8 1) n ++ [b8 0].
  Definition enc_z (z : Z) : bytes := b8 (Z.sgn z + 1) :: enc_unary (Z.to_nat (Z.abs z)).
  Definition enc_bytes (l : bytes) : bytes := enc_unary (length l) ++ l.
  Lemma enc_unary_inj n : forall m s t, enc_unary n ++ s = enc_unary m ++ t -> n = m /\ s = t.
  Proof.
    induction n as [|n IH]; intros [|m] s t H; unfold enc_unary in *; cbn [repeat app] in H; apply cons_inj in H; destruct H as [H1 H2].
    - auto.
    - apply (f_equal zv) in H1. discriminate H1.
    - apply (f_equal zv) in H1. discriminate H1.
    - apply IH in H2. destruct H2 as [-> ->]. auto.
  Qed.
  Lemma enc_z_inj a b s t : enc_z a ++ s = enc_z b ++ t -> a = b /\ s = t.
  Proof.
    unfold enc_z. cbn [app]. intros H. apply cons_inj in H. destruct H as [H1 H2]. apply enc_unary_inj in H2. destruct H2 as [H2 ->].
    split; auto. apply (f_equal zv) in H1.
    assert (K : forall z, zv (b8 (Z.sgn z + 1)) = Z.sgn z + 1) by (intros [|p|p]; reflexivity).
    rewrite !K in H1. destruct a, b; cbn in *; try lia.
  Qed.
  Lemma enc_bytes_inj a b s t : enc_bytes a ++ s = enc_bytes b ++ t -> a = b /\ s = t.
  Proof.
    unfold enc_bytes. rewrite <- !app_assoc. intros H. apply enc_unary_inj in H. destruct H as [Hl H].
    apply app_inj_len in H; auto.
  Qed.
  Definition tser (c : Z * bytes * bytes) : bytes := enc_z (fst (fst c)) ++ enc_bytes (snd (fst c)) ++ enc_bytes (snd c).
  Lemma tser_inj a b s t : tser a ++ s = tser b ++ t -> a = b /\ s = t.
  Proof.
    destruct a as [[a1 a2] a3], b as [[b1 b2] b3]. unfold tser. cbn [fst snd]. intros H. rewrite <- !app_assoc in H.
    apply enc_z_inj in H. destruct H as [-> H]. apply enc_bytes_inj in H. destruct H as [-> H]. apply enc_bytes_inj in H. destruct H as [-> H]. auto.
  Qed.
  Definition toy_memo_ser : MemoSer CC := @Build_MemoSer CC tser.
  Lemma toy_memo_ser_laws : MemoSerLaws toy_memo_ser.
  Proof. constructor; [exact tser_inj|]. intros a H. discriminate H. Qed.
End ToySnark.
