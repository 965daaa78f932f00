(** Notes are generated exactly for valid requests, and records filed under a wrong position cannot be spent. *)
From Verif Require Import Base Config Structs Keys Utils Memo Plonk Witness Circuits Relation CircuitLogic CodecProofs PolicyProofs
  UtilsProofs MemoProofs GadgetProofs Snark Notes NoteProofs NoteGen NoteGen2 NoteThms Security Accepted NoteFacts NoteLive NoteLive2
  Serde Ledger LedgerSpec LedgerProofs Wallet WalletSpec WalletProofs WalletPay WalletPay2 ExactSpec.

Section Exact.
  Context {C : CapConfig} {S : Snark C} (L : CapLaws C).

  Lemma valid_assets_transferred irest d :
    (forall i : TransferNoteInput, In i irest -> asset_def (ti_ro i) = asset_def_dummy \/ asset_def (ti_ro i) = d) ->
    d = asset_def_native \/ d <> asset_def_dummy /\ (exists i, In i irest /\ asset_def (ti_ro i) = d) -> transferred (map ti_ro irest) d.
  Proof.
    assert (DN : asset_def_native <> @asset_def_dummy C) by exact (asset_dummy_not_native).
    induction irest as [|i l IH]; intros H1 H2; cbn [map].
    - destruct H2 as [->|(_ & i & [] & _)]. constructor.
    - destruct (H1 i (or_introl eq_refl)) as [E|E].
      + apply tr_skip; [exact E|]. apply IH; [intros; apply H1; right; auto|]. destruct H2 as [H2|(H2 & j & [<-|Hj] & Ej)]; [left; exact H2|congruence|right; eauto].
      + assert (D : d <> asset_def_dummy) by (destruct H2 as [->|[H2 _]]; auto). rewrite <- E. apply tr_here. rewrite E. exact D.
  Qed.
  Lemma transferred_valid irest d : transferred (map ti_ro irest) d ->
    d = asset_def_native \/ d <> asset_def_dummy /\ (exists i : TransferNoteInput, In i irest /\ asset_def (ti_ro i) = d).
  Proof.
    induction irest as [|i l IH]; cbn [map]; intros H; inversion H; subst.
    - left; reflexivity.
    - destruct (IH ltac:(assumption)) as [G|(G & j & Hj & Ej)]; [left; exact G|right; split; [exact G|exists j; split; [right; exact Hj|exact Ej]]].
    - right. split; [assumption|]. exists i. split; [left; reflexivity|reflexivity].
  Qed.

  Lemma transfer_exact (SL : SnarkLaws S) g n_in n_out depth pk vk r inputs outputs vu extra :
    transfer_preprocess g n_in n_out depth = Ok (pk, vk) -> length inputs = n_in -> length outputs = n_out -> usual_transfer depth vu inputs outputs ->
    (forall n sk, transfer_generate r inputs outputs pk vu extra = Ok (n, sk) -> valid_transfer (ta_root (tn_aux n)) vu inputs outputs (ta_fee (tn_aux n))) /\
    (forall root fee, valid_transfer root vu inputs outputs fee ->
       exists n sk, transfer_generate r inputs outputs pk vu extra = Ok (n, sk) /\ ta_root (tn_aux n) = root /\ ta_fee (tn_aux n) = fee).
  Proof.
    intros HP Li Lo U. split.
    - intros n sk HG. destruct (transfer_generate_inv L _ _ _ _ _ _ _ _ HG) as (w & p & s & G).
      destruct (tg_assets _ _ _ _ _ _ _ _ _ _ _ G) as (i0 & irest & o0 & orest & d & A1 & A2 & A3 & A4 & A5 & A6 & A7 & A8).
      destruct (generated_transfer L _ _ _ _ _ _ _ _ HG) as (B1 & _ & _ & _ & B2 & B3 & B4 & B5 & B6 & B7 & B8 & B9 & _).
      constructor; auto.
      + exists i0, irest, o0, orest, d. conjs; auto; [exact (transferred_valid _ _ A5)|].
        destruct (transferred_valid _ _ A5) as [->|(Dd & i & Hi & Ei)]; [cbn; intros F0; contradiction|].
        rewrite <- Ei. apply A8. apply in_or_app. left. subst inputs. cbn [map]. right. apply in_map, Hi.
      + intros i Hi. constructor; auto; try (intros Hd; destruct (B6 i Hi Hd) as (K1 & K2 & _ & K3); auto).
      + rewrite <- B8. exact B9.
    - intros root fee V. destruct (vt_assets _ _ _ _ _ V) as (i0 & irest & o0 & orest & d & A1 & A2 & A3 & A4 & A5 & A6 & A7 & A8).
      assert (UD : usual_definition d).
      { destruct A7 as [->|(_ & i & Hi & Ei)].
        - rewrite <- A4. apply (ut_definitions _ _ _ _ U). apply in_or_app. right. subst outputs. left. reflexivity.
        - rewrite <- Ei. apply (ut_definitions _ _ _ _ U). apply in_or_app. left. subst inputs. right. apply in_map, Hi. }
      destruct UD as (U1 & U2 & U3).
      assert (DN : asset_def_native <> @asset_def_dummy C) by exact asset_dummy_not_native.
      assert (Dd : d <> asset_def_dummy) by (destruct A7 as [->|[D _]]; auto).
      assert (NN : 0 <= amt_sum (map ti_ro irest)).
      { clear. induction irest as [|i l IH]; cbn [map]; [cbn; lia|]. rewrite amt_sum_cons. pose proof (amount_range (amount (ti_ro i))). lia. }
      destruct (transfer_generate_live L SL g n_in n_out depth pk vk root vu inputs outputs fee d r extra HP Li Lo) as (n & HG & K1 & K2).
      + constructor.
        * exists i0, irest, o0, orest. conjs; auto; [apply valid_assets_transferred; auto|]. intros HV. destruct (U3 HV). split; [assumption|lia].
        * split; [intros E; apply Dd, U1, E|]. split; auto.
        * intros i Hi. destruct (vt_inputs _ _ _ _ _ V i Hi) as [V1 V2 V3 V4 V5 V6]. constructor; auto; [apply (ut_paths _ _ _ _ U); auto|].
          intros HC. destruct (V6 HC) as (c & Ec & Hc). destruct (ut_credentials _ _ _ _ U i c Hi Ec). exists c. conjs; auto.
        * apply V.
        * apply U.
        * apply V.
        * apply U.
        * apply V.
      + exists n, (tr_sig r). auto.
  Qed.

  Lemma fee_payable depth f : length (acc_path (fi_acc (fee_input f))) = depth -> valid_fee f -> payable depth f.
  Proof. intros HL [V1 V2 V3 [V4 V5] V6]. constructor; auto. Qed.

  Lemma mint_exact (SL : SnarkLaws S) g depth pk vk r mint_ro seed description f :
    mint_preprocess g depth = Ok (pk, vk) -> zv (amount mint_ro) < 2 ^ 127 ->
    (exists n sk, mint_generate r mint_ro seed description f pk = Ok (n, sk)) <->
    length (acc_path (fi_acc (fee_input f))) = depth /\ valid_fee f /\ code (asset_def mint_ro) = new_domestic seed description /\ freeze_flag mint_ro = Unfrozen.
  Proof.
    intros HP HA. split.
    - intros (n & sk & HG). pose proof HP as HP'. apply mint_preprocess_keys in HP'. destruct HP' as (s0 & _ & _ & E1 & _).
      destruct (generated_mint L _ _ _ _ _ _ _ _ HG) as (_ & _ & M1 & M2 & _ & _ & M3 & M4 & M5 & M6 & _ & M7 & M8 & M9 & M10 & M11 & _ & _ & M12 & M13 & _).
      destruct (mint_generate_inv L _ _ _ _ _ _ _ _ HG) as (p & s & G). destruct (mg_aux _ _ _ _ _ _ _ _ _ _ G) as (X1 & _).
      rewrite M2 in M1. rewrite E1 in M13. conjs; auto. constructor; auto; [split; [exact M11|lia]|congruence].
    - intros (HL & V & HC & HU). destruct (mint_generate_live L SL g depth pk vk r mint_ro seed description f HP (fee_payable _ _ HL V) HC HU HA) as (n & HG & _). eauto.
  Qed.

  Lemma freeze_exact (SL : SnarkLaws S) g fk num depth pk vk r inputs f :
    freeze_preprocess g fk num depth = Ok (pk, vk) -> (depth < 256)%nat -> (length inputs + 1)%nat = num -> usual_freeze depth inputs f ->
    (exists n sk outs, freeze_generate r inputs f pk = Ok (n, sk, outs)) <-> valid_freeze inputs f.
  Proof.
    intros HP HD HL U. split.
    - intros (n & sk & outs & HG).
      destruct (generated_freeze L _ _ _ _ _ _ _ HG) as (F1 & _ & _ & _ & F2 & F3 & F4 & F5 & F6 & F7 & F8 & F9 & F10 & F11 & F12 & F13 & F14 & _ & F15 & _).
      destruct (freeze_generate_inv L _ _ _ _ _ _ _ HG) as (p & s & G).
      pose proof (fg_fee _ _ _ _ _ _ _ _ _ G) as Hf. apply (check_fee_iff L) in Hf. destruct Hf as (_ & _ & _ & _ & _ & Hm).
      constructor; auto.
      + constructor; auto; [|split; [exact F12|lia]].
        pose proof (uf_key _ _ _ U) as K. destruct (pub_key (fi_ro (fee_input f))) as [a e]. cbn [address uenc_key] in *.
        rewrite F7, K. reflexivity.
      + intros i Hi. constructor; auto; [intros Hd; apply (F2 i Hi Hd)|]. intros Hd. destruct (F2 i Hi Hd) as [_ K]. rewrite F15 in K. split; [exact K|].
        rewrite <- F15. apply F4; [exact Hi|]. intros E. apply Hd, (uf_definitions _ _ _ U i Hi E).
      + rewrite <- F13. exact F14.
    - intros V. destruct (freeze_generate_live L SL g fk num depth pk vk r inputs f HP HD HL (vz_some _ _ V)
        (fee_payable _ _ (proj1 (uf_paths _ _ _ U)) (vz_fee _ _ V))) as (n & HG & _).
      + intros i Hi. destruct (vz_inputs _ _ V i Hi) as [V1 V2 V3]. constructor; auto; [apply (proj2 (uf_paths _ _ _ U)); auto|apply (uf_addresses _ _ _ U); auto].
      + exact (vz_distinct _ _ V).
      + eauto.
  Qed.
End Exact.

Section Transferable.
  Context {C : CapConfig}.
  Lemma transferable_valid depth root vu inputs outputs fee d : transferable depth root vu inputs outputs fee d -> valid_transfer root vu inputs outputs fee.
  Proof.
    intros Q. destruct (tq_assets _ _ _ _ _ _ _ Q) as (i0 & irest & o0 & orest & A1 & A2 & A3 & A4 & A5 & A6 & A7 & A8).
    constructor.
    - exists i0, irest, o0, orest, d. conjs; auto; [apply transferred_valid; exact A5|]. apply (tq_def _ _ _ _ _ _ _ Q).
    - intros i Hi. destruct (tq_spendable _ _ _ _ _ _ _ Q i Hi) as [S1 S2 S3 S4 S5 S6 S7]. constructor; auto.
      intros H. destruct (S7 H) as (c & E1 & E2 & _). exists c. auto.
    - exact (tq_outputs _ _ _ _ _ _ _ Q).
    - exact (tq_balance _ _ _ _ _ _ _ Q).
    - exact (tq_distinct _ _ _ _ _ _ _ Q).
  Qed.
  Lemma payable_valid depth f : payable depth f -> valid_fee f.
  Proof. intros [P1 P2 P3 P4 P5 P6 P7]. constructor; auto. Qed.
End Transferable.
