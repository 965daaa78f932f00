(** One encoding per value; reading never panics. *)
From Verif Require Import Base Config Structs Keys Utils Memo Plonk Snark Notes Serde CodecProofs SerdeProofs Ledger CanonSpec.

(** ** Combinators *)
Lemma c_int_one n m mk : (forall z, 0 <= z < m -> zv (mk z) = z) -> one_encoding (c_int n m mk).
Proof.
  intros Hm x s r H. cbn [dec c_int enc] in *. apply bind_ok in H. destruct H as ([b r'] & Hb & H). apply read_exact_ok in Hb. destruct Hb as [-> Hl].
  destruct (Z.ltb_spec (from_le b) m) as [L|L]; [|discriminate H]. injection H as <- <-.
  rewrite Hm by (pose proof (from_le_bound b); lia). rewrite <- Hl, le_bytes_from_le. reflexivity.
Qed.
Lemma read_exact_returns n s : read_exact n s <> Panic.
Proof. unfold read_exact. destruct (_ <? _)%nat; discriminate. Qed.
Lemma bind_returns {A B} (x : res A) (f : A -> res B) : x <> Panic -> (forall a, x = Ok a -> f a <> Panic) -> bind x f <> Panic.
Proof. intros H1 H2. destruct x; cbn [bind]; [apply H2; reflexivity|discriminate|contradiction]. Qed.
Lemma c_int_returns n m mk : never_panics (c_int n m mk).
Proof. intros s. cbn [dec c_int]. apply bind_returns; [apply read_exact_returns|]. intros [b r] _. destruct (_ <? _); discriminate. Qed.
Lemma c_pair_one {A B} (a : Codec A) (b : Codec B) x y : one_encoding_of a x -> one_encoding_of b y -> one_encoding_of (c_pair a b) (x, y).
Proof.
  intros Ha Hb s r H. cbn [dec c_pair enc fst snd] in *. apply bind_ok in H. destruct H as ([x' r1] & H1 & H). apply bind_ok in H.
  destruct H as ([y' r2] & H2 & H). injection H as -> -> ->. apply Ha in H1. apply Hb in H2. rewrite H1, H2, app_assoc. reflexivity.
Qed.
Lemma c_pair_returns {A B} (a : Codec A) (b : Codec B) : never_panics a -> never_panics b -> never_panics (c_pair a b).
Proof.
  intros Ha Hb s. cbn [dec c_pair]. apply bind_returns; [apply Ha|]. intros [x r] _. apply bind_returns; [apply Hb|]. intros [y r'] _. discriminate.
Qed.
Lemma c_iso_one {A B} (f : A -> B) g (b : Codec B) x : (forall y, f (g y) = y) -> one_encoding_of b (f x) -> one_encoding_of (c_iso f g b) x.
Proof.
  intros Hfg Hb s r H. cbn [dec c_iso enc] in *. apply bind_ok in H. destruct H as ([y r'] & H1 & H). injection H as <- <-. rewrite Hfg in Hb |- *. apply Hb, H1.
Qed.
Lemma c_iso_returns {A B} (f : A -> B) g (b : Codec B) : never_panics b -> never_panics (c_iso f g b).
Proof. intros Hb s. cbn [dec c_iso]. apply bind_returns; [apply Hb|]. intros [y r] _. discriminate. Qed.
Lemma usize_back b n : length b = n -> le_bytes n (Z.of_nat (Z.to_nat (from_le b))) = b.
Proof. intros <-. rewrite Z2Nat.id by apply from_le_bound. apply le_bytes_from_le. Qed.
Lemma c_usize_one : one_encoding c_usize.
Proof.
  intros x s r H. cbn [dec c_usize enc] in *. apply bind_ok in H. destruct H as ([b r'] & Hb & H). apply read_exact_ok in Hb. destruct Hb as [-> Hl].
  injection H as <- <-. rewrite usize_back by exact Hl. reflexivity.
Qed.
Lemma c_usize_returns : never_panics c_usize.
Proof. intros s. cbn [dec c_usize]. apply bind_returns; [apply read_exact_returns|]. intros [b r] _. discriminate. Qed.
Lemma c_depth_one : one_encoding c_depth.
Proof.
  intros x s r H. cbn [dec c_depth enc] in *. apply bind_ok in H. destruct H as ([b r'] & Hb & H). apply read_exact_ok in Hb. destruct Hb as [-> Hl].
  injection H as <- <-. rewrite usize_back by exact Hl. reflexivity.
Qed.
Lemma c_depth_returns : never_panics c_depth.
Proof. intros s. cbn [dec c_depth]. apply bind_returns; [apply read_exact_returns|]. intros [b r] _. discriminate. Qed.
Lemma dec_many_one {A} (a : Codec A) : forall n s l r, Forall (one_encoding_of a) l -> dec_many a n s = Ok (l, r) -> s = flat_map (enc a) l ++ r /\ length l = n.
Proof.
  induction n as [|n IH]; intros s l r Ha H; cbn [dec_many] in H; [injection H as <- <-; auto|].
  apply bind_ok in H. destruct H as ([x r1] & H1 & H). apply bind_ok in H. destruct H as ([l' r2] & H2 & H). injection H as <- <-.
  inversion_clear Ha as [|? ? A1 A2]. apply A1 in H1. apply (IH _ _ _ A2) in H2. destruct H2 as [H2 <-]. split; [|reflexivity]. cbn [flat_map]. rewrite H1, H2, app_assoc. reflexivity.
Qed.
Lemma dec_many_returns {A} (a : Codec A) : never_panics a -> forall n s, dec_many a n s <> Panic.
Proof.
  intros Ha. induction n as [|n IH]; intros s; cbn [dec_many]; [discriminate|]. apply bind_returns; [apply Ha|]. intros [x r] _.
  apply bind_returns; [apply IH|]. intros [l r'] _. discriminate.
Qed.
Lemma c_vec_one {A} (a : Codec A) l : Forall (one_encoding_of a) l -> one_encoding_of (c_vec a) l.
Proof.
  intros Ha s r H. cbn [dec c_vec enc] in *. apply bind_ok in H. destruct H as ([b r'] & Hb & H). apply read_exact_ok in Hb. destruct Hb as [-> Hl].
  apply (dec_many_one a _ _ _ _ Ha) in H. destruct H as [-> E]. rewrite E, usize_back by exact Hl. rewrite app_assoc. reflexivity.
Qed.
Lemma c_vec_returns {A} (a : Codec A) : never_panics a -> never_panics (c_vec a).
Proof. intros Ha s. cbn [dec c_vec]. apply bind_returns; [apply read_exact_returns|]. intros [b r] _. apply dec_many_returns, Ha. Qed.

(** one byte that says which kind of value follows *)
Lemma byte_is (b : byte) z : zv b = z -> b = b8 z.
Proof. intros H. apply zmod_ext. rewrite <- H. symmetry. apply zred_small. apply zv_range. Qed.
Lemma read_one s b r : read_exact 1 s = Ok (b, r) -> exists x, b = [x] /\ s = x :: r.
Proof.
  intros H. apply read_exact_ok in H. destruct H as [-> H]. destruct b as [|x [|y b]]; try discriminate H. exists x. auto.
Qed.

Section Canon.
  Context {C : CapConfig} {S : Snark C} {Z0 : Ser C S}.

  Lemma flag_of_byte_one b x : flag_of_byte b = Ok x -> b = b8 (if x then 1 else 0).
  Proof.
    unfold flag_of_byte. destruct (Z.eqb_spec (zv b) 0) as [E|_]; [intros H; injection H as <-; apply byte_is, E|].
    destruct (Z.eqb_spec (zv b) 1) as [E|_]; [intros H; injection H as <-; apply byte_is, E|discriminate].
  Qed.
  Lemma flags_of_bytes_one l m : mapM flag_of_byte l = Ok m -> l = map (fun b : bool => b8 (if b then 1 else 0)) m.
  Proof.
    revert m. induction l as [|b l IH]; intros m H; cbn [mapM] in H; [injection H as <-; reflexivity|].
    apply bind_ok in H. destruct H as (x & H1 & H). apply bind_ok in H. destruct H as (m' & H2 & H). injection H as <-.
    cbn [map]. rewrite <- (flag_of_byte_one b x H1), <- (IH m' H2). reflexivity.
  Qed.
  Lemma c_rm_one : one_encoding c_rm.
  Proof.
    intros x s r H. cbn [dec c_rm enc] in *. unfold rm_deserialize in H. apply bind_ok in H. destruct H as ([b r'] & Hb & H).
    apply read_exact_ok in Hb. destruct Hb as [-> Hl]. destruct (Z.eqb_spec (from_le b) (Z.of_nat VIEWABLE_DATA_LEN)) as [E|E]; cbn [negb] in H; [|discriminate H].
    apply bind_ok in H. destruct H as ([buf r2] & Hb2 & H). apply read_exact_ok in Hb2. destruct Hb2 as [-> _].
    apply bind_ok in H. destruct H as (m & Hm & H). apply flags_of_bytes_one in Hm. unfold rm_make in H.
    destruct (bool_dec _ _) as [HL|HL]; [|discriminate H]. injection H as <- <-. unfold rm_serialize. cbn [rm]. rewrite <- Hm, <- E, <- Hl, le_bytes_from_le.
    rewrite app_assoc. reflexivity.
  Qed.
  Lemma c_rm_returns : never_panics c_rm.
  Proof.
    intros s. cbn [dec c_rm]. unfold rm_deserialize. apply bind_returns; [apply read_exact_returns|]. intros [b r] _. destruct (negb _); [discriminate|].
    apply bind_returns; [apply read_exact_returns|]. intros [buf r2] _. apply bind_returns.
    - clear. induction buf as [|b l IH]; cbn [mapM]; [discriminate|]. apply bind_returns.
      + unfold flag_of_byte. destruct (_ =? _); [discriminate|]. destruct (_ =? _); discriminate.
      + intros x _. apply bind_returns; [exact IH|]. discriminate.
    - intros m _. destruct (rm_make m); discriminate.
  Qed.
  Lemma c_flag_one : one_encoding c_flag.
  Proof.
    intros x s r H. cbn [dec c_flag enc] in *. unfold flag_deserialize in H. apply bind_ok in H. destruct H as ([b r'] & Hb & H).
    apply read_one in Hb. destruct Hb as (y & -> & ->). destruct (Z.eqb_spec (zv y) 0) as [E|_]; [injection H as <- <-; rewrite (byte_is _ _ E); reflexivity|].
    destruct (Z.eqb_spec (zv y) 1) as [E|_]; [injection H as <- <-; rewrite (byte_is _ _ E); reflexivity|discriminate H].
  Qed.
  Lemma c_flag_returns : never_panics c_flag.
  Proof.
    intros s. cbn [dec c_flag]. unfold flag_deserialize. apply bind_returns; [apply read_exact_returns|]. intros [b r] H.
    apply read_one in H. destruct H as (y & -> & _). destruct (_ =? _); [discriminate|]. destruct (_ =? _); discriminate.
  Qed.
  Lemma c_amount_one : one_encoding c_amount.
  Proof.
    intros x s r H. cbn [dec c_amount enc] in *. unfold amount_deserialize in H. apply bind_ok in H. destruct H as ([b r'] & Hb & H).
    apply read_exact_ok in Hb. destruct Hb as [-> Hl]. injection H as <- <-. unfold amount_serialize.
    assert (E : zv (w128 (from_le b)) = from_le b).
    { apply zred_small. pose proof (from_le_bound b) as B. rewrite Hl in B. exact B. }
    rewrite E, <- Hl, le_bytes_from_le. reflexivity.
  Qed.
  Lemma c_amount_returns : never_panics c_amount.
  Proof. intros s. cbn [dec c_amount]. unfold amount_deserialize. apply bind_returns; [apply read_exact_returns|]. intros [b r] _. discriminate. Qed.
  Lemma c_f_one : one_encoding c_f. Proof. apply c_int_one. apply fz_small. Qed.
  Lemma c_fj_one : one_encoding c_fj. Proof. apply c_int_one. intros z Hz. apply zred_small, Hz. Qed.
  Lemma c_u64_one : one_encoding c_u64. Proof. apply c_int_one. intros z Hz. apply zred_small, Hz. Qed.
  Lemma c_u8_one : one_encoding c_u8. Proof. apply c_int_one. intros z Hz. apply zred_small, Hz. Qed.

  Lemma all_one {A} (a : Codec A) l : one_encoding a -> Forall (one_encoding_of a) l.
  Proof. intros H. apply Forall_forall. intros x _. apply H. Qed.
  Ltac structs := repeat match goal with
    | |- one_encoding_of (c_pair _ _) _ => apply c_pair_one
    | |- one_encoding_of (c_iso _ _ _) _ => apply c_iso_one; [intros ?; repeat match goal with p : (_ * _)%type |- _ => destruct p end; reflexivity|]
    | |- one_encoding_of (c_vec _) _ => apply c_vec_one
    | |- never_panics (c_pair _ _) => apply c_pair_returns
    | |- never_panics (c_iso _ _ _) => apply c_iso_returns
    | |- never_panics (c_vec _) => apply c_vec_returns
    end; auto using c_f_one, c_fj_one, c_u64_one, c_u8_one, c_amount_one, c_rm_one, c_flag_one, c_usize_one, c_depth_one,
      all_one, c_amount_returns, c_rm_returns, c_flag_returns, c_usize_returns, c_depth_returns; try (apply c_int_returns).
  Ltac pts H := try (apply H; cbn; tauto).

  Lemma c_def_one d : plain_points (policy_points (policy d)) -> one_encoding_of c_def d.
  Proof. intros P. unfold c_def, c_policy. structs; pts P. Qed.
  Lemma c_userpk_one k : one_encoding_of c_point (address k) -> one_encoding_of c_enckey (uenc_key k) -> one_encoding_of c_userpk k.
  Proof. intros H1 H2. unfold c_userpk. structs. Qed.
  Lemma c_ro_one r : plain_points (record_points r) -> one_encoding_of c_enckey (uenc_key (pub_key r)) -> one_encoding_of c_ro r.
  Proof.
    intros P H. unfold c_ro. structs.
    - apply c_def_one. intros x Hx. apply P. apply in_or_app. auto.
    - apply c_userpk_one; [|exact H]. apply P. apply in_or_app. cbn. auto.
  Qed.
  Lemma c_cred_one c : plain_points (cred_points c) -> one_encoding_of c_cred c.
  Proof. intros P. unfold c_cred. structs; pts P. unfold c_sig. pose proof (P (snd (cr_cred c)) ltac:(cbn; tauto)). destruct (cr_cred c). structs. Qed.
  Lemma c_memo_one m : one_encoding_of c_point (vm_ephemeral m) -> one_encoding_of c_memo m.
  Proof. intros P. unfold c_memo. structs. Qed.
  Lemma c_tx_one t : plain_tx t -> one_encoding_of c_tx t.
  Proof.
    intros [PT PP] s r H. cbn [dec c_tx enc] in *. unfold tx_deserialize in H. apply bind_ok in H. destruct H as ([b r'] & Hb & H).
    apply read_one in Hb. destruct Hb as (y & -> & ->).
    destruct (Z.eqb_spec (zv y) 0) as [E|_]; [|destruct (Z.eqb_spec (zv y) 1) as [E|_]; [|destruct (Z.eqb_spec (zv y) 2) as [E|_]; [|discriminate H]]];
      apply bind_ok in H; destruct H as ([n r2] & H1 & H); injection H as <- <-; rewrite (byte_is _ _ E); cbn [tx_serialize app]; f_equal; revert H1; revert r' r2; cbn [tx_proof tx_points] in *.
    - change (one_encoding_of c_transfer_note n). unfold c_transfer_note, c_transfer_aux. structs; pts PT. apply c_memo_one; pts PT.
    - change (one_encoding_of c_mint_note n). unfold c_mint_note, c_mint_aux. structs; pts PT; [apply c_def_one|apply c_memo_one; pts PT].
      intros x Hx. apply PT. apply in_or_app. auto.
    - change (one_encoding_of c_freeze_note n). unfold c_freeze_note, c_freeze_aux. structs; pts PT.
  Qed.
  Lemma c_txvk_one k : one_encoding_of c_vkey (tx_vkey k) -> one_encoding_of c_txvk k.
  Proof.
    intros P s r H. cbn [dec c_txvk enc] in *. unfold vk_deserialize in H. apply bind_ok in H. destruct H as ([b r'] & Hb & H).
    apply read_one in Hb. destruct Hb as (y & -> & ->).
    destruct (Z.eqb_spec (zv y) 0) as [E|_]; [|destruct (Z.eqb_spec (zv y) 1) as [E|_]; [|destruct (Z.eqb_spec (zv y) 2) as [E|_]; [|discriminate H]]];
      apply bind_ok in H; destruct H as ([n r2] & H1 & H); injection H as <- <-; rewrite (byte_is _ _ E); cbn [vk_serialize app]; f_equal; revert H1; revert r' r2; cbn [tx_vkey] in *.
    - change (one_encoding_of c_tvk n). unfold c_tvk. structs.
    - change (one_encoding_of c_mvk n). unfold c_mvk. structs.
    - change (one_encoding_of c_fvk n). unfold c_fvk. structs.
  Qed.
  Lemma c_block_one b : (forall t, In t (bk_txns b) -> plain_tx t) -> one_encoding_of c_point (address (bk_proposer b)) ->
    one_encoding_of c_enckey (uenc_key (bk_proposer b)) -> one_encoding_of c_block b.
  Proof.
    intros HT H1 H2. unfold c_block. structs; [|apply c_userpk_one; assumption]. apply Forall_forall. intros t Ht. apply c_tx_one, HT, Ht.
  Qed.

  Section Returns.
    Context (ZR : SerReturns Z0).
    Let P1 := point_returns _ ZR. Let P2 := enckey_returns _ ZR. Let P3 := proof_returns _ ZR. Let P4 := vkey_returns _ ZR.
    Lemma c_def_returns : never_panics c_def. Proof. unfold c_def, c_policy. structs. Qed.
    Lemma c_userpk_returns : never_panics c_userpk. Proof. unfold c_userpk. structs. Qed.
    Lemma c_ro_returns : never_panics c_ro. Proof. unfold c_ro. pose proof c_def_returns. pose proof c_userpk_returns. structs. Qed.
    Lemma c_cred_returns : never_panics c_cred. Proof. unfold c_cred, c_sig. structs. Qed.
    Lemma c_memo_returns : never_panics c_memo. Proof. unfold c_memo. structs. Qed.
    Lemma c_tx_returns : never_panics c_tx.
    Proof.
      intros s. cbn [dec c_tx]. unfold tx_deserialize. apply bind_returns; [apply read_exact_returns|]. intros [b r] H. apply read_one in H. destruct H as (y & -> & _).
      pose proof c_memo_returns. pose proof c_def_returns.
      destruct (_ =? _); [|destruct (_ =? _); [|destruct (_ =? _); [|discriminate]]]; (apply bind_returns; [|intros [n r'] _; discriminate]).
      - unfold c_transfer_note, c_transfer_aux. revert r. change (never_panics c_transfer_note). unfold c_transfer_note, c_transfer_aux. structs.
      - revert r. change (never_panics c_mint_note). unfold c_mint_note, c_mint_aux. structs.
      - revert r. change (never_panics c_freeze_note). unfold c_freeze_note, c_freeze_aux. structs.
    Qed.
    Lemma c_txvk_returns : never_panics c_txvk.
    Proof.
      intros s. cbn [dec c_txvk]. unfold vk_deserialize. apply bind_returns; [apply read_exact_returns|]. intros [b r] H. apply read_one in H. destruct H as (y & -> & _).
      destruct (_ =? _); [|destruct (_ =? _); [|destruct (_ =? _); [|discriminate]]]; (apply bind_returns; [|intros [n r'] _; discriminate]).
      - revert r. change (never_panics c_tvk). unfold c_tvk. structs.
      - revert r. change (never_panics c_mvk). unfold c_mvk. structs.
      - revert r. change (never_panics c_fvk). unfold c_fvk. structs.
    Qed.
    Lemma c_block_returns : never_panics c_block.
    Proof. unfold c_block. pose proof c_tx_returns. pose proof c_userpk_returns. structs. Qed.
  End Returns.
End Canon.
