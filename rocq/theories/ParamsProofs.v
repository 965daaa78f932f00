(** Facts about stored parameters: paths, files, interrupted stores. *)
From Coq Require Strings.String Strings.Ascii Numbers.DecimalString Numbers.DecimalN.
From Verif Require Import Base Config Structs Keys Utils Memo Plonk Witness Circuits Snark Notes Serde SerdeProofs NoteProofs Params.
Import String.StringSyntax Ascii.AsciiSyntax.
#[local] Open Scope string_scope.

(** ** Paths *)
Lemma append_inj_l a x y : a +++ x = a +++ y -> x = y.
Proof. induction a as [|c a IH]; cbn [String.append]; [auto|]. intros [= E]. auto. Qed.
Lemma append_length a b : String.length (a +++ b) = (String.length a + String.length b)%nat.
Proof. induction a as [|c a IH]; cbn; [reflexivity|]. rewrite IH. reflexivity. Qed.
Lemma append_inj_r a : forall x y, x +++ a = y +++ a -> x = y.
Proof.
  induction x as [|c x IH]; intros [|c' y] E; cbn [String.append] in E; auto.
  - exfalso. apply (f_equal String.length) in E. cbn [String.length] in E. rewrite append_length in E. lia.
  - exfalso. apply (f_equal String.length) in E. cbn [String.length] in E. rewrite append_length in E. lia.
  - injection E as -> E. f_equal. auto.
Qed.
Lemma append_assoc a b c : (a +++ b) +++ c = a +++ (b +++ c).
Proof. induction a as [|x a IH]; cbn [String.append]; congruence. Qed.
Lemma path_push_inj d x y : path_push d x = path_push d y -> x = y.
Proof. unfold path_push. destruct (_ || _); intros E; apply append_inj_l in E; auto. apply append_inj_l in E. exact E. Qed.

Fixpoint all_chars (p : Ascii.ascii -> bool) (s : string) : bool :=
  match s with String.EmptyString => true | String.String c r => p c && all_chars p r end.
Definition no_dot (c : Ascii.ascii) : bool := negb (Ascii.eqb c "."%char).
Definition is_digit (c : Ascii.ascii) : bool :=
  existsb (Ascii.eqb c) ["0"; "1"; "2"; "3"; "4"; "5"; "6"; "7"; "8"; "9"]%char.
Lemma all_chars_app p a b : all_chars p (a +++ b) = all_chars p a && all_chars p b.
Proof. induction a as [|c a IH]; cbn; [reflexivity|]. rewrite IH, andb_assoc. reflexivity. Qed.
Lemma no_dot_stem s : all_chars no_dot s = true -> before_last_dot s = None.
Proof.
  induction s as [|c s IH]; cbn; [reflexivity|]. intros H. apply andb_true_iff in H. destruct H as [H1 H2]. rewrite IH by auto.
  unfold no_dot in H1. destruct (Ascii.eqb c "."%char); [discriminate H1|reflexivity].
Qed.
Lemma with_extension_no_dot s e : all_chars no_dot s = true -> with_extension s e = s +++ "." +++ e.
Proof.
  intros H. unfold with_extension, file_stem. rewrite no_dot_stem by auto. destruct (String.eqb s ".."); reflexivity.
Qed.
Lemma digits_of_uint d : all_chars is_digit (DecimalString.NilEmpty.string_of_uint d) = true.
Proof. induction d; cbn [DecimalString.NilEmpty.string_of_uint all_chars]; auto. Qed.
Lemma show_nat_digits n : all_chars is_digit (show_nat n) = true.
Proof. unfold show_nat, DecimalString.NilZero.string_of_uint. destruct (N.to_uint (N.of_nat n)) eqn:E; try apply digits_of_uint. reflexivity. Qed.
Lemma digit_no_dot c : is_digit c = true -> no_dot c = true.
Proof.
  unfold is_digit, no_dot. cbn [existsb]. intros H. repeat (apply orb_true_iff in H; destruct H as [H|H]; [apply Ascii.eqb_eq in H; subst; reflexivity|]). discriminate H.
Qed.
Lemma show_nat_no_dot n : all_chars no_dot (show_nat n) = true.
Proof.
  pose proof (show_nat_digits n) as H. induction (show_nat n) as [|c s IH]; cbn in *; auto. apply andb_true_iff in H. destruct H as [H1 H2].
  rewrite digit_no_dot, IH; auto.
Qed.
Lemma show_nat_inj a b : show_nat a = show_nat b -> a = b.
Proof.
  unfold show_nat. intros E. apply (f_equal DecimalString.NilZero.uint_of_string) in E.
  assert (N0 : forall n, N.to_uint n <> Decimal.Nil).
  { intros n H. destruct n as [|p]; [discriminate H|]. cbn in H. exact (DecimalPos.Unsigned.to_uint_nonnil p H). }
  rewrite !DecimalString.NilZero.usu in E by apply N0. injection E as E. apply DecimalN.Unsigned.to_uint_inj in E. lia.
Qed.
(** the digits before an underscore *)
Lemma digits_split x y r s : all_chars is_digit x = true -> all_chars is_digit y = true ->
  x +++ String.String "_" r = y +++ String.String "_" s -> x = y /\ r = s.
Proof.
  revert y. induction x as [|c x IH]; intros [|c' y] Hx Hy E; cbn [String.append all_chars] in *.
  - injection E as ->. auto.
  - injection E as <- _. discriminate Hy.
  - injection E as -> _. discriminate Hx.
  - injection E as -> E. apply andb_true_iff in Hx, Hy. destruct (IH y (proj2 Hx) (proj2 Hy) E) as [-> ->]. auto.
Qed.
Lemma key_name_inj k a b d a' b' d' : key_name k a b d = key_name k a' b' d' -> a = a' /\ b = b' /\ d = d'.
Proof.
  unfold key_name. intros E. apply append_inj_l, append_inj_l in E. cbn [String.append] in E.
  apply digits_split in E; [|apply show_nat_digits|apply show_nat_digits]. destruct E as [E1 E]. injection E as E.
  apply digits_split in E; [|apply show_nat_digits|apply show_nat_digits]. destruct E as [E2 E]. injection E as E.
  apply append_inj_r in E. conjs; apply show_nat_inj; auto.
Qed.
Lemma key_name_no_dot k a b d : all_chars no_dot k = true -> all_chars no_dot (key_name k a b d) = true.
Proof. intros H. unfold key_name. rewrite !all_chars_app, H, !show_nat_no_dot. reflexivity. Qed.
Lemma default_path_inj dir a b : all_chars no_dot a = true -> all_chars no_dot b = true ->
  default_path dir a "bin" = default_path dir b "bin" -> a = b.
Proof.
  intros Ha Hb E. apply path_push_inj in E. rewrite !with_extension_no_dot in E by auto. apply append_inj_r in E. exact E.
Qed.

(** the files that the module reads and writes by default *)
Inductive param_file :=
| SrsFile
| TransferPkFile (n_in n_out d : nat) | TransferVkFile (n_in n_out d : nat)
| MintPkFile (d : nat) | MintVkFile (d : nat)
| FreezePkFile (n d : nat) | FreezeVkFile (n d : nat).
Definition param_path (dir : option string) (f : param_file) : string :=
  match f with
  | SrsFile => universal_srs_path dir
  | TransferPkFile a b d => transfer_pk_path dir a b d
  | TransferVkFile a b d => transfer_vk_path dir a b d
  | MintPkFile d => mint_pk_path dir d
  | MintVkFile d => mint_vk_path dir d
  | FreezePkFile n d => freeze_pk_path dir n d
  | FreezeVkFile n d => freeze_vk_path dir n d
  end.
Lemma param_path_inj dir f g : param_path dir f = param_path dir g -> f = g.
Proof.
  destruct f, g; cbn [param_path]; unfold universal_srs_path, transfer_pk_path, transfer_vk_path, mint_pk_path, mint_vk_path, freeze_pk_path, freeze_vk_path;
    intros E; (apply default_path_inj in E; [|try apply key_name_no_dot; reflexivity|try apply key_name_no_dot; reflexivity]);
    first [apply key_name_inj in E; destruct E as (E1 & E2 & E3); subst; reflexivity
          |exfalso; unfold key_name in E; cbn [String.append] in E; discriminate E|reflexivity].
Qed.

(** ** Files *)
Lemma fs_set_same s p x : fs_set s p x p = x.
Proof. unfold fs_set. rewrite String.eqb_refl. reflexivity. Qed.
Lemma fs_set_other s p x q : q <> p -> fs_set s p x q = s q.
Proof. intros H. unfold fs_set. apply String.eqb_neq in H. rewrite H. reflexivity. Qed.
Lemma run_appends p bs : forall s old, s p = Some old -> fs_run s (map (FAppend p) bs) p = Some (old ++ bs).
Proof.
  induction bs as [|b bs IH]; intros s old H; cbn [map fs_run fold_left].
  - rewrite app_nil_r. exact H.
  - cbn [fs_step]. rewrite H. change (fold_left fs_step (map (FAppend p) bs) ?x) with (fs_run x (map (FAppend p) bs)).
    rewrite (IH _ (old ++ [b])) by apply fs_set_same. rewrite <- app_assoc. reflexivity.
Qed.
Definition touches (p : string) (o : fop) : Prop := match o with FCreate q => q = p | FAppend q _ => q = p end.
Lemma run_other q l : forall s, Forall (fun o => ~ touches q o) l -> fs_run s l q = s q.
Proof.
  induction l as [|o l IH]; intros s H; [reflexivity|]. inversion H as [|? ? Ho Hl]; subst. cbn [fs_run fold_left].
  change (fold_left fs_step l ?x) with (fs_run x l). rewrite IH by auto. destruct o as [p|p b]; cbn [fs_step touches] in *.
  - apply fs_set_other. congruence.
  - destruct (s p); [|reflexivity]. apply fs_set_other. congruence.
Qed.
Lemma firstn_Forall {A} (P : A -> Prop) k l : Forall P l -> Forall P (firstn k l).
Proof. intros H. revert k. induction H; intros [|k]; cbn; constructor; auto. Qed.
Lemma store_touches bs p q : q <> p -> Forall (fun o => ~ touches q o) (store_bytes bs p).
Proof.
  intros H. constructor; [cbn; congruence|]. apply Forall_forall. intros o Ho. apply in_map_iff in Ho. destruct Ho as (b & <- & _). cbn. congruence.
Qed.
(** a store that stopped after some steps *)
Lemma stopped_store s bs p k : stopped s (store_bytes bs p) k p = match k with O => s p | Datatypes.S j => Some (firstn j bs) end.
Proof.
  unfold stopped. destruct k as [|j]; [reflexivity|]. cbn [store_bytes firstn fs_run fold_left fs_step].
  rewrite firstn_map. change (fold_left fs_step (map (FAppend p) ?l) ?x) with (fs_run x (map (FAppend p) l)).
  rewrite (run_appends p _ _ []) by apply fs_set_same. reflexivity.
Qed.
Lemma stopped_store_other s bs p k q : q <> p -> stopped s (store_bytes bs p) k q = s q.
Proof. intros H. apply run_other, firstn_Forall, store_touches, H. Qed.
Lemma run_store s bs p : fs_run s (store_bytes bs p) p = Some bs.
Proof.
  pose proof (stopped_store s bs p (Datatypes.S (length bs))) as H. unfold stopped in H. rewrite firstn_all2 in H by (cbn; rewrite map_length; lia).
  rewrite H, firstn_all. reflexivity.
Qed.
Lemma run_store_other s bs p q : q <> p -> fs_run s (store_bytes bs p) q = s q.
Proof. intros H. apply run_other, store_touches, H. Qed.
Lemma fs_run_app s a b : fs_run s (a ++ b)%list = fs_run (fs_run s a) b.
Proof. apply fold_left_app. Qed.
Lemma store_length bs p : length (store_bytes bs p) = Datatypes.S (length bs).
Proof. cbn. rewrite map_length. reflexivity. Qed.
(** two stores one after the other *)
Lemma stopped_two s b1 p1 b2 p2 k :
  stopped s (store_bytes b1 p1 ++ store_bytes b2 p2)%list k =
  if (k <=? Datatypes.S (length b1))%nat then stopped s (store_bytes b1 p1) k
  else stopped (fs_run s (store_bytes b1 p1)) (store_bytes b2 p2) (k - Datatypes.S (length b1)).
Proof.
  unfold stopped. rewrite firstn_app, store_length. destruct (Nat.leb_spec k (Datatypes.S (length b1))) as [H|H].
  - replace (k - Datatypes.S (length b1))%nat with 0%nat by lia. cbn [firstn]. rewrite app_nil_r. reflexivity.
  - rewrite (firstn_all2 (store_bytes b1 p1)) by (rewrite store_length; lia). apply fs_run_app.
Qed.

(** ** Encodings read from the front *)
Definition streams {A} (c : Codec A) : Prop := forall s x r t, dec c s = Ok (x, r) -> dec c (s ++ t)%list = Ok (x, (r ++ t)%list).
Lemma read_exact_streams n s b r t : read_exact n s = Ok (b, r) -> read_exact n (s ++ t)%list = Ok (b, (r ++ t)%list).
Proof.
  unfold read_exact. rewrite app_length. destruct (Nat.ltb_spec (length s) n) as [H|H]; [discriminate|].
  destruct (Nat.ltb_spec (length s + length t) n) as [H'|H']; [lia|]. intros [= <- <-].
  rewrite firstn_app, skipn_app. replace (n - length s)%nat with 0%nat by lia. cbn [firstn skipn]. rewrite app_nil_r. reflexivity.
Qed.
Lemma c_int_streams n m mk : streams (c_int n m mk).
Proof.
  intros s x r t H. cbn [dec c_int] in *. apply bind_ok in H. destruct H as ([b r'] & H1 & H2). rewrite (read_exact_streams _ _ _ _ t H1). cbn [bind].
  cbv beta iota in H2. destruct (from_le b <? m); [|discriminate H2]. injection H2 as <- <-. reflexivity.
Qed.
Lemma c_pair_streams {A B} (a : Codec A) (b : Codec B) : streams a -> streams b -> streams (c_pair a b).
Proof.
  intros Ha Hb s x r t H. cbn [dec c_pair] in *. apply bind_ok in H. destruct H as ([y r1] & H1 & H). apply bind_ok in H. destruct H as ([z r2] & H2 & H).
  injection H as <- <-. rewrite (Ha _ _ _ t H1). cbn [bind]. rewrite (Hb _ _ _ t H2). reflexivity.
Qed.
Lemma c_iso_streams {A B} (f : A -> B) g (b : Codec B) : streams b -> streams (c_iso f g b).
Proof.
  intros Hb s x r t H. cbn [dec c_iso] in *. apply bind_ok in H. destruct H as ([y r1] & H1 & H). injection H as <- <-. rewrite (Hb _ _ _ t H1). reflexivity.
Qed.
Lemma c_usize_streams : streams c_usize.
Proof. intros s x r t H. cbn [dec c_usize] in *. apply bind_ok in H. destruct H as ([b r'] & H1 & H2). rewrite (read_exact_streams _ _ _ _ t H1). injection H2 as <- <-. reflexivity. Qed.
Lemma c_depth_streams : streams c_depth.
Proof. intros s x r t H. cbn [dec c_depth] in *. apply bind_ok in H. destruct H as ([b r'] & H1 & H2). rewrite (read_exact_streams _ _ _ _ t H1). injection H2 as <- <-. reflexivity. Qed.
(** a cut-off encoding is not readable *)
Lemma cut_not_readable {A} (c : Codec A) x k y r : reads_back c x -> streams c -> (k < length (enc c x))%nat ->
  dec c (firstn k (enc c x)) <> Ok (y, r).
Proof.
  intros [Hx _] Hs Hk H. apply (Hs _ _ _ (skipn k (enc c x))) in H. rewrite firstn_skipn in H.
  specialize (Hx []). rewrite app_nil_r in Hx. rewrite Hx in H. injection H as _ H. symmetry in H. apply app_eq_nil in H. destruct H as [_ H].
  apply (f_equal (@length _)) in H. rewrite skipn_length in H. cbn in H. lia.
Qed.

(** ** Loading what was stored *)
Lemma load_stored {A} (c : Codec A) x p s t : reads_back c x -> s p = Some (enc c x ++ t)%list -> load_data c p s = Ok x.
Proof. intros [H _] E. unfold load_data. rewrite E, H. reflexivity. Qed.
Lemma load_run {A} (c : Codec A) x p s : reads_back c x -> load_data c p (fs_run s (store_data c x p)) = Ok x.
Proof. intros H. eapply (load_stored c x p _ []); [exact H|]. unfold store_data. rewrite run_store, app_nil_r. reflexivity. Qed.
Lemma load_interrupted {A} (c : Codec A) x p s k y : reads_back c x -> streams c -> (0 < k < length (store_data c x p))%nat ->
  load_data c p (stopped s (store_data c x p) k) <> Ok y.
Proof.
  intros H Hs Hk. unfold load_data, store_data in *. rewrite stopped_store. destruct k as [|j]; [lia|]. rewrite store_length in Hk.
  intros E. apply bind_ok in E. destruct E as ([z r] & E & _). assert (E' : dec c (firstn j (enc c x)) = Ok (z, r)) by (destruct (dec c (firstn j (enc c x))); cbn in E; congruence). revert E'. apply cut_not_readable; auto. lia.
Qed.
Lemma load_two {A B} (c1 : Codec A) (c2 : Codec B) x1 x2 p1 p2 s : p1 <> p2 -> reads_back c1 x1 -> reads_back c2 x2 ->
  load_data c1 p1 (fs_run s (store_data c1 x1 p1 ++ store_data c2 x2 p2)%list) = Ok x1 /\
  load_data c2 p2 (fs_run s (store_data c1 x1 p1 ++ store_data c2 x2 p2)%list) = Ok x2.
Proof.
  intros Hp H1 H2. rewrite fs_run_app. split; [|apply load_run; auto].
  unfold load_data, store_data. rewrite run_store_other by auto. exact (load_run c1 x1 p1 s H1).
Qed.

Lemma load_one_stopped {A} (c : Codec A) x p s k y : reads_back c x -> streams c ->
  load_data c p (stopped s (store_data c x p) k) = Ok y -> y = x \/ k = 0%nat /\ load_data c p s = Ok y.
Proof.
  intros H Hs E. destruct (Nat.eq_dec k 0) as [->|K]; [right; split; [reflexivity|exact E]|left].
  destruct (Nat.lt_ge_cases k (length (store_data c x p))) as [K'|K'].
  - exfalso. revert E. apply load_interrupted; auto. lia.
  - unfold stopped in E. rewrite firstn_all2 in E by lia. rewrite load_run in E by auto. congruence.
Qed.
Lemma load_two_stopped {A B} (c1 : Codec A) (c2 : Codec B) x1 x2 p1 p2 s k : p1 <> p2 -> reads_back c1 x1 -> reads_back c2 x2 -> streams c1 -> streams c2 ->
  (forall y, load_data c1 p1 (stopped s (store_data c1 x1 p1 ++ store_data c2 x2 p2)%list k) = Ok y -> y = x1 \/ k = 0%nat /\ load_data c1 p1 s = Ok y) /\
  (forall y, load_data c2 p2 (stopped s (store_data c1 x1 p1 ++ store_data c2 x2 p2)%list k) = Ok y -> y = x2 \/ load_data c2 p2 s = Ok y).
Proof.
  intros Hp H1 H2 S1 S2. unfold store_data. rewrite stopped_two. destruct (Nat.leb_spec k (Datatypes.S (length (enc c1 x1)))) as [K|K].
  - split; intros y E.
    + apply (load_one_stopped c1 x1 p1 s k y); auto.
    + right. unfold load_data in *. rewrite stopped_store_other in E by auto. exact E.
  - split; intros y E.
    + left. unfold load_data in E. rewrite stopped_store_other in E by auto. rewrite run_store in E. destruct H1 as [H1 _]. specialize (H1 []). rewrite app_nil_r in H1.
      rewrite H1 in E. cbn in E. congruence.
    + apply (load_one_stopped c2 x2 p2 _ _ y) in E; auto. destruct E as [E|[_ E]]; [auto|right].
      unfold load_data in *. rewrite run_store_other in E by auto. exact E.
Qed.
Lemma two_other {A B} (c1 : Codec A) (c2 : Codec B) x1 x2 p1 p2 s k q : q <> p1 -> q <> p2 ->
  stopped s (store_data c1 x1 p1 ++ store_data c2 x2 p2)%list k q = s q.
Proof. intros H1 H2. apply run_other, firstn_Forall, Forall_app. split; apply store_touches; auto. Qed.
Lemma stopped_all s l : stopped s l (length l) = fs_run s l.
Proof. unfold stopped. rewrite firstn_all. reflexivity. Qed.

(** ** The codecs of keys *)
Section Keys.
  Context {C : CapConfig} {S : Snark C} {Z0 : Ser C S} {P0 : ParSer C S}.
  Record ParSerLaws : Prop := {
    pl_ser : SerLaws Z0;
    pkey_reads_back : forall x, reads_back c_pkey x;
    srs_reads_back : forall x, reads_back c_srs x;
    pkey_streams : streams c_pkey;
    vkey_streams : streams c_vkey;
    srs_streams : streams c_srs
  }.
  Lemma tpk_back (PL : ParSerLaws) k : Z.of_nat (tpk_n_in k) < 2 ^ 64 -> Z.of_nat (tpk_n_out k) < 2 ^ 64 -> Z.of_nat (tpk_depth k) < 256 -> reads_back c_tpk k.
  Proof. intros H1 H2 H3. apply c_iso_ok; [destruct k; reflexivity|]. repeat apply c_pair_ok; auto using c_usize_ok, c_depth_ok, pkey_reads_back. Qed.
  Lemma mpk_back (PL : ParSerLaws) k : Z.of_nat (mpk_depth k) < 256 -> reads_back c_mpk k.
  Proof. intros H3. apply c_iso_ok; [destruct k; reflexivity|]. repeat apply c_pair_ok; auto using c_usize_ok, c_depth_ok, pkey_reads_back. Qed.
  Lemma fpk_back (PL : ParSerLaws) k : Z.of_nat (fpk_num_input k) < 2 ^ 64 -> Z.of_nat (fpk_depth k) < 256 -> reads_back c_fpk k.
  Proof. intros H1 H3. apply c_iso_ok; [destruct k; reflexivity|]. repeat apply c_pair_ok; auto using c_usize_ok, c_depth_ok, pkey_reads_back. Qed.
  Lemma tvk_back (PL : ParSerLaws) k : Z.of_nat (tvk_n_in k) < 2 ^ 64 -> Z.of_nat (tvk_n_out k) < 2 ^ 64 -> Z.of_nat (tvk_depth k) < 256 -> reads_back c_tvk k.
  Proof. intros H1 H2 H3. destruct PL as [PS _ _ _ _ _]. apply c_iso_ok; [destruct k; reflexivity|]. repeat apply c_pair_ok; auto using c_usize_ok, c_depth_ok, (vkey_reads_back _ PS). Qed.
  Lemma mvk_back (PL : ParSerLaws) k : Z.of_nat (mvk_depth k) < 256 -> reads_back c_mvk k.
  Proof. intros H3. destruct PL as [PS _ _ _ _ _]. apply c_iso_ok; [destruct k; reflexivity|]. repeat apply c_pair_ok; auto using c_usize_ok, c_depth_ok, (vkey_reads_back _ PS). Qed.
  Lemma fvk_back (PL : ParSerLaws) k : Z.of_nat (fvk_num_input k) < 2 ^ 64 -> Z.of_nat (fvk_depth k) < 256 -> reads_back c_fvk k.
  Proof. intros H1 H3. destruct PL as [PS _ _ _ _ _]. apply c_iso_ok; [destruct k; reflexivity|]. repeat apply c_pair_ok; auto using c_usize_ok, c_depth_ok, (vkey_reads_back _ PS). Qed.
  Lemma keys_stream (PL : ParSerLaws) : streams c_tpk /\ streams c_mpk /\ streams c_fpk /\ streams c_tvk /\ streams c_mvk /\ streams c_fvk.
  Proof.
    destruct PL as [_ _ _ P1 P2 _].
    unfold c_tpk, c_mpk, c_fpk, c_tvk, c_mvk, c_fvk. conjs; apply c_iso_streams; repeat apply c_pair_streams; auto using c_usize_streams, c_depth_streams.
  Qed.

  Lemma transfer_preprocess_sizes g a b d pk vk : transfer_preprocess g a b d = Ok (pk, vk) ->
    tpk_n_in pk = a /\ tpk_n_out pk = b /\ tpk_depth pk = d /\ tvk_n_in vk = a /\ tvk_n_out vk = b /\ tvk_depth vk = d.
  Proof. unfold transfer_preprocess. intros H. apply bind_ok in H. destruct H as (x & _ & H). apply bind_ok in H. destruct H as (y & _ & H). injection H as <- <-. cbn. auto 8. Qed.
  Lemma mint_preprocess_sizes g d pk vk : mint_preprocess g d = Ok (pk, vk) -> mpk_depth pk = d /\ mvk_depth vk = d.
  Proof. unfold mint_preprocess. intros H. apply bind_ok in H. destruct H as (x & _ & H). apply bind_ok in H. destruct H as (y & _ & H). injection H as <- <-. cbn. auto 8. Qed.
  Lemma freeze_preprocess_sizes g fk n d pk vk : freeze_preprocess g fk n d = Ok (pk, vk) ->
    fpk_depth pk = d /\ fpk_num_input pk = n /\ fvk_depth vk = d /\ fvk_num_input vk = n.
  Proof. unfold freeze_preprocess. intros H. apply bind_ok in H. destruct H as (x & _ & H). apply bind_ok in H. destruct H as (y & _ & H). injection H as <- <-. cbn. auto 8. Qed.

  (** What a caller sees of a store whose steps are [l] and of the load functions [load1] and [load2] for the two files it
      writes: [k] is the number of steps that were carried out before a crash or an I/O error *)
  Definition stores_pair {A B} (l : list fop) (p1 p2 : string) (load1 : fs -> res A) (load2 : fs -> res B) (x1 : A) (x2 : B) : Prop :=
    forall s,
      load1 (fs_run s l) = Ok x1 /\ load2 (fs_run s l) = Ok x2 /\
      (forall k q, q <> p1 -> q <> p2 -> stopped s l k q = s q) /\
      (forall k y, load1 (stopped s l k) = Ok y -> y = x1 \/ k = 0%nat /\ load1 s = Ok y) /\
      (forall k y, load2 (stopped s l k) = Ok y -> y = x2 \/ load2 s = Ok y).
  Definition stores_one {A} (l : list fop) (p : string) (load : fs -> res A) (x : A) : Prop :=
    forall s,
      load (fs_run s l) = Ok x /\
      (forall k q, q <> p -> stopped s l k q = s q) /\
      (forall k y, load (stopped s l k) = Ok y -> y = x \/ k = 0%nat /\ load s = Ok y).
  Lemma stores_pair_data {A B} (c1 : Codec A) (c2 : Codec B) x1 x2 p1 p2 : p1 <> p2 -> reads_back c1 x1 -> reads_back c2 x2 -> streams c1 -> streams c2 ->
    stores_pair (store_data c1 x1 p1 ++ store_data c2 x2 p2) p1 p2 (load_data c1 p1) (load_data c2 p2) x1 x2.
  Proof.
    intros Hp H1 H2 S1 S2 s. destruct (load_two c1 c2 x1 x2 p1 p2 s Hp H1 H2) as [A1 A2]. conjs; auto.
    - intros k q. apply two_other.
    - intros k. apply (load_two_stopped c1 c2 x1 x2 p1 p2 s k Hp H1 H2 S1 S2).
    - intros k. apply (load_two_stopped c1 c2 x1 x2 p1 p2 s k Hp H1 H2 S1 S2).
  Qed.
  Lemma stores_one_data {A} (c : Codec A) x p : reads_back c x -> streams c -> stores_one (store_data c x p) p (load_data c p) x.
  Proof.
    intros H Hs s. conjs.
    - apply load_run, H.
    - intros k q Hq. apply stopped_store_other, Hq.
    - intros k y E. eapply load_one_stopped; eauto.
  Qed.

  Section Stores.
    Context (PL : ParSerLaws) (dir : option string).
    Lemma store_transfer_pk g a b d pk vk : Z.of_nat a < 2 ^ 64 -> Z.of_nat b < 2 ^ 64 -> Z.of_nat d < 256 -> transfer_preprocess g a b d = Ok (pk, vk) ->
      exists l, store_transfer_proving_key dir a b d g None = Ok l /\
        stores_pair l (transfer_pk_path dir a b d) (transfer_vk_path dir a b d) (load_transfer_proving_key dir a b d None) (load_transfer_verifying_key dir a b d None) pk vk.
    Proof.
      intros Ha Hb Hd E. destruct (transfer_preprocess_sizes _ _ _ _ _ _ E) as (E1 & E2 & E3 & E4 & E5 & E6). destruct (keys_stream PL) as (K1 & K2 & K3 & K4 & K5 & K6).
      eexists. unfold store_transfer_proving_key. rewrite E. cbn [bind fst snd or_default]. split; [reflexivity|].
      apply stores_pair_data; auto.
      - intros X. apply (param_path_inj dir (TransferPkFile a b d) (TransferVkFile a b d)) in X. discriminate X.
      - apply tpk_back; auto; congruence.
      - apply tvk_back; auto; congruence.
    Qed.
    Lemma store_mint_pk g d pk vk : Z.of_nat d < 256 -> mint_preprocess g d = Ok (pk, vk) ->
      exists l, store_mint_proving_key dir d g None = Ok l /\
        stores_pair l (mint_pk_path dir d) (mint_vk_path dir d) (load_mint_proving_key dir d None) (load_mint_verifying_key dir d None) pk vk.
    Proof.
      intros Hd E. destruct (mint_preprocess_sizes _ _ _ _ E) as (E1 & E2). destruct (keys_stream PL) as (K1 & K2 & K3 & K4 & K5 & K6).
      eexists. unfold store_mint_proving_key. rewrite E. cbn [bind fst snd or_default]. split; [reflexivity|].
      apply stores_pair_data; auto.
      - intros X. apply (param_path_inj dir (MintPkFile d) (MintVkFile d)) in X. discriminate X.
      - apply mpk_back; auto; congruence.
      - apply mvk_back; auto; congruence.
    Qed.
    Lemma store_freeze_pk g fk n d pk vk : Z.of_nat n < 2 ^ 64 -> Z.of_nat d < 256 -> freeze_preprocess g fk n d = Ok (pk, vk) ->
      exists l, store_freeze_proving_key dir fk n d g None = Ok l /\
        stores_pair l (freeze_pk_path dir n d) (freeze_vk_path dir n d) (load_freeze_proving_key dir n d None) (load_freeze_verifying_key dir n d None) pk vk.
    Proof.
      intros Hn Hd E. destruct (freeze_preprocess_sizes _ _ _ _ _ _ E) as (E1 & E2 & E3 & E4). destruct (keys_stream PL) as (K1 & K2 & K3 & K4 & K5 & K6).
      eexists. unfold store_freeze_proving_key. rewrite E. cbn [bind fst snd or_default]. split; [reflexivity|].
      apply stores_pair_data; auto.
      - intros X. apply (param_path_inj dir (FreezePkFile n d) (FreezeVkFile n d)) in X. discriminate X.
      - apply fpk_back; auto; congruence.
      - apply fvk_back; auto; congruence.
    Qed.
    Lemma store_transfer_vk g a b d dest pk vk : Z.of_nat a < 2 ^ 64 -> Z.of_nat b < 2 ^ 64 -> Z.of_nat d < 256 -> transfer_preprocess g a b d = Ok (pk, vk) ->
      exists l, store_transfer_verifying_key dir a b d g dest = Ok l /\
        stores_one l (or_default dest (transfer_vk_path dir a b d)) (load_transfer_verifying_key dir a b d dest) vk.
    Proof.
      intros Ha Hb Hd E. destruct (transfer_preprocess_sizes _ _ _ _ _ _ E) as (E1 & E2 & E3 & E4 & E5 & E6). destruct (keys_stream PL) as (K1 & K2 & K3 & K4 & K5 & K6).
      eexists. unfold store_transfer_verifying_key. rewrite E. cbn [bind snd]. split; [reflexivity|]. apply stores_one_data; auto. apply tvk_back; auto; congruence.
    Qed.
    Lemma store_mint_vk g d dest pk vk : Z.of_nat d < 256 -> mint_preprocess g d = Ok (pk, vk) ->
      exists l, store_mint_verifying_key dir d g dest = Ok l /\ stores_one l (or_default dest (mint_vk_path dir d)) (load_mint_verifying_key dir d dest) vk.
    Proof.
      intros Hd E. destruct (mint_preprocess_sizes _ _ _ _ E) as (E1 & E2). destruct (keys_stream PL) as (K1 & K2 & K3 & K4 & K5 & K6).
      eexists. unfold store_mint_verifying_key. rewrite E. cbn [bind snd]. split; [reflexivity|]. apply stores_one_data; auto. apply mvk_back; auto; congruence.
    Qed.
    Lemma store_freeze_vk g fk n d dest pk vk : Z.of_nat n < 2 ^ 64 -> Z.of_nat d < 256 -> freeze_preprocess g fk n d = Ok (pk, vk) ->
      exists l, store_freeze_verifying_key dir fk n d g dest = Ok l /\
        stores_one l (or_default dest (freeze_vk_path dir n d)) (load_freeze_verifying_key dir n d dest) vk.
    Proof.
      intros Hn Hd E. destruct (freeze_preprocess_sizes _ _ _ _ _ _ E) as (E1 & E2 & E3 & E4). destruct (keys_stream PL) as (K1 & K2 & K3 & K4 & K5 & K6).
      eexists. unfold store_freeze_verifying_key. rewrite E. cbn [bind snd]. split; [reflexivity|]. apply stores_one_data; auto. apply fvk_back; auto; congruence.
    Qed.
    Lemma store_srs g dest : exists l, store_universal_parameter_for_demo dir (Ok g) dest = Ok l /\
        stores_one l (or_default dest (universal_srs_path dir)) (load_universal_parameter dir dest) g.
    Proof.
      eexists. split; [reflexivity|]. destruct PL as [_ _ H1 _ _ H2]. apply stores_one_data; auto.
    Qed.
    (** a failing preprocessing writes nothing; a proving key stored under an explicit path ends as the verifying key alone *)
    Lemma explicit_pk g a b d p pk vk l s : transfer_preprocess g a b d = Ok (pk, vk) -> store_transfer_proving_key dir a b d g (Some p) = Ok l ->
      fs_run s l p = Some (enc c_tvk vk).
    Proof. unfold store_transfer_proving_key. intros -> H. cbn [bind fst snd or_default] in H. injection H as <-. change (fs_run s (store_data c_tpk pk p ++ store_data c_tvk vk p)%list p = Some (enc c_tvk vk)). rewrite fs_run_app. apply run_store. Qed.
    Lemma explicit_mpk g d p pk vk l s : mint_preprocess g d = Ok (pk, vk) -> store_mint_proving_key dir d g (Some p) = Ok l ->
      fs_run s l p = Some (enc c_mvk vk).
    Proof. unfold store_mint_proving_key. intros -> H. cbn [bind fst snd or_default] in H. injection H as <-. change (fs_run s (store_data c_mpk pk p ++ store_data c_mvk vk p)%list p = Some (enc c_mvk vk)). rewrite fs_run_app. apply run_store. Qed.
    Lemma explicit_fpk g fk n d p pk vk l s : freeze_preprocess g fk n d = Ok (pk, vk) -> store_freeze_proving_key dir fk n d g (Some p) = Ok l ->
      fs_run s l p = Some (enc c_fvk vk).
    Proof. unfold store_freeze_proving_key. intros -> H. cbn [bind fst snd or_default] in H. injection H as <-. change (fs_run s (store_data c_fpk pk p ++ store_data c_fvk vk p)%list p = Some (enc c_fvk vk)). rewrite fs_run_app. apply run_store. Qed.
    Lemma load_srs_degree sha e bs m m' : m <= 2 ^ 17 -> m' <= 2 ^ 17 -> load_srs sha e bs m = load_srs sha e bs m'.
    Proof. intros H H'. unfold load_srs. apply Z.ltb_ge in H, H'. rewrite H, H'. reflexivity. Qed.
    Lemma bytes_eqb_refl b : bytes_eqb b b = true.
    Proof. induction b as [|x b IH]; cbn; [reflexivity|]. rewrite zeqb_refl. exact IH. Qed.
    Lemma load_srs_ok sha g m : m <= 2 ^ 17 -> load_srs sha (sha (enc c_srs g)) (enc c_srs g) m = Ok g.
    Proof.
      intros H. unfold load_srs. apply Z.ltb_ge in H. rewrite H, bytes_eqb_refl. destruct PL as [_ _ H1 _ _ _]. destruct (H1 g) as [H2 _]. specialize (H2 []).
      rewrite app_nil_r in H2. rewrite H2. reflexivity.
    Qed.
  End Stores.
End Keys.
Arguments ParSerLaws {C S Z0} P0.
