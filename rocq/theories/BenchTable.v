(** What the table of benchmark results should hold, and the proofs that it does. *)
From Verif Require Import Base Bench.
From Coq Require Import String Ascii DecimalString Decimal DecimalFacts DecimalN.

(** SPECIFICATION *)
Fixpoint has_dash (s : string) : bool := match s with EmptyString => false | String c s' => Ascii.eqb c dash || has_dash s' end.
(** one measurement *)
Record Line := mkLine { li_fun : string; li_in : N; li_out : N; li_depth : N; li_domain : N; li_constraints : N; li_note : N; li_pk : N; li_vk : N }.
Record BatchLine := mkBLine { bt_fun : string; bt_in : N; bt_out : N; bt_depth : N; bt_notes : N }.
Definition line_title ratio env cpus (l : Line) : string :=
  compute_title_simple ratio env cpus (li_fun l) (li_in l) (li_out l) (li_depth l) (li_domain l) (li_constraints l) (li_note l) (li_pk l) (li_vk l).
Definition batch_title env cpus (l : BatchLine) : string := compute_title_batch env cpus (bt_fun l) (bt_in l) (bt_out l) (bt_depth l) (bt_notes l).
(** the row of a measurement, cell by cell under its heading; [kb] and [time] are what the conversions give *)
Definition says (ratio : N -> N -> string) (kb time : string -> string) (desc threads title : string) (l : Line) (row : list string) : Prop :=
  combine headers_simple row =
    [ ("TRANSACTION", desc); ("N_THREADS", threads); ("FUNCTION", li_fun l); ("N_INPUTS", dec (li_in l)); ("N_OUTPUTS", dec (li_out l));
      ("TREE_HEIGHT", dec (li_depth l)); ("DOMAIN_SIZE", dec (li_domain l)); ("N_CONSTRAINTS", dec (li_constraints l));
      ("UTILITY_RATIO(%)", ratio (li_constraints l) (li_domain l)); ("TRANSFER_NOTE_SIZE (KB)", kb (dec (li_note l)));
      ("PROVING_KEY_SIZE (KB)", kb (dec (li_pk l))); ("VERIFYING_KEY_SIZE (KB)", kb (dec (li_vk l))); ("TIME (ms)", time title) ]%string
  /\ List.length row = 13%nat.
Definition batch_says (time : string -> string) (desc threads title : string) (l : BatchLine) (row : list string) : Prop :=
  combine headers_batch row =
    [ ("TRANSACTION", desc); ("N_THREADS", threads); ("FUNCTION", bt_fun l); ("N_INPUTS", dec (bt_in l)); ("N_OUTPUTS", dec (bt_out l));
      ("TREE_HEIGHT", dec (bt_depth l)); ("N_NOTES", dec (bt_notes l)); ("TIME (ms)", time title) ]%string
  /\ List.length row = 8%nat.

(** PROOFS *)
Lemma split_nonempty s : split s <> [].
Proof. destruct s as [|c s]; cbn [split]; [discriminate|]. destruct (Ascii.eqb c dash); [discriminate|]. destruct (split s); discriminate. Qed.
Lemma split_plain s : has_dash s = false -> split s = [s].
Proof.
  induction s as [|c s IH]; cbn [has_dash split]; [reflexivity|]. intros H. apply orb_false_iff in H. destruct H as [H1 H2]. rewrite H1, (IH H2). reflexivity.
Qed.
Lemma split_app x s : has_dash x = false -> split (append x (String dash s)) = x :: split s.
Proof.
  induction x as [|c x IH]; cbn [has_dash append split].
  - intros _. destruct (Ascii.eqb_spec dash dash) as [_|F]; [reflexivity|contradiction F; reflexivity].
  - intros H. apply orb_false_iff in H. destruct H as [H1 H2]. rewrite H1, (IH H2). reflexivity.
Qed.
Lemma split_join l : l <> [] -> Forall (fun s => has_dash s = false) l -> split (join l) = l.
Proof.
  induction l as [|x l IH]; [intros F; contradiction F; reflexivity|]. intros _ H. inversion H as [|? ? H1 H2]; subst. destruct l as [|y l].
  - cbn [join]. apply split_plain, H1.
  - change (join (x :: y :: l)) with (append x (String dash (join (y :: l)))). rewrite split_app by exact H1. rewrite IH; [reflexivity|discriminate|exact H2].
Qed.
Lemma uint_dash u : has_dash (NilEmpty.string_of_uint u) = false.
Proof. induction u as [|u IH|u IH|u IH|u IH|u IH|u IH|u IH|u IH|u IH|u IH]; cbn [NilEmpty.string_of_uint has_dash]; try exact IH; reflexivity. Qed.
Lemma dec_dash n : has_dash (dec n) = false.
Proof. apply uint_dash. Qed.
Lemma dec_inj n m : dec n = dec m -> n = m.
Proof.
  unfold dec. intros H. assert (G : Some (N.to_uint n) = Some (N.to_uint m)) by (rewrite <- !NilEmpty.usu, H; reflexivity). injection G as G.
  rewrite <- (DecimalN.Unsigned.of_to n), <- (DecimalN.Unsigned.of_to m), G. reflexivity.
Qed.

Section Table.
  Variables (ratio : N -> N -> string) (env : option string) (cpus : N) (desc : string).
  Variables (estimate : string -> string -> res string) (ms kb : string -> res string) (time kbs : string -> string).
  Hypothesis ratio_plain : forall n d, has_dash (ratio n d) = false.
  Hypothesis threads_plain : has_dash (number_threads env cpus) = false.

  Lemma title_fields (l : Line) : has_dash (li_fun l) = false ->
    split (line_title ratio env cpus l) = [number_threads env cpus; li_fun l; dec (li_in l); dec (li_out l); dec (li_depth l); dec (li_domain l); dec (li_constraints l);
        ratio (li_constraints l) (li_domain l); dec (li_note l); dec (li_pk l); dec (li_vk l)].
  Proof.
    intros H. unfold line_title, compute_title_simple. apply split_join; [discriminate|].
    repeat (constructor; [first [exact threads_plain | exact H | apply ratio_plain | apply dec_dash]|]). constructor.
  Qed.
  Lemma batch_fields (l : BatchLine) : has_dash (bt_fun l) = false ->
    split (batch_title env cpus l) = [number_threads env cpus; bt_fun l; dec (bt_in l); dec (bt_out l); dec (bt_depth l); dec (bt_notes l)].
  Proof.
    intros H. unfold batch_title, compute_title_batch. apply split_join; [discriminate|].
    repeat (constructor; [first [exact threads_plain | exact H | apply dec_dash]|]). constructor.
  Qed.

  Theorem table_simple (lines : list Line) :
    (forall l, In l lines -> has_dash (li_fun l) = false) ->
    (forall l, In l lines -> exists e, estimate desc (line_title ratio env cpus l) = Ok e /\ ms e = Ok (time (line_title ratio env cpus l))) ->
    (forall n, kb (dec n) = Ok (kbs (dec n))) ->
    exists rows, save_result_to_file_simple estimate ms kb (map (line_title ratio env cpus) lines) desc = Ok (headers_simple :: rows) /\
      Forall2 (fun l row => says ratio kbs time desc (number_threads env cpus) (line_title ratio env cpus l) l row) lines rows.
  Proof.
    intros HF HE HK. unfold save_result_to_file_simple.
    enough (exists rows, save_results estimate ms (build_csv_records_simple kb) (map (line_title ratio env cpus) lines) desc = Ok rows /\
      Forall2 (fun l row => says ratio kbs time desc (number_threads env cpus) (line_title ratio env cpus l) l row) lines rows) as (rows & H1 & H2).
    { exists rows. rewrite H1. split; [reflexivity|exact H2]. }
    induction lines as [|l lines IH]; [exists []; split; [reflexivity|constructor]|].
    destruct IH as (rows & H1 & H2); [intros x Hx; apply HF; right; exact Hx|intros x Hx; apply HE; right; exact Hx|].
    destruct (HE l (or_introl eq_refl)) as (e & E1 & E2).
    cbn [map save_results]. rewrite E1. cbn [bind]. rewrite E2. cbn [bind]. rewrite (title_fields l (HF l (or_introl eq_refl))), H1.
    unfold build_csv_records_simple. cbn [value nth_error bind]. rewrite (HK (li_note l)). cbn [bind]. rewrite (HK (li_pk l)). cbn [bind]. rewrite (HK (li_vk l)). cbn [bind].
    eexists. split; [reflexivity|]. constructor; [split; reflexivity|exact H2].
  Qed.
  Theorem table_batch (lines : list BatchLine) :
    (forall l, In l lines -> has_dash (bt_fun l) = false) ->
    (forall l, In l lines -> exists e, estimate desc (batch_title env cpus l) = Ok e /\ ms e = Ok (time (batch_title env cpus l))) ->
    exists rows, save_result_to_file_batch estimate ms (map (batch_title env cpus) lines) desc = Ok (headers_batch :: rows) /\
      Forall2 (fun l row => batch_says time desc (number_threads env cpus) (batch_title env cpus l) l row) lines rows.
  Proof.
    intros HF HE. unfold save_result_to_file_batch.
    enough (exists rows, save_results estimate ms build_csv_records_batch (map (batch_title env cpus) lines) desc = Ok rows /\
      Forall2 (fun l row => batch_says time desc (number_threads env cpus) (batch_title env cpus l) l row) lines rows) as (rows & H1 & H2).
    { exists rows. rewrite H1. split; [reflexivity|exact H2]. }
    induction lines as [|l lines IH]; [exists []; split; [reflexivity|constructor]|].
    destruct IH as (rows & H1 & H2); [intros x Hx; apply HF; right; exact Hx|intros x Hx; apply HE; right; exact Hx|].
    destruct (HE l (or_introl eq_refl)) as (e & E1 & E2).
    cbn [map save_results]. rewrite E1. cbn [bind]. rewrite E2. cbn [bind]. rewrite (batch_fields l (HF l (or_introl eq_refl))), H1.
    unfold build_csv_records_batch. cbn [value nth_error bind].
    eexists. split; [reflexivity|]. constructor; [split; reflexivity|exact H2].
  Qed.
  (** different measurements never share the directory their result is read from *)
  Theorem titles_differ (a b : Line) : has_dash (li_fun a) = false -> has_dash (li_fun b) = false -> line_title ratio env cpus a = line_title ratio env cpus b -> a = b.
  Proof.
    intros Ha Hb H. apply (f_equal split) in H. rewrite (title_fields a Ha), (title_fields b Hb) in H.
    injection H as H1 H2 H3 H4 H5 H6 _ H7 H8 H9. apply dec_inj in H2, H3, H4, H5, H6, H7, H8, H9. destruct a, b; cbn in *. congruence.
  Qed.
  Theorem batch_titles_differ (a b : BatchLine) : has_dash (bt_fun a) = false -> has_dash (bt_fun b) = false -> batch_title env cpus a = batch_title env cpus b -> a = b.
  Proof.
    intros Ha Hb H. apply (f_equal split) in H. rewrite (batch_fields a Ha), (batch_fields b Hb) in H.
    injection H as H1 H2 H3 H4 H5. apply dec_inj in H2, H3, H4, H5. destruct a, b; cbn in *. congruence.
  Qed.
End Table.
