(** C71: the transactions that the benchmarks build (bench_utils/mod.rs, benches/).  C72: the table of results that they save. *)
From Coq Require Import String.
From Verif Require Import Base Config Structs Keys Utils Memo Plonk Witness Circuits Relation PolicyProofs Snark Notes NoteProofs Serde Ledger Wallet CircuitFacts Toy ToySnark Samples NoteSamples WalletSamples
  Builder BuilderSpec BuilderProofs BuilderSamples Bench BenchProofs BenchTable.
#[local] Existing Instance toy_snark.
#[local] Existing Instance w_codec.
#[local] Existing Instance toy_memo_i.
#[local] Existing Instance toy_w.

(** ** C71 *)
(** the builder of transfers is made exactly for the sizes that fit, with one unit in every input and all of them in the first output *)
Theorem C71_builder (C : CapConfig) (L : CapLaws C) s start kps n_in n_out depth :
  (transfer_size_ok s kps n_in n_out depth ->
   exists b, get_builder_transfer s start kps n_in n_out depth = Ok b /\ tb_num_in b = n_in /\ tb_num_out b = n_out /\ tb_depth b = Z.to_nat (zv depth) /\ tb_kps b = kps /\
     map amount (tb_ins b) = w128 30 :: repeat (w128 1) (n_in - 1) /\ amount (tb_chg b) = w128 29 /\
     map amount (tb_outs b) = w128 (Z.of_nat (n_in - 1)) :: repeat (w128 0) (n_out - 2) /\
     map asset_def (tb_ins b) = asset_def_native :: repeat (tb_def b) (n_in - 1)) /\
  (~ transfer_size_ok s kps n_in n_out depth -> get_builder_transfer s start kps n_in n_out depth = Panic).
Proof.
  split; [|apply bench_builder_panics].
  intros H. destruct (bench_builder L s start kps n_in n_out depth H) as (b & H1 & _ & H2 & H3 & H4 & H5 & H6 & H7 & H8 & _ & H9 & _). exists b. auto 20.
Qed.
Print Assumptions C71_builder.
(** what each benchmark builds passes the check that it times *)
Theorem C71_transfer (C : CapConfig) (L : CapLaws C) (S : Snark C) (SL : SnarkLaws S) (K : @RoCodec C) (E : MemoSer C) g user s r start n_in n_out depth b pk vk :
  transfer_size_ok s (get_key_pairs user n_in) n_in n_out depth -> (2 <= n_in)%nat -> Z.of_nat n_in < 2 ^ 64 ->
  (freezer_pub_key (be_freezer s) <> pt_id -> viewer_pub_key (be_viewer s) <> pt_id) ->
  get_builder_transfer s start (get_key_pairs user n_in) n_in n_out depth = Ok b -> NoDup (tb_nullifiers b) -> can_encrypt (br_enc r) (tb_outs b) ->
  transfer_preprocess g n_in n_out (Z.to_nat (zv depth)) = Ok (pk, vk) ->
  bench_transfer g user s r start n_in n_out depth = Ok tt /\
  exists n memos sg, tb_build_note r pk (w64 1234) [] b = Ok (n, memos, sg) /\ ta_root (tn_aux n) = tb_root b /\
    forall ts : u64, zv ts <= 1234 -> transfer_verify n vk (tb_root b) ts = Ok tt.
Proof.
  intros H1 H2 H3 H4 H5 H6 H7 H8. split; [exact (bench_transfer_passes L SL g user s r start n_in n_out depth b pk vk H1 H2 H3 H4 H5 H6 H7 H8)|].
  destruct (bench_transfer_note L SL g s r start _ n_in n_out depth b pk vk H1 H2 H3 H4 H5 H6 H7 H8) as (n & memos & sg & G1 & G2 & G3). exists n, memos, sg. rewrite G2 in G3. auto.
Qed.
Print Assumptions C71_transfer.
Theorem C71_mint (C : CapConfig) (L : CapLaws C) (S : Snark C) (SL : SnarkLaws S) g bl_fee seed bl_mint minter receiver viewer bl r depth pk vk :
  mint_preprocess g depth = Ok (pk, vk) ->
  (~ reserved (new_domestic seed arbitrary_description) -> bench_mint g bl_fee seed bl_mint minter receiver viewer bl r depth = Ok tt) /\
  (reserved (new_domestic seed arbitrary_description) -> bench_mint g bl_fee seed bl_mint minter receiver viewer bl r depth = Panic).
Proof.
  intros HP. split; [intros HR; exact (bench_mint_passes L SL g bl_fee seed bl_mint minter receiver viewer bl r depth pk vk HR HP)|]. exact (bench_mint_panics g bl_fee seed bl_mint minter receiver viewer bl r depth pk vk HP).
Qed.
Print Assumptions C71_mint.
Theorem C71_freeze (C : CapConfig) (L : CapLaws C) (S : Snark C) (SL : SnarkLaws S) g fk s fee_kp freezer bl r n_in depth b pk vk :
  (2 <= n_in)%nat -> (depth < 256)%nat -> Z.of_nat n_in < 2 ^ 64 -> Z.of_nat n_in <= 3 ^ Z.of_nat depth ->
  freezer_pub_key freezer <> pt_id -> (forall i, user_address (fs_user s i) <> pt_id) ->
  get_builder_freeze s fee_kp (repeat freezer (n_in - 1)) n_in depth = Ok b -> NoDup (fb_nullifiers b) ->
  freeze_preprocess g fk n_in depth = Ok (pk, vk) -> bench_freeze g fk s fee_kp freezer bl r n_in depth = Ok tt.
Proof. exact (bench_freeze_passes L SL g fk s fee_kp freezer bl r n_in depth b pk vk). Qed.
Print Assumptions C71_freeze.
(** any number of copies of the three notes pass together, at the very time the transfer expires *)
Theorem C71_batch (C : CapConfig) (L : CapLaws C) (S : Snark C) (SL : SnarkLaws S) (K : @RoCodec C) (E : MemoSer C)
    g user s r start bl_fee seed bl_mint minter receiver viewer bl_m rm fk fs fee_kp freezer bl_f rf num_notes n_in n_out depth bt bf kt km kf :
  (1 <= num_notes)%nat -> transfer_size_ok s (get_key_pairs user n_in) n_in n_out depth -> (2 <= n_in)%nat -> Z.of_nat n_in < 2 ^ 64 ->
  (freezer_pub_key (be_freezer s) <> pt_id -> viewer_pub_key (be_viewer s) <> pt_id) ->
  ~ reserved (new_domestic seed arbitrary_description) -> freezer_pub_key freezer <> pt_id -> (forall i, user_address (fs_user fs i) <> pt_id) ->
  get_builder_transfer s start (get_key_pairs user n_in) n_in n_out depth = Ok bt -> NoDup (tb_nullifiers bt) -> can_encrypt (br_enc r) (tb_outs bt) ->
  get_builder_freeze fs fee_kp (repeat freezer (n_in - 1)) n_in (Z.to_nat (zv depth)) = Ok bf -> NoDup (fb_nullifiers bf) ->
  transfer_preprocess g n_in n_out (Z.to_nat (zv depth)) = Ok kt -> mint_preprocess g (Z.to_nat (zv depth)) = Ok km -> freeze_preprocess g fk n_in (Z.to_nat (zv depth)) = Ok kf ->
  bench_batch g user s r start bl_fee seed bl_mint minter receiver viewer bl_m rm fk fs fee_kp freezer bl_f rf num_notes n_in n_out depth = Ok tt.
Proof.
  exact (bench_batch_passes L SL g user s r start bl_fee seed bl_mint minter receiver viewer bl_m rm fk fs fee_kp freezer bl_f rf num_notes n_in n_out depth bt bf kt km kf).
Qed.
Print Assumptions C71_batch.

(** the sample of the size (2, 3) at depth 2 meets the hypotheses of the batch, and so of all *)
Definition be_sample : @BenchSample T :=
  @mkBS T (@sz toy_field 7) (@sz toy_field 8) (@sz toy_field 9) (@fz toy_field 4242) bx_blind bx_blind2 bx_users bx_attrs.
Definition be_user (i : nat) : @UserKeyPair T := s_user true (11 + Z.of_nat i).
Lemma be_code (c : @F toy_field) : negb (zeqb c (@native_asset_code toy_field) || zeqb c (@dummy_asset_code toy_field)) = true -> ~ @reserved T c.
Proof.
  intros H [G|G]; apply negb_true_iff in H; apply orb_false_iff in H; destruct H as [H1 H2].
  - assert (zeqb c (@native_asset_code toy_field) = true) by (apply zeqb_spec; exact G). congruence.
  - assert (zeqb c (@dummy_asset_code toy_field) = true) by (apply zeqb_spec; exact G). congruence.
Qed.
Example C71_batch_example : exists bt bf kt km kf,
  @transfer_size_ok T be_sample (get_key_pairs be_user 2) 2 3 (b8 2) /\ @viewer_pub_key T (be_viewer be_sample) <> @pt_id T /\
  ~ @reserved T (@new_domestic T (@fz toy_field 801) arbitrary_description) /\
  @freezer_pub_key T (@sz toy_field 9) <> @pt_id T /\ (forall i, @user_address T (fs_user bx_fsample i) <> @pt_id T) /\
  @get_builder_transfer T be_sample 1 (get_key_pairs be_user 2) 2 3 (b8 2) = Ok bt /\ NoDup (@tb_nullifiers T bt) /\ @can_encrypt T w_codec (br_enc (@mkBRand T TS (h_rand true) (fun _ => tt))) (tb_outs bt) /\
  @get_builder_freeze T bx_fsample (s_user true 16) (repeat (@sz toy_field 9) 1) 2 2 = Ok bf /\ NoDup (@fb_nullifiers T bf) /\
  @transfer_preprocess T TS tt 2 3 2 = Ok kt /\ @mint_preprocess T TS tt 2 = Ok km /\ @freeze_preprocess T TS tt (@sz toy_field 9) 2 2 = Ok kf.
Proof.
  assert (Gt : get (@get_builder_transfer T be_sample 1 (get_key_pairs be_user 2) 2 3 (b8 2)) (fun b => nodup_b (@tb_nullifiers T b)) = true) by (vm_compute; reflexivity).
  assert (Gf : get (@get_builder_freeze T bx_fsample (s_user true 16) (repeat (@sz toy_field 9) 1) 2 2) (fun b => nodup_b (@fb_nullifiers T b)) = true) by (vm_compute; reflexivity).
  assert (Pt : get (@transfer_preprocess T TS tt 2 3 2) (fun _ => true) = true) by (vm_compute; reflexivity).
  assert (Pm : get (@mint_preprocess T TS tt 2) (fun _ => true) = true) by (vm_compute; reflexivity).
  assert (Pf : get (@freeze_preprocess T TS tt (@sz toy_field 9) 2 2) (fun _ => true) = true) by (vm_compute; reflexivity).
  destruct (get_ok _ _ Gt) as (bt & B1 & N1). destruct (get_ok _ _ Gf) as (bf & B2 & N2).
  destruct (get_ok _ _ Pt) as (kt & K1 & _). destruct (get_ok _ _ Pm) as (km & K2 & _). destruct (get_ok _ _ Pf) as (kf & K3 & _).
  exists bt, bf, kt, km, kf.
  split. { split; [lia|]. split; [lia|]. split; [reflexivity|]. split; [vm_compute; split; [discriminate|reflexivity]|]. apply be_code. vm_compute. reflexivity. }
  split; [apply bx_viewer; vm_compute; reflexivity|]. split; [apply be_code; vm_compute; reflexivity|]. split; [apply bx_freezer; vm_compute; reflexivity|].
  split. { intros [|i]; cbn [fs_user bx_fsample]; apply bx_point; vm_compute; reflexivity. }
  split; [exact B1|]. split; [apply nodup_b_ok, N1|]. split; [apply bx_encrypt|]. split; [exact B2|]. split; [apply nodup_b_ok, N2|]. auto.
Qed.

(** ** C72 *)
(** every measurement gets a row with each value under its heading, in the order of the measurements *)
Theorem C72_table ratio env cpus desc estimate ms kb time kbs (lines : list Line) :
  (forall n d, has_dash (ratio n d) = false) -> has_dash (number_threads env cpus) = false ->
  (forall l, In l lines -> has_dash (li_fun l) = false) ->
  (forall l, In l lines -> exists e, estimate desc (line_title ratio env cpus l) = Ok e /\ ms e = Ok (time (line_title ratio env cpus l))) ->
  (forall n, kb (dec n) = Ok (kbs (dec n))) ->
  exists rows, save_result_to_file_simple estimate ms kb (map (line_title ratio env cpus) lines) desc = Ok (headers_simple :: rows) /\
    Forall2 (fun l row => says ratio kbs time desc (number_threads env cpus) (line_title ratio env cpus l) l row) lines rows.
Proof. intros H1 H2. exact (table_simple ratio env cpus desc estimate ms kb time kbs H1 H2 lines). Qed.
Print Assumptions C72_table.
Theorem C72_batch_table env cpus desc estimate ms time (lines : list BatchLine) : has_dash (number_threads env cpus) = false ->
  (forall l, In l lines -> has_dash (bt_fun l) = false) ->
  (forall l, In l lines -> exists e, estimate desc (batch_title env cpus l) = Ok e /\ ms e = Ok (time (batch_title env cpus l))) ->
  exists rows, save_result_to_file_batch estimate ms (map (batch_title env cpus) lines) desc = Ok (headers_batch :: rows) /\
    Forall2 (fun l row => batch_says time desc (number_threads env cpus) (batch_title env cpus l) l row) lines rows.
Proof. intros H. exact (table_batch env cpus desc estimate ms time H lines). Qed.
Print Assumptions C72_batch_table.
(** the number of cores never has a dash: without the variable the table is right *)
Theorem C72_default_threads cpus : has_dash (number_threads None cpus) = false.
Proof. exact (dec_dash cpus). Qed.
Print Assumptions C72_default_threads.
(** different measurements have different names, so that none overwrites the other's result *)
Theorem C72_names ratio env cpus : (forall n d, has_dash (ratio n d) = false) -> has_dash (number_threads env cpus) = false ->
  (forall a b, has_dash (li_fun a) = false -> has_dash (li_fun b) = false -> line_title ratio env cpus a = line_title ratio env cpus b -> a = b) /\
  (forall a b, has_dash (bt_fun a) = false -> has_dash (bt_fun b) = false -> batch_title env cpus a = batch_title env cpus b -> a = b).
Proof. intros H1 H2. split; [exact (titles_differ ratio env cpus H1 H2)|exact (batch_titles_differ env cpus H2)]. Qed.
Print Assumptions C72_names.
(** with a dash in the variable the table is made all the same, with every value one column to the right *)
Theorem C72_table_refuted : exists ratio env cpus l row,
  (forall n d, has_dash (ratio n d) = false) /\ has_dash (li_fun l) = false /\
  save_result_to_file_simple (fun _ _ => Ok "5"%string) (fun s => Ok s) (fun s => Ok s) [line_title ratio env cpus l] "transfer_note" = Ok [headers_simple; row] /\
  In ("FUNCTION"%string, number_threads None 1) (combine headers_simple row) /\ li_fun l <> number_threads None 1 /\
  In ("N_INPUTS"%string, li_fun l) (combine headers_simple row) /\ In ("VERIFYING_KEY_SIZE (KB)"%string, dec (li_pk l)) (combine headers_simple row) /\ li_pk l <> li_vk l.
Proof.
  exists (fun _ _ => "98"%string), (Some "-1"%string), 8%N, (mkLine "Gen" 2 3 26 65536 64321 2000 4000000 3000).
  eexists. split; [reflexivity|]. split; [reflexivity|]. split; [vm_compute; reflexivity|]. split; [right; right; left; reflexivity|]. split; [discriminate|].
  split; [do 3 right; left; reflexivity|]. split; [do 11 right; left; reflexivity|discriminate].
Qed.
Print Assumptions C72_table_refuted.
Example C72_example :
  save_result_to_file_simple (fun _ _ => Ok "5"%string) (fun s => Ok s) (fun s => Ok s)
    (map (line_title (fun _ _ => "98"%string) (Some "4"%string) 8) [mkLine "Gen" 2 3 26 65536 64321 2000 4000000 3000; mkLine "Verify" 2 3 26 65536 64321 2000 4000000 3000]) "transfer_note" =
  Ok [headers_simple;
      ["transfer_note"; "4"; "Gen"; "2"; "3"; "26"; "65536"; "64321"; "98"; "2000"; "4000000"; "3000"; "5"]%string;
      ["transfer_note"; "4"; "Verify"; "2"; "3"; "26"; "65536"; "64321"; "98"; "2000"; "4000000"; "3000"; "5"]%string].
Proof. vm_compute. reflexivity. Qed.
