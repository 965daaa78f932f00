(** Proofs about receiver memos and viewing memos (properties C16, C31-C33). *)
From Coq Require Import ZifyBool ZifyNat.
From Verif Require Import Base Config Structs Keys Utils Memo CodecProofs PolicyProofs.

Section M.
  Context {C : CapConfig}.

  (** ** Specification: what the viewer is entitled to see of one record *)
  Definition if_revealed {A} (b : bool) (x : A) : option A := if b then Some x else None.
  (** entry for a record under the policy of [ad]; flag 0 (= 1) is the address, 2 the amount, 3 the blind *)
  Definition entry (ad : AssetDefinition) (r : RecordOpening) (attrs : list (option F)) : ViewableData :=
    let bit := rm_bit (reveal_map (policy ad)) in
    mkVD (code ad) (if_revealed (bit 0%nat) (address (pub_key r))) (if_revealed (bit 2%nat) (amount r))
         (if_revealed (bit 3%nat) (blind r)) attrs.
  (** attribute i is shown exactly when flag 4 + i is set *)
  Definition shown_attrs (ad : AssetDefinition) (attrs : list F) : list (option F) :=
    map (fun ia => if_revealed (rm_bit (reveal_map (policy ad)) (4 + fst ia)) (snd ia)) (combine (seq 0 (length attrs)) attrs).
  Definition hidden_attrs : list (option F) := repeat None 8.

  Context (L : CapLaws C).

  Lemma rm_12 (m : RevealMap) : exists b0 b1 b2 b3 b4 b5 b6 b7 b8 b9 b10 b11,
    rm m = [b0; b1; b2; b3; b4; b5; b6; b7; b8; b9; b10; b11].
  Proof.
    pose proof (rm_length m) as H. destruct m as [l Hl]; cbn [rm] in *.
    do 12 (destruct l as [|? l]; [discriminate H|]). destruct l; [|discriminate H].
    repeat eexists.
  Qed.

  Lemma attrs_8 (l : list F) : length l = 8%nat -> exists a0 a1 a2 a3 a4 a5 a6 a7, l = [a0; a1; a2; a3; a4; a5; a6; a7].
  Proof. intros H. do 8 (destruct l as [|? l]; [discriminate H|]). destruct l; [|discriminate H]. repeat eexists. Qed.

  Definition sel (b : bool) (x : F) : F := if b then x else f0.

  Definition in_vals (ad : AssetDefinition) (r : RecordOpening) (attrs : list F) : list F :=
    let bit := rm_bit (reveal_map (policy ad)) in
    let rest := [sel (bit 2%nat) (f_of_u128 (amount r)); sel (bit 3%nat) (blind r)] ++
      map (fun ia => sel (bit (4 + fst ia)%nat) (snd ia)) (combine (seq 0 (length attrs)) attrs) in
    if is_dummy_def (asset_def r) then f0 :: f1 :: rest
    else sel (bit 0%nat) (addr_x (address (pub_key r))) :: sel (bit 1%nat) (addr_y (address (pub_key r))) :: rest.

  Lemma memo_input_vals_eq ad r c : length (cr_attrs c) = 8%nat ->
    memo_input_vals (reveal_map (policy ad)) r c = Ok (in_vals ad r (cr_attrs c)).
  Proof.
    intros H. unfold memo_input_vals. rewrite H. cbn [negb Nat.eqb ATTRS_LEN].
    unfold in_vals, rm_hadamard_product, rm_bit, ro_is_dummy, addr_x, addr_y.
    rewrite (pt_xy_id L). cbn [fst snd].
    destruct (rm_12 (reveal_map (policy ad))) as (? & ? & ? & ? & ? & ? & ? & ? & ? & ? & ? & ? & ->).
    destruct (attrs_8 _ H) as (? & ? & ? & ? & ? & ? & ? & ? & ->). cbn [app length Nat.leb VIEWABLE_DATA_LEN bind].
    destruct (is_dummy_def (asset_def r)); reflexivity.
  Qed.
  Lemma memo_input_vals_ok m r c v : memo_input_vals m r c = Ok v -> length (cr_attrs c) = 8%nat.
  Proof. unfold memo_input_vals, ATTRS_LEN. destruct (Nat.eqb_spec (length (cr_attrs c)) 8); [auto|discriminate]. Qed.

  Definition out_vals (r : RecordOpening) : list F :=
    let bit := rm_bit (reveal_map (policy (asset_def r))) in
    [sel (bit 0%nat) (addr_x (address (pub_key r))); sel (bit 1%nat) (addr_y (address (pub_key r)));
     sel (bit 2%nat) (f_of_u128 (amount r)); sel (bit 3%nat) (blind r)].
  Lemma memo_output_vals_eq r : memo_output_vals r = Ok (out_vals r).
  Proof.
    unfold memo_output_vals, out_vals, rm_hadamard_product, rm_bit.
    destruct (rm_12 (reveal_map (policy (asset_def r)))) as (? & ? & ? & ? & ? & ? & ? & ? & ? & ? & ? & ? & ->). reflexivity.
  Qed.

  Lemma in_vals_length ad r attrs : length attrs = 8%nat -> length (in_vals ad r attrs) = 12%nat.
  Proof.
    intros H. unfold in_vals. destruct (is_dummy_def _); cbn [length app];
      rewrite map_length, combine_length, seq_length, H; reflexivity.
  Qed.

  (** ** Decoding one entry *)
  Lemma fetch_address_sel ad P :
    rm_bit (reveal_map (policy ad)) 0 = rm_bit (reveal_map (policy ad)) 1 ->
    fetch_address (sel (rm_bit (reveal_map (policy ad)) 0) (addr_x P)) (sel (rm_bit (reveal_map (policy ad)) 1) (addr_y P)) ad
    = Ok (if_revealed (rm_bit (reveal_map (policy ad)) 0) P).
  Proof.
    intros E. unfold fetch_address, rm_is_user_address_revealed. rewrite <- E.
    destruct (rm_bit (reveal_map (policy ad)) 0); cbn [sel if_revealed].
    - unfold addr_x, addr_y. rewrite <- surjective_pairing, (pt_of_xy_xy L). reflexivity.
    - rewrite (pt_of_xy_00 L). reflexivity.
  Qed.
  Lemma fetch_address_dummy ad : fetch_address f0 f1 ad = Ok (Some pt_id).
  Proof.
    unfold fetch_address. rewrite <- (pt_xy_id L), (pt_of_xy_xy L), (point_eqb_refl L), orb_true_r. reflexivity.
  Qed.
  Lemma fetch_blind_sel ad v : fetch_blind_factor (sel (rm_bit (reveal_map (policy ad)) 3) v) ad = if_revealed (rm_bit (reveal_map (policy ad)) 3) v.
  Proof. unfold fetch_blind_factor, rm_is_blinding_factor_revealed. destruct (rm_bit _ 3); reflexivity. Qed.
  Lemma vd_amount_sel ad (a : Amount) :
    vd_amount_of ad (sel (rm_bit (reveal_map (policy ad)) 2) (f_of_u128 a)) = Ok (if_revealed (rm_bit (reveal_map (policy ad)) 2) a).
  Proof.
    unfold vd_amount_of, rm_is_amount_revealed. destruct (rm_bit _ 2); cbn [sel if_revealed]; [|reflexivity].
    rewrite zv_f_of_u128. pose proof (amount_range a) as Ha. destruct (Z.ltb_spec (2 ^ 128 - 1) (zv a)); [lia|].
    do 2 f_equal. unfold f_to_bytes_le. rewrite zv_f_of_u128, from_le_firstn, from_le_le_bytes.
    rewrite (Z.mod_small (zv a)). 2:{ split; [apply Ha|]. apply Z.lt_trans with (2 ^ 128); [apply Ha|reflexivity]. }
    apply zmod_ext. rewrite zv_w128. change (256 ^ Z.of_nat 16) with (2 ^ 128). rewrite Z.mod_mod by lia. apply Z.mod_small; lia.
  Qed.

  Lemma attrs_decode ad (attrs : list F) k : (k + length attrs <= 8)%nat ->
    mapM (fun ia => let* rev := rm_is_ith_attribute_revealed (reveal_map (policy ad)) (fst ia) in
                    Ok (if rev : bool then Some (snd ia) else None))
         (combine (seq k (length attrs)) (map (fun ia => sel (rm_bit (reveal_map (policy ad)) (4 + fst ia)) (snd ia)) (combine (seq k (length attrs)) attrs)))
    = Ok (map (fun ia => if_revealed (rm_bit (reveal_map (policy ad)) (4 + fst ia)) (snd ia)) (combine (seq k (length attrs)) attrs)).
  Proof.
    revert k; induction attrs as [|a attrs IH]; intros k Hk; cbn [length seq combine map mapM]; [reflexivity|].
    cbn [length] in Hk. cbn [fst snd]. unfold rm_is_ith_attribute_revealed at 1.
    destruct (Nat.leb_spec ATTRS_LEN k) as [H|H]; [unfold ATTRS_LEN in H; lia|]. cbn [bind].
    rewrite IH by lia. cbn [bind]. unfold ASSET_TRACING_MAP_LEN. destruct (rm_bit _ (4 + k)); reflexivity.
  Qed.

  Lemma combine_map_snd_seq (f : nat * F -> F) (l : list F) k : length (map f (combine (seq k (length l)) l)) = length l.
  Proof. rewrite map_length, combine_length, seq_length. lia. Qed.

  (** dummy inputs decode to an entry with the neutral address *)
  Definition in_entry (ad : AssetDefinition) (r : RecordOpening) (attrs : list F) : ViewableData :=
    if is_dummy_def (asset_def r)
    then mkVD (code ad) (Some pt_id) (vd_amount (entry ad r [])) (vd_blind (entry ad r [])) (shown_attrs ad attrs)
    else entry ad r (shown_attrs ad attrs).

  Lemma decode_in ad r attrs : rm_bit (reveal_map (policy ad)) 0 = rm_bit (reveal_map (policy ad)) 1 -> length attrs = 8%nat ->
    vd_from_xfr_data_and_asset ad (in_vals ad r attrs) VIn = Ok (in_entry ad r attrs).
  Proof.
    intros E Hl. unfold vd_from_xfr_data_and_asset. rewrite in_vals_length by exact Hl. cbn [Nat.eqb VIEWABLE_DATA_LEN negb].
    unfold in_vals, in_entry, entry. destruct (is_dummy_def (asset_def r)).
    - cbn [app]. rewrite fetch_address_dummy. cbn [bind]. rewrite vd_amount_sel. cbn [bind].
      rewrite combine_map_snd_seq, attrs_decode by lia. cbn [bind]. rewrite fetch_blind_sel. reflexivity.
    - cbn [app]. rewrite fetch_address_sel by exact E. cbn [bind]. rewrite vd_amount_sel. cbn [bind].
      rewrite combine_map_snd_seq, attrs_decode by lia. cbn [bind]. rewrite fetch_blind_sel. reflexivity.
  Qed.
  Lemma decode_out r : let ad := asset_def r in
    rm_bit (reveal_map (policy ad)) 0 = rm_bit (reveal_map (policy ad)) 1 ->
    vd_from_xfr_data_and_asset ad (out_vals r) VOut = Ok (entry ad r hidden_attrs).
  Proof.
    intros ad E. unfold vd_from_xfr_data_and_asset, out_vals. cbn [length Nat.eqb negb]. fold ad.
    rewrite fetch_address_sel by exact E. cbn [bind]. rewrite vd_amount_sel. cbn [bind]. rewrite fetch_blind_sel. reflexivity.
  Qed.

  (** ** Chunks *)
  Lemma process_chunks_app {A} (f : list F -> res A) len (chunks : list (list F)) (ys : list A) rest fuel :
    Forall2 (fun ch y => f ch = Ok y) chunks ys -> Forall (fun ch => length ch = len) chunks -> (0 < len)%nat ->
    (length (concat chunks ++ rest) < fuel)%nat ->
    process_chunks fuel (Z.of_nat (length chunks)) len f (concat chunks ++ rest) = Ok (ys, rest).
  Proof.
    intros H2 HF Hl. revert fuel. induction H2 as [|ch y chunks ys Hc H2 IH]; intros fuel Hf.
    - cbn [length concat app]. destruct fuel; reflexivity.
    - inversion HF as [|? ? Hch HF']; subst. cbn [concat] in *. rewrite <- app_assoc in *. rewrite app_length in Hf.
      destruct fuel as [|fuel]; [lia|]. cbn [process_chunks].
      destruct (Z.leb_spec (Z.of_nat (length (ch :: chunks))) 0); [cbn [length] in *; lia|].
      rewrite app_length. destruct (Nat.ltb_spec (length ch + length (concat chunks ++ rest)) (length ch)); [lia|].
      rewrite firstn_app, firstn_all, Nat.sub_diag. cbn [firstn]. rewrite app_nil_r, Hc. cbn [bind].
      rewrite skipn_app, skipn_all, Nat.sub_diag. cbn [skipn app].
      replace (Z.of_nat (length (ch :: chunks)) - 1) with (Z.of_nat (length chunks)) by (cbn [length]; lia).
      rewrite IH; [reflexivity|exact HF'|lia].
  Qed.

  Lemma concat_len {A} (l : list (list A)) n : Forall (fun ch => length ch = n) l -> length (concat l) = (length l * n)%nat.
  Proof. induction 1 as [|x l H HF IH]; [reflexivity|]. cbn [concat length]. rewrite app_length, H, IH. lia. Qed.

  Lemma Forall2_map_eq {A B} (P : A -> B -> Prop) (g : A -> B) l : (forall x, In x l -> P x (g x)) -> Forall2 P l (map g l).
  Proof. induction l as [|x l IH]; intros H; constructor; [apply H; left; reflexivity|]. apply IH. intros; apply H; right; auto. Qed.

  Lemma mapM_map {A B} (f : A -> res B) (g : A -> B) l : (forall x, In x l -> f x = Ok (g x)) -> mapM f l = Ok (map g l).
  Proof. intros H. apply mapM_ok, Forall2_map_eq, H. Qed.

  Lemma combine_skipn1 {A B} (l : list A) (m : list B) : skipn 1 (combine l m) = combine (skipn 1 l) (skipn 1 m).
  Proof. destruct l, m; try reflexivity. cbn. destruct l; reflexivity. Qed.

  (** The transferred definition and the decision to reveal. *)
  Definition above_threshold (ad : AssetDefinition) (ins : list RecordOpening) : Prop :=
    zv (reveal_threshold (policy ad)) <
    zsum (map (fun r => zv (amount r)) (filter (fun r => negb (is_dummy_def (asset_def r))) (skipn 1 ins))).

  (** Exact shape of the memo *)
  Lemma memo_transfer_exact ins outs creds r memo ad :
    get_asset_def_in_transfer_txn ins = Ok ad -> length creds = length ins ->
    memo_for_transfer_note ins outs creds r = Ok memo ->
    (viewer_pk (policy ad) <> pt_id /\ above_threshold ad ins /\
     Forall (fun c => length (cr_attrs c) = 8%nat) (skipn 1 creds) /\
     memo = memo_of (viewer_encrypt (viewer_pk (policy ad)) r
       (code ad :: concat (map (fun rc => in_vals ad (fst rc) (cr_attrs (snd rc))) (combine (skipn 1 ins) (skipn 1 creds)))
                ++ concat (map out_vals (skipn 1 outs))))) \/
    ((viewer_pk (policy ad) = pt_id \/ ~ above_threshold ad ins) /\
     (0 < length outs)%nat /\
     memo = memo_of (viewer_encrypt (rand_viewer_pk r) r
       (repeat f0 (1 + (length ins - 1) * 12 + (length outs - 1) * 4)))).
  Proof.
    intros Had Hlen H. unfold memo_for_transfer_note in H. rewrite Had in H. cbn [bind] in H.
    destruct (is_dummy_def ad); [discriminate H|].
    apply bind_ok in H. destruct H as (amt & Hamt & H). unfold memo_transfer_amount in Hamt. rewrite ok_or_ok, safe_sum_some in Hamt.
    rewrite map_map in Hamt.
    assert (Hab : amount_ltb (reveal_threshold (policy ad)) amt = true <-> above_threshold ad ins).
    { unfold above_threshold, amount_ltb. rewrite Hamt, Z.ltb_lt. reflexivity. }
    destruct (point_eqb (viewer_pk (policy ad)) pt_id) eqn:Ev; cbn [negb andb] in H.
    - right. apply (point_eqb_spec L) in Ev. split; [left; exact Ev|].
      unfold memo_dummy_for_transfer_note, usize_sub in H.
      destruct (Nat.leb_spec 1 (length ins)); [|discriminate H]. destruct (Nat.leb_spec 1 (length outs)); [|discriminate H].
      cbn [bind] in H. injection H as <-. split; [lia|]. do 3 f_equal. unfold VIEWABLE_DATA_LEN. lia.
    - apply (point_eqb_neq L) in Ev.
      destruct (amount_ltb (reveal_threshold (policy ad)) amt) eqn:Et.
      + left. split; [exact Ev|]. split; [apply Hab; reflexivity|].
        apply bind_ok in H. destruct H as (vi & Hi & H). apply bind_ok in H. destruct H as (vo & Ho & H). injection H as <-.
        rewrite combine_skipn1 in Hi.
        assert (Hattrs : Forall (fun rc => length (cr_attrs (snd rc)) = 8%nat) (combine (skipn 1 ins) (skipn 1 creds))).
        { apply mapM_ok in Hi. clear -Hi. induction Hi as [|x y l l' Hx HF IH]; constructor; auto. eapply memo_input_vals_ok, Hx. }
        split.
        * assert (Hl : length (skipn 1 ins) = length (skipn 1 creds)) by (rewrite !skipn_length; lia).
          clear -Hattrs Hl. revert Hl Hattrs. generalize (skipn 1 ins) as a, (skipn 1 creds) as b.
          intros a b; revert a; induction b as [|c b IH]; intros [|x a] Hl HF; try discriminate; constructor.
          -- inversion HF; subst; assumption.
          -- apply (IH a); [cbn in Hl; lia|]. inversion HF; subst; assumption.
        * rewrite (mapM_map _ (fun rc => in_vals ad (fst rc) (cr_attrs (snd rc)))) in Hi.
          2:{ intros x Hx. apply memo_input_vals_eq. rewrite Forall_forall in Hattrs. apply Hattrs, Hx. }
          rewrite (mapM_map _ out_vals) in Ho by (intros; apply memo_output_vals_eq).
          injection Hi as <-. injection Ho as <-. reflexivity.
      + right. split; [right; rewrite <- Hab; congruence|].
        unfold memo_dummy_for_transfer_note, usize_sub in H.
        destruct (Nat.leb_spec 1 (length ins)); [|discriminate H]. destruct (Nat.leb_spec 1 (length outs)); [|discriminate H].
        cbn [bind] in H. injection H as <-. split; [lia|]. do 3 f_equal. unfold VIEWABLE_DATA_LEN. lia.
  Qed.

  (** *** C33 *)
  Lemma memo_length ins outs creds r memo :
    length creds = length ins -> memo_for_transfer_note ins outs creds r = Ok memo ->
    length (vm_data memo) = (1 + (length ins - 1) * 12 + (length outs - 1) * 4)%nat.
  Proof.
    intros Hl H. assert (exists ad, get_asset_def_in_transfer_txn ins = Ok ad) as (ad & Had).
    { unfold memo_for_transfer_note in H. apply bind_ok in H. destruct H as (ad & ? & _). eauto. }
    destruct (memo_transfer_exact _ _ _ _ _ _ Had Hl H) as [(_ & _ & Hat & ->)|(_ & _ & ->)].
    - unfold memo_of, viewer_encrypt, elgamal_encrypt. cbn [vm_data snd]. rewrite mask_length. cbn [length].
      rewrite app_length, (concat_len _ 12).
      2:{ apply Forall_forall. intros ch Hc. apply in_map_iff in Hc. destruct Hc as ([x c] & <- & Hx). apply in_vals_length.
          apply in_combine_r in Hx. rewrite Forall_forall in Hat. apply Hat, Hx. }
      rewrite (concat_len _ 4).
      2:{ apply Forall_forall. intros ch Hc. apply in_map_iff in Hc. destruct Hc as (x & <- & _). reflexivity. }
      rewrite !map_length, combine_length, !skipn_length. lia.
    - unfold memo_of, viewer_encrypt, elgamal_encrypt. cbn [vm_data snd]. rewrite mask_length, repeat_length. lia.
  Qed.

  (** *** C31 *)
  Lemma viewer_sees_policy ins outs creds r memo ad kp :
    get_asset_def_in_transfer_txn ins = Ok ad ->
    length creds = length ins ->
    memo_for_transfer_note ins outs creds r = Ok memo ->
    viewer_pub_key kp = viewer_pk (policy ad) -> viewer_pk (policy ad) <> pt_id -> above_threshold ad ins ->
    (forall o, In o (skipn 1 outs) -> asset_def o = ad) ->
    rm_bit (reveal_map (policy ad)) 0 = rm_bit (reveal_map (policy ad)) 1 ->
    (forall x, In x (skipn 1 ins) -> asset_def x <> asset_def_dummy -> address (pub_key x) <> pt_id) ->
    (0 < length outs)%nat ->
    Z.of_nat (1 + 12 * length ins + 4 * length outs) < 2 ^ 64 ->
    open_transfer_viewing_memo kp ad (length ins) (length outs) memo =
    Ok (map (fun rc => entry ad (fst rc) (shown_attrs ad (cr_attrs (snd rc))))
            (filter (fun rc => negb (is_dummy_def (asset_def (fst rc)))) (combine (skipn 1 ins) (skipn 1 creds))),
        map (fun o => entry ad o hidden_attrs) (skipn 1 outs)).
  Proof.
    intros Had Hlen H Hkp Hv Hab Hout Hbit Haddr Hno Hsz.
    destruct (memo_transfer_exact _ _ _ _ _ _ Had Hlen H) as [(_ & _ & Hat & ->)|([Hc|Hc] & _)]; [|contradiction|contradiction].
    unfold open_transfer_viewing_memo. rewrite Hkp, (point_eqb_refl L). cbn [negb].
    assert (Hni : (0 < length ins)%nat) by (destruct ins; [discriminate Had|cbn; lia]).
    assert (Hp : forall n, (0 < n)%nat -> usize_pred n = Ok (Z.of_nat (n - 1))).
    { intros [|n] ?; [lia|]. cbn [usize_pred Nat.sub]. rewrite Nat.sub_0_r. reflexivity. }
    rewrite !Hp by assumption. cbn [bind].
    unfold memo_of, viewer_encrypt. cbn [vm_ephemeral vm_data]. rewrite <- surjective_pairing.
    rewrite <- Hkp. unfold viewer_pub_key. rewrite (elgamal_correct L).
    set (ich := map (fun rc => in_vals ad (fst rc) (cr_attrs (snd rc))) (combine (skipn 1 ins) (skipn 1 creds))).
    set (och := map out_vals (skipn 1 outs)).
    assert (Hi12 : Forall (fun ch => length ch = 12%nat) ich).
    { apply Forall_forall. intros ch Hc. apply in_map_iff in Hc. destruct Hc as ([x c] & <- & Hx). apply in_vals_length.
      apply in_combine_r in Hx. rewrite Forall_forall in Hat. apply Hat, Hx. }
    assert (Ho4 : Forall (fun ch => length ch = 4%nat) och).
    { apply Forall_forall. intros ch Hc. apply in_map_iff in Hc. destruct Hc as (x & <- & _). reflexivity. }
    assert (Hli : length ich = (length ins - 1)%nat) by (subst ich; rewrite map_length, combine_length, !skipn_length; lia).
    assert (Hlo : length och = (length outs - 1)%nat) by (subst och; rewrite map_length, skipn_length; lia).
    assert (Hpl : length (code ad :: concat ich ++ concat och) = (1 + (length ins - 1) * 12 + (length outs - 1) * 4)%nat).
    { cbn [length]. rewrite app_length, (concat_len _ 12 Hi12), (concat_len _ 4 Ho4), Hli, Hlo. lia. }
    unfold AssetCode in *. rewrite Hpl. unfold VIEWABLE_DATA_LEN.
    rewrite Z.mod_small by lia.
    destruct (Z.eqb_spec (Z.of_nat (1 + (length ins - 1) * 12 + (length outs - 1) * 4))
                         (1 + Z.of_nat (length ins - 1) * Z.of_nat 12 + Z.of_nat (length outs - 1) * 4)); [|lia]. cbn [negb].
    rewrite zeqb_refl. cbn [negb]. rewrite <- Hli, <- Hlo.
    set (ies := map (fun rc => in_entry ad (fst rc) (cr_attrs (snd rc))) (combine (skipn 1 ins) (skipn 1 creds))).
    set (oes := map (fun o => entry ad o hidden_attrs) (skipn 1 outs)).
    rewrite (process_chunks_app _ 12 ich ies (concat och)); [|subst ich ies|exact Hi12|lia|lia].
    2:{ assert (HF : Forall (fun rc => length (cr_attrs (snd rc)) = 8%nat) (combine (skipn 1 ins) (skipn 1 creds))).
        { apply Forall_forall. intros [x c] Hx. apply in_combine_r in Hx. rewrite Forall_forall in Hat. apply Hat, Hx. }
        clear -HF Hbit L. induction HF as [|rc l Hx HF IH]; cbn [map]; constructor; auto. apply decode_in; assumption. }
    cbn [bind].
    rewrite <- (app_nil_r (concat och)).
    rewrite (process_chunks_app _ 4 och oes []); [|subst och oes|exact Ho4|lia|lia].
    2:{ revert Hout. generalize (skipn 1 outs) as l. intros l Hl. induction l as [|o l IH]; cbn [map]; constructor.
        - pose proof (Hl o (or_introl eq_refl)) as E. subst ad. apply decode_out. exact Hbit.
        - apply IH. intros; apply Hl; right; auto. }
    cbn [bind]. f_equal. f_equal. subst ies. clear -Haddr L.
    assert (HF : Forall (fun rc => asset_def (fst rc) <> asset_def_dummy -> address (pub_key (fst rc)) <> pt_id)
                        (combine (skipn 1 ins) (skipn 1 creds))).
    { apply Forall_forall. intros [x c] Hx. apply in_combine_l in Hx. apply Haddr, Hx. }
    induction HF as [|rc l Hx HF IH]; cbn [map filter]; [reflexivity|].
    unfold in_entry at 1 2. destruct (is_dummy_def (asset_def (fst rc))) eqn:Ed; cbn [negb].
    - unfold vd_not_dummy at 1. cbn [vd_user_address]. rewrite (point_eqb_refl L). cbn [negb]. exact IH.
    - assert (Hnd : address (pub_key (fst rc)) <> pt_id).
      { apply Hx. intros E. apply (is_dummy_iff L) in E. congruence. }
      apply (point_eqb_neq L) in Hnd.
      unfold vd_not_dummy at 1. unfold entry at 1. cbn [vd_user_address].
      destruct (rm_bit _ 0); cbn [if_revealed]; rewrite ?Hnd; cbn [negb map]; f_equal; exact IH.
  Qed.

  (** Without the viewer key the memo does not open at all; opening checks the key first. *)
  Lemma open_wrong_key kp ad n m memo :
    viewer_pub_key kp <> viewer_pk (policy ad) -> open_transfer_viewing_memo kp ad n m memo = Err InvalidParameter.
  Proof. intros H. unfold open_transfer_viewing_memo. apply (point_eqb_neq L) in H. rewrite H. reflexivity. Qed.

  (** *** C32 *)
  Lemma mint_memo_open ro r kp :
    viewer_pub_key kp = viewer_pk (policy (asset_def ro)) -> viewer_pk (policy (asset_def ro)) <> pt_id ->
    address (pub_key ro) <> pt_id ->
    open_mint_viewing_memo kp (asset_def ro) (amount ro) (memo_for_mint_note ro r) = Ok (entry (asset_def ro) ro []).
  Proof.
    intros Hk Hv Ha. unfold open_mint_viewing_memo, memo_for_mint_note. pose proof Hv as Hv'. apply (point_eqb_neq L) in Hv. rewrite Hv.
    unfold memo_of, viewer_encrypt. cbn [vm_ephemeral vm_data]. rewrite <- surjective_pairing. rewrite <- Hk.
    unfold viewer_pub_key. rewrite (elgamal_correct L). cbn [length Nat.eqb negb]. unfold vd_from_mint_note, fetch_address.
    unfold addr_x, addr_y. rewrite <- surjective_pairing, (pt_of_xy_xy L).
    apply (point_eqb_neq L) in Ha. rewrite Ha, orb_false_r.
    unfold entry, fetch_blind_factor, rm_is_user_address_revealed, rm_is_amount_revealed, rm_is_blinding_factor_revealed.
    destruct (rm_bit _ 0); reflexivity.
  Qed.

  (** The plaintext itself does not depend on the reveal map. *)
  Lemma mint_memo_plaintext ro r kp :
    viewer_pub_key kp = viewer_pk (policy (asset_def ro)) -> viewer_pk (policy (asset_def ro)) <> pt_id ->
    elgamal_decrypt kp (vm_ephemeral (memo_for_mint_note ro r), vm_data (memo_for_mint_note ro r)) =
    [fst (pt_xy (address (pub_key ro))); snd (pt_xy (address (pub_key ro))); blind ro].
  Proof.
    intros Hk Hv. unfold memo_for_mint_note. apply (point_eqb_neq L) in Hv. rewrite Hv.
    unfold memo_of, viewer_encrypt. cbn [vm_ephemeral vm_data]. rewrite <- surjective_pairing. rewrite <- Hk. apply (elgamal_correct L).
  Qed.

  (** *** C16 *)
  Lemma receiver_memo_spec (K : RoCodec) (KL : RoCodecLaws K) :
    (forall rnd ro label m kp, receiver_memo_from_ro rnd ro label = Ok m -> pub_key ro = user_pub_key kp ->
       receiver_memo_decrypt m kp (derive_record_commitment ro) label = Ok ro) /\
    (forall m kp rc label ro, receiver_memo_decrypt m kp rc label = Ok ro ->
       pub_key ro = user_pub_key kp /\ derive_record_commitment ro = rc).
  Proof.
    split.
    - intros rnd ro label m kp H Hk. unfold receiver_memo_from_ro in H. rewrite ok_or_ok in H. rewrite Hk in H.
      cbn [user_pub_key uenc_key] in H. apply (aead_correct L) in H.
      unfold receiver_memo_decrypt. rewrite H. cbn [ok_or bind]. rewrite KL. cbn [ok_or bind].
      rewrite (proj2 (user_pub_key_eqb_spec L _ _) Hk). cbn [negb]. rewrite zeqb_refl. reflexivity.
    - intros m kp rc label ro H. unfold receiver_memo_decrypt in H.
      apply bind_ok in H. destruct H as (b & _ & H). apply bind_ok in H. destruct H as (ro' & _ & H).
      destruct (user_pub_key_eqb (pub_key ro') (user_pub_key kp)) eqn:E1; cbn [negb] in H; [|discriminate].
      destruct (zeqb_reflect (derive_record_commitment ro') rc) as [E2|]; cbn [negb] in H; [|discriminate].
      injection H as <-. split; [apply (user_pub_key_eqb_spec L), E1|exact E2].
  Qed.
End M.
