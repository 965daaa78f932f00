(** Which asset a transfer moves, stated without the function that computes it. *)
From Verif Require Import Base Config Structs Utils PolicyProofs.

(** the asset that a transfer moves: the one of the first input after the fee input that is not a dummy, else the native one *)
Definition moved_asset {C : CapConfig} (ins : list RecordOpening) (ad : AssetDefinition) : Prop :=
  exists r0 rest, ins = r0 :: rest /\ asset_def r0 = asset_def_native /\
    ((exists l1 x l2, rest = l1 ++ x :: l2 /\ (forall y, In y l1 -> asset_def y = asset_def_dummy) /\ asset_def x <> asset_def_dummy /\ ad = asset_def x) \/
     ((forall y, In y rest -> asset_def y = asset_def_dummy) /\ ad = asset_def_native)).
(** utils/mod.rs 36-57 computes it *)
Lemma moved_asset_ok {C : CapConfig} (L : CapLaws C) ins ad : moved_asset ins ad -> get_asset_def_in_transfer_txn ins = Ok ad.
Proof.
  intros (r0 & rest & -> & E0 & H). unfold get_asset_def_in_transfer_txn. rewrite E0.
  assert (N : is_native asset_def_native = true) by (apply (is_native_iff L); reflexivity). rewrite N. cbn [negb].
  destruct H as [(l1 & x & l2 & -> & H1 & Hx & ->)|[H ->]].
  - induction l1 as [|y l1 IH]; cbn [app find].
    + destruct (is_dummy_def (asset_def x)) eqn:D; [apply (is_dummy_iff L) in D; contradiction|]. reflexivity.
    + assert (D : is_dummy_def (asset_def y) = true) by (apply (is_dummy_iff L), H1; left; reflexivity). rewrite D. cbn [negb].
      apply IH. intros z Hz. apply H1. right. exact Hz.
  - induction rest as [|y l IH]; cbn [find]; [reflexivity|].
    assert (D : is_dummy_def (asset_def y) = true) by (apply (is_dummy_iff L), H; left; reflexivity). rewrite D. cbn [negb].
    apply IH. intros z Hz. apply H. right. exact Hz.
Qed.
