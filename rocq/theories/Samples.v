(** Concrete non-trivial values over the toy configuration, used by the non-vacuity examples and by the
    counterexamples of the Props*.v files. *)
From Verif Require Import Base Config Structs Keys Utils Memo Toy.

Section S.
  Context (oc : bool).
  Notation CC := (toy oc).

  Definition s_user (k : Z) : @UserKeyPair CC := @mkUserKP CC (@sz toy_field k) k.
  Definition s_point (k : Z) : @point CC := tpz k.
  Definition s_amount (z : Z) : Amount := w128 z.
  Definition s_map (l : list bool) : RevealMap :=
    match rm_make l with Some m => m | None => rm_default end.

  (** a policy with viewer, issuer and freezer keys, revealing address, amount and attribute 0 above 10 *)
  Definition s_policy : @AssetPolicy CC :=
    @mkPolicy CC (s_point 7) (s_point 8) (s_point 9)
      (s_map [true; true; true; false; true; false; false; false; false; false; false; false]) (s_amount 10).
  Definition s_def : @AssetDefinition CC := @mkDef CC (@fz toy_field 1234) s_policy.
  Definition s_free_def : @AssetDefinition CC := @mkDef CC (@fz toy_field 4321) (@policy_default CC).

  Definition s_ro (a : Z) (d : @AssetDefinition CC) (owner : Z) (f : FreezeFlag) (b : Z) : @RecordOpening CC :=
    @mkRO CC (s_amount a) d (@user_pub_key CC (s_user owner)) f (@fz toy_field b).
  Definition s_native (a owner b : Z) : @RecordOpening CC := s_ro a (@asset_def_native CC) owner Unfrozen b.
  Definition s_dummy (b : Z) : @RecordOpening CC := s_ro 0 (@asset_def_dummy CC) 77 Unfrozen b.

  (** membership witness of a record in a tree of depth 2 *)
  Definition s_path : list (@MerklePathNode CC) :=
    [@mkNode CC PMiddle (@fz toy_field 3) (@fz toy_field 5); @mkNode CC PRight (@fz toy_field 2) (@fz toy_field 9)].
  Definition s_acc (uid : Z) (r : @RecordOpening CC) : @AccMemberWitness CC :=
    @mkAcc CC (w64 uid) s_path
      (@merkle_root_of CC (@f_of_u64 toy_field (w64 uid)) (@derive_record_commitment CC r) s_path).

  Definition s_cred (owner issuer expiry : Z) : @ExpirableCredential CC :=
    let attrs := map (@fz toy_field) [101; 102; 103; 104; 105; 106; 107; 108] in
    let addr := @user_address CC (s_user owner) in
    @mkCred CC addr attrs (w64 expiry) (@sig_sign CC (@sz toy_field issuer) (@cred_msg CC (w64 expiry) addr attrs))
      (@ver_key CC (@sz toy_field issuer)).
End S.
