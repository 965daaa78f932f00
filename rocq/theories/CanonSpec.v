(** One encoding per value: the vocabulary of C75. *)
From Verif Require Import Base Config Structs Keys Utils Memo Plonk Snark Notes Serde.

(** the only bytes that are read as [x] are its encoding *)
Definition one_encoding_of {A} (c : Codec A) (x : A) : Prop := forall s r, dec c s = Ok (x, r) -> s = enc c x ++ r.
Definition one_encoding {A} (c : Codec A) : Prop := forall x, one_encoding_of c x.
(** reading returns, whatever the bytes are *)
Definition never_panics {A} (c : Codec A) : Prop := forall s, dec c s <> Panic.

(** The encodings of points, keys, proofs and verifying keys are defined outside the repository.  [SerReturns]: reading
    them returns.  Whether a value has one encoding is asked value by value below: the identity of the curve, for
    example, may have more than one. *)
Record SerReturns {C : CapConfig} {S : Snark C} (Z : Ser C S) : Prop := {
  point_returns : never_panics (@c_point C S Z); enckey_returns : never_panics (@c_enckey C S Z);
  proof_returns : never_panics (@c_proof C S Z); vkey_returns : never_panics (@c_vkey C S Z) }.
Arguments SerReturns {C S} Z.

Section CanonSpec.
  Context {C : CapConfig} {S : Snark C} {Z0 : Ser C S}.

  (** the curve points in a value *)
  Definition policy_points (p : AssetPolicy) : list point := [viewer_pk p; cred_pk p; freezer_pk p].
  Definition record_points (r : RecordOpening) : list point := policy_points (policy (asset_def r)) ++ [address (pub_key r)].
  Definition cred_points (c : ExpirableCredential) : list point := [cr_user_addr c; snd (cr_cred c); cr_creator_pk c].
  Definition tx_points (t : TransactionNote) : list point :=
    match t with
    | TxTransfer n => [vm_ephemeral (tn_memo n); ta_memo_vk (tn_aux n)]
    | TxMint n => policy_points (policy (mn_def n)) ++ [vm_ephemeral (mn_memo n); ma_memo_vk (mn_aux n)]
    | TxFreeze n => [fa_memo_vk (fn_aux n)]
    end.
  Definition tx_vkey (k : TransactionVerifyingKey) : vkey :=
    match k with VkTransfer k => tvk_key k | VkMint k => mvk_key k | VkFreeze k => fvk_key k end.
  (** each of the points has one encoding *)
  Definition plain_points (l : list point) : Prop := forall P, In P l -> one_encoding_of c_point P.
  Definition plain_tx (t : TransactionNote) : Prop := plain_points (tx_points t) /\ one_encoding_of c_proof (tx_proof t).
End CanonSpec.
