(** Vocabulary of the issuer, viewer and freezer properties. *)
From Verif Require Import Base Config Structs Keys Utils Memo Plonk Witness Circuits Snark Notes Serde Ledger Wallet WalletSpec Roles.
From Coq Require Import Permutation.

Section IssuerSpec.
  Context {C : CapConfig} {S : Snark C} {K : @RoCodec C} {E : MemoSer C}.

  (** Histories of an issuer, next to those of the record tree: [iruns g depth i leaves seen shown], with the parameters
      of [runs]. *)
  Inductive iruns (g : srs) (depth : nat) : Issuer -> list F -> list Owned -> list (Nullifier * nat) -> Prop :=
  | ir_new kp i : issuer_new g depth kp = Ok i -> iruns g depth i [] [] []
  | ir_order i w' lv se sh : iruns g depth i lv se sh -> same_records (iu_wallet i) w' -> iruns g depth (iu_set_wallet i w') lv se sh
  (** a record enters the tree that is not given to the issuer *)
  | ir_other i lv se sh rc : iruns g depth i lv se sh -> iruns g depth i (lv ++ [rc]) se sh
  (** a record of the issuer enters the tree and is given to it *)
  | ir_own i lv se sh ro : iruns g depth i lv se sh -> pub_key ro = user_pub_key (w_kp (iu_wallet i)) -> freeze_flag ro = Unfrozen ->
      iruns g depth (iu_set_wallet i (add_record_opening (iu_wallet i) ro (w64 (Z.of_nat (length lv))))) (lv ++ [derive_record_commitment ro])
            (se ++ [(ro, w64 (Z.of_nat (length lv)))]) sh
  (** a new asset *)
  | ir_asset i lv se sh seed description p i' c : iruns g depth i lv se sh ->
      new_asset_definition i seed description p = Ok (i', c) -> iruns g depth i' lv se sh
  (** a mint is made, or fails; the transaction may or may not be accepted later *)
  | ir_mint i lv se sh r fee c amt owner leaves : iruns g depth i lv se sh ->
      iruns g depth (fst (issuer_mint depth i r fee c amt owner leaves)) lv se sh
  (** the records of a transaction enter the tree and the issuer scans it *)
  | ir_scan i lv se sh t memos i' se' : iruns g depth i lv se sh -> issuer_scan_txn i t memos (length lv) = Ok i' ->
      (forall x, In x se' <-> In x se \/ paid (iu_wallet i) t memos (length lv) x) ->
      iruns g depth i' (lv ++ tx_output_commitments t) se'
            (sh ++ map (fun n => (n, (length lv + length (tx_output_commitments t))%nat)) (tx_nullifiers t)).

  (** records of the native code are records of the native asset *)
  Definition natives (se : list Owned) : Prop :=
    forall x, In x se -> code (asset_def (fst x)) = native_asset_code -> asset_def (fst x) = asset_def_native.
  (** the issuer has scanned all transactions of the ledger and no others *)
  Definition issuer_in_step (g : srs) (depth : nat) (i : Issuer) (l : Ledger) (se : list Owned) (sh : list (Nullifier * nat)) : Prop :=
    iruns g depth i (lg_leaves l) se sh /\ (forall n, In n (lg_nullifiers l) <-> exists k, In (n, k) sh) /\ natives se.
  (** the record that a mint makes *)
  Definition minted_record (d : AssetDefinition) (r : MintUserRand) (amt : Amount) (owner : UserPubKey) : RecordOpening :=
    mkRO amt d owner Unfrozen (mu_blind r).
End IssuerSpec.
