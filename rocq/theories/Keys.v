(** Model of src/keys.rs (key pairs, nullifiers) and of the key-related part of src/utils/mod.rs. *)
From Verif Require Import Base Config Structs.

Section Keys.
  Context {C : CapConfig}.

  Definition RecordCommitment := F.
  Definition Nullifier := F.
  Definition NullifierKey := F.

  (** keys.rs 171-174.  A key pair is represented by its two secrets; the public halves are derived from them
      (schnorr::KeyPair / aead::KeyPair keep them consistent; a hand-made inconsistent pair is not modelled). *)
  Record UserKeyPair := mkUserKP { addr_sk : Fj; enc_dk : dec_key }.
  (** derive(Default): secret 0 *)
  Definition user_kp_default : UserKeyPair := mkUserKP (sz 0) dec_key_default.

  (** Schnorr key pairs: ver_key = sk * G *)
  Definition ver_key (sk : Fj) : point := pt_mul (zv sk) pt_gen.
  (** keys.rs 197-199 *)
  Definition user_address (kp : UserKeyPair) : point := ver_key (addr_sk kp).
  (** keys.rs 189-194 *)
  Definition user_pub_key (kp : UserKeyPair) : UserPubKey := mkUserPubKey (user_address kp) (enc_of_dec (enc_dk kp)).
  (** keys.rs 222-228 *)
  Definition user_sign (kp : UserKeyPair) (msg : bytes) : Fj * point := sig_sign (addr_sk kp) [hash_to_f msg].
  (** keys.rs 139-160 *)
  Definition user_verify_sig (pk : UserPubKey) (msg : bytes) (s : Fj * point) : res unit :=
    if sig_ok (address pk) [hash_to_f msg] s then Ok tt else Err FailedPrimitives.

  (** keys.rs 558-569 *)
  Definition compute_nullifier_key (pub_alice : point) (sec_bob : Fj) : NullifierKey :=
    let s := pt_xy (pt_mul (zv sec_bob) pub_alice) in rescue3 (fst s) (snd s) f0.
  (** keys.rs 599-604 [NullifierKey::from(&scalar)] = fr_to_fq *)
  Definition nullifier_key_from (s : Fj) : NullifierKey := fr_to_fq s.
  (** keys.rs 589-596 *)
  Definition nk_nullify (nk : NullifierKey) (uid : u64) (com : RecordCommitment) : Nullifier :=
    prf_eval nk [f_of_u64 uid; com].
  (** keys.rs 234-240 *)
  Definition user_derive_nullifier_key (kp : UserKeyPair) (fpk : point) : NullifierKey :=
    if point_eqb fpk pt_id then nullifier_key_from (addr_sk kp) else compute_nullifier_key fpk (addr_sk kp).
  (** keys.rs 213-220 *)
  Definition user_nullify (kp : UserKeyPair) (fpk : point) (uid : u64) (rc : RecordCommitment) : Nullifier :=
    nk_nullify (user_derive_nullifier_key kp fpk) uid rc.

  (** keys.rs 494-497: FreezerKeyPair; [pub_key = sec_key * G] as produced by [generate] and [default] *)
  Definition FreezerKeyPair := Fj.
  Definition freezer_pub_key (k : FreezerKeyPair) : point := pt_mul (zv k) pt_gen.
  Definition freezer_kp_default : FreezerKeyPair := sz 0.
  (** keys.rs 539-541 *)
  Definition freezer_derive_nullifier_key (k : FreezerKeyPair) (addr : point) : NullifierKey :=
    compute_nullifier_key addr k.
  (** keys.rs 521-528 *)
  Definition freezer_nullify (k : FreezerKeyPair) (addr : point) (uid : u64) (rc : RecordCommitment) : Nullifier :=
    nk_nullify (freezer_derive_nullifier_key k addr) uid rc.

  (** keys.rs 355-372: ViewerKeyPair *)
  Definition ViewerKeyPair := Fj.
  Definition viewer_pub_key (k : ViewerKeyPair) : point := pt_mul (zv k) pt_gen.
  (** keys.rs 337-343 *)
  Definition viewer_encrypt (pk : point) (r : Fj) (msg : list F) : point * list F := elgamal_encrypt pk r msg.

  (** structs.rs 968-988 with the sampled blinding factor explicit *)
  Definition ro_new (blind : F) (a : Amount) (d : AssetDefinition) (pk : UserPubKey) (f : FreezeFlag) : RecordOpening :=
    mkRO a d pk f blind.
  (** structs.rs 992-1011 with the sampled key pair and blinding factor explicit *)
  Definition ro_dummy (kp : UserKeyPair) (blind : F) (f : FreezeFlag) : RecordOpening * UserKeyPair :=
    (ro_new blind (w128 0) asset_def_dummy (user_pub_key kp) f, kp).
End Keys.
