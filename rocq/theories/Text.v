(** Text forms of keys, records, memos and so on: keys.rs, structs.rs and lib.rs mark 21 types [tagged_blob("TAG")], which
    gives them [Display], [FromStr] and a serde form: the tag, [~], and the encoding of the value in URL-safe base64.

    The formatting itself is the external [jf_utils::tagged_blob] and [tagged_base64]: the bytes that are encoded are the
    value's [CanonicalSerialize] bytes followed by a one-byte checksum of the tag and the value, without padding; reading
    checks the alphabet, the unused bits, the checksum and the tag, and then calls [CanonicalDeserialize].  What the
    repository chooses is the tag of each type and its encoding.  The checksum is a parameter: no property of it is used.
    Every failure of the text layer is the one value [Err SerInvalidData]. *)
From Coq Require Import String Ascii.
From Verif Require Import Base Config Structs Keys Utils Memo Plonk Snark Notes Serde.

(** ** Base64, URL-safe alphabet, no padding *)
(** the character of a 6-bit value: A-Z, a-z, 0-9, -, _ *)
Definition b64_char (v : Z) : Z :=
  if v <? 26 then v + 65 else if v <? 52 then v + 71 else if v <? 62 then v - 4 else if v =? 62 then 45 else 95.
Definition b64_value (c : Z) : option Z :=
  if (65 <=? c) && (c <=? 90) then Some (c - 65)
  else if (97 <=? c) && (c <=? 122) then Some (c - 71)
  else if (48 <=? c) && (c <=? 57) then Some (c + 4)
  else if c =? 45 then Some 62
  else if c =? 95 then Some 63
  else None.

(** three bytes are four characters; one or two bytes at the end are two or three, with unused bits 0 *)
Fixpoint sextets (l : bytes) : list Z :=
  match l with
  | [] => []
  | [a] => [zv a / 4; (zv a mod 4) * 16]
  | [a; b] => [zv a / 4; (zv a mod 4) * 16 + zv b / 16; (zv b mod 16) * 4]
  | a :: b :: c :: r =>
      zv a / 4 :: (zv a mod 4) * 16 + zv b / 16 :: (zv b mod 16) * 4 + zv c / 64 :: zv c mod 64 :: sextets r
  end.
Fixpoint unsextets (l : list Z) : res bytes :=
  match l with
  | [] => Ok []
  | [_] => Err SerInvalidData
  | [w; x] => if x mod 16 =? 0 then Ok [b8 (w * 4 + x / 16)] else Err SerInvalidData
  | [w; x; y] => if y mod 4 =? 0 then Ok [b8 (w * 4 + x / 16); b8 (x mod 16 * 16 + y / 4)] else Err SerInvalidData
  | w :: x :: y :: z :: r =>
      let* t := unsextets r in Ok (b8 (w * 4 + x / 16) :: b8 (x mod 16 * 16 + y / 4) :: b8 (y mod 4 * 64 + z) :: t)
  end.
Definition b64_encode (l : bytes) : bytes := map (fun v => b8 (b64_char v)) (sextets l).
Fixpoint b64_values (t : bytes) : res (list Z) :=
  match t with
  | [] => Ok []
  | c :: r => match b64_value (zv c) with Some v => let* l := b64_values r in Ok (v :: l) | None => Err SerInvalidData end
  end.
Definition b64_decode (t : bytes) : res bytes := let* l := b64_values t in unsextets l.

(** ** Tags *)
(** structs.rs 60, 97, 222, 722, 786, 810, 835, 1059, 1072, 1259, 1594; keys.rs 83, 163, 244, 284, 318, 353, 455, 486, 573;
    lib.rs 374 *)
Inductive Kind :=
| KAssetSeed | KInternalAssetCode | KAssetCode | KAssetDef | KBlind | KNullifier | KCommitment | KCredential | KIdentity
| KViewMemo | KReceiverMemo | KUserPubKey | KUserKey | KCredPubKey | KCredKey | KViewPubKey | KViewKey | KFreezePubKey
| KFreezeKey | KNullifierKey | KTxVerKey.
Definition tag_of (k : Kind) : string :=
  match k with
  | KAssetSeed => "ASSET_SEED" | KInternalAssetCode => "INTERNAL_ASSET_CODE" | KAssetCode => "ASSET_CODE"
  | KAssetDef => "ASSET_DEF" | KBlind => "BLIND" | KNullifier => "NUL" | KCommitment => "REC" | KCredential => "CRED"
  | KIdentity => "ID" | KViewMemo => "AUDMEMO" | KReceiverMemo => "RECMEMO" | KUserPubKey => "USERPUBKEY"
  | KUserKey => "USERKEY" | KCredPubKey => "CREDPUBKEY" | KCredKey => "CREDKEY" | KViewPubKey => "AUDPUBKEY"
  | KViewKey => "AUDKEY" | KFreezePubKey => "FREEZEPUBKEY" | KFreezeKey => "FREEZEKEY" | KNullifierKey => "NULKEY"
  | KTxVerKey => "TXVERKEY"
  end%string.
Definition chars (s : string) : bytes := map (fun a => b8 (Z.of_nat (nat_of_ascii a))) (list_ascii_of_string s).
Definition tilde : byte := b8 126.

(** ** Texts *)
Section Text.
  Context (crc : bytes -> bytes -> byte). (* checksum of a tag and a value *)

  (** [Display]: the text of the bytes [v] under the tag of [k] *)
  Definition text_of (k : Kind) (v : bytes) : bytes := chars (tag_of k) ++ tilde :: b64_encode (v ++ [crc (chars (tag_of k)) v]).

  (** the text up to the first [~], and what follows it *)
  Fixpoint split_tilde (t : bytes) : option (bytes * bytes) :=
    match t with
    | [] => None
    | c :: r => if zv c =? 126 then Some ([], r) else match split_tilde r with Some (a, b) => Some (c :: a, b) | None => None end
    end.
  (** a value and the checksum that follows it *)
  Definition split_last (l : bytes) : option (bytes * byte) :=
    match rev l with [] => None | x :: r => Some (rev r, x) end.
  Definition same_byte (x y : byte) : bool := zv x =? zv y.
  Fixpoint same_bytes (a b : bytes) : bool :=
    match a, b with [], [] => true | x :: a', y :: b' => same_byte x y && same_bytes a' b' | _, _ => false end.
  (** tags are made of base64 characters *)
  Definition safe_tag (tag : bytes) : bool := forallb (fun c => match b64_value (zv c) with Some _ => true | None => false end) tag.
  (** the bytes that a text encodes: any tag, then the tag wanted *)
  Definition text_bytes (k : Kind) (t : bytes) : res bytes :=
    match split_tilde t with
    | None => Err SerInvalidData
    | Some (tag, body) =>
        if safe_tag tag then
          let* l := b64_decode body in
          match split_last l with
          | None => Err SerInvalidData
          | Some (v, x) =>
              if same_byte x (crc tag v) then if same_bytes tag (chars (tag_of k)) then Ok v else Err SerInvalidData
              else Err SerInvalidData
          end
        else Err SerInvalidData
    end.

  (** [to_string] and [from_str] of a type of kind [k] whose encoding is [c]; bytes left over after the value are ignored *)
  Definition show {A} (k : Kind) (c : Codec A) (x : A) : bytes := text_of k (enc c x).
  Definition parse {A} (k : Kind) (c : Codec A) (t : bytes) : res A :=
    let* v := text_bytes k t in let* (x, _) := dec c v in Ok x.
End Text.

Section KeyPairs.
  Context {C : CapConfig} {S : Snark C} {Z0 : Ser C S}.
  (** keys.rs 486-497: a freezer's key pair as it is stored, both halves; derived serialization, no check when read *)
  Definition c_freezer_pair : Codec (Fj * point) := c_pair c_fj c_point.
  (** keys.rs 500-510, 513-515 *)
  Definition freezer_pair (k : FreezerKeyPair) : Fj * point := (k, freezer_pub_key k).
End KeyPairs.
