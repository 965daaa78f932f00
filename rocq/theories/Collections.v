(** Equality, hashing and ordering of the values that users keep in collections: the [PartialEq], [Hash] and [Ord]
    implementations of src/keys.rs and src/structs.rs, and the collections that use them.

    The rest of the development takes group elements up to equality.  Here they are the extended projective coordinates
    that [GroupProjective] of ark_ec really stores (models/twisted_edwards_extended.rs), of which every element has many. *)
From Verif Require Import Base Config Structs Keys Utils.

Section Inverse.
  Context {FC : FieldCfg}.
  (** the extended Euclidean algorithm, for [Field::inverse] *)
  Fixpoint eucl (n : nat) (r0 r1 s0 s1 : Z) : Z :=
    match n with
    | O => s0
    | S n => if r1 =? 0 then s0 else eucl n r1 (r0 mod r1) s1 (s0 - r0 / r1 * s1)
    end.
  Definition finv (x : F) : F := fz (eucl 511 modulus (zv x) 0 1).
End Inverse.

Section Projective.
  Context {FC : FieldCfg}.
  (** ark_ec [GroupProjective]: x/z, y/z are the affine coordinates, t/z their product *)
  Record proj := mkProj { px : F; py : F; pt : F; pz : F }.
  (** the invariant of ark_ec: z is not zero (here: is invertible) and t z = x y *)
  Definition on_group (p : proj) : Prop := (exists zi, fmul (pz p) zi = f1) /\ fmul (pt p) (pz p) = fmul (px p) (py p).
  (** ark_ec [is_zero] *)
  Definition proj_is_zero (p : proj) : bool :=
    zeqb (px p) f0 && zeqb (py p) (pz p) && negb (zeqb (py p) f0) && zeqb (pt p) f0.
  (** ark_ec [From<GroupProjective> for GroupAffine] *)
  Definition into_affine (p : proj) : F * F :=
    if proj_is_zero p then (f0, f1)
    else if zeqb (pz p) f1 then (px p, py p)
    else (fmul (px p) (finv (pz p)), fmul (py p) (finv (pz p))).
  (** ark_ec [PartialEq for GroupProjective] *)
  Definition proj_eqb (p q : proj) : bool :=
    if proj_is_zero p then proj_is_zero q
    else if proj_is_zero q then false
    else zeqb (fmul (px p) (pz q)) (fmul (px q) (pz p)) && zeqb (fmul (py p) (pz q)) (fmul (py q) (pz p)).
  Definition affine_eqb (a b : F * F) : bool := zeqb (fst a) (fst b) && zeqb (snd a) (snd b).

  (** an implementation of [PartialEq] and [Hash]: the words that [hash] writes to the hasher *)
  Record HashEq (A : Type) := mkHE { he_eqb : A -> A -> bool; he_hash : A -> list Z }.
  Arguments mkHE {A} _ _.
  Arguments he_eqb {A} _ _ _.
  Arguments he_hash {A} _ _.

  (** [Hash] of a field element writes its limbs; any function of the element will do *)
  Context (hash_f : F -> list Z) (hash_s : Fj -> list Z).
  Definition hash_affine (a : F * F) : list Z := hash_f (fst a) ++ hash_f (snd a).
  (** keys.rs 473-483: FreezerPubKey *)
  Definition he_freezer_pub_key : HashEq proj :=
    mkHE (fun p q => affine_eqb (into_affine p) (into_affine q)) (fun p => hash_affine (into_affine p)).
  (** keys.rs 466-470 *)
  Definition freezer_to_scalars (p : proj) : list F := [fst (into_affine p); snd (into_affine p)].
  (** keys.rs 494-497, 544-555: FreezerKeyPair *)
  Record RawFreezerKeyPair := mkRFK { rfk_sec : Fj; rfk_pub : proj }.
  Definition he_freezer_key_pair : HashEq RawFreezerKeyPair :=
    mkHE (fun a b => zeqb (rfk_sec a) (rfk_sec b) && affine_eqb (into_affine (rfk_pub a)) (into_affine (rfk_pub b)))
         (fun a => hash_s (rfk_sec a) ++ hash_affine (into_affine (rfk_pub a))).

  (** derived implementations: fields in the order of declaration; slices, arrays and vectors are preceded by their length *)
  Definition he_field : HashEq F := mkHE zeqb hash_f.
  Definition he_u128 : HashEq u128 := mkHE zeqb (fun a => [zv a]).
  Definition he_u64 : HashEq u64 := mkHE zeqb (fun a => [zv a]).
  Definition he_bool : HashEq bool := mkHE Bool.eqb (fun b => [if b then 1 else 0]).
  Definition he_pair {A B} (a : HashEq A) (b : HashEq B) : HashEq (A * B) :=
    mkHE (fun x y => he_eqb a (fst x) (fst y) && he_eqb b (snd x) (snd y)) (fun x => he_hash a (fst x) ++ he_hash b (snd x)).
  Fixpoint list_he_eqb {A} (a : HashEq A) (l m : list A) : bool :=
    match l, m with
    | [], [] => true
    | x :: l, y :: m => he_eqb a x y && list_he_eqb a l m
    | _, _ => false
    end.
  Definition he_list {A} (a : HashEq A) : HashEq (list A) :=
    mkHE (list_he_eqb a) (fun l => Z.of_nat (length l) :: flat_map (he_hash a) l).
  Definition he_via {A B} (f : A -> B) (b : HashEq B) : HashEq A := mkHE (fun x y => he_eqb b (f x) (f y)) (fun x => he_hash b (f x)).

  (** the keys of external crates: elgamal::EncKey, schnorr::VerKey, aead::EncKey *)
  Context {EK VK AK : Type} (he_ek : HashEq EK) (he_vk : HashEq VK) (he_ak : HashEq AK).
  (** structs.rs 491-508 *)
  Record RawPolicy := mkRP { rp_viewer : EK; rp_cred : VK; rp_freezer : proj; rp_map : list bool; rp_threshold : u128 }.
  Definition he_policy : HashEq RawPolicy :=
    he_via (fun p => (rp_viewer p, (rp_cred p, (rp_freezer p, (rp_map p, rp_threshold p)))))
      (he_pair he_ek (he_pair he_vk (he_pair he_freezer_pub_key (he_pair (he_list he_bool) he_u128)))).
  (** structs.rs 722-737 *)
  Record RawDef := mkRD { rd_code : F; rd_policy : RawPolicy }.
  Definition he_def : HashEq RawDef := he_via (fun d => (rd_code d, rd_policy d)) (he_pair he_field he_policy).
  (** keys.rs 83-97 *)
  Record RawUserPubKey := mkRU { ru_address : VK; ru_enc : AK }.
  Definition he_user_pub_key : HashEq RawUserPubKey := he_via (fun u => (ru_address u, ru_enc u)) (he_pair he_vk he_ak).
  (** structs.rs 874-880: a fieldless enum writes its discriminant *)
  Definition he_flag : HashEq FreezeFlag := he_via (fun f => match f with Unfrozen => false | Frozen => true end) he_bool.
  (** structs.rs 944-967 *)
  Record RawOpening := mkRR { rr_amount : u128; rr_def : RawDef; rr_key : RawUserPubKey; rr_flag : FreezeFlag; rr_blind : F }.
  Definition he_opening : HashEq RawOpening :=
    he_via (fun r => (rr_amount r, (rr_def r, (rr_key r, (rr_flag r, rr_blind r)))))
      (he_pair he_u128 (he_pair he_def (he_pair he_user_pub_key (he_pair he_flag he_field)))).
End Projective.
Arguments mkHE {A} _ _.
Arguments he_eqb {A} _ _ _.
Arguments he_hash {A} _ _.

(** ** std's HashMap, as used in tests/examples.rs: some number of buckets, a hasher, and comparison within a bucket.
    Growing the table is left out. *)
Section HashMap.
  Context {K V : Type} (he : HashEq K) (hasher : list Z -> nat).
  Definition bucket_of (n : nat) (k : K) : nat := hasher (he_hash he k) mod n.
  (** an existing entry keeps its key and gets the new value *)
  Fixpoint put (k : K) (v : V) (l : list (K * V)) : list (K * V) :=
    match l with
    | [] => [(k, v)]
    | (k', v') :: l => if he_eqb he k' k then (k', v) :: l else (k', v') :: put k v l
    end.
  Fixpoint look (k : K) (l : list (K * V)) : option V :=
    match l with [] => None | (k', v) :: l => if he_eqb he k' k then Some v else look k l end.
  Fixpoint drop (k : K) (l : list (K * V)) : list (K * V) :=
    match l with [] => [] | (k', v) :: l => if he_eqb he k' k then l else (k', v) :: drop k l end.
  Definition table := list (list (K * V)).
  Fixpoint upd {A} (i : nat) (f : A -> A) (l : list A) : list A :=
    match l, i with [], _ => [] | x :: l, O => f x :: l | x :: l, S i => x :: upd i f l end.
  Definition ht_new (n : nat) : table := repeat [] n.
  Definition ht_get (t : table) (k : K) : option V := look k (nth (bucket_of (length t) k) t []).
  Definition ht_insert (t : table) (k : K) (v : V) : table := upd (bucket_of (length t) k) (put k v) t.
  Definition ht_remove (t : table) (k : K) : table := upd (bucket_of (length t) k) (drop k) t.
  Inductive map_op := Insert (k : K) (v : V) | Remove (k : K).
  Definition ht_step (t : table) (o : map_op) : table := match o with Insert k v => ht_insert t k v | Remove k => ht_remove t k end.
  Definition ht_run (n : nat) (ops : list map_op) : table := fold_left ht_step ops (ht_new n).
End HashMap.
Arguments Insert {K V} _ _.
Arguments Remove {K V} _.

(** ** alloc's BTreeMap, as used in src/utils/mod.rs: a search tree that only compares keys.  The shape of the tree (here:
    binary, not balanced) has no observable effect. *)
Section SearchTree.
  Context {FC : FieldCfg}.
  (** derived [Ord] of AssetCode and Nullifier (structs.rs 224-234, 812-821): the order of the field elements, which
      ark_ff compares as integers *)
  Definition f_cmp (a b : F) : comparison := Z.compare (zv a) (zv b).
  Inductive tree (V : Type) := Leaf | Node (l : tree V) (k : F) (v : V) (r : tree V).
  Arguments Leaf {V}.
  Arguments Node {V} _ _ _ _.
  Fixpoint t_get {V} (k : F) (t : tree V) : option V :=
    match t with
    | Leaf => None
    | Node l k' v r => match f_cmp k k' with Eq => Some v | Lt => t_get k l | Gt => t_get k r end
    end.
  (** [insert], and assignment through [get_mut] *)
  Fixpoint t_put {V} (k : F) (v : V) (t : tree V) : tree V :=
    match t with
    | Leaf => Node Leaf k v Leaf
    | Node l k' v' r => match f_cmp k k' with Eq => Node l k' v r | Lt => Node (t_put k v l) k' v' r | Gt => Node l k' v' (t_put k v r) end
    end.
  Fixpoint t_iter {V} (t : tree V) : list (F * V) :=
    match t with Leaf => [] | Node l k v r => t_iter l ++ (k, v) :: t_iter r end.
End SearchTree.
Arguments Leaf {FC V}.
Arguments Node {FC V} _ _ _ _.

Section Checks.
  Context {C : CapConfig}.
  (** utils/mod.rs 300-311: [all] stops at the first [false] *)
  Fixpoint insert_all (seen : tree unit) (l : list Nullifier) : bool :=
    match l with
    | [] => true
    | x :: l => match t_get x seen with Some _ => false | None => insert_all (t_put x tt seen) l end
    end.
  Definition check_distinct_tree (l : list Nullifier) : res unit := if insert_all Leaf l then Ok tt else Err InvalidParameter.
  (** utils/mod.rs 714-752 *)
  Definition tree_add (k : F) (d : Z) (t : tree Z) : res (tree Z) :=
    match t_get k t with
    | Some x => let* x' := i128_res (x + d) in Ok (t_put k x' t)
    | None => Ok (t_put k d t)
    end.
  Definition tree_sub (k : F) (d : Z) (t : tree Z) : res (tree Z) :=
    match t_get k t with
    | Some x => let* x' := i128_res (x - d) in Ok (t_put k x' t)
    | None => let* nd := i128_res (- d) in Ok (t_put k nd t)
    end.
  Definition check_asset_amount_tree (inputs outputs : list RecordOpening) (fee : Amount) : res unit :=
    match inputs with
    | [] => Panic
    | i0 :: _ =>
      let* nfee := i128_res (- i128_of_u128 fee) in
      let* b1 := foldM (fun m r => tree_add (code (asset_def r)) (i128_of_u128 (amount r)) m)
                       (filter (fun r => negb (is_dummy_def (asset_def r))) inputs) (t_put (code (asset_def i0)) nfee Leaf) in
      let* b2 := foldM (fun m r => tree_sub (code (asset_def r)) (i128_of_u128 (amount r)) m) outputs b1 in
      if existsb (fun kv : F * Z => negb (snd kv =? 0)) (t_iter b2) then Err InvalidParameter else Ok tt
    end.
End Checks.
