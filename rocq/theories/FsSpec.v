(* File system trees on disk (Apple File System Reference, File-System Objects), independent
   of the code. *)
From Verif Require Import Base BTreeSpec TreeSpec OmapSpec RecordsSpec FsTree Records.

(* A key starts with a word of a 60-bit identifier and a 4-bit type. *)
Definition kword (k : list Z) : Z := le_val (slice k 0 8).
Definition kid (k : list Z) : Z := kword k mod 2 ^ 60.
Definition kty (k : list Z) : Z := kword k / 2 ^ 60.
Definition koff (k : list Z) : Z := le_val (slice k 8 8).

(* Keys are ordered by identifier, then type. There is one inode (type 3) per identifier;
   extents (type 8) are ordered by logical offset. The order [tie] within the other types
   (names, hashes of names, ...) is not used. *)
Definition tie_lt (tie : list Z -> list Z -> Prop) (a b : list Z) : Prop :=
  if kty a =? 3 then False else if kty a =? 8 then koff a < koff b else tie a b.
Definition fs_lt (tie : list Z -> list Z -> Prop) (a b : list Z) : Prop :=
  kid a < kid b \/ (kid a = kid b /\ (kty a < kty b \/ (kty a = kty b /\ tie_lt tie a b))).

(* Object o is stored in block b as of transaction t. *)
Definition resolves (orecs : list record) (t o b : Z) : Prop :=
  0 < o < 2 ^ 64 /\ exists r, newest orecs o t (Some r) /\ rec_address r = b.

(* A node in the on-disk format. The root is found by block number, other nodes by object
   identifier. A node that is not a root has more than 40 bytes for values and free space. *)
Definition fs_node (dev : device) (orecs : list record) (t : Z) (root : bool) (x : Z) (leaf : bool) (recs : list record) : Prop :=
  exists b, (if root then b = x else resolves orecs t x b) /\ 0 <= b < 2 ^ 31 /\
  exists d, dev b = Some (node_bytes d) /\ node_ok d /\ len (node_bytes d) = 4096 /\
    (root = false -> 40 < len (nd_free d) + len (values_area (nd_recs d))) /\
    0 < len (nd_free d) + len (values_area (nd_recs d)) /\
    In (nd_type d) (if root then [0x00000002; 0x10000002] else [0x00000003; 0x10000003]) /\ nd_subtype d = 0x0e /\
    Z.testbit (nd_flags d) 0 = root /\ Z.testbit (nd_flags d) 1 = leaf /\ Z.testbit (nd_flags d) 2 = false /\
    (root = true -> slice (nd_footer d) 4 12 = le_enc 4 4096 ++ le_enc 4 0 ++ le_enc 4 0) /\
    nd_recs d = recs.

(* A branch node refers to a child by object identifier and by the first key of the child. *)
Definition fs_child_of (v : list Z) (o : Z) : Prop := v = le_enc 8 o.

(* A record has a key of its type: at least 8 bytes, 16 for an extent; types start at 3
   (types 1 and 2 belong to other trees). *)
Definition fs_rec_ok (r : record) : Prop :=
  8 <= len (fst r) /\ bytes (fst r) /\ 3 <= kty (fst r) /\ (kty (fst r) = 8 -> 16 <= len (fst r)).

(* The tree at the root block of t contains the records recs. Both its own blocks and its
   object map are well formed. *)
Definition fs_tree (tie : list Z -> list Z -> Prop) (h : nat) (t : fs) (recs : list record) : Prop :=
  exists ho orecs, Z.of_nat ho <= 256 /\ omap_tree (fs_omap t) ho (fs_orb t) orecs /\
    Z.of_nat h <= 256 /\
    subtree (fs_node (fs_img t) orecs (fs_txn t)) fs_child_of (fs_lt tie) eq h true (fs_rb t) recs /\
    Forall fs_rec_ok recs.

(* Is it a record of type ty of object id? *)
Definition has (ty id : Z) (r : record) : bool := (kid (fst r) =? id) && (kty (fst r) =? ty).

(* What the records of a directory, of the attributes and of the extents of a file say. *)
Definition dir_rec (id : Z) (r : record) (e : dentry) : Prop :=
  exists flags used full xs,
    (fst r = dir_key_plain id (de_name e) /\ de_hash e = 0 \/
     fst r = dir_key_hashed id (de_hash e) (de_name e) /\ 0 <= de_hash e < 2 ^ 22) /\
    snd r = dir_value_bytes (de_inode e) (de_added e) flags used full xs /\
    1 <= len (de_name e) <= 1023 /\ 0 <= de_inode e < 2 ^ 64 /\ 0 <= de_added e < 2 ^ 64 /\
    len xs < 2 ^ 16 /\ Forall xf_ok xs /\ Forall (fun x => xf_type x = 1) xs.

(* flags: 1 data stream, 2 stored in the record, others of no concern here *)
Definition attr_rec (id : Z) (r : record) (a : attr) : Prop :=
  fst r = attr_key_bytes id (at_name a) /\ 1 <= len (at_name a) < 2 ^ 16 /\
  0 <= at_flags a < 2 ^ 16 /\
  match at_data a with
  | AStream sid size => Z.testbit (at_flags a) 0 = true /\ 0 <= sid < 2 ^ 64 /\ 0 <= size < 2 ^ 64 /\
      exists rest, len rest = 32 /\ snd r = le_enc 2 (at_flags a) ++ le_enc 2 48 ++ le_enc 8 sid ++ le_enc 8 size ++ rest
  | AInline v => Z.testbit (at_flags a) 0 = false /\ Z.testbit (at_flags a) 1 = true /\ 1 <= len v < 2 ^ 16 /\
      snd r = le_enc 2 (at_flags a) ++ le_enc 2 (len v) ++ v
  | ANone => Z.testbit (at_flags a) 0 = false /\ snd r = le_enc 2 (at_flags a) ++ le_enc 2 0
  end.

Definition extent_rec (id : Z) (r : record) (e : extent) : Prop :=
  exists flags, fst r = extent_key_bytes id (ex_off e) /\
    snd r = extent_value_bytes flags (ex_size e) (ex_block e) (ex_crypto e) /\
    0 <= ex_off e < 2 ^ 64 /\ 0 <= flags < 2 ^ 8 /\ 0 <= ex_size e < 2 ^ 56 /\
    0 <= ex_block e < 2 ^ 64 /\ 0 <= ex_crypto e < 2 ^ 64.
