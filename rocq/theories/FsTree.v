(* Model of libfsapfs_file_system_btree.c: lookup of an inode by identifier, and the
   enumeration of directory records, extended attributes and file extents.
   Names are looked up in FsName.v. *)
From Verif Require Import Base BTree Walk Omap Records.

(* libfsapfs_file_system_btree.c 492-637: load and check the root node. A node with
   object type 0 gives result 0; a missing footer would be a NULL dereference. *)
Definition fs_load_root (img : image) (b : Z) : res (option bnode) :=
  let! d := read_block img b in
  let! n := read_node d in
  if bn_type n =? 0 then Ok None
  else
    let! _ := check ((bn_type n =? 0x00000002) || (bn_type n =? 0x10000002)) in
    let! _ := check (bn_subtype n =? 0x0e) in
    let! _ := check (flag n 1 && negb (flag n 4)) in
    match bn_footer n with
    | None => Oob
    | Some f =>
      let! _ := check (bf_node f =? 4096) in
      let! _ := check (bf_key f =? 0) in
      let! _ := check (bf_value f =? 0) in
      Ok (Some n)
    end.

(* libfsapfs_file_system_btree.c 832-927: load and check a sub node *)
Definition fs_load_sub (img : image) (b : Z) : res bnode :=
  let! d := read_block img b in
  let! n := read_node d in
  let! _ := check ((bn_type n =? 0x00000003) || (bn_type n =? 0x10000003)) in
  let! _ := check (bn_subtype n =? 0x0e) in
  let! _ := check (negb (flag n 1) && negb (flag n 4)) in
  Ok n.

(* libfsapfs_file_system_btree.c 258-304: the object identifier of the child of an entry
   (get_sub_node_block_number_from_entry up to the object map lookup) *)
Definition fs_child (e : option bentry) : res Z :=
  match e with
  | None => Fail
  | Some e => let! _ := check (len (snd e) =? 8) in rd_le 8 (snd e) 0
  end.

(* The two trees involved: the blocks as the file system tree reads them (decrypted), the
   blocks as the object map reads them, the two root blocks, and the transaction. *)
Record fs := mk_fs { fs_img : image; fs_rb : Z; fs_omap : image; fs_orb : Z; fs_txn : Z }.

(* libfsapfs_file_system_btree.c 316-375 and 730-1015: from the object identifier of a
   child to the node: object map lookup (a missing object is an error in all callers:
   "!= 1"), then get_sub_node. *)
Definition fs_sub (t : fs) (oid : Z) : res bnode :=
  let! r := omap_lookup (fs_omap t) (fs_orb t) oid (fs_txn t) in
  match r with
  | None => Fail
  | Some d => if int_max <? od_address d then Fail else fs_load_sub (fs_img t) (od_address d)
  end.
Definition fs_root (t : fs) : res (option bnode) :=
  if int_max <? fs_rb t then Fail else fs_load_root (fs_img t) (fs_rb t).

(* A traversal with nothing cached. *)
Definition fs_walk (t : fs) {A} (w : walker A) : res A := fst (walk (retM (fs_root t)) (pure (fs_sub t)) w tt).

(* The same with the two node caches, of the file system tree and of the object map. *)
Section Cached.
  Variables (P Q : Type).
  Variables (evp : P -> list (Z * bnode) -> Z -> P * list (Z * bnode)).
  Variables (evq : Q -> list (Z * bnode) -> Z -> Q * list (Z * bnode)).
  Definition caches : Type := (cache P * cache Q)%type.

  Definition fs_sub_cached (t : fs) (oid : Z) : M caches bnode := fun s =>
    let (r, co) := omap_lookup_cached (fs_omap t) (fs_orb t) evq oid (fs_txn t) (snd s) in
    match r with
    | Ok None => (Fail, (fst s, co))
    | Ok (Some d) =>
        let (r, cf) := cached_sub (fs_load_sub (fs_img t)) P evp (od_address d) (fst s) in (r, (cf, co))
    | Fail => (Fail, (fst s, co))
    | Oob => (Oob, (fst s, co))
    | Fuel => (Fuel, (fst s, co))
    end.
  Definition fs_root_cached (t : fs) : M caches (option bnode) := fun s =>
    let (r, cf) := cached_root (fs_load_root (fs_img t) (fs_rb t)) (fs_rb t) P evp (fst s) in (r, (cf, snd s)).
  Definition fs_walk_cached (t : fs) {A} (w : walker A) : M caches A :=
    walk (fs_root_cached t) (fs_sub_cached t) w.
End Cached.

(* The first 8 bytes of a key, all of its users check the size. *)
Definition fs_word (e : bentry) : res Z :=
  let! _ := check (8 <=? len (fst e)) in rd_le 8 (fst e) 0.
Definition word_id (k : Z) : Z := Z.land k 0x0fffffffffffffff.
Definition word_type (k : Z) : Z := Z.shiftr k 60.
(* ( (uint64_t) data_type << 60 ) | identifier *)
Definition lookup_word (ty id : Z) : Z := Z.lor (Z.shiftl ty 60) id.

(* ---- lookup by identifier ---- *)

(* libfsapfs_file_system_btree.c 1114-1196, leaf node *)
Fixpoint fs_leaf_find (look : Z) (es : list bentry) : res (option bentry) :=
  match es with
  | [] => Ok None
  | e :: es => let! k := fs_word e in if k =? look then Ok (Some e) else fs_leaf_find look es
  end.
(* libfsapfs_file_system_btree.c 1114-1221, branch node *)
Fixpoint fs_branch_find (id ty : Z) (prev : option bentry) (es : list bentry) : res (option bentry) :=
  match es with
  | [] => Ok prev
  | e :: es =>
    let! k := fs_word e in
    if id <=? word_id k then
      Ok (match prev with
          | None => Some e
          | Some p => if (word_id k =? id) && (word_type k <=? ty) then Some e else Some p
          end)
    else fs_branch_find id ty (Some e) es
  end.

(* libfsapfs_file_system_btree.c 1228-1401: get_entry_by_identifier. The result is the
   entry found, None for result 0. *)
Definition fs_id_walker (id ty : Z) : walker (option bentry) :=
  mk_walker
    (fun n => fs_leaf_find (lookup_word ty id) (bn_entries n))
    (fun n => [let! e := fs_branch_find id ty None (bn_entries n) in fs_child e])
    None (fun _ a => a) max_depth.

(* libfsapfs_file_system_btree.c 5132-5338: get_inode_by_identifier. *)
Definition read_inode (e : bentry) : res (Z * inode) :=
  let! i := inode_key (fst e) in
  let! v := inode_value (snd e) in
  Ok (i, v).
Definition inode_finish (r : option bentry) : res (option (Z * inode)) :=
  match r with
  | None => Ok None
  | Some e => let! i := read_inode e in Ok (Some i)
  end.
Definition fs_inode (t : fs) (id : Z) : res (option (Z * inode)) :=
  let! r := fs_walk t (fs_id_walker id 3) in inode_finish r.

(* ---- enumerations ---- *)

(* libfsapfs_file_system_btree.c 2815-2958 (directory records), 3634-3777 (attributes),
   4441-4584 (extents): the entries of a leaf node *)
Fixpoint enum_leaf {A} (parse : bentry -> res A) (look id : Z) (es : list bentry) : res (list A) :=
  match es with
  | [] => Ok []
  | e :: es =>
    let! k := fs_word e in
    if id <? word_id k then Ok []
    else if k =? look then
      let! a := parse e in
      let! l := enum_leaf parse look id es in
      Ok (a :: l)
    else enum_leaf parse look id es
  end.

(* libfsapfs_file_system_btree.c 3086-3268 (directory records), 3905-4086 (attributes),
   4711-4920 (extents): which children of a branch node are visited. [more] is the
   condition on the entry itself, only extents have one. *)
Fixpoint enum_plan (more : bentry -> res bool) (ty id : Z) (prev : option bentry) (es : list bentry) : list (res Z) :=
  match es with
  | [] => [fs_child prev]
  | e :: es =>
    match fs_word e with
    | Ok k =>
      if (id <? word_id k) || ((word_id k =? id) && (ty <? word_type k)) then [fs_child prev]
      else if (word_id k =? id) && (word_type k =? ty) then
        match more e with
        | Ok m =>
          match prev with
          | Some p => if m then fs_child (Some p) :: enum_plan more ty id (Some e) es
                      else enum_plan more ty id (Some e) es
          | None => enum_plan more ty id (Some e) es
          end
        | Fail => [Fail] | Oob => [Oob] | Fuel => [Fuel]
        end
      else enum_plan more ty id (Some e) es
    | Fail => [Fail] | Oob => [Oob] | Fuel => [Fuel]
    end
  end.

Definition enum_walker {A} (parse : bentry -> res A) (more : bentry -> res bool) (ty id : Z) : walker (list A) :=
  mk_walker
    (fun n => enum_leaf parse (lookup_word ty id) id (bn_entries n))
    (fun n => enum_plan more ty id None (bn_entries n))
    [] (@app A) 257.

Definition always (_ : bentry) : res bool := Ok true.
(* libfsapfs_file_system_btree.c 4793-4819: an extent that does not start the file *)
Definition not_first (e : bentry) : res bool :=
  let! _ := check (16 <=? len (fst e)) in
  let! a := rd_le 8 (fst e) 8 in Ok (0 <? a).

(* What is kept of a record. *)
Record dentry := mk_de { de_name : list Z; de_hash : Z; de_inode : Z; de_added : Z }.
Definition read_dentry (e : bentry) : res dentry :=
  let! (name, hash) := dir_key (fst e) in
  let! (id, added) := dir_value (snd e) in
  Ok (mk_de name hash id added).
Record attr := mk_at { at_name : list Z; at_flags : Z; at_data : attr_data }.
Definition read_attr (e : bentry) : res attr :=
  let! name := attr_key (fst e) in
  let! (flags, d) := attr_value (snd e) in
  Ok (mk_at name flags d).
Record extent := mk_ex { ex_off : Z; ex_size : Z; ex_block : Z; ex_crypto : Z }.
Definition read_extent (e : bentry) : res extent :=
  let! o := extent_key (fst e) in
  let! (s, b, c) := extent_value (snd e) in
  Ok (mk_ex o s b c).

(* libfsapfs_file_system_btree.c 3362-3533, 4180-4351, 5014-5127 *)
Definition dir_walker (id : Z) := enum_walker read_dentry always 9 id.
Definition attr_walker (id : Z) := enum_walker read_attr always 4 id.
Definition extent_walker (id : Z) := enum_walker read_extent not_first 8 id.
Definition fs_dir (t : fs) (id : Z) : res (list dentry) := fs_walk t (dir_walker id).
Definition fs_attrs (t : fs) (id : Z) : res (list attr) := fs_walk t (attr_walker id).
Definition fs_extents (t : fs) (id : Z) : res (list extent) := fs_walk t (extent_walker id).
