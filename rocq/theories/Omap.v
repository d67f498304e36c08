(* Model of libfsapfs_object_map_btree.c and libfsapfs_object_map_descriptor.c: lookup
   of an object in an object map. *)
From Verif Require Import Base BTree Walk.

(* A block device: the content of a block, None when it cannot be read
   (libfsapfs_data_block_vector.c, libfsapfs_data_block.c). *)
Definition image : Type := Z -> option (list Z).
Definition read_block (img : image) (b : Z) : res (list Z) :=
  match img b with Some d => Ok d | None => Fail end.

Definition flag (n : bnode) (m : Z) : bool := negb (Z.land (bh_flags (bn_header n)) m =? 0).

(* libfsapfs_object_map_btree.c 309-437: load and check the root node. A missing footer
   would be a NULL dereference. *)
Definition omap_load_root (img : image) (b : Z) : res (option bnode) :=
  let! d := read_block img b in
  let! n := read_node d in
  let! _ := check (bn_type n =? 0x40000002) in
  let! _ := check (bn_subtype n =? 0x0b) in
  let! _ := check (flag n 1 && flag n 4) in
  match bn_footer n with
  | None => Oob
  | Some f =>
    let! _ := check (bf_node f =? 4096) in
    let! _ := check (bf_key f =? 16) in
    let! _ := check (bf_value f =? 16) in
    Ok (Some n)
  end.

(* libfsapfs_object_map_btree.c 620-715: load and check a sub node *)
Definition omap_load_sub (img : image) (b : Z) : res bnode :=
  let! d := read_block img b in
  let! n := read_node d in
  let! _ := check (bn_type n =? 0x40000003) in
  let! _ := check (bn_subtype n =? 0x0b) in
  let! _ := check (negb (flag n 1) && flag n 4) in
  Ok n.

(* libfsapfs_object_map_btree.c 886-971: the loop over the entries. Result: the entry the
   loop ended on with its identifier and transaction, and the previous entry with its
   identifier. *)
Record omap_scan := mk_os { os_entry : option bentry; os_id : Z; os_txn : Z; os_prev : option bentry; os_previd : Z }.
Fixpoint omap_loop (oid t : Z) (es : list bentry) (s : omap_scan) : res omap_scan :=
  match es with
  | [] => Ok s
  | e :: es =>
    let! _ := check (negb (len (fst e) <? 16)) in
    let! id := rd_le 8 (fst e) 0 in
    let! txn := rd_le 8 (fst e) 8 in
    if (oid <? id) || ((id =? oid) && (t <? txn)) then Ok (mk_os (Some e) id txn (os_prev s) (os_previd s))
    else omap_loop oid t es (mk_os (Some e) id txn (Some e) id)
  end.

(* libfsapfs_object_map_btree.c 807-994:
   libfsapfs_object_map_btree_get_entry_from_node_by_identifier. None is result 0,
   Some e result 1 with *btree_entry set to e (which may be NULL). *)
Definition omap_entry_from_node (oid t : Z) (n : bnode) : res (option (option bentry)) :=
  let! s := omap_loop oid t (bn_entries n) (mk_os None 0 0 None 0) in
  if is_leaf n then
    Ok (if os_previd s =? oid then Some (os_prev s) else None)
  else
    let prev := match os_prev s with
                | None => os_entry s
                | Some p => if (os_id s =? oid) && (os_txn s <=? t) then os_entry s else Some p
                end in
    Ok (Some prev).

(* libfsapfs_object_map_btree.c 1124-1168: the block number of the child of an entry *)
Definition omap_child (e : option bentry) : res Z :=
  match e with
  | None => Fail
  | Some e => let! _ := check (len (snd e) =? 8) in rd_le 8 (snd e) 0
  end.

(* libfsapfs_object_map_btree.c 999-1194:
   libfsapfs_object_map_btree_get_entry_by_identifier, as a traversal that visits one
   child of every branch node. In a branch node the result of the search is never 0. *)
Definition omap_walker (oid t : Z) : walker (option (option bentry)) :=
  mk_walker
    (fun n => omap_entry_from_node oid t n)
    (fun n => match omap_entry_from_node oid t n with
              | Ok (Some e) => [omap_child e]
              | Ok None => []
              | Fail => [Fail] | Oob => [Oob] | Fuel => [Fuel]
              end)
    None (fun _ a => a) max_depth.

(* libfsapfs_object_map_descriptor.c: key and value data *)
Record odesc := mk_od { od_oid : Z; od_txn : Z; od_flags : Z; od_size : Z; od_address : Z }.
Definition read_odesc (e : bentry) : res odesc :=
  let! _ := check (negb (len (fst e) <? 16)) in
  let! id := rd_le 8 (fst e) 0 in
  let! txn := rd_le 8 (fst e) 8 in
  let! _ := check (negb (len (snd e) <? 16)) in
  let! f := rd_le 4 (snd e) 0 in
  let! sz := rd_le 4 (snd e) 4 in
  let! pa := rd_le 8 (snd e) 8 in
  Ok (mk_od id txn f sz pa).

(* libfsapfs_object_map_btree.c 1199-1347:
   libfsapfs_object_map_btree_get_descriptor_by_object_identifier *)
Definition omap_finish (r : option (option bentry)) : res (option odesc) :=
  match r with
  | None => Ok None
  | Some None => Fail
  | Some (Some e) => let! d := read_odesc e in Ok (Some d)
  end.

(* Lookup with an empty cache, and with a cache left by earlier lookups. *)
Definition omap_lookup (img : image) (rb oid t : Z) : res (option odesc) :=
  let! r := plain_walk (omap_load_root img rb) (omap_load_sub img) rb (omap_walker oid t) in
  omap_finish r.
Definition omap_lookup_cached (img : image) (rb : Z) {P} (evict : P -> list (Z * bnode) -> Z -> P * list (Z * bnode))
  (oid t : Z) : M (cache P) (option odesc) :=
  bindM (cached_walk (omap_load_root img rb) (omap_load_sub img) rb P evict (omap_walker oid t)) (fun r => retM (omap_finish r)).
