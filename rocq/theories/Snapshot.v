(* Model of libfsapfs_snapshot_metadata_tree.c and libfsapfs_snapshot_metadata.c: the
   snapshots of a volume and their names. *)
From Verif Require Import Base BTree Walk Omap FsTree Name.

(* libfsapfs_snapshot_metadata_tree.c 470-596: load and check the root node. A missing footer
   would be a NULL dereference. *)
Definition snap_load_root (img : image) (b : Z) : res (option bnode) :=
  let! d := read_block img b in
  let! n := read_node d in
  let! _ := check (bn_type n =? 0x40000002) in
  let! _ := check (bn_subtype n =? 0x10) in
  let! _ := check (flag n 1) in
  match bn_footer n with
  | None => Oob
  | Some f =>
    let! _ := check (bf_node f =? 4096) in
    let! _ := check (bf_key f =? 0) in
    let! _ := check (bf_value f =? 0) in
    Ok (Some n)
  end.

(* libfsapfs_snapshot_metadata_tree.c 780-873: load and check a sub node *)
Definition snap_load_sub (img : image) (b : Z) : res bnode :=
  let! d := read_block img b in
  let! n := read_node d in
  let! _ := check (bn_type n =? 0x40000003) in
  let! _ := check (bn_subtype n =? 0x10) in
  let! _ := check (negb (flag n 1)) in
  Ok n.

(* The tree and its object map, as for a file system tree. *)
(* libfsapfs_snapshot_metadata_tree.c 305-374 and 689-961: from the value of an entry to the
   node: the value is taken as an object identifier and looked up in the object map; a missing
   object is an error (line 1916) *)
Definition snap_sub (t : fs) (oid : Z) : res bnode :=
  let! r := omap_lookup (fs_omap t) (fs_orb t) oid (fs_txn t) in
  match r with
  | None => Fail
  | Some d => if int_max <? od_address d then Fail else snap_load_sub (fs_img t) (od_address d)
  end.
Definition snap_root (t : fs) : res (option bnode) :=
  if int_max <? fs_rb t then Fail else snap_load_root (fs_img t) (fs_rb t).

Record snap := mk_snap { sn_block : Z; sn_name : list Z }.
(* libfsapfs_snapshot_metadata.c 147-223 (the key: only its size is checked) and 228-456; the
   block number of the superblock is read as 32 bits (line 289) *)
Definition snap_read (e : bentry) : res snap :=
  let! _ := check (8 <=? len (fst e)) in
  let d := snd e in
  let! _ := check (50 <=? len d) in
  let! block := rd_le 4 d 8 in
  let! size := rd_le 2 d 48 in
  let! _ := check (negb (size =? 0) && (size <=? len d - 50)) in
  let! name := rd d 50 size in
  Ok (mk_snap block name).

(* libfsapfs_snapshot_metadata_tree.c 1583-1722: the snapshots of a leaf node *)
Fixpoint snap_leaf (es : list bentry) : res (list snap) :=
  match es with
  | [] => Ok []
  | e :: es =>
    let! k := fs_word e in
    if 1 <? word_type k then Ok []
    else
      let! s := snap_read e in
      let! l := snap_leaf es in
      Ok (s :: l)
  end.

(* libfsapfs_snapshot_metadata_tree.c 1838-2000: the children of a branch node *)
Fixpoint snap_plan (es : list bentry) : list (res Z) :=
  match es with
  | [] => []
  | e :: es =>
    match fs_word e with
    | Ok k => if 1 <? word_type k then [] else fs_child (Some e) :: snap_plan es
    | Fail => [Fail] | Oob => [Oob] | Fuel => [Fuel]
    end
  end.

Definition snap_walker : walker (list snap) :=
  mk_walker (fun n => snap_leaf (bn_entries n)) (fun n => snap_plan (bn_entries n)) [] (@app snap) 257.

(* libfsapfs_snapshot_metadata_tree.c 2015-2166: get_snapshots; called once, when the volume is
   opened, with an empty cache *)
Definition get_snapshots (t : fs) : res (list snap) := fst (walk (retM (snap_root t)) (pure (snap_sub t)) snap_walker tt).

(* ---- names ----
   libuna_utf8_string_size_from_utf8_stream and the three other functions of this kind
   (external): a byte order mark is skipped, then characters are read up to a NUL or up to the
   size given. [mem] is the memory that may be read, [size] the size given. *)
Definition utf8_more (b : Z) : Z :=
  if b <? 0xc2 then 0 else if b <=? 0xdf then 1 else if b <=? 0xef then 2 else if b <=? 0xf4 then 3 else 0.
Fixpoint stream_points (fuel : nat) (mem : list Z) (size off : Z) : res (list Z) :=
  if size <=? off then Ok []
  else
    match fuel with
    | O => Fuel
    | S fuel =>
      let! b := getb mem off in
      let n := 1 + utf8_more b in
      let! _ := check (off + n <=? size) in
      let! s := rd mem off n in
      let! (c, _) := utf8_next s in
      if c =? 0 then Ok []
      else
        let! r := stream_points fuel mem size (off + n) in
        Ok (c :: r)
    end.
Definition stream_start (mem : list Z) : res Z :=
  let! a := getb mem 0 in
  if a =? 0xef then
    let! b := getb mem 1 in
    if b =? 0xbb then
      let! c := getb mem 2 in
      Ok (if c =? 0xbf then 3 else 0)
    else Ok 0
  else Ok 0.
Definition stream_text (mem : list Z) (size : Z) : res (list Z) :=
  let! o := if size <? 3 then Ok 0 else stream_start mem in
  stream_points (Z.to_nat size) mem size o.

(* libfsapfs_snapshot_metadata.c 462-620: the size passed is 256, whatever the size of the name *)
Definition snap_name (s : snap) : res (list Z) := stream_text (sn_name s) 256.
