(* Model of libfsapfs_container_superblock.c, libfsapfs_object.c, libfsapfs_checkpoint_map.c,
   libfsapfs_checkpoint_map_entry.c, libfsapfs_object_map.c and of opening a container in
   libfsapfs_container.c. The image is a block device (Omap.v): [img b] is what can be read of
   the 4096 bytes at offset b * 4096, fewer bytes where the file ends. Fusion drives are
   rejected by the code (line 1175) and not modelled further; debug output is not modelled. *)
From Verif Require Import Base Checksum Crypt BTree Walk Omap KeyBag.

Record superblock := {
  sb_xid : Z; sb_blocks : Z; sb_incompatible : Z; sb_id : list Z; sb_omap : Z; sb_volumes : list Z; sb_count : Z;
  sb_bag : Z; sb_bag_size : Z; sb_area_size : Z; sb_area : Z }.

(* libfsapfs_container_superblock.c 381-400: the identifiers of n slots from off, and how many
   are not 0 *)
Fixpoint read_slots (data : list Z) (n : nat) (off : Z) : res (list Z * Z) :=
  match n with
  | O => Ok ([], 0)
  | S n =>
    let! v := rd_le 8 data off in
    let! (l, k) := read_slots data n (off + 8) in
    Ok (v :: l, if v =? 0 then k else 1 + k)
  end.

(* libfsapfs_container_superblock.c 217-888: read_data; the signature is "NXSB" *)
Definition superblock_read (data : list Z) : res superblock :=
  let! _ := check (1384 <=? len data) in
  let! stored := rd_le 8 data 0 in
  let! xid := rd_le 8 data 16 in
  let! ty := rd_le 4 data 24 in
  let! _ := check (ty =? 0x80000001) in
  let! sub := rd_le 4 data 28 in
  let! _ := check (sub =? 0) in
  let! sig := rd data 32 4 in
  let! _ := check (list_eqb sig [78; 88; 83; 66]) in
  let! bsize := rd_le 4 data 36 in
  let! blocks := rd_le 8 data 40 in
  let! inc := rd_le 8 data 64 in
  let! id := rd data 72 16 in
  let! omap := rd_le 8 data 160 in
  let! most := rd_le 4 data 180 in
  let! (vols, n) := read_slots data 100 184 in
  let! bag := rd_le 8 data 1296 in
  let! bagn := rd_le 8 data 1304 in
  let! arean := rd_le 4 data 104 in
  let! area := rd_le 8 data 112 in
  let! rest := rd data 8 (len data - 8) in
  let! sum := calculate_fletcher64 rest 0 in
  let! _ := check (stored =? sum) in
  let! _ := check (Z.land inc 1 =? 0) in
  let! _ := check (bsize =? 4096) in
  let! _ := check (Z.land arean 0x80000000 =? 0) in
  let! _ := check (negb (area =? 0)) in
  let! _ := check (most <=? 100) in
  Ok {| sb_xid := xid; sb_blocks := blocks; sb_incompatible := inc; sb_id := id; sb_omap := omap; sb_volumes := vols; sb_count := n;
        sb_bag := bag; sb_bag_size := bagn; sb_area_size := arean; sb_area := area |}.

(* The offset of a block, block number * 4096, is computed with 64 bits and used as a signed
   number; libbfio does not seek to a negative offset. *)
Definition seek (b : Z) : res Z :=
  let b := b mod 2 ^ 52 in
  let! _ := check (b <? 2 ^ 51) in
  Ok b.
(* libbfio_handle_read_buffer_at_offset of n <= 4096 bytes, and the check of read_count *)
Definition read_at (img : image) (b n : Z) : res (list Z) :=
  let! b := seek b in
  let! d := read_block img b in
  let! _ := check (n <=? len d) in
  rd d 0 n.

(* libfsapfs_container_superblock.c 144-212 *)
Definition superblock_at (img : image) (b : Z) : res superblock :=
  let! d := read_at img b 4096 in
  superblock_read d.

(* libfsapfs_object.c 143-327: transaction identifier and type; there is no checksum to verify
   as only the header is read *)
Definition object_at (img : image) (b : Z) : res (Z * Z) :=
  let! d := read_at img b 32 in
  let! xid := rd_le 8 d 16 in
  let! ty := rd_le 4 d 24 in
  Ok (xid, ty).

(* libfsapfs_checkpoint_map_entry.c 139-265: object identifier and physical address *)
Definition map_entry_read (data : list Z) (off : Z) : res (Z * Z) :=
  let! _ := check (40 <=? len data - off) in
  let! oid := rd_le 8 data (off + 24) in
  let! address := rd_le 8 data (off + 32) in
  Ok (oid, address).
Fixpoint map_entries (data : list Z) (n : nat) (off : Z) : res (list (Z * Z)) :=
  match n with
  | O => Ok []
  | S n =>
    let! e := map_entry_read data off in
    let! l := map_entries data n (off + 40) in
    Ok (e :: l)
  end.

(* libfsapfs_checkpoint_map.c 251-529: read_data *)
Definition map_read (data : list Z) : res (list (Z * Z)) :=
  let! _ := check (4080 <=? len data) in
  let! stored := rd_le 8 data 0 in
  let! ty := rd_le 4 data 24 in
  let! _ := check (ty =? 0x4000000c) in
  let! sub := rd_le 4 data 28 in
  let! _ := check (sub =? 0) in
  let! n := rd_le 4 data 36 in
  let! rest := rd data 8 (len data - 8) in
  let! sum := calculate_fletcher64 rest 0 in
  let! _ := check (stored =? sum) in
  let! _ := check (n <=? 101) in
  map_entries data (Z.to_nat n) 40.
(* libfsapfs_checkpoint_map.c 178-246 *)
Definition map_at (img : image) (b : Z) : res (list (Z * Z)) :=
  let! d := read_at img b 4096 in
  map_read d.

(* libfsapfs_checkpoint_map.c 534-622: the address of an object; None is result 0 *)
Fixpoint map_lookup (l : list (Z * Z)) (oid : Z) : option Z :=
  match l with
  | [] => None
  | (o, a) :: l => if oid =? o then Some a else map_lookup l oid
  end.

(* libfsapfs_object_map.c 140-425: the root of the tree of an object map; the checksum is not
   verified *)
Definition omap_read (data : list Z) : res Z :=
  let! _ := check (88 <=? len data) in
  let! ty := rd_le 4 data 24 in
  let! _ := check (ty =? 0x4000000b) in
  let! sub := rd_le 4 data 28 in
  let! _ := check (sub =? 0) in
  rd_le 8 data 48.
Definition omap_at (img : image) (b : Z) : res Z :=
  let! d := read_at img b 88 in
  omap_read d.

(* A loop of at most 2^n rounds; a round gives a new state or ends the loop. *)
Fixpoint rounds {A B} (n : nat) (f : A -> res (A + B)) (s : A) : res (A + B) :=
  match n with
  | O => f s
  | S n => let! r := rounds n f s in match r with inl s => rounds n f s | inr b => Ok (inr b) end
  end.

(* State of the scan: index of the block, superblock selected so far, block number and
   transaction identifier of the checkpoint map selected so far. *)
Record scan := mk_scan { sc_index : Z; sc_sb : superblock; sc_map : Z; sc_map_xid : Z }.

(* libfsapfs_container.c 1209-1354: one round; [first] is the number of the first block of the
   descriptor area. The number of blocks is that of the superblock selected so far, and so is
   the number of the map block (line 1286). *)
Definition scan_step (img : image) (first : Z) (s : scan) : res (scan + scan) :=
  if sc_index s <=? sb_area_size (sc_sb s) then
    let b := first + sc_index s in
    let next := sc_index s + 1 in
    let! (xid, ty) := object_at img b in
    if ty =? 0x4000000c then
      if sc_map_xid s <? xid then Ok (inl (mk_scan next (sc_sb s) (w64 (sb_area (sc_sb s) + sc_index s)) xid))
      else Ok (inl (mk_scan next (sc_sb s) (sc_map s) (sc_map_xid s)))
    else if ty =? 0x80000001 then
      let! n := superblock_at img b in
      if sb_xid (sc_sb s) <? sb_xid n then Ok (inl (mk_scan next n (sc_map s) (sc_map_xid s)))
      else Ok (inl (mk_scan next (sc_sb s) (sc_map s) (sc_map_xid s)))
    else Ok (inl (mk_scan next (sc_sb s) (sc_map s) (sc_map_xid s)))
  else Ok (inr s).
Definition scan_area (img : image) (s : superblock) : res scan :=
  let! r := rounds 32 (scan_step img (sb_area s)) (mk_scan 0 s 0 0) in
  match r with inl _ => Fuel | inr s => Ok s end.

(* n blocks from b: libbfio_handle_read_buffer_at_offset of n * 4096 bytes *)
Fixpoint read_blocks (img : image) (b : Z) (n : nat) : res (list Z) :=
  match n with
  | O => Ok []
  | S n =>
    let! d := read_at img b 4096 in
    let! l := read_blocks img (b + 1) n in
    Ok (d ++ l)
  end.

Record container := { c_size : Z; c_sb : superblock; c_map_block : Z; c_map : list (Z * Z); c_root : Z; c_bag : option (option (list bag_entry)) }.

Section Open.
  (* AES-128-XTS decryption with the same 128-bit key twice: key, tweak value, data *)
  Variable xts : list Z -> list Z -> list Z -> list Z.

  (* libfsapfs_container_key_bag.c 178-423; MEMORY_MAXIMUM_ALLOCATION_SIZE is 128 MiB. None:
     the key bag is locked. *)
  Definition container_bag_at (img : image) (b n : Z) (id : list Z) : res (option (list bag_entry)) :=
    let size := w64 (n * 4096) in
    let! _ := check (negb (size =? 0) && (size <=? 128 * 1024 * 1024)) in
    let! b := seek b in
    let! enc := read_blocks img b (Z.to_nat (size / 4096)) in
    let! data := crypt (xts id) true enc (zeros (len enc)) (b * 4096 / 512) 512 in
    container_bag data.

  (* libfsapfs_container.c 1020-1880: open_read at file offset 0. c_bag is None without a key
     bag and Some None with a locked one. The size (1171-1172) is that of the superblock in block
     0, set before the newest one is determined. *)
  Definition open (img : image) : res container :=
    let! s := superblock_at img 0 in
    let size := w64 (sb_blocks s * 4096) in
    let! _ := check (Z.land (sb_incompatible s) 0x100 =? 0) in
    let! r := scan_area img s in
    let! _ := check (negb (sc_map r =? 0)) in
    let! m := map_at img (sc_map r) in
    let s := sc_sb r in
    let! _ := check (negb (sb_omap s =? 0)) in
    let! root := omap_at img (sb_omap s) in
    let! _ := check (negb (root =? 0)) in
    let! bag :=
      if (0 <? sb_bag s) && (0 <? sb_bag_size s)
      then let! b := container_bag_at img (sb_bag s) (sb_bag_size s) (sb_id s) in Ok (Some b)
      else Ok None in
    Ok {| c_size := size; c_sb := s; c_map_block := sc_map r; c_map := m; c_root := root; c_bag := bag |}.
End Open.

(* libfsapfs_container.c 1885-1972: get_size *)
Definition container_size (c : container) : Z := c_size c.

(* Nodes of trees are read through vectors of blocks with the size of the container
   (libfsapfs_container.c 1610-1654, libfsapfs_volume.c 412-457 and 770-815); a block behind
   their end is an error of libfdata_vector_get_element_value_by_index. The objects that are read
   with libbfio_handle_read_buffer_at_offset and the blocks of files have no such limit. *)
Definition within (size : Z) (img : image) : image := fun b => if b <? size / 4096 then img b else None.

(* libfsapfs_container.c 2113-2189 *)
Definition number_of_volumes (c : container) : Z := sb_count (c_sb c).

(* libfsapfs_container.c 2195-2392: the descriptor of volume i, with the block of its
   superblock. Reading the volume superblock is in VolumeSuper.v. *)
Definition volume_by_index (img : image) (c : container) (i : Z) : res odesc :=
  let! _ := check ((0 <=? i) && (i <? sb_count (c_sb c))) in
  let! oid := getb (sb_volumes (c_sb c)) i in
  let! d := omap_lookup (within (c_size c) img) (c_root c) oid (sb_xid (c_sb c)) in
  match d with None => Fail | Some d => Ok d end.
