(* Model of the code that only builds with debug output (HAVE_DEBUG_OUTPUT) and that can fail:
   the objects that are read to print them. The printing itself (libcnotify, libfguid,
   libfdatetime: external) is taken not to fail. *)
From Verif Require Import Base BTree Omap Walk KeyBag Crypt Container FsTree Snapshot VolumeSuper Compressed.

(* libfsapfs_fusion_middle_tree.c 140-357, libfsapfs_space_manager.c 140-813,
   libfsapfs_container_reaper.c 140-356, libfsapfs_extent_reference_tree.c 140-357: an object of n
   bytes at block b, of which only type and subtype are verified. The structures are no larger than
   n. *)
Definition shown_object (img : image) (b n type subtype : Z) : res unit :=
  let! d := read_at img b n in
  let! ty := rd_le 4 d 24 in
  let! _ := check (ty =? type) in
  let! sub := rd_le 4 d 28 in
  check (sub =? subtype).

(* libfsapfs_container_superblock.c 376-433: the fields of the container superblock that only
   the debug code uses: space manager, reaper, Fusion middle tree. The superblock is read again;
   the code keeps the fields of the superblock that is selected. *)
Record extra := mk_extra { ex_space : Z; ex_reaper : Z; ex_fusion : Z }.
Definition extra_at (img : image) (b : Z) : res extra :=
  let! d := read_at img b 4096 in
  let! s := rd_le 8 d 152 in
  let! r := rd_le 8 d 168 in
  let! f := rd_le 8 d 1352 in
  Ok (mk_extra s r f).

(* libfsapfs_container.c 1209-1354 with verbose output: checkpoint maps are read (1233-1283). The
   second part of the state is the block of the superblock that is selected. *)
Definition scan_step_v (img : image) (first : Z) (s : scan * Z) : res (scan * Z + scan * Z) :=
  let (s, w) := s in
  if sc_index s <=? sb_area_size (sc_sb s) then
    let b := first + sc_index s in
    let next := sc_index s + 1 in
    let! (xid, ty) := object_at img b in
    if ty =? 0x4000000c then
      let! _ := map_at img b in
      if sc_map_xid s <? xid then Ok (inl (mk_scan next (sc_sb s) (w64 (sb_area (sc_sb s) + sc_index s)) xid, w))
      else Ok (inl (mk_scan next (sc_sb s) (sc_map s) (sc_map_xid s), w))
    else if ty =? 0x80000001 then
      let! n := superblock_at img b in
      if sb_xid (sc_sb s) <? sb_xid n then Ok (inl (mk_scan next n (sc_map s) (sc_map_xid s), b))
      else Ok (inl (mk_scan next (sc_sb s) (sc_map s) (sc_map_xid s), w))
    else Ok (inl (mk_scan next (sc_sb s) (sc_map s) (sc_map_xid s), w))
  else Ok (inr (s, w)).
Definition scan_area_v (img : image) (s : superblock) : res (scan * Z) :=
  let! r := rounds 32 (scan_step_v img (sb_area s)) (mk_scan 0 s 0 0, 0) in
  match r with inl _ => Fuel | inr s => Ok s end.

(* libfsapfs_container.c 1418-1594: the objects of the container, m is the checkpoint map *)
Definition shown_mapped (img : image) (m : list (Z * Z)) (oid n type : Z) : res unit :=
  if 0 <? oid then
    match map_lookup m oid with
    | None => Fail
    | Some a => shown_object img a n type 0
    end
  else Ok tt.
Definition shown_objects (img : image) (m : list (Z * Z)) (x : extra) : res unit :=
  let! _ := (if ex_fusion x =? 0 then Ok tt else shown_object img (ex_fusion x) 4096 0x40000002 0x15) in
  let! _ := shown_mapped img m (ex_space x) 4096 0x80000005 in
  shown_mapped img m (ex_reaper x) 40 0x80000011.

Section Open.
  Variable xts : list Z -> list Z -> list Z -> list Z.

  (* libfsapfs_container.c 1020-1880 with verbose output *)
  Definition open_v (img : image) : res container :=
    let! s := superblock_at img 0 in
    let size := w64 (sb_blocks s * 4096) in
    let! _ := check (Z.land (sb_incompatible s) 0x100 =? 0) in
    let! (r, w) := scan_area_v img s in
    let! _ := check (negb (sc_map r =? 0)) in
    let! m := map_at img (sc_map r) in
    let! x := extra_at img w in
    let! _ := shown_objects img m x in
    let s := sc_sb r in
    let! _ := check (negb (sb_omap s =? 0)) in
    let! root := omap_at img (sb_omap s) in
    let! _ := check (negb (root =? 0)) in
    let! bag :=
      if (0 <? sb_bag s) && (0 <? sb_bag_size s)
      then let! b := container_bag_at xts img (sb_bag s) (sb_bag_size s) (sb_id s) in Ok (Some b)
      else Ok None in
    Ok {| c_size := size; c_sb := s; c_map_block := sc_map r; c_map := m; c_root := root; c_bag := bag |}.

  (* libfsapfs_volume.c 243-891 in a build with debug output: the extent reference tree is read
     (643-692), whether output is verbose or not *)
  Definition volume_open_d (img : image) (size : Z) (bag : option (option (list bag_entry))) (b : Z) : res open_volume :=
    let! s := vsuper_at img b false in
    let! _ := check (negb (vs_omap s =? 0)) in
    let! o := omap_at img (vs_omap s) in
    let! _ := check (negb (o =? 0)) in
    let! (k, locked) := volume_keys xts img bag s in
    let! _ := (if vs_extents s =? 0 then Ok tt else shown_object img (vs_extents s) 4096 0x40000002 0xf) in
    let! sn := if vs_snapshots s =? 0 then Ok [] else get_snapshots (mk_fs (within size img) (vs_snapshots s) (within size img) o (vs_xid s)) in
    let! _ := check (negb (vs_root s =? 0)) in
    Ok {| ov_size := size; ov_super := s; ov_omap := o; ov_bag := k; ov_locked := locked; ov_snapshots := sn |}.
End Open.

(* libfsapfs_compressed_data_handle.c 236-801 with verbose output: offset and size of the footer
   are only set when they are printed (391-416), and the footer is read at the end (694-741). The
   start of the header is read again here; nothing is read for an empty footer. *)
Definition footer_read (method : Z) (src : source) : res unit :=
  let! buf := read_into src (zeros (BLOCK + 1)) 0 0 4 in
  let! sig := rd buf 0 4 in
  if le_val sig =? 0x636d7066 then Ok tt
  else if method =? METHOD_DEFLATE then
    let! buf := read_into src buf 4 4 268 in
    let! off := rd_be 4 buf 4 in
    let! size := rd_be 4 buf 12 in
    let! _ := check (negb (BLOCK + 1 <? size)) in
    if size =? 0 then Ok tt else
    let! _ := read_into src buf 0 off size in
    Ok tt
  else Ok tt.
Definition get_block_offsets_v (method : Z) (src : source) : res (list Z) :=
  let! offs := get_block_offsets method src in
  let! _ := footer_read method src in
  Ok offs.
