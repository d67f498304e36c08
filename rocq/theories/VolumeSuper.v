(* Model of libfsapfs_volume_superblock.c, of opening a volume in libfsapfs_volume.c and of
   opening a snapshot in libfsapfs_snapshot.c. *)
From Verif Require Import Base Checksum BTree Walk Omap FsTree Crypt KeyBag Volume Container DataRead Snapshot.

Record vsuper := {
  vs_xid : Z; vs_compatible : Z; vs_read_only : Z; vs_incompatible : Z; vs_omap : Z; vs_root : Z; vs_extents : Z; vs_snapshots : Z;
  vs_next : Z; vs_id : list Z; vs_flags : Z; vs_name : list Z }.

(* libfsapfs_volume_superblock.c 221-884: read_data; the signature is "APSB" *)
Definition vsuper_read (data : list Z) (is_snapshot : bool) : res vsuper :=
  let! _ := check (1008 <=? len data) in
  let! xid := rd_le 8 data 16 in
  let! stored := rd_le 8 data 0 in
  let! ty := rd_le 4 data 24 in
  let! _ := check (ty =? (if is_snapshot then 0x4000000d else 0x0000000d)) in
  let! sub := rd_le 4 data 28 in
  let! _ := check (sub =? 0) in
  let! sig := rd data 32 4 in
  let! _ := check (list_eqb sig [65; 80; 83; 66]) in
  let! compat := rd_le 8 data 40 in
  let! ro := rd_le 8 data 48 in
  let! incompat := rd_le 8 data 56 in
  let! omap := rd_le 8 data 128 in
  let! root := rd_le 8 data 136 in
  let! ext := rd_le 8 data 144 in
  let! sn := rd_le 8 data 152 in
  let! next := rd_le 8 data 176 in
  let! id := rd data 240 16 in
  let! flags := rd_le 8 data 264 in
  let! name := rd data 704 256 in
  let! rest := rd data 8 (len data - 8) in
  let! sum := calculate_fletcher64 rest 0 in
  let! _ := check (stored =? sum) in
  Ok {| vs_xid := xid; vs_compatible := compat; vs_read_only := ro; vs_incompatible := incompat; vs_omap := omap; vs_root := root;
        vs_extents := ext; vs_snapshots := sn; vs_next := next; vs_id := id; vs_flags := flags; vs_name := name |}.
(* libfsapfs_volume_superblock.c 146-216 *)
Definition vsuper_at (img : image) (b : Z) (is_snapshot : bool) : res vsuper :=
  let! d := read_at img b 4096 in
  vsuper_read d is_snapshot.

(* libfsapfs_volume_superblock.c 953-1111: the name of the volume *)
Definition volume_name (s : vsuper) : res (list Z) := stream_text (vs_name s) 256.

Record open_volume := { ov_size : Z; ov_super : vsuper; ov_omap : Z; ov_bag : option (list bag_entry); ov_locked : bool; ov_snapshots : list snap }.

Section Open.
  (* AES-128-XTS decryption: the key (for both parts), tweak value, data *)
  Variable xts : list Z -> list Z -> list Z -> list Z.

  (* libfsapfs_volume_key_bag.c 182-418: read_file_io_handle *)
  Definition volume_bag_at (img : image) (b n : Z) (id : list Z) : res (list bag_entry) :=
    let size := w64 (n * 4096) in
    let! _ := check (negb (size =? 0) && (size <=? 128 * 1024 * 1024)) in
    let! b := seek b in
    let! enc := read_blocks img b (Z.to_nat (size / 4096)) in
    let! data := crypt (xts id) true enc (zeros (len enc)) (b * 4096 / 512) 512 in
    volume_bag data.

  (* libfsapfs_volume.c 552-642: the key bag and whether the volume is locked. [bag] is the key
     bag of the container: none, locked, or its entries; a locked one has no entries. *)
  Definition volume_keys (img : image) (bag : option (option (list bag_entry))) (s : vsuper) : res (option (list bag_entry) * bool) :=
    match bag with
    | None => Ok (None, false)
    | Some b =>
      if negb (Z.land (vs_flags s) 1 =? 0) then Ok (None, false)
      else
        let locked := match b with None => true | Some _ => false end in
        let! e := get_extent (match b with None => [] | Some l => l end) (vs_id s) in
        match e with
        | None => Ok (None, locked)
        | Some (k, n) =>
          let! _ := check (negb (k =? 0) && negb (n =? 0)) in
          let! l := volume_bag_at img k n (vs_id s) in
          Ok (Some l, true)
        end
    end.

  (* libfsapfs_volume.c 243-891: open_read, for the superblock in block b. size: the size of the
     container, in the I/O handle the volume shares with it *)
  Definition volume_open (img : image) (size : Z) (bag : option (option (list bag_entry))) (b : Z) : res open_volume :=
    let! s := vsuper_at img b false in
    let! _ := check (negb (vs_omap s =? 0)) in
    let! o := omap_at img (vs_omap s) in
    let! _ := check (negb (o =? 0)) in
    let! (k, locked) := volume_keys img bag s in
    let! sn := if vs_snapshots s =? 0 then Ok [] else get_snapshots (mk_fs (within size img) (vs_snapshots s) (within size img) o (vs_xid s)) in
    let! _ := check (negb (vs_root s =? 0)) in
    Ok {| ov_size := size; ov_super := s; ov_omap := o; ov_bag := k; ov_locked := locked; ov_snapshots := sn |}.
End Open.

(* The blocks as the file system tree reads them: libfsapfs_file_system_data_handle.c 272-327
   without extents, the encryption identifier is the number of the block *)
Definition fs_image (img : image) (ctx : option (list Z -> list Z -> list Z)) : image :=
  fun b => match data_block_read img ctx (b * 4096) b with Ok d => Some d | _ => None end.

(* libfsapfs_volume.c 2850-2929: the file system tree of a volume. Whether names are compared
   with case folding is bit 0 of the incompatible features. *)
Definition volume_fs (img : image) (ctx : option (list Z -> list Z -> list Z)) (v : open_volume) : res fs :=
  let s := ov_super v in
  let! d := omap_lookup (within (ov_size v) img) (ov_omap v) (vs_root s) (vs_xid s) in
  match d with
  | None => Fail
  | Some d => Ok (mk_fs (within (ov_size v) (fs_image img ctx)) (od_address d) (within (ov_size v) img) (ov_omap v) (vs_xid s))
  end.
Definition volume_folds (v : open_volume) : bool := negb (Z.land (vs_incompatible (ov_super v)) 1 =? 0).

(* libfsapfs_volume.c 3416-3569 and libfsapfs_snapshot.c 218-301: the superblock of snapshot i *)
Definition snapshot_open (img : image) (v : open_volume) (i : Z) : res vsuper :=
  let! _ := check ((0 <=? i) && (i <? len (ov_snapshots v))) in
  let! s := getb (ov_snapshots v) i in
  vsuper_at img (sn_block s) true.
