(* Model of the parsers of file system tree records: directory record, inode,
   file extent, extended attribute, snapshot metadata.
   A key or value is the exact byte list handed to the parser; every access is
   checked.  Allocation failure and the sizes above SSIZE_MAX are not modelled. *)
From Verif Require Import Base.

(* libfsapfs_directory_record.c:264-486, read_key_data: the name and its hash
   (hash 0 in the layout without hash). MEMORY_MAXIMUM_ALLOCATION_SIZE is 128 MiB
   (common/memory.h:45), a 10-bit size never exceeds it. *)
Definition dir_key (data : list Z) : res (list Z * Z) :=
  let size := len data in
  let! _ := check (10 <=? size) in
  let! s := rd_le 2 data 8 in
  let ns := Z.land s 1023 in
  let! (ns, hash, off) :=
    if ns <? size - 10 then
      let! _ := check (12 <=? size) in
      let! h := rd_le 4 data 8 in
      Ok (Z.land h 1023, Z.shiftr (Z.land h 4294966272) 10, 12)
    else Ok (ns, 0, 10) in
  let! _ := check (negb (ns =? 0)) in
  let! _ := check (ns <=? size - off) in
  let! name := rd data off ns in
  Ok (name, hash).

(* Padding step of the extended field loops:
   libfsapfs_directory_record.c:751-777, libfsapfs_inode.c:823-849.
   size_t arithmetic; size is at least 18 so size - trailing does not wrap. *)
Definition xf_next (size voff vsize : Z) : Z :=
  let v := voff + vsize in
  let t := vsize mod 8 in
  if 0 <? t then
    let t := 8 - t in
    if size - t <? v then v + (size - v) else v + t
  else v.

(* The loop over extended fields shared by
   libfsapfs_directory_record.c:646-778 and libfsapfs_inode.c:560-850; [step] is
   the switch on the type, [empty] tells whether an empty value is accepted. *)
Fixpoint xf_loop {A : Type} (step : A -> Z -> list Z -> res A) (empty : bool)
  (data : list Z) (n : nat) (off voff : Z) (acc : A) : res A :=
  match n with
  | O => Ok acc
  | S m =>
      let size := len data in
      let! _ := check (off <=? size - 4) in
      let! ty := getb data off in
      let! vs := rd_le 2 data (off + 2) in
      let! _ := check (voff <=? size) in
      let! _ := check (empty || negb (vs =? 0)) in
      let! _ := check (vs <=? size - voff) in
      let! v := rd data voff vs in
      let! acc := step acc ty v in
      xf_loop step empty data m (off + 4) (xf_next size voff vs) acc
  end.

(* The part after the fixed header: libfsapfs_directory_record.c:606-786,
   libfsapfs_inode.c:520-851; [fixed] is the size of the header. *)
Definition xf_parse {A : Type} (step : A -> Z -> list Z -> res A) (empty : bool)
  (fixed : Z) (data : list Z) (acc : A) : res A :=
  if fixed <? len data then
    let! _ := check (fixed <=? len data - 4) in
    let! n := rd_le 2 data fixed in
    xf_loop step empty data (Z.to_nat n) (fixed + 4) (fixed + 4 + n * 4) acc
  else Ok acc.

(* libfsapfs_directory_record.c:735-750 *)
Definition dir_step (_ : unit) (ty : Z) (_ : list Z) : res unit := check (ty =? 1).

(* libfsapfs_directory_record.c:491-788, read_value_data: identifier of the
   inode and time added. *)
Definition dir_value (data : list Z) : res (Z * Z) :=
  let! _ := check (18 <=? len data) in
  let! id := rd_le 8 data 0 in
  let! added := rd_le 8 data 8 in
  let! _ := xf_parse dir_step true 18 data tt in
  Ok (id, added).

(* The inode structure, libfsapfs_inode.h:38-90, with the fields the parser sets;
   name NULL is None; data_stream_size and device_identifier start at 0
   (memory_set in libfsapfs_inode_initialize). *)
Record inode := {
  in_parent : Z;
  in_stream : Z;
  in_mtime : Z;
  in_created : Z;
  in_changed : Z;
  in_access : Z;
  in_flags : Z;
  in_links : Z;
  in_owner : Z;
  in_group : Z;
  in_mode : Z;
  in_name : option (list Z);
  in_size : Z;
  in_device : Z }.

(* libfsapfs_inode.c:148-222, read_key_data. *)
Definition inode_key (data : list Z) : res Z :=
  let! _ := check (8 <=? len data) in
  let! id := rd_le 8 data 0 in
  Ok (Z.land id 1152921504606846975).

(* libfsapfs_inode.c:652-822, the switch on the extended field type. *)
Definition inode_step (acc : option (list Z) * Z * Z) (ty : Z) (v : list Z)
  : res (option (list Z) * Z * Z) :=
  let '(name, size, dev) := acc in
  if existsb (Z.eqb ty) [1; 2; 3; 5; 7; 10; 11; 13; 15] then Ok acc
  else if ty =? 4 then
    match name with
    | Some _ => Fail
    | None => Ok (Some v, size, dev)
    end
  else if ty =? 8 then
    let! _ := check (40 <=? len v) in
    let! s := rd_le 8 v 0 in
    Ok (name, s, dev)
  else if ty =? 14 then
    let! _ := check (len v =? 4) in
    let! d := rd_le 4 v 0 in
    Ok (name, size, d)
  else Fail.

(* libfsapfs_inode.c:227-873, read_value_data. *)
Definition inode_value (data : list Z) : res inode :=
  let! _ := check (92 <=? len data) in
  let! parent := rd_le 8 data 0 in
  let! stream := rd_le 8 data 8 in
  let! mtime := rd_le 8 data 16 in
  let! created := rd_le 8 data 24 in
  let! changed := rd_le 8 data 32 in
  let! access := rd_le 8 data 40 in
  let! flags := rd_le 8 data 48 in
  let! links := rd_le 4 data 56 in
  let! owner := rd_le 4 data 72 in
  let! group := rd_le 4 data 76 in
  let! mode := rd_le 2 data 80 in
  let! (name, size, dev) := xf_parse inode_step false 92 data (None, 0, 0) in
  Ok {| in_parent := parent; in_stream := stream; in_mtime := mtime;
        in_created := created; in_changed := changed; in_access := access;
        in_flags := flags; in_links := links; in_owner := owner;
        in_group := group; in_mode := mode; in_name := name;
        in_size := size; in_device := dev |}.

(* libfsapfs_inode.c:1172-1215, get_device_identifier: None is result 0. *)
Definition inode_device_identifier (i : inode) : option Z :=
  let t := Z.land (in_mode i) 61440 in
  if (t =? 8192) || (t =? 24576) then Some (in_device i) else None.

(* libfsapfs_inode.c:1220-1281, get_device_number: None is result 0. *)
Definition inode_device_number (i : inode) : option (Z * Z) :=
  let t := Z.land (in_mode i) 61440 in
  let d := in_device i in
  if (t =? 8192) || (t =? 24576) then
    if Z.land d 4294901760 =? 0 then
      Some (Z.land (Z.shiftr d 8) 255, Z.land d 255)
    else if Z.land d 16776960 =? 0 then
      Some (Z.land (Z.shiftr d 24) 255, Z.land d 255)
    else None
  else None.

(* libfsapfs_file_extent.c:142-226, read_key_data: the logical offset. *)
Definition extent_key (data : list Z) : res Z :=
  let! _ := check (16 <=? len data) in
  rd_le 8 data 8.

(* libfsapfs_file_extent.c:231-332, read_value_data:
   data size, physical block number, encryption identifier. *)
Definition extent_value (data : list Z) : res (Z * Z * Z) :=
  let! _ := check (24 <=? len data) in
  let! s := rd_le 8 data 0 in
  let! p := rd_le 8 data 8 in
  let! e := rd_le 8 data 16 in
  Ok (Z.land s 72057594037927935, p, e).

(* libfsapfs_attribute_values.c:174-336, read_key_data: the name. *)
Definition attr_key (data : list Z) : res (list Z) :=
  let! _ := check (10 <=? len data) in
  let! ns := rd_le 2 data 8 in
  let! _ := check (negb (ns =? 0)) in
  let! _ := check (ns <=? len data - 10) in
  rd data 10 ns.

(* What an extended attribute value holds: a separate data stream (identifier and
   size), bytes stored in the record, or nothing. *)
Inductive attr_data :=
| AStream (id size : Z)
| AInline (data : list Z)
| ANone.

(* libfsapfs_attribute_values.c:341-589, read_value_data: flags and content.
   An inline attribute of size 0 leaves value_data NULL and value_data_size 0, the
   same state as no content: ANone. *)
Definition attr_value (data : list Z) : res (Z * attr_data) :=
  let! _ := check (4 <=? len data) in
  let! flags := rd_le 2 data 0 in
  let! ds := rd_le 2 data 2 in
  let! _ := check ((ds =? 0) || (ds <=? len data - 4)) in
  if negb (Z.land flags 1 =? 0) then
    let! _ := check (ds =? 48) in
    let! id := rd_le 8 data 4 in
    let! us := rd_le 8 data 12 in
    Ok (flags, AStream id us)
  else if negb (Z.land flags 2 =? 0) && (0 <? ds) then
    let! v := rd data 4 ds in
    Ok (flags, AInline v)
  else Ok (flags, ANone).

(* libfsapfs_snapshot_metadata.c:147-223, read_key_data: size check only. *)
Definition snap_key (data : list Z) : res unit := check (8 <=? len data).

(* libfsapfs_snapshot_metadata.c:228-456, read_value_data: block number of the
   volume superblock (an 8-byte field read as a 32-bit value, lines 289-291) and the
   name buffer. *)
Definition snap_value (data : list Z) : res (Z * list Z) :=
  let! _ := check (50 <=? len data) in
  let! b := rd_le 4 data 8 in
  let! ns := rd_le 2 data 48 in
  let! _ := check (negb (ns =? 0)) in
  let! _ := check (ns <=? len data - 50) in
  let! name := rd data 50 ns in
  Ok (b, name).
