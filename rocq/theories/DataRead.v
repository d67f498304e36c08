(* Model of reading the data of a file: libfsapfs_data_block_vector.c,
   libfsapfs_file_system_data_handle.c, libfsapfs_data_block.c,
   libfsapfs_data_block_data_handle.c, libfsapfs_buffer_data_handle.c and
   libfsapfs_data_stream.c. Block size 4096 and 512 bytes per sector (libfsapfs_io_handle.c
   clear, container superblock check). libfdata and libfcache are external: a vector is its
   list of segments cut in elements of 4096 bytes, a stream is one segment, caches do not
   change values. *)
From Verif Require Import Base Walk Omap FsTree Crypt.

(* n bytes of the device at a byte offset (libbfio_handle_read_buffer_at_offset); a short read
   is an error of the caller. n is at most 4096. *)
Definition read_bytes (img : image) (off n : Z) : res (list Z) :=
  let b := off / 4096 in
  let r := off mod 4096 in
  let! d := read_block img b in
  let! _ := check (r <=? len d) in
  let! x := rd d r (Z.min n (len d - r)) in
  if len x =? n then Ok x
  else
    let! _ := check (len d =? 4096) in
    let! d2 := read_block img (b + 1) in
    let! _ := check (n - len x <=? len d2) in
    let! y := rd d2 0 (n - len x) in
    Ok (x ++ y).

(* A segment of a vector: index of the extent, device offset, size, sparse. *)
Record segment := mk_seg { sg_index : Z; sg_off : Z; sg_size : Z; sg_sparse : bool }.

(* libfsapfs_data_block_vector.c 131-206; libfdata_vector_append_segment rejects offsets and
   sizes that are negative as off64_t. *)
Fixpoint segments (sparse : bool) (index logical : Z) (l : list extent) : res (list segment) :=
  match l with
  | [] => Ok []
  | e :: l =>
    let hole := sparse && (ex_block e =? 0) in
    let! _ := check (hole || (ex_off e =? logical)) in
    let off := w64 (ex_block e * 4096) in
    let! _ := check ((off <? 2 ^ 63) && (ex_size e <? 2 ^ 63)) in
    let! r := segments sparse (index + 1) (w64 (logical + ex_size e)) l in
    Ok (mk_seg index off (ex_size e) hole :: r)
  end.

(* libfdata_vector_get_size *)
Fixpoint vector_size (l : list segment) : Z :=
  match l with
  | [] => 0
  | s :: l => sg_size s + vector_size l
  end.

(* The segment at an offset of the vector, and the offset in it. *)
Fixpoint find_segment (l : list segment) (o : Z) : option (segment * Z) :=
  match l with
  | [] => None
  | s :: l => if o <? sg_size s then Some (s, o) else find_segment l (o - sg_size s)
  end.

Section Handle.
  Variables (img : image) (ctx : option (list Z -> list Z -> list Z)) (extents : list extent) (segs : list segment).

  (* libfsapfs_data_block.c 255-438 *)
  Definition data_block_read (off eid : Z) : res (list Z) :=
    let! d := read_bytes img off 4096 in
    match ctx with
    | None => Ok d
    | Some xts => crypt xts true d (zeros 4096) (w64 (eid * 4096) / 512) 512
    end.

  (* libfsapfs_file_system_data_handle.c 164-380, for element i of the vector. The extents are
     given: file_extents is NULL for tree nodes only. *)
  Definition read_data_block (i : Z) : res (list Z) :=
    match find_segment segs (i * 4096) with
    | None => Fail
    | Some (s, so) =>
      if sg_sparse s then Ok (zeros 4096)
      else
        let off := sg_off s + so in
        let! _ := check (off <? 2 ^ 63) in
        let eid := off / 4096 in
        let! e := getb extents (sg_index s) in
        data_block_read off (w64 (ex_crypto e + (eid - ex_block e)))
    end.

  (* libfsapfs_data_block_data_handle.c 359-445: the loop; cur is current_offset. Element
     indices of libfdata are of type int. *)
  Fixpoint read_loop (fuel : nat) (cur n : Z) : res (list Z) :=
    if n <=? 0 then Ok []
    else
      match fuel with
      | O => Fuel
      | S fuel =>
        let! _ := check (cur / 4096 <=? int_max) in
        let! blk := read_data_block (cur / 4096) in
        let! _ := check (cur mod 4096 <? len blk) in
        let r := Z.min (len blk - cur mod 4096) n in
        let! d := rd blk (cur mod 4096) r in
        if vector_size segs <=? cur + r then Ok d
        else
          let! rest := read_loop fuel (cur + r) (n - r) in
          Ok (d ++ rest)
      end.

  (* libfsapfs_data_block_data_handle.c 279-447, read_segment_data *)
  Definition handle_read (cur n : Z) : res (list Z) :=
    let! _ := check ((0 <=? cur) && (n <=? 2 ^ 63 - 1)) in
    if vector_size segs <=? cur then Ok [] else read_loop (Z.to_nat (n / 4096 + 2)) cur n.
End Handle.

(* libfsapfs_buffer_data_handle.c 167-268, read_segment_data *)
Definition buffer_read (data : list Z) (cur n : Z) : res (list Z) :=
  let! _ := check ((0 <=? cur) && (n <=? 2 ^ 63 - 1)) in
  if len data <=? cur then Ok [] else rd data cur (Z.min (len data - cur) n).

(* A stream: its size and the read function of its handle. *)
Record stream := mk_stream { st_size : Z; st_read : Z -> Z -> res (list Z) }.

(* libfsapfs_data_stream.c 39-135 *)
Definition stream_of_data (data : list Z) : stream := mk_stream (len data) (buffer_read data).

(* libfsapfs_data_stream.c 141-253 with libfsapfs_data_block_data_handle.c 43-203 *)
Definition stream_of_extents (img : image) (ctx : option (list Z -> list Z -> list Z)) (extents : list extent) (size : Z) (sparse : bool) : res stream :=
  let! segs := segments sparse 0 0 extents in
  Ok (mk_stream size (handle_read img ctx extents segs)).

(* libfdata_stream_read_buffer_at_offset (external): negative offsets and sizes over SSIZE_MAX
   are errors; reads are cut at the size of the stream; then one read of the handle. *)
Definition stream_read (s : stream) (off n : Z) : res (list Z) :=
  let! _ := check ((0 <=? off) && (0 <=? n) && (n <=? 2 ^ 63 - 1)) in
  if st_size s <=? off then Ok []
  else st_read s off (Z.min n (st_size s - off)).

(* Calls on an open file entry. libfsapfs_file_entry.c 4520-4612 (read_buffer), 4617-4711
   (read_buffer_at_offset), 4716-4806 (seek_offset), 4811-4897 (get_offset), with
   libfdata_stream_read_buffer, _seek_offset (whence 0: start, 1: current, 2: end; an offset past
   the end is allowed) and _get_offset. A failed call leaves the offset as it is, except that
   read_buffer_at_offset has moved it. *)
Inductive call := Read (n : Z) | ReadAt (off n : Z) | Seek (off whence : Z) | Offset.
Inductive answer := Bytes (d : list Z) | Position (o : Z) | Error.
Definition call_step (s : stream) (cur : Z) (c : call) : res (answer * Z) :=
  let done off r :=
    match r with
    | Ok d => Ok (Bytes d, off + len d)
    | Fail => Ok (Error, off)
    | Oob => Oob
    | Fuel => Fuel
    end in
  match c with
  | Read n => done cur (stream_read s cur n)
  | ReadAt off n => if off <? 0 then Ok (Error, cur) else done off (stream_read s off n)
  | Seek off w =>
    let base := if w =? 0 then Some 0 else if w =? 1 then Some cur else if w =? 2 then Some (st_size s) else None in
    match base with
    | None => Ok (Error, cur)
    | Some b => if b + off <? 0 then Ok (Error, cur) else Ok (Position (b + off), b + off)
    end
  | Offset => Ok (Position cur, cur)
  end.
Fixpoint calls (s : stream) (cur : Z) (l : list call) : res (list answer * Z) :=
  match l with
  | [] => Ok ([], cur)
  | c :: l =>
    let! (a, cur) := call_step s cur c in
    let! (r, cur) := calls s cur l in
    Ok (a :: r, cur)
  end.
