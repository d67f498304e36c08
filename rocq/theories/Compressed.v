(* Model of compressed files: libfsapfs_compression.c, libfsapfs_compressed_data_header.c
   and libfsapfs_compressed_data_handle.c. The built-in zlib decompressor is used
   (HAVE_ZLIB not defined). *)
From Verif Require Import Base Deflate.

(* libfsapfs_definitions.h.in 87-95 *)
Definition METHOD_DEFLATE : Z := 1.
Definition METHOD_LZVN : Z := 3.
Definition METHOD_UNKNOWN5 : Z := 5.

(* libfsapfs_compressed_data_handle.c 35 *)
Definition BLOCK : Z := 65536.

(* libfdata_stream_read_buffer_at_offset on a stream with content C (external
   library): negative offsets and requests over SSIZE_MAX are errors, otherwise as many
   bytes as there are. *)
Definition stream_read (C : list Z) (off n : Z) : res (list Z) :=
  let! _ := check ((0 <=? off) && (0 <=? n) && (n <=? 2 ^ 63 - 1)) in
  Ok (slice C off (Z.min n (len C - off))).

(* A compressed data stream: its size and libfdata_stream_read_buffer_at_offset on it; and
   the stream with content C. *)
Record source := mk_src { src_size : Z; src_read : Z -> Z -> res (list Z) }.
Definition mem (C : list Z) : source := mk_src (len C) (stream_read C).

(* A write of data at an offset of a buffer. *)
Definition store (buf : list Z) (off : Z) (data : list Z) : res (list Z) :=
  if (0 <=? off) && (off + len data <=? len buf) then
    Ok (firstn (Z.to_nat off) buf ++ data ++ skipn (Z.to_nat (off + len data)) buf)
  else Oob.

(* Read n bytes at off of the stream into buf[pos..]; an error unless all are there. *)
Definition read_into (src : source) (buf : list Z) (pos off n : Z) : res (list Z) :=
  let! d := src_read src off n in
  let! buf := store buf pos d in
  let! _ := check (len d =? n) in
  Ok buf.

(* libfsapfs_compressed_data_header.c 139-235:
   libfsapfs_compressed_data_header_read_data; None is the return value 0. *)
Definition read_compressed_header (data : list Z) : res (option (Z * Z)) :=
  let! _ := check (16 <=? len data) in
  let! sig := rd data 0 4 in
  if negb (le_val sig =? 0x636d7066) then Ok None else
  let! method := rd_le 4 data 4 in
  let! size := rd_le 8 data 8 in
  Ok (Some (method, size)).

(* libfsapfs_compressed_data_handle.c 612-669: the remaining entries of the table.
   [pos] is segment_data_offset, [skip] the bytes skipped after each offset, [add]
   compressed_descriptors_offset, [acc] compressed_block_offsets in reverse order. *)
Fixpoint table_loop (k : nat) (buf : list Z) (pos skip add prev : Z) (acc : list Z) : res (list Z * Z) :=
  match k with
  | O => Ok (acc, prev)
  | S k =>
    let! o := rd_le 4 buf pos in
    let o := w32 (o + add) in
    let! _ := check (negb ((o <? prev) || (BLOCK + 1 <? o - prev))) in
    table_loop k buf (pos + 4 + skip) skip add o (o :: acc)
  end.

(* libfsapfs_compressed_data_handle.c 236-801:
   libfsapfs_compressed_data_handle_get_compressed_block_offsets. src is the
   compressed data stream. The result is compressed_block_offsets, whose length is
   number_of_compressed_blocks + 1. compressed_segment_data is a buffer of BLOCK + 1
   bytes. The footer is read with size 0 (694-741; its size is only set in debug output
   code). *)
Definition get_block_offsets (method : Z) (src : source) : res (list Z) :=
  let size := src_size src in
  let! buf := read_into src (zeros (BLOCK + 1)) 0 0 4 in
  let! sig := rd buf 0 4 in
  let inline := le_val sig =? 0x636d7066 in
  (* 320-487: number of blocks, first offset, segment_data_offset, descriptor size,
     descriptors offset *)
  let! (buf, n, first, pos, dsize, add) :=
    (if inline then
       let! _ := check (negb (BLOCK + 1 <? size)) in
       Ok (buf, 1, 0, 0, 0, 0)
     else if method =? METHOD_DEFLATE then
       let! doff := rd_be 4 buf 0 in
       let! _ := check (doff =? 0x100) in
       let! buf := read_into src buf 4 4 (doff + 16 - 4) in
       let! n := rd_le 4 buf 260 in
       let! _ := check (negb ((2 ^ 32 - 1) / 8 <? n)) in
       let! first := rd_le 4 buf 264 in
       Ok (buf, n, first, 268, 8, doff + 4)
     else if method =? METHOD_LZVN then
       let! first := rd_le 4 buf 0 in
       let! _ := check (negb ((first <=? 4) || (BLOCK + 1 <=? first))) in
       Ok (buf, first / 4, first, 4, 4, 0)
     else Ok (buf, 0, 0, 0, 0, 0)) in
  (* 497: MEMORY_MAXIMUM_ALLOCATION_SIZE is 128 MiB *)
  let! _ := check (negb (134217728 / 4 - 1 <? n)) in
  let! (acc, prev, buf) :=
    (if inline then Ok ([16], 16, buf)
     else
       let! buf := read_into src buf pos pos (w64 (w64 (n - 1) * dsize)) in
       let! _ := check (negb ((first <=? dsize) || (BLOCK + 1 <=? first))) in
       let first := w32 (first + add) in
       let skip := if method =? METHOD_DEFLATE then 4 else 0 in
       let! (acc, prev) := table_loop (Z.to_nat (n - 1)) buf (pos + skip) skip add first [first] in
       Ok (acc, prev, buf)) in
  let! _ := check (negb ((size <? prev) || (BLOCK + 1 <? size - prev))) in
  let offs := rev (w32 size :: acc) in
  let! _ :=
    (if method =? METHOD_UNKNOWN5 then
       let! _ := check (negb (2 ^ 63 - 1 <? size)) in
       let! _ := read_into src buf 0 16 (w64 (size - 16)) in
       Ok tt
     else Ok tt) in
  Ok offs.

Section Decompress.

(* libfmos_lzvn_decompress (external library): compressed data, size of the output
   buffer. *)
Variable lzvn : list Z -> Z -> res (list Z).

(* libfsapfs_compression.c 44-391: libfsapfs_decompress_data with the method and an
   output buffer of cap bytes. *)
Definition decompress_data (method : Z) (data : list Z) (cap : Z) : res (list Z) :=
  if method =? METHOD_DEFLATE then
    if (1 <=? len data) && (nth 0 data 0 =? 0xff) then
      let! _ := check (negb (cap <? len data - 1)) in
      rd data 1 (len data - 1)
    else zlib_decompress data cap
  else if method =? METHOD_LZVN then
    if (1 <=? len data) && (nth 0 data 0 =? 0x06) then
      let! _ := check (negb (cap <? len data - 1)) in
      rd data 1 (len data - 1)
    else lzvn data cap
  else Fail.

End Decompress.

Section Handle.

Variable dec : list Z -> Z -> res (list Z).      (* decompress_data with its method *)
(* Contents of the output buffer after a failed decompression. *)
Variable junk : list Z -> list Z -> list Z.
Variable method : Z.
Variable src : source.                           (* compressed data stream *)
Variable usize : Z.                              (* uncompressed_data_size *)

(* libfsapfs_compressed_data_handle.h: the mutable fields. *)
Record chandle := mk_ch {
  ch_offs : option (list Z);   (* compressed_block_offsets *)
  ch_cur : Z;                  (* current_segment_offset *)
  ch_idx : Z;                  (* current_compressed_block_index *)
  ch_seg : list Z;             (* segment_data: BLOCK bytes *)
  ch_size : Z                  (* segment_data_size *)
}.

(* libfsapfs_compressed_data_handle.c 41-186: libfsapfs_compressed_data_handle_initialize *)
Definition ch_init : chandle := mk_ch None 0 (2 ^ 32 - 1) (zeros BLOCK) 0.

(* 1074-1123: libfsapfs_compressed_data_handle_seek_segment_offset *)
Definition ch_seek (h : chandle) (off : Z) : chandle :=
  mk_ch (ch_offs h) off (ch_idx h) (ch_seg h) (ch_size h).

Definition set_seg (h : chandle) (idx : Z) (seg : list Z) (size : Z) : chandle :=
  mk_ch (ch_offs h) (ch_cur h) idx seg size.

(* 944-956: read the compressed data of block i into compressed_segment_data. *)
Definition block_data (offs : list Z) (i : Z) : res (list Z) :=
  let! o := getb offs i in
  let! e := getb offs (i + 1) in
  let n := w64 (e - o) in
  let! d := src_read src o n in
  let! _ := (if BLOCK + 1 <? len d then Oob else Ok tt) in
  let! _ := check (len d =? n) in
  Ok d.

(* 942-1027: load block i unless it is the current one. *)
Definition load_block (h : chandle) (offs : list Z) (i : Z) : res unit * chandle :=
  if ch_idx h =? i then (Ok tt, h)
  else
    match block_data offs i with
    | Ok d =>
      match dec d BLOCK with
      | Ok out =>
        let h' := set_seg h (ch_idx h) (out ++ skipn (length out) (ch_seg h)) (len out) in
        if (w32 ((i + 1) * BLOCK) <? usize) && negb (len out =? BLOCK) then (Fail, h')
        else (Ok tt, set_seg h' i (ch_seg h') (ch_size h'))
      | Fail => (Fail, set_seg h (ch_idx h) (junk d (ch_seg h)) BLOCK)
      | Oob => (Oob, h)
      | Fuel => (Fuel, h)
      end
    | Fail => (Fail, h)
    | Oob => (Oob, h)
    | Fuel => (Fuel, h)
    end.

(* 929-1064: the copy loop; [n] bytes left, [acc] is the output so far. At most one
   iteration per byte. *)
Fixpoint read_loop (fuel : nat) (h : chandle) (offs : list Z) (i doff n : Z) (acc : list Z)
  : res (list Z) * chandle :=
  if 0 <? n then
    match fuel with
    | O => (Fuel, h)
    | S f =>
      if len offs - 1 <=? i then (Fail, h)
      else
        match load_block h offs i with
        | (Ok _, h) =>
          if ch_size h <=? doff then (Fail, h)
          else
            let rs := Z.min (ch_size h - doff) n in
            match rd (ch_seg h) doff rs with
            | Ok d => read_loop f h offs (w32 (i + 1)) 0 (n - rs) (acc ++ d)
            | _ => (Oob, h)
            end
        | (Fail, h) => (Fail, h)
        | (Oob, h) => (Oob, h)
        | (Fuel, h) => (Fuel, h)
        end
    end
  else (Ok acc, h).

(* 807-1068: libfsapfs_compressed_data_handle_read_segment_data *)
Definition ch_read (h : chandle) (n : Z) : res (list Z) * chandle :=
  match (match ch_offs h with Some o => Ok o | None => get_block_offsets method src end) with
  | Ok offs =>
    let h := mk_ch (Some offs) (ch_cur h) (ch_idx h) (ch_seg h) (ch_size h) in
    if usize <=? ch_cur h then (Ok [], h)
    else if method =? METHOD_UNKNOWN5 then
      let rs := Z.min n (usize - ch_cur h) in
      (Ok (zeros rs), ch_seek h (ch_cur h + rs))
    else
      match read_loop (Z.to_nat n) h offs (w32 (ch_cur h / BLOCK)) (ch_cur h mod BLOCK) n [] with
      | (Ok out, h) => (Ok out, ch_seek h (ch_cur h + len out))
      | (r, h) => (r, h)
      end
  | Fail => (Fail, h)
  | Oob => (Oob, h)
  | Fuel => (Fuel, h)
  end.

(* libfdata_stream_read_buffer_at_offset on the data stream of the file (external
   library): seek, and read as much of the requested range as lies before the end of
   the stream (usize bytes). *)
Definition file_read (h : chandle) (off n : Z) : res (list Z) * chandle :=
  if usize <=? off then (Ok [], h)
  else ch_read (ch_seek h off) (Z.min n (usize - off)).

(* A history of reads. *)
Fixpoint file_reads (h : chandle) (ops : list (Z * Z)) : list (res (list Z)) * chandle :=
  match ops with
  | [] => ([], h)
  | (off, n) :: r =>
    let (x, h) := file_read h off n in
    let (xs, h) := file_reads h r in
    (x :: xs, h)
  end.

End Handle.
