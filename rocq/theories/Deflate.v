(* Model of libfsapfs/libfsapfs_deflate.c (the Adler-32 part is in Checksum.v). *)
From Verif Require Import Base Checksum BitStream Huffman.

(* libfsapfs_deflate.c 33-35 *)
Definition code_sizes_sequence : list Z :=
  [16; 17; 18; 0; 8; 7; 9; 6; 10; 5; 11; 4; 12; 3; 13; 2; 14; 1; 15].
(* libfsapfs_deflate.c 37-39 *)
Definition literal_codes_base : list Z :=
  [3; 4; 5; 6; 7; 8; 9; 10; 11; 13; 15; 17; 19; 23; 27; 31;
   35; 43; 51; 59; 67; 83; 99; 115; 131; 163; 195; 227; 258].
(* libfsapfs_deflate.c 41-43 *)
Definition literal_codes_extra : list Z :=
  [0; 0; 0; 0; 0; 0; 0; 0; 1; 1; 1; 1; 2; 2; 2; 2;
   3; 3; 3; 3; 4; 4; 4; 4; 5; 5; 5; 5; 0].
(* libfsapfs_deflate.c 45-48 *)
Definition distance_codes_base : list Z :=
  [1; 2; 3; 4; 5; 7; 9; 13; 17; 25; 33; 49; 65; 97; 129; 193;
   257; 385; 513; 769; 1025; 1537; 2049; 3073; 4097; 6145; 8193;
   12289; 16385; 24577].
(* libfsapfs_deflate.c 50-52 *)
Definition distance_codes_extra : list Z :=
  [0; 0; 0; 0; 1; 1; 2; 2; 3; 3; 4; 4; 5; 5; 6; 6;
   7; 7; 8; 8; 9; 9; 10; 10; 11; 11; 12; 12; 13; 13].

(* libfsapfs_deflate.c 124-152: the code sizes of the code-size codes. [i] is
   code_size_index, [n] number_of_code_sizes; indexes from n to 18 get 0. *)
Fixpoint read_code_sizes (fuel : nat) (i n : Z) (arr : list Z) (s : bit_stream)
  : res (list Z * bit_stream) :=
  match fuel with
  | O => Ok (arr, s)
  | S f =>
    let! (v, s) := (if i <? n then bs_get s 3 else Ok (0, s)) in
    let! q := getb code_sizes_sequence i in
    let! arr := setb arr q (w8 v) in
    read_code_sizes f (i + 1) n arr s
  end.

(* libfsapfs_deflate.c 304-309: write a code size [k] times at index [i]. *)
Fixpoint repeat_code_size (k : nat) (i v : Z) (arr : list Z) : res (list Z) :=
  match k with
  | O => Ok arr
  | S m => let! arr := setb arr i v in repeat_code_size m (i + 1) v arr
  end.

(* libfsapfs_deflate.c 187-310: the run-length encoded code sizes. *)
Fixpoint read_sizes (fuel : nat) (codes : huffman) (i n : Z) (arr : list Z) (s : bit_stream)
  : res (list Z * bit_stream) :=
  match fuel with
  | O => Fuel
  | S f =>
    if i <? n then
      let! (sym, s) := huff_get codes s in
      if sym <? 16 then
        let! arr := setb arr i (w8 sym) in
        read_sizes f codes (i + 1) n arr s
      else
        let! (v, times, s) :=
          (if sym =? 16 then
             let! _ := check (negb (i =? 0)) in
             let! v := getb arr (i - 1) in
             let! (t, s) := bs_get s 2 in
             Ok (v, t + 3, s)
           else if sym =? 17 then
             let! (t, s) := bs_get s 3 in Ok (0, t + 3, s)
           else if sym =? 18 then
             let! (t, s) := bs_get s 7 in Ok (0, t + 11, s)
           else Fail) in
        let! _ := check (i + times <=? n) in
        let! arr := repeat_code_size (Z.to_nat times) i v arr in
        read_sizes f codes (i + times) n arr s
    else Ok (arr, s)
  end.

(* libfsapfs_deflate.c 57-375: libfsapfs_deflate_build_dynamic_huffman_trees; the
   two trees are those of lines 1316-1345 (288 and 30 symbols, 15 bits). The
   array code_size_array[316] starts uninitialised; the model starts with 0 (every
   element read is written before). *)
Definition build_dynamic (s : bit_stream) : res (huffman * huffman * bit_stream) :=
  let! (v, s) := bs_get s 14 in
  let nlit := Z.land v 31 + 257 in
  let ndist := Z.land (Z.shiftr v 5) 31 + 1 in
  let ncodes := Z.shiftr v 10 + 4 in
  let! _ := check (nlit <=? 286) in
  let! _ := check (ndist <=? 30) in
  let! (arr, s) := read_code_sizes 19 0 ncodes (zeros 316) s in
  let! cl := rd arr 0 19 in
  let! (r, codes) := huff_build (huff_init 19 15) cl in
  let! _ := check (r =? 1) in
  let n := nlit + ndist in
  let! (arr, s) := read_sizes 317 codes 0 n arr s in
  let! eob := getb arr 256 in
  let! _ := check (negb (eob =? 0)) in
  let! la := rd arr 0 nlit in
  let! (r, lit) := huff_build (huff_init 288 15) la in
  let! _ := check (r =? 1) in
  let! da := rd arr nlit ndist in
  let! (r, dist) := huff_build (huff_init 30 15) da in
  let! _ := check (r =? 1) in
  Ok (lit, dist, s).

(* libfsapfs_deflate.c 390-414 *)
Definition fixed_size (sym : Z) : Z :=
  if sym <? 144 then 8
  else if sym <? 256 then 9
  else if sym <? 280 then 7
  else if sym <? 288 then 8
  else 5.
Definition fixed_sizes : list Z := map (fun k => fixed_size (Z.of_nat k)) (seq 0 318).

(* libfsapfs_deflate.c 380-446: libfsapfs_deflate_build_fixed_huffman_trees *)
Definition build_fixed : res (huffman * huffman) :=
  let! la := rd fixed_sizes 0 288 in
  let! (r, lit) := huff_build (huff_init 288 15) la in
  let! _ := check (r =? 1) in
  let! da := rd fixed_sizes 288 30 in
  let! (r, dist) := huff_build (huff_init 30 15) da in
  let! _ := check (r =? 1) in
  Ok (lit, dist).

(* The output buffer of [cap] bytes: only the part written so far ([out], of
   length data_offset) is kept. A store outside the buffer is Oob. *)
Definition put (cap : Z) (out : list Z) (b : Z) : res (list Z) :=
  if len out <? cap then Ok (out ++ [b]) else Oob.

(* libfsapfs_deflate.c 615-621: copy of a match *)
Fixpoint copy_match (k : nat) (dist cap : Z) (out : list Z) : res (list Z) :=
  match k with
  | O => Ok out
  | S m =>
    let! b := getb out (len out - dist) in
    let! out := put cap out b in
    copy_match m dist cap out
  end.

(* libfsapfs_deflate.c 503-636: the symbol loop of decode_huffman *)
Fixpoint decode_loop (fuel : nat) (lit dist : huffman) (cap : Z) (out : list Z) (s : bit_stream)
  : res (list Z * bit_stream) :=
  match fuel with
  | O => Fuel
  | S f =>
    let! (sym, s) := huff_get lit s in
    if sym <? 256 then
      let! _ := check (negb (cap <=? len out)) in
      let! out := put cap out (w8 sym) in
      decode_loop f lit dist cap out s
    else if (256 <? sym) && (sym <? 286) then
      let sym := sym - 257 in
      let! eb := getb literal_codes_extra sym in
      let! (extra, s) := bs_get s (w8 eb) in
      let! base := getb literal_codes_base sym in
      let size := w16 (base + w16 extra) in
      let! (dsym, s) := huff_get dist s in
      let! eb := getb distance_codes_extra dsym in
      let! (extra, s) := bs_get s (w8 eb) in
      let! base := getb distance_codes_base dsym in
      let d := w16 (base + w16 extra) in
      let! _ := check (negb (len out <? d)) in
      let! _ := check (negb (cap <? len out + size)) in
      let! out := copy_match (Z.to_nat size) d cap out in
      decode_loop f lit dist cap out s
    else
      let! _ := check (sym =? 256) in
      Ok (out, s)
  end.

(* Recursion budget: one more than the number of bits of the input. *)
Definition bit_fuel (data : list Z) : nat := S (8 * length data).

(* libfsapfs_deflate.c 451-641: libfsapfs_deflate_decode_huffman *)
Definition decode_huffman (lit dist : huffman) (cap : Z) (out : list Z) (s : bit_stream)
  : res (list Z * bit_stream) :=
  decode_loop (bit_fuel (bs_data s)) lit dist cap out s.

(* libfsapfs_deflate.c 1023-1118: libfsapfs_deflate_read_block_header *)
Definition read_block_header (s : bit_stream) : res (Z * Z * bit_stream) :=
  let! (v, s) := bs_get s 3 in
  Ok (Z.land v 1, Z.shiftr v 1, s).

(* libfsapfs_deflate.c 1123-1436: libfsapfs_deflate_read_block. A bit stream is
   passed by reference; the fixed trees are passed by the caller. *)
Definition read_block (btype : Z) (fixed : huffman * huffman) (cap : Z) (out : list Z)
    (s : bit_stream) : res (list Z * bit_stream) :=
  if btype =? 0 then
    let skip := Z.land (bs_size s) 7 in
    let! s := (if 0 <? skip then let! (_, s) := bs_get s skip in Ok s else Ok s) in
    let! (v, s) := bs_get s 32 in
    let size := Z.land v 65535 in
    let copy := Z.lxor (Z.shiftr v 16) 65535 in
    let! _ := check (size =? copy) in
    if size =? 0 then Ok (out, s)
    else
      let! _ := check (negb (len (bs_data s) - bs_off s <? size)) in
      let! _ := check (negb (cap - len out <? size)) in
      let! b := rd (bs_data s) (bs_off s) size in
      let! _ := (if len out + size <=? cap then Ok tt else Oob) in
      Ok (out ++ b, mk_bs (bs_data s) (bs_off s + size) 0 0)
  else if btype =? 1 then
    decode_huffman (fst fixed) (snd fixed) cap out s
  else if btype =? 2 then
    let! (lit, dist, s) := build_dynamic s in
    decode_huffman lit dist cap out s
  else Fail.

(* libfsapfs_deflate.c 1543-1634 (decompress) and 1828-1919 (decompress_zlib): the
   block loop. The fixed trees are built by the C code at the first fixed block;
   building them does not depend on the stream, so the model builds them for each
   fixed block. *)
Fixpoint block_loop (fuel : nat) (cap : Z) (out : list Z) (s : bit_stream)
  : res (list Z * bit_stream) :=
  match fuel with
  | O => Fuel
  | S f =>
    if bs_off s <? len (bs_data s) then
      let! (last, btype, s) := read_block_header s in
      let! fixed := (if btype =? 1 then build_fixed
                     else Ok (huff_init 288 15, huff_init 30 15)) in
      let! (out, s) := read_block btype fixed cap out s in
      if negb (last =? 0) then Ok (out, s)
      else block_loop f cap out s
    else Ok (out, s)
  end.

(* libfsapfs_deflate.c 1441-1704: libfsapfs_deflate_decompress; the result is the
   decompressed data (its length is *uncompressed_data_size on return). [cap] is
   the size of the output buffer. *)
Definition deflate_decompress (data : list Z) (cap : Z) : res (list Z) :=
  let! _ := check (negb (len data =? 0)) in
  let! (out, _) := block_loop (bit_fuel data) cap [] (bs_init data 0) in
  Ok out.

(* libfsapfs_deflate.c 894-1018: libfsapfs_deflate_read_data_header called with
   offset 0; returns the offset after the header. *)
Definition read_data_header (data : list Z) : res Z :=
  let! _ := check (2 <=? len data) in
  let! b0 := getb data 0 in
  let! flags := getb data 1 in
  let method := Z.land b0 15 in
  let info := Z.shiftr b0 4 in
  let! off :=
    (if negb (Z.land flags 32 =? 0) then
       let! _ := check (negb ((len data <? 6) || (len data - 6 <? 2))) in
       let! _ := rd_be 4 data 2 in
       Ok 6
     else Ok 2) in
  let! _ := check (method =? 8) in
  let! _ := check (negb (32768 <? Z.shiftl 1 (info + 8))) in
  Ok off.

(* libfsapfs_deflate.c 1922-1926: whole bytes left in the bit buffer are given
   back. *)
Fixpoint unread_bytes (fuel : nat) (s : bit_stream) : res bit_stream :=
  match fuel with
  | O => Fuel
  | S f =>
    if 8 <=? bs_size s then
      unread_bytes f (mk_bs (bs_data s) (bs_off s - 1) (bs_buf s) (bs_size s - 8))
    else Ok s
  end.

(* libfsapfs_deflate.c 1709-2030: libfsapfs_deflate_decompress_zlib *)
Definition zlib_decompress (data : list Z) (cap : Z) : res (list Z) :=
  let! _ := check (negb (len data =? 0)) in
  let! off := read_data_header data in
  let! _ := check (negb (len data <=? off)) in
  let! (out, s) := block_loop (bit_fuel data) cap [] (bs_init data off) in
  if 4 <=? len data - bs_off s then
    let! s := unread_bytes 5 s in
    let! stored := rd_be 4 data (bs_off s) in
    let! calc := calculate_adler32 out 1 in
    let! _ := check (stored =? calc) in
    Ok out
  else Ok out.
