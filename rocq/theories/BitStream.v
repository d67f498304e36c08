(* Model of libfsapfs/libfsapfs_bit_stream.c (byte back-to-front storage, the
   only storage type the DEFLATE decoder uses). *)
From Verif Require Import Base.

(* libfsapfs_bit_stream.h 51-75: the fields byte_stream (and byte_stream_size, its
   length), byte_stream_offset, bit_buffer, bit_buffer_size. *)
Record bit_stream := mk_bs {
  bs_data : list Z;
  bs_off  : Z;
  bs_buf  : Z;
  bs_size : Z
}.

(* libfsapfs_bit_stream.c 35-124 (initialize): everything zero but the offset. *)
Definition bs_init (data : list Z) (off : Z) : bit_stream := mk_bs data off 0 0.

(* libfsapfs_bit_stream.c 240-265: inner loop filling the bit buffer. *)
Fixpoint bs_fill (fuel : nat) (rem : Z) (s : bit_stream) : res bit_stream :=
  match fuel with
  | O => Fuel
  | S f =>
    if (bs_size s <? rem) && (bs_size s <=? 24) then
      let! _ := check (bs_off s <? len (bs_data s)) in
      let! b := getb (bs_data s) (bs_off s) in
      bs_fill f rem
        (mk_bs (bs_data s) (bs_off s + 1)
           (Z.lor (bs_buf s) (w32 (Z.shiftl b (bs_size s))))
           (w8 (bs_size s + 8)))
    else Ok s
  end.

(* libfsapfs_bit_stream.c 238-308: outer loop. [n] is number_of_bits, [rem] is
   remaining_number_of_bits, [safe] is safe_value_32bit. *)
Fixpoint bs_loop (fuel : nat) (n rem safe : Z) (s : bit_stream) : res (Z * bit_stream) :=
  match fuel with
  | O => Fuel
  | S f =>
    if 0 <? rem then
      let! s := bs_fill 6 rem s in
      let rn := if rem <? bs_size s then rem else bs_size s in
      let rv := bs_buf s in
      let safe := if rem <? n then w32 (Z.shiftl safe rem) else safe in
      let rv' := if rn <? 32 then Z.land rv (Z.ones rn) else rv in
      let buf := if rn <? 32 then Z.shiftr rv rn else rv in
      let size := bs_size s - rn in
      let buf := if size =? 0 then 0 else buf in
      bs_loop f n (rem - rn) (Z.lor safe rv')
        (mk_bs (bs_data s) (bs_off s) buf size)
    else Ok (safe, s)
  end.

(* libfsapfs_bit_stream.c 191-312: libfsapfs_bit_stream_get_value. *)
Definition bs_get (s : bit_stream) (n : Z) : res (Z * bit_stream) :=
  let! _ := check (n <=? 32) in
  bs_loop 33 n n 0 s.

(* A caller reading a sequence of values. *)
Fixpoint bs_get_list (s : bit_stream) (ns : list Z) : res (list Z * bit_stream) :=
  match ns with
  | [] => Ok ([], s)
  | n :: r =>
    let! (v, s) := bs_get s n in
    let! (vs, s) := bs_get_list s r in
    Ok (v :: vs, s)
  end.
