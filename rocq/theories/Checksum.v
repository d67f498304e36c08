(* Model of libfsapfs/libfsapfs_checksum.c and of the Adler-32 function of
   libfsapfs/libfsapfs_deflate.c. *)
From Verif Require Import Base.

(* libfsapfs_checksum.c lines 52-64: one bit step of the table construction. *)
Definition crc_table_bit (polynomial checksum : Z) : Z :=
  if Z.eqb (Z.land checksum 1) 1
  then Z.lxor polynomial (Z.shiftr checksum 1)
  else Z.shiftr checksum 1.

Fixpoint crc_table_bits (n : nat) (polynomial checksum : Z) : Z :=
  match n with
  | O => checksum
  | S m => crc_table_bits m polynomial (crc_table_bit polynomial checksum)
  end.

(* libfsapfs_checksum.c lines 46-66: libfsapfs_checksum_initialize_crc32_table. *)
Definition crc32_table (polynomial : Z) : list Z :=
  map (fun i => crc_table_bits 8 polynomial (Z.of_nat i)) (seq 0 256).

(* libfsapfs_checksum.c lines 125-132: the byte loop. The table lookup is checked. *)
Fixpoint weak_crc32_loop (table : list Z) (buffer : list Z) (safe_checksum : Z) : res Z :=
  match buffer with
  | [] => Ok safe_checksum
  | b :: rest =>
      let table_index := Z.land (Z.lxor safe_checksum b) 255 in
      let! t := getb table table_index in
      weak_crc32_loop table rest (Z.lxor t (Z.shiftr safe_checksum 8))
  end.

(* libfsapfs_checksum.c lines 73-136: libfsapfs_checksum_calculate_weak_crc32.
   Not modelled: the check size > SSIZE_MAX; the one-time initialisation flag
   (the table is a constant here). *)
Definition calculate_weak_crc32 (buffer : list Z) (initial_value : Z) : res Z :=
  weak_crc32_loop (crc32_table 0x82f63b78) buffer initial_value.

(* libfsapfs_checksum.c lines 201-211: 64-bit accumulators, wrap written out.
   Consumes 4 bytes per iteration; a partial group would be a read beyond the
   buffer. *)
Fixpoint fletcher64_loop (buffer : list Z) (lower_32bit upper_32bit : Z) : res (Z * Z) :=
  match buffer with
  | [] => Ok (lower_32bit, upper_32bit)
  | b0 :: b1 :: b2 :: b3 :: rest =>
      let value_32bit := le_val [b0; b1; b2; b3] in
      let lower' := w64 (lower_32bit + value_32bit) in
      let upper' := w64 (upper_32bit + lower') in
      fletcher64_loop rest lower' upper'
  | _ => Oob
  end.

(* libfsapfs_checksum.c lines 141-221: libfsapfs_checksum_calculate_fletcher64.
   Not modelled: the check size > SSIZE_MAX. *)
Definition calculate_fletcher64 (buffer : list Z) (initial_value : Z) : res Z :=
  let! _ := check (Z.eqb (len buffer mod 4) 0) in
  let lower0 := Z.land initial_value 0xffffffff in
  let upper0 := Z.land (Z.shiftr initial_value 32) 0xffffffff in
  let! (lower1, upper1) := fletcher64_loop buffer lower0 upper0 in
  let lower2 := lower1 mod 0xffffffff in
  let upper2 := upper1 mod 0xffffffff in
  let value := w32 (0xffffffff - (lower2 + upper2) mod 0xffffffff) in
  let upper3 := 0xffffffff - (lower2 + value) mod 0xffffffff in
  Ok (w64 (Z.lor (Z.shiftl upper3 32) value)).

(* libfsapfs_deflate.c lines 706-752 / 794-849: one byte step repeated; the 16-fold
   unrolling of the source is the same two statements and is not reproduced. *)
Fixpoint adler32_acc (data : list Z) (lower_word upper_word : Z) : Z * Z :=
  match data with
  | [] => (lower_word, upper_word)
  | b :: rest =>
      let lower' := w32 (lower_word + b) in
      let upper' := w32 (upper_word + lower') in
      adler32_acc rest lower' upper'
  end.

(* libfsapfs_deflate.c lines 757-770, 774-787, 854-867, 871-884. *)
Definition adler32_reduce (x : Z) : Z :=
  let v := Z.shiftr x 16 in
  let x1 := w32 (Z.land x 0xffff + (Z.shiftl v 4 - v)) in
  let x2 := if 65521 <? x1 then
              let v' := Z.shiftr x1 16 in
              w32 (Z.land x1 0xffff + (Z.shiftl v' 4 - v'))
            else x1 in
  if 65521 <=? x2 then x2 - 65521 else x2.

(* libfsapfs_deflate.c lines 697-789: full blocks of 0x15b0 bytes. Fuel bounds the
   number of blocks. *)
Fixpoint adler32_blocks (fuel : nat) (data : list Z) (lower_word upper_word : Z)
  : res (list Z * Z * Z) :=
  if len data <? 0x15b0 then Ok (data, lower_word, upper_word)
  else match fuel with
       | O => Fuel
       | S fuel' =>
           let (l1, u1) := adler32_acc (slice data 0 0x15b0) lower_word upper_word in
           adler32_blocks fuel' (skipn (Z.to_nat 0x15b0) data)
             (adler32_reduce l1) (adler32_reduce u1)
       end.

(* libfsapfs_deflate.c lines 647-889: libfsapfs_deflate_calculate_adler32. *)
Definition calculate_adler32 (data : list Z) (initial_value : Z) : res Z :=
  let lower_word := Z.land initial_value 0xffff in
  let upper_word := Z.land (Z.shiftr initial_value 16) 0xffff in
  let! (rest, l1, u1) := adler32_blocks (length data) data lower_word upper_word in
  let (l2, u2) :=
    if 0 <? len rest then
      let (l, u) := adler32_acc rest l1 u1 in
      (adler32_reduce l, adler32_reduce u)
    else (l1, u1) in
  Ok (w32 (Z.lor (Z.shiftl u2 16) l2)).
