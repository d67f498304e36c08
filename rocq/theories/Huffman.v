(* Model of libfsapfs/libfsapfs_huffman_tree.c. *)
From Verif Require Import Base BitStream.

(* libfsapfs_huffman_tree.h: maximum_code_size, code_size_counts (array of
   maximum_code_size + 1 integers) and symbols (array of number_of_symbols). *)
Record huffman := mk_huff {
  h_max    : Z;
  h_counts : list Z;
  h_syms   : list Z
}.

(* libfsapfs_huffman_tree.c 35-193 (initialize). Both arrays are zeroed. *)
Definition huff_init (nsyms max : Z) : huffman :=
  mk_huff max (zeros (max + 1)) (zeros nsyms).

(* Checked store to an array element. *)
Definition setb {A : Type} (l : list A) (i : Z) (v : A) : res (list A) :=
  if (0 <=? i) && (i <? len l) then
    Ok (firstn (Z.to_nat i) l ++ v :: skipn (S (Z.to_nat i)) l)
  else Oob.

(* libfsapfs_huffman_tree.c 328-348: count the code sizes. *)
Fixpoint huff_count (max : Z) (sizes : list Z) (counts : list Z) : res (list Z) :=
  match sizes with
  | [] => Ok counts
  | c :: r =>
    let! _ := check (c <=? max) in
    let! k := getb counts c in
    let! counts := setb counts c (k + 1) in
    huff_count max r counts
  end.

(* libfsapfs_huffman_tree.c 357-377: over-subscription check. *)
Fixpoint huff_left (n : nat) (bit left : Z) (counts : list Z) : res Z :=
  match n with
  | O => Ok left
  | S m =>
    let! k := getb counts bit in
    let left := 2 * left - k in
    let! _ := check (0 <=? left) in
    huff_left m (bit + 1) left counts
  end.

(* libfsapfs_huffman_tree.c 410-415: offsets to sort the symbols. *)
Fixpoint huff_offsets (n : nat) (bit : Z) (counts offs : list Z) : res (list Z) :=
  match n with
  | O => Ok offs
  | S m =>
    let! o := getb offs bit in
    let! k := getb counts bit in
    let! offs := setb offs (bit + 1) (o + k) in
    huff_offsets m (bit + 1) counts offs
  end.

(* libfsapfs_huffman_tree.c 418-447: fill the symbols sorted by code size. *)
Fixpoint huff_fill (ncodes symbol : Z) (sizes offs syms : list Z) : res (list Z) :=
  match sizes with
  | [] => Ok syms
  | c :: r =>
    if c =? 0 then huff_fill ncodes (symbol + 1) r offs syms
    else
      let! o := getb offs c in
      let! _ := check ((0 <=? o) && (o <=? ncodes)) in
      let! offs := setb offs c (o + 1) in
      let! syms := setb syms o (w16 symbol) in
      huff_fill ncodes (symbol + 1) r offs syms
  end.

(* libfsapfs_huffman_tree.c 250-460: libfsapfs_huffman_tree_build. Ok (1, tree),
   Ok (0, tree) if the tree has no codes. [sizes] is the code_sizes_array
   restricted to number_of_code_sizes elements. *)
Definition huff_build (h : huffman) (sizes : list Z) : res (Z * huffman) :=
  let n := len sizes in
  let! _ := check (negb (h_max h =? 0)) in
  let! _ := check (n <=? 32767) in
  let! counts := huff_count (h_max h) sizes (zeros (h_max h + 1)) in
  let! c0 := getb counts 0 in
  if c0 =? n then Ok (0, mk_huff (h_max h) counts (h_syms h))
  else
    let! _ := huff_left (Z.to_nat (h_max h)) 1 1 counts in
    let! offs := huff_offsets (Z.to_nat (h_max h - 1)) 1 counts (zeros (h_max h + 1)) in
    let! syms := huff_fill n 0 sizes offs (h_syms h) in
    Ok (1, mk_huff (h_max h) counts syms).

(* libfsapfs_huffman_tree.c 516-551: the decoding loop. *)
Fixpoint huff_loop (n : nat) (h : huffman) (bit code first first_index : Z)
    (s : bit_stream) : res (Z * bit_stream) :=
  match n with
  | O => Fail
  | S m =>
    let! (v, s) := bs_get s 1 in
    let code := Z.lor (2 * code) v in
    let! k := getb (h_counts h) bit in
    if code - k <? first then
      let! sym := getb (h_syms h) (first_index + (code - first)) in
      Ok (sym, s)
    else huff_loop m h (bit + 1) code (2 * (first + k)) (first_index + k) s
  end.

(* libfsapfs_huffman_tree.c 465-567: get_symbol_from_bit_stream. *)
Definition huff_get (h : huffman) (s : bit_stream) : res (Z * bit_stream) :=
  huff_loop (Z.to_nat (h_max h)) h 1 0 0 0 s.

(* A caller decoding n symbols. *)
Fixpoint huff_get_list (h : huffman) (n : nat) (s : bit_stream) : res (list Z * bit_stream) :=
  match n with
  | O => Ok ([], s)
  | S m =>
    let! (v, s) := huff_get h s in
    let! (vs, s) := huff_get_list h m s in
    Ok (v :: vs, s)
  end.
