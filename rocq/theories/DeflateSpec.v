(* RFC 1951 (DEFLATE) and RFC 1950 (zlib), stated from the encoder's side: which bit
   strings encode which data. Independent of the decoder in Deflate.v. *)
From Verif Require Import Base.

(* ---- bits (RFC 1951, 3.1.1) ---- *)

(* Bytes are packed starting with the least significant bit. *)
Definition byte_bits (b : Z) : list bool := map (fun k => Z.testbit b (Z.of_nat k)) (seq 0 8).
Definition bits_of (data : list Z) : list bool := flat_map byte_bits data.

(* Numbers are packed least significant bit first. *)
Definition b2z (b : bool) : Z := if b then 1 else 0.
Fixpoint lsb_val (l : list bool) : Z :=
  match l with
  | [] => 0
  | b :: r => b2z b + 2 * lsb_val r
  end.
Fixpoint lsb_bits (n : nat) (v : Z) : list bool :=
  match n with
  | O => []
  | S m => Z.odd v :: lsb_bits m (v / 2)
  end.
(* Huffman codes are packed most significant bit first. *)
Definition msb_bits (n : nat) (v : Z) : list bool := rev (lsb_bits n v).

(* Splitting a bit string in consecutive numbers of the given widths. *)
Fixpoint split_bits (bs : list bool) (ns : list Z) : option (list Z) :=
  match ns with
  | [] => Some []
  | n :: r =>
    if n <=? len bs then
      match split_bits (skipn (Z.to_nat n) bs) r with
      | Some vs => Some (lsb_val (firstn (Z.to_nat n) bs) :: vs)
      | None => None
      end
    else None
  end.

(* Widths 0..32 such that a value is read in one piece: any width up to 25, and
   up to 32 at a byte boundary. *)
Fixpoint widths_ok (pos : Z) (ns : list Z) : Prop :=
  match ns with
  | [] => True
  | n :: r => 0 <= n <= 25 + (- pos - 1) mod 8 /\ widths_ok (pos + n) r
  end.

(* ---- canonical Huffman codes (RFC 1951, 3.2.2) ---- *)

(* Number of codes of length b. *)
Definition cnt (lens : list Z) (b : Z) : Z := len (filter (fun c => c =? b) lens).

(* Smallest code of length b. *)
Fixpoint next_code (lens : list Z) (b : nat) : Z :=
  match b with
  | O => 0
  | S m => 2 * (next_code lens m + (if (m =? 0)%nat then 0 else cnt lens (Z.of_nat m)))
  end.

(* Code length and code word of symbol s. *)
Definition code_len (lens : list Z) (s : nat) : Z := nth s lens 0.
Definition codeword (lens : list Z) (s : nat) : list bool :=
  let l := code_len lens s in
  msb_bits (Z.to_nat l) (next_code lens (Z.to_nat l) + cnt (firstn s lens) l).

(* Kraft sum scaled by 2^max. *)
Definition kraft (max : Z) (lens : list Z) : Z :=
  fold_right (fun c acc => (if c =? 0 then 0 else 2 ^ (max - c)) + acc) 0 lens.

(* A code-length vector that is a (possibly incomplete) prefix code of at least one
   symbol and codes of at most max bits. *)
Definition prefix_code (max : Z) (lens : list Z) : Prop :=
  Forall (fun c => 0 <= c <= max) lens /\
  Exists (fun c => c <> 0) lens /\
  kraft max lens <= 2 ^ max.

(* ---- LZ77 tokens (RFC 1951, 3.2.3) ---- *)

Inductive token :=
| Lit (b : Z)
| Match (l d : Z).

(* Data described by a match: byte i of the copy is byte (i mod d) of the last d
   bytes already produced. *)
Definition match_bytes (out : list Z) (l d : Z) : list Z :=
  map (fun i => nth (Z.to_nat (len out - d + Z.of_nat i mod d)) out 0) (seq 0 (Z.to_nat l)).

Fixpoint expand (out : list Z) (ts : list token) : list Z :=
  match ts with
  | [] => out
  | Lit b :: r => expand (out ++ [b]) r
  | Match l d :: r => expand (out ++ match_bytes out l d) r
  end.

(* Distances never reach before the start of the data. *)
Fixpoint dist_ok (out : list Z) (ts : list token) : Prop :=
  match ts with
  | [] => True
  | Lit b :: r => dist_ok (out ++ [b]) r
  | Match l d :: r => d <= len out /\ dist_ok (out ++ match_bytes out l d) r
  end.

(* RFC 1951, 3.2.5: (extra bits, first length) of symbols 257..285. *)
Definition len_table : list (Z * Z) :=
  [(0,3);(0,4);(0,5);(0,6);(0,7);(0,8);(0,9);(0,10);(1,11);(1,13);(1,15);(1,17);
   (2,19);(2,23);(2,27);(2,31);(3,35);(3,43);(3,51);(3,59);(4,67);(4,83);(4,99);(4,115);
   (5,131);(5,163);(5,195);(5,227);(0,258)].
(* (extra bits, first distance) of symbols 0..29. *)
Definition dist_table : list (Z * Z) :=
  [(0,1);(0,2);(0,3);(0,4);(1,5);(1,7);(2,9);(2,13);(3,17);(3,25);(4,33);(4,49);
   (5,65);(5,97);(6,129);(6,193);(7,257);(7,385);(8,513);(8,769);(9,1025);(9,1537);
   (10,2049);(10,3073);(11,4097);(11,6145);(12,8193);(12,12289);(13,16385);(13,24577)].

(* A symbol that has a code in the given code-length vector. *)
Definition coded (lens : list Z) (s : nat) : Prop :=
  (s < length lens)%nat /\ code_len lens s <> 0.

(* [token_enc ll dl t bs]: bs encodes t with literal/length code ll and distance
   code dl. *)
Inductive token_enc (ll dl : list Z) : token -> list bool -> Prop :=
| enc_lit : forall b, 0 <= b < 256 -> coded ll (Z.to_nat b) ->
    token_enc ll dl (Lit b) (codeword ll (Z.to_nat b))
| enc_match : forall ls ds leb lbase deb dbase lx dx,
    nth_error len_table ls = Some (leb, lbase) ->
    nth_error dist_table ds = Some (deb, dbase) ->
    0 <= lx < 2 ^ leb -> 0 <= dx < 2 ^ deb ->
    coded ll (257 + ls) -> coded dl ds ->
    token_enc ll dl (Match (lbase + lx) (dbase + dx))
      (codeword ll (257 + ls) ++ lsb_bits (Z.to_nat leb) lx ++
       codeword dl ds ++ lsb_bits (Z.to_nat deb) dx).

Inductive tokens_enc (ll dl : list Z) : list token -> list bool -> Prop :=
| enc_end : coded ll 256 -> tokens_enc ll dl [] (codeword ll 256)
| enc_tok : forall t ts b bs, token_enc ll dl t b -> tokens_enc ll dl ts bs ->
    tokens_enc ll dl (t :: ts) (b ++ bs).

(* ---- fixed codes (RFC 1951, 3.2.6) ---- *)

Definition fixed_ll : list Z := repeat 8 144 ++ repeat 9 112 ++ repeat 7 24 ++ repeat 8 8.
Definition fixed_dl : list Z := repeat 5 30.

(* ---- dynamic codes (RFC 1951, 3.2.7) ---- *)

(* Run-length encoding of the code lengths. *)
Inductive cl_token :=
| Len (c : Z)          (* 0..15 *)
| Rep (n : Z)          (* symbol 16: copy the previous length n = 3..6 times *)
| Zrep3 (n : Z)        (* symbol 17: n = 3..10 zeros *)
| Zrep11 (n : Z).      (* symbol 18: n = 11..138 zeros *)

Fixpoint cl_expand (acc : list Z) (ts : list cl_token) : list Z :=
  match ts with
  | [] => acc
  | Len c :: r => cl_expand (acc ++ [c]) r
  | Rep n :: r => cl_expand (acc ++ repeat (last acc 0) (Z.to_nat n)) r
  | Zrep3 n :: r => cl_expand (acc ++ repeat 0 (Z.to_nat n)) r
  | Zrep11 n :: r => cl_expand (acc ++ repeat 0 (Z.to_nat n)) r
  end.

(* [cl_enc cl first ts bs]: bs encodes ts; first says no length was given yet. *)
Inductive cl_enc (cl : list Z) : bool -> list cl_token -> list bool -> Prop :=
| cl_nil : forall f, cl_enc cl f [] []
| cl_len : forall f c ts bs, 0 <= c <= 15 -> coded cl (Z.to_nat c) -> cl_enc cl false ts bs ->
    cl_enc cl f (Len c :: ts) (codeword cl (Z.to_nat c) ++ bs)
| cl_rep : forall n ts bs, 3 <= n <= 6 -> coded cl 16 -> cl_enc cl false ts bs ->
    cl_enc cl false (Rep n :: ts) (codeword cl 16 ++ lsb_bits 2 (n - 3) ++ bs)
| cl_z3 : forall f n ts bs, 3 <= n <= 10 -> coded cl 17 -> cl_enc cl false ts bs ->
    cl_enc cl f (Zrep3 n :: ts) (codeword cl 17 ++ lsb_bits 3 (n - 3) ++ bs)
| cl_z11 : forall f n ts bs, 11 <= n <= 138 -> coded cl 18 -> cl_enc cl false ts bs ->
    cl_enc cl f (Zrep11 n :: ts) (codeword cl 18 ++ lsb_bits 7 (n - 11) ++ bs).

(* Order in which the lengths of the code-length code are stored. *)
Definition cl_order : list nat :=
  [16; 17; 18; 0; 8; 7; 9; 6; 10; 5; 11; 4; 12; 3; 13; 2; 14; 1; 15]%nat.

(* Header of a dynamic block giving literal/length code ll and distance code dl. *)
Definition dyn_header (ll dl : list Z) (bs : list bool) : Prop :=
  exists (cl : list Z) (nc : nat) (cts : list cl_token) (clb : list bool),
    257 <= len ll <= 286 /\ 1 <= len dl <= 30 /\ (4 <= nc <= 19)%nat /\
    length cl = 19%nat /\ Forall (fun c => 0 <= c <= 7) cl /\
    prefix_code 15 cl /\
    (forall k, (nc <= k < 19)%nat -> code_len cl (nth k cl_order 0%nat) = 0) /\
    cl_expand [] cts = ll ++ dl /\ cl_enc cl true cts clb /\
    bs = lsb_bits 5 (len ll - 257) ++ lsb_bits 5 (len dl - 1) ++ lsb_bits 4 (Z.of_nat nc - 4) ++
         flat_map (fun k => lsb_bits 3 (code_len cl (nth k cl_order 0%nat))) (seq 0 nc) ++ clb.

(* ---- blocks and streams (RFC 1951, 3.2.3 and 3.2.4) ---- *)

Inductive block :=
| Stored (b : list Z)
| Fixed (ts : list token)
| Dynamic (ll dl : list Z) (ts : list token).

(* Data produced by a block after [out]. *)
Definition block_out (out : list Z) (b : block) : list Z :=
  match b with
  | Stored d => out ++ d
  | Fixed ts => expand out ts
  | Dynamic _ _ ts => expand out ts
  end.
Definition block_ok (out : list Z) (b : block) : Prop :=
  match b with
  | Stored d => bytes d /\ len d <= 65535
  | Fixed ts => dist_ok out ts
  | Dynamic _ _ ts => dist_ok out ts
  end.

(* [block_enc pos final b bs]: bs encodes the block when it starts at bit [pos] of
   the stream. *)
Inductive block_enc (pos : Z) (final : bool) : block -> list bool -> Prop :=
| enc_stored : forall d pad, len pad = (- (pos + 3)) mod 8 ->
    block_enc pos final (Stored d)
      ([final; false; false] ++ pad ++ lsb_bits 16 (len d) ++ lsb_bits 16 (65535 - len d) ++ bits_of d)
| enc_fixed : forall ts bs, tokens_enc fixed_ll fixed_dl ts bs ->
    block_enc pos final (Fixed ts) ([final; true; false] ++ bs)
| enc_dynamic : forall ll dl ts hb bs,
    dyn_header ll dl hb -> prefix_code 15 ll -> tokens_enc ll dl ts bs ->
    (* all distance lengths zero means no distance codes are used *)
    prefix_code 15 dl \/ Forall (fun c => c = 0) dl ->
    block_enc pos final (Dynamic ll dl ts) ([final; false; true] ++ hb ++ bs).

(* A whole stream: the last block is the only one marked final. [P] restricts the
   blocks used. *)
Inductive stream_enc (P : block -> Prop) (pos : Z) (out : list Z) : list Z -> list bool -> Prop :=
| enc_last : forall b bs, P b -> block_ok out b -> block_enc pos true b bs ->
    stream_enc P pos out (block_out out b) bs
| enc_more : forall b bs out' bs', P b -> block_ok out b -> block_enc pos false b bs ->
    stream_enc P (pos + len bs) (block_out out b) out' bs' ->
    stream_enc P pos out out' (bs ++ bs').

(* Blocks whose distance code is not empty. *)
Definition has_distances (b : block) : Prop :=
  match b with
  | Dynamic _ dl _ => Exists (fun c => c <> 0) dl
  | _ => True
  end.

(* [deflate_stream P data out]: the byte string data is a stream encoding out,
   possibly followed by further bytes. *)
Definition deflate_stream (P : block -> Prop) (data out : list Z) : Prop :=
  exists bs rest, stream_enc P 0 [] out bs /\ bits_of data = bs ++ rest.

(* RFC 1950: a zlib stream: two header bytes (method 8, window at most 32K, check
   bits, no preset dictionary), a DEFLATE stream padded to a byte boundary, and
   the big-endian Adler-32 [adler] of the data. *)
Definition zlib_stream (P : block -> Prop) (adler : list Z -> Z) (data out : list Z) : Prop :=
  exists cmf flg body bs pad,
    data = [cmf; flg] ++ body ++ be_enc 4 (adler out) /\
    is_byte cmf /\ is_byte flg /\ cmf mod 16 = 8 /\ cmf / 16 <= 7 /\
    (256 * cmf + flg) mod 31 = 0 /\ Z.testbit flg 5 = false /\
    bytes body /\ stream_enc P 0 [] out bs /\ bits_of body = bs ++ pad /\ len pad < 8.

(* A sequence of blocks none of which is marked final: a stream that was cut off. *)
Inductive open_enc (P : block -> Prop) (pos : Z) (out : list Z) : list Z -> list bool -> Prop :=
| open_nil : open_enc P pos out out []
| open_more : forall b bs out' bs', P b -> block_ok out b -> block_enc pos false b bs ->
    open_enc P (pos + len bs) (block_out out b) out' bs' ->
    open_enc P pos out out' (bs ++ bs').
