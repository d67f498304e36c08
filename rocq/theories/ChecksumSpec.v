(* Reference definitions of the checksums, independent of the model. *)
From Verif Require Import Base.

(* Fletcher-64 over 32-bit words. *)
Definition fl_modulus : Z := 2 ^ 32 - 1.

Definition is_word (w : Z) : Prop := 0 <= w < 2 ^ 32.

(* Plain sum and sum of running sums, in unbounded integers, from initial values a b. *)
Fixpoint sum1 (a : Z) (ws : list Z) : Z :=
  match ws with [] => a | w :: r => sum1 (a + w) r end.
Fixpoint sum2 (a b : Z) (ws : list Z) : Z :=
  match ws with [] => b | w :: r => sum2 (a + w) (b + (a + w)) r end.

(* The words c0 (low half) and c1 (high half) close the checksum of ws. *)
Definition fletcher_closes (a b : Z) (ws : list Z) (c0 c1 : Z) : Prop :=
  0 < c0 <= fl_modulus /\ 0 < c1 <= fl_modulus /\
  sum1 a (ws ++ [c0; c1]) mod fl_modulus = 0 /\
  sum2 a b (ws ++ [c0; c1]) mod fl_modulus = 0.

(* Little-endian serialisation of words. *)
Definition words_bytes (ws : list Z) : list Z := concat (map (le_enc 4) ws).

(* Bit-serial reflected CRC: data bits least significant first. *)
Definition crc_feed_bit (poly reg : Z) (bit : bool) : Z :=
  if xorb (Z.odd reg) bit then Z.lxor (Z.shiftr reg 1) poly else Z.shiftr reg 1.

Definition byte_bits (b : Z) : list bool :=
  map (fun i => Z.testbit b (Z.of_nat i)) (seq 0 8).

Definition crc_bitwise (poly reg : Z) (data : list Z) : Z :=
  fold_left (crc_feed_bit poly) (flat_map byte_bits data) reg.

(* Castagnoli polynomial x^32+x^28+x^27+x^26+x^25+x^23+x^22+x^20+x^19+x^18+x^14+x^13
   +x^11+x^10+x^9+x^8+x^6+1, reflected: coefficient of x^k at bit 31-k. *)
Definition castagnoli_reflected : Z :=
  fold_left (fun acc k => acc + 2 ^ (31 - k))
    [28; 27; 26; 25; 23; 22; 20; 19; 18; 14; 13; 11; 10; 9; 8; 6; 0] 0.

(* RFC 1950 Adler-32. *)
Definition adler_ref (s1 s2 : Z) (data : list Z) : Z :=
  let '(a, b) := fold_left (fun '(a, b) d => ((a + d) mod 65521, (b + (a + d)) mod 65521))
                   data (s1 mod 65521, s2 mod 65521) in
  b * 65536 + a.
