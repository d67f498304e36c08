(* AES (FIPS 197) and XTS-AES (IEEE 1619, whole blocks), independent of the code: the
   functions that libcaes computes. They are used in examples, where they check the model and
   the specifications against published test vectors. *)
From Verif Require Import Base CryptSpec.

Definition sbox : list Z :=
  [99; 124; 119; 123; 242; 107; 111; 197; 48; 1; 103; 43; 254; 215; 171; 118;
   202; 130; 201; 125; 250; 89; 71; 240; 173; 212; 162; 175; 156; 164; 114; 192;
   183; 253; 147; 38; 54; 63; 247; 204; 52; 165; 229; 241; 113; 216; 49; 21;
   4; 199; 35; 195; 24; 150; 5; 154; 7; 18; 128; 226; 235; 39; 178; 117;
   9; 131; 44; 26; 27; 110; 90; 160; 82; 59; 214; 179; 41; 227; 47; 132;
   83; 209; 0; 237; 32; 252; 177; 91; 106; 203; 190; 57; 74; 76; 88; 207;
   208; 239; 170; 251; 67; 77; 51; 133; 69; 249; 2; 127; 80; 60; 159; 168;
   81; 163; 64; 143; 146; 157; 56; 245; 188; 182; 218; 33; 16; 255; 243; 210;
   205; 12; 19; 236; 95; 151; 68; 23; 196; 167; 126; 61; 100; 93; 25; 115;
   96; 129; 79; 220; 34; 42; 144; 136; 70; 238; 184; 20; 222; 94; 11; 219;
   224; 50; 58; 10; 73; 6; 36; 92; 194; 211; 172; 98; 145; 149; 228; 121;
   231; 200; 55; 109; 141; 213; 78; 169; 108; 86; 244; 234; 101; 122; 174; 8;
   186; 120; 37; 46; 28; 166; 180; 198; 232; 221; 116; 31; 75; 189; 139; 138;
   112; 62; 181; 102; 72; 3; 246; 14; 97; 53; 87; 185; 134; 193; 29; 158;
   225; 248; 152; 17; 105; 217; 142; 148; 155; 30; 135; 233; 206; 85; 40; 223;
   140; 161; 137; 13; 191; 230; 66; 104; 65; 153; 45; 15; 176; 84; 187; 22].
Definition inv_sbox : list Z :=
  [82; 9; 106; 213; 48; 54; 165; 56; 191; 64; 163; 158; 129; 243; 215; 251;
   124; 227; 57; 130; 155; 47; 255; 135; 52; 142; 67; 68; 196; 222; 233; 203;
   84; 123; 148; 50; 166; 194; 35; 61; 238; 76; 149; 11; 66; 250; 195; 78;
   8; 46; 161; 102; 40; 217; 36; 178; 118; 91; 162; 73; 109; 139; 209; 37;
   114; 248; 246; 100; 134; 104; 152; 22; 212; 164; 92; 204; 93; 101; 182; 146;
   108; 112; 72; 80; 253; 237; 185; 218; 94; 21; 70; 87; 167; 141; 157; 132;
   144; 216; 171; 0; 140; 188; 211; 10; 247; 228; 88; 5; 184; 179; 69; 6;
   208; 44; 30; 143; 202; 63; 15; 2; 193; 175; 189; 3; 1; 19; 138; 107;
   58; 145; 17; 65; 79; 103; 220; 234; 151; 242; 207; 206; 240; 180; 230; 115;
   150; 172; 116; 34; 231; 173; 53; 133; 226; 249; 55; 232; 28; 117; 223; 110;
   71; 241; 26; 113; 29; 41; 197; 137; 111; 183; 98; 14; 170; 24; 190; 27;
   252; 86; 62; 75; 198; 210; 121; 32; 154; 219; 192; 254; 120; 205; 90; 244;
   31; 221; 168; 51; 136; 7; 199; 49; 177; 18; 16; 89; 39; 128; 236; 95;
   96; 81; 127; 169; 25; 181; 74; 13; 45; 229; 122; 159; 147; 201; 156; 239;
   160; 224; 59; 77; 174; 42; 245; 176; 200; 235; 187; 60; 131; 83; 153; 97;
   23; 43; 4; 126; 186; 119; 214; 38; 225; 105; 20; 99; 85; 33; 12; 125].
Definition sub (x : Z) : Z := nth (Z.to_nat x) sbox 0.
Definition inv_sub (x : Z) : Z := nth (Z.to_nat x) inv_sbox 0.

(* multiplication by x modulo x^8 + x^4 + x^3 + x + 1 *)
Definition xtime (a : Z) : Z := let b := 2 * a in if 256 <=? b then Z.lxor b 283 else b.
Fixpoint gmul (n : nat) (a b : Z) : Z :=
  match n with
  | O => 0
  | S n => Z.lxor (if Z.odd b then a else 0) (gmul n (xtime a) (Z.div2 b))
  end.

(* the state is the list of its 16 bytes, column after column *)
Definition perm (p : list nat) (s : list Z) : list Z := map (fun i => nth i s 0) p.
Definition shift_rows := perm [0; 5; 10; 15; 4; 9; 14; 3; 8; 13; 2; 7; 12; 1; 6; 11]%nat.
Definition inv_shift_rows := perm [0; 13; 10; 7; 4; 1; 14; 11; 8; 5; 2; 15; 12; 9; 6; 3]%nat.
Fixpoint mix (a b c d : Z) (s : list Z) : list Z :=
  match s with
  | w :: x :: y :: z :: s =>
    let f a b c d := Z.lxor (Z.lxor (gmul 4 w a) (gmul 4 x b)) (Z.lxor (gmul 4 y c) (gmul 4 z d)) in
    f a b c d :: f d a b c :: f c d a b :: f b c d a :: mix a b c d s
  | _ => []
  end.
Definition mix_columns := mix 2 3 1 1.
Definition inv_mix_columns := mix 14 11 13 9.

(* key expansion: words of 4 bytes, the last word first *)
Fixpoint expand (nk : nat) (fuel : nat) (i : nat) (rcon : Z) (w : list (list Z)) : list (list Z) :=
  match fuel with
  | O => w
  | S fuel =>
    let t := hd [] w in
    let first := (Nat.modulo i nk =? 0)%nat in
    let t := if first then xor_bytes (map sub (skipn 1 t ++ firstn 1 t)) [rcon; 0; 0; 0]
             else if ((6 <? nk) && (Nat.modulo i nk =? 4))%nat then map sub t else t in
    expand nk fuel (S i) (if first then xtime rcon else rcon) (xor_bytes (nth (nk - 1) w []) t :: w)
  end.
Fixpoint split (n : nat) (k : nat) (l : list Z) : list (list Z) :=
  match k with
  | O => []
  | S k => firstn n l :: split n k (skipn n l)
  end.
Definition round_keys (key : list Z) : list (list Z) :=
  let nk := Nat.div (length key) 4 in
  let total := (4 * (nk + 7))%nat in
  split 16 (nk + 7) (concat (rev (expand nk (total - nk) nk 1 (rev (split 4 nk key))))).

Fixpoint enc_rounds (keys : list (list Z)) (s : list Z) : list Z :=
  match keys with
  | [] => s
  | [k] => xor_bytes (shift_rows (map sub s)) k
  | k :: keys => enc_rounds keys (xor_bytes (mix_columns (shift_rows (map sub s))) k)
  end.
Definition aes_enc (key : list Z) (block : list Z) : list Z :=
  match round_keys key with
  | k :: keys => enc_rounds keys (xor_bytes block k)
  | [] => []
  end.
Fixpoint dec_rounds (keys : list (list Z)) (s : list Z) : list Z :=
  match keys with
  | [] => s
  | [k] => xor_bytes (map inv_sub (inv_shift_rows s)) k
  | k :: keys => dec_rounds keys (inv_mix_columns (xor_bytes (map inv_sub (inv_shift_rows s)) k))
  end.
Definition aes_dec (key : list Z) (block : list Z) : list Z :=
  match rev (round_keys key) with
  | k :: keys => dec_rounds keys (xor_bytes block k)
  | [] => []
  end.

(* XTS: the tweak of block j is the encrypted data unit number times x^j, little-endian,
   modulo x^128 + x^7 + x^2 + x + 1 *)
Definition xtime128 (t : list Z) : list Z :=
  let v := 2 * le_val t in le_enc 16 (if 2 ^ 128 <=? v then Z.lxor v (2 ^ 128 + 135) else v).
Fixpoint xts_blocks (f : list Z -> list Z) (t : list Z) (blocks : list (list Z)) : list Z :=
  match blocks with
  | [] => []
  | b :: blocks => xor_bytes (f (xor_bytes b t)) t ++ xts_blocks f (xtime128 t) blocks
  end.
Definition xts_enc (key1 key2 unit data : list Z) : list Z :=
  xts_blocks (aes_enc key1) (aes_enc key2 unit) (split 16 (Nat.div (length data) 16) data).
Definition xts_dec (key1 key2 unit data : list Z) : list Z :=
  xts_blocks (aes_dec key1) (aes_enc key2 unit) (split 16 (Nat.div (length data) 16) data).

(* FIPS 197 appendix C.1 and C.3, IEEE 1619 vector 1 *)
Definition seqz (n : nat) : list Z := map Z.of_nat (seq 0 n).
Example aes128 : be_val (aes_enc (seqz 16) (be_enc 16 0x00112233445566778899aabbccddeeff)) = 0x69c4e0d86a7b0430d8cdb78070b4c55a.
Proof. vm_compute. reflexivity. Qed.
Example aes256 : be_val (aes_enc (seqz 32) (be_enc 16 0x00112233445566778899aabbccddeeff)) = 0x8ea2b7ca516745bfeafc49904b496089.
Proof. vm_compute. reflexivity. Qed.
Example aes256_dec : be_val (aes_dec (seqz 32) (be_enc 16 0x8ea2b7ca516745bfeafc49904b496089)) = 0x00112233445566778899aabbccddeeff.
Proof. vm_compute. reflexivity. Qed.
Example xts1 : be_val (xts_enc (zeros 16) (zeros 16) (zeros 16) (zeros 32)) = 0x917cf69ebd68b2ec9b9fe9a3eadda692cd43d2f59598ed858c02c2652fbf922e.
Proof. vm_compute. reflexivity. Qed.
