(* SHA-256 (FIPS 180-4) and HMAC (RFC 2104, block size 64), independent of the code: the
   functions that libhmac computes. *)
From Verif Require Import Base.

Definition k256 : list Z :=
  [0x428a2f98; 0x71374491; 0xb5c0fbcf; 0xe9b5dba5; 0x3956c25b; 0x59f111f1; 0x923f82a4; 0xab1c5ed5;
   0xd807aa98; 0x12835b01; 0x243185be; 0x550c7dc3; 0x72be5d74; 0x80deb1fe; 0x9bdc06a7; 0xc19bf174;
   0xe49b69c1; 0xefbe4786; 0x0fc19dc6; 0x240ca1cc; 0x2de92c6f; 0x4a7484aa; 0x5cb0a9dc; 0x76f988da;
   0x983e5152; 0xa831c66d; 0xb00327c8; 0xbf597fc7; 0xc6e00bf3; 0xd5a79147; 0x06ca6351; 0x14292967;
   0x27b70a85; 0x2e1b2138; 0x4d2c6dfc; 0x53380d13; 0x650a7354; 0x766a0abb; 0x81c2c92e; 0x92722c85;
   0xa2bfe8a1; 0xa81a664b; 0xc24b8b70; 0xc76c51a3; 0xd192e819; 0xd6990624; 0xf40e3585; 0x106aa070;
   0x19a4c116; 0x1e376c08; 0x2748774c; 0x34b0bcb5; 0x391c0cb3; 0x4ed8aa4a; 0x5b9cca4f; 0x682e6ff3;
   0x748f82ee; 0x78a5636f; 0x84c87814; 0x8cc70208; 0x90befffa; 0xa4506ceb; 0xbef9a3f7; 0xc67178f2].
Definition h0 : list Z :=
  [0x6a09e667; 0xbb67ae85; 0x3c6ef372; 0xa54ff53a; 0x510e527f; 0x9b05688c; 0x1f83d9ab; 0x5be0cd19].

Definition rotr (n x : Z) : Z := Z.lor (Z.shiftr x n) ((Z.shiftl x (32 - n)) mod 2 ^ 32).
Definition xor3 (a b c : Z) : Z := Z.lxor (Z.lxor a b) c.
Definition bsig0 x := xor3 (rotr 2 x) (rotr 13 x) (rotr 22 x).
Definition bsig1 x := xor3 (rotr 6 x) (rotr 11 x) (rotr 25 x).
Definition ssig0 x := xor3 (rotr 7 x) (rotr 18 x) (Z.shiftr x 3).
Definition ssig1 x := xor3 (rotr 17 x) (rotr 19 x) (Z.shiftr x 10).
Definition ch x y z := Z.lxor (Z.land x y) (Z.land (2 ^ 32 - 1 - x) z).
Definition maj x y z := xor3 (Z.land x y) (Z.land x z) (Z.land y z).

(* the message schedule, the last word first: W_t from the 16 words before *)
Fixpoint schedule (k : nat) (w : list Z) : list Z :=
  match k with
  | O => w
  | S k =>
    let x := w32 (ssig1 (nth 1 w 0) + nth 6 w 0 + ssig0 (nth 14 w 0) + nth 15 w 0) in
    schedule k (x :: w)
  end.

Definition round_ (st : list Z) (kw : Z * Z) : list Z :=
  match st with
  | [a; b; c; d; e; f; g; h] =>
    let t1 := w32 (h + bsig1 e + ch e f g + fst kw + snd kw) in
    let t2 := w32 (bsig0 a + maj a b c) in
    [w32 (t1 + t2); a; b; c; w32 (d + t1); e; f; g]
  | _ => st
  end.

Fixpoint words (l : list Z) : list Z :=
  match l with
  | a :: b :: c :: d :: l => be_val [a; b; c; d] :: words l
  | _ => []
  end.

Definition compress (st : list Z) (chunk : list Z) : list Z :=
  let w := rev (schedule 48 (rev (words chunk))) in
  map (fun p => w32 (fst p + snd p)) (combine st (fold_left round_ (combine k256 w) st)).

Definition pad (m : list Z) : list Z :=
  m ++ [128] ++ zeros ((55 - len m) mod 64) ++ be_enc 8 (8 * len m).

Fixpoint chunks (n : nat) (l : list Z) : list (list Z) :=
  match n with
  | O => []
  | S n => firstn 64 l :: chunks n (skipn 64 l)
  end.

Definition sha256 (m : list Z) : list Z :=
  let p := pad m in
  flat_map (be_enc 4) (fold_left compress (chunks (Z.to_nat (len p / 64)) p) h0).

(* HMAC over a hash function with blocks of 64 bytes *)
Definition hmac_key (hash : list Z -> list Z) (key : list Z) : list Z :=
  let k := if 64 <? len key then hash key else key in k ++ zeros (64 - len k).
Definition hmac (hash : list Z -> list Z) (key data : list Z) : list Z :=
  let k := hmac_key hash key in
  hash (map (Z.lxor 92) k ++ hash (map (Z.lxor 54) k ++ data)).
Definition hmac_sha256 : list Z -> list Z -> list Z := hmac sha256.

Lemma sha256_len m : len (sha256 m) = 32.
Proof.
  unfold sha256. assert (G : forall l st, length st = 8%nat -> length (fold_left compress l st) = 8%nat).
  { induction l as [|c l IH]; intros st H; [exact H|]. cbn [fold_left]. apply IH. unfold compress. rewrite map_length, combine_length.
    assert (R : forall k s, length s = 8%nat -> length (fold_left round_ k s) = 8%nat).
    { induction k as [|x k IK]; intros s Hs; [exact Hs|]. cbn [fold_left]. apply IK.
      do 9 (destruct s as [|? s]; try discriminate Hs). reflexivity. }
    rewrite R by exact H. rewrite H. reflexivity. }
  specialize (G (chunks (Z.to_nat (len (pad m) / 64)) (pad m)) h0 eq_refl).
  remember (fold_left compress (chunks (Z.to_nat (len (pad m) / 64)) (pad m)) h0) as st eqn:E. clear E.
  do 9 (destruct st as [|? st]; try discriminate G). reflexivity.
Qed.
Lemma hmac_sha256_len k d : len (hmac_sha256 k d) = 32.
Proof. apply sha256_len. Qed.

(* FIPS 180-4 example, RFC 4231 test case 2 *)
Example sha256_abc : be_val (sha256 [97; 98; 99]) = 0xba7816bf8f01cfea414140de5dae2223b00361a396177a9cb410ff61f20015ad.
Proof. vm_compute. reflexivity. Qed.
Example hmac_jefe : be_val (hmac_sha256 [74; 101; 102; 101]
  [119; 104; 97; 116; 32; 100; 111; 32; 121; 97; 32; 119; 97; 110; 116; 32; 102; 111; 114; 32; 110; 111; 116; 104; 105; 110; 103; 63]) =
  0x5bdcc146bf60754e6a042426089575c75a003f089d2739839dec58b964ec3843.
Proof. vm_compute. reflexivity. Qed.
