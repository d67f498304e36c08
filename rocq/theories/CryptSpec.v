(* Sector encryption, AES key wrap (RFC 3394) and PBKDF2 (RFC 2898, RFC 8018), independent of
   the code. *)
From Verif Require Import Base.

(* A block cipher under some key, on blocks of 16 bytes. *)
Definition block_cipher (enc dec : list Z -> list Z) : Prop :=
  forall b, bytes b -> len b = 16 ->
  (bytes (enc b) /\ len (enc b) = 16) /\ (bytes (dec b) /\ len (dec b) = 16) /\ dec (enc b) = b /\ enc (dec b) = b.

(* Sectors that are encrypted one by one with consecutive numbers; a data unit is
   encrypted under the number of its sector. *)
Section Sectors.
  Variable enc : Z -> list Z -> list Z.
  Fixpoint enc_sectors (n : Z) (sectors : list (list Z)) : list (list Z) :=
    match sectors with
    | [] => []
    | s :: l => enc n s :: enc_sectors (n + 1) l
    end.
End Sectors.

(* A 64-bit sector number as data unit number of XTS (IEEE 1619): 16 bytes little-endian. *)
Definition data_unit (n : Z) : list Z := le_enc 16 (n mod 2 ^ 64).

(* A length-preserving cipher on data units of n bytes under some keys; the first argument is
   the data unit number as 16 bytes. *)
Definition unit_cipher (n : Z) (enc dec : list Z -> list Z -> list Z) : Prop :=
  forall m s, bytes s -> len s = n ->
  (bytes (enc (data_unit m) s) /\ len (enc (data_unit m) s) = n) /\ (bytes (dec (data_unit m) s) /\ len (dec (data_unit m) s) = n) /\
  dec (data_unit m) (enc (data_unit m) s) = s.

Definition xor_bytes (a b : list Z) : list Z := map (fun p => Z.lxor (fst p) (snd p)) (combine a b).

(* RFC 3394 2.2.1: words are of 8 bytes. Step t on A and R[i]:
   B = AES(K, A | R[i]), A = MSB(64, B) ^ t, R[i] = LSB(64, B). *)
Section Wrap.
  Variable enc : list Z -> list Z.
  Fixpoint wrap_pass (t : Z) (a : list Z) (rs : list (list Z)) : list Z * list (list Z) :=
    match rs with
    | [] => (a, [])
    | r :: rs =>
      let b := enc (a ++ r) in
      let (a', rs') := wrap_pass (t + 1) (xor_bytes (firstn 8 b) (be_enc 8 t)) rs in
      (a', skipn 8 b :: rs')
    end.
  Fixpoint wrap_passes (j : nat) (t : Z) (a : list Z) (rs : list (list Z)) : list Z * list (list Z) :=
    match j with
    | O => (a, rs)
    | S j => let (a, rs) := wrap_pass t a rs in wrap_passes j (t + len rs) a rs
    end.
  Definition key_wrap (iv : list Z) (rs : list (list Z)) : list Z :=
    let (a, rs) := wrap_passes 6 1 iv rs in a ++ concat rs.
End Wrap.

(* RFC 8018 5.2 with the pseudorandom function prf of 32 bytes:
   T_i = U_1 ^ ... ^ U_c, U_1 = PRF(P, S | INT(i)), U_j = PRF(P, U_{j-1}). *)
Section PBKDF2.
  Variable prf : list Z -> list Z -> list Z.
  Fixpoint u (password salt : list Z) (i : Z) (j : nat) : list Z :=
    match j with
    | O => prf password (salt ++ be_enc 4 i)
    | S j => prf password (u password salt i j)
    end.
  Fixpoint t (password salt : list Z) (i : Z) (c : nat) : list Z :=
    match c with
    | O => zeros 32
    | S c => xor_bytes (t password salt i c) (u password salt i c)
    end.
  (* the first dk_len bytes of T_1 | T_2 | ... *)
  Definition dk (password salt : list Z) (c dk_len : Z) : list Z :=
    firstn (Z.to_nat dk_len)
      (concat (map (fun i => t password salt (Z.of_nat i + 1) (Z.to_nat c)) (seq 0 (Z.to_nat ((dk_len + 31) / 32))))).
End PBKDF2.
