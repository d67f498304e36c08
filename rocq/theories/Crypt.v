(* Model of libfsapfs_encryption_context.c and libfsapfs_password.c.
   AES (libcaes) and SHA-256, HMAC (libhmac) are parameters: functions on byte strings. *)
From Verif Require Import Base.

(* Copy into a buffer at an offset (memory_copy destination side). *)
Definition wr (l : list Z) (off : Z) (s : list Z) : res (list Z) :=
  if (0 <=? off) && (off + len s <=? len l) then
    Ok (firstn (Z.to_nat off) l ++ s ++ skipn (Z.to_nat (off + len s)) l)
  else Oob.

Fixpoint xor (a b : list Z) : list Z :=
  match a, b with
  | x :: a, y :: b => Z.lxor x y :: xor a b
  | _, _ => []
  end.

Section Context.
  (* AES-XTS decryption of a data unit under the keys of the context: tweak value, data *)
  Variable xts : list Z -> list Z -> list Z.

  (* libfsapfs_encryption_context.c 403-423: the sector number in the first half *)
  Definition tweak (sector : Z) : list Z := le_enc 8 (w64 sector) ++ zeros 8.

  (* libfsapfs_encryption_context.c 417-446: the loop over sectors. libcaes_crypt_xts reads and
     writes bytes_per_sector bytes and rejects sizes of less than 16. *)
  Fixpoint crypt_loop (fuel : nat) (input out : list Z) (off sector bps : Z) : res (list Z) :=
    if off <? len input then
      match fuel with
      | O => Fuel
      | S fuel =>
        let! _ := check (16 <=? bps) in
        let! s := rd input off bps in
        let! out := wr out off (xts (tweak sector) s) in
        crypt_loop fuel input out (off + bps) (sector + 1) bps
      end
    else Ok out.

  (* libfsapfs_encryption_context.c 310-456: crypt; [out] is the output buffer before the
     call. Only decryption is supported (line 337). *)
  Definition crypt (decrypt : bool) (input out : list Z) (sector bps : Z) : res (list Z) :=
    let! _ := check decrypt in
    let! _ := check (len input <=? len out) in
    crypt_loop (length input) input out 0 sector bps.
End Context.

Section KeyWrap.
  (* AES decryption of a block of 16 bytes under the key *)
  Variable dec : list Z -> list Z.

  (* libfsapfs_encryption_context.c 656-744: one step, on block i *)
  Definition unwrap_step (n round i : Z) (buf : list Z) : res (list Z) :=
    let! iv := rd buf 0 8 in
    let v := xor (be_enc 8 (w64 (round * (n - 1) + i))) iv in
    let! r := rd buf (i * 8) 8 in
    let b := dec (v ++ r) in
    let! buf := wr buf 0 (slice b 0 8) in
    wr buf (i * 8) (slice b 8 8).

  (* libfsapfs_encryption_context.c 652-745: blocks i, ..., 1 *)
  Fixpoint unwrap_blocks (n round : Z) (i : nat) (buf : list Z) : res (list Z) :=
    match i with
    | O => Ok buf
    | S j => let! buf := unwrap_step n round (Z.of_nat i) buf in unwrap_blocks n round j buf
    end.

  (* libfsapfs_encryption_context.c 648-746: rounds r-1, ..., 0 *)
  Fixpoint unwrap_rounds (n : Z) (r : nat) (buf : list Z) : res (list Z) :=
    match r with
    | O => Ok buf
    | S q => let! buf := unwrap_blocks n (Z.of_nat q) (Z.to_nat (n - 1)) buf in unwrap_rounds n q buf
    end.

  (* libfsapfs_encryption_context.c 461-782: aes_key_unwrap, with an output buffer of the
     size of the input *)
  Definition key_unwrap (key_bits : Z) (wrapped : list Z) : res (list Z) :=
    let! _ := check ((key_bits =? 128) || (key_bits =? 192) || (key_bits =? 256)) in
    let! _ := check (8 <? len wrapped) in
    let! _ := check (len wrapped mod 8 =? 0) in
    unwrap_rounds (len wrapped / 8) 6 wrapped.
End KeyWrap.

Section Password.
  (* HMAC-SHA256: key, data; 32 bytes *)
  Variable hmac : list Z -> list Z -> list Z.

  (* libfsapfs_password.c 293-324, 370-401: k further iterations; [out] are the bytes of the
     output that are being computed, [h] the hash buffer *)
  Fixpoint iterate (password : list Z) (k : nat) (h out : list Z) : list Z :=
    match k with
    | O => out
    | S k => let h := hmac password h in iterate password k h (xor out h)
    end.

  (* libfsapfs_password.c 252-325 (327-402): the size bytes of block i of the output. The
     exclusive or of line 322 (399) stops after size bytes. *)
  Definition block (password salt : list Z) (iterations i size : Z) : list Z :=
    let h := hmac password (salt ++ be_enc 4 (w32 (i + 1))) in
    iterate password (Z.to_nat (w32 (iterations - 1))) h (slice h 0 size).

  Fixpoint blocks (password salt : list Z) (iterations i : Z) (n : nat) : list Z :=
    match n with
    | O => []
    | S n => block password salt iterations i 32 ++ blocks password salt iterations (i + 1) n
    end.

  (* libfsapfs_password.c 36-417: pbkdf2. The number of blocks is 32-bit (line 153), the
     number of remaining bytes is computed from it (line 154). Beyond 2^32 blocks the last
     block has more than 32 bytes, read outside of the hash: Oob.
     Not modelled: the limit of the size of the salt (line 157). *)
  Definition pbkdf2 (password salt : list Z) (iterations size : Z) : res (list Z) :=
    let! _ := check (negb (iterations =? 0)) in
    let n := w32 (size / 32) in
    let r := size - n * 32 in
    let full := blocks password salt iterations 0 (Z.to_nat n) in
    if r =? 0 then Ok full
    else if 32 <? r then Oob
    else Ok (full ++ block password salt iterations n r).
End Password.
