(* Model of libfsapfs_name.c and libfsapfs_name_hash.c: comparison of names and the name
   hash of directory records.
   A position in a string is modelled as the list of what remains of it. Not modelled: the
   checks of sizes against SSIZE_MAX. The decoders belong to libuna; they are modelled for
   well-formed input as Unicode defines it, and reject everything else. *)
From Verif Require Import Base Checksum NameTables.

(* libuna_unicode_character_copy_from_utf8, on what remains of a non-empty string:
   the code point and what follows it *)
Definition cont (b : Z) : bool := (0x80 <=? b) && (b <=? 0xbf).
Definition utf8_next (l : list Z) : res (Z * list Z) :=
  match l with
  | [] => Fail
  | b :: r =>
    if b <? 0x80 then Ok (b, r)
    else if (0xc2 <=? b) && (b <=? 0xdf) then
      match r with
      | c :: r => if cont c then Ok ((b - 0xc0) * 64 + (c - 0x80), r) else Fail
      | _ => Fail
      end
    else if (0xe0 <=? b) && (b <=? 0xef) then
      match r with
      | c :: d :: r =>
        let v := (b - 0xe0) * 4096 + (c - 0x80) * 64 + (d - 0x80) in
        if cont c && cont d && (0x800 <=? v) && ((v <? 0xd800) || (0xdfff <? v)) then Ok (v, r) else Fail
      | _ => Fail
      end
    else if (0xf0 <=? b) && (b <=? 0xf4) then
      match r with
      | c :: d :: e :: r =>
        let v := (b - 0xf0) * 262144 + (c - 0x80) * 4096 + (d - 0x80) * 64 + (e - 0x80) in
        if cont c && cont d && cont e && (0x10000 <=? v) && (v <=? 0x10ffff) then Ok (v, r) else Fail
      | _ => Fail
      end
    else Fail
  end.

(* libuna_unicode_character_copy_from_utf16, likewise *)
Definition utf16_next (l : list Z) : res (Z * list Z) :=
  match l with
  | [] => Fail
  | u :: r =>
    if (u <? 0xd800) || (0xdfff <? u) then Ok (u, r)
    else if u <? 0xdc00 then
      match r with
      | v :: r => if (0xdc00 <=? v) && (v <=? 0xdfff)
                  then Ok (0x10000 + (u - 0xd800) * 1024 + (v - 0xdc00), r) else Fail
      | _ => Fail
      end
    else Fail
  end.

(* The chain of range tests of the two macros, each followed by an array access. None is
   the case that no test holds. *)
Fixpoint tab_get {A} (ts : list (Z * Z * list A)) (c : Z) : option (res A) :=
  match ts with
  | [] => None
  | (lo, hi, t) :: ts =>
    if (lo <=? c) && (c <=? hi)
    then Some (match nth_error t (Z.to_nat (c - lo)) with Some v => Ok v | None => Oob end)
    else tab_get ts c
  end.

(* libfsapfs_name.h 193-288: libfsapfs_name_get_case_folding_mapping *)
Definition case_fold (c : Z) : res Z :=
  match tab_get fold_tables c with Some r => r | None => Ok c end.
(* libfsapfs_name.h 290-438: libfsapfs_name_get_decomposition_mapping *)
Definition nfd_map (c : Z) : res (list Z) :=
  match tab_get nfd_tables c with Some r => r | None => Ok [c] end.

(* libfsapfs_name.c 7317-7333 for one of the two characters *)
Definition name_map (fold : bool) (c : Z) : res (list Z) :=
  let! c := if fold then case_fold c else Ok c in nfd_map c.

(* libfsapfs_name.c 7335-7366: compare two mappings, first that of the string. Eq goes on
   to the next character. *)
Fixpoint cmp_mapping (s n : list Z) : comparison :=
  match s, n with
  | a :: s, b :: n => if a <? b then Lt else if b <? a then Gt else cmp_mapping s n
  | [], [] => Eq
  | [], _ => Gt
  | _, [] => Lt
  end.

(* libfsapfs_name.c 7272-7281: a trailing end-of-string character is not part of the name *)
Definition strip (l : list Z) : list Z :=
  match rev l with 0 :: r => rev r | _ => l end.

(* libfsapfs_name.c 7282-7376 (UTF-8), 7468-7562 (UTF-16): the loop *)
Fixpoint cmp_loop (next : list Z -> res (Z * list Z)) (fold : bool) (fuel : nat) (name str : list Z) : res comparison :=
  match fuel with
  | O => Fuel
  | S fuel =>
    match name, str with
    | _ :: _, _ :: _ =>
      let! (n, name) := utf8_next name in
      let! (s, str) := next str in
      let! s := name_map fold s in
      let! n := name_map fold n in
      match cmp_mapping s n with
      | Eq => cmp_loop next fold fuel name str
      | c => Ok c
      end
    | _, _ :: _ => Ok Gt
    | _ :: _, _ => Ok Lt
    | _, _ => Ok Eq
    end
  end.

(* libfsapfs_name.c 7196-7377: libfsapfs_name_compare_with_utf8_string, 7382-7563:
   libfsapfs_name_compare_with_utf16_string. LIBUNA_COMPARE_LESS is Lt: the string is
   less than the name. *)
Definition name_compare (next : list Z -> res (Z * list Z)) (fold : bool) (name str : list Z) : res comparison :=
  let! _ := check (negb (len name =? 0)) in
  let name := strip name in
  cmp_loop next fold (S (length name)) name (strip str).
Definition compare_utf8 := name_compare utf8_next.
Definition compare_utf16 := name_compare utf16_next.

(* libfsapfs_name_hash.c 191-359: the characters that are hashed for a character *)
Definition hash_map (fold : bool) (c : Z) : res (list Z) :=
  if fold then
    let! c := case_fold c in
    if (0x1f80 <=? c) && (c <=? 0x1faf) then
      match nth_error special_1f80 (Z.to_nat (c - 0x1f80)) with Some m => Ok m | None => Oob end
    else
      match find (fun p => fst p =? c) special_single with
      | Some p => Ok (snd p)
      | None => nfd_map c
      end
  else nfd_map c.

(* libfsapfs_name_hash.c 360-412: every character adds four bytes, little-endian, to a
   CRC-32 with the step and the table of libfsapfs_checksum_calculate_weak_crc32 *)
Definition hash_chars (m : list Z) (crc : Z) : res Z :=
  calculate_weak_crc32 (concat (map (le_enc 4) m)) crc.

(* libfsapfs_name_hash.c 169-413 (UTF-8), 490-734 (UTF-16) *)
Fixpoint hash_loop (next : list Z -> res (Z * list Z)) (fold : bool) (fuel : nat) (str : list Z) (crc : Z) : res Z :=
  match str with
  | [] => Ok crc
  | _ =>
    match fuel with
    | O => Fuel
    | S fuel =>
      let! (c, str) := next str in
      if c =? 0 then Ok crc
      else
        let! m := hash_map fold c in
        let! crc := hash_chars m crc in
        hash_loop next fold fuel str crc
    end
  end.

(* libfsapfs_name_hash.c 127-443: libfsapfs_name_hash_calculate_from_utf8_string, 448-764:
   libfsapfs_name_hash_calculate_from_utf16_string *)
Definition name_hash (next : list Z -> res (Z * list Z)) (fold : bool) (str : list Z) : res Z :=
  let! crc := hash_loop next fold (length str) str 0xffffffff in
  Ok (Z.land crc 0x003fffff).
Definition hash_utf8 := name_hash utf8_next.
Definition hash_utf16 := name_hash utf16_next.
