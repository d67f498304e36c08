(* Model of the escaping of names and paths in the tools, for platforms whose system strings
   are UTF-8: fsapfstools/path_string.c (fsapfsinfo), fsapfstools/bodyfile.c (fsapfsinfo -B),
   fsapfstools/mount_path_string.c (fsapfsmount). A C string is the list of its characters
   without the end-of-string character. Not modelled: Windows (the WINAPI branches, UTF-16
   strings), allocation failures, checks for NULL. *)
From Verif Require Import Base Name NameSpec.

(* SSIZE_MAX with 64-bit sizes *)
Definition ssize_max : Z := 2 ^ 63 - 1.

(* "%02" PRIx32 and "%08" PRIx32 of values with at most that many digits *)
Definition hex_digit (d : Z) : Z := if d <=? 9 then 48 + d else 87 + d.
Fixpoint hex (n : nat) (v : Z) : list Z :=
  match n with
  | O => []
  | S n => hex n (v / 16) ++ [hex_digit (v mod 16)]
  end.

(* path_string.c 246-248: U+0-U+1f, U+7f-U+9f *)
Definition is_control (c : Z) : bool := (c <=? 0x1f) || ((0x7f <=? c) && (c <=? 0x9f)).
(* path_string.c 281-294 and 621-634 *)
Definition is_unprintable (c : Z) : bool :=
  ((0x2028 <=? c) && (c <=? 0x2029)) || ((0xd800 <=? c) && (c <=? 0xdfff)) || (c =? 0xe000) || (c =? 0xf8ff) ||
  ((0xfdd0 <=? c) && (c <=? 0xfddf)) || ((0xfffe <=? c mod 65536) && (c mod 65536 <=? 0xffff)) ||
  (c =? 0xf0000) || (c =? 0xffffd) || (c =? 0x100000) || (0x10fffd <=? c).

(* Writing to a string of [size] characters of which [out] has been written. sprintf writes as
   much as there is room for, but the index is then moved by the length of the whole text, so
   that a text without room is followed by a write outside of the string: Oob. *)
Definition put_text (size : Z) (out s : list Z) : res (list Z) := if len out + len s <? size then Ok (out ++ s) else Oob.
Definition put_two (size : Z) (out : list Z) (a b : Z) : res (list Z) := let! _ := check (len out + 2 <=? size) in Ok (out ++ [a; b]).
(* libuna_unicode_character_copy_to_utf8 (external), with what it does for values that are no
   Unicode scalar values *)
Definition encode (bad : Z -> option (list Z)) (c : Z) : option (list Z) :=
  if ((0 <=? c) && (c <? 0xd800)) || ((0xdfff <? c) && (c <=? 0x10ffff)) then Some (utf8_char c) else bad c.
Definition put_char (bad : Z -> option (list Z)) (size : Z) (out : list Z) (c : Z) : res (list Z) :=
  match encode bad c with
  | Some s => let! _ := check (len out + len s <=? size) in Ok (out ++ s)
  | None => Fail
  end.

(* path_string.c 246-363, bodyfile.c 161-280, mount_path_string.c 268-396: one character. [x]:
   what is written as \x##; [e]: what is written with an escape character before it. The
   characters come from utf8_next, so that the values libuna rejects do not occur. *)
Definition escape_char (x e : Z -> bool) (size : Z) (out : list Z) (c : Z) : res (list Z) :=
  if x c then put_text size out ([92; 120] ++ hex 2 c)
  else if is_unprintable c then put_text size out ([92; 85] ++ hex 8 c)
  else if e c then put_two size out 92 c
  else put_char (fun _ => None) size out c.
(* The loop; [stop]: the loop ends at a NUL character (mount_path_string.c 254-257). *)
Fixpoint escape_loop (x e : Z -> bool) (stop : bool) (size : Z) (fuel : nat) (l out : list Z) : res (list Z) :=
  match l with
  | [] => Ok out
  | _ =>
    match fuel with
    | O => Fuel
    | S fuel =>
      let! (c, l) := utf8_next l in
      if stop && (c =? 0) then Ok out
      else let! out := escape_char x e size out c in escape_loop x e stop size fuel l out
    end
  end.
Definition escape (x e : Z -> bool) (stop : bool) (l : list Z) : res (list Z) :=
  let! _ := check (negb (len l =? 0) && (len l <=? ssize_max - 1)) in
  let! _ := check (len l <=? (ssize_max - 1) / 10) in
  escape_loop x e stop (len l * 10 + 1) (length l) l [].

(* path_string.c 122-379 and bodyfile.c 37-296: the end-of-string character is written without
   a check. *)
Definition ends_in (size : Z) (out : list Z) : res (list Z) := if len out <? size then Ok out else Oob.
Definition path_from (l : list Z) : res (list Z) :=
  let! out := escape is_control (fun c => c =? 92) false l in ends_in (len l * 10 + 1) out.
Definition bodyfile_from (l : list Z) : res (list Z) :=
  let! out := escape is_control (fun c => (c =? 92) || (c =? 124)) false l in ends_in (len l * 10 + 1) out.
(* mount_path_string.c 136-423 *)
Definition mount_from (l : list Z) : res (list Z) :=
  let! out := escape (fun c => is_control c || (c =? 47)) (fun c => c =? 92) true l in
  let! _ := check (len out <? len l * 10 + 1) in
  Ok out.

(* path_string.c 37-117, mount_path_string.c 44-131: the low four bits are zero when the digit
   is set with a bitwise or *)
Fixpoint hex_value (l : list Z) (v : Z) : res Z :=
  match l with
  | [] => Ok v
  | c :: l =>
    let v := w32 (v * 16) in
    if (48 <=? c) && (c <=? 57) then hex_value l (v + (c - 48))
    else if (97 <=? c) && (c <=? 102) then hex_value l (v + (c - 97 + 10))
    else Fail
  end.

(* path_string.c 507-664, mount_path_string.c 562-746: what follows the escape character. [x]:
   the values that may be given as \x##. *)
Definition unescape (x : Z -> bool) (l : list Z) : res (Z * list Z) :=
  match l with
  | [] => Fail
  | c :: l =>
    if c =? 92 then Ok (92, l)
    else if c =? 120 then
      let! _ := check (2 <=? len l) in
      let! v := hex_value (firstn 2 l) 0 in
      let! _ := check (((1 <=? v) && (v <=? 0x1f)) || x v || ((0x7f <=? v) && (v <=? 0x9f))) in
      Ok (v, skipn 2 l)
    else if c =? 85 then
      let! _ := check (8 <=? len l) in
      let! v := hex_value (firstn 8 l) 0 in
      let! _ := check (is_unprintable v) in
      Ok (v, skipn 8 l)
    else Fail
  end.

(* path_string.c 477-696 *)
Fixpoint path_to_loop (bad : Z -> option (list Z)) (sep size : Z) (fuel : nat) (l out : list Z) : res (list Z) :=
  match l with
  | [] => Ok out
  | _ =>
    match fuel with
    | O => Fuel
    | S fuel =>
      let! (c, l) := utf8_next l in
      let! (c, l) := (if c =? 92 then unescape (fun _ => false) l else Ok (c, l)) in
      let c := if c =? sep then 47 else c in
      let! out := put_char bad size out c in
      path_to_loop bad sep size fuel l out
    end
  end.
(* path_string.c 384-722 *)
Definition path_to (bad : Z -> option (list Z)) (sep : Z) (l : list Z) : res (list Z) :=
  let! _ := check (negb (len l =? 0) && (len l <=? ssize_max - 1)) in
  let! out := path_to_loop bad sep (len l + 1) (length l) l [] in
  let! _ := check (len out <? len l + 1) in
  Ok out.

(* mount_path_string.c 528-774; the separators of the platform and of the file system are the
   same character *)
Fixpoint mount_to_loop (bad : Z -> option (list Z)) (size : Z) (fuel : nat) (l out : list Z) : res (list Z) :=
  match l with
  | [] => Ok out
  | _ =>
    match fuel with
    | O => Fuel
    | S fuel =>
      let! (c, l) := utf8_next l in
      let! (c, l) := (if c =? 47 then Ok (47, l) else if c =? 92 then unescape (fun v => v =? 47) l else Ok (c, l)) in
      let! out := put_char bad size out c in
      mount_to_loop bad size fuel l out
    end
  end.
(* mount_path_string.c 428-800 *)
Definition mount_to (bad : Z -> option (list Z)) (l : list Z) : res (list Z) :=
  let! _ := check (negb (len l =? 0) && (len l <=? ssize_max - 1)) in
  let! c := getb l 0 in
  let! _ := check (c =? 47) in
  let! out := mount_to_loop bad (len l + 1) (length l) l [] in
  let! _ := check (len out <? len l + 1) in
  Ok out.

(* system_string_length: the characters before the first NUL character *)
Fixpoint c_string (l : list Z) : list Z :=
  match l with
  | [] => []
  | c :: l => if c =? 0 then [] else c :: c_string l
  end.
