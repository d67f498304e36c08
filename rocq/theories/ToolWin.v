(* Model of fsapfsmount on Windows: fsapfstools/mount_path_string.c 35-800 with WINAPI,
   mount_handle.c 1049-1174, mount_file_system.c 372-594, mount_file_entry.c 50-160, 290-430, 438-690,
   695-811 and 905-1020 with WINAPI, mount_dokan.c 40-1463. System characters are 16-bit units
   (HAVE_WIDE_SYSTEM_CHARACTER), the separator is a backslash, the escape character is "^". Not
   modelled: allocation failures, checks for NULL, a callback of Dokan that refuses an entry. *)
From Verif Require Import Base NameSpec Walk Omap Records FsTree Name FsName Snapshot DataRead FileEntry EntryName ToolPath ToolInfo ToolFuse.

(* mount_path_string.c 271-278: less, greater, colon, quotation mark, slash, bar, question mark, star *)
Definition reserved (c : Z) : bool := existsb (Z.eqb c) [60; 62; 58; 34; 47; 124; 63; 42].
(* 268-281 *)
Definition win_x (c : Z) : bool := is_control c || (c =? 92) || reserved c.
(* libuna_unicode_character_copy_to_utf16 (external), with what it does for values that are no
   Unicode scalar values *)
Definition put_unit (bad : Z -> option (list Z)) (size : Z) (out : list Z) (c : Z) : res (list Z) :=
  match (if ((0 <=? c) && (c <? 0xd800)) || ((0xdfff <? c) && (c <=? 0x10ffff)) then Some (utf16_char c) else bad c) with
  | Some s => let! _ := check (len out + len s <=? size) in Ok (out ++ s)
  | None => Fail
  end.
(* 268-396: one character *)
Definition win_escape (size : Z) (out : list Z) (c : Z) : res (list Z) :=
  if win_x c then put_text size out ([94; 120] ++ hex 2 c)
  else if is_unprintable c then put_text size out ([94; 85] ++ hex 8 c)
  else if c =? 94 then put_two size out 94 c
  else put_unit (fun _ => None) size out c.
(* 226-397 *)
Fixpoint win_escape_loop (size : Z) (fuel : nat) (l out : list Z) : res (list Z) :=
  match l with
  | [] => Ok out
  | _ =>
    match fuel with
    | O => Fuel
    | S fuel =>
      let! (c, l) := utf16_next l in
      if c =? 0 then Ok out
      else let! out := win_escape size out c in win_escape_loop size fuel l out
    end
  end.
(* 136-423: the text and the size that is returned, the one of the string and not of the text *)
Definition win_from (l : list Z) : res (list Z * Z) :=
  let! _ := check (negb (len l =? 0) && (len l <=? ssize_max - 1)) in
  let! _ := check (len l <=? (ssize_max - 1) / 20) in
  let size := len l * 10 + 1 in
  let! out := win_escape_loop size (length l) l [] in
  let! _ := check (len out <? size) in
  Ok (out, size).

(* 44-131, with 102-108 *)
Fixpoint win_hex (l : list Z) (v : Z) : res Z :=
  match l with
  | [] => Ok v
  | c :: l =>
    let v := w32 (v * 16) in
    if (48 <=? c) && (c <=? 57) then win_hex l (v + (c - 48))
    else if (65 <=? c) && (c <=? 70) then win_hex l (v + (c - 65 + 10))
    else if (97 <=? c) && (c <=? 102) then win_hex l (v + (c - 97 + 10))
    else Fail
  end.
(* 562-746: what follows the escape character *)
Definition win_unescape (l : list Z) : res (Z * list Z) :=
  match l with
  | [] => Fail
  | c :: l =>
    if c =? 94 then Ok (94, l)
    else if (c =? 88) || (c =? 120) then
      let! _ := check (2 <=? len l) in
      let! v := win_hex (firstn 2 l) 0 in
      let! _ := check (((1 <=? v) && (v <=? 0x1f)) || (v =? 92) || reserved v || ((0x7f <=? v) && (v <=? 0x9f))) in
      Ok (v, skipn 2 l)
    else if (c =? 85) || (c =? 117) then
      let! _ := check (8 <=? len l) in
      let! v := win_hex (firstn 8 l) 0 in
      let! _ := check (is_unprintable v) in
      Ok (v, skipn 8 l)
    else Fail
  end.
(* 528-774: the separator becomes the one of the file system *)
Fixpoint win_to_loop (bad : Z -> option (list Z)) (size : Z) (fuel : nat) (l out : list Z) : res (list Z) :=
  match l with
  | [] => Ok out
  | _ =>
    match fuel with
    | O => Fuel
    | S fuel =>
      let! (c, l) := utf16_next l in
      let! (c, l) := (if c =? 92 then Ok (47, l) else if c =? 94 then win_unescape l else Ok (c, l)) in
      let! out := put_unit bad size out c in
      win_to_loop bad size fuel l out
    end
  end.
(* 428-800 *)
Definition win_to (bad : Z -> option (list Z)) (l : list Z) : res (list Z) :=
  let! _ := check (negb (len l =? 0) && (len l <=? ssize_max - 1)) in
  let! c := getb l 0 in
  let! _ := check (c =? 92) in
  let! _ := check (len l + 1 <=? ssize_max / 2) in
  let! out := win_to_loop bad (len l + 1) (length l) l [] in
  let! _ := check (len out <? len l + 1) in
  Ok out.

(* mount_file_system.c 471-594 *)
Definition win_filename (e : fentry) : res (list Z * Z) :=
  let! n := entry_name_size utf16 e in
  let! _ := check (negb (n =? 0) && (n <=? ssize_max)) in
  let! name := entry_name utf16 e n in
  win_from (slice name 0 (n - 1)).

(* mount_handle.c 1104-1113, see last_sep *)
Fixpoint win_last (p : list Z) (n : nat) : Z :=
  match n with
  | O => 0
  | S m => match getb (p ++ [0]) (Z.of_nat n) with Ok 92 => Z.of_nat n | _ => win_last p m end
  end.
(* mount_handle.c 1049-1174, mount_file_system.c 372-466, mount_file_entry.c 93-102: the entry of a
   path; the name that it is opened with is not used by mount_dokan.c and left out *)
Definition win_open (bad : Z -> option (list Z)) (t : fs) (fold : bool) (p : list Z) : res (option (Z * inode * option dentry)) :=
  let! _ := check (negb (len p =? 0)) in
  let n := if (2 <=? len p) && (match getb p (len p - 1) with Ok c => c =? 92 | _ => false end) then len p - 1 else len p in
  let k := win_last p (Z.to_nat n) in
  let! q := win_to bad (slice p 0 n) in
  let! r := fs_by_path t utf16_next fold 2 (c_string q) in
  match r with
  | None => Ok None
  | Some x =>
    let! _ := check (w64 (n - (k + 1)) <=? ssize_max - 1) in
    Ok (Some x)
  end.

(* mount_dokan.c 40-52: the error codes, which have other values before version 800 of Dokan *)
Inductive wcode := BAD_ARGUMENTS | NOT_FOUND | FAILURE | READ_FAULT | WRITE_PROTECTED | EXISTS | ALREADY_EXISTS | ACCESS_DENIED.
Definition or_code {A} (x : wcode) (r : res A) : res (A + wcode) :=
  match r with
  | Ok a => Ok (inl a)
  | Fail => Ok (inr x)
  | Oob => Oob
  | Fuel => Fuel
  end.

(* mount_file_entry.c 418-428 and likewise: a time in nanoseconds since 1970 as one in units of 100
   nanoseconds since 1601; the quotient is rounded towards zero *)
Definition win_time (x : Z) : Z := if x =? 0 then 0 else w64 (Z.quot x 100 + 116444736000000000).
(* The fields of BY_HANDLE_FILE_INFORMATION and WIN32_FIND_DATAW that are set; a time is its high
   and its low half *)
Record winfo := mk_wi { wi_high : Z; wi_low : Z; wi_attr : Z; wi_created : Z * Z; wi_accessed : Z * Z; wi_written : Z * Z }.
Definition halves (x : Z) : Z * Z := (w32 (x / 2 ^ 32), Z.land x 0xffffffff).
(* mount_dokan.c 63-159; FILE_ATTRIBUTE_DIRECTORY is 16, FILE_ATTRIBUTE_NORMAL is 128; old: the size
   that the structure has before *)
Definition win_info (old : Z * Z) (size mode created accessed written : Z) : winfo :=
  mk_wi (if 0 <? size then w32 (size / 2 ^ 32) else fst old) (if 0 <? size then Z.land size 0xffffffff else snd old)
    (if Z.land mode 0x4000 =? 0 then 128 else 16) (halves created) (halves accessed) (halves written).
(* mount_dokan.c 213-285, 1328-1430 *)
Definition win_entry_info (old : Z * Z) (e : fentry) : M fstate winfo :=
  let i := fe_inode e in
  bindM (entry_size e) (fun n => retM (Ok (win_info old n (mount_mode (in_mode i)) (win_time (s64 (in_created i))) (win_time (s64 (in_access i))) (win_time (s64 (in_mtime i)))))).

Section Mount.
  Variable lzvn : list Z -> Z -> res (list Z).
  Variable junk : list Z -> list Z -> list Z.
  Variables (bad : Z -> option (list Z)) (t : fs) (dev : image) (ctx : option (list Z -> list Z -> list Z)) (fold : bool).

  (* mount_dokan.c 468-485, 577-594, 987-1004, 1310-1327 *)
  Definition win_with {A} (p : list Z) (k : fentry -> res (A + wcode)) : res (A + wcode) :=
    match win_open bad t fold p with
    | Ok (Some (id, v, d)) => k (mk_fe t dev ctx id v d)
    | Ok None => Ok (inr NOT_FOUND)
    | Fail => Ok (inr NOT_FOUND)
    | Oob => Oob
    | Fuel => Fuel
    end.
  (* mount_dokan.c 504-606: FILE_CREATE is 2, FILE_OPEN is 1, FILE_OPEN_IF is 3 *)
  Definition win_create (access disposition : Z) (p : list Z) : res (fentry + wcode) :=
    if negb (Z.land access 0x40000000 =? 0) then Ok (inr WRITE_PROTECTED)
    else if disposition =? 2 then Ok (inr EXISTS)
    else if negb (disposition =? 1) && negb (disposition =? 3) then Ok (inr ACCESS_DENIED)
    else win_with p (fun e => Ok (inl e)).
  (* mount_dokan.c 370-497, before version 800: CREATE_NEW is 1, CREATE_ALWAYS 2, OPEN_EXISTING 3,
     OPEN_ALWAYS 4, TRUNCATE_EXISTING 5 *)
  Definition win_create_old (access disposition : Z) (p : list Z) : res (fentry + wcode) :=
    if negb (Z.land access 0x40000000 =? 0) then Ok (inr WRITE_PROTECTED)
    else if disposition =? 1 then Ok (inr EXISTS)
    else if disposition =? 2 then Ok (inr ALREADY_EXISTS)
    else if (disposition =? 4) || (disposition =? 5) then Ok (inr NOT_FOUND)
    else if negb (disposition =? 3) then Ok (inr BAD_ARGUMENTS)
    else win_with p (fun e => Ok (inl e)).
  (* mount_dokan.c 791-935 *)
  Definition win_read (e : fentry) (n off : Z) (st : fstate) : res ((list Z + wcode) * fstate) :=
    if 2 ^ 31 - 1 <? n then Ok (inr BAD_ARGUMENTS, st)
    else let! (a, st) := entry_call lzvn junk e (CReadAt off n) st in Ok (match a with RBytes d => inl d | _ => inr READ_FAULT end, st).
  Fixpoint win_reads (e : fentry) (l : list (Z * Z)) (st : fstate) : res (list (list Z + wcode)) :=
    match l with
    | [] => Ok []
    | (n, off) :: l =>
      let! (a, st) := win_read e n off st in
      let! r := win_reads e l st in
      Ok (a :: r)
    end.
  (* opening with an access and a disposition, reading, closing (704-785) *)
  Definition win_file (access disposition : Z) (p : list Z) (l : list (Z * Z)) : res (list (list Z + wcode) + wcode) :=
    let! e := win_create access disposition p in
    match e with
    | inl e => let! r := win_reads e l f_init in Ok (inl r)
    | inr x => Ok (inr x)
    end.
  (* mount_dokan.c 1265-1463 *)
  Definition win_information (old : Z * Z) (p : list Z) : res (winfo + wcode) :=
    win_with p (fun e => or_code FAILURE (fst (win_entry_info old e f_init))).

  (* mount_dokan.c 202-362: what is listed for a name in a string of size units. longest is
     DOKAN_MAX_PATH (53-57). cFileName has room for 260 units, cAlternateFileName for 14;
     wide_string_copy is wcsncpy, which writes size units. The structure is set to zero before. *)
  Definition win_fill (longest : Z) (name : list Z) (size : Z) (i : winfo) : res (list Z * list Z * winfo) :=
    let! _ := check (size <=? longest) in
    if 260 <? size then Oob
    else Ok (name, if size <=? 14 then name else [], i).
  (* mount_dokan.c 1094-1209, mount_file_entry.c 905-1020, 137-180: the size of the name is the one
     that win_from gives *)
  Fixpoint win_list (longest : Z) (n : nat) (e : fentry) (i : Z) (st : fstate) : res (list (list Z * list Z * winfo)) :=
    match n with
    | O => Ok []
    | S n =>
      let (x, st) := entry_sub e i st in
      let! x := x in
      let! (name, size) := win_filename x in
      let! s := fst (win_entry_info (0, 0) x f_init) in
      let! a := win_fill longest name size s in
      let! l := win_list longest n e (i + 1) st in
      Ok (a :: l)
    end.
  (* mount_dokan.c 941-1259; the parent is opened with its name (mount_file_entry.c 310-342) *)
  Definition win_find (longest : Z) (p : list Z) : res (list (list Z * list Z * winfo) + wcode) :=
    win_with p (fun e => or_code FAILURE (
      let (s, st) := win_entry_info (0, 0) e f_init in
      let! s := s in
      let! a := win_fill longest [46] 2 s in
      let! q := entry_parent e in
      let! u := match q with
                | None => Ok (win_info (0, 0) 0 0 0 0 0)
                | Some x => let! _ := win_filename x in fst (win_entry_info (0, 0) x f_init)
                end in
      let! b := win_fill longest [46; 46] 3 u in
      let (n, st) := entry_subs e st in
      let! n := n in
      let! l := win_list longest (Z.to_nat n) e 0 st in
      Ok (a :: b :: l))).
End Mount.
