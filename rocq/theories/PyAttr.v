(* Model of names and of extended attribute objects of pyfsapfs: pyfsapfs/pyfsapfs_file_entry.c
   1688-1807 (name), 1809-1922 (symbolic link target), 2141-2213 and 2215-2309 (attribute by name),
   2530-2622 (sub entry by name); pyfsapfs/pyfsapfs_extended_attribute.c 458-577 (name), 579-1067
   (read, read at an offset, seek), 1069-1127 (offset), 1129-1176 (size). The calls to read and to
   seek are those of a file entry (PyFile.v), line by line. Not modelled: as in PyFile.v. *)
From Verif Require Import Base NameSpec Name Walk Records FsTree FsName Snapshot FileEntry EntryName ExtAttr ToolInfo PyFile PyVol.

(* PyUnicode_DecodeUTF8, strict (external): RFC 3629, section 4 *)
Definition more (b : Z) : bool := (0x80 <=? b) && (b <? 0xc0).
Definition take_char (l : list Z) : option (Z * list Z) :=
  match l with
  | [] => None
  | a :: l =>
    if a <? 0x80 then Some (a, l)
    else if a <? 0xc2 then None
    else if a <? 0xe0 then
      match l with b :: l => if more b then Some ((a - 0xc0) * 64 + (b - 0x80), l) else None | _ => None end
    else if a <? 0xf0 then
      match l with
      | b :: c :: l =>
        let v := ((a - 0xe0) * 64 + (b - 0x80)) * 64 + (c - 0x80) in
        if more b && more c && (0x800 <=? v) && negb ((0xd800 <=? v) && (v <=? 0xdfff)) then Some (v, l) else None
      | _ => None
      end
    else if a <? 0xf5 then
      match l with
      | b :: c :: d :: l =>
        let v := (((a - 0xf0) * 64 + (b - 0x80)) * 64 + (c - 0x80)) * 64 + (d - 0x80) in
        if more b && more c && more d && (0x10000 <=? v) && (v <=? 0x10ffff) then Some (v, l) else None
      | _ => None
      end
    else None
  end.
Fixpoint decode (fuel : nat) (l : list Z) : option (list Z) :=
  match l, fuel with
  | [], _ => Some []
  | _, O => None
  | _, S fuel =>
    match take_char l with
    | Some (c, l) => match decode fuel l with Some s => Some (c :: s) | None => None end
    | None => None
    end
  end.
Definition py_decode (l : list Z) : option (list Z) := decode (length l) l.

(* A str, None, or an exception *)
Inductive pstr := PStr (s : list Z) | PNoStr | PBadStr.
(* pyfsapfs_file_entry.c 1714-1798: the size, then the string, of which the last unit is left out.
   size: None for the result 0 *)
Definition py_string (size : res (option Z)) (get : Z -> res (list Z)) : res pstr :=
  match size with
  | Ok None => Ok PNoStr
  | Ok (Some n) =>
    if n =? 0 then Ok PNoStr
    else match get n with
         | Ok b => Ok (match py_decode (slice b 0 (n - 1)) with Some s => PStr s | None => PBadStr end)
         | Fail => Ok PBadStr
         | Oob => Oob
         | Fuel => Fuel
         end
  | Fail => Ok PBadStr
  | Oob => Oob
  | Fuel => Fuel
  end.
Definition py_entry_name (e : fentry) : res pstr :=
  py_string (let! n := entry_name_size utf8 e in Ok (Some n)) (entry_name utf8 e).
(* libfsapfs_file_entry.c 2203-2405: the target as a string *)
Definition py_link (e : fentry) (st : fstate) : res pstr * fstate :=
  let (r, st) := entry_link e st in
  let target := let! v := r in match v with Some v => let! s := stream_text v (len v) in Ok (Some (utf8 s ++ [0])) | None => Ok None end in
  (py_string (let! t := target in Ok (match t with Some b => Some (len b) | None => None end))
     (fun n => let! t := target in match t with Some b => let! _ := check (len b <=? n) in Ok b | None => Fail end), st).

(* Lookups by name: an object, None or False, or an exception *)
Inductive pfound (A : Type) := PFound (a : A) | PMissing | PFailed.
Arguments PFound {A}. Arguments PMissing {A}. Arguments PFailed {A}.
Definition found {A} (r : res (option A)) : res (pfound A) :=
  match r with
  | Ok (Some a) => Ok (PFound a)
  | Ok None => Ok PMissing
  | Fail => Ok PFailed
  | Oob => Oob
  | Fuel => Fuel
  end.
Definition py_attr_by_name (e : fentry) (s : list Z) (st : fstate) : res (pfound attr) * fstate :=
  match arg_str s with
  | Some b => let (r, st) := entry_attr_by_name e utf8_next b st in (found r, st)
  | None => (Ok PFailed, st)
  end.
(* libfsapfs_file_entry.c 3054-3130 *)
Definition py_has_attr (e : fentry) (s : list Z) (st : fstate) : res (pfound unit) * fstate :=
  match arg_str s with
  | Some b => let (r, st) := entry_attr_by_name e utf8_next b st in (found (let! x := r in Ok (match x with Some _ => Some tt | None => None end)), st)
  | None => (Ok PFailed, st)
  end.
Definition py_sub_by_name (e : fentry) (fold : bool) (s : list Z) : res (pfound fentry) :=
  match arg_str s with
  | Some b => found (entry_sub_by_name e utf8_next fold b)
  | None => Ok PFailed
  end.

(* An extended attribute as a file object. An offset that the library does not set is that of the
   variable, 0 (pyfsapfs_extended_attribute.c 1080). *)
Section Attr.
  Variables (e : fentry) (a : attr).
  Definition x_file (c : fcall) (st : xstate) : res (fanswer * xstate) :=
    match c with
    | CSize => let! (x, st) := x_call e a XSize st in Ok (match x with XInt z => RSize z | _ => RError end, st)
    | CRead n => let! (x, st) := x_call e a (XRead n) st in Ok (match x with XBytes d => RBytes d | _ => RError end, st)
    | CReadAt off n => let! (x, st) := x_call e a (XReadAt off n) st in Ok (match x with XBytes d => RBytes d | _ => RError end, st)
    | CSeek off w => let! (x, st) := x_call e a (XSeek off w) st in Ok (match x with XInt z => RPos z | _ => RError end, st)
    | COffset => let! (x, st) := x_call e a XOffset st in Ok (match x with XInt z => RPos z | XUnset => RPos 0 | _ => RError end, st)
    | _ => Ok (RError, st)
    end.
  Definition py_attr_calls (cs : list pcall) (st : xstate) : res (list panswer * xstate) := py_calls _ x_file cs st.
  Definition py_attr_name : res pstr := py_string (let! s := x_units a false in Ok (Some (len s))) (fun n => let! s := x_units a false in let! _ := check (len s <=? n) in Ok s).
End Attr.
