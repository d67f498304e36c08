(* Model of the names of a file entry and of the calls on a directory: libfsapfs_file_entry.c
   1461-1840, libfsapfs_directory_record.c 827-907 and 971-1051, libfsapfs_inode.c 1320-1519. *)
From Verif Require Import Base NameSpec Walk Records FsTree Snapshot FileEntry.

(* The name comes from the directory record if the entry has one, otherwise from the inode;
   libuna fails for a NULL stream. *)
Definition entry_text (e : fentry) : res (list Z) :=
  match fe_rec e with
  | Some d => stream_text (de_name d) (len (de_name d))
  | None => match in_name (fe_inode e) with Some n => stream_text n (len n) | None => Fail end
  end.

(* libuna_utf8_string_size_from_utf8_stream, libuna_utf8_string_copy_from_utf8_stream and those
   for UTF-16 (external): the characters and an end-of-string character; the string has room
   for size units. utf8_next gives scalar values only, so that they are encoded by RFC 3629 and
   RFC 2781. *)
Definition entry_name_size (enc : list Z -> list Z) (e : fentry) : res Z :=
  let! s := entry_text e in Ok (len (enc s) + 1).
Definition entry_name (enc : list Z -> list Z) (e : fentry) (size : Z) : res (list Z) :=
  let! s := entry_text e in
  let! _ := check (len (enc s) + 1 <=? size) in
  Ok (enc s ++ [0]).

(* Calls on a directory, in any order: the number of sub entries, a sub entry. *)
Inductive dcall := DCount | DSub (i : Z).
Inductive danswer := ACount (n : Z) | AEntry (x : fentry) | AError.
Definition dir_call (e : fentry) (c : dcall) (st : fstate) : res (danswer * fstate) :=
  match c with
  | DCount => let (r, st) := entry_subs e st in match r with Ok n => Ok (ACount n, st) | Fail => Ok (AError, st) | Oob => Oob | Fuel => Fuel end
  | DSub i => let (r, st) := entry_sub e i st in match r with Ok x => Ok (AEntry x, st) | Fail => Ok (AError, st) | Oob => Oob | Fuel => Fuel end
  end.
Fixpoint dir_calls (e : fentry) (cs : list dcall) (st : fstate) : res (list danswer) :=
  match cs with
  | [] => Ok []
  | c :: cs =>
    let! (a, st) := dir_call e c st in
    let! l := dir_calls e cs st in
    Ok (a :: l)
  end.
