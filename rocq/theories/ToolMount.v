(* Model of the paths of fsapfsmount: mount_handle.c 1049-1174, mount_file_system.c 372-594 and
   mount_file_entry.c 50-363, 905-1020. System characters are bytes (no
   HAVE_WIDE_SYSTEM_CHARACTER). Not modelled: allocation failures. *)
From Verif Require Import Base NameSpec Walk Records FsTree Name FsName Snapshot FileEntry EntryName ToolPath.

(* mount_file_system.c 471-594: the name that is shown for a file entry *)
Definition mount_filename (e : fentry) : res (list Z) :=
  let! n := entry_name_size utf8 e in
  let! _ := check (negb (n =? 0) && (n <=? ssize_max)) in
  let! name := entry_name utf8 e n in
  mount_from (slice name 0 (n - 1)).

(* mount_handle.c 1104-1113: going back from index n to the separator; 0 if there is none. The
   end-of-string character is at index len p. *)
Fixpoint last_sep (p : list Z) (n : nat) : Z :=
  match n with
  | O => 0
  | S m => match getb (p ++ [0]) (Z.of_nat n) with Ok 47 => Z.of_nat n | _ => last_sep p m end
  end.
(* mount_handle.c 1049-1174, mount_file_system.c 372-466, mount_file_entry.c 93-102: the entry of
   a path with the name it is opened with; bad: what libuna writes for characters it cannot
   encode (see encode) *)
Definition mount_open (bad : Z -> option (list Z)) (t : fs) (fold : bool) (p : list Z) : res (option (list Z * (Z * inode * option dentry))) :=
  let! _ := check (negb (len p =? 0)) in
  let n := if (2 <=? len p) && (match getb p (len p - 1) with Ok c => c =? 47 | _ => false end) then len p - 1 else len p in
  let k := last_sep p (Z.to_nat n) in
  let size := w64 (n - (k + 1)) in
  let! q := mount_to bad (slice p 0 n) in
  let! r := fs_by_path t utf8_next fold 2 (c_string q) in
  match r with
  | None => Ok None
  | Some x =>
    let! _ := check (size <=? ssize_max - 1) in
    Ok (Some (slice p (k + 1) size, x))
  end.
