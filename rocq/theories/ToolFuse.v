(* Model of fsapfsmount as a file system: fsapfstools/mount_fuse.c 65-314 (stat, directory entries),
   422-526 (read), 609-1100 (extended attributes), 1196-1530 (directories), 1599-1940 (getattr,
   readlink) and fsapfstools/mount_file_entry.c 248-363, 438-687, 817-862, 905-1120. System
   characters are bytes. Not modelled: allocation failures, a directory buffer that is full, the
   owner, which is the one of the process, file handles, the parts for Windows. *)
From Verif Require Import Base NameSpec Walk Omap Records FsTree Name FsName Snapshot DataRead FileEntry EntryName ToolPath ToolMount ToolInfo.

Inductive errno := ENOENT | EIO | ENODATA | ERANGE | E2BIG | EINVAL.
(* an error of the library is the given error of the operating system *)
Definition or_errno {A} (x : errno) (r : res A) : res (A + errno) :=
  match r with
  | Ok a => Ok (inl a)
  | Fail => Ok (inr x)
  | Oob => Oob
  | Fuel => Fuel
  end.

Record fstat := mk_stat { sb_size : Z; sb_mode : Z; sb_links : Z; sb_atime : Z; sb_ctime : Z; sb_mtime : Z }.
(* mount_fuse.c 65-153; times are signed numbers of nanoseconds, the quotient is rounded towards
   zero. The nanoseconds are not kept (145: STAT_HAVE_NSEC is not defined by the system headers). *)
Definition stat_info (size mode atime ctime mtime : Z) : res fstat :=
  let! _ := check (size <=? 2 ^ 63 - 1) in
  Ok (mk_stat size mode (if Z.land mode 0x4000 =? 0 then 1 else 2) (Z.quot atime 1000000000) (Z.quot ctime 1000000000) (Z.quot mtime 1000000000)).
(* mount_file_entry.c 680-685 *)
Definition mount_mode (m : Z) : Z := if Z.land m 0xf000 =? 0xe000 then Z.lor 0x8000 (Z.land m 0xfff) else m.
(* mount_fuse.c 184-288, 1698-1797 *)
Definition entry_stat (e : fentry) : M fstate fstat :=
  let i := fe_inode e in
  bindM (entry_size e) (fun n => retM (stat_info n (mount_mode (in_mode i)) (s64 (in_access i)) (s64 (in_changed i)) (s64 (in_mtime i)))).

Section Mount.
  Variable lzvn : list Z -> Z -> res (list Z).
  Variable junk : list Z -> list Z -> list Z.
  (* the volume: its tree, device, keys, whether names are compared without case; see ToolMount.v
     for bad *)
  Variables (bad : Z -> option (list Z)) (t : fs) (dev : image) (ctx : option (list Z -> list Z -> list Z)) (fold : bool).

  (* mount_fuse.c 388-405, 685-708, 1674-1697: the entry of a path, None for ENOENT *)
  Definition located (p : list Z) : res (option fentry) :=
    match mount_open bad t fold p with
    | Ok (Some (_, (id, v, d))) => Ok (Some (mk_fe t dev ctx id v d))
    | Ok None => Ok None
    | Fail => Ok None
    | Oob => Oob
    | Fuel => Fuel
    end.
  Definition with_entry {A} (p : list Z) (k : fentry -> res (A + errno)) : res (A + errno) :=
    let! e := located p in
    match e with
    | Some e => k e
    | None => Ok (inr ENOENT)
    end.

  (* mount_fuse.c 1599-1830 *)
  Definition fuse_getattr (p : list Z) : res (fstat + errno) :=
    with_entry p (fun e => or_errno EIO (fst (entry_stat e f_init))).

  (* mount_fuse.c 422-526, on an open file *)
  Definition fuse_read (e : fentry) (n off : Z) (st : fstate) : res ((list Z + errno) * fstate) :=
    if 2 ^ 31 - 1 <? n then Ok (inr EINVAL, st)
    else let! (a, st) := entry_call lzvn junk e (CReadAt off n) st in Ok (match a with RBytes d => inl d | _ => inr EIO end, st).
  Fixpoint fuse_reads (e : fentry) (l : list (Z * Z)) (st : fstate) : res (list (list Z + errno)) :=
    match l with
    | [] => Ok []
    | (n, off) :: l =>
      let! (a, st) := fuse_read e n off st in
      let! r := fuse_reads e l st in
      Ok (a :: r)
    end.
  (* mount_fuse.c 319-417, 531-603: opening, reading, closing *)
  Definition fuse_file (p : list Z) (l : list (Z * Z)) : res (list (list Z + errno) + errno) :=
    with_entry p (fun e => let! r := fuse_reads e l f_init in Ok (inl r)).

  (* mount_fuse.c 1835-1940, mount_file_entry.c 817-862, libfsapfs_file_entry.c 2306-2404: the text
     in the buffer, of size bytes *)
  Definition fuse_readlink (p : list Z) (size : Z) : res (list Z + errno) :=
    with_entry p (fun e => or_errno EIO (
      let (v, _) := entry_link e f_init in
      let! v := v in
      match v with
      | None => Fail
      | Some v =>
        let! s := stream_text v (len v) in
        let! _ := check (len (utf8 s) + 1 <=? size) in
        Ok (c_string (utf8 s))
      end)).

  (* mount_fuse.c 1380-1493, mount_file_entry.c 905-1020: the entries from index i on *)
  Fixpoint dir_fill (n : nat) (e : fentry) (i : Z) (st : fstate) : res (list (list Z * fstat)) :=
    match n with
    | O => Ok []
    | S n =>
      let (x, st) := entry_sub e i st in
      let! x := x in
      let! name := mount_filename x in
      let! s := fst (entry_stat x f_init) in
      let! l := dir_fill n e (i + 1) st in
      Ok ((name, s) :: l)
    end.
  (* mount_fuse.c 1293-1493; the parent is opened with its name (mount_file_entry.c 310-342) *)
  Definition fuse_readdir (p : list Z) : res (list (list Z * fstat) + errno) :=
    with_entry p (fun e => or_errno EIO (
      let (s, st) := entry_stat e f_init in
      let! s := s in
      let! q := entry_parent e in
      let! u := match q with
                | None => stat_info 0 0 0 0 0
                | Some x => let! _ := mount_filename x in fst (entry_stat x f_init)
                end in
      let (n, st) := entry_subs e st in
      let! n := n in
      let! l := dir_fill (Z.to_nat n) e 0 st in
      Ok (([46], s) :: ([46; 46], u) :: l))).

  (* mount_fuse.c 616-857: the number that is returned and what is written to the buffer *)
  Definition fuse_getxattr (p name : list Z) (size : Z) : res (Z * list Z + errno) :=
    if 2 ^ 31 - 1 <? size then Ok (inr EINVAL)
    else with_entry p (fun e =>
      match fst (entry_attr_by_name e utf8_next name f_init) with
      | Ok None => Ok (inr ENODATA)
      | Ok (Some a) =>
        if 2 ^ 31 - 1 <? attr_size a then Ok (inr E2BIG)
        else if size =? 0 then Ok (inl (attr_size a, []))
        else if size <? attr_size a then Ok (inr ERANGE)
        else or_errno EIO (
          let! s := attr_stream e a in
          match s with
          | None => Fail
          | Some s => let! d := stream_read s 0 size in Ok (len d, d)
          end)
      | Fail => Ok (inr EIO)
      | Oob => Oob
      | Fuel => Fuel
      end).
  (* libfsapfs_attribute_values.c 613-737 *)
  Definition attr_text (a : attr) : res (list Z) := stream_text (at_name a) (len (at_name a)).
  (* mount_fuse.c 970-1061: the names from index i on, of the list so far *)
  Fixpoint list_names (n : nat) (e : fentry) (i size : Z) (acc : list Z) (st : fstate) : res (list Z) :=
    match n with
    | O => Ok acc
    | S n =>
      let (a, st) := entry_attr e i st in
      let! a := a in
      let! s := attr_text a in
      let! _ := check ((size =? 0) || (len (utf8 s) + 1 <=? size - len acc)) in
      list_names n e (i + 1) size (acc ++ utf8 s ++ [0]) st
    end.
  (* mount_fuse.c 862-1100; nothing is written for size 0 *)
  Definition fuse_listxattr (p : list Z) (size : Z) : res (Z * list Z + errno) :=
    if 2 ^ 31 - 1 <? size then Ok (inr EINVAL)
    else with_entry p (fun e => or_errno EIO (
      let (n, st) := entry_attrs e f_init in
      let! n := n in
      let! l := list_names (Z.to_nat n) e 0 size [] st in
      Ok (len l, if size =? 0 then [] else l))).
End Mount.
