(* What POSIX says about the files of a mounted volume (stat, readlink, read, and the calls for
   extended attributes of Linux), independent of the code. *)
From Verif Require Import Base NameSpec PropName Records FsTree FileEntry FileSpec ToolFuse.

(* A time is stored as a signed number of nanoseconds since 1970, of 64 bits; what is shown are
   the whole seconds, of which there are less than none before 1970. *)
Definition seconds_of (stored shown : Z) : Prop :=
  exists t, - 2 ^ 63 <= t < 2 ^ 63 /\ stored = t mod 2 ^ 64 /\ shown = t / 1000000000.
(* The target of a symbolic link, stored with an end-of-string character. *)
Definition target_is (f : file) (s : list Z) : Prop := file_name s /\ hd 0 s <> 0xfeff /\ fl_link f = Some (utf8 s ++ [0]).
(* stat of a file with inode i: the size of a symbolic link is that of its target; the number of
   links of what is no directory is the number of its names. *)
Definition posix_stat (f : file) (i : inode) (s : fstat) : Prop :=
  (fl_link f = None -> sb_size s = len (fl_data f)) /\ (forall w, target_is f w -> sb_size s = len (utf8 w)) /\
  sb_mode s = in_mode i /\ (Z.land (in_mode i) 0xf000 <> 0x4000 -> sb_links s = in_links i) /\
  seconds_of (in_access i) (sb_atime s) /\ seconds_of (in_changed i) (sb_ctime s) /\ seconds_of (in_mtime i) (sb_mtime s).

(* The names of the attributes, each with an end-of-string character. *)
Definition names_of (l : list (attr * list Z)) : list Z := concat (map (fun p => utf8 (snd p) ++ [0]) l).
(* The answer to a question for some bytes: how many they are for size 0, the bytes if they fit. *)
Definition sized (v : list Z) (size : Z) : Z * list Z + errno :=
  if size =? 0 then inl (len v, []) else if len v <=? size then inl (len v, v) else inr ERANGE.
