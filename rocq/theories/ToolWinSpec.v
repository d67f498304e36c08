(* What Windows says about the files of a mounted volume, independent of the code: Naming Files,
   Paths, and Namespaces; FILETIME; BY_HANDLE_FILE_INFORMATION. *)
From Verif Require Import Base NameSpec PropName Records FsTree FileEntry FileSpec ToolWin.

(* A character of a name: none of the control characters below 32, and none of less, greater,
   colon, quotation mark, slash, backslash, bar, question mark and star. *)
Definition windows_char (c : Z) : Prop := 32 <= c /\ ~ In c [60; 62; 58; 34; 47; 92; 124; 63; 42].
(* CON, PRN, AUX, NUL *)
Definition device_name (s : list Z) : Prop := In s [[67; 79; 78]; [80; 82; 78]; [65; 85; 88]; [78; 85; 76]].
Definition upper (c : Z) : Z := if (97 <=? c) && (c <=? 122) then c - 32 else c.
(* A name: of such characters, not a device in any case, without a space or period at the end. *)
Definition windows_name (s : list Z) : Prop :=
  s <> [] /\ Forall windows_char s /\ ~ device_name (map upper s) /\ last s 0 <> 32 /\ last s 0 <> 46.
Definition windows_path (names : list (list Z)) : list Z := concat (map (cons 92) names).

(* A time is stored as a signed number of nanoseconds since 1970, of 64 bits. A FILETIME is a number
   of 100 nanoseconds since 1601, 134774 days earlier, in two halves of 32 bits. *)
Definition filetime_of (stored : Z) (shown : Z * Z) : Prop :=
  exists t, - 2 ^ 63 <= t < 2 ^ 63 /\ stored = t mod 2 ^ 64 /\ 0 <= fst shown < 2 ^ 32 /\ 0 <= snd shown < 2 ^ 32 /\
    fst shown * 2 ^ 32 + snd shown = t / 100 + 134774 * 86400 * 10000000.
(* The information about a file with inode i: its size in two halves, whether it is a directory. *)
Definition windows_info (f : file) (i : inode) (w : winfo) : Prop :=
  0 <= wi_low w < 2 ^ 32 /\ wi_high w * 2 ^ 32 + wi_low w = len (fl_data f) /\
  wi_attr w = (if Z.land (in_mode i) 0xf000 =? 0x4000 then 16 else 128) /\
  filetime_of (in_created i) (wi_created w) /\ filetime_of (in_access i) (wi_accessed w) /\ filetime_of (in_mtime i) (wi_written w).
