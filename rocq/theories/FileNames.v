(* The names of the attributes with a meaning for the file system (Apple File System Reference,
   Extended Attributes; sys/decmpfs.h, XATTR_RESOURCEFORK_NAME), as texts. *)
From Coq Require Import ZArith List String Ascii.
Import ListNotations.

Definition chars (s : string) : list Z := map (fun c => Z.of_N (N_of_ascii c)) (list_ascii_of_string s).
Definition decmpfs_name : list Z := chars "com.apple.decmpfs".
Definition fork_name : list Z := chars "com.apple.ResourceFork".
Definition symlink_name : list Z := chars "com.apple.fs.symlink".
