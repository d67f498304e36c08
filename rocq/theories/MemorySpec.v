(* What giving back memory means, for programs that use a volume (Memory.v). *)
From Verif Require Import Base NameSpec Records FsTree Name FsName FileEntry Memory PropName.

(* What an object keeps allocated as long as it is not freed. *)
Definition owned_by (o : obj) : list block :=
  match o with
  | OEntry _ o _ => owned o
  | OAttr _ _ b s _ => s ++ b
  | OSnap l _ => l
  | OFreed => []
  end.

(* A path without two separators in a row, in UTF-8 or UTF-16. *)
Definition plain_path (u : bool) (str : list Z) : Prop :=
  exists p, file_name p /\ (forall a b, p <> a ++ 47 :: 47 :: b) /\ str = if u then utf16 p else utf8 p.
Definition asks_path (c : pcall) (u : bool) (str : list Z) : Prop :=
  c = PByPath u str \/ exists k, c = PSubByName k u str.

(* No file has an attribute that is taken for com.apple.decmpfs. *)
Definition no_compressed (t : fs) : Prop :=
  forall id l x, 0 <= id < 2 ^ 60 -> fs_attrs t id = Ok l -> In x l -> una_equal utf8_next decmpfs_key (at_name x) <> Ok true.

(* Why a block can be lost: a directory record by a path with an empty component, a data stream by a
   compressed file, a superblock by a snapshot. *)
Definition lost_for (t : fs) (cs : list pcall) (b : block) : Prop :=
  match fst b with
  | KRecord => exists c u str, In c cs /\ asks_path c u str /\ ~ plain_path u str
  | KStream => ~ no_compressed t
  | KSuper => exists i, In (PSnap i) cs
  | _ => False
  end.
