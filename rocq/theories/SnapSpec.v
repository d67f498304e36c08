(* Snapshot metadata trees on disk (Apple File System Reference, Snapshots), independent of
   the code. *)
From Verif Require Import Base BTreeSpec TreeSpec OmapSpec NameSpec RecordsSpec FsSpec.

(* What is stored about a snapshot: the transaction identifier is in the key, the rest in the
   value. The name ends with a NUL. *)
Record snapshot := {
  sm_xid : Z; sm_extents : Z; sm_block : Z; sm_created : Z; sm_changed : Z; sm_inode : Z; sm_type : Z; sm_flags : Z; sm_name : list Z }.
Definition snapshot_key (s : snapshot) : list Z := key_head 1 (sm_xid s).
Definition snapshot_value (s : snapshot) : list Z :=
  le_enc 8 (sm_extents s) ++ le_enc 8 (sm_block s) ++ le_enc 8 (sm_created s) ++ le_enc 8 (sm_changed s) ++ le_enc 8 (sm_inode s) ++
  le_enc 4 (sm_type s) ++ le_enc 4 (sm_flags s) ++ le_enc 2 (len (sm_name s)) ++ sm_name s.
Definition snapshot_ok (s : snapshot) : Prop :=
  0 <= sm_xid s < 2 ^ 60 - 1 /\ 0 <= sm_block s < 2 ^ 64 /\ 1 <= len (sm_name s) < 2 ^ 16.
Definition snapshot_rec (r : record) (s : snapshot) : Prop := snapshot_ok s /\ r = (snapshot_key s, snapshot_value s).

(* The other records of the tree lead from a name to a snapshot; their identifier is the
   largest one. *)
Definition name_rec (r : record) : Prop :=
  8 <= len (fst r) /\ bytes (fst r) /\ kty (fst r) = 11 /\ kid (fst r) = 2 ^ 60 - 1.

(* A node in the on-disk format; [lead x b]: the reference x to a node that is not the root
   leads to block b. *)
Definition snap_node (dev : device) (lead : Z -> Z -> Prop) (root : bool) (x : Z) (leaf : bool) (recs : list record) : Prop :=
  exists b, (if root then b = x else lead x b) /\ 0 <= b < 2 ^ 31 /\
  exists d, dev b = Some (node_bytes d) /\ node_ok d /\ len (node_bytes d) = 4096 /\
    (root = false -> 40 < len (nd_free d) + len (values_area (nd_recs d))) /\
    0 < len (nd_free d) + len (values_area (nd_recs d)) /\
    nd_type d = (if root then 0x40000002 else 0x40000003) /\ nd_subtype d = 0x10 /\
    Z.testbit (nd_flags d) 0 = root /\ Z.testbit (nd_flags d) 1 = leaf /\ Z.testbit (nd_flags d) 2 = false /\
    (root = true -> slice (nd_footer d) 4 12 = le_enc 4 4096 ++ le_enc 4 0 ++ le_enc 4 0) /\
    nd_recs d = recs.

(* The tree at block b holds the snapshots ss. *)
Definition snap_tree (dev : device) (lead : Z -> Z -> Prop) (tie : list Z -> list Z -> Prop) (h : nat) (b : Z) (ss : list snapshot) : Prop :=
  exists ms ns, Z.of_nat h <= 256 /\ subtree (snap_node dev lead) fs_child_of (fs_lt tie) eq h true b (ms ++ ns) /\
    Forall2 snapshot_rec ms ss /\ Forall name_rec ns.

(* The type of the nodes says that they are physical objects: a reference is a block number. *)
Definition physical (x b : Z) : Prop := b = x /\ 0 < x < 2 ^ 64.

(* The name of a snapshot or volume: characters other than NUL, then a NUL. *)
Definition text (cs : list Z) : Prop := Forall (fun c => scalar c /\ c <> 0) cs.
Definition no_mark (cs : list Z) : Prop := match cs with c :: _ => c <> 0xfeff | [] => True end.
