(* The nodes of a file system B-tree in memory: traversals as in Walk.v and FsTree.v, where a
   node that is not in the node cache any more has been freed. *)
From Verif Require Import Base BTree Walk Omap Records FsTree FsProofs.

(* The node cache: block numbers with the address and content of their nodes, newest first.
   The cache owns the nodes (LIBFCACHE_CACHE_VALUE_FLAG_MANAGED). *)
Definition cached_node : Type := (Z * (Z * bnode))%type.
Record heap := mk_heap { hp_nodes : list cached_node; hp_next : Z }.
Definition hp_empty : heap := mk_heap [] 0.
Definition hp_find (h : heap) (b : Z) : option (Z * bnode) := option_map snd (find (fun e => fst e =? b) (hp_nodes h)).
Definition hp_live (h : heap) (a : Z) : bool := existsb (fun e => fst (snd e) =? a) (hp_nodes h).

(* The blocks of a tree, its root block, and the object map as a function from the object
   identifier of a node to its block. *)
Record ntree := mk_nt { nt_img : image; nt_rb : Z; nt_map : Z -> res Z }.
Definition nt_of (t : fs) : ntree := mk_nt (fs_img t) (fs_rb t)
  (fun o => let! r := omap_lookup (fs_omap t) (fs_orb t) o (fs_txn t) in match r with None => Fail | Some d => Ok (od_address d) end).

Section Heap.
  (* libfcache (external) stores a new node in a free slot if there is one, and otherwise
     frees others: [evict] gives the ones kept. *)
  Variables (cap : Z) (evict : list cached_node -> list cached_node).
  Definition hp_set (h : heap) (b : Z) (n : bnode) : heap :=
    let l := filter (fun e => negb (fst e =? b)) (hp_nodes h) in
    mk_heap ((b, (hp_next h, n)) :: (if len l <? cap then l else evict l)) (hp_next h + 1).
  (* libfsapfs_file_system_btree.c 663-722, 942-1012: store the node, then get it *)
  Definition hp_store (b : Z) (n : bnode) : M heap (Z * bnode) := fun h =>
    let h := hp_set h b n in match hp_find h b with Some x => (Ok x, h) | None => (Fail, h) end.

  Variable t : ntree.
  (* libfsapfs_file_system_btree.c 390-725 *)
  Definition hp_root : M heap (option (Z * bnode)) := fun h =>
    if int_max <? nt_rb t then (Fail, h)
    else match hp_find h (nt_rb t) with
         | Some x => (Ok (Some x), h)
         | None => bindM (retM (fs_load_root (nt_img t) (nt_rb t)))
                     (fun r => match r with None => retM (Ok None) | Some n => bindM (hp_store (nt_rb t) n) (fun x => retM (Ok (Some x))) end) h
         end.
  (* libfsapfs_file_system_btree.c 258-375 and 730-1015 *)
  Definition hp_sub (o : Z) : M heap (Z * bnode) := bindM (retM (nt_map t o)) (fun b h =>
    if int_max <? b then (Fail, h)
    else match hp_find h b with
         | Some x => (Ok x, h)
         | None => bindM (retM (fs_load_sub (nt_img t) b)) (hp_store b) h
         end).

  (* As in Walk.v, but a branch node is used, to find the next child, only if it is still
     allocated: libfsapfs_file_system_btree.c 2979-3357, 3798-4175 and 4605-5009 keep a pointer
     to it while they visit its children. *)
  Section Visit.
    Variables (A : Type) (w : walker A).
    Fixpoint hp_children (rec : Z -> M heap A) (a : Z) (l : list (res Z)) (acc : A) : M heap A :=
      match l with
      | [] => retM (Ok acc)
      | r :: l => fun h =>
        if hp_live h a then bindM (retM r) (fun o => bindM (rec o) (fun x => hp_children rec a l (wk_join w acc x))) h
        else (Oob, h)
      end.
    Fixpoint hp_visit (fuel : nat) (depth : Z) (x : Z * bnode) : M heap A :=
      match fuel with
      | O => retM Fuel
      | S f =>
        if is_leaf (snd x) then (if wk_lim w <? depth then retM Fail else retM (wk_leaf w (snd x)))
        else if max_depth <? depth then retM Fail
        else hp_children (fun o => bindM (hp_sub o) (fun m => hp_visit f (depth + 1) m)) (fst x) (wk_plan w (snd x)) (wk_start w)
      end.
    Definition hp_walk : M heap A :=
      bindM hp_root (fun r => match r with None => retM (Ok (wk_start w)) | Some x => hp_visit walk_fuel 0 x end).
  End Visit.

  (* The calls of a session, as in FsProofs.v. *)
  Definition hp_ask (q : query) : M heap answer :=
    match q with
    | QInode id => bindM (hp_walk _ (fs_id_walker id 3)) (fun r => retM (let! r := inode_finish r in Ok (AInode r)))
    | QDir id => bindM (hp_walk _ (dir_walker id)) (fun r => retM (Ok (ADir r)))
    | QAttrs id => bindM (hp_walk _ (attr_walker id)) (fun r => retM (Ok (AAttrs r)))
    | QExtents id => bindM (hp_walk _ (extent_walker id)) (fun r => retM (Ok (AExtents r)))
    end.
  Fixpoint hp_session (qs : list query) (h : heap) : list (res answer) :=
    match qs with
    | [] => []
    | q :: qs => let (r, h) := hp_ask q h in r :: hp_session qs h
    end.
End Heap.

(* libfsapfs_definitions.h: LIBFSAPFS_MAXIMUM_CACHE_ENTRIES_BTREE_NODES *)
Definition node_cache_size : Z := 8192.
(* libfcache replaces the oldest value *)
Definition oldest (l : list cached_node) : list cached_node := removelast l.
