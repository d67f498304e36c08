(* Threads that share the node cache of a file system B-tree. Model of
   libfsapfs_file_system_btree.c 390-725 and 730-1015 (get_root_node and get_sub_node) step by
   step: a step is one call of libfcache (external), taken as atomic, or one use of the node
   that was retrieved. Locks are as in Locks.v: that of the handle a function was called with,
   see LockTable.v; the node cache has none. Simplification: the cache never gets full. *)
From Verif Require Import Base Locks.

(* What a thread does: take a lock, access the node in a block, give the lock back. *)
Inductive op := OGrab (h : Z) (w : bool) | OAccess (b : Z) | ORelease (h : Z) (w : bool).
(* Where a thread is while it accesses a node; [Using a]: it has a pointer to the node at
   address a. *)
Inductive place := Ready | Missed (b : Z) | Stored (b : Z) | Using (a : Z).
Record worker := mk_worker { wk_held : list (Z * bool); wk_place : place; wk_todo : list op }.
(* The cache: block numbers with the addresses of their nodes; addresses from [mc_next] on have
   not been used yet. A node is allocated as long as it is in the cache. *)
Record machine := mk_machine { mc_workers : list worker; mc_nodes : list (Z * Z); mc_next : Z }.
Definition allocated (m : machine) (a : Z) : Prop := In a (map snd (mc_nodes m)).

(* libfcache_cache_get_value_by_identifier *)
Definition node_of (nodes : list (Z * Z)) (b : Z) : option Z := option_map snd (find (fun e => fst e =? b) nodes).
(* libfcache_cache_set_value_by_identifier: a value with the same identifier is freed *)
Definition set_node (nodes : list (Z * Z)) (b a : Z) : list (Z * Z) := (b, a) :: filter (fun e => negb (fst e =? b)) nodes.

Definition free_for (ws : list worker) (h : Z) (w : bool) : Prop :=
  forall t w', In t ws -> In (h, w') (wk_held t) -> w = false /\ w' = false.
(* what a step does to the thread that makes it and to the cache *)
Inductive moves (ws : list worker) : worker -> list (Z * Z) * Z -> worker -> list (Z * Z) * Z -> Prop :=
| move_grab : forall held h w todo c, free_for ws h w ->
    moves ws (mk_worker held Ready (OGrab h w :: todo)) c (mk_worker ((h, w) :: held) Ready todo) c
| move_release : forall h1 h2 h w todo c,
    moves ws (mk_worker (h1 ++ (h, w) :: h2) Ready (ORelease h w :: todo)) c (mk_worker (h1 ++ h2) Ready todo) c
| move_hit : forall held b todo nodes x a, node_of nodes b = Some a ->
    moves ws (mk_worker held Ready (OAccess b :: todo)) (nodes, x) (mk_worker held (Using a) todo) (nodes, x)
| move_miss : forall held b todo nodes x, node_of nodes b = None ->
    moves ws (mk_worker held Ready (OAccess b :: todo)) (nodes, x) (mk_worker held (Missed b) todo) (nodes, x)
| move_store : forall held b todo nodes x,
    moves ws (mk_worker held (Missed b) todo) (nodes, x) (mk_worker held (Stored b) todo) (set_node nodes b x, x + 1)
| move_get : forall held b todo nodes x a, node_of nodes b = Some a ->
    moves ws (mk_worker held (Stored b) todo) (nodes, x) (mk_worker held (Using a) todo) (nodes, x)
| move_use : forall held a todo c,
    moves ws (mk_worker held (Using a) todo) c (mk_worker held Ready todo) c.
Inductive mstep : machine -> machine -> Prop :=
| mstep_one : forall l t r c t' c', moves (l ++ t :: r) t c t' c' ->
    mstep (mk_machine (l ++ t :: r) (fst c) (snd c)) (mk_machine (l ++ t' :: r) (fst c') (snd c')).
Inductive msteps : machine -> machine -> Prop :=
| msteps_refl : forall m, msteps m m
| msteps_step : forall m m' m'', msteps m m' -> mstep m' m'' -> msteps m m''.

(* A thread uses a node that has been freed. *)
Definition broken (m : machine) : Prop := exists t a, In t (mc_workers m) /\ wk_place t = Using a /\ ~ allocated m a.

(* A call on handle h that accesses nodes: the functions that do so take its lock for writing. *)
Definition accesses (h : Z) (bs : list Z) : list op := OGrab h true :: map OAccess bs ++ [ORelease h true].
Definition works (cs : list (Z * list Z)) : worker := mk_worker [] Ready (concat (map (fun c => accesses (fst c) (snd c)) cs)).
Definition begin (css : list (list (Z * list Z))) : machine := mk_machine (map works css) [] 0.
