(* Common shape of the B-tree traversals of libfsapfs_object_map_btree.c,
   libfsapfs_file_system_btree.c and libfsapfs_snapshot_metadata_tree.c, and the node
   cache they share. The traversals are written over a state S (the node cache) and a
   function that retrieves a node. *)
From Verif Require Import Base BTree.

(* A computation with a state that survives failures. *)
Definition M (S A : Type) : Type := S -> res A * S.
Definition retM {S A} (r : res A) : M S A := fun s => (r, s).
Definition bindM {S A B} (m : M S A) (f : A -> M S B) : M S B :=
  fun s => match m s with
           | (Ok a, s') => f a s'
           | (Fail, s') => (Fail, s')
           | (Oob, s') => (Oob, s')
           | (Fuel, s') => (Fuel, s')
           end.

(* libfsapfs_definitions.h: LIBFSAPFS_MAXIMUM_BTREE_NODE_RECURSION_DEPTH *)
Definition max_depth : Z := 256.
Definition int_max : Z := 2 ^ 31 - 1.

(* A traversal is given by what it takes from a leaf, which children of a branch node it
   visits in which order (an error while determining one ends the traversal with an
   error), and how the results are put together. [lim] is the largest depth of a leaf:
   the lookups by identifier check the depth of every node, the other traversals that
   of branch nodes only. *)
Record walker (A : Type) := mk_walker {
  wk_leaf : bnode -> res A;
  wk_plan : bnode -> list (res Z);
  wk_start : A;
  wk_join : A -> A -> A;
  wk_lim : Z
}.
Arguments mk_walker {A}.
Arguments wk_leaf {A}. Arguments wk_plan {A}. Arguments wk_start {A}.
Arguments wk_join {A}. Arguments wk_lim {A}.

Section Visit.
  Variables (S A : Type) (get : Z -> M S bnode) (w : walker A).

  Fixpoint visit_children (rec : Z -> M S A) (l : list (res Z)) (acc : A) : M S A :=
    match l with
    | [] => retM (Ok acc)
    | r :: l => bindM (retM r) (fun b => bindM (rec b) (fun a => visit_children rec l (wk_join w acc a)))
    end.

  Fixpoint visit (fuel : nat) (depth : Z) (n : bnode) : M S A :=
    match fuel with
    | O => retM Fuel
    | Datatypes.S f =>
      if is_leaf n then (if wk_lim w <? depth then retM Fail else retM (wk_leaf w n))
      else if max_depth <? depth then retM Fail
      else visit_children (fun b => bindM (get b) (fun m => visit f (depth + 1) m)) (wk_plan w n) (wk_start w)
    end.
End Visit.
Arguments visit_children {S A}. Arguments visit {S A}.

(* The top of a traversal: the root node, which may be unavailable (result 0). One level
   of recursion for each depth 0 to 257. *)
Definition walk_fuel : nat := 258.
Definition walk {S A} (root : M S (option bnode)) (get : Z -> M S bnode) (w : walker A) : M S A :=
  bindM root (fun r => match r with None => retM (Ok (wk_start w)) | Some n => visit get w walk_fuel 0 n end).

(* ---- Without a cache ---- *)
Definition pure (ld : Z -> res bnode) (b : Z) : M unit bnode := retM (ld b).
Section Plain.
  Variables (load_root : res (option bnode)) (load_sub : Z -> res bnode) (rb : Z).
  Definition plain_sub (b : Z) : M unit bnode := retM (if int_max <? b then Fail else load_sub b).
  Definition plain_root : M unit (option bnode) := retM (if int_max <? rb then Fail else load_root).
  Definition plain_walk {A} (w : walker A) : res A := fst (walk plain_root plain_sub w tt).
End Plain.

(* ---- With a cache ----
   libfcache is not part of the repository. A cache holds at most one node per block
   number; storing a node may evict any others, decided by a policy with a state of its
   own. *)
Section Cached.
  Variables (load_root : res (option bnode)) (load_sub : Z -> res bnode) (rb : Z).
  Variables (P : Type) (evict : P -> list (Z * bnode) -> Z -> P * list (Z * bnode)).
  Definition cache : Type := (P * list (Z * bnode))%type.

  Definition cache_find (c : cache) (b : Z) : option bnode :=
    match find (fun e => fst e =? b) (snd c) with Some e => Some (snd e) | None => None end.
  Definition cache_set (c : cache) (b : Z) (n : bnode) : cache :=
    let (p, l) := evict (fst c) (snd c) b in (p, (b, n) :: l).

  (* libfsapfs_object_map_btree.c 529-802, libfsapfs_file_system_btree.c 730-1015:
     get_sub_node *)
  Definition cached_sub (b : Z) : M cache bnode := fun c =>
    if int_max <? b then (Fail, c)
    else match cache_find c b with
         | Some n => (Ok n, c)
         | None => match load_sub b with
                   | Ok n => (Ok n, cache_set c b n)
                   | r => (r, c)
                   end
         end.
  (* libfsapfs_object_map_btree.c 218-524, libfsapfs_file_system_btree.c 390-725:
     get_root_node *)
  Definition cached_root : M cache (option bnode) := fun c =>
    if int_max <? rb then (Fail, c)
    else match cache_find c rb with
         | Some n => (Ok (Some n), c)
         | None => match load_root with
                   | Ok (Some n) => (Ok (Some n), cache_set c rb n)
                   | r => (r, c)
                   end
         end.
  Definition cached_walk {A} (w : walker A) : M cache A := walk cached_root cached_sub w.
End Cached.
