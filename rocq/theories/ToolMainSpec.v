(* Which volumes and which file entries the options of the tools ask for. *)
From Verif Require Import Base ToolOpt ToolOptSpec ToolInfoSpec ToolMain Records FsSpec TreeSpec.

(* The last option among some, with its argument. *)
Inductive last_of (cs : list Z) : given -> option (Z * option (list Z)) -> Prop :=
| last_none l : (forall c v, In (c, v) l -> ~ In c cs) -> last_of cs l None
| last_some a c v b : In c cs -> (forall d w, In (d, w) b -> ~ In d cs) -> last_of cs (a ++ (c, v) :: b) (Some (c, v)).

(* What is asked for: the last of -E, -F and -H decides, without any of them it is the container. *)
Inductive asks (o : given) : mode -> Prop :=
| asks_container : last_of [opt_E; opt_F; opt_H] o None -> asks o MContainer
| asks_hierarchy v : last_of [opt_E; opt_F; opt_H] o (Some (opt_H, v)) -> asks o MHierarchy
| asks_path p : last_of [opt_E; opt_F; opt_H] o (Some (opt_F, Some p)) -> asks o (MPath p)
| asks_entries : last_of [opt_E; opt_F; opt_H] o (Some (opt_E, Some [97; 108; 108])) -> asks o MEntries
| asks_id s v : last_of [opt_E; opt_F; opt_H] o (Some (opt_E, Some s)) -> decimal s v -> len s <= 21 -> v < 2 ^ 60 -> asks o (MId v).
(* The number of a volume with -f, from 1; no -f at all. *)
Definition asks_volume (o : given) (k : Z) : Prop := exists s, last_of [opt_f] o (Some (opt_f, Some s)) /\ decimal s k /\ len s <= 21 /\ 1 <= k <= 100.
Definition asks_no_volume (o : given) : Prop := last_of [opt_f] o None.

Definition all_volumes (n : Z) (l : list Z) : Prop := len l = n /\ forall k, 0 <= k < n -> nth_error l (Z.to_nat k) = Some k.

(* A record of a file entry below an identifier. *)
Definition entry_record (next : Z) (r : record) : bool := (kty (fst r) =? 3) && (kid (fst r) <? next).
