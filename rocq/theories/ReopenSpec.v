(* What a container object should answer over its life, independent of its members. *)
From Verif Require Import Base Omap OmapSpec Container VolumeSuper Support Reopen.

Definition trace := list (call * res answer).

(* The file a container is about: that of the last open that worked, until the next close. *)
Fixpoint in_use (file : nat -> option device) (now : option device) (t : trace) : option device :=
  match t with
  | [] => now
  | (OpenName f _ _ _, Ok _) :: t => in_use file f t
  | (OpenHandle i _ _, Ok _) :: t => in_use file (file i) t
  | (Close _, _) :: t => in_use file None t
  | _ :: t => in_use file now t
  end.

(* Every lock the call needs can be grabbed. *)
Definition locks_work (c : call) : Prop :=
  match c with
  | OpenName _ _ a b => a = true /\ b = true
  | OpenHandle _ _ a | Close a => a = true
  | _ => True
  end.
Definition is_abort (c : call) : bool := match c with Abort => true | _ => false end.
(* The call is made by the caller on its own handle i, or closes the container. *)
Definition leaves (i : nat) (c : call) : Prop := match c with UserOpen j | UserClose j => j <> i | Close _ => False | _ => True end.
Definition no_user_close (c : call) : Prop := match c with UserClose _ => False | _ => True end.

(* A new container next to handles of a caller. The handle the library has yet to make is
   arbitrary. *)
Definition fresh (user : nat -> handle) (own : handle) : world := mk_world user own new_kept.
Definition files (user : nat -> handle) (i : nat) : option device := h_file (user i).

(* What a call that asks is told by a container on a file; None: not a call that asks. *)
Definition told (xts : list Z -> list Z -> list Z -> list Z) (dev : device) (q : call) : option (res answer) :=
  match q with
  | GetSize => Some (let! c := open xts dev in Ok (Size (container_size c)))
  | GetId => Some (let! c := open xts dev in Ok (Id (sb_id (c_sb c))))
  | IsLocked => Some (let! c := open xts dev in Ok (Locked (match c_bag c with Some None => true | _ => false end)))
  | Count => Some (let! c := open xts dev in Ok (Number (number_of_volumes c)))
  | Volume i => Some (let! c := open xts dev in let! d := volume_by_index dev c i in
                      let! v := volume_open xts dev (container_size c) (c_bag c) (od_address d) in Ok (Opened v))
  | _ => None
  end.
(* What a call that asks is told by a container that is not open. *)
Definition told_closed (q : call) : option (res answer) :=
  match q with
  | GetSize | GetId | Count | Volume _ => Some Fail
  | IsLocked => Some (Ok (Locked false))
  | _ => None
  end.
