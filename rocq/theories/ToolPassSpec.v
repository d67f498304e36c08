(* Which keys the passwords of a command line give, independent of the code. *)
From Verif Require Import Base KeyBag Volume VolumeSpec ToolOpt ToolOptSpec ToolMain ToolMainSpec ToolPass.

(* The password of an option: the last one counts. It is not empty and shorter than 128 MiB. *)
Inductive password_given (c : Z) (o : given) : option (list Z) -> Prop :=
| password_none : last_of [c] o None -> password_given c o None
| password_some s : last_of [c] o (Some (c, Some s)) -> Forall (fun x => x <> 0) s -> s <> [] -> len s < 2 ^ 27 -> password_given c o (Some s).

(* The volume that is asked for, of n volumes. *)
Definition chosen (o : given) (n i : Z) : Prop :=
  1 <= n <= 100 /\ ((asks_volume o (i + 1) /\ i + 1 <= n) \/ (asks_no_volume o /\ n = 1 /\ i = 0)).

Section Keys.
  Variable enc : list Z -> list Z -> list Z.
  Variable sha : list Z -> list Z.
  Variable hmac : list Z -> list Z -> list Z.

  (* The first record that one of the passwords opens gives the volume key. *)
  Definition volume_key_of (l : list bag_entry) (u r : option (list Z)) (key : list Z) : Prop :=
    exists before e after, l = before ++ e :: after /\ Forall (entry_closed enc hmac u r) before /\ entry_opens enc hmac u r e key.
  (* The first record that the volume key opens gives the keys of the volume. *)
  Definition master_key_of (l : list bag_entry) (id key m : list Z) : Prop :=
    exists before e after, l = before ++ e :: after /\ Forall (key_entry_closed enc sha id key) before /\ key_entry_opens enc sha id key e m.
  Definition unlockable (b : bags) (u r : option (list Z)) (keys : list Z * list Z) : Prop :=
    exists l key m, b_volume b = Some l /\ volume_key_of l u r key /\ master_key_of (b_container b) (b_id b) key m /\
    keys = (firstn 16 m, skipn 16 m).
End Keys.

(* Key bags whose records for this volume are all of a supported kind; a record of the container key
   bag does not need more of the volume key than there is. *)
Definition complete (b : bags) : Prop :=
  (forall l e, b_volume b = Some l -> In e l -> be_type e = 3 -> exists k, password_record e k) /\
  (forall e, In e (b_container b) -> be_type e = 2 -> be_id e = b_id b -> exists k, key_record (b_id b) e k /\
    forall l e' k', b_volume b = Some l -> In e' l -> password_record e' k' -> method_size (k_method k) <= method_size (k_method k')).
