(* What callers rely on about locks. *)
From Verif Require Import Base Locks.

(* A call takes the lock and gives it back, any number of times. *)
Inductive balanced : list event -> Prop :=
| balanced_nil : balanced []
| balanced_pair : forall w t, balanced t -> balanced (EGrab w :: ERelease w :: t).
