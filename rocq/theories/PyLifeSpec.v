(* What a Python program knows: to which objects it holds references, and from which
   object it got each of them. *)
From Coq Require Import Bool List Arith.
From Verif Require Import Base Lifetime PyLife.
Import ListNotations.
Local Open Scope nat_scope.

(* An object of the program: the references it holds to it, the object it was got from,
   whether it is a sequence, and for a container whether it is open with a file object. *)
Record pobj := mk_pobj { q_refs : nat; q_from : option nat; q_seq : bool; q_file : bool }.
Definition ptable := list pobj.

Fixpoint pchange (n : nat) (f : pobj -> pobj) (t : ptable) : ptable :=
  match t, n with
  | [], _ => []
  | o :: r, O => f o :: r
  | o :: r, S m => o :: pchange m f r
  end.

Definition qfrom (t : ptable) (x : nat) : option nat :=
  match nth_error t x with Some o => q_from o | None => None end.
(* The items of a sequence are got from the object the sequence was got from. *)
Definition qsource (t : ptable) (x : nat) : option nat :=
  match nth_error t x with Some o => if q_seq o then q_from o else Some x | None => None end.
(* A sub entry keeps the volume of the entry. *)
Definition qvolume (t : ptable) (x : nat) : option nat :=
  match qsource t x with Some y => qfrom t y | None => None end.

Definition plearn (t : ptable) (op : pyop) (a : res (option nat)) : ptable :=
  match op, a with
  | PyNew, Ok _ => t ++ [mk_pobj 1 None false false]
  | PyVolume x _, Ok _ => t ++ [mk_pobj 1 (qsource t x) false false]
  | PyEntry x _, Ok _ => t ++ [mk_pobj 1 (Some x) false false]
  | PySub x _, Ok _ => t ++ [mk_pobj 1 (qvolume t x) false false]
  | PyAttr x _, Ok _ => t ++ [mk_pobj 1 (qsource t x) false false]
  | PySequence x _, Ok _ => t ++ [mk_pobj 1 (Some x) true false]
  | PyOpenFile x _, Ok _ => pchange x (fun o => mk_pobj (q_refs o) (q_from o) (q_seq o) true) t
  | PyClose x, Ok _ => pchange x (fun o => mk_pobj (q_refs o) (q_from o) (q_seq o) false) t
  | PyKeep x, Ok _ => pchange x (fun o => mk_pobj (S (q_refs o)) (q_from o) (q_seq o) (q_file o)) t
  | PyDrop x, Ok _ => pchange x (fun o => mk_pobj (pred (q_refs o)) (q_from o) (q_seq o) (q_file o)) t
  | _, _ => t
  end.

Definition subject (op : pyop) : option nat :=
  match op with
  | PyNew => None
  | PyOpen x _ | PyOpenFile x _ | PyClose x | PyVolume x _ | PyEntry x _ | PySub x _ | PyAttr x _
  | PySequence x _ | PyUse x _ | PyKeep x | PyDrop x => Some x
  end.

(* y was got from x, or from something that was got from x. *)
Inductive descends (t : ptable) (x : nat) : nat -> Prop :=
| D_one y : qfrom t y = Some x -> descends t x y
| D_more y z : descends t x y -> qfrom t z = Some y -> descends t x z.

(* Python: a program works with objects it holds a reference to. *)
Definition holds (t : ptable) (op : pyop) : Prop :=
  forall x, subject op = Some x -> exists o, nth_error t x = Some o /\ 0 < q_refs o.

(* A container is closed when the program has no reference left to anything that was got
   from it, and a container that is open with a file object is not opened with another. *)
Definition careful (t : ptable) (op : pyop) : Prop :=
  match op with
  | PyClose x => forall y o, descends t x y -> nth_error t y = Some o -> q_refs o = 0
  | PyOpenFile x _ => forall o, nth_error t x = Some o -> q_file o = false
  | _ => True
  end.

Fixpoint python (t : ptable) (tr : list (pyop * res (option nat))) : Prop :=
  match tr with
  | [] => True
  | (op, a) :: r => holds t op /\ python (plearn t op a) r
  end.
Fixpoint careful_all (t : ptable) (tr : list (pyop * res (option nat))) : Prop :=
  match tr with
  | [] => True
  | (op, a) :: r => careful t op /\ careful_all (plearn t op a) r
  end.

Definition py_trace (ops : list pyop) : list (pyop * res (option nat)) := fst (py_run pystart ops).
Definition py_after (ops : list pyop) : pystate := snd (py_run pystart ops).
Definition py_known (tr : list (pyop * res (option nat))) : ptable :=
  fold_left (fun t x => plearn t (fst x) (snd x)) tr [].
