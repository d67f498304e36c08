(* What is expected of the references and of the interpreter lock. *)
From Coq Require Import ZArith List Arith.
From Verif Require Import PyRefs.
Import ListNotations.
Local Open Scope Z_scope.

Definition ind (y x : nat) : Z := if Nat.eq_dec y x then 1 else 0.
Definition ind_opt (y : option nat) (x : nat) : Z := match y with Some y => ind y x | None => 0 end.
(* The references to x that an exception has. *)
Definition in_exn (e : exn) (x : nat) : Z := ind (x_type e) x + ind_opt (x_value e) x + ind_opt (x_trace e) x.

(* The number of references to x that the binding has after an event. *)
Definition after (b : nat -> Z) (e : event) (x : nat) : Z :=
  match e with
  | Took y => b x + ind y x
  | Gave y => b x - ind y x
  | Fetched e => b x + in_exn e x
  | _ => b x
  end.
Fixpoint afters (b : nat -> Z) (t : list event) : nat -> Z :=
  match t with [] => b | e :: t => afters (after b e) t end.
Definition none_held (x : nat) : Z := 0.

(* Every reference that is given back is one that the binding has, and every object that is used is
   one that the binding has a reference to, or one of the program's own (an argument of the call). *)
Definition allowed (own : nat -> Prop) (b : nat -> Z) (e : event) : Prop :=
  match e with
  | Gave x => 0 < b x
  | Uses l => forall x, In x l -> 0 < b x \/ own x
  | _ => True
  end.
Fixpoint sound (own : nat -> Prop) (b : nat -> Z) (t : list event) : Prop :=
  match t with [] => True | e :: t => allowed own b e /\ sound own (after b e) t end.

(* The exceptions that were fetched. *)
Fixpoint exceptions (t : list event) (x : nat) : Z :=
  match t with
  | [] => 0
  | Fetched e :: t => in_exn e x + exceptions t x
  | _ :: t => exceptions t x
  end.
Definition quiet (t : list event) : Prop := forall e, ~ In (Fetched e) t.

(* The interpreter lock: how often it is held; Begin puts the whole of it aside. Some: it is held
   whenever the interpreter is used, and what is given back was held. *)
Fixpoint lock (st : list nat) (t : list event) : option (list nat) :=
  match t with
  | [] => Some st
  | Ensure :: t => match st with n :: r => lock (S n :: r) t | [] => None end
  | Release :: t => match st with S n :: r => lock (n :: r) t | _ => None end
  | Begin :: t => match st with S n :: r => lock (O :: S n :: r) t | _ => None end
  | End :: t => match st with O :: S n :: r => lock (S n :: r) t | _ => None end
  | _ :: t => match st with S n :: r => lock (S n :: r) t | _ => None end
  end.
(* The interpreter raises an exception when one of its functions fails. *)
Definition honest {W} (i : interp W) : Prop :=
  (forall q w, fst (fst (i_num i q w)) = -1 -> snd (fst (i_num i q w)) <> None) /\
  (forall q w, fst (fst (i_new i q w)) = None -> snd (fst (i_new i q w)) <> None).
(* The file objects that a program opens containers with. *)
Definition file_object (l : list use) (x : nat) : Prop := exists c works, In (UOpen x c works) l.
