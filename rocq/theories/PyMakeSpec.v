(* What the methods need of the interpreter. *)
From Coq Require Import ZArith List Arith.
From Verif Require Import PyRefs.
Local Open Scope Z_scope.
(* There is memory for the strings and tuples that the methods make; a new tuple takes its items. *)
Definition roomy {W} (i : interp W) : Prop :=
  (forall n w, fst (fst (i_new i (QMake n) w)) <> None) /\ (forall n w, fst (fst (i_new i (QTuple n) w)) <> None) /\
  (forall t w, fst (fst (i_num i (QSet t) w)) = 0).
(* It can be told whether x is an integer (the class of x raises nothing). *)
Definition classed {W} (i : interp W) (x : nat) : Prop := forall w, fst (fst (i_num i (QIsLong x) w)) <> -1.
(* A string that cannot be made shorter raises. *)
Definition resizes {W} (i : interp W) : Prop :=
  forall x w, fst (fst (i_num i (QResize x) w)) = 0 \/ snd (fst (i_num i (QResize x) w)) <> None.
(* The references that there are before the call: the program's to the argument, the container's to
   the file object. *)
Definition refs (l : list nat) (x : nat) : Z := Z.of_nat (count_occ Nat.eq_dec l x).
(* Nothing is missing for strings: they can be made shorter, and what the library returns is UTF-8. *)
Definition strings {W} (i : interp W) : Prop :=
  (forall x w, fst (fst (i_num i (QResize x) w)) = 0) /\ (forall w, fst (fst (i_new i QDecode w)) <> None).
(* x is an integer, and a number of 64 bits. *)
Definition integer {W} (i : interp W) (x : nat) : Prop :=
  (forall w, fst (i_num i (QIsLong x) w) = (1, None)) /\ (forall w, snd (fst (i_num i (QLong x) w)) = None).
