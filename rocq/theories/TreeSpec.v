(* Well-formed B-trees (Apple File System Reference, B-trees), independent of the code:
   which records a tree of nodes stored in blocks contains. *)
From Verif Require Import Base.

Definition record : Type := (list Z * list Z)%type.

Section Tree.
  (* [nodeat root b leaf es]: block b holds a node with the records es that is (or not) a
     root and (or not) a leaf. *)
  Variable nodeat : bool -> Z -> bool -> list record -> Prop.
  (* [child v b]: the value v of a record of a branch node leads to block b. *)
  Variable child : list Z -> Z -> Prop.
  (* Order of keys; [sep k k1]: k may stand for a child whose first key is k1. *)
  Variable lt : list Z -> list Z -> Prop.
  Variable sep : list Z -> list Z -> Prop.

  Inductive sorted : list record -> Prop :=
  | sorted_nil : sorted []
  | sorted_cons e es : Forall (fun e' => lt (fst e) (fst e')) es -> sorted es -> sorted (e :: es).

  (* The children of the records es of a branch node hold the records of the second list
     one after the other, each child at least one; keys of a child are less than the
     separators of the following children. *)
  Inductive forest (T : Z -> list record -> Prop) : list record -> list record -> Prop :=
  | forest_nil : forest T [] []
  | forest_cons k v b es k1 v1 recs rest :
      child v b -> T b ((k1, v1) :: recs) -> sep k k1 ->
      Forall (fun e => Forall (fun s => lt (fst e) (fst s)) es) ((k1, v1) :: recs) ->
      forest T es rest -> forest T ((k, v) :: es) (((k1, v1) :: recs) ++ rest).

  (* The tree of height h at block b contains exactly the records recs, in key order. *)
  Fixpoint subtree (h : nat) (root : bool) (b : Z) (recs : list record) : Prop :=
    match h with
    | O => nodeat root b true recs /\ sorted recs
    | S h => exists es, nodeat root b false es /\ es <> [] /\ forest (subtree h false) es recs
    end.
End Tree.
