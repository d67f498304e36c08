(* How a program may use the objects of the library, told from its calls and their
   answers alone: which objects it has, from which other object it got them, and with
   which file IO handle a container is open. *)
From Coq Require Import Bool List Arith.
From Verif Require Import Base Lifetime.
Import ListNotations.

Inductive kind := KFile | KContainer | KVolume | KEntry | KAttr | KSnapshot.

(* o_from: the object whose memory this one depends on: the container of a volume, the
   volume of a file entry or snapshot (also if the entry was got from another entry),
   the file entry of an attribute.
   o_with: for a container whether it is open, and with which handle of the program. *)
Record obj := mk_obj { o_kind : kind; o_from : option nat; o_live : bool; o_with : option (option nat) }.
Definition table := list obj.

Definition from_of (t : table) (n : nat) : option nat :=
  match nth_error t n with Some o => o_from o | None => None end.

Fixpoint change (n : nat) (f : obj -> obj) (t : table) : table :=
  match t, n with
  | [], _ => []
  | o :: r, O => f o :: r
  | o :: r, S m => o :: change m f r
  end.
Definition dead (o : obj) : obj := mk_obj (o_kind o) (o_from o) false None.
Definition with_ (w : option (option nat)) (o : obj) : obj := mk_obj (o_kind o) (o_from o) (o_live o) w.

(* What a call that worked says about the objects. *)
Definition learn (t : table) (c : call) (a : res (option nat)) : table :=
  match a with
  | Ok _ =>
      match c with
      | NewFile => t ++ [mk_obj KFile None true None]
      | NewContainer => t ++ [mk_obj KContainer None true None]
      | GetVolume c _ => t ++ [mk_obj KVolume (Some c) true None]
      | GetEntry v _ => t ++ [mk_obj KEntry (Some v) true None]
      | GetSub e _ => t ++ [mk_obj KEntry (from_of t e) true None]
      | GetAttr e _ => t ++ [mk_obj KAttr (Some e) true None]
      | GetSnapshot v _ => t ++ [mk_obj KSnapshot (Some v) true None]
      | OpenName c _ => change c (with_ (Some None)) t
      | OpenFile c f _ => change c (with_ (Some (Some f))) t
      | Close c => change c (with_ None) t
      | FreeFile n | FreeContainer n | FreeVolume n | FreeEntry n | FreeAttr n | FreeSnapshot n => change n dead t
      | Use _ _ => t
      end
  | _ => t
  end.

(* The program has no object left that it got from n. *)
Definition none_from (t : table) (n : nat) : Prop :=
  forall m o, nth_error t m = Some o -> o_live o = true -> o_from o <> Some n.
(* No container is open with the handle f. *)
Definition unused (t : table) (f : nat) : Prop :=
  forall m o, nth_error t m = Some o -> o_live o = true -> o_with o <> Some (Some f).

(* A container is closed or freed, and a volume or file entry freed, after everything
   that was got from it; a file IO handle after the container was closed. *)
Definition rule (t : table) (c : call) : Prop :=
  match c with
  | Close n | FreeContainer n | FreeVolume n | FreeEntry n => none_from t n
  | FreeFile f => unused t f
  | _ => True
  end.

Fixpoint obeys (t : table) (tr : list (call * res (option nat))) : Prop :=
  match tr with
  | [] => True
  | (c, a) :: r => rule t c /\ obeys (learn t c a) r
  end.

(* The calls that give something back, without the handles of the program. *)
Definition gives_back (c : call) : bool :=
  match c with
  | Close _ | FreeContainer _ | FreeVolume _ | FreeEntry _ | FreeAttr _ | FreeSnapshot _ => true
  | _ => false
  end.

(* The objects that a call is given. *)
Definition given (c : call) : list nat :=
  match c with
  | NewFile | NewContainer => []
  | OpenFile c f _ => [c; f]
  | FreeFile n | OpenName n _ | Close n | FreeContainer n | GetVolume n _ | FreeVolume n | GetEntry n _ | GetSub n _
  | FreeEntry n | GetAttr n _ | FreeAttr n | GetSnapshot n _ | FreeSnapshot n | Use n _ => [n]
  end.
(* The calls of a program are given objects that were not freed. *)
Fixpoint held_only (t : table) (tr : list (call * res (option nat))) : Prop :=
  match tr with
  | [] => True
  | (c, a) :: r =>
      (forall n, In n (given c) -> exists o, nth_error t n = Some o /\ o_live o = true) /\ held_only (learn t c a) r
  end.

(* The objects after a trace. *)
Definition known (tr : list (call * res (option nat))) : table :=
  fold_left (fun t x => learn t (fst x) (snd x)) tr [].

Definition trace (cs : list call) : list (call * res (option nat)) := fst (run start cs).
Definition after (cs : list call) : state := snd (run start cs).
