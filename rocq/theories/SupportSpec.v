(* What a signature check should say, independent of the code. *)
From Verif Require Import Base OmapSpec Support.

(* The four bytes at offset 32 of a file, if it has that many. *)
Definition marked (dev : device) (s : list Z) : Prop := exists d, dev 0 = Some d /\ 36 <= len d /\ slice d 32 4 = s.
Definition long_enough (dev : device) : Prop := exists d, dev 0 = Some d /\ 36 <= len d.
Definition nxsb : list Z := [78; 88; 83; 66].
Definition apsb : list Z := [65; 80; 83; 66].
(* The handle can be read: it is open, or can be opened and closed. *)
Definition usable_handle (h : handle) (dev : device) : Prop := h_file h = Some dev /\ (h_open h = true \/ h_closes h = true).
(* The answer that is right for a file. *)
Definition right_answer (dev : device) (s : list Z) (r : res bool) : Prop :=
  match r with
  | Ok b => long_enough dev /\ (b = true <-> marked dev s)
  | Fail => ~ long_enough dev
  | _ => False
  end.
