(* File objects and sequences as documented by Python (io module, sequence types), independent of the
   code: a file object of some bytes, with a position; a list; an object that behaves as a file. *)
From Verif Require Import Base PyFile.

(* Reads give what is there from the position on, at most the given number of bytes; without a
   number, or with a negative one, all of it. A read at an offset leaves the position after what it
   read, unless it was for no bytes. *)
Definition file_object (data : list Z) (pos : Z) (c : pcall) : panswer * Z :=
  let size := len data in
  match c with
  | PyRead o =>
    let n := match o with Some n => if n <? 0 then size else n | None => size end in
    let d := slice data pos (Z.min n (size - pos)) in (PBytes d, pos + len d)
  | PyReadAt n off =>
    if n =? 0 then (PBytes [], pos)
    else if (n <? 0) || (off <? 0) then (PRaise, pos)
    else let d := slice data off (Z.min n (size - off)) in (PBytes d, off + len d)
  | PySeek off w =>
    let base := if w =? 0 then Some 0 else if w =? 1 then Some pos else if w =? 2 then Some size else None in
    match base with
    | Some b => if b + off <? 0 then (PRaise, pos) else (PNone, b + off)
    | None => (PRaise, pos)
    end
  | PyTell => (PInt pos, pos)
  | PySize => (PInt size, pos)
  end.
Fixpoint file_objects (data : list Z) (pos : Z) (cs : list pcall) : list panswer :=
  match cs with
  | [] => []
  | c :: cs => let (a, pos) := file_object data pos c in a :: file_objects data pos cs
  end.

(* A sequence: its length, its items by index, also counted from the end, and all of them in every
   loop. *)
Definition list_object {A} (l : list A) (c : scall) : sanswer A :=
  match c with
  | SLen => SInt (len l)
  | SItem i =>
    let i := if i <? 0 then i + len l else i in
    match (if 0 <=? i then nth_error l (Z.to_nat i) else None) with
    | Some a => SOne a
    | None => SExn IndexError
    end
  | SLoop => SAll l
  end.

(* The object behaves as a file of data: R s pos, it is at pos in state s. *)
Definition seek_to (data : list Z) (pos off w : Z) : option Z :=
  let base := if w =? 0 then Some 0 else if w =? 1 then Some pos else if w =? 2 then Some (len data) else None in
  match base with
  | Some b => if (0 <=? b + off) && (b + off <? 2 ^ 63) then Some (b + off) else None
  | None => None
  end.
Definition behaves {S} (data : list Z) (o : pyobject S) (R : S -> Z -> Prop) : Prop :=
  len data < 2 ^ 63 /\
  forall s pos, R s pos -> 0 <= pos < 2 ^ 63 /\
    (forall n, 0 <= n -> exists s', po_read o n s = (Some (slice data pos (Z.min n (len data - pos))), s') /\ R s' (pos + len (slice data pos (Z.min n (len data - pos))))) /\
    (forall off w, exists s', match seek_to data pos off w with
       | Some p => po_seek o off w s = (true, s') /\ R s' p
       | None => po_seek o off w s = (false, s') /\ R s' pos
       end) /\
    (exists s', po_tell o s = (Some pos, s') /\ R s' pos) /\
    match po_size o with
    | Some f => exists s', f s = (Some (len data), s') /\ R s' pos
    | None => True
    end.
(* The source of bytes that the library wants. *)
Definition source_step (data : list Z) (pos : Z) (c : iocall) : ioanswer * Z :=
  match c with
  | IoRead n =>
    if n <? 2 ^ 63 then let d := slice data pos (Z.min (Z.max 0 n) (len data - pos)) in (IoBytes d, pos + len d) else (IoError, pos)
  | IoSeek off w => match seek_to data pos off w with Some p => (IoNum p, p) | None => (IoError, pos) end
  | IoSize => (IoNum (len data), pos)
  end.
Fixpoint source_steps (data : list Z) (pos : Z) (cs : list iocall) : list ioanswer :=
  match cs with
  | [] => []
  | c :: cs => let (a, pos) := source_step data pos c in a :: source_steps data pos cs
  end.
