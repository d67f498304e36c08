(* Specification of an extended attribute object: a name, bytes with a position, and extents. *)
From Verif Require Import Base NameSpec TreeSpec RecordsSpec Records FsTree FsSpec DataSpec FileSpec ExtAttr.

Record extattr := mk_xa { xa_name : list Z; xa_value : list Z; xa_extents : list extent }.
(* Where the value is: in the extents of its data stream, or with the attribute. *)
Definition attr_extents (recs : list record) (a : attr) (l : list extent) : Prop :=
  match at_data a with AStream sid _ => extents_of recs sid l /\ Forall (fun x => ex_block x < 2 ^ 52) l | _ => l = [] end.

Definition units (u : bool) (s : list Z) : list Z := (if u then utf16 s else utf8 s) ++ [0].
Definition xattr_step (x : extattr) (pos : Z) (c : xcall) : xanswer * Z :=
  let size := len (xa_value x) in
  let read o n :=
    if (0 <=? o) && (0 <=? n) && (n <=? 2 ^ 63 - 1)
    then let d := slice (xa_value x) o (Z.min n (size - o)) in (XBytes d, o + len d)
    else (XError, if 0 <=? o then o else pos) in
  match c with
  | XId => (XInt 0, pos)
  | XNameSize u => (XInt (len (units u (xa_name x))), pos)
  | XName u n => (if len (units u (xa_name x)) <=? n then XText (units u (xa_name x)) else XError, pos)
  | XSize => (XInt size, pos)
  | XRead n => read pos n
  | XReadAt o n => read o n
  | XSeek o w =>
    match (if w =? 0 then Some 0 else if w =? 1 then Some pos else if w =? 2 then Some size else None) with
    | None => (XError, pos)
    | Some b => if b + o <? 0 then (XError, pos) else (XInt (b + o), b + o)
    end
  | XOffset => (XInt pos, pos)
  | XExtents => (XInt (len (xa_extents x)), pos)
  | XExtent i =>
    (match nth_error (xa_extents x) (Z.to_nat i) with
     | Some e => if 0 <=? i then XPlace (ex_block e * 4096) (ex_size e) else XError
     | None => XError
     end, pos)
  end.
Fixpoint xattr_steps (x : extattr) (pos : Z) (cs : list xcall) : list xanswer :=
  match cs with
  | [] => []
  | c :: cs => let (a, pos) := xattr_step x pos c in a :: xattr_steps x pos cs
  end.
