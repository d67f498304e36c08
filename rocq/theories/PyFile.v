(* Model of the objects of pyfsapfs: reading a file entry, the sequence of the entries of a
   directory, and a Python file object as the source of a container.
   pyfsapfs/pyfsapfs_file_entry.c 2629-2849 (read), 2856-3053 (read at an offset), 3058-3115 (seek),
   3120-3166 (offset), 3171-3217 (size); pyfsapfs/pyfsapfs_file_entries.c 299-451;
   pyfsapfs/pyfsapfs_file_object_io_handle.c 416-614, 619-669 (read), 860-1196 (seek and offset),
   1265-1523 (size); pyfsapfs/pyfsapfs_integer.c 87-245, 247-400. Not modelled: the exceptions other
   than whether there is one (for sequences: their types), arguments that are no integers, reference
   counts, the interpreter lock, allocation failures. *)
From Verif Require Import Base Records ToolInfo FileEntry.

(* ---- a file entry ---- *)
(* PyRead None: read() or read(None) *)
Inductive pcall := PyRead (size : option Z) | PyReadAt (size off : Z) | PySeek (off whence : Z) | PyTell | PySize.
Inductive panswer := PBytes (d : list Z) | PInt (n : Z) | PNone | PRaise.
(* pyfsapfs_integer.c 87-245: an integer outside of 64 bits is an error *)
Definition int64 (n : Z) : bool := (- 2 ^ 63 <=? n) && (n <? 2 ^ 63).
(* PyArg_ParseTupleAndKeywords with "L|i" (external) *)
Definition int32 (n : Z) : bool := (- 2 ^ 31 <=? n) && (n <? 2 ^ 31).
Definition bytes_or_raise (a : fanswer) : panswer := match a with RBytes d => PBytes d | _ => PRaise end.
Section Entry.
  (* a call of the library on the entry: FileEntry.v *)
  Variables (St : Type) (call : fcall -> St -> res (fanswer * St)).
  (* pyfsapfs_file_entry.c 2754-2846, of the size; off: 2948-3050 *)
  Definition py_read_size (c : fcall) (n : Z) (st : St) : res (panswer * St) :=
    if n =? 0 then Ok (PBytes [], st)
    else if n <? 0 then Ok (PRaise, st)
    else if 2 ^ 31 - 1 <? n then Ok (PRaise, st)
    else let! (a, st) := call c st in Ok (bytes_or_raise a, st).
  Definition py_call (c : pcall) (st : St) : res (panswer * St) :=
    match c with
    | PyRead (Some n) => (* 2700-2718 *)
      if int64 n then py_read_size (CRead n) n st else Ok (PRaise, st)
    | PyRead None => (* 2719-2744: the size, as a signed number *)
      let! (a, st) := call CSize st in
      match a with
      | RSize s => py_read_size (CRead (s64 s)) (s64 s) st
      | _ => Ok (PRaise, st)
      end
    | PyReadAt n off => (* 2948-3050 *)
      if int64 n && int64 off
      then if (0 <? n) && (n <=? 2 ^ 31 - 1) && (off <? 0) then Ok (PRaise, st) else py_read_size (CReadAt off n) n st
      else Ok (PRaise, st)
    | PySeek off w => (* 3075-3115 *)
      if int64 off && int32 w
      then let! (a, st) := call (CSeek off w) st in Ok (match a with RPos _ => PNone | _ => PRaise end, st)
      else Ok (PRaise, st)
    | PyTell => let! (a, st) := call COffset st in Ok (match a with RPos p => PInt p | _ => PRaise end, st)
    | PySize => let! (a, st) := call CSize st in Ok (match a with RSize s => PInt s | _ => PRaise end, st)
    end.
  Fixpoint py_calls (cs : list pcall) (st : St) : res (list panswer * St) :=
    match cs with
    | [] => Ok ([], st)
    | c :: cs =>
      let! (a, st) := py_call c st in
      let! (l, st) := py_calls cs st in
      Ok (a :: l, st)
    end.
End Entry.

(* ---- the sequence of the entries of a directory ---- *)
Inductive exn := IndexError | ValueError | LibraryError.
(* SLoop: a for loop over the sequence to its end *)
Inductive scall := SLen | SItem (i : Z) | SLoop.
Inductive sanswer (A : Type) := SInt (n : Z) | SOne (a : A) | SAll (l : list A) | SExn (x : exn).
Arguments SInt {A}. Arguments SOne {A}. Arguments SAll {A}. Arguments SExn {A}.
Section Sequence.
  (* the entry with an index, of the library *)
  Variables (A : Type) (get : Z -> option A).
  (* the state: the current index; n: the number of items, set when the sequence is made *)
  (* pyfsapfs_file_entries.c 393-451; None: StopIteration *)
  Definition seq_next (n idx : Z) : option (option A) * Z :=
    if n <=? idx then (None, idx)
    else match get idx with
         | Some a => (Some (Some a), idx + 1)
         | None => (Some None, idx)
         end.
  (* a for loop: iter (371-389: the sequence itself, its index as it is), then next until it
     raises *)
  Fixpoint seq_loop (fuel : nat) (n idx : Z) (acc : list A) : res (sanswer A * Z) :=
    match fuel with
    | O => Fuel
    | S fuel =>
      match seq_next n idx with
      | (None, idx) => Ok (SAll (rev acc), idx)
      | (Some (Some a), idx) => seq_loop fuel n idx (a :: acc)
      | (Some None, idx) => Ok (SExn LibraryError, idx)
      end
    end.
  (* pyfsapfs_file_entries.c 299-367; a negative index is counted from the end by the interpreter *)
  Definition seq_call (fuel : nat) (n : Z) (c : scall) (idx : Z) : res (sanswer A * Z) :=
    match c with
    | SLen => Ok (SInt n, idx)
    | SItem i =>
      let i := if i <? 0 then i + n else i in
      if (i <? 0) || (n <=? i) then Ok (SExn ValueError, idx)
      else Ok (match get i with Some a => SOne a | None => SExn LibraryError end, idx)
    | SLoop => seq_loop fuel n idx []
    end.
  Fixpoint seq_calls (fuel : nat) (n : Z) (cs : list scall) (idx : Z) : res (list (sanswer A)) :=
    match cs with
    | [] => Ok []
    | c :: cs =>
      let! (a, idx) := seq_call fuel n c idx in
      let! l := seq_calls fuel n cs idx in
      Ok (a :: l)
    end.
End Sequence.

(* ---- a Python file object as the source ---- *)
(* The methods of the object; None: an exception, or a result of another type. po_tell: get_offset
   if the object has it, else tell; po_size: get_size if the object has it. *)
Record pyobject (S : Type) := mk_po { po_read : Z -> S -> option (list Z) * S; po_seek : Z -> Z -> S -> bool * S; po_tell : S -> option Z * S; po_size : option (S -> option Z * S) }.
Arguments mk_po {S}. Arguments po_read {S}. Arguments po_seek {S}. Arguments po_tell {S}. Arguments po_size {S}.
Section Object.
  Variables (S : Type) (o : pyobject S).
  (* pyfsapfs_file_object_io_handle.c 453-595: as many bytes as read returned are copied to the
     buffer, of size bytes *)
  Definition io_read (size : Z) (s : S) : res (list Z) * S :=
    if 2 ^ 63 - 1 <? size then (Fail, s)
    else if size <=? 0 then (Ok [], s)
    else match po_read o size s with
         | (None, s) => (Fail, s)
         | (Some d, s) => (if len d <=? size then Ok d else Oob, s)
         end.
  (* pyfsapfs_file_object_io_handle.c 883-975 *)
  Definition obj_seek (off w : Z) (s : S) : res unit * S :=
    if (w =? 0) || (w =? 1) || (w =? 2) then match po_seek o off w s with (b, s) => (if b then Ok tt else Fail, s) end else (Fail, s).
  (* pyfsapfs_file_object_io_handle.c 1037-1116 *)
  Definition obj_tell (s : S) : res Z * S :=
    match po_tell o s with
    | (Some n, s) => (if int64 n then Ok n else Fail, s)
    | (None, s) => (Fail, s)
    end.
  (* pyfsapfs_file_object_io_handle.c 1157-1189 *)
  Definition io_seek (off w : Z) (s : S) : res Z * S :=
    match obj_seek off w s with
    | (Ok _, s) => obj_tell s
    | (_, s) => (Fail, s)
    end.
  (* pyfsapfs_file_object_io_handle.c 1415-1522, of the value old that size has before. The result is
     1 also after an error (1522). pyfsapfs_integer.c 247-400: a size of 2^63 or more is an error. *)
  Definition io_size (old : Z) (s : S) : res Z * S :=
    match po_size o with
    | Some f =>
      match f s with
      | (Some n, s) => (Ok (if (0 <=? n) && (n <? 2 ^ 63) then n else old), s)
      | (None, s) => (Ok old, s)
      end
    | None =>
      match obj_tell s with
      | (Ok cur, s) =>
        match obj_seek 0 2 s with
        | (Ok _, s) =>
          match obj_tell s with
          | (Ok n, s) => (Ok (w64 n), snd (obj_seek cur 0 s))
          | (_, s) => (Ok old, snd (obj_seek cur 0 s))
          end
        | (_, s) => (Ok old, s)
        end
      | (_, s) => (Ok old, s)
      end
    end.
  Inductive iocall := IoRead (n : Z) | IoSeek (off w : Z) | IoSize.
  Inductive ioanswer := IoBytes (d : list Z) | IoNum (n : Z) | IoError.
  Definition io_call (c : iocall) (s : S) : res ioanswer * S :=
    match c with
    | IoRead n => match io_read n s with (Ok d, s) => (Ok (IoBytes d), s) | (Fail, s) => (Ok IoError, s) | (Oob, s) => (Oob, s) | (Fuel, s) => (Fuel, s) end
    | IoSeek off w => match io_seek off w s with (Ok n, s) => (Ok (IoNum n), s) | (_, s) => (Ok IoError, s) end
    | IoSize => match io_size 0 s with (Ok n, s) => (Ok (IoNum n), s) | (_, s) => (Ok IoError, s) end
    end.
  Fixpoint io_calls (cs : list iocall) (s : S) : res (list ioanswer) * S :=
    match cs with
    | [] => (Ok [], s)
    | c :: cs =>
      match io_call c s with
      | (Ok a, s) => match io_calls cs s with (Ok l, s) => (Ok (a :: l), s) | (x, s) => (x, s) end
      | (Fail, s) => (Fail, s)
      | (Oob, s) => (Oob, s)
      | (Fuel, s) => (Fuel, s)
      end
    end.
End Object.
