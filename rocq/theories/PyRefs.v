(* The references that pyfsapfs has to Python objects, and the interpreter lock, while a container
   is read through a Python file object.
   pyfsapfs/pyfsapfs_file_object_io_handle.c 37-243 (the handle), 416-669 (read), 860-1196 (seek and
   offset), 1265-1523 (size); pyfsapfs/pyfsapfs_error.c 59-175, 201-304 (exceptions);
   pyfsapfs/pyfsapfs_integer.c 108-244, 249-398; pyfsapfs/pyfsapfs_container.c 290-361, 415-627,
   632-766, 771-839; pyfsapfs/pyfsapfs.c 339-434, 439-485, 490-536. The functions of the interpreter
   are parameters: every one of them may fail and raise, and may run other code of the program.
   For Python 3, with long long of 64 bits and narrow system characters. Not modelled: the values
   that are passed on (PyFile.v), pyfsapfs_file_object_io_handle_clone (the library copies no
   handle), write (the library writes nothing), the error objects of the library, failures of the
   allocations of pyfsapfs itself, the arguments NULL. *)
From Coq Require Import ZArith List Bool Arith.
Import ListNotations.
Local Open Scope Z_scope.

(* An exception as PyErr_Fetch gives it away: type, value and traceback. *)
Record exn := mk_exn { x_type : nat; x_value : option nat; x_trace : option nat }.

(* What the binding does with the interpreter, in order:
   Took: a reference is received, from a function that returns a new one or with Py_IncRef;
   Gave: Py_DecRef; Fetched: PyErr_Fetch; Uses: another function of the interpreter is called with
   these objects, or memory of theirs is read; Ensure, Release: PyGILState_Ensure and _Release;
   Begin, End: Py_BEGIN_ALLOW_THREADS and Py_END_ALLOW_THREADS. *)
Inductive event :=
  | Took (x : nat) | Gave (x : nat) | Fetched (e : exn) | Uses (l : list nat)
  | Ensure | Release | Begin | End.

Inductive mname := NRead | NSeek | NGetOffset | NTell | NGetSize.
(* The functions of the interpreter that are asked. *)
Inductive question :=
  | QName (m : mname)                                        (* PyUnicode_FromString *)
  | QNumber (n : Z)                                          (* PyLong_FromSize_t, PyLong_FromLongLong, PyLong_FromLong *)
  | QCall (o : nat) (m : option nat) (args : list (option nat)) (* PyObject_CallMethodObjArgs *)
  | QHas (o : nat) (m : option nat)                          (* PyObject_HasAttr *)
  | QHasName (o : nat) (m : mname)                           (* PyObject_HasAttrString *)
  | QIsText (o : nat) | QIsBytes (o : nat) | QIsLong (o : nat)  (* PyObject_IsInstance *)
  | QBytes (o : option nat)                                  (* PyBytes_AsStringAndSize, PyBytes_AsString *)
  | QLong (o : nat)                                          (* PyLong_AsLongLong, PyLong_AsUnsignedLongLong *)
  | QRepr (o : option nat)                                   (* PyObject_Repr *)
  | QUtf8 (o : option nat)                                   (* PyUnicode_AsUTF8String *)
  | QContainer                                               (* PyObject_New *)
  | QMake (n : Z)                                            (* PyBytes_FromStringAndSize, PyBytes_FromString *)
  | QDecode                                                  (* PyUnicode_DecodeUTF8 *)
  | QTuple (n : Z)                                           (* PyTuple_New *)
  | QSet (t : option nat)                                    (* PyTuple_SetItem *)
  | QResize (o : nat).                                       (* _PyBytes_Resize *)

(* The interpreter with the program in it. i_new: functions that return a new reference, None for
   NULL; i_num: functions that return a number; the exception that they raise, if any. i_format:
   the exception that PyErr_Format makes. *)
Record interp (W : Type) := mk_int {
  i_new : question -> W -> option nat * option exn * W;
  i_num : question -> W -> Z * option exn * W;
  i_format : W -> exn * W }.
Arguments mk_int {W}. Arguments i_new {W}. Arguments i_num {W}. Arguments i_format {W}.

Definition opt (o : option nat) : list nat := match o with Some x => [x] | None => [] end.
Fixpoint opts (l : list (option nat)) : list nat := match l with [] => [] | o :: l => opt o ++ opts l end.
Definition objects (q : question) : list nat :=
  match q with
  | QName _ | QNumber _ | QContainer | QMake _ | QDecode | QTuple _ => []
  | QCall o m args => o :: opt m ++ opts args
  | QHas o m => o :: opt m
  | QHasName o _ | QIsText o | QIsBytes o | QIsLong o | QLong o | QResize o => [o]
  | QBytes o | QRepr o | QUtf8 o | QSet o => opt o
  end.

Section Refs.
  Variables (W : Type) (i : interp W).
  (* The state: the exception that is pending, and the interpreter; a function returns also what
     it did. *)
  Definition hstate : Type := option exn * W.
  Definition H (A : Type) : Type := hstate -> A * list event * hstate.
  Definition hret {A} (a : A) : H A := fun s => (a, [], s).
  Definition hbind {A B} (f : H A) (k : A -> H B) : H B := fun s =>
    let '(a, t, s) := f s in let '(b, u, s) := k a s in (b, t ++ u, s).
  Definition emit (e : event) : H unit := fun s => (tt, [e], s).

  Definition pend (p e : option exn) : option exn := match e with Some e => Some e | None => p end.
  Definition new (q : question) : H (option nat) := fun s =>
    let '(x, e, w) := i_new i q (snd s) in
    (x, Uses (objects q) :: map Took (opt x), (pend (fst s) e, w)).
  Definition num (q : question) : H Z := fun s =>
    let '(n, e, w) := i_num i q (snd s) in (n, [Uses (objects q)], (pend (fst s) e, w)).
  (* Py_DecRef: NULL is ignored *)
  Definition decref (o : option nat) : H unit := fun s => (tt, map Gave (opt o), s).
  Definition incref (x : nat) : H unit := emit (Took x).
  Definition err_clear : H unit := fun s => (tt, [Uses []], (None, snd s)).
  Definition err_occurred : H bool := fun s => (match fst s with Some _ => true | None => false end, [Uses []], s).
  (* PyErr_Format: the exception becomes the pending one *)
  Definition err_format : H unit := fun s =>
    let '(e, w) := i_format i (snd s) in (tt, [Uses []], (Some e, w)).
  (* PyErr_Fetch: the references of the pending exception are the caller's; the value *)
  Definition err_fetch : H (option nat) := fun s =>
    match fst s with
    | Some e => (x_value e, [Fetched e], (None, snd s))
    | None => (None, [Uses []], s)
    end.

  Notation "'do' x <- f ; k" := (hbind f (fun x => k)) (at level 200, x name, f at level 100, k at level 200).
  Notation "'also' f ; k" := (hbind f (fun _ => k)) (at level 200, f at level 100, k at level 200).

  (* pyfsapfs_error.c 124-174: the type, value and traceback are not given back *)
  Definition error_fetch : H unit :=
    do v <- err_fetch;
    do s <- new (QRepr v);
    do u <- new (QUtf8 s);
    also match u with Some _ => also num (QBytes u); hret tt | None => hret tt end;
    also decref u;
    decref s.
  (* pyfsapfs_error.c 264-303: the same, and the string of bytes is not given back either *)
  Definition error_fetch_and_raise : H unit :=
    do v <- err_fetch;
    do s <- new (QRepr v);
    do u <- new (QUtf8 s);
    also match u with Some _ => also num (QBytes u); hret tt | None => hret tt end;
    also err_format;
    decref s.

  (* pyfsapfs_integer.c 133-243, 274-397: whether the object is an integer that fits *)
  Definition copy_to_64bit (unsigned : bool) (x : nat) : H bool :=
    also err_clear;
    do r <- num (QIsLong x);
    if r =? -1 then also error_fetch; hret false
    else if r =? 0 then hret false
    else also err_clear;
         do v <- num (QLong x);
         do b <- err_occurred;
         if b then also error_fetch; hret false
         else hret (negb (unsigned && (v <? 0))).

  (* pyfsapfs_file_object_io_handle.c 464-613, of a size greater than 0. The bytes of the result are
     copied before the result is given back (572-587). *)
  Definition read_buffer (fo : nat) (size : Z) : H bool :=
    if 2 ^ 63 - 1 <? size then hret false
    else if size <=? 0 then hret true
    else
      do name <- new (QName NRead);
      do arg <- new (QNumber size);
      also err_clear;
      do r <- new (QCall fo name [arg]);
      do b <- err_occurred;
      do ok <- (if b then also error_fetch; hret false
        else match r with
        | None => hret false
        | Some x =>
          do n <- num (QIsBytes x);
          if (n =? -1) || (n =? 0) then hret false
          else do k <- num (QBytes (Some x));
               if k =? -1 then also error_fetch; hret false
               else also emit (Uses [x]); hret true
        end);
      (* 586-593, and the same after an error: 597-612 *)
      also decref r;
      also decref arg;
      also decref name;
      hret ok.
  (* pyfsapfs_file_object_io_handle.c 883-998 *)
  Definition seek_offset (fo : nat) (off whence : Z) : H bool :=
    if negb ((whence =? 0) || (whence =? 1) || (whence =? 2)) then hret false
    else
      do name <- new (QName NSeek);
      do arg <- new (QNumber off);
      do arg2 <- new (QNumber whence);
      also err_clear;
      do r <- new (QCall fo name [arg; arg2]);
      do b <- err_occurred;
      do ok <- (if b then also error_fetch; hret false else hret (match r with Some _ => true | None => false end));
      also decref r;
      also decref arg2;
      also decref arg;
      also decref name;
      hret ok.
  (* pyfsapfs_file_object_io_handle.c 1067-1129, of the name of the method *)
  Definition offset_call (fo : nat) (name : option nat) : H bool :=
    also err_clear;
    do r <- new (QCall fo name []);
    do b <- err_occurred;
    do ok <- (if b then also error_fetch; hret false
      else match r with None => hret false | Some x => copy_to_64bit false x end);
    also decref r;
    also decref name;
    hret ok.
  (* pyfsapfs_file_object_io_handle.c 1037-1129 *)
  Definition get_offset (fo : nat) : H bool :=
    do name <- new (QName NGetOffset);
    also err_clear;
    do h <- num (QHas fo name);
    if h =? 0
    then also decref name; do name <- new (QName NTell); offset_call fo name
    else offset_call fo name.
  (* pyfsapfs_file_object_io_handle.c 1296-1365 *)
  Definition get_size (fo : nat) : H bool :=
    do name <- new (QName NGetSize);
    also err_clear;
    do r <- new (QCall fo name []);
    do b <- err_occurred;
    do ok <- (if b then also error_fetch; hret false
      else match r with None => hret false | Some x => copy_to_64bit true x end);
    also decref r;
    also decref name;
    hret ok.

  (* What the library does with the handle. *)
  Inductive iocall := IoRead (size : Z) | IoSeek (off whence : Z) | IoSize.
  (* pyfsapfs_file_object_io_handle.c 640-668, 1155-1195, 1404-1522: with the lock *)
  Definition io (fo : nat) (c : iocall) : H unit :=
    also emit Ensure;
    also match c with
       | IoRead n => also read_buffer fo n; hret tt
       | IoSeek off whence =>
         do ok <- seek_offset fo off whence;
         if ok then also get_offset fo; hret tt else hret tt
       | IoSize =>
         do name <- new (QName NGetSize);
         also err_clear;
         do h <- num (QHas fo name);
         also (if negb (h =? 0) then also get_size fo; hret tt
               else do ok <- get_offset fo;
                    if negb ok then hret tt
                    else do ok <- seek_offset fo 0 2;
                         if negb ok then hret tt
                         else also get_offset fo; also seek_offset fo 0 0; hret tt);
         decref name
       end;
    emit Release.
  Fixpoint ios (fo : nat) (l : list iocall) : H unit :=
    match l with
    | [] => hret tt
    | c :: l => also io fo c; ios fo l
    end.

  (* pyfsapfs_file_object_io_handle.c 105-108, 170-195: the handle has a reference; and 228-241 *)
  Definition handle_new (fo : nat) : H unit := incref fo.
  Definition handle_free (fo : nat) : H unit :=
    also emit Ensure; also decref (Some fo); emit Release.

  (* A call of the library, which reads, seeks and asks for the size as it likes; the lock is not
     held meanwhile. *)
  Definition library (fo : option nat) (l : list iocall) : H unit :=
    also emit Begin;
    also match fo with Some fo => ios fo l | None => hret tt end;
    emit End.

  (* A Python container object: its file IO handle, with the file object. *)
  (* pyfsapfs_container.c 674-765, of the file object, of what the library reads, and of whether it
     can open. A handle that is already set is freed (704-712, 758-764). *)
  Definition open_file_object (none fo : nat) (l : list iocall) (works : bool) (h : option nat) : H (option nat * option nat) :=
    also err_clear;
    do r <- num (QHasName fo NRead);
    if negb (r =? 1) then also err_format; hret (None, h)
    else
    also err_clear;
    do r <- num (QHasName fo NSeek);
    if negb (r =? 1) then also err_format; hret (None, h)
    else match h with
    | Some g => also err_format; also handle_free g; hret (None, None)
    | None =>
      also handle_new fo;
      also library (Some fo) l;
      if works then also incref none; hret (Some none, Some fo)
      else also err_format; also handle_free fo; hret (None, None)
    end.
  (* pyfsapfs_container.c 469-626 *)
  Definition open_named (none text : nat) (works : bool) : H (option nat) :=
    also err_clear;
    do r <- num (QIsText text);
    if r =? -1 then also error_fetch_and_raise; hret None
    else if negb (r =? 0) then
      also err_clear;
      do u <- new (QUtf8 (Some text));
      match u with
      | None => also error_fetch_and_raise; hret None
      | Some _ =>
        also num (QBytes u);
        also library None [];
        also decref u;
        if works then also incref none; hret (Some none) else also err_format; hret None
      end
    else
      also err_clear;
      do r <- num (QIsBytes text);
      if r =? -1 then also error_fetch_and_raise; hret None
      else if negb (r =? 0) then
        also err_clear;
        also num (QBytes (Some text));
        also library None [];
        if works then also incref none; hret (Some none) else also err_format; hret None
      else also err_format; hret None.
  (* pyfsapfs_container.c 790-838; the library reads nothing to close *)
  Definition close_container (none : nat) (h : option nat) : H (option nat * option nat) :=
    also library None [];
    also match h with Some g => also emit Begin; also handle_free g; emit End | None => hret tt end;
    also incref none;
    hret (Some none, None).
  (* pyfsapfs_container.c 328-345: the object is freed; the result of close is not looked at but for
     NULL *)
  Definition dealloc_container (none : nat) (h : option nat) : H unit :=
    also match h with Some _ => also close_container none h; hret tt | None => hret tt end;
    library None [].

  (* pyfsapfs_container.c 265-285: the handle is set to NULL, also when the object was initialized
     before *)
  Definition init_container (h : option nat) : H (option nat) := hret None.

  (* pyfsapfs.c 362-433, of the result of the library: an error, false or true *)
  Definition check_signature (ctrue cfalse fo : nat) (l : list iocall) (r : Z) : H (option nat) :=
    also handle_new fo;
    also library (Some fo) l;
    if r =? -1 then also err_format; also handle_free fo; hret None
    else also handle_free fo;
         if negb (r =? 0) then also incref ctrue; hret (Some ctrue) else also incref cfalse; hret (Some cfalse).
  (* pyfsapfs.c 502-535: the result of open_file_object is compared with NULL only. The container
     that is given back has no other references, it is deallocated. *)
  Definition open_new_file_object (none fo : nat) (l : list iocall) (works : bool) : H (option nat * option nat) :=
    do c <- new QContainer;
    match c with
    | None => also err_format; hret (None, None)
    | Some c =>
      do a <- open_file_object none fo l works None;
      match fst a with
      | None => also decref (Some c); also dealloc_container none (snd a); hret (None, None)
      | Some _ => hret (Some c, snd a)
      end
    end.
  (* pyfsapfs.c 451-484 *)
  Definition open_new_named (none text : nat) (works : bool) : H (option nat) :=
    do c <- new QContainer;
    match c with
    | None => also err_format; hret None
    | Some c =>
      do a <- open_named none text works;
      match a with
      | None => also decref (Some c); also dealloc_container none None; hret None
      | Some _ => hret (Some c)
      end
    end.

  (* The program: what it does with one container object. *)
  Inductive use :=
    | UOpen (fo : nat) (l : list iocall) (works : bool)   (* open_file_object *)
    | UCall (l : list iocall)                             (* a method of the container, a volume, a file entry … *)
    | UClose.
  (* The results None are given back by the interpreter when nothing keeps them. *)
  Definition used (none : nat) (u : use) (h : option nat) : H (option nat) :=
    match u with
    | UOpen fo l works => do a <- open_file_object none fo l works h; also decref (fst a); hret (snd a)
    | UCall l => also library h l; hret h
    | UClose => do a <- close_container none h; also decref (fst a); hret (snd a)
    end.
  Fixpoint uses (none : nat) (l : list use) (h : option nat) : H (option nat) :=
    match l with
    | [] => hret h
    | u :: l => do h <- used none u h; uses none l h
    end.
End Refs.
