(* The Python objects around the objects of the library: how long the library objects
   live is decided by the reference counts of the Python objects.
   pyfsapfs_container.c, pyfsapfs_volume.c, pyfsapfs_file_entry.c,
   pyfsapfs_extended_attribute.c, pyfsapfs_volumes.c, pyfsapfs_file_entries.c and
   pyfsapfs_extended_attributes.c. Not modelled: the reference of a file IO handle to the
   file object of the program, and errors for lack of memory. *)
From Coq Require Import Bool List Arith.
From Verif Require Import Base Walk FileEntry Lifetime.
Import ListNotations.
Local Open Scope nat_scope.

Inductive pkind := PContainer | PVolume | PEntry | PAttr | PSequence.

(* A Python object: the object of the library in it (none for a sequence), its reference
   count, the object it keeps a reference to, and for a container the file IO handle of
   open_file_object (pyfsapfs_container.h: file_io_handle). *)
Record pyobj := mk_py { p_kind : pkind; p_lib : option nat; p_count : nat; p_parent : option nat; p_file : option nat }.
Record pystate := mk_ps { pys : list pyobj; lib : state }.
Definition pystart : pystate := mk_ps [] start.

Definition P (A : Type) : Type := M pystate A.
Definition pret {A} (a : A) : P A := retM (Ok a).
Definition pfail {A} : P A := retM Fail.

(* A call of the library. *)
Definition ask (c : call) : P (option nat) := fun s =>
  let (a, l) := perform c (lib s) in (a, mk_ps (pys s) l).
(* The same, where the binding looks at the result: whether it worked. *)
Definition ask_ok (c : call) : P bool := fun s =>
  match ask c s with
  | (Ok _, s') => (Ok true, s')
  | (Fail, s') => (Ok false, s')
  | (Oob, s') => (Oob, s')
  | (Fuel, s') => (Fuel, s')
  end.

Definition pget (x : nat) : P pyobj := fun s =>
  (match nth_error (pys s) x with Some o => Ok o | None => Fail end, s).
Definition pset (x : nat) (o : pyobj) : P unit := fun s => (Ok tt, mk_ps (set_nth x o (pys s)) (lib s)).
Definition padd (o : pyobj) : P nat := fun s => (Ok (length (pys s)), mk_ps (pys s ++ [o]) (lib s)).

Definition set_count (o : pyobj) (n : nat) : pyobj := mk_py (p_kind o) (p_lib o) n (p_parent o) (p_file o).
Definition set_file (o : pyobj) (f : option nat) : pyobj := mk_py (p_kind o) (p_lib o) (p_count o) (p_parent o) f.

Definition incref (x : nat) : P unit := bindM (pget x) (fun o => pset x (set_count o (S (p_count o)))).

(* pyfsapfs_container.c 771-839: close, and the file IO handle is freed *)
Definition py_close (x : nat) : P unit :=
  bindM (pget x) (fun o => match p_kind o, p_lib o with
  | PContainer, Some c =>
      bindM (ask_ok (Close c)) (fun ok =>
      if ok
      then match p_file o with
           | Some f => bindM (ask (FreeFile f)) (fun _ => pset x (set_file o None))
           | None => pret tt
           end
      else pfail)
  | _, _ => pfail end).

(* pyfsapfs_container.c 290-361: an object whose file IO handle is set is closed first;
   pyfsapfs_volume.c 351-418, pyfsapfs_file_entry.c 606-673, pyfsapfs_extended_attribute.c
   337-404: the library object is freed; pyfsapfs_volumes.c 252-295: a sequence has none *)
Definition dealloc (x : nat) : P unit :=
  bindM (pget x) (fun o => match p_kind o, p_lib o with
  | PContainer, Some c =>
      bindM (match p_file o with Some _ => py_close x | None => pret tt end) (fun _ =>
      bindM (ask (FreeContainer c)) (fun _ => pret tt))
  | PVolume, Some v => bindM (ask (FreeVolume v)) (fun _ => pret tt)
  | PEntry, Some e => bindM (ask (FreeEntry e)) (fun _ => pret tt)
  | PAttr, Some a => bindM (ask (FreeAttr a)) (fun _ => pret tt)
  | _, _ => pret tt
  end).

(* Py_DecRef: the object is deallocated with its last reference, and after its library
   object was freed the reference to its parent is given up. *)
Fixpoint decref (fuel : nat) (x : nat) : P unit :=
  match fuel with
  | O => retM Fuel
  | S fuel =>
      bindM (pget x) (fun o =>
      match p_count o with
      | S (S n) => pset x (set_count o (S n))
      | _ =>
          bindM (pset x (set_count o 0)) (fun _ =>
          bindM (dealloc x) (fun _ =>
          match p_parent o with
          | Some p => decref fuel p
          | None => pret tt
          end))
      end)
  end.

(* pyfsapfs_container.c 632-766: open_file_object. If the file IO handle is already set
   the handler of the errors is entered, which frees the handle that is set. *)
Definition py_open_file (x : nat) (ok : bool) : P unit :=
  bindM (pget x) (fun o => match p_kind o, p_lib o with
  | PContainer, Some c =>
      match p_file o with
      | Some f => bindM (ask (FreeFile f)) (fun _ => bindM (pset x (set_file o None)) (fun _ => pfail))
      | None =>
          bindM (ask NewFile) (fun r => match r with
          | Some f =>
              bindM (ask_ok (OpenFile c f ok)) (fun ok =>
              if ok then pset x (set_file o (Some f))
              else bindM (ask (FreeFile f)) (fun _ => pfail))
          | None => pfail end)
      end
  | _, _ => pfail end).

(* The object itself, or the object a sequence was got from: the items of a sequence are
   got with the function for a single item (pyfsapfs_volumes.c 318-392, 393-). *)
Definition source (x : nat) : P nat :=
  bindM (pget x) (fun o => match p_kind o, p_parent o with
  | PSequence, Some p => pret p
  | PSequence, None => pfail
  | _, _ => pret x end).

(* A new Python object with a reference to its parent. *)
Definition wrap (k : pkind) (parent : nat) (n : option nat) : P nat :=
  bindM (padd (mk_py k n 1 (Some parent) None)) (fun y =>
  bindM (incref parent) (fun _ => pret y)).

Inductive pyop :=
| PyNew | PyOpen (x : nat) (ok : bool) | PyOpenFile (x : nat) (ok : bool) | PyClose (x : nat)
| PyVolume (x : nat) (ok : bool) | PyEntry (x : nat) (o : outcome) | PySub (x : nat) (ok : bool)
| PyAttr (x : nat) (o : outcome) | PySequence (x : nat) (grow : bool) | PyUse (x : nat) (grow : bool)
| PyKeep (x : nat) | PyDrop (x : nat).

(* One operation of a Python program: the object it made, if it made one. *)
Definition py_perform (op : pyop) : P (option nat) :=
  match op with
  (* pyfsapfs_container.c 250-285 *)
  | PyNew => bindM (ask NewContainer) (fun n => bindM (padd (mk_py PContainer n 1 None None)) (fun y => pret (Some y)))
  (* pyfsapfs_container.c 415-627 *)
  | PyOpen x ok => bindM (pget x) (fun o => match p_kind o, p_lib o with
      | PContainer, Some c => bindM (ask (OpenName c ok)) (fun _ => pret None)
      | _, _ => pfail end)
  | PyOpenFile x ok => bindM (py_open_file x ok) (fun _ => pret None)
  | PyClose x => bindM (py_close x) (fun _ => pret None)
  (* pyfsapfs_container.c 1072-1138 *)
  | PyVolume x ok => bindM (source x) (fun x => bindM (pget x) (fun o => match p_kind o, p_lib o with
      | PContainer, Some c => bindM (ask (GetVolume c ok)) (fun n => bindM (wrap PVolume x n) (fun y => pret (Some y)))
      | _, _ => pfail end))
  (* pyfsapfs_volume.c 972-1230 *)
  | PyEntry x r => bindM (pget x) (fun o => match p_kind o, p_lib o with
      | PVolume, Some v => bindM (ask (GetEntry v r)) (fun n => bindM (wrap PEntry x n) (fun y => pret (Some y)))
      | _, _ => pfail end)
  (* pyfsapfs_file_entry.c 2370-2436, 2533-2620: the parent of the entry is also that of
     the sub entry *)
  | PySub x ok => bindM (source x) (fun x => bindM (pget x) (fun o => match p_kind o, p_lib o, p_parent o with
      | PEntry, Some e, Some p => bindM (ask (GetSub e ok)) (fun n => bindM (wrap PEntry p n) (fun y => pret (Some y)))
      | _, _, _ => pfail end))
  (* pyfsapfs_file_entry.c 1981-2047, 2218-2307 *)
  | PyAttr x r => bindM (source x) (fun x => bindM (pget x) (fun o => match p_kind o, p_lib o with
      | PEntry, Some e => bindM (ask (GetAttr e r)) (fun n => bindM (wrap PAttr x n) (fun y => pret (Some y)))
      | _, _ => pfail end))
  (* pyfsapfs_container.c 1171-1230, pyfsapfs_file_entry.c 2080-2139, 2469-2528: the
     number of items is asked, then the sequence is made *)
  | PySequence x g => bindM (pget x) (fun o => match p_kind o, p_lib o with
      | (PContainer | PEntry), Some n => bindM (ask (Use n g)) (fun _ => bindM (wrap PSequence x None) (fun y => pret (Some y)))
      | _, _ => pfail end)
  | PyUse x g => bindM (pget x) (fun o => match p_lib o with
      | Some n => bindM (ask (Use n g)) (fun _ => pret None)
      | None => pret None end)
  (* another reference to an object, and one reference less *)
  | PyKeep x => bindM (incref x) (fun _ => pret None)
  | PyDrop x => bindM (decref (S x) x) (fun _ => pret None)
  end.

Fixpoint py_run (s : pystate) (ops : list pyop) : list (pyop * res (option nat)) * pystate :=
  match ops with
  | [] => ([], s)
  | op :: r =>
      let (a, s1) := py_perform op s in
      match a with
      | Oob => ([(op, a)], s1)
      | _ => let (t, s2) := py_run s1 r in ((op, a) :: t, s2)
      end
  end.
