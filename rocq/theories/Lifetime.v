(* Which memory the objects of the library point at, and which call gives it back:
   libfsapfs_container.c, libfsapfs_volume.c, libfsapfs_file_entry.c,
   libfsapfs_extended_attribute.c and libfsapfs_snapshot.c, and the reference counts of
   the Python objects around them: pyfsapfs_container.c, pyfsapfs_volume.c,
   pyfsapfs_file_entry.c, pyfsapfs_extended_attribute.c and the sequences.

   Memory is a set of blocks. A block is named after the object it was allocated for and
   the part of it, so that an allocation never gives a block that was given before: the
   C library may hand out the same address again, which only hides a use after free.
   What the blocks contain is not modelled, except for the pointers between them. *)
From Coq Require Import Bool List Arith.
From Verif Require Import Base Walk FileEntry.
Import ListNotations.

(* The parts of an object that are allocated on their own. *)
Inductive part :=
| Self                  (* the structure itself *)
| Io                    (* container.c 112: the io_handle *)
| Handle (k : nat)      (* container.c 330: the file IO handle of the k-th opening *)
| Meta (k : nat)        (* superblock, checkpoint map, vector and object map of the k-th opening *)
| Bag (k : nat)         (* container key bag of the k-th opening *)
| Own                   (* what the object reads on creation and frees with itself *)
| Fs                    (* volume.c 2914: file system and its B-tree, on first use *)
| Vals                  (* file entry: the attribute values, on first use *)
| Super.                (* snapshot.c 266: the volume superblock of a snapshot *)

(* The n-th object and one of its parts. *)
Definition block : Type := nat * part.

Definition part_eqb (p q : part) : bool :=
  match p, q with
  | Self, Self | Io, Io | Own, Own | Fs, Fs | Vals, Vals | Super, Super => true
  | Handle j, Handle k | Meta j, Meta k | Bag j, Bag k => Nat.eqb j k
  | _, _ => false
  end.
Definition block_eqb (a b : block) : bool := Nat.eqb (fst a) (fst b) && part_eqb (snd a) (snd b).

(* An opened container: the file IO handle, and whether the library made it
   (file_io_handle_created_in_library). *)
Record opening := mk_opening { op_handle : block; op_mine : bool }.

(* The pointers of a structure.
   BFile: a libbfio handle of the caller.
   BContainer: libfsapfs_internal_container; k counts the openings.
   BVolume: volume.c 143-145, the three pointers taken from the container.
   BEntry: file_entry.c 121-124, the pointers taken from the volume.
   BAttr: extended_attribute.c 124-128, those of the file entry and its values.
   BSnapshot: snapshot.c 135-137; only the metadata is used after the snapshot was opened. *)
Inductive body :=
| BFile
| BContainer (o : option opening) (k : nat)
| BVolume (io handle bag : block) (fs : bool)
| BEntry (io handle own fs : block) (vals : bool)
| BAttr (io handle own fs vals : block)
| BSnapshot (meta : block).

(* The objects made so far with the pointer the caller holds (false: the pointer was set
   to NULL by the call that freed the object), and the blocks that are allocated. *)
Record state := mk_state { objects : list (bool * body); live : block -> bool }.
Definition start : state := mk_state [] (fun _ => false).

Definition L (A : Type) : Type := M state A.

Definition upd (f : block -> bool) (b : block) (v : bool) : block -> bool :=
  fun x => if block_eqb x b then v else f x.

Definition alloc (b : block) : L unit := fun s => (Ok tt, mk_state (objects s) (upd (live s) b true)).
(* Memory that was given back is touched: reported as out of bounds. *)
Definition touch (b : block) : L unit := fun s => (if live s b then Ok tt else Oob, s).
Definition release (b : block) : L unit :=
  bindM (touch b) (fun _ s => (Ok tt, mk_state (objects s) (upd (live s) b false))).
Definition ret {A} (a : A) : L A := retM (Ok a).
Definition fail {A} : L A := retM Fail.

Fixpoint touch_all (l : list block) : L unit :=
  match l with
  | [] => ret tt
  | b :: r => bindM (touch b) (fun _ => touch_all r)
  end.

Fixpoint set_nth {A} (n : nat) (x : A) (l : list A) : list A :=
  match l, n with
  | [], _ => []
  | _ :: r, O => x :: r
  | a :: r, S m => a :: set_nth m x r
  end.

(* The structure behind the pointer of the caller; a NULL pointer is an error of the call. *)
Definition load (n : nat) : L body := fun s =>
  match nth_error (objects s) n with
  | Some (true, b) => bindM (touch (n, Self)) (fun _ => ret b) s
  | _ => (Fail, s)
  end.
Definition store (n : nat) (b : body) : L unit :=
  fun s => (Ok tt, mk_state (set_nth n (true, b) (objects s)) (live s)).
(* The pointer of the caller is set to NULL. *)
Definition forget (n : nat) (b : body) : L unit :=
  fun s => (Ok tt, mk_state (set_nth n (false, b) (objects s)) (live s)).
(* A new structure: its number. *)
Definition create (b : nat -> body) : L nat := fun s =>
  let n := length (objects s) in
  (Ok n, mk_state (objects s ++ [(true, b n)]) (upd (live s) (n, Self) true)).
(* Whether the pointer of the caller is NULL: the free functions accept that. *)
Definition held (n : nat) : L bool := fun s =>
  (match nth_error (objects s) n with Some (h, _) => Ok h | None => Fail end, s).

Definition handle_of (c : nat) (o : opening) (k : nat) : list block := [op_handle o; (c, Meta k); (c, Bag k)].

(* libbfio_handle_initialize and libbfio_handle_free of the caller *)
Definition file_initialize : L nat := create (fun _ => BFile).
Definition file_free (n : nat) : L unit :=
  bindM (load n) (fun b => match b with
  | BFile => bindM (release (n, Self)) (fun _ => forget n b)
  | _ => fail end).

(* libfsapfs_container.c 52-148: libfsapfs_container_initialize *)
Definition container_initialize : L nat :=
  bindM (create (fun _ => BContainer None O)) (fun n =>
  bindM (alloc (n, Io)) (fun _ => ret n)).

(* libfsapfs_container.c 723-754: the metadata is read and the handle is kept *)
Definition container_read (c : nat) (k : nat) (o : opening) (ok : bool) : L unit :=
  bindM (touch_all [(c, Io); op_handle o]) (fun _ =>
  if ok
  then bindM (alloc (c, Meta k)) (fun _ => bindM (alloc (c, Bag k)) (fun _ =>
       store c (BContainer (Some o) k)))
  else fail).

(* libfsapfs_container.c 272-437 and 444-609: libfsapfs_container_open makes a handle and
   gives it back if the container cannot be opened *)
Definition container_open (c : nat) (ok : bool) : L unit :=
  bindM (load c) (fun b => match b with
  | BContainer o k =>
      let f := (c, Handle (S k)) in
      bindM (alloc f) (fun _ =>
      match o with
      | None => if ok then container_read c (S k) (mk_opening f true) true
                else bindM (touch_all [(c, Io); f]) (fun _ => bindM (release f) (fun _ => fail))
      | Some _ => bindM (release f) (fun _ => fail)
      end)
  | _ => fail end).

(* libfsapfs_container.c 616-784: libfsapfs_container_open_file_io_handle *)
Definition container_open_file (c f : nat) (ok : bool) : L unit :=
  bindM (load c) (fun b => match b with
  | BContainer None k =>
      bindM (load f) (fun e => match e with
      | BFile => container_read c (S k) (mk_opening (f, Self) false) ok
      | _ => fail end)
  | _ => fail end).

(* libfsapfs_container.c 789-1015: libfsapfs_container_close *)
Definition container_close (c : nat) : L unit :=
  bindM (load c) (fun b => match b with
  | BContainer (Some o) k =>
      bindM (touch (op_handle o)) (fun _ =>
      bindM (if op_mine o then release (op_handle o) else ret tt) (fun _ =>
      bindM (touch (c, Io)) (fun _ =>
      bindM (release (c, Meta k)) (fun _ =>
      bindM (release (c, Bag k)) (fun _ =>
      store c (BContainer None k))))))
  | _ => fail end).

(* libfsapfs_container.c 153-228: libfsapfs_container_free closes an opened container *)
Definition container_free (c : nat) : L unit :=
  bindM (load c) (fun b => match b with
  | BContainer o k =>
      bindM (match o with Some _ => container_close c | None => ret tt end) (fun _ =>
      bindM (release (c, Io)) (fun _ =>
      bindM (release (c, Self)) (fun _ =>
      forget c (BContainer None k))))
  | _ => fail end).

(* libfsapfs_container.c 2195-2393: libfsapfs_container_get_volume_by_index; the volume
   gets the io_handle, the file IO handle and the key bag of the container, without
   a copy *)
Definition get_volume (c : nat) (ok : bool) : L nat :=
  bindM (load c) (fun b => match b with
  | BContainer (Some o) k =>
      bindM (touch_all ((c, Io) :: handle_of c o k)) (fun _ =>
      if ok
      then bindM (create (fun _ => BVolume (c, Io) (op_handle o) (c, Bag k) false)) (fun n =>
           bindM (alloc (n, Own)) (fun _ => ret n))
      else fail)
  | _ => fail end).

(* libfsapfs_volume.c 179-238, 896-1112: libfsapfs_volume_free; the pointers taken from
   the container are not followed *)
Definition volume_free (v : nat) : L unit :=
  bindM (load v) (fun b => match b with
  | BVolume io f g fs =>
      bindM (release (v, Own)) (fun _ =>
      bindM (if fs then release (v, Fs) else ret tt) (fun _ =>
      bindM (release (v, Self)) (fun _ =>
      forget v b)))
  | _ => fail end).

(* How far a call comes: Early ends before what is built on first use, Late after it. *)
Inductive outcome := Early | Late | Done.

(* libfsapfs_volume.c 2671-2686 and its copies: the file system is made on first use *)
Definition volume_grow (v : nat) (b : body) : L unit :=
  match b with
  | BVolume io f g fs =>
      if fs then touch (v, Fs)
      else bindM (alloc (v, Fs)) (fun _ => store v (BVolume io f g true))
  | _ => fail
  end.

(* libfsapfs_volume.c 2623-2725, 2970-3074, 3079-3338: a file entry of the volume, by
   identifier or by path; libfsapfs_file_system.c gives it the pointers of the volume *)
Definition get_entry (v : nat) (o : outcome) : L nat :=
  bindM (load v) (fun b => match b with
  | BVolume io f g fs =>
      bindM (touch_all [io; f; g; (v, Own)]) (fun _ =>
      match o with
      | Early => fail
      | _ => bindM (volume_grow v b) (fun _ =>
          match o with
          | Done => bindM (create (fun _ => BEntry io f (v, Own) (v, Fs) false)) (fun n =>
                    bindM (alloc (n, Own)) (fun _ => ret n))
          | _ => fail
          end)
      end)
  | _ => fail end).

(* file_entry.c: a call on a file entry may follow every pointer it has, and builds
   the attribute values on first use (grow) *)
Definition entry_use (e : nat) (b : body) (grow : bool) : L unit :=
  match b with
  | BEntry io f own fs vals =>
      bindM (touch_all [io; f; own; fs; (e, Own)]) (fun _ =>
      if vals then touch (e, Vals)
      else if grow
           then bindM (alloc (e, Vals)) (fun _ => store e (BEntry io f own fs true))
           else ret tt)
  | _ => fail
  end.

(* file_entry.c 477-639, 3643-4184: a sub file entry or the parent; it gets
   the pointers of the entry and a copy of the directory record *)
Definition get_sub (e : nat) (ok : bool) : L nat :=
  bindM (load e) (fun b => match b with
  | BEntry io f own fs vals =>
      bindM (entry_use e b false) (fun _ =>
      if ok
      then bindM (create (fun _ => BEntry io f own fs false)) (fun n =>
           bindM (alloc (n, Own)) (fun _ => ret n))
      else fail)
  | _ => fail end).

(* file_entry.c 161-326: libfsapfs_file_entry_free *)
Definition entry_free (e : nat) : L unit :=
  bindM (load e) (fun b => match b with
  | BEntry io f own fs vals =>
      bindM (release (e, Own)) (fun _ =>
      bindM (if vals then release (e, Vals) else ret tt) (fun _ =>
      bindM (release (e, Self)) (fun _ =>
      forget e b)))
  | _ => fail end).

(* file_entry.c 2708-2842, 3213-3454: an extended attribute; it points at the values the entry has *)
Definition get_attr (e : nat) (o : outcome) : L nat :=
  bindM (load e) (fun b => match b with
  | BEntry io f own fs vals =>
      match o with
      | Early => bindM (entry_use e b false) (fun _ => fail)
      | _ => bindM (entry_use e b true) (fun _ =>
          match o with
          | Done => bindM (create (fun _ => BAttr io f own fs (e, Vals))) (fun n =>
                    bindM (alloc (n, Own)) (fun _ => ret n))
          | _ => fail
          end)
      end
  | _ => fail end).

(* extended_attribute.c 140-221: the attribute values are not freed, nor looked at *)
Definition attr_free (a : nat) : L unit :=
  bindM (load a) (fun b => match b with
  | BAttr _ _ _ _ _ =>
      bindM (release (a, Own)) (fun _ =>
      bindM (release (a, Self)) (fun _ =>
      forget a b))
  | _ => fail end).

(* libfsapfs_volume.c 3416-3569: a snapshot; its superblock is read at once (snapshot.c
   218-301). Simplified: as with the other calls, one that fails leaves nothing behind;
   if reading the superblock fails it is in fact left behind, see snapshot_free. *)
Definition get_snapshot (v : nat) (ok : bool) : L nat :=
  bindM (load v) (fun b => match b with
  | BVolume io f g fs =>
      bindM (touch_all [io; f; (v, Own)]) (fun _ =>
      if ok
      then bindM (create (fun _ => BSnapshot (v, Own))) (fun n =>
           bindM (alloc (n, Super)) (fun _ => ret n))
      else fail)
  | _ => fail end).

(* libfsapfs_snapshot.c 170-213: libfsapfs_snapshot_free does not free the superblock *)
Definition snapshot_free (p : nat) : L unit :=
  bindM (load p) (fun b => match b with
  | BSnapshot _ => bindM (release (p, Self)) (fun _ => forget p b)
  | _ => fail end).

(* Any other call on an object: it may follow every pointer the object has. *)
Definition use (x : nat) (grow : bool) : L unit :=
  bindM (load x) (fun b => match b with
  | BFile => ret tt
  | BContainer None _ => touch (x, Io)
  | BContainer (Some o) k => touch_all ((x, Io) :: handle_of x o k)
  | BVolume io f g fs =>
      bindM (touch_all [io; f; g; (x, Own)]) (fun _ =>
      if fs then touch (x, Fs) else if grow then volume_grow x b else ret tt)
  | BEntry _ _ _ _ _ => entry_use x b grow
  | BAttr io f own fs vals => touch_all [io; f; own; fs; vals; (x, Own)]
  | BSnapshot m => touch_all [m; (x, Super)]
  end).

Inductive call :=
| NewFile | FreeFile (f : nat)
| NewContainer | OpenName (c : nat) (ok : bool) | OpenFile (c f : nat) (ok : bool)
| Close (c : nat) | FreeContainer (c : nat)
| GetVolume (c : nat) (ok : bool) | FreeVolume (v : nat)
| GetEntry (v : nat) (o : outcome) | GetSub (e : nat) (ok : bool) | FreeEntry (e : nat)
| GetAttr (e : nat) (o : outcome) | FreeAttr (a : nat)
| GetSnapshot (v : nat) (ok : bool) | FreeSnapshot (p : nat)
| Use (x : nat) (grow : bool).

Definition none (m : L unit) : L (option nat) := bindM m (fun _ => ret None).
Definition some (m : L nat) : L (option nat) := bindM m (fun n => ret (Some n)).
(* The free functions do nothing if the pointer is NULL. *)
Definition freeing (n : nat) (m : L unit) : L (option nat) :=
  bindM (held n) (fun h => if h then none m else ret None).

(* One call: the number of the object it made, if it made one. *)
Definition perform (c : call) : L (option nat) :=
  match c with
  | NewFile => some file_initialize
  | FreeFile f => freeing f (file_free f)
  | NewContainer => some container_initialize
  | OpenName c ok => none (container_open c ok)
  | OpenFile c f ok => none (container_open_file c f ok)
  | Close c => none (container_close c)
  | FreeContainer c => freeing c (container_free c)
  | GetVolume c ok => some (get_volume c ok)
  | FreeVolume v => freeing v (volume_free v)
  | GetEntry v o => some (get_entry v o)
  | GetSub e ok => some (get_sub e ok)
  | FreeEntry e => freeing e (entry_free e)
  | GetAttr e o => some (get_attr e o)
  | FreeAttr a => freeing a (attr_free a)
  | GetSnapshot v ok => some (get_snapshot v ok)
  | FreeSnapshot p => freeing p (snapshot_free p)
  | Use x g => none (use x g)
  end.

(* A program and what its calls answer; it ends where memory is touched that was freed. *)
Fixpoint run (s : state) (cs : list call) : list (call * res (option nat)) * state :=
  match cs with
  | [] => ([], s)
  | c :: r =>
      let (a, s1) := perform c s in
      match a with
      | Oob => ([(c, a)], s1)
      | _ => let (t, s2) := run s1 r in ((c, a) :: t, s2)
      end
  end.
