(* The references of the methods of pyfsapfs that make their results: read, read_buffer_at_offset,
   extents, names.
   pyfsapfs/pyfsapfs_file_entry.c 1691-1807 (name; symbolic link target: 1812-1928), 2628-2847,
   2852-3053, 3285-3386; pyfsapfs/pyfsapfs_extended_attribute.c 461-577, 582-802, 807-1006, 1240-1341;
   pyfsapfs/pyfsapfs_volume.c 595-710: these are the same but for the function of the library that
   they call. As in PyRefs.v; the results of the library and the sizes are parameters. *)
From Coq Require Import ZArith List Bool.
From Verif Require Import PyRefs.
Import ListNotations.
Local Open Scope Z_scope.

Section Make.
  (* null: stands for the pointer NULL where it is followed; no object is there. fo: the file
     object that the container is read through, if any; l, l1, l2: what the library reads. *)
  Variables (W : Type) (i : interp W) (null : nat) (fo : option nat).
  Notation H := (H W).
  Notation hret := (hret W).
  Notation new := (new W i).
  Notation num := (num W i).
  Notation decref := (decref W).
  Notation err_format := (err_format W i).
  Notation library := (library W i fo).
  Notation "'do' x <- f ; k" := (hbind W f (fun x => k)) (at level 200, x name, f at level 100, k at level 200).
  Notation "'also' f ; k" := (hbind W f (fun _ => k)) (at level 200, f at level 100, k at level 200).

  (* PyBytes_AsString looks at the type of the object first: NULL is followed *)
  Definition as_string (o : option nat) : H unit :=
    match o with
    | Some x => emit W (Uses [x])
    | None => emit W (Uses [null])
    end.
  (* _PyBytes_Resize: when it fails the object is given back and the pointer is NULL *)
  Definition resize (o : option nat) : H (bool * option nat) :=
    match o with
    | None => also emit W (Uses [null]); hret (false, None)
    | Some x =>
      do r <- num (QResize x);
      if r =? 0 then hret (true, o) else also decref o; hret (false, None)
    end.
  (* pyfsapfs_file_entry.c 2754-2846, 2948-3050; count: what the library returns *)
  Definition read_size (size : Z) (l : list iocall) (count : Z) : H (option nat) :=
    if size =? 0 then new (QMake 0)
    else if size <? 0 then also err_format; hret None
    else if 2 ^ 31 - 1 <? size then also err_format; hret None
    else
      do s <- new (QMake size);
      also as_string s;
      also library l;
      if count =? -1 then also err_format; also decref s; hret None
      else do a <- resize s;
           if fst a then hret (snd a) else also decref (snd a); hret None.
  (* pyfsapfs_file_entry.c 2920-2947, and 2700-2718 *)
  Definition size_argument (x : nat) : H bool :=
    do ok <- copy_to_64bit W i false x;
    if ok then hret true else also err_format; hret false.
  (* pyfsapfs_file_entry.c 2660-2846: the argument, and whether it is None; sized: the library has a
     size *)
  Definition read (arg : option (nat * bool)) (sized : bool) (size : Z) (l1 l2 : list iocall) (count : Z) : H (option nat) :=
    do r <- match arg with None => hret 0 | Some (x, _) => num (QIsLong x) end;
    if r =? -1 then also error_fetch_and_raise W i; hret None
    else
      do go <- (match arg with
        | Some (x, is_none) =>
          if negb (r =? 0) then size_argument x
          else if is_none then also library l1; (if sized then hret true else also err_format; hret false)
          else also err_format; hret false
        | None => also library l1; (if sized then hret true else also err_format; hret false)
        end);
      if go then read_size size l2 count else hret None.
  (* pyfsapfs_file_entry.c 2887-3050; positive: the offset is not negative (2959-2976) *)
  Definition read_at (x : nat) (size : Z) (positive : bool) (l : list iocall) (count : Z) : H (option nat) :=
    do r <- num (QIsLong x);
    if r =? -1 then also error_fetch_and_raise W i; hret None
    else if r =? 0 then also err_format; hret None
    else
      do go <- size_argument x;
      if go
      then if (0 <? size) && negb positive then also err_format; hret None else read_size size l count
      else hret None.

  (* PyTuple_SetItem looks at the type of the tuple first: NULL is followed. The reference to the
     item is the tuple's from now on, or is given back when it fails. *)
  Definition set_item (t item : option nat) : H bool :=
    match t with
    | None => also emit W (Uses [null]); hret false
    | Some _ =>
      do r <- num (QSet t);
      also decref item;
      hret (r =? 0)
    end.
  (* pyfsapfs_file_entry.c 3307-3385, pyfsapfs_extended_attribute.c 1262-1340 *)
  Definition extent (l : list iocall) (works : bool) (off size flags : Z) : H (option nat) :=
    also library l;
    if negb works then also err_format; hret None
    else
      do t <- new (QTuple 3);
      do a <- new (QNumber off);
      do ok <- set_item t a;
      if negb ok then also decref a; also decref t; hret None
      else do a <- new (QNumber size);
           do ok <- set_item t a;
           if negb ok then also decref a; also decref t; hret None
           else do a <- new (QNumber flags);
                do ok <- set_item t a;
                if negb ok then also decref a; also decref t; hret None
                else hret t.

  (* pyfsapfs_file_entry.c 1706-1806: the size of the name, then the name *)
  Definition name (none : nat) (l1 l2 : list iocall) (r1 size r2 : Z) : H (option nat) :=
    also library l1;
    if r1 =? -1 then also err_format; hret None
    else if (r1 =? 0) || (size =? 0) then also incref W none; hret (Some none)
    else
      also library l2;
      if negb (r2 =? 1) then also err_format; hret None
      else do s <- new QDecode;
           match s with
           | None => also err_format; hret None
           | Some x => hret (Some x)
           end.
End Make.
