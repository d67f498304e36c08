(* Model of a container object over its life: opened by name or through a file IO handle of the
   caller, asked, closed, and opened again (libfsapfs_container.c 51-1015 and 1885-2392). *)
From Verif Require Import Base KeyBag Walk Omap Container VolumeSuper Support.

(* libfsapfs_container.h: which handle file_io_handle refers to *)
Inductive source := Own | User (i : nat).

(* libfsapfs_container.h, libfsapfs_io_handle.h: the members of a container and of its I/O handle.
   k_freed: the handle the library made is freed though file_io_handle refers to it. The vector of
   blocks and the fusion middle tree have no content of their own here: a vector is there or not,
   and containers with the fusion feature do not open. *)
Record kept := mk_kept {
  k_io : option source; k_opened : bool; k_created : bool; k_freed : bool;
  k_size : Z; k_abort : bool;
  k_sb : option superblock; k_map : option (Z * list (Z * Z)); k_vector : bool; k_root : option Z;
  k_bag : option (option (list bag_entry)) }.
(* libfsapfs_container.c 57-150: initialize *)
Definition new_kept : kept := mk_kept None false false false 0 false None None false None None.

(* The container, the handles of the caller and the one the library made *)
Record world := mk_world { w_user : nat -> handle; w_own : handle; w_kept : kept }.
Definition handle_of (w : world) (s : source) : handle := match s with Own => w_own w | User i => w_user w i end.
Definition set_user (u : nat -> handle) (i : nat) (h : handle) : nat -> handle := fun j => if Nat.eqb j i then h else u j.
Definition set_handle (w : world) (s : source) (h : handle) : world :=
  match s with
  | Own => mk_world (w_user w) h (w_kept w)
  | User i => mk_world (set_user (w_user w) i h) (w_own w) (w_kept w)
  end.
Definition set_kept (w : world) (k : kept) : world := mk_world (w_user w) (w_own w) k.
(* libbfio_handle_read_buffer_at_offset: nothing is read from a handle that is not open *)
Definition bytes_of (h : handle) : image :=
  fun b => if h_open h then match h_file h with Some img => img b | None => None end else None.

(* libfsapfs_container.c 296-320 and 664-688; other bits are not looked at *)
Definition flags_ok (flags : Z) : bool := negb (Z.land flags 1 =? 0) && (Z.land flags 2 =? 0).

(* libfsapfs_container.c 1796-1880: on_error of open_read *)
Definition freed_members (k : kept) : kept :=
  mk_kept (k_io k) (k_opened k) (k_created k) (k_freed k) (k_size k) (k_abort k) None None false None None.
(* libfsapfs_container.c 1068-1133 *)
Definition occupied (k : kept) : bool :=
  match k_sb k with Some _ => true | None => false end || match k_map k with Some _ => true | None => false end ||
  k_vector k || match k_root k with Some _ => true | None => false end || match k_bag k with Some _ => true | None => false end.
Definition set_size (k : kept) (n : Z) : kept :=
  mk_kept (k_io k) (k_opened k) (k_created k) (k_freed k) n (k_abort k) (k_sb k) (k_map k) (k_vector k) (k_root k) (k_bag k).
Definition set_io (k : kept) (s : option source) (opened : bool) : kept :=
  mk_kept s opened (k_created k) false (k_size k) (k_abort k) (k_sb k) (k_map k) (k_vector k) (k_root k) (k_bag k).
Definition set_created (k : kept) (created freed : bool) : kept :=
  mk_kept (k_io k) (k_opened k) created freed (k_size k) (k_abort k) (k_sb k) (k_map k) (k_vector k) (k_root k) (k_bag k).
Definition set_abort (k : kept) (a : bool) : kept :=
  mk_kept (k_io k) (k_opened k) (k_created k) (k_freed k) (k_size k) a (k_sb k) (k_map k) (k_vector k) (k_root k) (k_bag k).

(* The calls of a user. A lock that is false is one that cannot be grabbed: the argument of
   OpenHandle and the first one of OpenName are the lock of line 739, the second one of OpenName is
   that of line 394, that of Close is line 826. Releasing a lock works; the locks of the calls that
   only ask are in C50. *)
Inductive call :=
  | OpenName (f : option image) (flags : Z) (lock1 lock2 : bool)
  | OpenHandle (i : nat) (flags : Z) (lock : bool)
  | Close (lock : bool)
  | Abort
  | GetSize | GetId | IsLocked | Count
  | Volume (i : Z)
  | UserOpen (i : nat) | UserClose (i : nat).
Inductive answer := Done | Size (n : Z) | Id (l : list Z) | Locked (b : bool) | Number (n : Z) | Opened (v : open_volume).

Section Machine.
  (* AES-128-XTS of the key bag of a container and of that of a volume, see Container.v and
     VolumeSuper.v *)
  Variable xts : list Z -> list Z -> list Z -> list Z.

  (* libfsapfs_container.c 1020-1880. The members are set one after the other; whatever is set
     when an error occurs is freed, the size of the container stays. *)
  Definition open_read (img : image) (k : kept) : res unit * kept :=
    if occupied k then (Fail, k)
    else
      let k := match superblock_at img 0 with Ok s => set_size k (w64 (sb_blocks s * 4096)) | _ => k end in
      match open xts img with
      | Ok c => (Ok tt, mk_kept (k_io k) (k_opened k) (k_created k) (k_freed k) (c_size c) (k_abort k)
                          (Some (c_sb c)) (Some (c_map_block c, c_map c)) true (Some (c_root c)) (c_bag c))
      | Fail => (Fail, freed_members k)
      | Oob => (Oob, freed_members k)
      | Fuel => (Fuel, freed_members k)
      end.

  (* libfsapfs_container.c 613-783 *)
  Definition open_handle (w : world) (s : source) (flags : Z) (lock : bool) : res answer * world :=
    match k_io (w_kept w) with
    | Some _ => (Fail, w)
    | None =>
        if negb (flags_ok flags) then (Fail, w)
        else
          let h := handle_of w s in
          let opened := negb (h_open h) in
          let (o, h1) := if h_open h then (Ok tt, h) else handle_open h in
          match o with
          | Ok _ =>
              let (r, k) := open_read (bytes_of h1) (w_kept w) in
              (* 773-782: on_error *)
              let back := set_kept (set_handle w s (if opened then snd (handle_close h1) else h1)) k in
              match r with
              | Ok _ => if lock then (Ok Done, set_kept (set_handle w s h1) (set_io k (Some s) opened)) else (Fail, back)
              | Fail => (Fail, back)
              | Oob => (Oob, back)
              | Fuel => (Fuel, back)
              end
          | _ => (Fail, w)
          end
    end.

  (* libfsapfs_container.c 270-437, and 442-608 with a wide name: f is the file with the name, if
     there is one that can be opened. On errors the new handle is freed. *)
  Definition open_name (w : world) (f : option image) (flags : Z) (lock1 lock2 : bool) : res answer * world :=
    if negb (flags_ok flags) then (Fail, w)
    else
      let (r, w1) := open_handle (set_handle w Own (mk_handle false f true)) Own flags lock1 in
      match r with
      | Ok a =>
          if lock2 then (Ok a, set_kept w1 (set_created (w_kept w1) true false))
          else (Fail, set_kept w1 (set_created (w_kept w1) (k_created (w_kept w1)) true))
      | _ => (r, set_handle w1 Own (w_own w))
      end.

  (* libfsapfs_container.c 788-1015, libfsapfs_io_handle.c 135-172 *)
  Definition close (w : world) (lock : bool) : res answer * world :=
    let k := w_kept w in
    match k_io k with
    | None => (Fail, w)
    | Some s =>
        if negb lock then (Fail, w)
        else if match s with Own => k_freed k | User _ => false end && k_opened k then (Oob, w)
        else
          let (r, h) := if k_opened k then handle_close (handle_of w s) else (Ok tt, handle_of w s) in
          (match r with Ok _ => Ok Done | _ => Fail end,
           set_kept (set_handle w s h) (freed_members (mk_kept None false false (k_freed k) 0 false (k_sb k) (k_map k) (k_vector k) (k_root k) (k_bag k))))
    end.

  (* libfsapfs_container.c 2195-2392, with the volume opened at its block: get_volume_by_index *)
  Definition get_volume (w : world) (i : Z) : res answer :=
    let k := w_kept w in
    match k_sb k with
    | None => Fail
    | Some sb =>
        let! _ := check ((0 <=? i) && (i <? sb_count sb)) in
        match k_root k, k_io k with
        | Some root, Some s =>
            if match s with Own => k_freed k | User _ => false end then Oob
            else
              let img := bytes_of (handle_of w s) in
              let c := {| c_size := k_size k; c_sb := sb; c_map_block := 0; c_map := []; c_root := root; c_bag := k_bag k |} in
              let! d := volume_by_index img c i in
              let! v := volume_open xts img (k_size k) (k_bag k) (od_address d) in
              Ok (Opened v)
        (* 2279-2292: a missing tree or handle is an error *)
        | _, _ => Fail
        end
    end.

  Definition step (w : world) (c : call) : res answer * world :=
    let k := w_kept w in
    match c with
    | OpenName f flags l1 l2 => open_name w f flags l1 l2
    | OpenHandle i flags l => open_handle w (User i) flags l
    | Close l => close w l
    (* 230-268: signal_abort *)
    | Abort => (Ok Done, set_kept w (set_abort k true))
    (* 1885-1968: get_size *)
    | GetSize => (match k_sb k with Some _ => Ok (Size (k_size k)) | None => Fail end, w)
    (* 1974-2046: get_identifier; the function of the superblock refuses a missing one *)
    | GetId => (match k_sb k with Some s => Ok (Id (sb_id s)) | None => Fail end, w)
    (* 2052-2108: is_locked, no error for a container that is not open *)
    | IsLocked => (Ok (Locked (match k_bag k with Some None => true | _ => false end)), w)
    (* 2113-2189: get_number_of_volumes *)
    | Count => (match k_sb k with Some s => Ok (Number (sb_count s)) | None => Fail end, w)
    | Volume i => (get_volume w i, w)
    (* libbfio_handle_open and libbfio_handle_close by the caller *)
    | UserOpen i => let (r, h) := handle_open (w_user w i) in (match r with Ok _ => Ok Done | _ => Fail end, set_handle w (User i) h)
    | UserClose i => let (r, h) := handle_close (w_user w i) in (match r with Ok _ => Ok Done | _ => Fail end, set_handle w (User i) h)
    end.
  Fixpoint run (w : world) (cs : list call) : list (res answer) * world :=
    match cs with
    | [] => ([], w)
    | c :: cs => let (a, w1) := step w c in let (l, w2) := run w1 cs in (a :: l, w2)
    end.
End Machine.
