(* Model of libfsapfs_support.c: the checks for a signature. *)
From Verif Require Import Base KeyBag Walk Omap Container.

(* A file IO handle: whether it is open, the file behind it (None: it cannot be opened), and
   whether closing it works. *)
Record handle := mk_handle { h_open : bool; h_file : option image; h_closes : bool }.
Definition set_open (h : handle) (o : bool) : handle := mk_handle o (h_file h) (h_closes h).
(* libbfio_handle_close: a handle that is not open is an error. *)
Definition handle_close (h : handle) : res unit * handle :=
  if h_open h && h_closes h then (Ok tt, set_open h false) else (Fail, h).
(* libbfio_handle_open *)
Definition handle_open (h : handle) : res unit * handle :=
  match h_file h with Some _ => (Ok tt, set_open h true) | None => (Fail, h) end.
(* libbfio_handle_read_buffer_at_offset of the first n bytes, and the check of read_count *)
Definition handle_read (h : handle) (n : Z) : res (list Z) :=
  match h_file h with
  | Some img => if h_open h then read_at img 0 n else Fail
  | None => Fail
  end.

(* libfsapfs_support.c 535-639 and, with the other signature, 644-748 *)
Definition check_signature (sig : list Z) (h : handle) : res bool * handle :=
  let was_open := h_open h in
  (* 631-637: on_error *)
  let give_up (h : handle) := (Fail, if was_open then h else snd (handle_close h)) in
  let (o, h1) := if was_open then (Ok tt, h) else handle_open h in
  match o with
  | Ok _ =>
      match handle_read h1 36 with
      | Ok d =>
          let (c, h2) := if was_open then (Ok tt, h1) else handle_close h1 in
          match c with
          | Ok _ => (let! s := rd d 32 4 in Ok (list_eqb s sig), h2)
          | _ => give_up h2
          end
      | Oob => (Oob, h1)
      | _ => give_up h1
      end
  | _ => give_up h1
  end.
Definition check_container_signature : handle -> res bool * handle := check_signature [78; 88; 83; 66].
Definition check_volume_signature : handle -> res bool * handle := check_signature [65; 80; 83; 66].
(* libfsapfs_support.c 111-211, 216-316: by name; the handle is made and freed *)
Definition check_container_file (f : option image) : res bool := fst (check_container_signature (mk_handle false f true)).
Definition check_volume_file (f : option image) : res bool := fst (check_volume_signature (mk_handle false f true)).
