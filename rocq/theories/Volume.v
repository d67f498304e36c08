(* Model of setting passwords and unlocking: libfsapfs_volume.c. *)
From Verif Require Import Base Crypt KeyBag.

(* libfsapfs_volume.c 2023-2024: narrow_string_length of the memory at the string *)
Fixpoint strlen (mem : list Z) : res Z :=
  match mem with
  | [] => Oob
  | c :: mem => if c =? 0 then Ok 0 else let! n := strlen mem in Ok (n + 1)
  end.

(* libfsapfs_volume.c 1953-2116: set_utf8_password (2294-2457 for the recovery password). [mem]
   is the readable memory at the string, [n] its length as given by the caller, [fresh] the
   content of the allocated buffer. Gives the password: the buffer without its last byte, as
   used by unlock (1158, 1160). *)
Definition set_utf8 (mem : list Z) (n : Z) (fresh : list Z) : res (list Z) :=
  let! l := strlen mem in
  let! _ := check (negb (l =? 0) && (l <=? 128 * 1024 * 1024 - 1)) in
  let size := l + 1 in
  let! s := rd mem 0 n in
  let! buf := wr (slice fresh 0 size) 0 s in
  let! buf := wr buf (size - 1) [0] in
  Ok (slice buf 0 (size - 1)).

(* libfsapfs_volume.c 2122-2288: set_utf16_password. libuna converts to UTF-8 and counts an
   end-of-string character that is added when the string has none (line 2181); one more byte
   is added at line 2208. [utf8] is the conversion of the string without end-of-string
   character. *)
Definition set_utf16 (utf8 : list Z) (fresh : list Z) : res (list Z) :=
  let size := len utf8 + 1 in
  let! _ := check (negb (size =? 0) && (size <=? 128 * 1024 * 1024 - 1)) in
  let size := size + 1 in
  let! buf := wr (slice fresh 0 size) 0 (utf8 ++ [0]) in
  let! buf := wr buf (size - 1) [0] in
  Ok (slice buf 0 (size - 1)).

(* The parts of the volume that unlock uses: its key bag if there is one, the entries of the
   container key bag and the volume identifier; they do not change while it is open. *)
Record bags := { b_volume : option (list bag_entry); b_container : list bag_entry; b_id : list Z }.
Record volume := { v_locked : bool; v_user : option (list Z); v_recovery : option (list Z); v_keys : option (list Z * list Z) }.

(* libfsapfs_volume.c 552-642: the state after opening; the container key bag is given as
   whether it is locked (the key bag object was not readable) and its entries *)
Definition opened (container_locked : bool) (b : bags) : volume :=
  {| v_locked := match b_volume b with Some _ => true | None => container_locked end;
     v_user := None; v_recovery := None; v_keys := None |}.

Section Unlock.
  Variable aes : list Z -> list Z -> list Z.
  Variable sha : list Z -> list Z.
  Variable hmac : list Z -> list Z -> list Z.

  (* libfsapfs_volume.c 1117-1317: volume_unlock with internal_volume_unlock: return value and
     new state. [j1], [j2] are the contents of the buffers on the stack. An error does not
     change the state. *)
  Definition unlock (b : bags) (v : volume) (j1 j2 : list Z) : res (Z * volume) :=
    if negb (v_locked v) then Ok (1, v) else
    match b_volume b with
    | None => Ok (1, {| v_locked := false; v_user := v_user v; v_recovery := v_recovery v; v_keys := v_keys v |})
    | Some l =>
      match get_volume_key aes hmac l (v_user v) (v_recovery v) j1 with
      | Ok None => Ok (0, v)
      | Ok (Some key) =>
        match get_master_key aes sha (b_container b) (b_id b) key j2 with
        | Ok (Some m) =>
          let! k1 := rd m 0 16 in
          let! k2 := rd m 16 16 in
          Ok (1, {| v_locked := false; v_user := v_user v; v_recovery := v_recovery v; v_keys := Some (k1, k2) |})
        | Ok None | Fail => Ok (-1, v)
        | Oob => Oob
        | Fuel => Fuel
        end
      | Fail => Ok (-1, v)
      | Oob => Oob
      | Fuel => Fuel
      end
    end.

  (* Calls on a volume. A failed call of one of the set functions leaves no password
     (libfsapfs_volume.c 2096-2108). *)
  Inductive call :=
  | SetUser (p : option (list Z))
  | SetRecovery (p : option (list Z))
  | Unlock (j1 j2 : list Z).
  Definition step (b : bags) (v : volume) (c : call) : res (Z * volume) :=
    match c with
    | SetUser p => Ok (match p with Some _ => 1 | None => -1 end,
        {| v_locked := v_locked v; v_user := p; v_recovery := v_recovery v; v_keys := v_keys v |})
    | SetRecovery p => Ok (match p with Some _ => 1 | None => -1 end,
        {| v_locked := v_locked v; v_user := v_user v; v_recovery := p; v_keys := v_keys v |})
    | Unlock j1 j2 => unlock b v j1 j2
    end.
  Fixpoint run (b : bags) (v : volume) (cs : list call) : res (list Z * volume) :=
    match cs with
    | [] => Ok ([], v)
    | c :: cs => let! (r, v) := step b v c in let! (rs, v) := run b v cs in Ok (r :: rs, v)
    end.
End Unlock.
