(* Model of what fsapfsmount and fsapfsinfo do with passwords: fsapfstools/fsapfsmount.c 241-288 and
   333-422, fsapfstools/mount_handle.c 431-510, 650-736, 890-1044, fsapfstools/fsapfsinfo.c 272-280 and
   364-391, fsapfstools/info_handle.c 569-747, 916-1069, 4346-4373. The strings are those of builds
   without HAVE_WIDE_SYSTEM_CHARACTER. The volumes that the container has are given: of each if it
   is locked because the container key bag is, and its key bags (C48, C62). Mounting itself (FUSE) and
   what is printed are not here. *)
From Verif Require Import Base Crypt KeyBag Volume ToolOpt ToolMain.

Definition opt_p : Z := 112.
Definition opt_r : Z := 114.
(* fsapfsmount.c 261-269, fsapfsinfo.c 272-280: the variable of an option after the loop *)
Definition option_variable (c : Z) (l : list (Z * option (list Z))) : option (list Z) :=
  fold_left (fun v o => if fst o =? c then snd o else v) l None.

Section Tools.
  Variable aes : list Z -> list Z -> list Z.
  Variable sha : list Z -> list Z.
  Variable hmac : list Z -> list Z -> list Z.
  (* the content of memory that was allocated with a size *)
  Variable mem : Z -> list Z.
  (* the contents of the arrays of volume_unlock *)
  Variables j1 j2 : list Z.

  (* mount_handle.c 461-465 with 949-974 (503-507 with 975-1000): the handle keeps the string, the
     volume gets a copy; no string: no call *)
  Definition set_password (s : option (list Z)) : res (option (list Z)) :=
    match s with
    | None => Ok None
    | Some s => let! p := set_utf8 (s ++ [0]) (len s) (mem (len s + 1)) in Ok (Some p)
    end.
  (* info_handle.c 610-641 (702-733) with 974-999 (1000-1025): the handle has a copy of the string with its end *)
  Definition info_set_password (s : option (list Z)) : res (option (list Z)) :=
    match s with
    | None => Ok None
    | Some s =>
      let size := len s + 1 in
      let! copy := wr (mem size) 0 (slice (s ++ [0]) 0 size) in
      let! p := set_utf8 copy (size - 1) (mem size) in Ok (Some p)
    end.

  (* mount_handle.c 933-1034: get_volume_by_index; the return value of unlock is compared with -1
     only *)
  Definition mount_volume (x : bool * bags) (user recovery : option (list Z)) : res volume :=
    let (cl, b) := x in
    let v := opened cl b in
    let! u := set_password user in
    let! r := set_password recovery in
    let v := {| v_locked := v_locked v; v_user := u; v_recovery := r; v_keys := v_keys v |} in
    if v_locked v then
      let! (n, v) := unlock aes sha hmac b v j1 j2 in
      let! _ := check (negb (n =? -1)) in
      Ok v
    else Ok v.
  (* fsapfsmount.c 333-422 with mount_handle.c 667-736: the index of the volume and the volume that is
     mounted; Fail: EXIT_FAILURE *)
  Definition mount_main (vs : list (bool * bags)) (l : list (Z * option (list Z))) : res (Z * volume) :=
    let! i := mount_run (len vs) l in
    match nth_error vs (Z.to_nat i) with
    | None => Fail
    | Some x =>
      let! v := mount_volume x (option_variable opt_p l) (option_variable opt_r l) in
      let! _ := check (negb (v_locked v)) in
      Ok (i, v)
    end.

  (* info_handle.c 958-1060: get_volume_by_index. container_is_locked is set where the container is
     shown (4346-4367) and 0 otherwise. *)
  Definition info_volume (container_locked : bool) (m : mode) (x : bool * bags) (user recovery : option (list Z)) : res volume :=
    let (cl, b) := x in
    let v := opened cl b in
    let! u := info_set_password user in
    let! r := info_set_password recovery in
    let v := {| v_locked := v_locked v; v_user := u; v_recovery := r; v_keys := v_keys v |} in
    let hardware := match m with MContainer => container_locked | _ => false end in
    if v_locked v then
      if hardware then Ok v else
      let! (n, v) := unlock aes sha hmac b v j1 j2 in
      let! _ := check (negb (n =? -1)) in
      Ok v
    else Ok v.
End Tools.
