(* Model of what fsapfsinfo and fsapfsmount do with their options: fsapfstools/fsapfsinfo.c 202-534,
   fsapfstools/info_handle.c 511-564 (the index of a volume), 2975-3239, 3244-3300, 3420-3491 and
   4264-4433 (which volumes are shown), 3694-3884 (all file entries); fsapfstools/mount_handle.c
   327-380 and 667-703 (which volume is mounted). What is printed about one volume (C76-C78) and about
   one file entry (C77) is a parameter here: the lines, and if the function succeeded. The headings
   between the lines and the messages are left out. *)
From Verif Require Import Base Walk Omap Records FsTree FileEntry ToolInfo ToolOpt.

(* The characters of the options *)
Definition opt_E : Z := 69.
Definition opt_F : Z := 70.
Definition opt_H : Z := 72.
Definition opt_f : Z := 102.

(* fsapfsinfo.c 53-60; option_mode with what belongs to it *)
Inductive mode := MContainer | MEntries | MId (id : Z) | MPath (path : list Z) | MHierarchy.
(* fsapfsinfo.c 207-292: option_mode, option_file_entry_identifier and option_file_entry_path; -h and -V
   end the program before *)
Inductive request := QContainer | QIdentifier (v : option (list Z)) | QPath (v : option (list Z)) | QHierarchy.
Definition request_step (q : request) (o : Z * option (list Z)) : request :=
  if fst o =? opt_E then QIdentifier (snd o)
  else if fst o =? opt_F then QPath (snd o)
  else if fst o =? opt_H then QHierarchy
  else q.
Definition request_of (l : list (Z * option (list Z))) : request := fold_left request_step l QContainer.
(* fsapfsinfo.c 422-463 *)
Definition mode_of (q : request) : res mode :=
  match q with
  | QContainer => Ok MContainer
  | QHierarchy => Ok MHierarchy
  | QPath None => Fail
  | QPath (Some p) => Ok (MPath p)
  | QIdentifier None => Fail
  | QIdentifier (Some [97; 108; 108]) => Ok MEntries
  | QIdentifier (Some s) =>
    let! v := option_value s in
    let! _ := check (negb (0x0fffffffffffffff <? v)) in
    Ok (MId v)
  end.

(* info_handle.c 511-564, mount_handle.c 327-380 *)
Definition set_file_system_index (s : list Z) : res Z :=
  let! v := option_value s in
  let! _ := check (negb ((v =? 0) || (100 <? v))) in
  Ok v.
(* fsapfsinfo.c 241-242 and 347-363: the last -f; if it is not supported the index stays 0 *)
Definition file_system_index (l : list (Z * option (list Z))) : Z :=
  match fold_left (fun v o => if fst o =? opt_f then snd o else v) l None with
  | None => 0
  | Some s => match set_file_system_index s with Ok v => v | _ => 0 end
  end.

(* info_handle.c 3281-3300, 3472-3491, 3732-3751; mount_handle.c 667-686: one volume *)
Definition one_volume (index n : Z) : res Z :=
  let i := if (index =? 0) && (n =? 1) then 1 else index in
  let! _ := check (negb ((i <=? 0) || (n <? i))) in
  Ok (i - 1).
(* volume_index from k to n - 1 *)
Fixpoint upward (k : nat) (i : Z) : list Z :=
  match k with
  | O => []
  | S k => i :: upward k (i + 1)
  end.
(* info_handle.c 3025-3045 and 4369-4371: the indexes whose volumes are taken, in order *)
Definition visited (m : mode) (index n : Z) : res (list Z) :=
  match m with
  | MContainer => Ok (upward (Z.to_nat n) 0)
  | MHierarchy =>
    let! _ := check (negb ((index <? 0) || (n <? index))) in
    Ok (filter (fun i => negb (negb (index =? 0) && negb (index =? i + 1))) (upward (Z.to_nat n) 0))
  | MEntries | MId _ | MPath _ => let! i := one_volume index n in Ok [i]
  end.
(* info_handle.c 3037-3210 and 4369-4418: the lines printed, and success; the first volume that fails
   ends the loop *)
Fixpoint show_volumes (show : Z -> list (list Z) * bool) (l : list Z) : list (list Z) * bool :=
  match l with
  | [] => ([], true)
  | i :: l =>
    let (a, ok) := show i in
    if ok then let (b, ok) := show_volumes show l in (a ++ b, ok) else (a, false)
  end.
(* fsapfsinfo.c 347-534 from the options; show: what is printed about a volume in a mode; true: the
   program returns EXIT_SUCCESS *)
Definition info_run (show : mode -> Z -> list (list Z) * bool) (n : Z) (l : list (Z * option (list Z))) : list (list Z) * bool :=
  match mode_of (request_of l) with
  | Ok m =>
    match visited m (file_system_index l) n with
    | Ok v => show_volumes (show m) v
    | _ => ([], false)
    end
  | _ => ([], false)
  end.
(* fsapfsmount.c: the index of the volume that is mounted *)
Definition mount_run (n : Z) (l : list (Z * option (list Z))) : res Z := one_volume (file_system_index l) n.

(* info_handle.c 3787-3854: the file entries with identifiers from id, k of them; line: what is printed
   about an entry (info_handle_file_entry_value_fprint) *)
Section Entries.
  Variable line : Z * inode -> list Z * bool.
  Fixpoint entries_loop (t : fs) (k : nat) (id : Z) : list (list Z) * bool :=
    match k with
    | O => ([], true)
    | S k =>
      match fs_inode t id with
      | Ok None => entries_loop t k (id + 1)
      | Ok (Some e) =>
        let (a, ok) := line e in
        if ok then let (b, ok) := entries_loop t k (id + 1) in (a :: b, ok) else ([a], false)
      | _ => ([], false)
      end
    end.
  (* next: libfsapfs_volume_get_next_file_entry_identifier *)
  Definition file_entries (t : fs) (next : Z) : list (list Z) * bool := entries_loop t (Z.to_nat next) 0.
End Entries.
