(* Model of what fsapfsinfo shows about the container, its volumes and a file entry when no
   bodyfile is written: fsapfstools/info_handle.c 1246-1636, 1641-1764, 1889-2143 with 2238-2603,
   3318-3399, 3509-3668, 3889-4259 and 4264-4433. System characters are bytes. libfguid and libfdatetime are
   external: identifiers are shown as in RFC 4122 with small letters, dates are a parameter.
   The texts that are printed before an error are not kept. Not modelled: allocation failures,
   errors of fprintf. *)
From Coq Require Import String.
From Verif Require Import Base NameSpec Walk Omap Records FsTree Name FsName Snapshot VolumeSuper DataRead FileEntry EntryName ToolPath ToolInfo FileNames.
Open Scope list_scope.

Definition tab (n : nat) : list Z := repeat 9 n.
Definition colon : list Z := [58; 32].
Definition nl : list Z := [10].

(* ---- numbers ---- *)
(* "%08" PRIx64, "%07" PRIo16 *)
Definition hex_wide (v : Z) : list Z := hex (Z.to_nat (Z.max 8 (if v =? 0 then 1 else Z.log2 v / 4 + 1))) v.
Fixpoint oct (n : nat) (v : Z) : list Z :=
  match n with
  | O => []
  | S n => oct n (v / 8) ++ [48 + v mod 8]
  end.
Definition oct_wide (v : Z) : list Z := oct 7 v.
(* libfguid_identifier_copy_from_byte_stream (big-endian), libfguid_identifier_copy_to_utf8_string
   (external) *)
Definition hex_pairs (d : list Z) : list Z := concat (map (fun b => [hex_digit (b / 16); hex_digit (b mod 16)]) d).
Definition uuid_text (d : list Z) : list Z :=
  hex_pairs (slice d 0 4) ++ [45] ++ hex_pairs (slice d 4 2) ++ [45] ++ hex_pairs (slice d 6 2) ++ [45] ++ hex_pairs (slice d 8 2) ++ [45] ++ hex_pairs (slice d 10 6).

(* ---- flags: 1537-1636 ---- *)
Definition flag_line (v k : Z) (name : string) : list Z := if Z.testbit v k then tab 2 ++ [40] ++ chars name ++ [41] ++ nl else [].
Definition compatible_text (v : Z) : list Z :=
  flag_line v 0 "APFS_FEATURE_DEFRAG_PRERELEASE" ++ flag_line v 1 "APFS_FEATURE_HARDLINK_MAP_RECORDS" ++ flag_line v 2 "APFS_FEATURE_DEFRAG" ++
  flag_line v 3 "APFS_FEATURE_STRICTATIME" ++ flag_line v 4 "APFS_FEATURE_VOLGRP_SYSTEM_INO_SPACE" ++ nl.
Definition incompatible_text (v : Z) : list Z :=
  flag_line v 0 "APFS_INCOMPAT_CASE_INSENSITIVE" ++ flag_line v 1 "APFS_INCOMPAT_DATALESS_SNAPS" ++ flag_line v 2 "APFS_INCOMPAT_ENC_ROLLED" ++
  flag_line v 3 "APFS_INCOMPAT_NORMALIZATION_INSENSITIVE" ++ flag_line v 4 "APFS_INCOMPAT_INCOMPLETE_RESTORE" ++ flag_line v 5 "APFS_INCOMPAT_SEALED_VOLUME" ++ nl.

(* ---- volumes: 3889-4259 ---- *)
(* 4121-4243, from snapshot i on, k of them: the snapshot is opened, its name is that of the
   snapshot metadata *)
Fixpoint snapshots_text (img : image) (v : open_volume) (k : nat) (i : Z) : res (list Z) :=
  match k with
  | O => Ok []
  | S k =>
    let! _ := snapshot_open img v i in
    let! s := getb (ov_snapshots v) i in
    let! name := snap_name s in
    let! r := snapshots_text img v k (i + 1) in
    Ok (tab 1 ++ chars "Snapshot: " ++ dec (i + 1) ++ chars " information:" ++ nl ++
        tab 2 ++ chars "Name" ++ tab 3 ++ colon ++ c_string (utf8 name) ++ nl ++ r)
  end.
(* n: the index of the volume; locked: libfsapfs_volume_is_locked *)
Definition volume_text (img : image) (n : Z) (v : open_volume) (locked : bool) : res (list Z) :=
  let s := ov_super v in
  let! name := volume_name s in
  let! r := snapshots_text img v (Z.to_nat (len (ov_snapshots v))) 0 in
  Ok (nl ++ chars "Volume: " ++ dec (n + 1) ++ chars " information:" ++ nl ++
      tab 1 ++ chars "Identifier" ++ tab 3 ++ colon ++ uuid_text (vs_id s) ++ nl ++
      tab 1 ++ chars "Name" ++ tab 4 ++ colon ++ c_string (utf8 name) ++ nl ++
      tab 1 ++ chars "Compatible features" ++ tab 2 ++ colon ++ chars "0x" ++ hex_wide (vs_compatible s) ++ nl ++ compatible_text (vs_compatible s) ++
      tab 1 ++ chars "Incompatible features" ++ tab 2 ++ colon ++ chars "0x" ++ hex_wide (vs_incompatible s) ++ nl ++ incompatible_text (vs_incompatible s) ++
      tab 1 ++ chars "Read-only compatible features" ++ tab 1 ++ colon ++ chars "0x" ++ hex_wide (vs_read_only s) ++ nl ++ nl ++
      (if locked then tab 1 ++ chars "Is locked" ++ nl else []) ++
      tab 1 ++ chars "Number of snapshots" ++ tab 2 ++ colon ++ dec (len (ov_snapshots v)) ++ nl ++ r).
(* ---- the container: 4264-4433; vols: the volumes, as info_handle_get_volume_by_index gives them,
   and whether they are locked ---- *)
Fixpoint volumes_text (img : image) (i : Z) (vols : list (res (open_volume * bool))) : res (list Z) :=
  match vols with
  | [] => Ok []
  | v :: vols =>
    let! (v, locked) := v in
    let! a := volume_text img i v locked in
    let! b := volumes_text img (i + 1) vols in
    Ok (a ++ b)
  end.
Definition container_text (img : image) (id : list Z) (locked : bool) (vols : list (res (open_volume * bool))) : res (list Z) :=
  let! r := volumes_text img 0 vols in
  Ok (chars "Apple File System (APFS) information:" ++ nl ++ nl ++ chars "Container information:" ++ nl ++
      tab 1 ++ chars "Identifier" ++ tab 3 ++ colon ++ uuid_text id ++ nl ++
      tab 1 ++ chars "Number of volumes" ++ tab 2 ++ colon ++ dec (len vols) ++ nl ++
      (if locked then tab 1 ++ chars "Is locked (uses hardware encryption)" ++ nl else []) ++ r ++ nl).

(* ---- file entries: 1641-1764, 1889-2143, 2238-2603 ---- *)
Section Entry.
  Variable lzvn : list Z -> Z -> res (list Z).
  Variable junk : list Z -> list Z -> list Z.
  (* libfdatetime_posix_time_copy_to_utf8_string (external), of nanoseconds since 1970 *)
  Variable date : Z -> res (list Z).

  (* 1305-1421 *)
  Definition time_line (label : list Z) (stored : Z) : res (list Z) :=
    let t := s64 stored in
    if t =? 0 then Ok (label ++ chars ": Not set (0)" ++ nl)
    else let! d := date t in Ok (label ++ colon ++ d ++ [90] ++ nl).

  (* 2474-2593, from attribute i on, k of them *)
  Fixpoint attrs_text (e : fentry) (k : nat) (i : Z) (st : fstate) : res (list Z) :=
    match k with
    | O => Ok []
    | S k =>
      let (a, st) := entry_attr e i st in
      let! a := a in
      let! s := stream_text (at_name a) (len (at_name a)) in
      let! r := attrs_text e k (i + 1) st in
      Ok (tab 2 ++ chars "Attribute: " ++ dec (i + 1) ++ tab 1 ++ colon ++ c_string (utf8 s) ++ nl ++ r)
    end.
  Definition entry_info (e : fentry) : res (list Z) :=
    let i := fe_inode e in
    let! size := entry_name_size utf8 e in
    let! name := entry_name utf8 e size in
    let name := slice name 0 (size - 1) in
    let! (k, st) := entry_call lzvn junk e CLink f_init in
    let! target :=
      match k with
      | RLink None => Ok None
      | RLink (Some v) => let! s := stream_text v (len v) in Ok (Some (c_string (utf8 s)))
      | _ => Fail
      end in
    let! (z, st) := entry_call lzvn junk e CSize st in
    let! size := match z with RSize size => Ok size | _ => Fail end in
    let! n := path_from name in
    let! t1 := time_line (tab 1 ++ chars "Creation time" ++ tab 2) (in_created i) in
    let! t2 := time_line (tab 1 ++ chars "Modification time" ++ tab 1) (in_mtime i) in
    let! t3 := time_line (tab 1 ++ chars "Inode change time" ++ tab 1) (in_changed i) in
    let! t4 := time_line (tab 1 ++ chars "Access time" ++ tab 2) (in_access i) in
    let! t5 := match fe_rec e with None => Ok [] | Some d => time_line (tab 1 ++ chars "Added time" ++ tab 2) (de_added d) end in
    let (c, st) := entry_attrs e st in
    let! c := c in
    let! a := attrs_text e (Z.to_nat c) 0 st in
    Ok (tab 1 ++ chars "Identifier" ++ tab 2 ++ colon ++ dec (fe_id e) ++ nl ++
        tab 1 ++ chars "Name" ++ tab 3 ++ colon ++ n ++ nl ++
        tab 1 ++ chars "Size" ++ tab 3 ++ colon ++ dec size ++ nl ++
        t1 ++ t2 ++ t3 ++ t4 ++ t5 ++
        tab 1 ++ chars "Number of links" ++ tab 2 ++ colon ++ dec (in_links i) ++ nl ++
        tab 1 ++ chars "Owner identifier" ++ tab 1 ++ colon ++ dec (in_owner i) ++ nl ++
        tab 1 ++ chars "Group identifier" ++ tab 1 ++ colon ++ dec (in_group i) ++ nl ++
        tab 1 ++ chars "File mode" ++ tab 2 ++ colon ++ mode_text (in_mode i) ++ chars " (" ++ oct_wide (in_mode i) ++ chars ")" ++ nl ++
        (match inode_device_number i with None => [] | Some (major, minor) => tab 1 ++ chars "Device number" ++ tab 2 ++ colon ++ dec major ++ [44] ++ dec minor ++ nl end) ++
        (match target with None => [] | Some t => tab 1 ++ chars "Symbolic link target" ++ tab 1 ++ colon ++ t ++ nl end) ++
        (if 0 <? c then tab 1 ++ chars "Extended attributes:" ++ nl ++ a else [])).

  Definition heading : list Z := chars "Apple File System (APFS) information:" ++ nl ++ nl.
  (* 3318-3399: None: there is no such entry *)
  Definition show_identifier (t : fs) (img : image) (ctx : option (list Z -> list Z -> list Z)) (id : Z) : res (list Z) :=
    let! r := fs_inode t id in
    match r with
    | None => Ok heading
    | Some (id, v) => let! a := entry_info (mk_fe t img ctx id v None) in Ok (heading ++ chars "File entry:" ++ nl ++ a ++ nl)
    end.
  (* 3509-3668 *)
  Definition show_path (bad : Z -> option (list Z)) (t : fs) (img : image) (ctx : option (list Z -> list Z -> list Z)) (fold : bool) (p : list Z) : res (list Z) :=
    let! r := info_open bad t fold p in
    match r with
    | None => Fail
    | Some (id, v, d) =>
      let! q := path_from p in
      let! a := entry_info (mk_fe t img ctx id v d) in
      Ok (heading ++ chars "File entry:" ++ nl ++ tab 1 ++ chars "Path" ++ tab 3 ++ colon ++ q ++ nl ++ a ++ nl)
    end.
End Entry.
