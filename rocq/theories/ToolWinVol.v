(* Model of the information about the volume that fsapfsmount gives to Windows:
   fsapfstools/mount_dokan.c 1465-1587 (mount_dokan_GetVolumeInformation). Simplifications: debug
   output is left out; memory_copy does not fail. *)
From Verif Require Import Base.

(* Units (UTF-16) of the strings FSAPFS and Dokan, mount_dokan.c 1507 and 1550. *)
Definition volume_label : list Z := [70; 83; 65; 80; 70; 83].
Definition system_label : list Z := [68; 111; 107; 97; 110].
(* memory_copy of name_size units to the begin of a buffer, 1516-1519 and 1559-1562; a buffer
   is what it holds, so that a copy behind its end is Oob. *)
Definition copy_units (units buf : list Z) : res (list Z) :=
  if len buf <? len units then Oob else Ok (units ++ skipn (Z.to_nat (len units)) buf).
(* 1507-1531 and 1550-1574: a name with its end, if there is a buffer and the size is larger *)
Definition give_name (name : list Z) (buf : option (list Z)) (size : Z) : res (option (list Z)) :=
  let name_size := 1 + len name in
  match buf with
  | None => Ok None
  | Some b => if name_size <? size then let! b := copy_units (name ++ [0]) b in Ok (Some b) else Ok (Some b)
  end.
(* 1532-1549: a number, if there is a place for it *)
Definition give_number (n : Z) (place : option Z) : option Z := match place with None => None | Some _ => Some n end.
(* winnt.h: FILE_CASE_SENSITIVE_SEARCH, FILE_CASE_PRESERVED_NAMES, FILE_UNICODE_ON_DISK,
   FILE_READ_ONLY_VOLUME *)
Definition system_flags : Z := Z.lor (Z.lor (Z.lor 0x1 0x2) 0x4) 0x80000.
Record vinfo := mk_vinfo { vi_name : option (list Z); vi_serial : option Z; vi_longest : option Z; vi_flags : option Z; vi_system : option (list Z) }.
(* 1465-1587; the two sizes are DWORD *)
Definition volume_information (name_size system_size : Z) (v : vinfo) : res vinfo :=
  let! name := give_name volume_label (vi_name v) name_size in
  let! system := give_name system_label (vi_system v) system_size in
  Ok (mk_vinfo name (give_number 0x19831116 (vi_serial v)) (give_number 256 (vi_longest v)) (give_number system_flags (vi_flags v)) system).
