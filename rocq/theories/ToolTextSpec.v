(* What the texts of fsapfsinfo about containers, volumes and file entries mean, independent of
   the code: items of a label and a value, one on a line. *)
From Coq Require Import String.
From Verif Require Import Base NameSpec Records FsTree FileSpec ToolPathSpec ToolInfoSpec.
Open Scope list_scope.

Inductive value :=
| VLabel                     (* the label alone *)
| VHead                      (* the label before a colon *)
| VText (s : list Z)         (* characters as they are *)
| VSpelled (s : list Z)      (* characters, see spelled *)
| VDec (v : Z)
| VHex (v : Z)
| VUuid (d : list Z)
| VTime (t : Z)              (* nanoseconds since 1970 *)
| VMode (m : Z)
| VDevice (d : Z).

(* RFC 4122 *)
Definition uuid_means (l d : list Z) : Prop :=
  exists a b c e f, l = a ++ 45 :: b ++ 45 :: c ++ 45 :: e ++ 45 :: f /\ len a = 8 /\ len b = 4 /\ len c = 4 /\ len e = 4 /\ len f = 12 /\ hex_bytes (a ++ b ++ c ++ e ++ f) d.
(* Numbers of devices: sys/types.h of macOS *)
Definition major (d : Z) : Z := d / 2 ^ 24.
Definition minor (d : Z) : Z := d mod 2 ^ 24.

Section Items.
  (* The text of a point in time *)
  Variable date : Z -> list Z.
  Definition means (v : value) (l : list Z) : Prop :=
    match v with
    | VLabel | VHead => False
    | VText s => l = utf8 s
    | VSpelled s => exists t, l = utf8 t /\ spelled [92] t s
    | VDec v => decimal l v
    | VHex v => exists h, l = chars "0x" ++ h /\ Forall hexdigit h /\ 8 <= len h /\ numeral 16 h = v
    | VUuid d => uuid_means l d
    | VTime t => l = if t =? 0 then chars "Not set (0)" else date t ++ chars "Z"
    | VMode m => exists a b, l = a ++ chars " (" ++ b ++ chars ")" /\ mode_means a m /\ Forall (fun c => 48 <= c <= 55) b /\ numeral 8 b = m
    | VDevice d => exists a b, l = a ++ 44 :: b /\ decimal a (major d) /\ decimal b (minor d)
    end.
  Definition tabs (l : list Z) : Prop := Forall (fun c => c = 9) l.
  Definition item (p : list Z * value) (line : list Z) : Prop :=
    exists a, tabs a /\
    match snd p with
    | VLabel => line = a ++ fst p
    | VHead => line = a ++ fst p ++ chars ":"
    | v => exists b l, tabs b /\ line = a ++ fst p ++ b ++ chars ": " ++ l /\ means v l
    end.
  (* A text that says these items: every line ends with an end of line. *)
  Definition states (text : list Z) (items : list (list Z * value)) : Prop :=
    exists ls, lines text = ls ++ [[]] /\ Forall2 item items ls.
End Items.

(* Decimal digits of a number in a label *)
Definition counted (a : list Z) (n : Z) (b : list Z) (l : list Z) : Prop := exists d, decimal d n /\ l = a ++ d ++ b.

(* Features (Apple File System Reference, Volume Features) *)
Definition named_flags (table : list (Z * list Z)) (v : Z) : list (list Z * value) :=
  map (fun p => (chars "(" ++ snd p ++ chars ")", VLabel)) (filter (fun p => Z.testbit v (fst p)) table).
Definition compatible_flags : list (Z * list Z) :=
  [(0, chars "APFS_FEATURE_DEFRAG_PRERELEASE"); (1, chars "APFS_FEATURE_HARDLINK_MAP_RECORDS"); (2, chars "APFS_FEATURE_DEFRAG");
   (3, chars "APFS_FEATURE_STRICTATIME"); (4, chars "APFS_FEATURE_VOLGRP_SYSTEM_INO_SPACE")].
Definition incompatible_flags : list (Z * list Z) :=
  [(0, chars "APFS_INCOMPAT_CASE_INSENSITIVE"); (1, chars "APFS_INCOMPAT_DATALESS_SNAPS"); (2, chars "APFS_INCOMPAT_ENC_ROLLED");
   (3, chars "APFS_INCOMPAT_NORMALIZATION_INSENSITIVE"); (4, chars "APFS_INCOMPAT_INCOMPLETE_RESTORE"); (5, chars "APFS_INCOMPAT_SEALED_VOLUME")].
Definition blank : list Z * value := ([], VLabel).

(* Snapshots from number n on *)
Fixpoint snapshot_items (n : Z) (names : list (list Z)) (l : list (list Z * value)) : Prop :=
  match names with
  | [] => l = []
  | s :: names => exists h r, counted (chars "Snapshot: ") n (chars " information") h /\ l = (h, VHead) :: (chars "Name", VText s) :: r /\ snapshot_items (n + 1) names r
  end.
Record volume_facts := mk_vf { vf_id : list Z; vf_name : list Z; vf_compatible : Z; vf_incompatible : Z; vf_read_only : Z; vf_locked : bool; vf_snapshots : list (list Z) }.
(* Volume number n *)
Definition volume_items (n : Z) (f : volume_facts) (l : list (list Z * value)) : Prop :=
  exists h r, counted (chars "Volume: ") n (chars " information") h /\ snapshot_items 1 (vf_snapshots f) r /\
  l = [blank; (h, VHead); (chars "Identifier", VUuid (vf_id f)); (chars "Name", VText (vf_name f)); (chars "Compatible features", VHex (vf_compatible f))] ++
      named_flags compatible_flags (vf_compatible f) ++ [blank; (chars "Incompatible features", VHex (vf_incompatible f))] ++
      named_flags incompatible_flags (vf_incompatible f) ++ [blank; (chars "Read-only compatible features", VHex (vf_read_only f)); blank] ++
      (if vf_locked f then [(chars "Is locked", VLabel)] else []) ++
      (chars "Number of snapshots", VDec (len (vf_snapshots f))) :: r.
Fixpoint volumes_items (n : Z) (fs : list volume_facts) (l : list (list Z * value)) : Prop :=
  match fs with
  | [] => l = []
  | f :: fs => exists a b, l = a ++ b /\ volume_items n f a /\ volumes_items (n + 1) fs b
  end.
Definition container_items (id : list Z) (locked : bool) (fs : list volume_facts) (l : list (list Z * value)) : Prop :=
  exists r, volumes_items 1 fs r /\
  l = [(chars "Apple File System (APFS) information", VHead); blank; (chars "Container information", VHead);
       (chars "Identifier", VUuid id); (chars "Number of volumes", VDec (len fs))] ++
      (if locked then [(chars "Is locked (uses hardware encryption)", VLabel)] else []) ++ r ++ [blank].

(* Attributes from number n on *)
Fixpoint attribute_items (n : Z) (names : list (list Z)) (l : list (list Z * value)) : Prop :=
  match names with
  | [] => l = []
  | s :: names => exists h r, counted (chars "Attribute: ") n [] h /\ l = (h, VText s) :: r /\ attribute_items (n + 1) names r
  end.
(* A signed number of 64 bits *)
Definition signed (x : Z) : Z := if x <? 2 ^ 63 then x else x - 2 ^ 64.
(* Object id with inode i, found by an entry that was added at a time, or not by an entry *)
Definition entry_items (id : Z) (name : list Z) (size : Z) (i : inode) (added : option Z) (target : option (list Z)) (attrs : list (list Z)) (l : list (list Z * value)) : Prop :=
  exists r, attribute_items 1 attrs r /\
  l = [(chars "Identifier", VDec id); (chars "Name", VSpelled name); (chars "Size", VDec size);
       (chars "Creation time", VTime (signed (in_created i))); (chars "Modification time", VTime (signed (in_mtime i)));
       (chars "Inode change time", VTime (signed (in_changed i))); (chars "Access time", VTime (signed (in_access i)))] ++
      (match added with Some t => [(chars "Added time", VTime (signed t))] | None => [] end) ++
      [(chars "Number of links", VDec (in_links i)); (chars "Owner identifier", VDec (in_owner i)); (chars "Group identifier", VDec (in_group i));
       (chars "File mode", VMode (in_mode i))] ++
      (if (in_mode i / 4096 =? 2) || (in_mode i / 4096 =? 6) then [(chars "Device number", VDevice (in_device i))] else []) ++
      (match target with Some t => [(chars "Symbolic link target", VText t)] | None => [] end) ++
      (match attrs with [] => [] | _ => (chars "Extended attributes", VHead) :: r end).
(* An entry that is shown by its identifier, or by a path *)
Definition shown_by (path : option (list Z)) (r l : list (list Z * value)) : Prop :=
  l = [(chars "Apple File System (APFS) information", VHead); blank; (chars "File entry", VHead)] ++
      (match path with Some p => [(chars "Path", VSpelled p)] | None => [] end) ++ r ++ [blank].
