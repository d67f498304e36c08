(* Specification of a volume object of pyfsapfs: what its documentation (pyfsapfs_volume.c 54-130)
   promises, of the file system as it is stored. *)
From Verif Require Import Base Walk Omap Records FsTree Name NameSpec FsName VolumeSuper Session SessionSpec PyVol.

(* a str that is a name or a password: Unicode characters, no NUL *)
Definition text (s : list Z) : Prop := Forall (fun c => scalar c /\ c <> 0) s.
(* an object, None, or an exception *)
Inductive promised : vanswer -> pvanswer -> Prop :=
| promised_entry x : promised (AEntry (Some x)) (PvEntry x)
| promised_none : promised (AEntry None) PvNone
| promised_error : promised AError PvRaise.
Definition identifier (n : Z) : Prop := 0 <= n < 2 ^ 64.
Inductive volume_gives (img : image) (ov : open_volume) (ctx : option (list Z -> list Z -> list Z)) : pvcall -> pvanswer -> Prop :=
| gives_id n j1 j2 a : identifier n -> promised (stored_answer img ov ctx (VId n j1 j2)) a -> volume_gives img ov ctx (PvId n j1 j2) a
| gives_no_id n j1 j2 : ~ identifier n -> volume_gives img ov ctx (PvId n j1 j2) PvRaise
| gives_root j1 j2 a : promised (stored_answer img ov ctx (VId 2 j1 j2)) a -> volume_gives img ov ctx (PvRoot j1 j2) a
| gives_path s j1 j2 a : text s -> promised (stored_answer img ov ctx (VPath false (utf8 s) j1 j2)) a -> volume_gives img ov ctx (PvPath s j1 j2) a
| gives_no_path s j1 j2 : ~ text s -> volume_gives img ov ctx (PvPath s j1 j2) PvRaise.
Definition lookup (c : pvcall) : Prop := match c with PvId _ _ _ | PvRoot _ _ | PvPath _ _ _ => True | _ => False end.
