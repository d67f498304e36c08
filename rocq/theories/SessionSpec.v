(* Specification of lookups on an open volume: what the blocks of the volume give, with the
   keys that are in force, without any state. *)
From Verif Require Import Base Walk Omap Records FsTree Name FsName Crypt KeyBag Volume Container VolumeSuper Session.

Definition lookup_call (c : vcall) : Prop := match c with VState _ => False | _ => True end.
(* What decrypts the blocks of the file system tree; nothing when the keys are not known. *)
Definition context (xts : list Z -> list Z -> list Z -> list Z -> list Z) (ov : open_volume) (keys : option (list Z * list Z)) : option (option (list Z -> list Z -> list Z)) :=
  match ov_bag ov, keys with
  | None, _ => Some None
  | Some _, Some (k1, k2) => Some (Some (xts k1 k2))
  | Some _, None => None
  end.
Definition entry_of (r : res (option (Z * inode * option dentry))) : vanswer := match r with Ok x => AEntry x | _ => AError end.
(* The file entry of a lookup in the file system tree as it is stored. *)
Definition stored_answer (img : image) (ov : open_volume) (ctx : option (list Z -> list Z -> list Z)) (c : vcall) : vanswer :=
  entry_of (let! t := volume_fs img ctx ov in
    match c with
    | VId id _ _ => let! r := fs_inode t id in Ok (match r with Some i => Some (i, None) | None => None end)
    | VPath u str _ _ => fs_by_path t (if u then utf16_next else utf8_next) (volume_folds ov) 2 str
    | VState _ => Fail
    end).
