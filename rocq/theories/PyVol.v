(* Model of a volume object of pyfsapfs: pyfsapfs/pyfsapfs_volume.c 420-474 (unlock), 712-766
   (is_locked), 768-841 (set_password), 843-915 (set_recovery_password), 969-1057 (entry by
   identifier), 1059-1135 (root directory), 1137-1229 (entry by path). The library behind it is
   Session.v. Not modelled: the types of the exceptions, arguments of other types than str and
   int, reference counts (PyLife.v), the interpreter lock, allocation failures. *)
From Verif Require Import Base BTree Walk Omap Records FsTree Name NameSpec FsName Crypt KeyBag Volume Container VolumeSuper Session.

(* A str is a list of code points. *)
Inductive pvcall :=
| PvId (n : Z) (j1 j2 : list Z)
| PvRoot (j1 j2 : list Z)
| PvPath (s : list Z) (j1 j2 : list Z)
| PvPassword (s buf : list Z)
| PvRecovery (s buf : list Z)
| PvUnlock (j1 j2 : list Z)
| PvLocked.
Inductive pvanswer := PvEntry (x : Z * inode * option dentry) | PvNone | PvBool (b : bool) | PvRaise.

(* PyArg_ParseTupleAndKeywords with s (external): a str with a surrogate has no UTF-8 form, one
   with a NUL character is refused; else its UTF-8 form, with an end-of-string character after
   it, so that narrow_string_length is the number of its bytes *)
Definition plain_char (c : Z) : bool := (0 <? c) && (c <=? 0x10ffff) && negb ((0xd800 <=? c) && (c <=? 0xdfff)).
Definition arg_str (s : list Z) : option (list Z) := if forallb plain_char s then Some (utf8 s) else None.
(* PyArg_ParseTupleAndKeywords with K (external): the value is taken modulo 2^64, without a check
   of its range *)
Definition arg_K (n : Z) : Z := w64 n.
(* pyfsapfs_volume.c 1019-1039: the check of the result comes first, so that 0 is an error too *)
Definition found_or_raise (a : vanswer) : pvanswer := match a with AEntry (Some x) => PvEntry x | _ => PvRaise end.
(* pyfsapfs_volume.c 1092-1111 and 1186-1205 *)
Definition found_or_none (a : vanswer) : pvanswer := match a with AEntry (Some x) => PvEntry x | AEntry None => PvNone | _ => PvRaise end.
(* pyfsapfs_volume.c 446-473 *)
Definition truth (a : vanswer) : pvanswer := match a with AInt r => if r =? -1 then PvRaise else PvBool (negb (r =? 0)) | _ => PvRaise end.
(* pyfsapfs_volume.c 816-840 and 890-914 *)
Definition set_or_raise (a : vanswer) : pvanswer := match a with AInt r => if r =? 1 then PvNone else PvRaise | _ => PvRaise end.

Section PyVolume.
  Variables (P Q : Type).
  Variable evn : P -> list (Z * bnode) -> Z -> P * list (Z * bnode).
  Variable evb : Q -> list (Z * list Z) -> Z -> Q * list (Z * list Z).
  Variable aes : list Z -> list Z -> list Z.
  Variable sha : list Z -> list Z.
  Variable hmac : list Z -> list Z -> list Z.
  Variable xts : list Z -> list Z -> list Z -> list Z -> list Z.
  Variable unkeyed : option (list Z -> list Z -> list Z).
  Variables (img : image) (ov : open_volume) (bg : bags).
  Notation vstep := (vstep P Q evn evb aes sha hmac xts unkeyed img ov bg).
  Definition py_vol (h : handle P Q) (c : pvcall) : res (pvanswer * handle P Q) :=
    match c with
    | PvId n j1 j2 => let! (a, h) := vstep h (VId (arg_K n) j1 j2) in Ok (found_or_raise a, h)
    | PvRoot j1 j2 => let! (a, h) := vstep h (VId 2 j1 j2) in Ok (found_or_none a, h)
    | PvPath s j1 j2 =>
      match arg_str s with
      | Some b => let! (a, h) := vstep h (VPath false b j1 j2) in Ok (found_or_none a, h)
      | None => Ok (PvRaise, h)
      end
    | PvPassword s buf => (* buf: what the allocated memory holds (Volume.v, set_utf8) *)
      match arg_str s with
      | Some b =>
        match set_utf8 (b ++ [0]) (len b) buf with
        | Ok p => let! (a, h) := vstep h (VState (SetUser (Some p))) in Ok (set_or_raise a, h)
        | Fail => let! (a, h) := vstep h (VState (SetUser None)) in Ok (set_or_raise a, h)
        | Oob => Oob
        | Fuel => Fuel
        end
      | None => Ok (PvRaise, h)
      end
    | PvRecovery s buf =>
      match arg_str s with
      | Some b =>
        match set_utf8 (b ++ [0]) (len b) buf with
        | Ok p => let! (a, h) := vstep h (VState (SetRecovery (Some p))) in Ok (set_or_raise a, h)
        | Fail => let! (a, h) := vstep h (VState (SetRecovery None)) in Ok (set_or_raise a, h)
        | Oob => Oob
        | Fuel => Fuel
        end
      | None => Ok (PvRaise, h)
      end
    | PvUnlock j1 j2 => let! (a, h) := vstep h (VState (Unlock j1 j2)) in Ok (truth a, h)
    | PvLocked => (* libfsapfs_volume_is_locked *) Ok (PvBool (v_locked (h_volume h)), h)
    end.
  Fixpoint py_vols (h : handle P Q) (cs : list pvcall) : res (list pvanswer * handle P Q) :=
    match cs with
    | [] => Ok ([], h)
    | c :: cs => let! (a, h) := py_vol h c in let! (l, h) := py_vols h cs in Ok (a :: l, h)
    end.
End PyVolume.
