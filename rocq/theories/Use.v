(* A client of an open volume: the entries it can get at, and all calls on them. *)
From Verif Require Import Base NameSpec Name Walk Omap Records FsTree FsName Crypt DataRead VolumeSuper Session SessionSpec FileEntry EntryName ExtAttr.

(* What a client gets from a volume: the entries of lookups, their sub entries by index and by
   path, and their parents. *)
Inductive reached (img : image) (ov : open_volume) (ctx : option (list Z -> list Z -> list Z)) (t : fs) : fentry -> Prop :=
| r_lookup : forall c id v rec, stored_answer img ov ctx c = Session.AEntry (Some (id, v, rec)) -> reached img ov ctx t (mk_fe t img ctx id v rec)
| r_sub : forall e i st x st', reached img ov ctx t e -> entry_sub e i st = (Ok x, st') -> reached img ov ctx t x
| r_path : forall e (u : bool) str x, reached img ov ctx t e -> entry_sub_by_name e (if u then utf16_next else utf8_next) (volume_folds ov) str = Ok (Some x) -> reached img ov ctx t x
| r_parent : forall e x, reached img ov ctx t e -> entry_parent e = Ok (Some x) -> reached img ov ctx t x.

(* The calls on one entry: those of FileEntry.v and EntryName.v, the name, a sub entry by path,
   the parent, and an attribute by index or by name with calls on it. *)
Inductive ucall :=
| UFile (c : fcall) | UDir (c : dcall) | UNameSize (utf16 : bool) | UName (utf16 : bool) (size : Z) | UPath (utf16 : bool) (str : list Z) | UParent
| UAttr (i : Z) (cs : list xcall) | UAttrNamed (utf16 : bool) (str : list Z) (cs : list xcall).
(* A call returns, be it with an error, or it does not. *)
Definition returns {A} (r : res A) : res unit := match r with Ok _ | Fail => Ok tt | Oob => Oob | Fuel => Fuel end.
Section Use.
  Variable lzvn : list Z -> Z -> res (list Z).
  Variable junk : list Z -> list Z -> list Z.
  Variable fold : bool.
  Variable e : fentry.
  Definition use_attr (m : M fstate (option attr)) (cs : list xcall) (st : fstate) : res fstate :=
    let (r, st) := m st in
    match r with
    | Ok (Some a) => let! _ := x_calls e a cs x_init in Ok st
    | Ok None | Fail => Ok st
    | Oob => Oob
    | Fuel => Fuel
    end.
  Definition use_call (c : ucall) (st : fstate) : res fstate :=
    match c with
    | UFile c => let! (_, st) := entry_call lzvn junk e c st in Ok st
    | UDir c => let! (_, st) := dir_call e c st in Ok st
    | UNameSize u => let! _ := returns (entry_name_size (if u then utf16 else utf8) e) in Ok st
    | UName u size => let! _ := returns (entry_name (if u then utf16 else utf8) e size) in Ok st
    | UPath u str => let! _ := returns (entry_sub_by_name e (if u then utf16_next else utf8_next) fold str) in Ok st
    | UParent => let! _ := returns (entry_parent e) in Ok st
    | UAttr i cs => use_attr (bindM (entry_attr e i) (fun a => retM (Ok (Some a)))) cs st
    | UAttrNamed u str cs => use_attr (entry_attr_by_name e (if u then utf16_next else utf8_next) str) cs st
    end.
  Fixpoint use_calls (cs : list ucall) (st : fstate) : res fstate :=
    match cs with
    | [] => Ok st
    | c :: cs => let! st := use_call c st in use_calls cs st
    end.
End Use.
