(* Directories as the user sees them, independent of the code. *)
From Verif Require Import Base NameSpec PropName TreeSpec RecordsSpec Records FsTree FsSpec FsNameSpec FileEntry EntryName.

(* The entries of directory id with their names, in the order of the records. Names have no
   byte order mark at the start. *)
Definition entries (recs : list record) (id : Z) (l : list (dentry * list Z)) : Prop :=
  Forall2 (fun r p => dir_rec id r (fst p) /\ file_name (snd p) /\ spells (snd p) (de_name (fst p)) /\ hd 0 (snd p) <> 0xfeff)
    (filter (has 9 id) recs) l.

(* Object id has inode v, or there is none. *)
Definition inode_is (recs : list record) (id : Z) (v : option inode) : Prop :=
  0 <= id < 2 ^ 60 /\
  match v with
  | Some i => exists r, In r recs /\ has 3 id r = true /\ inode_value (snd r) = Ok i
  | None => forall r, In r recs -> has 3 id r = false
  end.

(* What the calls on a directory with the entries l give. A sub entry is the inode of its
   identifier with the directory record. *)
Inductive directory_gives (t : fs) dev ctx (recs : list record) (l : list (dentry * list Z)) : dcall -> danswer -> Prop :=
| gives_count : directory_gives t dev ctx recs l DCount (ACount (len l))
| gives_entry : forall i d s v, 0 <= i -> nth_error l (Z.to_nat i) = Some (d, s) -> inode_is recs (de_inode d) (Some v) ->
    directory_gives t dev ctx recs l (DSub i) (AEntry (mk_fe t dev ctx (de_inode d) v (Some d)))
| gives_no_inode : forall i d s, 0 <= i -> nth_error l (Z.to_nat i) = Some (d, s) -> inode_is recs (de_inode d) None ->
    directory_gives t dev ctx recs l (DSub i) AError
| gives_no_entry : forall i, i < 0 \/ len l <= i -> directory_gives t dev ctx recs l (DSub i) AError.

(* A string of at most size units: s and an end-of-string character. *)
Definition string_of (enc : list Z -> list Z) (s : list Z) (size : Z) : res (list Z) :=
  if len (enc s) <? size then Ok (enc s ++ [0]) else Fail.

(* No two entries of the directory have the same name. *)
Definition names_differ (hashed fold : bool) (id : Z) (recs : list record) : Prop :=
  forall r e s r' e' s', named hashed fold id recs r e s -> named hashed fold id recs r' e' s' -> same_name fold s s' -> e = e' /\ s = s'.
