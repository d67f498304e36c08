(* Names in directories and paths, independent of the code that looks them up. *)
From Verif Require Import Base ChecksumSpec ChecksumProofs NameSpec PropName TreeSpec RecordsSpec FsTree FsSpec.

(* The hash of a name: the low 22 bits of the CRC-32C (without the final complement) of
   the hashed characters in UTF-32. *)
Definition name_hash_of (fold : bool) (s : list Z) : Z :=
  Z.land (crc_bitwise castagnoli_reflected 0xffffffff (words_bytes (concat (map (hash_of fold) s)))) 0x3fffff.

(* The entry e has the name s. Volumes store a hash with all names or with none; [fold]:
   the volume ignores case. *)
Definition dir_name (hashed fold : bool) (e : dentry) (s : list Z) : Prop :=
  file_name s /\ spells s (de_name e) /\ de_hash e = if hashed then name_hash_of fold s else 0.

(* The record r is the entry e with name s of directory id. *)
Definition named (hashed fold : bool) (id : Z) (recs : list record) (r : record) (e : dentry) (s : list Z) : Prop :=
  In r recs /\ has 9 id r = true /\ dir_rec id r e /\ dir_name hashed fold e s.

Definition directory (hashed fold : bool) (id : Z) (recs : list record) : Prop :=
  forall r, In r recs -> has 9 id r = true -> exists e s, named hashed fold id recs r e s.

(* The order of keys is that of hashes, then of names with case. *)
Definition name_order (tie : list Z -> list Z -> Prop) (hashed fold : bool) (id : Z) (recs : list record) : Prop :=
  forall a b ea eb sa sb, named hashed fold id recs a ea sa -> named hashed fold id recs b eb sb -> tie (fst a) (fst b) ->
    de_hash ea < de_hash eb \/ (de_hash ea = de_hash eb /\ key_lt (name_key false sa) (name_key false sb)).

(* Names are the same for the volume. *)
Definition same_name (fold : bool) (s q : list Z) : Prop := name_key fold s = name_key fold q.

(* A path: its components are separated by '/' (47); one separator at the start and one at
   the end are ignored. *)
Fixpoint split (p : list Z) : list (list Z) * list Z :=
  match p with
  | [] => ([], [])
  | c :: p =>
    let (init, last) := split p in
    if c =? 47 then ([] :: init, last)
    else match init with
         | [] => ([], c :: last)
         | i :: init => ((c :: i) :: init, last)
         end
  end.
Definition components (p : list Z) : list (list Z) :=
  let p := match p with 47 :: p => p | _ => p end in
  let (init, last) := split p in
  init ++ match last with [] => [] | _ => [last] end.

(* Going down from directory id component by component; there is no entry with an empty
   name. [look id name] is the entry of a name in a directory. *)
Fixpoint descend (look : Z -> list Z -> res (option dentry)) (id : Z) (e : option dentry) (cs : list (list Z)) : res (option (Z * option dentry)) :=
  match cs with
  | [] => Ok (Some (id, e))
  | c :: cs =>
    match c with
    | [] => Ok None
    | _ =>
      let! r := look id c in
      match r with
      | None => Ok None
      | Some d => descend look (de_inode d) (Some d) cs
      end
    end
  end.
