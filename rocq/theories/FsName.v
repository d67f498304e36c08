(* Model of the name and path lookups of libfsapfs_file_system_btree.c. The functions for
   UTF-8 and UTF-16 strings differ in the decoder only.
   Not modelled: the pointer to the root node that is kept during a lookup while nodes
   are added to the cache it points into. *)
From Verif Require Import Base BTree Walk Omap Records FsTree Name.

(* libfsapfs_directory_record.c 912-969: compare_name_with_utf8_string, 1056-1113:
   compare_name_with_utf16_string. [h] is the hash of the string, [k] the name and the
   hash of the record (0 if it has none). Lt: the string is less than the name. *)
Definition record_compare (next : list Z -> res (Z * list Z)) (fold : bool) (h : Z) (str : list Z) (k : list Z * Z) : res comparison :=
  if negb (snd k =? 0) && negb (h =? 0) then
    if h <? snd k then Ok Lt else if snd k <? h then Ok Gt else name_compare next fold (fst k) str
  else name_compare next fold (fst k) str.

(* libfsapfs_file_system_btree.c 1406-1672 (UTF-8), 2063-2329 (UTF-16): leaf node *)
Fixpoint name_leaf (cmp : list Z * Z -> res comparison) (look : Z) (es : list bentry) : res (option dentry) :=
  match es with
  | [] => Ok None
  | e :: es =>
    let! k := fs_word e in
    if k =? look then
      let! p := dir_key (fst e) in
      let! c := cmp p in
      match c with
      | Eq => let! (i, a) := dir_value (snd e) in Ok (Some (mk_de (fst p) (snd p) i a))
      | _ => name_leaf cmp look es
      end
    else name_leaf cmp look es
  end.

(* libfsapfs_file_system_btree.c 1799-1952 (UTF-8), 2456-2609 (UTF-16): the entry of a
   branch node whose child is visited *)
Fixpoint name_branch (cmp : list Z * Z -> res comparison) (id : Z) (prev : option bentry) (es : list bentry) : res (option bentry) :=
  match es with
  | [] => Ok prev
  | e :: es =>
    let! k := fs_word e in
    if (id <? word_id k) || ((word_id k =? id) && (9 <? word_type k)) then Ok prev
    else if (word_id k =? id) && (word_type k =? 9) then
      let! p := dir_key (fst e) in
      let! c := cmp p in
      match c with
      | Lt => Ok prev
      | _ => name_branch cmp id (Some e) es
      end
    else name_branch cmp id (Some e) es
  end.

(* Leaf nodes are compared with the case sensitivity of the volume, branch nodes always
   case-sensitive (lines 1612 and 1919). The depth is checked for branch nodes only. *)
Definition name_walker (leaf branch : list Z * Z -> res comparison) (id : Z) : walker (option dentry) :=
  mk_walker
    (fun n => name_leaf leaf (lookup_word 9 id) (bn_entries n))
    (fun n => [let! e := name_branch branch id None (bn_entries n) in fs_child e])
    None (fun _ a => a) 257.

(* libfsapfs_file_system_btree.c 5821-5847 (UTF-8), 6538-6564 (UTF-16): the next segment
   of a path, up to a separator or an end-of-string character, and what follows it *)
Fixpoint segment (next : list Z -> res (Z * list Z)) (fuel : nat) (l : list Z) : res (list Z * list Z) :=
  match l with
  | [] => Ok ([], [])
  | _ =>
    match fuel with
    | O => Fuel
    | S fuel =>
      let! (c, r) := next l in
      if (c =? 47) || (c =? 0) then Ok ([], r)
      else
        let! (s, r') := segment next fuel r in
        Ok (firstn (length l - length r) l ++ s, r')
    end
  end.

Section Lookups.
  Variables (S : Type) (root : M S (option bnode)) (get : Z -> M S bnode).
  Variables (next : list Z -> res (Z * list Z)) (fold : bool).

  (* The part common to 5477-5519, 5855-5913 (UTF-8), 6194-6236, 6572-6630 (UTF-16): from
     the root node n, the directory record of a name *)
  Definition find_record (n : bnode) (id : Z) (str : list Z) : M S (option dentry) :=
    bindM (retM (name_hash next fold str)) (fun h =>
    visit get (name_walker (record_compare next fold h str) (record_compare next false h str) id) walk_fuel 0 n).

  (* libfsapfs_file_system_btree.c 5550-5639, 5947-6038: the inode of a record *)
  Definition entry_of (id : Z) : M S (option bentry) := walk root get (fs_id_walker id 3).

  (* libfsapfs_file_system_btree.c 5343-5656: get_inode_by_utf8_name, 6060-6373:
     get_inode_by_utf16_name. Line 5562 (6279) fails when the entry was found. *)
  Definition inode_by_name (id : Z) (str : list Z) : M S (option (Z * inode * dentry)) :=
    bindM root (fun r =>
    match r with
    | None => retM (Ok None)
    | Some n =>
      bindM (find_record n id str) (fun r =>
      match r with
      | None => retM (Ok None)
      | Some d =>
        bindM (entry_of (de_inode d)) (fun e =>
        retM (let! _ := check (match e with Some _ => false | None => true end) in
              match e with
              | None => Fail
              | Some e => let! i := read_inode e in Ok (Some (i, d))
              end))
      end)
    end).

  (* libfsapfs_file_system_btree.c 5816-5944 (UTF-8), 6533-6661 (UTF-16): the loop over
     the segments. The result is the identifier and the record of the last one. *)
  Fixpoint path_loop (n : bnode) (fuel : nat) (id : Z) (rec : option dentry) (str : list Z) : M S (option (Z * option dentry)) :=
    match str with
    | [] => retM (Ok (Some (id, rec)))
    | _ =>
      match fuel with
      | O => retM Fuel
      | Datatypes.S fuel =>
        bindM (retM (segment next (length str) str)) (fun p =>
        match fst p with
        | [] => retM (Ok None)
        | _ =>
          bindM (find_record n id (fst p)) (fun r =>
          match r with
          | None => retM (Ok None)
          | Some d => path_loop n fuel (de_inode d) (Some d) (snd p)
          end)
        end)
      end
    end.

  (* libfsapfs_file_system_btree.c 5661-6055: get_inode_by_utf8_path, 6378-6772:
     get_inode_by_utf16_path *)
  Definition inode_by_path (id : Z) (str : list Z) : M S (option (Z * inode * option dentry)) :=
    bindM root (fun r =>
    match r with
    | None => retM (Ok None)
    | Some n =>
      let tail := match str with 47 :: l => l | _ => str end in
      bindM (if (len str =? 0) || (len str =? 1) then retM (Ok (Some (id, None)))
             else path_loop n (length str) id None tail) (fun r =>
      match r with
      | None => retM (Ok None)
      | Some (i, d) =>
        bindM (entry_of i) (fun e =>
        match e with
        | None => retM Fail
        | Some e => retM (let! i := read_inode e in Ok (Some (i, d)))
        end)
      end)
    end).
End Lookups.

(* Without caches. *)
Definition fs_record (t : fs) next fold (id : Z) (str : list Z) : res (option dentry) :=
  let! r := fs_root t in
  match r with
  | None => Ok None
  | Some n => fst (find_record unit (pure (fs_sub t)) next fold n id str tt)
  end.
Definition fs_by_name (t : fs) next fold (id : Z) (str : list Z) : res (option (Z * inode * dentry)) :=
  fst (inode_by_name unit (retM (fs_root t)) (pure (fs_sub t)) next fold id str tt).
(* libfsapfs_file_entry.c 3853-4016 (get_sub_file_entry_by_utf8_name) and
   libfsapfs_file_system.c 305-415 (get_file_entry_by_utf8_path, with identifier 2) *)
Definition fs_by_path (t : fs) next fold (id : Z) (str : list Z) : res (option (Z * inode * option dentry)) :=
  fst (inode_by_path unit (retM (fs_root t)) (pure (fs_sub t)) next fold id str tt).

(* With the node caches. *)
Section Cached.
  Variables (P Q : Type).
  Variables (evp : P -> list (Z * bnode) -> Z -> P * list (Z * bnode)).
  Variables (evq : Q -> list (Z * bnode) -> Z -> Q * list (Z * bnode)).
  Definition by_name_cached (t : fs) := inode_by_name (caches P Q) (fs_root_cached P Q evp t) (fs_sub_cached P Q evp evq t).
  Definition by_path_cached (t : fs) := inode_by_path (caches P Q) (fs_root_cached P Q evp t) (fs_sub_cached P Q evp evq t).
End Cached.
