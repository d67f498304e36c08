(* Model of an open volume through its calls: passwords, unlocking and the retrieval of file
   entries in libfsapfs_volume.c, with the caches of the blocks and of the nodes of the file
   system tree in libfsapfs_file_system_btree.c. The node cache of the object map is left out:
   the object map is not encrypted (C54). Locks are modelled in Locks.v. *)
From Verif Require Import Base BTree Walk Omap Records FsTree Name FsName Crypt KeyBag Volume Container DataRead VolumeSuper.

(* The state of a volume: what unlocking uses; the block of the root node once the file system
   has been determined (internal_volume->file_system); the data blocks and the nodes in the
   caches, each with the state of its replacement policy. *)
Record handle (P Q : Type) := mk_h { h_volume : volume; h_root : option Z; h_blocks : Q * list (Z * list Z); h_nodes : cache P }.
Arguments mk_h {P Q}. Arguments h_volume {P Q}. Arguments h_root {P Q}. Arguments h_blocks {P Q}. Arguments h_nodes {P Q}.

(* The file entry or its absence, a return value, or an error. *)
Inductive vanswer := AInt (r : Z) | AEntry (r : option (Z * inode * option dentry)) | AError.
(* Password and unlock calls, file entries by identifier (the root directory has identifier 2),
   by UTF-8 and by UTF-16 path. [j1], [j2]: the buffers on the stack when unlocking. *)
Inductive vcall :=
| VState (c : Volume.call)
| VId (id : Z) (j1 j2 : list Z)
| VPath (utf16 : bool) (str : list Z) (j1 j2 : list Z).

(* libfsapfs_volume.c 243-891: the parts of an open volume that unlock uses *)
Definition bags_of (c : container) (ov : open_volume) : bags :=
  {| b_volume := ov_bag ov; b_container := match c_bag c with Some (Some l) => l | _ => [] end; b_id := vs_id (ov_super ov) |}.

Section Session.
  (* libfcache: replacement of nodes and of data blocks *)
  Variables (P Q : Type).
  Variable evn : P -> list (Z * bnode) -> Z -> P * list (Z * bnode).
  Variable evb : Q -> list (Z * list Z) -> Z -> Q * list (Z * list Z).
  Variable aes : list Z -> list Z -> list Z.
  Variable sha : list Z -> list Z.
  Variable hmac : list Z -> list Z -> list Z.
  (* AES-128-XTS decryption: key, tweak key, tweak value, data *)
  Variable xts : list Z -> list Z -> list Z -> list Z -> list Z.
  (* What libcaes does when no keys have been set: an error, or some output *)
  Variable unkeyed : option (list Z -> list Z -> list Z).
  Variables (img : image) (ov : open_volume) (bg : bags).
  Notation M := (M (handle P Q)).

  (* libfsapfs_volume.c 619-640: an encryption context is created with the key bag of the
     volume; unlock sets its keys (1201-1208) *)
  Definition read_block_of (keys : option (list Z * list Z)) (b : Z) : res (list Z) :=
    if negb (b <? ov_size ov / 4096) then Fail else
    match ov_bag ov, keys, unkeyed with
    | None, _, _ => data_block_read img None (b * 4096) b
    | Some _, Some (k1, k2), _ => data_block_read img (Some (xts k1 k2)) (b * 4096) b
    | Some _, None, Some f => data_block_read img (Some f) (b * 4096) b
    | Some _, None, None => Fail
    end.

  (* libfdata_vector_get_element_value_by_index with data_block_cache; a block that was read is
     stored (libfsapfs_file_system_data_handle.c 345-361) *)
  Definition get_block (b : Z) : M (list Z) := fun h =>
    match find (fun e => fst e =? b) (snd (h_blocks h)) with
    | Some e => (Ok (snd e), h)
    | None =>
      match read_block_of (v_keys (h_volume h)) b with
      | Ok d =>
        let (q, l) := evb (fst (h_blocks h)) (snd (h_blocks h)) b in
        (Ok d, mk_h (h_volume h) (h_root h) (q, (b, d) :: l) (h_nodes h))
      | r => (r, h)
      end
    end.
  Definition put_node (b : Z) (n : bnode) (h : handle P Q) : handle P Q :=
    mk_h (h_volume h) (h_root h) (h_blocks h) (cache_set P evn (h_nodes h) b n).

  (* libfsapfs_file_system_btree.c 390-725: get_root_node *)
  Definition get_root : M (option bnode) := fun h =>
    match h_root h with
    | None => (Fail, h)
    | Some rb =>
      if int_max <? rb then (Fail, h)
      else match cache_find P (h_nodes h) rb with
           | Some n => (Ok (Some n), h)
           | None =>
             bindM (get_block rb) (fun d h =>
               match fs_load_root (fun _ => Some d) rb with
               | Ok (Some n) => (Ok (Some n), put_node rb n h)
               | r => (r, h)
               end) h
           end
    end.
  (* libfsapfs_file_system_btree.c 316-375 and 730-1015: get_sub_node, from the object
     identifier *)
  Definition get_sub (oid : Z) : M bnode :=
    bindM (retM (omap_lookup (within (ov_size ov) img) (ov_omap ov) oid (vs_xid (ov_super ov)))) (fun r =>
    match r with
    | None => retM Fail
    | Some d => fun h =>
      let b := od_address d in
      if int_max <? b then (Fail, h)
      else match cache_find P (h_nodes h) b with
           | Some n => (Ok n, h)
           | None =>
             bindM (get_block b) (fun d h =>
               match fs_load_sub (fun _ => Some d) b with
               | Ok n => (Ok n, put_node b n h)
               | r => (r, h)
               end) h
           end
    end).

  (* libfsapfs_volume.c 2795-2965: get_file_system. A volume that is locked is unlocked first;
     that the passwords do not match is no error (2836-2846). The caches are those of the tree
     that is created. *)
  Definition get_file_system (j1 j2 : list Z) : M unit := fun h =>
    match h_root h with
    | Some _ => (Ok tt, h)
    | None =>
      match (if v_locked (h_volume h) then unlock aes sha hmac bg (h_volume h) j1 j2 else Ok (0, h_volume h)) with
      | Ok (r, v) =>
        let h := mk_h v None (h_blocks h) (h_nodes h) in
        if r =? -1 then (Fail, h)
        else bindM (retM (omap_lookup (within (ov_size ov) img) (ov_omap ov) (vs_root (ov_super ov)) (vs_xid (ov_super ov)))) (fun d h =>
          match d with
          | None => (Fail, h)
          | Some d => (Ok tt, mk_h v (Some (od_address d)) (h_blocks h) (h_nodes h))
          end) h
      | Fail => (Fail, h)
      | Oob => (Oob, h)
      | Fuel => (Fuel, h)
      end
    end.

  (* libfsapfs_volume.c 2970-3074 (2623-2735 for the root directory), libfsapfs_file_system.c
     200-300 *)
  Definition by_id (id : Z) (j1 j2 : list Z) : M (option (Z * inode * option dentry)) :=
    bindM (get_file_system j1 j2) (fun _ =>
    bindM (walk get_root get_sub (fs_id_walker id 3)) (fun e =>
    retM (let! i := inode_finish e in Ok (match i with Some i => Some (i, None) | None => None end)))).
  (* libfsapfs_volume.c 3079-3205 and 3211-3337, libfsapfs_file_system.c 305-530 *)
  Definition by_path (utf16 : bool) (str : list Z) (j1 j2 : list Z) : M (option (Z * inode * option dentry)) :=
    bindM (get_file_system j1 j2) (fun _ =>
    inode_by_path (handle P Q) get_root get_sub (if utf16 then utf16_next else utf8_next) (volume_folds ov) 2 str).

  Definition answer_entry (m : M (option (Z * inode * option dentry))) (h : handle P Q) : res (vanswer * handle P Q) :=
    match m h with
    | (Ok r, h) => Ok (AEntry r, h)
    | (Fail, h) => Ok (AError, h)
    | (Oob, _) => Oob
    | (Fuel, _) => Fuel
    end.
  Definition vstep (h : handle P Q) (c : vcall) : res (vanswer * handle P Q) :=
    match c with
    | VState c => let! (r, v) := Volume.step aes sha hmac bg (h_volume h) c in Ok (AInt r, mk_h v (h_root h) (h_blocks h) (h_nodes h))
    | VId id j1 j2 => answer_entry (by_id id j1 j2) h
    | VPath u str j1 j2 => answer_entry (by_path u str j1 j2) h
    end.
  Fixpoint vrun (h : handle P Q) (cs : list vcall) : res (list vanswer * handle P Q) :=
    match cs with
    | [] => Ok ([], h)
    | c :: cs => let! (a, h) := vstep h c in let! (l, h) := vrun h cs in Ok (a :: l, h)
    end.

  (* libfsapfs_volume.c 243-891: after opening *)
  Definition fresh (p : P) (q : Q) : handle P Q :=
    mk_h {| v_locked := ov_locked ov; v_user := None; v_recovery := None; v_keys := None |} None (q, []) (p, []).
End Session.
