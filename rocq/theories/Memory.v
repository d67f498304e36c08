(* Model of what is allocated and given back by the path lookups, the file entries, the
   extended attribute objects and the snapshots. One block stands for an object with all that
   its free function frees: a directory record or an inode with its name, the array of the
   attributes with their values and extents, the array of the directory entries or of the file
   extents, a data stream with its segments and its data handle, a snapshot, a volume superblock.
   Not modelled: allocations that fail; blocks of the nodes and node caches (NodeCache.v,
   C65); the attribute and extents read temporarily inside the enumerations of FsTree.v; errors of
   the free functions themselves. *)
From Verif Require Import Base BTree Walk Omap Records FsTree Name FsName Crypt DataRead Compressed.
From Verif Require Import FileEntry Snapshot VolumeSuper ExtAttr.

Inductive kind := KEntry | KInode | KRecord | KAttrs | KHeader | KExtents | KDir | KLink | KStream | KAttr | KSnap | KSuper.
Definition kind_eqb (a b : kind) : bool :=
  match a, b with
  | KEntry, KEntry | KInode, KInode | KRecord, KRecord | KAttrs, KAttrs | KHeader, KHeader | KExtents, KExtents
  | KDir, KDir | KLink, KLink | KStream, KStream | KAttr, KAttr | KSnap, KSnap | KSuper, KSuper => true
  | _, _ => false
  end.
(* A block is its kind and its address. *)
Definition block : Type := kind * Z.
Definition block_eqb (a b : block) : bool := kind_eqb (fst a) (fst b) && (snd a =? snd b).

(* h_next: an address that was not yet handed out; h_bad: something was freed that was not
   allocated, or no longer *)
Record heap := mk_heap { h_next : Z; h_live : list block; h_bad : bool }.
Fixpoint take_out (b : block) (l : list block) : option (list block) :=
  match l with
  | [] => None
  | x :: l => if block_eqb x b then Some l else match take_out b l with None => None | Some l => Some (x :: l) end
  end.
Definition alloc (k : kind) : M heap block := fun h =>
  (Ok (k, h_next h), mk_heap (h_next h + 1) ((k, h_next h) :: h_live h) (h_bad h)).
Definition free (b : block) : M heap unit := fun h =>
  match take_out b (h_live h) with
  | Some l => (Ok tt, mk_heap (h_next h) l (h_bad h))
  | None => (Ok tt, mk_heap (h_next h) (h_live h) true)
  end.
Fixpoint frees (l : list block) : M heap unit :=
  match l with
  | [] => retM (Ok tt)
  | b :: l => bindM (free b) (fun _ => frees l)
  end.
(* on_error *)
Definition orelse {S A} (m : M S A) (clean : M S unit) : M S A := fun s =>
  match m s with
  | (Fail, s) => (Fail, snd (clean s))
  | p => p
  end.

(* ---- names and paths ---- *)

(* libfsapfs_file_system_btree.c 1577-1671 (UTF-8), 2234-2328 (UTF-16) *)
Fixpoint name_leaf_m (cmp : list Z * Z -> res comparison) (look : Z) (es : list bentry) : M heap (option (block * dentry)) :=
  match es with
  | [] => retM (Ok None)
  | e :: es =>
    onM (fs_word e) (fun k =>
    if k =? look then
      bindM (alloc KRecord) (fun b =>
      bindM (orelse (retM (let! p := dir_key (fst e) in
                           let! c := cmp p in
                           match c with
                           | Eq => let! (i, a) := dir_value (snd e) in Ok (Some (mk_de (fst p) (snd p) i a))
                           | _ => Ok None
                           end)) (free b)) (fun r =>
      match r with
      | Some d => retM (Ok (Some (b, d)))
      | None => bindM (free b) (fun _ => name_leaf_m cmp look es)
      end))
    else name_leaf_m cmp look es)
  end.
(* 1875-1952, 2044-2057 (UTF-8), 2532-2609, 2701-2714 (UTF-16) *)
Fixpoint name_branch_m (cmp : list Z * Z -> res comparison) (id : Z) (prev : option bentry) (es : list bentry) : M heap (option bentry) :=
  match es with
  | [] => retM (Ok prev)
  | e :: es =>
    onM (fs_word e) (fun k =>
    if (id <? word_id k) || ((word_id k =? id) && (9 <? word_type k)) then retM (Ok prev)
    else if (word_id k =? id) && (word_type k =? 9) then
      bindM (alloc KRecord) (fun b =>
      bindM (orelse (retM (let! p := dir_key (fst e) in cmp p)) (free b)) (fun c =>
      bindM (free b) (fun _ =>
      match c with
      | Lt => retM (Ok prev)
      | _ => name_branch_m cmp id (Some e) es
      end)))
    else name_branch_m cmp id (Some e) es)
  end.

Section Lookups.
  Variables (t : fs) (next : list Z -> res (Z * list Z)) (fold : bool).

  (* 1737-2042 (UTF-8), 2394-2699 (UTF-16) and their callers *)
  Fixpoint find_m (leaf branch : list Z * Z -> res comparison) (id : Z) (fuel : nat) (depth : Z) (n : bnode) : M heap (option (block * dentry)) :=
    match fuel with
    | O => retM Fuel
    | S f =>
      if is_leaf n then (if 257 <? depth then retM Fail else name_leaf_m leaf (lookup_word 9 id) (bn_entries n))
      else if max_depth <? depth then retM Fail
      else
        bindM (name_branch_m branch id None (bn_entries n)) (fun e =>
        onM (fs_child e) (fun c =>
        onM (fs_sub t c) (fun m => find_m leaf branch id f (depth + 1) m)))
    end.

  Definition opt_blocks {A} (r : option (block * A)) : list block := match r with Some p => [fst p] | None => [] end.

  (* 5816-5944 (UTF-8), 6533-6661 (UTF-16): the record of the segment before is freed once the
     hash of the next name is known (5871-5886), on an error at the end (6041-6047); an empty
     segment ends the loop as if the name was not found (5849-5852, 5926-5928) *)
  Fixpoint path_loop_m (n : bnode) (fuel : nat) (id : Z) (rec : option (block * dentry)) (str : list Z) : M heap (option (Z * option (block * dentry))) :=
    match str with
    | [] => retM (Ok (Some (id, rec)))
    | _ =>
      match fuel with
      | O => retM Fuel
      | S fuel =>
        bindM (orelse (retM (FsName.segment next (length str) str)) (frees (opt_blocks rec))) (fun p =>
        match fst p with
        | [] => retM (Ok None)
        | _ =>
          bindM (orelse (retM (name_hash next fold (fst p))) (frees (opt_blocks rec))) (fun h =>
          bindM (frees (opt_blocks rec)) (fun _ =>
          bindM (find_m (record_compare next fold h (fst p)) (record_compare next false h (fst p)) id walk_fuel 0 n) (fun r =>
          match r with
          | None => retM (Ok None)
          | Some (b, d) => path_loop_m n fuel (de_inode d) (Some (b, d)) (snd p)
          end)))
        end)
      end
    end.

  (* 5661-6055 (UTF-8), 6378-6772 (UTF-16): the inode with its block, and the record with its *)
  Definition inode_by_path_m (id : Z) (str : list Z) : M heap (option (block * (Z * inode) * option (block * dentry))) :=
    onM (fs_root t) (fun r =>
    match r with
    | None => retM (Ok None)
    | Some n =>
      let tail := match str with 47 :: l => l | _ => str end in
      bindM (if (len str =? 0) || (len str =? 1) then retM (Ok (Some (id, None)))
             else path_loop_m n (length str) id None tail) (fun r =>
      match r with
      | None => retM (Ok None)
      | Some (i, d) =>
        bindM (orelse (retM (let! e := fs_walk t (fs_id_walker i 3) in match e with None => Fail | Some e => Ok e end))
                      (frees (opt_blocks d))) (fun e =>
        bindM (alloc KInode) (fun b =>
        bindM (orelse (retM (read_inode e)) (bindM (frees (opt_blocks d)) (fun _ => free b))) (fun v =>
        retM (Ok (Some (b, v, d))))))
      end)
    end).
End Lookups.

(* ---- file entries ---- *)

(* What the fields of an entry point to: the structure itself with its inode and record, the
   attributes, the header of compressed data, the extents, the data stream, the link, the directory
   entries. *)
Record owns := mk_owns {
  o_base : list block; o_attrs : list block; o_header : list block; o_ext : list block;
  o_body : list block; o_link : list block; o_dir : list block }.
Definition owned (o : owns) : list block :=
  o_base o ++ o_attrs o ++ o_header o ++ o_ext o ++ o_body o ++ o_link o ++ o_dir o.
Definition own_attrs o l := mk_owns (o_base o) l (o_header o) (o_ext o) (o_body o) (o_link o) (o_dir o).
Definition own_header o l := mk_owns (o_base o) (o_attrs o) l (o_ext o) (o_body o) (o_link o) (o_dir o).
Definition own_ext o l := mk_owns (o_base o) (o_attrs o) (o_header o) l (o_body o) (o_link o) (o_dir o).
Definition own_body o l := mk_owns (o_base o) (o_attrs o) (o_header o) (o_ext o) l (o_link o) (o_dir o).
Definition own_link o l := mk_owns (o_base o) (o_attrs o) (o_header o) (o_ext o) (o_body o) l (o_dir o).
Definition own_dir o l := mk_owns (o_base o) (o_attrs o) (o_header o) (o_ext o) (o_body o) (o_link o) l.

Record mst := mk_mst { m_heap : heap; m_own : owns; m_st : fstate }.
Definition onheap {A} (m : M heap A) : M mst A := fun s =>
  let (r, h) := m (m_heap s) in (r, mk_mst h (m_own s) (m_st s)).
Definition setown (f : owns -> owns) : M mst unit := fun s => (Ok tt, mk_mst (m_heap s) (f (m_own s)) (m_st s)).
Definition setst (f : fstate -> fstate) : M mst unit := fun s => (Ok tt, mk_mst (m_heap s) (m_own s) (f (m_st s))).
Definition getst : M mst fstate := fun s => (Ok (m_st s), s).
(* A field is set to a new block, or to what is left when it was freed. *)
Definition newfield (k : kind) (set : owns -> list block -> owns) : M mst block :=
  bindM (onheap (alloc k)) (fun b => bindM (setown (fun o => set o [b])) (fun _ => retM (Ok b))).
Definition clearfield (get : owns -> list block) (set : owns -> list block -> owns) : M mst unit := fun s =>
  bindM (onheap (frees (get (m_own s)))) (fun _ => setown (fun o => set o [])) s.

Section Entry.
  Variable lzvn : list Z -> Z -> res (list Z).
  Variable junk : list Z -> list Z -> list Z.
  Variable e : fentry.

  (* libfsapfs_attributes.c 40-203: what was allocated for a stream that fails is freed there *)
  Definition stream_m (a : attr) : M heap (option (block * stream)) :=
    onM (attr_stream e a) (fun o =>
    match o with
    | None => retM (Ok None)
    | Some s => bindM (alloc KStream) (fun b => retM (Ok (Some (b, s))))
    end).

  (* libfsapfs_file_entry.c 1892-1937, 2031-2039 *)
  Definition get_attrs_m : M mst fattrs :=
    bindM getst (fun st =>
    match f_attrs st with
    | Some a => retM (Ok a)
    | None =>
      bindM (newfield KAttrs own_attrs) (fun _ =>
      bindM (orelse (retM (let! l := fs_attrs (fe_tree e) (fe_id e) in classify l (mk_fa l None None None)))
                    (clearfield o_attrs own_attrs)) (fun a =>
      bindM (setst (fun st => set_attrs st a)) (fun _ => retM (Ok a))))
    end).

  (* 4962-5090: the stream is freed once the header was read (5005-5016), but a short read returns at
     once (4991-5003); the header object is freed if it cannot be read (5097-5103) or its
     method is not known (5052-5066) *)
  Definition get_data_size_m : M mst unit :=
    bindM getst (fun st =>
    match f_header st with
    | Some _ => retM Fail
    | None =>
      bindM get_attrs_m (fun a =>
      match fa_comp a with
      | None => setst (fun st => set_size st None (in_size (fe_inode e)))
      | Some x =>
        bindM (onheap (stream_m x)) (fun o =>
        bindM (retM (read_all (option_map snd o) 0 16)) (fun d =>
        bindM (onheap (frees (opt_blocks o))) (fun _ =>
        bindM (newfield KHeader own_header) (fun _ =>
        bindM (orelse (retM (read_compressed_header d)) (clearfield o_header own_header)) (fun h =>
        match h with
        | None => bindM (clearfield o_header own_header) (fun _ => setst (fun st => set_size st None (in_size (fe_inode e))))
        | Some (m, z) => setst (fun st => set_size st (Some (m, z)) z)
        end)))))
      end)
    end).
  Definition need_size_m : M mst Z :=
    bindM getst (fun st =>
    if f_size st =? unset then bindM get_data_size_m (fun _ => bindM getst (fun st => retM (Ok (f_size st))))
    else retM (Ok (f_size st))).

  (* 4233-4276 *)
  Definition get_extents_m : M mst (list extent) :=
    bindM getst (fun st =>
    match f_extents st with
    | Some l => retM (Ok l)
    | None =>
      bindM (newfield KExtents own_ext) (fun _ =>
      bindM (orelse (retM (fs_extents (fe_tree e) (in_stream (fe_inode e)))) (clearfield o_ext own_ext)) (fun l =>
      bindM (setst (fun st => set_extents st l)) (fun _ => retM (Ok l))))
    end).

  (* 4344-4375: the methods that pass the switch *)
  Definition switch_method (m : Z) : bool :=
    (m =? 3) || (m =? 4) || (m =? 5) || (m =? 7) || (m =? 8) || (m =? 11) || (m =? 12).
  (* 4282-4515: compressed_data_stream is a local variable that is given to the data handle and
     freed by no one, libfsapfs_compressed_data_handle.c 191-231 and file_entry.c 4507-4514 *)
  Definition get_data_stream_m : M mst unit :=
    bindM need_size_m (fun size =>
    bindM getst (fun st =>
    match f_header st with
    | Some (m, _) =>
      onM (check (switch_method m)) (fun _ =>
      onM (match f_attrs st with
           | None => Fail
           | Some a => match (if (m =? 4) || (m =? 8) then fa_fork a else fa_comp a) with Some x => Ok x | None => Fail end
           end) (fun a =>
      bindM (onheap (stream_m a)) (fun o =>
      match o with
      | None => retM Fail
      | Some (_, s) =>
        onM (let! method := method_of m in let! _ := check (size <? 2 ^ 63) in Ok method) (fun method =>
        bindM (newfield KStream own_body) (fun _ =>
        setst (fun st => set_body st (Packed method (mk_src (st_size s) (DataRead.stream_read s)) size ch_init) 0)))
      end)))
    | None =>
      bindM get_extents_m (fun l =>
      onM (stream_of_extents (fe_img e) (fe_ctx e) l (in_size (fe_inode e)) (Z.testbit (in_flags (fe_inode e)) 9)) (fun s =>
      bindM (newfield KStream own_body) (fun _ => setst (fun st => set_body st (Plain s) 0))))
    end)).
  Definition need_stream_m : M mst body :=
    bindM getst (fun st =>
    match f_body st with
    | Some b => retM (Ok b)
    | None => bindM get_data_stream_m (fun _ => bindM getst (fun st => retM (match f_body st with Some b => Ok b | None => Fail end)))
    end).

  (* A call that changes the values of the entry only. *)
  Definition onst {A} (m : M fstate A) : M mst A := fun s =>
    let (r, st) := m (m_st s) in (r, mk_mst (m_heap s) (m_own s) st).
  Definition entry_read_m (off : option Z) (n : Z) : M mst (list Z) :=
    bindM need_stream_m (fun _ => onst (entry_read lzvn junk e off n)).
  Definition entry_seek_m (off w : Z) : M mst Z := bindM need_stream_m (fun _ => onst (entry_seek e off w)).
  Definition entry_offset_m : M mst Z := bindM need_stream_m (fun _ => onst (entry_offset e)).

  (* 2045-2196 *)
  Definition entry_link_m : M mst (option (list Z)) :=
    bindM getst (fun st =>
    match f_link st with
    | Some v => retM (Ok (Some v))
    | None =>
      bindM get_attrs_m (fun a =>
      match fa_link a with
      | None => retM (Ok None)
      | Some x =>
        onM (check (negb ((attr_size x =? 0) || (134217728 <? attr_size x)))) (fun _ =>
        bindM (newfield KLink own_link) (fun _ =>
        bindM (orelse (onheap (stream_m x)) (clearfield o_link own_link)) (fun o =>
        bindM (orelse (retM (read_all (option_map snd o) 0 (attr_size x)))
                      (bindM (onheap (frees (opt_blocks o))) (fun _ => clearfield o_link own_link))) (fun v =>
        bindM (onheap (frees (opt_blocks o))) (fun _ =>
        bindM (setst (fun st => set_link st v)) (fun _ => retM (Ok (Some v))))))))
      end)
    end).

  (* 3503-3547 *)
  Definition get_dir_m : M mst (list dentry) :=
    bindM getst (fun st =>
    match f_dir st with
    | Some l => retM (Ok l)
    | None =>
      bindM (newfield KDir own_dir) (fun _ =>
      bindM (orelse (retM (fs_dir (fe_tree e) (fe_id e))) (clearfield o_dir own_dir)) (fun l =>
      bindM (setst (fun st => set_dir st l)) (fun _ => retM (Ok l))))
    end).

  (* The calls of FileEntry.v. *)
  Definition answer_m {A} (f : A -> fanswer) (m : M mst A) (s : mst) : res (fanswer * mst) :=
    let (r, s) := m s in
    match r with
    | Ok a => Ok (f a, s)
    | Fail => Ok (RError, s)
    | Oob => Oob
    | Fuel => Fuel
    end.
  Definition entry_call_m (c : fcall) : mst -> res (fanswer * mst) :=
    match c with
    | CSize => answer_m RSize need_size_m
    | CRead n => answer_m RBytes (entry_read_m None n)
    | CReadAt off n => answer_m RBytes (entry_read_m (Some off) n)
    | CSeek off w => answer_m RPos (entry_seek_m off w)
    | COffset => answer_m RPos entry_offset_m
    | CExtents => answer_m RCount (bindM get_extents_m (fun l => retM (Ok (len l))))
    | CExtent i => answer_m (fun p => RExtent (fst p) (snd p)) (bindM get_extents_m (fun _ => onst (entry_extent e i)))
    | CAttrs => answer_m RCount (bindM get_attrs_m (fun a => retM (Ok (len (fa_all a)))))
    | CLink => answer_m RLink entry_link_m
    end.

  (* 3643-3848: a sub entry by its index, with the blocks of its structure *)
  Definition entry_sub_m (i : Z) : M mst (fentry * list block) :=
    bindM get_dir_m (fun l =>
    onM (if (0 <=? i) && (i <? len l) then
           let! d := getb l i in
           let! r := fs_inode (fe_tree e) (de_inode d) in
           match r with
           | None => Fail
           | Some (id, v) => Ok (mk_fe (fe_tree e) (fe_img e) (fe_ctx e) id v (Some d))
           end
         else Fail) (fun x =>
    bindM (onheap (alloc KInode)) (fun a =>
    bindM (onheap (alloc KRecord)) (fun b =>
    bindM (onheap (alloc KEntry)) (fun c => retM (Ok (x, [a; b; c]))))))).
  (* 3853-4016, 4021-4184 *)
  Definition by_path_m (t : fs) (img : image) (ctx : option (list Z -> list Z -> list Z)) next (fold : bool) (id : Z) (str : list Z) : M heap (option (fentry * list block)) :=
    bindM (inode_by_path_m t next fold id str) (fun r =>
    match r with
    | None => retM (Ok None)
    | Some (b, (i, v), d) =>
      bindM (alloc KEntry) (fun c => retM (Ok (Some (mk_fe t img ctx i v (option_map snd d), b :: opt_blocks d ++ [c]))))
    end).
  Definition sub_by_name_m next (fold : bool) (str : list Z) : M heap (option (fentry * list block)) :=
    by_path_m (fe_tree e) (fe_img e) (fe_ctx e) next fold (fe_id e) str.
  (* libfsapfs_file_system.c 202-300 (an entry by its identifier) *)
  Definition by_id_m (t : fs) (img : image) (ctx : option (list Z -> list Z -> list Z)) (id : Z) : M heap (option (fentry * list block)) :=
    onM (fs_inode t id) (fun r =>
    match r with
    | None => retM (Ok None)
    | Some (i, v) =>
      bindM (alloc KInode) (fun b => bindM (alloc KEntry) (fun c => retM (Ok (Some (mk_fe t img ctx i v None, [b; c])))))
    end).
  (* 477-639 *)
  Definition parent_m : M heap (option (fentry * list block)) :=
    onM (entry_parent e) (fun r =>
    match r with
    | None => retM (Ok None)
    | Some x => bindM (alloc KInode) (fun b => bindM (alloc KEntry) (fun c => retM (Ok (Some (x, [b; c])))))
    end).
End Entry.

(* ---- a program that uses a volume ---- *)

(* OEntry: an entry with what it owns; OAttr: an extended attribute object, borrowing the values of
   the attribute from its entry; OSnap: a snapshot, what it owns and its superblock *)
Inductive obj :=
| OEntry (e : fentry) (o : owns) (st : fstate)
| OAttr (e : fentry) (a : attr) (base stream : list block) (x : xstate)
| OSnap (own : list block) (super : block)
| OFreed.
Record prog := mk_prog { p_heap : heap; p_objs : list obj }.
Definition start_owns (l : list block) : owns := mk_owns l [] [] [] [] [] [].
Inductive pcall :=
| PById (id : Z) | PByPath (u : bool) (str : list Z)
| PCall (k : nat) (c : fcall) | PSub (k : nat) (i : Z) | PSubByName (k : nat) (u : bool) (str : list Z) | PParent (k : nat)
| PAttr (k : nat) (i : Z) | PAttrByName (k : nat) (u : bool) (str : list Z) | PXCall (k : nat) (c : xcall)
| PSnap (i : Z) | PFree (k : nat).
Inductive panswer :=
| QNew | QNone | QError | QEntry (a : fanswer) | QAttr (a : xanswer) | QDone.

Fixpoint put_obj (k : nat) (o : obj) (l : list obj) : list obj :=
  match l, k with
  | [], _ => []
  | _ :: l, O => o :: l
  | x :: l, S k => x :: put_obj k o l
  end.
(* the data stream of an extended attribute object is new when it was not there before *)
Definition x_owned (st st' : xstate) (own : list block) : M heap (list block) :=
  match x_stream st, x_stream st' with
  | None, Some _ => bindM (alloc KStream) (fun b => retM (Ok [b]))
  | _, _ => retM (Ok own)
  end.

Section Program.
  Variable lzvn : list Z -> Z -> res (list Z).
  Variable junk : list Z -> list Z -> list Z.
  Variables (t : fs) (img : image) (ctx : option (list Z -> list Z -> list Z)) (fold : bool) (v : open_volume).
  Definition next_of (u : bool) : list Z -> res (Z * list Z) := if u then utf16_next else utf8_next.

  Definition new_entry (p : prog) (m : M heap (option (fentry * list block))) : res (panswer * prog) :=
    match m (p_heap p) with
    | (Ok None, h) => Ok (QNone, mk_prog h (p_objs p))
    | (Ok (Some (e, l)), h) => Ok (QNew, mk_prog h (p_objs p ++ [OEntry e (start_owns l) f_init]))
    | (Fail, h) => Ok (QError, mk_prog h (p_objs p))
    | (Oob, _) => Oob
    | (Fuel, _) => Fuel
    end.
  (* libfsapfs_file_entry.c 2805-2823, 3157-3454: an object for an attribute *)
  Definition new_attr (p : prog) (k : nat) (e : fentry) (o : owns) (st : fstate) (m : fattrs -> res (option attr)) : res (panswer * prog) :=
    match bindM (get_attrs_m e) (fun a => onM (m a) (fun x =>
            match x with
            | None => retM (Ok None)
            | Some x => bindM (onheap (alloc KAttr)) (fun b => retM (Ok (Some (x, b))))
            end)) (mk_mst (p_heap p) o st) with
    | (Ok None, s) => Ok (QNone, mk_prog (m_heap s) (put_obj k (OEntry e (m_own s) (m_st s)) (p_objs p)))
    | (Ok (Some (x, b)), s) =>
      Ok (QNew, mk_prog (m_heap s) (put_obj k (OEntry e (m_own s) (m_st s)) (p_objs p) ++ [OAttr e x [b] [] x_init]))
    | (Fail, s) => Ok (QError, mk_prog (m_heap s) (put_obj k (OEntry e (m_own s) (m_st s)) (p_objs p)))
    | (Oob, _) => Oob
    | (Fuel, _) => Fuel
    end.

  (* libfsapfs_volume.c 3416-3569, libfsapfs_snapshot.c 218-301: a superblock is allocated for the
     snapshot (266-278), and freed by neither on_error (299-300) nor libfsapfs_snapshot_free (170-213) *)
  Definition snap_m (i : Z) : M heap (list block * block) :=
    onM (check ((0 <=? i) && (i <? len (ov_snapshots v)))) (fun _ =>
    bindM (alloc KSnap) (fun a =>
    bindM (alloc KSuper) (fun b =>
    bindM (orelse (retM (snapshot_open img v i)) (free a)) (fun _ => retM (Ok ([a], b)))))).

  (* libfsapfs_file_entry.c 161-326, libfsapfs_extended_attribute.c 162-221,
     libfsapfs_snapshot.c 170-213 *)
  Definition free_obj (o : obj) : M heap unit :=
    match o with
    | OEntry _ o _ => frees (owned o)
    | OAttr _ _ b s _ => frees (s ++ b)
    | OSnap l _ => frees l
    | OFreed => retM (Ok tt)
    end.

  (* Calls that do not fit the object are not made. *)
  Definition pstep (p : prog) (c : pcall) : res (panswer * prog) :=
    match c with
    | PById id => new_entry p (by_id_m t img ctx id)
    | PByPath u str => new_entry p (by_path_m t img ctx (next_of u) fold 2 str)
    | PSnap i =>
      match snap_m i (p_heap p) with
      | (Ok (l, b), h) => Ok (QNew, mk_prog h (p_objs p ++ [OSnap l b]))
      | (Fail, h) => Ok (QError, mk_prog h (p_objs p))
      | (Oob, _) => Oob
      | (Fuel, _) => Fuel
      end
    | PFree k =>
      match nth_error (p_objs p) k with
      | Some o => Ok (QDone, mk_prog (snd (free_obj o (p_heap p))) (put_obj k OFreed (p_objs p)))
      | None => Ok (QDone, p)
      end
    | PCall k c =>
      match nth_error (p_objs p) k with
      | Some (OEntry e o st) =>
        let! (a, s) := entry_call_m lzvn junk e c (mk_mst (p_heap p) o st) in
        Ok (QEntry a, mk_prog (m_heap s) (put_obj k (OEntry e (m_own s) (m_st s)) (p_objs p)))
      | _ => Ok (QDone, p)
      end
    | PSub k i =>
      match nth_error (p_objs p) k with
      | Some (OEntry e o st) =>
        match entry_sub_m e i (mk_mst (p_heap p) o st) with
        | (Ok (x, l), s) =>
          Ok (QNew, mk_prog (m_heap s) (put_obj k (OEntry e (m_own s) (m_st s)) (p_objs p) ++ [OEntry x (start_owns l) f_init]))
        | (Fail, s) => Ok (QError, mk_prog (m_heap s) (put_obj k (OEntry e (m_own s) (m_st s)) (p_objs p)))
        | (Oob, _) => Oob
        | (Fuel, _) => Fuel
        end
      | _ => Ok (QDone, p)
      end
    | PSubByName k u str =>
      match nth_error (p_objs p) k with
      | Some (OEntry e _ _) => new_entry p (sub_by_name_m e (next_of u) fold str)
      | _ => Ok (QDone, p)
      end
    | PParent k =>
      match nth_error (p_objs p) k with
      | Some (OEntry e _ _) => new_entry p (parent_m e)
      | _ => Ok (QDone, p)
      end
    | PAttr k i =>
      match nth_error (p_objs p) k with
      | Some (OEntry e o st) =>
        new_attr p k e o st (fun a => if (0 <=? i) && (i <? len (fa_all a)) then let! x := getb (fa_all a) i in Ok (Some x) else Fail)
      | _ => Ok (QDone, p)
      end
    | PAttrByName k u str =>
      match nth_error (p_objs p) k with
      | Some (OEntry e o st) => new_attr p k e o st (fun a => attr_by_name (next_of u) str (fa_all a))
      | _ => Ok (QDone, p)
      end
    | PXCall k c =>
      match nth_error (p_objs p) k with
      | Some (OAttr e a b l x) =>
        let! (r, x') := x_call e a c x in
        match x_owned x x' l (p_heap p) with
        | (Ok l, h) => Ok (QAttr r, mk_prog h (put_obj k (OAttr e a b l x') (p_objs p)))
        | (_, _) => Fail
        end
      | _ => Ok (QDone, p)
      end
    end.
  Fixpoint psteps (p : prog) (cs : list pcall) : res (list panswer * prog) :=
    match cs with
    | [] => Ok ([], p)
    | c :: cs =>
      let! (a, p) := pstep p c in
      let! (l, p) := psteps p cs in
      Ok (a :: l, p)
    end.
End Program.
