(* Model of an open file entry: the attributes, size, data, extents, symbolic link target,
   sub entries and parent of libfsapfs_file_entry.c, libfsapfs_attributes.c and
   libfsapfs_extended_attribute.c. The tree is read without node caches (C54). Locks are
   modelled in Locks.v. Not modelled: allocation failures; what is freed is in Memory.v. *)
From Verif Require Import Base Name Walk Omap Records FsTree FsName Crypt DataRead.
From Verif Require Import Compressed.

(* libuna_utf8_string_compare_with_utf8_stream and libuna_utf16_string_compare_with_utf8_stream
   (external), as far as the result is LIBUNA_COMPARE_EQUAL: a byte order mark at the start of
   the stream is skipped and an end-of-string character at the end of either is ignored; the
   characters are compared up to the first difference. *)
Definition drop_bom (l : list Z) : list Z :=
  match l with
  | a :: b :: c :: r => if (a =? 0xef) && (b =? 0xbb) && (c =? 0xbf) then r else l
  | _ => l
  end.
Fixpoint una_loop (next : list Z -> res (Z * list Z)) (fuel : nat) (str name : list Z) : res bool :=
  match str, name with
  | [], [] => Ok true
  | [], _ | _, [] => Ok false
  | _, _ =>
    match fuel with
    | O => Fuel
    | S fuel =>
      let! (c, str) := next str in
      let! (d, name) := utf8_next name in
      if c =? d then una_loop next fuel str name else Ok false
    end
  end.
Definition una_equal (next : list Z -> res (Z * list Z)) (str name : list Z) : res bool :=
  una_loop next (length name) (strip str) (drop_bom (strip name)).

(* "com.apple.decmpfs", "com.apple.ResourceFork", "com.apple.fs.symlink" *)
Definition decmpfs_key : list Z := [99; 111; 109; 46; 97; 112; 112; 108; 101; 46; 100; 101; 99; 109; 112; 102; 115].
Definition fork_key : list Z := [99; 111; 109; 46; 97; 112; 112; 108; 101; 46; 82; 101; 115; 111; 117; 114; 99; 101; 70; 111; 114; 107].
Definition symlink_key : list Z := [99; 111; 109; 46; 97; 112; 112; 108; 101; 46; 102; 115; 46; 115; 121; 109; 108; 105; 110; 107].

(* extended_attributes_array, compressed_data_attribute_values,
   resource_fork_attribute_values, symbolic_link_attribute_values *)
Record fattrs := mk_fa { fa_all : list attr; fa_comp : option attr; fa_fork : option attr; fa_link : option attr }.

(* libfsapfs_file_entry.c 1939-2028: the loop over the attributes; a later one of the same
   name replaces an earlier one *)
Fixpoint classify (l : list attr) (a : fattrs) : res fattrs :=
  match l with
  | [] => Ok a
  | x :: l =>
    let! c := una_equal utf8_next decmpfs_key (at_name x) in
    if c then classify l (mk_fa (fa_all a) (Some x) (fa_fork a) (fa_link a))
    else
      let! f := una_equal utf8_next fork_key (at_name x) in
      if f then classify l (mk_fa (fa_all a) (fa_comp a) (Some x) (fa_link a))
      else
        let! s := una_equal utf8_next symlink_key (at_name x) in
        if s then classify l (mk_fa (fa_all a) (fa_comp a) (fa_fork a) (Some x))
        else classify l a
  end.

(* libfsapfs_file_entry.c 2847-2947 (UTF-8), 2952-3052 (UTF-16): the first attribute of a name *)
Fixpoint attr_by_name (next : list Z -> res (Z * list Z)) (str : list Z) (l : list attr) : res (option attr) :=
  match l with
  | [] => Ok None
  | x :: l =>
    let! e := una_equal next str (at_name x) in
    if e then Ok (Some x) else attr_by_name next str l
  end.

(* attribute_values->value_data_size *)
Definition attr_size (a : attr) : Z :=
  match at_data a with AStream _ size => size | AInline v => len v | ANone => 0 end.

(* What a file entry is opened with: the tree, the device, the encryption context, the
   identifier and value of the inode, and the directory record. *)
Record fentry := mk_fe {
  fe_tree : fs; fe_img : image; fe_ctx : option (list Z -> list Z -> list Z);
  fe_id : Z; fe_inode : inode; fe_rec : option dentry }.

(* The data stream of an entry: read from extents or a buffer, or decompressed. *)
Inductive body :=
| Plain (s : stream)
| Packed (method : Z) (src : source) (usize : Z) (h : chandle).

(* The fields filled in when first needed; libfsapfs_file_entry.c 54-156 sets all to NULL and
   data_size to 2^64 - 1. fs_cur is the offset of data_stream. *)
Record fstate := mk_fs_st {
  f_attrs : option fattrs; f_header : option (Z * Z); f_size : Z; f_extents : option (list extent);
  f_body : option body; f_cur : Z; f_link : option (list Z); f_dir : option (list dentry) }.
Definition unset : Z := 2 ^ 64 - 1.
Definition f_init : fstate := mk_fs_st None None unset None None 0 None None.
Definition set_attrs st a := mk_fs_st (Some a) (f_header st) (f_size st) (f_extents st) (f_body st) (f_cur st) (f_link st) (f_dir st).
Definition set_size st h z := mk_fs_st (f_attrs st) h z (f_extents st) (f_body st) (f_cur st) (f_link st) (f_dir st).
Definition set_extents st l := mk_fs_st (f_attrs st) (f_header st) (f_size st) (Some l) (f_body st) (f_cur st) (f_link st) (f_dir st).
Definition set_body st b c := mk_fs_st (f_attrs st) (f_header st) (f_size st) (f_extents st) (Some b) c (f_link st) (f_dir st).
Definition set_link st v := mk_fs_st (f_attrs st) (f_header st) (f_size st) (f_extents st) (f_body st) (f_cur st) (Some v) (f_dir st).
Definition set_dir st l := mk_fs_st (f_attrs st) (f_header st) (f_size st) (f_extents st) (f_body st) (f_cur st) (f_link st) (Some l).

(* Continue with the value of r, or stop with its error. *)
Definition onM {S A B} (r : res A) (k : A -> M S B) : M S B := bindM (retM r) k.

Section Entry.
  Variable lzvn : list Z -> Z -> res (list Z).
  Variable junk : list Z -> list Z -> list Z.
  Variable e : fentry.

  (* libfsapfs_attributes.c 121-203 with 40-116: the data stream of an attribute, None if it is
     left NULL. The extents of the attribute are kept with it, which changes no value. *)
  Definition attr_stream (a : attr) : res (option stream) :=
    if Z.testbit (at_flags a) 0 then
      match at_data a with
      | AStream sid size =>
        let! l := fs_extents (fe_tree e) sid in
        let! s := stream_of_extents (fe_img e) (fe_ctx e) l size false in
        Ok (Some s)
      | _ => Fail
      end
    else if Z.testbit (at_flags a) 1 then
      Ok (Some (stream_of_data (match at_data a with AInline v => v | _ => [] end)))
    else Ok None.
  (* libfdata_stream_read_buffer_at_offset of a stream that may be NULL, all n bytes at off or an
     error (4985-5003, 2143-2161) *)
  Definition read_all (o : option stream) (off n : Z) : res (list Z) :=
    match o with
    | None => Fail
    | Some s =>
      let! d := DataRead.stream_read s off n in
      let! _ := check (len d =? n) in
      Ok d
    end.

  (* libfsapfs_file_entry.c 1845-2040 *)
  Definition get_attrs : M fstate fattrs := fun st =>
    match f_attrs st with
    | Some a => (Ok a, st)
    | None =>
      onM (let! l := fs_attrs (fe_tree e) (fe_id e) in classify l (mk_fa l None None None))
        (fun a st => (Ok a, set_attrs st a)) st
    end.

  (* libfsapfs_file_entry.c 4902-5104: fails if the header is there already *)
  Definition get_data_size : M fstate unit := fun st =>
    match f_header st with
    | Some _ => (Fail, st)
    | None =>
      bindM get_attrs (fun a =>
        match fa_comp a with
        | None => fun st => (Ok tt, set_size st None (in_size (fe_inode e)))
        | Some x =>
          onM (let! s := attr_stream x in let! d := read_all s 0 16 in read_compressed_header d) (fun h st =>
            match h with
            | None => (Ok tt, set_size st None (in_size (fe_inode e)))
            | Some (m, z) => (Ok tt, set_size st (Some (m, z)) z)
            end)
        end) st
    end.
  (* 4326-4341, 5157-5172 *)
  Definition need_size : M fstate Z := fun st =>
    if f_size st =? unset then bindM get_data_size (fun _ st => (Ok (f_size st), st)) st
    else (Ok (f_size st), st).

  (* libfsapfs_file_entry.c 4189-4277 *)
  Definition get_extents : M fstate (list extent) := fun st =>
    match f_extents st with
    | Some l => (Ok l, st)
    | None => onM (fs_extents (fe_tree e) (in_stream (fe_inode e))) (fun l st => (Ok l, set_extents st l)) st
    end.

  (* libfsapfs_file_entry.c 4344-4375. The method LZFSE (11, 12) is rejected by
     libfsapfs_compressed_data_handle.c 83-94. *)
  Definition method_of (m : Z) : res Z :=
    if (m =? 3) || (m =? 4) then Ok METHOD_DEFLATE
    else if m =? 5 then Ok METHOD_UNKNOWN5
    else if (m =? 7) || (m =? 8) then Ok METHOD_LZVN
    else Fail.

  (* libfsapfs_file_entry.c 4282-4515, with libfsapfs_data_stream.c 259-357; sizes that are
     negative as off64_t are rejected by libfdata_stream_append_segment *)
  Definition get_data_stream : M fstate unit :=
    bindM need_size (fun size st =>
      match f_header st with
      | Some (m, _) =>
        onM (let! method := method_of m in
             let! a := match f_attrs st with
                       | None => Fail
                       | Some a => match (if (m =? 4) || (m =? 8) then fa_fork a else fa_comp a) with Some x => Ok x | None => Fail end
                       end in
             let! s := attr_stream a in
             match s with
             | None => Fail
             | Some s => let! _ := check (size <? 2 ^ 63) in Ok (Packed method (mk_src (st_size s) (DataRead.stream_read s)) size ch_init)
             end)
          (fun b st => (Ok tt, set_body st b 0)) st
      | None =>
        bindM get_extents (fun l =>
          onM (stream_of_extents (fe_img e) (fe_ctx e) l (in_size (fe_inode e)) (Z.testbit (in_flags (fe_inode e)) 9))
            (fun s st => (Ok tt, set_body st (Plain s) 0))) st
      end).
  Definition need_stream : M fstate body := fun st =>
    match f_body st with
    | Some b => (Ok b, st)
    | None => bindM get_data_stream (fun _ st => (match f_body st with Some b => Ok b | None => Fail end, st)) st
    end.

  (* libfdata_stream_read_buffer_at_offset (external) on the data stream; see DataRead.v for the
     treatment of sizes and offsets *)
  Definition body_read (b : body) (off n : Z) : res (list Z) * body :=
    match b with
    | Plain s => (DataRead.stream_read s off n, b)
    | Packed method src usize h =>
      if (0 <=? off) && (0 <=? n) && (n <=? 2 ^ 63 - 1) then
        let (r, h) := file_read (decompress_data lzvn method) junk method src usize h off n in
        (r, Packed method src usize h)
      else (Fail, b)
    end.
  Definition body_size (b : body) : Z :=
    match b with Plain s => st_size s | Packed _ _ usize _ => usize end.

  (* libfsapfs_file_entry.c 4520-4711: read_buffer (off = None), read_buffer_at_offset; a failed
     read leaves the offset where it was, or where read_buffer_at_offset has moved it *)
  Definition entry_read (off : option Z) (n : Z) : M fstate (list Z) :=
    bindM need_stream (fun b st =>
      let o := match off with Some o => o | None => f_cur st end in
      if o <? 0 then (Fail, st)
      else
        let (r, b) := body_read b o n in
        match r with
        | Ok d => (Ok d, set_body st b (o + len d))
        | Fail => (Fail, set_body st b o)
        | Oob => (Oob, st)
        | Fuel => (Fuel, st)
        end).
  (* 4716-4806 *)
  Definition entry_seek (off w : Z) : M fstate Z :=
    bindM need_stream (fun b st =>
      let base := if w =? 0 then Some 0 else if w =? 1 then Some (f_cur st) else if w =? 2 then Some (body_size b) else None in
      match base with
      | None => (Fail, st)
      | Some x => if x + off <? 0 then (Fail, st) else (Ok (x + off), set_body st b (x + off))
      end).
  (* 4811-4897 *)
  Definition entry_offset : M fstate Z := bindM need_stream (fun _ st => (Ok (f_cur st), st)).
  (* 5109-5193 *)
  Definition entry_size : M fstate Z := need_size.
  (* 5198-5284, 5289-5443 *)
  Definition entry_extents : M fstate Z := bindM get_extents (fun l => retM (Ok (len l))).
  Definition entry_extent (i : Z) : M fstate (Z * Z) :=
    bindM get_extents (fun l =>
      retM (if (0 <=? i) && (i <? len l) then let! x := getb l i in Ok (w64 (ex_block x * 4096), ex_size x) else Fail)).
  (* 2617-2703, 2708-2842, 3157-3454 *)
  Definition entry_attrs : M fstate Z := bindM get_attrs (fun a => retM (Ok (len (fa_all a)))).
  Definition entry_attr (i : Z) : M fstate attr :=
    bindM get_attrs (fun a => retM (if (0 <=? i) && (i <? len (fa_all a)) then getb (fa_all a) i else Fail)).
  Definition entry_attr_by_name (next : list Z -> res (Z * list Z)) (str : list Z) : M fstate (option attr) :=
    bindM get_attrs (fun a => retM (attr_by_name next str (fa_all a))).

  (* libfsapfs_file_entry.c 2045-2196 and the callers 2203-2612: the target of a symbolic link
     as stored, None (result 0) if there is none *)
  Definition entry_link : M fstate (option (list Z)) := fun st =>
    match f_link st with
    | Some v => (Ok (Some v), st)
    | None =>
      bindM get_attrs (fun a =>
        match fa_link a with
        | None => retM (Ok None)
        | Some x =>
          onM (let! _ := check (negb ((attr_size x =? 0) || (134217728 <? attr_size x))) in
               let! s := attr_stream x in
               read_all s 0 (attr_size x))
            (fun v st => (Ok (Some v), set_link st v))
        end) st
    end.

  (* libfsapfs_file_entry.c 3459-3548, 3553-3638 *)
  Definition get_dir : M fstate (list dentry) := fun st =>
    match f_dir st with
    | Some l => (Ok l, st)
    | None => onM (fs_dir (fe_tree e) (fe_id e)) (fun l st => (Ok l, set_dir st l)) st
    end.
  Definition entry_subs : M fstate Z := bindM get_dir (fun l => retM (Ok (len l))).
  (* libfsapfs_file_entry.c 3643-3848 *)
  Definition entry_sub (i : Z) : M fstate fentry :=
    bindM get_dir (fun l =>
      retM (if (0 <=? i) && (i <? len l) then
              let! d := getb l i in
              let! r := fs_inode (fe_tree e) (de_inode d) in
              match r with
              | None => Fail
              | Some (id, v) => Ok (mk_fe (fe_tree e) (fe_img e) (fe_ctx e) id v (Some d))
              end
            else Fail)).
  (* libfsapfs_file_entry.c 3853-4016, 4021-4184 *)
  Definition entry_sub_by_name (next : list Z -> res (Z * list Z)) (fold : bool) (str : list Z) : res (option fentry) :=
    let! r := fs_by_path (fe_tree e) next fold (fe_id e) str in
    match r with
    | None => Ok None
    | Some (id, v, d) => Ok (Some (mk_fe (fe_tree e) (fe_img e) (fe_ctx e) id v d))
    end.
  (* libfsapfs_file_entry.c 477-639 *)
  Definition entry_parent : res (option fentry) :=
    if 2 <? fe_id e then
      let! r := fs_inode (fe_tree e) (in_parent (fe_inode e)) in
      match r with
      | None => Fail
      | Some (id, v) => Ok (Some (mk_fe (fe_tree e) (fe_img e) (fe_ctx e) id v None))
      end
    else Ok None.
End Entry.

(* Calls on an entry, in any order. *)
Inductive fcall :=
| CSize | CRead (n : Z) | CReadAt (off n : Z) | CSeek (off whence : Z) | COffset
| CExtents | CExtent (i : Z) | CAttrs | CLink.
Inductive fanswer :=
| RSize (z : Z) | RBytes (d : list Z) | RPos (o : Z) | RCount (n : Z) | RExtent (off size : Z)
| RLink (v : option (list Z)) | RError.
Definition answer_of {A} (f : A -> fanswer) (m : M fstate A) (st : fstate) : res (fanswer * fstate) :=
  let (r, st) := m st in
  match r with
  | Ok a => Ok (f a, st)
  | Fail => Ok (RError, st)
  | Oob => Oob
  | Fuel => Fuel
  end.
Definition entry_call lzvn junk (e : fentry) (c : fcall) : fstate -> res (fanswer * fstate) :=
  match c with
  | CSize => answer_of RSize (entry_size e)
  | CRead n => answer_of RBytes (entry_read lzvn junk e None n)
  | CReadAt off n => answer_of RBytes (entry_read lzvn junk e (Some off) n)
  | CSeek off w => answer_of RPos (entry_seek e off w)
  | COffset => answer_of RPos (entry_offset e)
  | CExtents => answer_of RCount (entry_extents e)
  | CExtent i => answer_of (fun p => RExtent (fst p) (snd p)) (entry_extent e i)
  | CAttrs => answer_of RCount (entry_attrs e)
  | CLink => answer_of RLink (entry_link e)
  end.
Fixpoint entry_calls lzvn junk (e : fentry) (cs : list fcall) (st : fstate) : res (list fanswer * fstate) :=
  match cs with
  | [] => Ok ([], st)
  | c :: cs =>
    let! (a, st) := entry_call lzvn junk e c st in
    let! (l, st) := entry_calls lzvn junk e cs st in
    Ok (a :: l, st)
  end.
