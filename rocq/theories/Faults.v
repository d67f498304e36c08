(* Model of calls on an open file entry with a device that changes between the calls in which
   blocks it delivers: libfsapfs_file_entry.c as in FileEntry.v, where the device is the same for
   all calls. The fields of the entry that are filled in when first needed hold the extents and
   buffers a stream was made from, and each call reads them from the device as it is then
   (libfdata passes the file IO handle with every read). What is kept in caches counts as
   readable. *)
From Verif Require Import Base Name Walk Omap Records FsTree FsName Crypt DataRead Compressed KeyBag Volume Container VolumeSuper FileEntry Session.

(* What the tree and the device give during a call: the attributes of an object, the extents of a
   data stream, the blocks. *)
Record now := mk_now { nw_attrs : Z -> res (list attr); nw_extents : Z -> res (list extent); nw_img : image }.
Definition now_of (t : fs) (dev : image) : now := mk_now (fs_attrs t) (fs_extents t) dev.

(* A stream: libfsapfs_data_stream.c 39-135 (buffer), 141-253 (extents) *)
Inductive source_of := Buffer (v : list Z) | Extents (l : list extent) (size : Z) (sparse : bool).
Inductive lbody := LPlain (d : source_of) | LPacked (method : Z) (d : source_of) (usize : Z) (h : chandle).
(* The fields of an entry, see FileEntry.fstate. *)
Record lstate := mk_ls {
  l_attrs : option fattrs; l_header : option (Z * Z); l_size : Z; l_extents : option (list extent);
  l_body : option lbody; l_cur : Z; l_link : option (list Z) }.
Definition l_init : lstate := mk_ls None None unset None None 0 None.
Definition lset_attrs st a := mk_ls (Some a) (l_header st) (l_size st) (l_extents st) (l_body st) (l_cur st) (l_link st).
Definition lset_size st h z := mk_ls (l_attrs st) h z (l_extents st) (l_body st) (l_cur st) (l_link st).
Definition lset_extents st l := mk_ls (l_attrs st) (l_header st) (l_size st) (Some l) (l_body st) (l_cur st) (l_link st).
Definition lset_body st b c := mk_ls (l_attrs st) (l_header st) (l_size st) (l_extents st) (Some b) c (l_link st).
Definition lset_link st v := mk_ls (l_attrs st) (l_header st) (l_size st) (l_extents st) (l_body st) (l_cur st) (Some v).

Section Entry.
  Variable lzvn : list Z -> Z -> res (list Z).
  Variable junk : list Z -> list Z -> list Z.
  (* the encryption context, identifier and inode of the entry *)
  Variables (ctx : option (list Z -> list Z -> list Z)) (id : Z) (inode : inode).
  Variable N : now.

  Definition stream_now (d : source_of) : res stream :=
    match d with
    | Buffer v => Ok (stream_of_data v)
    | Extents l size sparse => stream_of_extents (nw_img N) ctx l size sparse
    end.
  Definition read_now (d : source_of) (off n : Z) : res (list Z) :=
    let! s := stream_now d in DataRead.stream_read s off n.
  Definition size_of (d : source_of) : Z := match d with Buffer v => len v | Extents _ size _ => size end.
  (* libfsapfs_data_stream.c 141-253: fails if the extents do not make a vector *)
  Definition made (d : source_of) : res source_of :=
    match d with
    | Buffer v => Ok d
    | Extents l size sparse => let! _ := segments sparse 0 0 l in Ok d
    end.

  (* libfsapfs_attributes.c 121-203 with 40-116 *)
  Definition attr_source (a : attr) : res (option source_of) :=
    if Z.testbit (at_flags a) 0 then
      match at_data a with
      | AStream sid size =>
        let! l := nw_extents N sid in
        let! d := made (Extents l size false) in
        Ok (Some d)
      | _ => Fail
      end
    else if Z.testbit (at_flags a) 1 then
      Ok (Some (Buffer (match at_data a with AInline v => v | _ => [] end)))
    else Ok None.
  Definition read_all_now (o : option source_of) (off n : Z) : res (list Z) :=
    match o with
    | None => Fail
    | Some d =>
      let! x := read_now d off n in
      let! _ := check (len x =? n) in
      Ok x
    end.

  (* libfsapfs_file_entry.c 1845-2040: on an error the array is freed *)
  Definition lget_attrs : M lstate fattrs := fun st =>
    match l_attrs st with
    | Some a => (Ok a, st)
    | None =>
      onM (let! l := nw_attrs N id in classify l (mk_fa l None None None))
        (fun a st => (Ok a, lset_attrs st a)) st
    end.
  (* 4902-5104 *)
  Definition lget_data_size : M lstate unit := fun st =>
    match l_header st with
    | Some _ => (Fail, st)
    | None =>
      bindM lget_attrs (fun a =>
        match fa_comp a with
        | None => fun st => (Ok tt, lset_size st None (in_size inode))
        | Some x =>
          onM (let! s := attr_source x in let! d := read_all_now s 0 16 in read_compressed_header d) (fun h st =>
            match h with
            | None => (Ok tt, lset_size st None (in_size inode))
            | Some (m, z) => (Ok tt, lset_size st (Some (m, z)) z)
            end)
        end) st
    end.
  (* 4326-4341, 5157-5172 *)
  Definition lneed_size : M lstate Z := fun st =>
    if l_size st =? unset then bindM lget_data_size (fun _ st => (Ok (l_size st), st)) st
    else (Ok (l_size st), st).
  (* 4189-4277: on an error the array is freed *)
  Definition lget_extents : M lstate (list extent) := fun st =>
    match l_extents st with
    | Some l => (Ok l, st)
    | None => onM (nw_extents N (in_stream inode)) (fun l st => (Ok l, lset_extents st l)) st
    end.
  (* 4282-4515: on an error there is no data stream *)
  Definition lget_stream : M lstate lbody :=
    bindM lneed_size (fun size st =>
      match l_header st with
      | Some (m, _) =>
        onM (let! method := method_of m in
             let! a := match l_attrs st with
                       | None => Fail
                       | Some a => match (if (m =? 4) || (m =? 8) then fa_fork a else fa_comp a) with Some x => Ok x | None => Fail end
                       end in
             let! s := attr_source a in
             match s with
             | None => Fail
             | Some d => let! _ := check (size <? 2 ^ 63) in Ok (LPacked method d size ch_init)
             end)
          (fun b st => (Ok b, lset_body st b 0)) st
      | None =>
        bindM lget_extents (fun l =>
          onM (made (Extents l (in_size inode) (Z.testbit (in_flags inode) 9)))
            (fun d st => (Ok (LPlain d), lset_body st (LPlain d) 0))) st
      end).
  Definition lneed_stream : M lstate lbody := fun st =>
    match l_body st with
    | Some b => (Ok b, st)
    | None => lget_stream st
    end.

  Definition lbody_read (b : lbody) (off n : Z) : res (list Z) * lbody :=
    match b with
    | LPlain d => (read_now d off n, b)
    | LPacked method d usize h =>
      if (0 <=? off) && (0 <=? n) && (n <=? 2 ^ 63 - 1) then
        let (r, h) := file_read (decompress_data lzvn method) junk method (mk_src (size_of d) (read_now d)) usize h off n in
        (r, LPacked method d usize h)
      else (Fail, b)
    end.
  Definition lbody_size (b : lbody) : Z :=
    match b with LPlain d => size_of d | LPacked _ _ usize _ => usize end.
  (* 4520-4711 *)
  Definition lread (off : option Z) (n : Z) : M lstate (list Z) :=
    bindM lneed_stream (fun b st =>
      let o := match off with Some o => o | None => l_cur st end in
      if o <? 0 then (Fail, st)
      else
        let (r, b) := lbody_read b o n in
        match r with
        | Ok d => (Ok d, lset_body st b (o + len d))
        | Fail => (Fail, lset_body st b o)
        | Oob => (Oob, st)
        | Fuel => (Fuel, st)
        end).
  (* 4716-4806 *)
  Definition lseek (off w : Z) : M lstate Z :=
    bindM lneed_stream (fun b st =>
      let base := if w =? 0 then Some 0 else if w =? 1 then Some (l_cur st) else if w =? 2 then Some (lbody_size b) else None in
      match base with
      | None => (Fail, st)
      | Some x => if x + off <? 0 then (Fail, st) else (Ok (x + off), lset_body st b (x + off))
      end).
  (* 4811-4897 *)
  Definition loffset : M lstate Z := bindM lneed_stream (fun _ st => (Ok (l_cur st), st)).
  (* 5198-5284, 5289-5443 *)
  Definition lextents : M lstate Z := bindM lget_extents (fun l => retM (Ok (len l))).
  Definition lextent (i : Z) : M lstate (Z * Z) :=
    bindM lget_extents (fun l =>
      retM (if (0 <=? i) && (i <? len l) then let! x := getb l i in Ok (w64 (ex_block x * 4096), ex_size x) else Fail)).
  (* 2617-2703 *)
  Definition lattrs : M lstate Z := bindM lget_attrs (fun a => retM (Ok (len (fa_all a)))).
  (* 2045-2196: on an error there is no target *)
  Definition llink : M lstate (option (list Z)) := fun st =>
    match l_link st with
    | Some v => (Ok (Some v), st)
    | None =>
      bindM lget_attrs (fun a =>
        match fa_link a with
        | None => retM (Ok None)
        | Some x =>
          onM (let! _ := check (negb ((attr_size x =? 0) || (134217728 <? attr_size x))) in
               let! s := attr_source x in
               read_all_now s 0 (attr_size x))
            (fun v st => (Ok (Some v), lset_link st v))
        end) st
    end.

  Definition lanswer {A} (f : A -> fanswer) (m : M lstate A) (st : lstate) : res (fanswer * lstate) :=
    let (r, st) := m st in
    match r with
    | Ok a => Ok (f a, st)
    | Fail => Ok (RError, st)
    | Oob => Oob
    | Fuel => Fuel
    end.
  Definition lcall (c : fcall) : lstate -> res (fanswer * lstate) :=
    match c with
    | CSize => lanswer RSize lneed_size
    | CRead n => lanswer RBytes (lread None n)
    | CReadAt off n => lanswer RBytes (lread (Some off) n)
    | CSeek off w => lanswer RPos (lseek off w)
    | COffset => lanswer RPos loffset
    | CExtents => lanswer RCount lextents
    | CExtent i => lanswer (fun p => RExtent (fst p) (snd p)) (lextent i)
    | CAttrs => lanswer RCount lattrs
    | CLink => lanswer RLink llink
    end.
End Entry.

(* Calls, each with the tree and the device as they are at the time. *)
Fixpoint lcalls lzvn junk ctx id i (cs : list (now * fcall)) (st : lstate) : res (list fanswer * lstate) :=
  match cs with
  | [] => Ok ([], st)
  | (N, c) :: cs =>
    let! (a, st) := lcall lzvn junk ctx id i N c st in
    let! (l, st) := lcalls lzvn junk ctx id i cs st in
    Ok (a :: l, st)
  end.

(* All the way from a device: the container is opened, then the volume with a certain index and
   its file system, with the passwords given (Session.get_file_system); the file entry of a path
   and n bytes at off. None: there is no such file entry. *)
Definition fetch aes sha hmac (xts : list Z -> list Z -> list Z -> list Z -> list Z) lzvn junk (dev : image)
    (index : Z) (user recovery : option (list Z)) (j1 j2 : list Z) (path : list Z) (off n : Z) : res (option (list Z)) :=
  let! c := open (fun id => xts id id) dev in
  let! od := volume_by_index dev c index in
  let! ov := volume_open (fun id => xts id id) dev (c_size c) (c_bag c) (od_address od) in
  let v := {| v_locked := ov_locked ov; v_user := user; v_recovery := recovery; v_keys := None |} in
  let! (r, v) := if v_locked v then unlock aes sha hmac (bags_of c ov) v j1 j2 else Ok (0, v) in
  let! ctx := match ov_bag ov, v_keys v with
              | None, _ => Ok None
              | Some _, Some (k1, k2) => Ok (Some (xts k1 k2))
              | Some _, None => Fail
              end in
  let! t := volume_fs dev ctx ov in
  let! e := fs_by_path t utf8_next (volume_folds ov) 2 path in
  match e with
  | None => Ok None
  | Some (id, i, _) => let! d := fst (lread lzvn junk ctx id i (now_of t dev) (Some off) n l_init) in Ok (Some d)
  end.

(* Calls on an open volume, each with the device as it is at the time (Session.vrun). *)
Fixpoint vcalls P Q evn evb aes sha hmac xts unkeyed ov bg (h : handle P Q) (cs : list (image * vcall)) : res (list vanswer * handle P Q) :=
  match cs with
  | [] => Ok ([], h)
  | (img, c) :: cs =>
    let! (a, h) := vstep P Q evn evb aes sha hmac xts unkeyed img ov bg h c in
    let! (l, h) := vcalls P Q evn evb aes sha hmac xts unkeyed ov bg h cs in
    Ok (a :: l, h)
  end.
