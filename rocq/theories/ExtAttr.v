(* Model of an extended attribute object: libfsapfs_extended_attribute.c and the names, the
   data stream and the extents behind it in libfsapfs_attribute_values.c and
   libfsapfs_attributes.c. Locks are modelled in Locks.v, lifetimes in Lifetime.v. *)
From Verif Require Import Base NameSpec Walk Omap Records FsTree Crypt DataRead Snapshot FileEntry.

(* data_stream with its offset, and value_data_file_extents of the attribute values. The latter
   are shared by the objects of one attribute; what one object stores there is what another one
   would read. libfsapfs_extended_attribute.c 47-157 sets all to 0. *)
Record xstate := mk_x { x_stream : option stream; x_extents : option (list extent); x_cur : Z }.
Definition x_init : xstate := mk_x None None 0.

Inductive xcall :=
| XId | XNameSize (utf16 : bool) | XName (utf16 : bool) (size : Z) | XSize
| XRead (n : Z) | XReadAt (off n : Z) | XSeek (off whence : Z) | XOffset | XExtents | XExtent (i : Z).
(* XUnset: the call succeeds and does not set the value *)
Inductive xanswer := XInt (z : Z) | XText (s : list Z) | XBytes (d : list Z) | XPlace (off size : Z) | XUnset | XError.

Section Attr.
  Variables (e : fentry) (a : attr).

  (* libfsapfs_attributes.c 121-203 with 40-116: a data stream, or none for an attribute with
     neither flag; the extents are kept if only the data stream fails *)
  Definition x_data_stream : M xstate unit := fun st =>
    if Z.testbit (at_flags a) 0 then
      match at_data a with
      | AStream sid size =>
        match (match x_extents st with Some l => Ok l | None => fs_extents (fe_tree e) sid end) with
        | Ok l =>
          match stream_of_extents (fe_img e) (fe_ctx e) l size false with
          | Ok s => (Ok tt, mk_x (Some s) (Some l) 0)
          | Fail => (Fail, mk_x None (Some l) 0)
          | Oob => (Oob, st)
          | Fuel => (Fuel, st)
          end
        | Fail => (Fail, st)
        | Oob => (Oob, st)
        | Fuel => (Fuel, st)
        end
      | _ => (Fail, st)
      end
    else if Z.testbit (at_flags a) 1 then
      (Ok tt, mk_x (Some (stream_of_data (match at_data a with AInline v => v | _ => [] end))) (x_extents st) 0)
    else (Ok tt, st).
  Definition x_need : M xstate unit := fun st =>
    match x_stream st with Some _ => (Ok tt, st) | None => x_data_stream st end.

  (* libfsapfs_extended_attribute.c 701-793 (off = None), 798-892: nothing is read without a data
     stream. libfdata_stream_read_buffer_at_offset as in FileEntry.v. *)
  Definition x_read (off : option Z) (n : Z) : M xstate (list Z) :=
    bindM x_need (fun _ st =>
      match x_stream st with
      | None => (Ok [], st)
      | Some s =>
        let o := match off with Some o => o | None => x_cur st end in
        if o <? 0 then (Fail, st)
        else match DataRead.stream_read s o n with
             | Ok d => (Ok d, mk_x (Some s) (x_extents st) (o + len d))
             | Fail => (Fail, mk_x (Some s) (x_extents st) o)
             | Oob => (Oob, st)
             | Fuel => (Fuel, st)
             end
      end).
  (* 897-986: without a data stream the offset passed is returned; the caller takes a negative
     one for an error *)
  Definition x_seek (off w : Z) : M xstate Z :=
    bindM x_need (fun _ st =>
      match x_stream st with
      | None => if off <? 0 then (Fail, st) else (Ok off, st)
      | Some s =>
        let base := if w =? 0 then Some 0 else if w =? 1 then Some (x_cur st) else if w =? 2 then Some (st_size s) else None in
        match base with
        | None => (Fail, st)
        | Some x => if x + off <? 0 then (Fail, st) else (Ok (x + off), mk_x (Some s) (x_extents st) (x + off))
        end
      end).
  (* 991-1077 *)
  Definition x_offset : M xstate (option Z) :=
    bindM x_need (fun _ st => (Ok (match x_stream st with None => None | Some _ => Some (x_cur st) end), st)).
  (* 1163-1251 and libfsapfs_attribute_values.c 846-897 *)
  Definition x_count : M xstate Z :=
    bindM x_need (fun _ st => (Ok (match x_extents st with None => 0 | Some l => len l end), st)).
  (* 1256-1411 and libfsapfs_attribute_values.c 902-938: libcdata_array_get_entry_by_index fails
     without an array and for an index outside of it; the flags are 0 *)
  Definition x_extent (i : Z) : M xstate (Z * Z) :=
    bindM x_need (fun _ st =>
      (match x_extents st with
       | None => Fail
       | Some l => if (0 <=? i) && (i <? len l) then let! x := getb l i in Ok (w64 (ex_block x * 4096), ex_size x) else Fail
       end, st)).
  (* 353-643 and libfsapfs_attribute_values.c 639-715, 765-841 *)
  Definition x_text : res (list Z) := stream_text (at_name a) (len (at_name a)).
  Definition x_units (u : bool) : res (list Z) := let! s := x_text in Ok ((if u then utf16 s else utf8 s) ++ [0]).

  Definition x_answer {A} (f : A -> xanswer) (m : M xstate A) (st : xstate) : res (xanswer * xstate) :=
    let (r, st) := m st in
    match r with
    | Ok x => Ok (f x, st)
    | Fail => Ok (XError, st)
    | Oob => Oob
    | Fuel => Fuel
    end.
  (* The identifier (282-347) is a field that nothing sets; the size (1082-1158) that of the
     attribute values. *)
  Definition x_call (c : xcall) : xstate -> res (xanswer * xstate) :=
    match c with
    | XId => x_answer XInt (retM (Ok 0))
    | XNameSize u => x_answer XInt (retM (let! s := x_units u in Ok (len s)))
    | XName u size => x_answer XText (retM (let! s := x_units u in let! _ := check (len s <=? size) in Ok s))
    | XSize => x_answer XInt (retM (Ok (attr_size a)))
    | XRead n => x_answer XBytes (x_read None n)
    | XReadAt off n => x_answer XBytes (x_read (Some off) n)
    | XSeek off w => x_answer XInt (x_seek off w)
    | XOffset => x_answer (fun o => match o with Some z => XInt z | None => XUnset end) x_offset
    | XExtents => x_answer XInt x_count
    | XExtent i => x_answer (fun p => XPlace (fst p) (snd p)) (x_extent i)
    end.
  Fixpoint x_calls (cs : list xcall) (st : xstate) : res (list xanswer * xstate) :=
    match cs with
    | [] => Ok ([], st)
    | c :: cs =>
      let! (x, st) := x_call c st in
      let! (l, st) := x_calls cs st in
      Ok (x :: l, st)
    end.
End Attr.
