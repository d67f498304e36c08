(* Files on a volume (Apple File System Reference, File-System Objects; the documented
   decmpfs format), independent of the code: the value of an attribute, the bytes of a file,
   the target of a symbolic link, and how a file behaves. *)
From Verif Require Import Base NameSpec CryptSpec PropName TreeSpec OmapSpec RecordsSpec Records FsTree FsSpec DataSpec CompressedSpec CompressedTop PropFs FileEntry.
From Verif Require Export FileNames.

(* The extents of data stream sid. There is some record not after them, such as the inode of
   the file or one of them. *)
Definition extents_of (recs : list record) (sid : Z) (l : list extent) : Prop :=
  0 <= sid < 2 ^ 60 /\ not_below 8 sid recs /\ Forall2 (extent_rec sid) (filter (has 8 sid) recs) l.

(* The bytes data are stored as data stream sid, in blocks as described by [block]. *)
Definition stored_stream (block : extent -> Z -> list Z -> Prop) (recs : list record) (sid : Z) (sparse : bool) (data : list Z) : Prop :=
  exists l content, extents_of recs sid l /\ contiguous 0 l /\ len data <= total l < 2 ^ 43 /\
    Forall (fun e => ex_block e + ex_size e / 4096 <= 2 ^ 51) l /\ content_of block sparse l content /\
    data = window content 0 (len data).

(* An encrypted block; identifiers are below 2^52. *)
Definition sealed_block (enc : list Z -> list Z -> list Z) (dev : device) (e : extent) (k : Z) (d : list Z) : Prop :=
  encrypted_block enc dev e k d /\ ex_crypto e + k < 2 ^ 52.

(* The attributes of object id with their names, in the order of the records. Names have no
   byte order mark at the start and are different. *)
Definition attributes (recs : list record) (id : Z) (l : list (attr * list Z)) : Prop :=
  Forall2 (fun r p => attr_rec id r (fst p) /\ file_name (snd p) /\ spells (snd p) (at_name (fst p)) /\ hd 0 (snd p) <> 0xfeff)
    (filter (has 4 id) recs) l /\ NoDup (map snd l).
Fixpoint attr_named (s : list Z) (l : list (attr * list Z)) : option attr :=
  match l with
  | [] => None
  | (a, n) :: l => if list_eq_dec Z.eq_dec s n then Some a else attr_named s l
  end.

(* The value of an attribute. *)
Definition attr_holds (block : extent -> Z -> list Z -> Prop) (recs : list record) (a : attr) (v : list Z) : Prop :=
  match at_data a with
  | AStream sid size => size = len v /\ stored_stream block recs sid false v
  | AInline w => v = w
  | ANone => Z.testbit (at_flags a) 1 = true /\ v = []
  end.

(* The data of a file that is not compressed: it has no decmpfs attribute, or one that does
   not start with the signature. *)
Definition plain_file block recs (l : list (attr * list Z)) (i : inode) (data : list Z) : Prop :=
  (attr_named decmpfs_name l = None \/ exists a v, attr_named decmpfs_name l = Some a /\ attr_holds block recs a v /\
     bytes v /\ 16 <= len v /\ slice v 0 4 <> [0x66; 0x70; 0x6d; 0x63]) /\
  in_size i = len data /\ stored_stream block recs (in_stream i) (Z.testbit (in_flags i) 9) data.

(* The data of a compressed file: in the decmpfs attribute, or in the resource fork. *)
Inductive packed_file (lzvn : list Z -> Z -> res (list Z)) block recs (l : list (attr * list Z)) : list Z -> Prop :=
| pf_inline : forall a m comp data, attr_named decmpfs_name l = Some a -> attr_holds block recs a (inline_data m (len data) comp) ->
    bytes comp -> len comp <= 65521 -> 1 <= len data <= 65536 ->
    (m = 3 /\ deflate_stored comp data \/ m = 7 /\ lzvn_stored lzvn comp data) -> packed_file lzvn block recs l data
| pf_deflate : forall a f rest hdr dsize comps rmap bs, attr_named decmpfs_name l = Some a -> attr_named fork_name l = Some f ->
    attr_holds block recs a (inline_data 4 (len (concat bs)) rest) -> attr_holds block recs f (deflate_fork hdr dsize comps rmap) ->
    bytes hdr -> len hdr = 252 -> Forall bytes comps -> bytes rmap ->
    1 <= len comps <= 8159 -> Forall (fun c => len c <= 65537) comps ->
    len (last comps []) + len rmap <= 65537 -> len (deflate_fork hdr dsize comps rmap) < 2 ^ 32 ->
    file_blocks bs -> Forall2 deflate_stored comps bs ->
    (rmap = [] \/ DeflateSpec.zlib_stream DeflateSpec.has_distances (ChecksumSpec.adler_ref 1 0) (last comps []) (last bs [])) ->
    packed_file lzvn block recs l (concat bs)
| pf_lzvn : forall a f rest comps bs, attr_named decmpfs_name l = Some a -> attr_named fork_name l = Some f ->
    attr_holds block recs a (inline_data 8 (len (concat bs)) rest) -> attr_holds block recs f (lzvn_fork comps) ->
    Forall bytes comps -> 1 <= len comps <= 16383 ->
    Forall (fun c => len c <= 65537) comps -> len (lzvn_fork comps) < 2 ^ 32 ->
    file_blocks bs -> Forall2 (lzvn_stored lzvn) comps bs ->
    packed_file lzvn block recs l (concat bs).

(* The target of a symbolic link: of 1 byte to 128 MiB. *)
Definition link_is block recs (l : list (attr * list Z)) (v : option (list Z)) : Prop :=
  match attr_named symlink_name l with
  | None => v = None
  | Some a => exists w, v = Some w /\ attr_holds block recs a w /\ 1 <= len w <= 2 ^ 27
  end.

(* How the blocks of a volume are stored: as they are, or encrypted. *)
Inductive volume_data (dev : device) : option (list Z -> list Z -> list Z) -> (extent -> Z -> list Z -> Prop) -> Prop :=
| vd_plain : volume_data dev None (plain_block dev)
| vd_sealed : forall enc dec, unit_cipher 512 enc dec -> volume_data dev (Some dec) (sealed_block enc dev).

(* A file is its bytes with a position, its extents, its number of attributes and its link
   target; calls change the position only. *)
Record file := mk_file { fl_data : list Z; fl_extents : list extent; fl_attrs : Z; fl_link : option (list Z) }.
Definition file_step (f : file) (pos : Z) (c : fcall) : fanswer * Z :=
  let size := len (fl_data f) in
  let read o n :=
    if (0 <=? o) && (0 <=? n) && (n <=? 2 ^ 63 - 1)
    then let d := slice (fl_data f) o (Z.min n (size - o)) in (RBytes d, o + len d)
    else (RError, if 0 <=? o then o else pos) in
  match c with
  | CSize => (RSize size, pos)
  | CRead n => read pos n
  | CReadAt o n => read o n
  | CSeek o w =>
    let base := if w =? 0 then Some 0 else if w =? 1 then Some pos else if w =? 2 then Some size else None in
    match base with
    | None => (RError, pos)
    | Some b => if b + o <? 0 then (RError, pos) else (RPos (b + o), b + o)
    end
  | COffset => (RPos pos, pos)
  | CExtents => (RCount (len (fl_extents f)), pos)
  | CExtent i =>
    (match nth_error (fl_extents f) (Z.to_nat i) with
     | Some x => if 0 <=? i then RExtent (ex_block x * 4096) (ex_size x) else RError
     | None => RError
     end, pos)
  | CAttrs => (RCount (fl_attrs f), pos)
  | CLink => (RLink (fl_link f), pos)
  end.
Fixpoint file_steps (f : file) (pos : Z) (cs : list fcall) : list fanswer :=
  match cs with
  | [] => []
  | c :: cs => let (a, pos) := file_step f pos c in a :: file_steps f pos cs
  end.

(* Object id with inode i is the file f, with attributes l. *)
Definition is_file lzvn block recs (id : Z) (i : inode) (l : list (attr * list Z)) (f : file) : Prop :=
  attributes recs id l /\ (plain_file block recs l i (fl_data f) \/ packed_file lzvn block recs l (fl_data f)) /\ extents_of recs (in_stream i) (fl_extents f) /\ Forall (fun x => ex_block x < 2 ^ 52) (fl_extents f) /\ link_is block recs l (fl_link f) /\ fl_attrs f = len l.
