(* On-disk layout of file system tree records, written from the format
   description (documentation/Apple File System (APFS).asciidoc and the Apple
   File System Reference), independently of the parsers. *)
From Verif Require Import Base.

(* First 8 bytes of every key: 60-bit identifier, 4-bit record type. *)
Definition key_word (ty id : Z) : Z := ty * 2 ^ 60 + id.
Definition key_head (ty id : Z) : list Z := le_enc 8 (key_word ty id).

(* Directory record key, with and without name hash. *)
Definition dir_key_plain (id : Z) (name : list Z) : list Z :=
  key_head 9 id ++ le_enc 2 (len name) ++ name.
Definition dir_key_hashed (id hash : Z) (name : list Z) : list Z :=
  key_head 9 id ++ le_enc 4 (hash * 2 ^ 10 + len name) ++ name.

(* Extended fields: type, flags, content. *)
Definition xfield := (Z * Z * list Z)%type.
Definition xf_type (x : xfield) : Z := fst (fst x).
Definition xf_flags (x : xfield) : Z := snd (fst x).
Definition xf_data (x : xfield) : list Z := snd x.
Definition xf_ok (x : xfield) : Prop :=
  is_byte (xf_type x) /\ is_byte (xf_flags x) /\ len (xf_data x) < 2 ^ 16.

Definition xf_desc (x : xfield) : list Z := [xf_type x; xf_flags x] ++ le_enc 2 (len (xf_data x)).
(* zero bytes up to the next multiple of 8 *)
Definition xf_pad (v : list Z) : list Z := zeros ((8 - len v mod 8) mod 8).
Definition xf_padded (x : xfield) : list Z := xf_data x ++ xf_pad (xf_data x).

(* [used]: the total size of the values, stored but not needed to find them.
   [full]: whether the padding of the last value is part of the record. *)
Fixpoint xf_values (full : bool) (xs : list xfield) : list Z :=
  match xs with
  | [] => []
  | [x] => if full then xf_padded x else xf_data x
  | x :: r => xf_padded x ++ xf_values full r
  end.
Definition xf_blob (used : Z) (full : bool) (xs : list xfield) : list Z :=
  le_enc 2 (len xs) ++ le_enc 2 used ++ concat (map xf_desc xs) ++ xf_values full xs.
Definition xf_blob_opt (used : Z) (full : bool) (xs : list xfield) : list Z :=
  match xs with [] => [] | _ => xf_blob used full xs end.

(* The content of the first field of a given type. *)
Definition xf_find (ty : Z) (xs : list xfield) : option (list Z) :=
  match find (fun x => xf_type x =? ty) xs with
  | Some x => Some (xf_data x)
  | None => None
  end.

(* Directory record value. *)
Definition dir_value_bytes (id added flags used : Z) (full : bool) (xs : list xfield) : list Z :=
  le_enc 8 id ++ le_enc 8 added ++ le_enc 2 flags ++ xf_blob_opt used full xs.

(* Inode value: the stored fields, in the order of j_inode_val_t. *)
Record stored_inode := {
  st_parent_id : Z;
  st_private_id : Z;
  st_create_time : Z;
  st_mod_time : Z;
  st_change_time : Z;
  st_access_time : Z;
  st_internal_flags : Z;
  st_nlink : Z;
  st_protection_class : Z;
  st_write_generation : Z;
  st_bsd_flags : Z;
  st_uid : Z;
  st_gid : Z;
  st_mode : Z;
  st_pad1 : Z;
  st_pad2 : Z }.

Definition stored_ok (s : stored_inode) : Prop :=
  (0 <= st_parent_id s < 2 ^ 64 /\ 0 <= st_private_id s < 2 ^ 64 /\
   0 <= st_create_time s < 2 ^ 64 /\ 0 <= st_mod_time s < 2 ^ 64 /\
   0 <= st_change_time s < 2 ^ 64 /\ 0 <= st_access_time s < 2 ^ 64 /\
   0 <= st_internal_flags s < 2 ^ 64 /\ 0 <= st_nlink s < 2 ^ 32) /\
  0 <= st_uid s < 2 ^ 32 /\ 0 <= st_gid s < 2 ^ 32 /\ 0 <= st_mode s < 2 ^ 16.

Definition inode_value_bytes (s : stored_inode) (used : Z) (full : bool) (xs : list xfield) : list Z :=
  le_enc 8 (st_parent_id s) ++ le_enc 8 (st_private_id s) ++
  le_enc 8 (st_create_time s) ++ le_enc 8 (st_mod_time s) ++
  le_enc 8 (st_change_time s) ++ le_enc 8 (st_access_time s) ++
  le_enc 8 (st_internal_flags s) ++ le_enc 4 (st_nlink s) ++
  le_enc 4 (st_protection_class s) ++ le_enc 4 (st_write_generation s) ++
  le_enc 4 (st_bsd_flags s) ++ le_enc 4 (st_uid s) ++ le_enc 4 (st_gid s) ++
  le_enc 2 (st_mode s) ++ le_enc 2 (st_pad1 s) ++ le_enc 8 (st_pad2 s) ++
  xf_blob_opt used full xs.

(* The extended fields of an inode that have a documented content:
   4 name, 8 data stream (40 bytes), 14 device identifier (4 bytes). *)
Definition inode_types : list Z := [1; 2; 3; 4; 5; 7; 8; 10; 11; 13; 14; 15].
Definition inode_xf_ok (x : xfield) : Prop :=
  In (xf_type x) inode_types /\ xf_data x <> [] /\ bytes (xf_data x) /\
  (xf_type x = 8 -> 40 <= len (xf_data x)) /\
  (xf_type x = 14 -> len (xf_data x) = 4).

(* The logical size of the data stream is the first 8 bytes of the data stream
   field, 0 without such a field; the device identifier is field 14, or 0. *)
Definition stored_size (xs : list xfield) : Z :=
  match xf_find 8 xs with Some v => le_val (firstn 8 v) | None => 0 end.
Definition stored_device (xs : list xfield) : Z :=
  match xf_find 14 xs with Some v => le_val v | None => 0 end.

(* File extents: the logical offset is in the key. *)
Definition extent_key_bytes (id off : Z) : list Z := key_head 8 id ++ le_enc 8 off.
Definition extent_value_bytes (flags size block crypto : Z) : list Z :=
  le_enc 8 (flags * 2 ^ 56 + size) ++ le_enc 8 block ++ le_enc 8 crypto.

(* Extended attributes. *)
Definition attr_key_bytes (id : Z) (name : list Z) : list Z :=
  key_head 4 id ++ le_enc 2 (len name) ++ name.
(* stored in the record (flag 2), or in a data stream (flag 1) *)
Definition attr_inline_bytes (v : list Z) : list Z := le_enc 2 2 ++ le_enc 2 (len v) ++ v.
Definition attr_stream_bytes (id size alloc crypto written read : Z) : list Z :=
  le_enc 2 1 ++ le_enc 2 48 ++ le_enc 8 id ++ le_enc 8 size ++ le_enc 8 alloc ++
  le_enc 8 crypto ++ le_enc 8 written ++ le_enc 8 read.

(* Device identifiers: 8-bit major and minor in the low 16 bits, or major in the
   top byte and minor in the lowest. *)
Definition dev_16 (major minor : Z) : Z := major * 2 ^ 8 + minor.
Definition dev_native (major minor : Z) : Z := major * 2 ^ 24 + minor.
Definition file_type (mode : Z) : Z := (mode / 2 ^ 12) mod 2 ^ 4.
