(* Model of libfsapfs_btree_node.c, libfsapfs_btree_node_header.c,
   libfsapfs_btree_footer.c and libfsapfs_btree_entry.c: parsing of a B-tree node. *)
From Verif Require Import Base.

(* libfsapfs_btree_entry.h: key and value data. NULL data (size 0) is the empty list. *)
Definition bentry : Type := (list Z * list Z)%type.

(* libfsapfs_btree_node_header.h *)
Record bheader := mk_bh {
  bh_flags : Z; bh_level : Z; bh_keys : Z;
  bh_eoff : Z;     (* entries_data_offset *)
  bh_esize : Z;    (* entries_data_size *)
  bh_uoff : Z;     (* unused_data_offset *)
  bh_usize : Z     (* unused_data_size *)
}.

(* libfsapfs_btree_footer.h: flags, node size, key size, value size, maximum key size,
   maximum value size *)
Record bfooter := mk_bf {
  bf_flags : Z; bf_node : Z; bf_key : Z; bf_value : Z; bf_maxkey : Z; bf_maxvalue : Z
}.

(* libfsapfs_btree_node.h *)
Record bnode := mk_bn {
  bn_type : Z;
  bn_subtype : Z;
  bn_header : bheader;
  bn_footer : option bfooter;
  bn_entries : list bentry
}.

(* libfsapfs_btree_node.c 688-814: libfsapfs_btree_node_read_object_data *)
Definition read_object_data (data : list Z) : res (Z * Z) :=
  let! _ := check (negb (len data <? 32)) in
  let! ty := rd_le 4 data 24 in
  let ot := Z.land ty 0x0ffffff in
  let! _ := check ((ot =? 0) || (ot =? 2) || (ot =? 3)) in
  let! st := rd_le 4 data 28 in
  Ok (ty, st).

(* libfsapfs_btree_node_header.c 143-300: libfsapfs_btree_node_header_read_data *)
Definition read_node_header (data : list Z) : res bheader :=
  let! _ := check (negb (len data <? 24)) in
  let! f := rd_le 2 data 0 in
  let! l := rd_le 2 data 2 in
  let! k := rd_le 4 data 4 in
  let! eo := rd_le 2 data 8 in
  let! es := rd_le 2 data 10 in
  let! uo := rd_le 2 data 12 in
  let! us := rd_le 2 data 14 in
  Ok (mk_bh f l k eo es uo us).

(* libfsapfs_btree_footer.c 140-281: libfsapfs_btree_footer_read_data *)
Definition read_footer (data : list Z) : res bfooter :=
  let! _ := check (negb (len data <? 40)) in
  let! f := rd_le 4 data 0 in
  let! n := rd_le 4 data 4 in
  let! k := rd_le 4 data 8 in
  let! v := rd_le 4 data 12 in
  let! mk := rd_le 4 data 16 in
  let! mv := rd_le 4 data 20 in
  Ok (mk_bf f n k v mk mv).

(* libfsapfs_btree_node.c 459-509: offsets and sizes of the key and value of the entry
   at [off] in the data: key offset, key size, value offset, value size. *)
Definition read_toc_entry (flags subtype : Z) (data : list Z) (off : Z) : res (Z * Z * Z * Z) :=
  if Z.land flags 4 =? 0 then
    let! ko := rd_le 2 data off in
    let! ks := rd_le 2 data (off + 2) in
    let! vo := rd_le 2 data (off + 4) in
    let! vs := rd_le 2 data (off + 6) in
    Ok (ko, ks, vo, vs)
  else
    let! ko := rd_le 2 data off in
    let! vo := rd_le 2 data (off + 2) in
    let! _ := check (subtype =? 0x0b) in
    Ok (ko, 16, vo, if Z.land flags 2 =? 0 then 8 else 16).

(* libfsapfs_btree_node.c 457-659: one entry. [koff] is the offset of the key data
   (entries_data_offset + entries_data_size), [voff] the footer offset. *)
Definition read_entry (flags subtype : Z) (data : list Z) (koff voff off : Z) : res bentry :=
  let size := len data in
  let! (ko, ks, vo, vs) := read_toc_entry flags subtype data off in
  let ko := w16 (ko + koff) in
  let! _ := check (negb ((size <? ko) || (size - ko <? ks))) in
  let vo := w16 (voff - vo) in
  let! _ := check (negb ((size <? vo) || (size - vo <? vs))) in
  let! key := rd data ko ks in
  let! value := rd data vo vs in
  Ok (key, value).

(* libfsapfs_btree_node.c 453-660: the entries. The 16-bit map_entry_index does not wrap
   since number_of_keys is at most entries_data_size / 4. *)
Fixpoint read_entries (k : nat) (flags subtype : Z) (data : list Z) (koff voff esz off : Z) : res (list bentry) :=
  match k with
  | O => Ok []
  | S k =>
    let! e := read_entry flags subtype data koff voff off in
    let! r := read_entries k flags subtype data koff voff esz (off + esz) in
    Ok (e :: r)
  end.

(* libfsapfs_btree_node.c 211-683: libfsapfs_btree_node_read_data. Memory allocation
   failures are not modelled. *)
Definition read_node (data : list Z) : res bnode :=
  let size := len data in
  let! _ := check (negb ((size <? 32 + 24 + 40) || (2 ^ 63 - 1 <? size))) in
  let! (ty, st) := read_object_data data in
  let! hd := rd data 32 24 in
  let! h := read_node_header hd in
  let rem := size - (32 + 24 + 40) in
  let! _ := check (negb (rem <=? bh_eoff h)) in
  let rem := rem - bh_eoff h in
  let! _ := check (negb (rem <? bh_esize h)) in
  let rem := rem - bh_esize h in
  let! _ := check (negb (rem <=? bh_uoff h)) in
  let root := negb (Z.land (bh_flags h) 1 =? 0) in
  let! footer :=
    (if root then
       let! fd := rd data (size - 40) 40 in
       let! f := read_footer fd in Ok (Some f)
     else Ok None) in
  let voff := w16 (if root then w16 size - 40 else size) in
  let esz := if Z.land (bh_flags h) 4 =? 0 then 8 else 4 in
  let! _ := check (negb (bh_esize h / esz <? bh_keys h)) in
  let koff := w16 (bh_eoff h + 56) + bh_esize h in
  let! es := read_entries (Z.to_nat (bh_keys h)) (bh_flags h) st data koff voff esz (56 + bh_eoff h) in
  Ok (mk_bn ty st h footer es).

(* libfsapfs_btree_node.c 819-848: libfsapfs_btree_node_is_leaf_node *)
Definition is_leaf (n : bnode) : bool := negb (Z.land (bh_flags (bn_header n)) 2 =? 0).
