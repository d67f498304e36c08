(* On-disk layout of a B-tree node (Apple File System Reference, B-trees), from the
   writer's side. *)
From Verif Require Import Base.

(* The table of contents of records stored one after the other: key offsets grow from
   the start of the key area, value offsets are counted backwards from the end of the
   value area, each to the start of its value. *)
Fixpoint toc (fixed : bool) (k v : Z) (recs : list (list Z * list Z)) : list Z :=
  match recs with
  | [] => []
  | (key, value) :: r =>
    (if fixed then le_enc 2 k ++ le_enc 2 (v + len value)
     else le_enc 2 k ++ le_enc 2 (len key) ++ le_enc 2 (v + len value) ++ le_enc 2 (len value)) ++
    toc fixed (k + len key) (v + len value) r
  end.

Definition keys_area (recs : list (list Z * list Z)) : list Z := concat (map fst recs).
Definition values_area (recs : list (list Z * list Z)) : list Z := concat (rev (map snd recs)).

(* A node: 24 bytes of object header (checksum, identifiers), the object type and
   subtype, the node header, the table of contents with spare room, keys, free space,
   values and, in a root node, a 40-byte footer. *)
Record node_desc := mk_nd {
  nd_object : list Z;                 (* 24 bytes *)
  nd_type : Z; nd_subtype : Z;
  nd_flags : Z; nd_level : Z;
  nd_recs : list (list Z * list Z);
  nd_gap : list Z;                    (* before the table of contents *)
  nd_spare : list Z;                  (* spare room of the table of contents *)
  nd_free : list Z;                   (* between keys and values *)
  nd_lists : list Z;                  (* 8 bytes: free lists *)
  nd_footer : list Z                  (* 40 bytes in a root node, else none *)
}.
Definition nd_fixed (d : node_desc) : bool := Z.testbit (nd_flags d) 2.
Definition nd_toc (d : node_desc) : list Z := toc (nd_fixed d) 0 0 (nd_recs d) ++ nd_spare d.
Definition nd_header (d : node_desc) : list Z :=
  le_enc 2 (nd_flags d) ++ le_enc 2 (nd_level d) ++ le_enc 4 (len (nd_recs d)) ++
  le_enc 2 (len (nd_gap d)) ++ le_enc 2 (len (nd_toc d)) ++
  le_enc 2 (len (keys_area (nd_recs d))) ++ le_enc 2 (len (nd_free d)) ++ nd_lists d.
Definition node_bytes (d : node_desc) : list Z :=
  nd_object d ++ le_enc 4 (nd_type d) ++ le_enc 4 (nd_subtype d) ++ nd_header d ++
  nd_gap d ++ nd_toc d ++ keys_area (nd_recs d) ++ nd_free d ++ values_area (nd_recs d) ++ nd_footer d.

(* Well-formed: fields in range, the block at most 65535 bytes, fixed-size entries only
   with the key and value sizes of an object map. *)
Definition node_ok (d : node_desc) : Prop :=
  len (nd_object d) = 24 /\ 0 <= nd_type d < 2 ^ 32 /\ 0 <= nd_subtype d < 2 ^ 32 /\
  0 <= nd_flags d < 2 ^ 16 /\ 0 <= nd_level d < 2 ^ 16 /\ len (nd_lists d) = 8 /\
  len (nd_footer d) = (if Z.testbit (nd_flags d) 0 then 40 else 0) /\
  len (node_bytes d) <= 65535 /\
  In (nd_type d mod 2 ^ 24) [0; 2; 3] /\
  (nd_fixed d = true -> nd_subtype d = 0x0b /\
     forall k v, In (k, v) (nd_recs d) -> len k = 16 /\ len v = (if Z.testbit (nd_flags d) 1 then 16 else 8)).
