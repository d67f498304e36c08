(* Object maps on disk (Apple File System Reference, Object Maps), independent of the
   code. *)
From Verif Require Import Base BTreeSpec TreeSpec.

Definition device : Type := Z -> option (list Z).

(* Block b of the device holds an object map node in the on-disk format: 4096 bytes with
   at most 2 KiB of unused table of contents, block number within 31 bits. *)
Definition omap_node (dev : device) (root : bool) (b : Z) (leaf : bool) (recs : list record) : Prop :=
  0 <= b < 2 ^ 31 /\
  exists d, dev b = Some (node_bytes d) /\ node_ok d /\ len (node_bytes d) = 4096 /\
    len (nd_gap d) + len (nd_spare d) <= 2048 /\
    nd_type d = (if root then 0x40000002 else 0x40000003) /\ nd_subtype d = 0x0b /\
    Z.testbit (nd_flags d) 0 = root /\ Z.testbit (nd_flags d) 1 = leaf /\ Z.testbit (nd_flags d) 2 = true /\
    (root = true -> slice (nd_footer d) 4 12 = le_enc 4 4096 ++ le_enc 4 16 ++ le_enc 4 16) /\
    nd_recs d = recs.

(* Keys: object identifier, then transaction identifier. *)
Definition okey (k : list Z) : Z * Z := (le_val (slice k 0 8), le_val (slice k 8 8)).
Definition pair_lt (a b : Z * Z) : Prop := fst a < fst b \/ (fst a = fst b /\ snd a < snd b).
Definition okey_lt (a b : list Z) : Prop := pair_lt (okey a) (okey b).

(* A branch node refers to a child by block number and by the first key of the child. *)
Definition ochild (v : list Z) (b : Z) : Prop := v = le_enc 8 b.

Definition omap_tree (dev : device) (h : nat) (b : Z) (recs : list record) : Prop :=
  subtree (omap_node dev) ochild okey_lt eq h true b recs.

(* What a record says: object identifier, transaction, flags, size, address. *)
Definition rec_oid (r : record) : Z := le_val (slice (fst r) 0 8).
Definition rec_txn (r : record) : Z := le_val (slice (fst r) 8 8).
Definition rec_address (r : record) : Z := le_val (slice (snd r) 8 8).

(* The newest version of an object not after a transaction. *)
Definition newest (recs : list record) (oid t : Z) (r : option record) : Prop :=
  match r with
  | Some r => In r recs /\ rec_oid r = oid /\ rec_txn r <= t /\
      forall r', In r' recs -> rec_oid r' = oid -> rec_txn r' <= t -> rec_txn r' <= rec_txn r
  | None => forall r', In r' recs -> rec_oid r' = oid -> t < rec_txn r'
  end.
