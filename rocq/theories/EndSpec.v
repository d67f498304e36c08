(* A file on a device, from the superblock of the container to the bytes of the file,
   independent of the code. *)
From Verif Require Import Base CryptSpec KeyBag KeyBagSpec VolumeSpec TreeSpec OmapSpec NameSpec PropName RecordsSpec Records FsTree FsSpec FsNameSpec DataSpec FileSpec EntrySpec Container ContainerSpec Snapshot SnapSpec VolumeSuper VSuperSpec.

(* The nodes of the file system tree: block b holds d as it is, or encrypted as the sectors
   from 8 * b on. *)
Definition node_block (enc : option (list Z -> list Z -> list Z)) (dev : device) (b : Z) (d : list Z) : Prop :=
  match enc with
  | None => dev b = Some d
  | Some enc => exists sectors, d = concat sectors /\ Forall (fun s => bytes s /\ len s = 512) sectors /\
      dev b = Some (concat (enc_sectors (fun n => enc (data_unit n)) (8 * b) sectors))
  end.
Definition nodes_stored (enc : option (list Z -> list Z -> list Z)) (dev nodes : device) : Prop :=
  forall b d, 0 <= b < 2 ^ 31 -> nodes b = Some d -> len d = 4096 -> node_block enc dev b d.
Definition file_block (enc : option (list Z -> list Z -> list Z)) (dev : device) : extent -> Z -> list Z -> Prop :=
  match enc with None => plain_block dev | Some enc => sealed_block enc dev end.

(* Every directory has different names, in order; its entries exist. *)
Definition directories (tie : list Z -> list Z -> Prop) (hashed fold : bool) (recs : list TreeSpec.record) : Prop :=
  forall id v, inode_is recs id (Some v) ->
  directory hashed fold id recs /\ name_order tie hashed fold id recs /\
  (forall r e s, named hashed fold id recs r e s -> (hashed = true -> de_hash e <> 0) /\ exists v, inode_is recs (de_inode e) (Some v)) /\
  (forall r1 e1 s1 r2 e2 s2, named hashed fold id recs r1 e1 s1 -> named hashed fold id recs r2 e2 s2 -> same_name fold s1 s2 -> e1 = e2).

(* The components cs lead from directory id to object i, found by its entry e. The names are
   given in the case in which they are stored. *)
Inductive leads (hashed fold : bool) (recs : list TreeSpec.record) : Z -> option dentry -> list (list Z) -> Z -> option dentry -> Prop :=
| leads_here id e : leads hashed fold recs id e [] id e
| leads_down id d c cs r e s i e' : named hashed fold id recs r e s -> c <> [] -> same_name false s c -> same_name fold s c ->
    leads hashed fold recs (de_inode e) (Some e) cs i e' -> leads hashed fold recs id d (c :: cs) i e'.

(* The keys of a volume with identifier id: the passwords open a record of its key bag, the key
   in it opens its volume key in the key bag of the container. *)
Section Keys.
  Variables (enc : list Z -> list Z -> list Z) (sha : list Z -> list Z) (hmac : list Z -> list Z -> list Z).
  Definition unlocked (bag : option (list bag_entry)) (id : list Z) (k : option (list bag_entry)) (user recovery : option (list Z)) (key : option (list Z)) : Prop :=
    match k with
    | None => key = None
    | Some l => exists l1 e l2 c1 ce c2 kek master, key = Some master /\ l = l1 ++ e :: l2 /\ bag = Some (c1 ++ ce :: c2) /\
        Forall (entry_closed enc hmac user recovery) l1 /\ entry_opens enc hmac user recovery e kek /\
        Forall (key_entry_closed enc sha id kek) c1 /\ key_entry_opens enc sha id kek ce master
    end.
End Keys.

(* The volume v-th of the container whose newest superblock is d, with superblock sb; its object
   map has the records orecs, its file system tree has the records recs; key: its volume key. The
   nodes of the trees are in the blocks that the superblock in block 0 counts. *)
Record volume_on := {
  vn_root : Z; vn_crecs : list TreeSpec.record; vn_bag : option (list bag_entry); vn_super : list Z; vn_omap : Z; vn_orecs : list TreeSpec.record;
  vn_keys : option (list bag_entry); vn_snapshots : list snapshot; vn_key : option (list Z); vn_nodes : device; vn_top : Z; vn_recs : list TreeSpec.record }.
Section Volume.
  Variables (enc : list Z -> list Z -> list Z) (sha : list Z -> list Z) (hmac : list Z -> list Z -> list Z).
  (* XTS encryption: key, tweak key, tweak, data *)
  Variable xenc : list Z -> list Z -> list Z -> list Z -> list Z.
  Definition data_cipher (key : option (list Z)) : option (list Z -> list Z -> list Z) :=
    match key with None => None | Some m => Some (xenc (firstn 16 m) (skipn 16 m)) end.
  Definition volume_stored (tie : list Z -> list Z -> Prop) (dev : device) (b : Z) (d : list Z) (v : nat) (user recovery : option (list Z)) (n : volume_on) : Prop :=
    consistent (fun id => xenc id id) dev b d /\ (exists k, slots d = volumes d ++ repeat 0 k) /\
    root_of dev d (vn_root n) /\ (exists h, Z.of_nat h <= 256 /\ omap_tree (part (size_of dev) dev) h (vn_root n) (vn_crecs n)) /\ bag_of (fun id => xenc id id) dev d (vn_bag n) /\
    (exists o e, nth_error (volumes d) v = Some o /\ newest (vn_crecs n) o (xid d) (Some e) /\ vsuper_in dev false (rec_address e) (vn_super n)) /\
    let sb := vn_super n in
    omap_object dev (num sb 128 8) (vn_omap n) /\ (exists h, Z.of_nat h <= 256 /\ omap_tree (part (size_of dev) dev) h (vn_omap n) (vn_orecs n)) /\
    volume_keys_are (fun id => xenc id id) dev (vn_bag n) sb (vn_keys n) /\ snapshots_are (part (size_of dev) dev) tie sb (vn_orecs n) (vn_snapshots n) /\
    unlocked enc sha hmac (vn_bag n) (slice sb 240 16) (vn_keys n) user recovery (vn_key n) /\
    num sb 136 8 <> 0 /\ (exists r, newest (vn_orecs n) (num sb 136 8) (xid sb) (Some r) /\ rec_address r = vn_top n) /\
    nodes_stored (data_cipher (vn_key n)) dev (vn_nodes n) /\
    exists h, fs_tree tie h (mk_fs (part (size_of dev) (vn_nodes n)) (vn_top n) (part (size_of dev) dev) (vn_omap n) (xid sb)) (vn_recs n).
End Volume.
