(* Volumes on disk (Apple File System Reference, Volumes), independent of the code. Only the
   record types of the results are those of the model. *)
From Verif Require Import Base BTreeSpec TreeSpec Checksummed OmapSpec FsSpec CryptSpec KeyBag KeyBagSpec ContainerSpec Snapshot SnapSpec VolumeSuper.

(* A volume superblock: a virtual object, or a physical one for a snapshot. *)
Definition vsuper_kind (is_snapshot : bool) : Z := if is_snapshot then 0x4000000d else 0x0000000d.
Definition vsuper_block (is_snapshot : bool) (d : list Z) : Prop :=
  len d = 4096 /\ bytes d /\ checksummed d /\ kind d = vsuper_kind is_snapshot /\ num d 28 4 = 0 /\ slice d 32 4 = [65; 80; 83; 66].
Definition vcontents (d : list Z) : vsuper :=
  {| vs_xid := xid d; vs_compatible := num d 40 8; vs_read_only := num d 48 8; vs_incompatible := num d 56 8; vs_omap := num d 128 8;
     vs_root := num d 136 8; vs_extents := num d 144 8; vs_snapshots := num d 152 8; vs_next := num d 176 8; vs_id := slice d 240 16;
     vs_flags := num d 264 8; vs_name := slice d 704 256 |}.
Definition vsuper_in (dev : device) (is_snapshot : bool) (b : Z) (d : list Z) : Prop :=
  0 <= b < 2 ^ 51 /\ dev b = Some d /\ vsuper_block is_snapshot d.

(* An object map in block b and the root of its tree. *)
Definition omap_object (dev : device) (b root : Z) : Prop :=
  0 < b < 2 ^ 51 /\ exists o, dev b = Some o /\ 88 <= len o /\ kind o = omap_kind /\ num o 28 4 = 0 /\ num o 48 8 = root /\ root <> 0.

Section Cipher.
  Variable enc : list Z -> list Z -> list Z -> list Z.
  (* The key bag of a volume is encrypted under the identifier of the volume. *)
  Definition vbag_stored (dev : device) (b n : Z) (id : list Z) (l : list bag_entry) : Prop :=
    0 < b < 2 ^ 51 /\ 0 < n <= 32768 /\ b + n <= 2 ^ 51 /\
    exists sectors sum ids size u body rest,
    Forall (fun s => bytes s /\ len s = 512) sectors /\ len sectors = 8 * n /\
    stored dev b n (concat (enc_sectors (fun m => enc id (data_unit m)) (8 * b) sectors)) /\
    concat sectors = bag_image sum ids 0x72656373 (len l) size u body rest /\
    len sum = 8 /\ len ids = 16 /\ len u = 8 /\ bag_layout l body /\ len l < 2 ^ 16 /\ 0 <= size < 2 ^ 32 /\ size <= 16 + len body + len rest.

  (* The entry of the key bag of the container for a volume: the first of type 3 with its
     identifier; it holds the location of the key bag of the volume. *)
  Definition bag_entry_for (id : list Z) (e : bag_entry) : Prop := be_type e = 3 /\ be_id e = id.
  Definition location (e : bag_entry) (b n : Z) : Prop := be_data e = le_enc 8 b ++ le_enc 8 n.

  (* What is to be found of the keys of a volume with superblock d, given the entries of the key
     bag of the container. *)
  Definition volume_keys_are (dev : device) (bag : option (list bag_entry)) (d : list Z) (k : option (list bag_entry)) : Prop :=
    match bag with
    | None => k = None
    | Some l =>
      if Z.testbit (num d 264 8) 0 then k = None
      else
        (Forall (fun e => ~ bag_entry_for (slice d 240 16) e) l /\ k = None) \/
        (exists l1 e l2 b n v, l = l1 ++ e :: l2 /\ Forall (fun e => ~ bag_entry_for (slice d 240 16) e) l1 /\
           bag_entry_for (slice d 240 16) e /\ location e b n /\ vbag_stored dev b n (slice d 240 16) v /\ k = Some v)
    end.

  (* The volume with superblock d: object map with root o and records orecs, keys k, snapshots
     ss. The snapshot tree is a single node, or its nodes are virtual objects. *)
  Definition snapshots_are (dev : device) (tie : list Z -> list Z -> Prop) (d : list Z) (orecs : list record) (ss : list snapshot) : Prop :=
    (num d 152 8 = 0 /\ ss = []) \/
    (num d 152 8 <> 0 /\ exists h, snap_tree dev (resolves orecs (xid d)) tie h (num d 152 8) ss).
End Cipher.
