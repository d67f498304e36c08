(* Containers on disk (Apple File System Reference: container superblock, checkpoints),
   independent of the code. Only the record types of the results are those of the model. *)
From Verif Require Import Base ChecksumSpec Checksummed OmapSpec KeyBag KeyBagSpec CryptSpec Container.

(* A little-endian number of n bytes in a block. *)
Definition num (d : list Z) (off n : Z) : Z := le_val (slice d off n).

(* Objects start with checksum, identifier, transaction identifier, type and subtype. *)
Definition xid (d : list Z) : Z := num d 16 8.
Definition kind (d : list Z) : Z := num d 24 4.
Definition superblock_kind : Z := 0x80000001.
Definition map_kind : Z := 0x4000000c.
Definition omap_kind : Z := 0x4000000b.

(* A container superblock of the supported kind: blocks of 4096 bytes, not version 1, the
   checkpoint descriptor area is contiguous. *)
Definition area (d : list Z) : Z := num d 112 8.
Definition area_size (d : list Z) : Z := num d 104 4.
Definition features (d : list Z) : Z := num d 64 8.
Definition superblock_block (d : list Z) : Prop :=
  len d = 4096 /\ bytes d /\ checksummed d /\ kind d = superblock_kind /\ num d 28 4 = 0 /\ slice d 32 4 = [78; 88; 83; 66] /\
  num d 36 4 = 4096 /\ Z.testbit (features d) 0 = false /\ area_size d < 2 ^ 31 /\ area d <> 0 /\ num d 180 4 <= 100.

(* The identifiers of the volumes: 100 slots, those with 0 are not in use. *)
Definition slots (d : list Z) : list Z := map (fun i => num d (184 + 8 * Z.of_nat i) 8) (seq 0 100).
Definition volumes (d : list Z) : list Z := filter (fun v => negb (v =? 0)) (slots d).

Definition contents (d : list Z) : superblock :=
  {| sb_xid := xid d; sb_blocks := num d 40 8; sb_incompatible := features d; sb_id := slice d 72 16; sb_omap := num d 160 8;
     sb_volumes := slots d; sb_count := len (volumes d); sb_bag := num d 1296 8; sb_bag_size := num d 1304 8;
     sb_area_size := area_size d; sb_area := area d |}.

(* A checkpoint map with its mappings from object identifier to address. *)
Definition map_block (d : list Z) : Prop :=
  len d = 4096 /\ bytes d /\ checksummed d /\ kind d = map_kind /\ num d 28 4 = 0 /\ num d 36 4 <= 101.
Definition mappings (d : list Z) : list (Z * Z) :=
  map (fun i => (num d (40 + 40 * Z.of_nat i + 24) 8, num d (40 + 40 * Z.of_nat i + 32) 8)) (seq 0 (Z.to_nat (num d 36 4))).
Definition first_mapping (l : list (Z * Z)) (oid : Z) (r : option Z) : Prop :=
  match r with
  | Some a => exists before after, l = before ++ (oid, a) :: after /\ ~ In oid (map fst before)
  | None => ~ In oid (map fst l)
  end.

(* An image: no more than 4096 bytes per block. *)
Definition device_ok (dev : device) : Prop := forall b d, dev b = Some d -> bytes d /\ len d <= 4096.

Definition superblock_in (dev : device) (b : Z) (d : list Z) : Prop := dev b = Some d /\ superblock_block d.

(* The blocks of the descriptor area and the one after it: readable, and each superblock and
   checkpoint map among them is intact and belongs to this area. *)
Definition area_intact (dev : device) (a n : Z) : Prop :=
  forall i, 0 <= i <= n -> exists d, dev (a + i) = Some d /\ 32 <= len d /\
    (kind d = superblock_kind -> superblock_block d /\ area d = a /\ area_size d = n) /\
    (kind d = map_kind -> map_block d).

(* The key bag of a container is encrypted sector by sector under the identifier of the
   container (as both keys of XTS); sectors have 512 bytes. *)
Definition stored (dev : device) (b n : Z) (data : list Z) : Prop :=
  exists blocks, len blocks = n /\ concat blocks = data /\ forall i, 0 <= i < len blocks ->
  exists d, nth_error blocks (Z.to_nat i) = Some d /\ dev (b + i) = Some d /\ len d = 4096.
Section Cipher.
  Variable enc : list Z -> list Z -> list Z -> list Z.
  Definition bag_stored (dev : device) (b n : Z) (id : list Z) (l : list bag_entry) : Prop :=
    0 < b < 2 ^ 51 /\ 0 < n <= 32768 /\ b + n <= 2 ^ 51 /\
    exists sectors sum ids size u body rest,
    Forall (fun s => bytes s /\ len s = 512) sectors /\ len sectors = 8 * n /\
    stored dev b n (concat (enc_sectors (fun m => enc id (data_unit m)) (8 * b) sectors)) /\
    concat sectors = bag_image sum ids 0x6b657973 (len l) size u body rest /\
    len sum = 8 /\ len ids = 16 /\ len u = 8 /\ bag_layout l body /\ len l < 2 ^ 16 /\ 0 <= size < 2 ^ 32 /\ size <= 16 + len body + len rest /\
    checksummed (concat sectors).

  (* The objects a superblock refers to: the object map with the root of its tree, and the key
     bag if there is one. *)
  Definition root_of (dev : device) (d : list Z) (root : Z) : Prop :=
    0 < num d 160 8 < 2 ^ 51 /\ exists o, dev (num d 160 8) = Some o /\ 88 <= len o /\ kind o = omap_kind /\ num o 28 4 = 0 /\
    num o 48 8 = root /\ root <> 0.
  Definition bag_of (dev : device) (d : list Z) (l : option (list bag_entry)) : Prop :=
    match l with
    | None => num d 1296 8 = 0 \/ num d 1304 8 = 0
    | Some l => bag_stored dev (num d 1296 8) (num d 1304 8) (slice d 72 16) l
    end.
  Definition usable (dev : device) (d : list Z) : Prop := exists root l, root_of dev d root /\ bag_of dev d l.

  (* A superblock in block 0 or in the descriptor area that no other one is newer than; of
     several with the same transaction identifier the first. *)
  Definition before (a b b' : Z) : Prop := b' <> b /\ (b' = 0 \/ (b <> 0 /\ a <= b' < b)).
  Definition newest_superblock (dev : device) (a n b : Z) (d : list Z) : Prop :=
    superblock_in dev b d /\ (b = 0 \/ a <= b <= a + n) /\
    forall b' d', (b' = 0 \/ a <= b' <= a + n) -> superblock_in dev b' d' ->
    xid d' <= xid d /\ (before a b b' -> xid d' < xid d).

  (* A container in a consistent state, with superblock d in block b the newest. *)
  Definition consistent (dev : device) (b : Z) (d : list Z) : Prop :=
    device_ok dev /\
    exists d0, superblock_in dev 0 d0 /\ Z.testbit (features d0) 8 = false /\ 0 < area d0 /\ area d0 + area_size d0 < 2 ^ 51 /\
    area_intact dev (area d0) (area_size d0) /\
    (exists i m, 0 <= i <= area_size d0 /\ dev (area d0 + i) = Some m /\ kind m = map_kind /\ 0 < xid m) /\
    newest_superblock dev (area d0) (area_size d0) b d /\ usable dev d.
End Cipher.

(* The size of the container, as the superblock in block 0 has it. *)
Definition size_of (dev : device) : Z := match dev 0 with Some d0 => num d0 40 8 * 4096 mod 2 ^ 64 | None => 0 end.
(* The blocks of a device before byte n. *)
Definition part (n : Z) (dev : device) : device := fun b => if b <? n / 4096 then dev b else None.

(* Writing blocks. A block that is written when the machine stops has a part of the new content
   and for the rest the old one. *)
Definition put (dev : device) (b : Z) (d : list Z) : device := fun x => if x =? b then Some d else dev x.
Fixpoint puts (dev : device) (ws : list (Z * list Z)) : device :=
  match ws with
  | [] => dev
  | (b, d) :: ws => puts (put dev b d) ws
  end.
Definition torn (old new : list Z) (k : nat) : list Z := firstn k new ++ skipn k old.
(* The states in which a sequence of writes can leave the device. *)
Inductive crash (dev : device) (ws : list (Z * list Z)) : device -> Prop :=
| crash_between n : crash dev ws (puts dev (firstn n ws))
| crash_torn n b new old k : nth_error ws n = Some (b, new) -> puts dev (firstn n ws) b = Some old ->
    crash dev ws (put (puts dev (firstn n ws)) b (torn old new k)).
Inductive crash_clean (dev : device) (ws : list (Z * list Z)) : device -> Prop :=
| crash_clean_intro n : crash_clean dev ws (puts dev (firstn n ws)).

(* The writes of a checkpoint after which d' in block b' is the newest superblock: first
   anything that is not in use, then the maps of the checkpoint, then its superblock in the
   descriptor area, then maybe a copy in block 0. Nothing replaces the superblock that was the
   newest before (d in block b) until the new one is written. *)
Definition refers (d : list Z) (x : Z) : Prop := x = num d 160 8 \/ (num d 1296 8 <= x < num d 1296 8 + num d 1304 8).
Section Checkpoint.
  Variable enc : list Z -> list Z -> list Z -> list Z.
  Definition checkpoint (dev : device) (b : Z) (d : list Z) (b' : Z) (d' : list Z) (ws : list (Z * list Z)) : Prop :=
    exists objects maps copy, ws = objects ++ maps ++ (b', d') :: copy /\
    superblock_block d' /\ xid d < xid d' /\ area d' = area d /\ area_size d' = area_size d /\ Z.testbit (features d') 8 = false /\
    area d <= b' < area d + area_size d /\ b' <> b /\
    Forall (fun w => bytes (snd w) /\ len (snd w) <= 4096 /\ fst w <> 0 /\ ~ area d <= fst w <= area d + area_size d) objects /\
    (forall x, refers d x -> ~ In x (map fst objects)) /\ usable enc (puts dev objects) d' /\
    (forall x, refers d x \/ refers d' x -> x <> 0 /\ ~ area d <= x <= area d + area_size d) /\
    maps <> [] /\ Forall (fun w => map_block (snd w) /\ xid (snd w) = xid d' /\ area d <= fst w < area d + area_size d /\ fst w <> b /\ fst w <> b') maps /\
    (copy = [] \/ copy = [(0, d')]).
End Checkpoint.
