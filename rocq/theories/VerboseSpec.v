(* What debug output needs of a device, independent of the code. *)
From Verif Require Import Base OmapSpec Container ContainerSpec.

(* An object of n bytes, type and subtype at block b. Block numbers count modulo 2^52, the
   offsets of the bytes modulo 2^64. *)
Definition object_there (dev : device) (b n type subtype : Z) : Prop :=
  b mod 2 ^ 52 < 2 ^ 51 /\ exists d, dev (b mod 2 ^ 52) = Some d /\ n <= len d /\ kind d = type /\ num d 28 4 = subtype.

(* The object with an identifier, where the first mapping says. *)
Definition mapped_there (dev : device) (l : list (Z * Z)) (oid n type : Z) : Prop :=
  oid = 0 \/ exists a, first_mapping l oid (Some a) /\ object_there dev a n type 0.

(* The objects of a container with superblock d and checkpoint map l: Fusion middle tree, space
   manager and reaper. *)
Definition objects_there (dev : device) (d : list Z) (l : list (Z * Z)) : Prop :=
  (num d 1352 8 = 0 \/ object_there dev (num d 1352 8) 4096 0x40000002 0x15) /\
  mapped_there dev l (num d 152 8) 4096 0x80000005 /\
  mapped_there dev l (num d 168 8) 40 0x80000011.

(* The footer of a resource fork with DEFLATE data: offset and size, big-endian, at 4 and 12. The
   data of a fork starts at 256. *)
Definition footer_there (C : list Z) : Prop :=
  be_val (slice C 12 4) = 0 \/ (be_val (slice C 12 4) <= 65537 /\ be_val (slice C 4 4) + be_val (slice C 12 4) <= len C).
