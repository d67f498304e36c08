(* The data of a file on the device (Apple File System Reference, File-System Objects: data
   streams and file extents; Encryption), independent of the code. *)
From Verif Require Import Base CryptSpec OmapSpec FsTree.

(* Extents from logical offset o on, one after the other, of whole blocks. *)
Fixpoint contiguous (o : Z) (l : list extent) : Prop :=
  match l with
  | [] => True
  | e :: l => ex_off e = o /\ 0 < ex_size e /\ ex_size e mod 4096 = 0 /\ contiguous (o + ex_size e) l
  end.
Definition total (l : list extent) : Z := fold_right (fun e s => ex_size e + s) 0 l.

(* Block k of extent e has the content d: as it is, or encrypted sector by sector, where the
   first sector of the extent has the number 8 times the encryption identifier. *)
Definition plain_block (dev : device) (e : extent) (k : Z) (d : list Z) : Prop :=
  dev (ex_block e + k) = Some d /\ len d = 4096.
Definition encrypted_block (enc : list Z -> list Z -> list Z) (dev : device) (e : extent) (k : Z) (d : list Z) : Prop :=
  exists sectors, d = concat sectors /\ len sectors = 8 /\ Forall (fun s => bytes s /\ len s = 512) sectors /\
  dev (ex_block e + k) = Some (concat (enc_sectors (fun n => enc (data_unit n)) (8 * (ex_crypto e + k)) sectors)).

(* Every extent has the bytes of the file at its place; in a sparse file, extents of block 0
   are holes, which read as zeros. *)
Definition content_of (block : extent -> Z -> list Z -> Prop) (sparse : bool) (l : list extent) (content : Z -> Z) : Prop :=
  forall e k, In e l -> 0 <= k < ex_size e / 4096 ->
  if sparse && (ex_block e =? 0) then forall j, 0 <= j < 4096 -> content (ex_off e + 4096 * k + j) = 0
  else block e k (map (fun j => content (ex_off e + 4096 * k + Z.of_nat j)) (seq 0 (Z.to_nat 4096))).

(* the bytes from o on *)
Definition window (content : Z -> Z) (o n : Z) : list Z := map (fun j => content (o + Z.of_nat j)) (seq 0 (Z.to_nat n)).
