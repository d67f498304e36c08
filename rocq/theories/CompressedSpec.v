(* Layout of compressed file data (documented Apple decmpfs and resource fork format),
   from the writer's side. *)
From Verif Require Import Base.

(* Running offsets of a list of blocks from a start offset. *)
Fixpoint offsets_from (start : Z) (comps : list (list Z)) : list Z :=
  match comps with
  | [] => []
  | c :: r => start :: offsets_from (start + len c) r
  end.

(* DEFLATE resource fork: resource header (data at 0x100), data size, number of blocks,
   per block its offset (from 0x104) and size, the blocks, the resource map. *)
Definition deflate_table (start : Z) (comps : list (list Z)) : list Z :=
  flat_map (fun '(o, c) => le_enc 4 o ++ le_enc 4 (len c)) (combine (offsets_from start comps) comps).
Definition deflate_fork (hdr : list Z) (dsize : Z) (comps : list (list Z)) (rmap : list Z) : list Z :=
  be_enc 4 0x100 ++ hdr ++ be_enc 4 dsize ++ le_enc 4 (len comps) ++
  deflate_table (4 + 8 * len comps) comps ++ concat comps ++ rmap.

(* LZVN resource fork: offsets of the blocks and of the end, then the blocks. *)
Definition lzvn_fork (comps : list (list Z)) : list Z :=
  flat_map (le_enc 4) (offsets_from (4 * (len comps + 1)) (comps ++ [[]])) ++ concat comps.

(* Compressed data inside the attribute: one block after the 16-byte header. *)
Definition inline_data (method size : Z) (comp : list Z) : list Z :=
  [0x66; 0x70; 0x6d; 0x63] ++ le_enc 4 method ++ le_enc 8 size ++ comp.

(* The compressed blocks delimited by a table of offsets. *)
Fixpoint cut (C : list Z) (offs : list Z) : list (list Z) :=
  match offs with
  | o :: (e :: _) as r => slice C o (e - o) :: cut C r
  | _ => []
  end.

(* State of a block of a file of [size] bytes: its content, or None if it is damaged
   (does not decompress, or to less than the full 65536 bytes although more data
   follows). Only the last block may be shorter; it then holds the data up to the end
   of the file. *)
Definition block_state (dec : list Z -> Z -> res (list Z)) (size i : Z) (comp : list Z) (st : option (list Z)) : Prop :=
  match st with
  | Some b => dec comp 65536 = Ok b /\ len b <= 65536 /\
      (len b = 65536 \/ 65536 * i < size <= 65536 * i + len b)
  | None => dec comp 65536 = Fail \/
      exists b, dec comp 65536 = Ok b /\ len b < 65536 /\ 65536 * (i + 1) < size
  end.

Inductive block_states (dec : list Z -> Z -> res (list Z)) (size : Z) : Z -> list (list Z) -> list (option (list Z)) -> Prop :=
| bs_end : forall i rest, block_states dec size i rest []
| bs_next : forall i c st comps sts, block_state dec size i c st ->
    block_states dec size (i + 1) comps sts ->
    block_states dec size i (c :: comps) (st :: sts).

(* Content of the file; damaged blocks count as zeros. *)
Definition content (sts : list (option (list Z))) : list Z :=
  concat (map (fun st => match st with Some b => b | None => zeros 65536 end) sts).

(* Outcome of a history of reads of a file with the given blocks. The state is the
   block delivered last and whether a read has failed since; [predict] gives for each
   read the expected outcome (None: an error) as long as no read after a failure starts
   in the block delivered last. *)
Fixpoint walk (sts : list (option (list Z))) (c i : Z) (m : nat) : bool * Z :=
  match m with
  | O => (true, c)
  | S m => match nth_error sts (Z.to_nat i) with
           | Some (Some _) => walk sts i (i + 1) m
           | _ => (false, c)
           end
  end.
Fixpoint predict (sts : list (option (list Z))) (size c : Z) (failed : bool) (ops : list (Z * Z))
  : option (list (option (list Z))) :=
  match ops with
  | [] => Some []
  | (off, n) :: r =>
    let n := Z.min n (size - off) in
    if n <=? 0 then
      match predict sts size c failed r with
      | Some l => Some (Some [] :: l)
      | None => None
      end
    else
      let first := off / 65536 in
      if failed && (c =? first) then None
      else
        let (ok, c') := walk sts c first (Z.to_nat ((off + n - 1) / 65536 - first + 1)) in
        match predict sts size c' (if ok then false else true) r with
        | Some l => Some ((if ok then Some (slice (content sts) off n) else None) :: l)
        | None => None
        end
  end.
Definition outcome (x : option (list Z)) : res (list Z) :=
  match x with Some d => Ok d | None => Fail end.

(* The uncompressed blocks of a file: all of 65536 bytes except the last, which is not
   empty. *)
Definition file_blocks (bs : list (list Z)) : Prop :=
  exists front b, bs = front ++ [b] /\ Forall (fun x => len x = 65536) front /\ 1 <= len b <= 65536.

(* A block is stored compressed, or as is after a marker byte. [packed c b]: c is a
   compressed form of b. *)
Definition stored (marker : Z) (packed : list Z -> list Z -> Prop) (c b : list Z) : Prop :=
  c = marker :: b \/ packed c b.

(* Reads of a file content. *)
Definition read_slice (data : list Z) (op : Z * Z) : res (list Z) :=
  Ok (slice data (fst op) (Z.min (snd op) (len data - fst op))).
