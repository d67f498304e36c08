(* A device that does not deliver some of its blocks, independent of the code. *)
From Verif Require Import Base OmapSpec FsTree FileEntry FileSpec.

(* dev' is dev, except that some blocks cannot be read; faulty: whether there may be such blocks. *)
Definition worse (faulty : bool) (dev' dev : device) : Prop :=
  forall b, dev' b = dev b \/ (faulty = true /\ dev' b = None).
(* The same of the file system of a volume: of the blocks of its tree and of its object map. *)
Definition fs_worse (faulty : bool) (t' t : fs) : Prop :=
  worse faulty (fs_img t') (fs_img t) /\ worse faulty (fs_omap t') (fs_omap t) /\
  fs_rb t' = fs_rb t /\ fs_orb t' = fs_orb t /\ fs_txn t' = fs_txn t.
(* The answer that is due, or an error if there may be faults. *)
Definition due {A} (faulty : bool) (r' r : res A) : Prop := r' = r \/ (faulty = true /\ r' = Fail).

(* A history of calls on a file, each with the information whether blocks may have been unreadable
   during the call: an answer is the one of the file, or an error of a call during which blocks may
   have been unreadable. The error leaves the position, or puts it where the call asked to read. *)
Inductive history (f : file) : Z -> list (bool * fcall) -> list fanswer -> Prop :=
| h_end pos : history f pos [] []
| h_answer pos faulty c l a pos' r : file_step f pos c = (a, pos') -> history f pos' l r -> history f pos ((faulty, c) :: l) (a :: r)
| h_error pos c l pos' r : (pos' = pos \/ exists n, c = CReadAt pos' n) -> 0 <= pos' -> history f pos' l r -> history f pos ((true, c) :: l) (RError :: r).
