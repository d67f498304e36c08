(* What must not stay behind in memory, independent of the code. *)
From Verif Require Import Base Volume Secrets.

(* memory that has the bytes s somewhere *)
Definition holds (c s : list Z) : Prop := exists x y, c = x ++ s ++ y.
Definition left_behind (st : leftovers) (s : list Z) : Prop := exists a c, In (a, c) st /\ holds c s.

Definition cleared (c : list Z) : Prop := Forall (eq 0) c.

(* the sizes of the arrays *)
Definition frames (before : array -> list Z) : Prop :=
  len (before PasswordKey) = 32 /\ len (before Wrapped) = 40 /\ len (before Digest) = 32 /\
  len (before VolumeKey) = 32 /\ len (before MasterKey) = 32.

(* The arrays for passwords and keys: cleared or, if they are on the stack, never written. *)
Definition kept_clean (before : array -> list Z) (x : array * list Z) : Prop :=
  match fst x with
  | PasswordKey | Wrapped | Digest | VolumeKey | MasterKey => cleared (snd x) \/ snd x = before (fst x)
  | UserPassword | RecoveryPassword => cleared (snd x)
  | Iterate | Salt | Block | Vector => True
  end.

(* the passwords that are set by calls *)
Fixpoint users (cs : list call) : list (list Z) :=
  match cs with
  | [] => []
  | SetUser (Some p) :: cs => p :: users cs
  | _ :: cs => users cs
  end.
Fixpoint recoveries (cs : list call) : list (list Z) :=
  match cs with
  | [] => []
  | SetRecovery (Some p) :: cs => p :: recoveries cs
  | _ :: cs => recoveries cs
  end.
(* the sizes of the memory that was given back for passwords, the first one first *)
Definition given (f : array -> bool) (st : leftovers) : list Z :=
  rev (map (fun x => len (snd x)) (filter (fun x => f (fst x)) st)).
Definition is_user (a : array) : bool := match a with UserPassword => true | _ => false end.
Definition is_recovery (a : array) : bool := match a with RecoveryPassword => true | _ => false end.
