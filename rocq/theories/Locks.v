(* The locks of the handles. Model of the control flow of the functions of the API as far as it
   concerns the lock of their handle (libcthreads_read_write_lock, a POSIX read/write lock);
   the functions themselves are in LockTable.v. *)
From Verif Require Import Base.

(* [true]: for writing. After a failed grab or release the branch given is executed. *)
Inductive stmt :=
| Return
| Goto
| Choice (a b : list stmt)
| Grab (w : bool) (fail : list stmt)
| Release (w : bool) (fail : list stmt)
| Call (f : func)
(* the statements before and after the label on_error *)
with func := Fn (main handler : list stmt).

(* What a call does to the lock of its handle. *)
Inductive event := EGrab (w : bool) | ERelease (w : bool).
Inductive outcome := Next | Returned | Jumped.

(* Executions. A grab may fail; the release of a lock that is held does not fail. *)
Inductive exec : list stmt -> list event -> outcome -> Prop :=
| exec_nil : exec [] [] Next
| exec_next : forall s l t1 t2 o, one s t1 Next -> exec l t2 o -> exec (s :: l) (t1 ++ t2) o
| exec_stop : forall s l t o, one s t o -> o <> Next -> exec (s :: l) t o
with one : stmt -> list event -> outcome -> Prop :=
| one_return : one Return [] Returned
| one_goto : one Goto [] Jumped
| one_left : forall a b t o, exec a t o -> one (Choice a b) t o
| one_right : forall a b t o, exec b t o -> one (Choice a b) t o
| one_grab : forall w f, one (Grab w f) [EGrab w] Next
| one_grab_fail : forall w f t o, exec f t o -> one (Grab w f) t o
| one_release : forall w f, one (Release w f) [ERelease w] Next
| one_call : forall f t, call f t -> one (Call f) t Next
with call : func -> list event -> Prop :=
| call_return : forall m h t, exec m t Returned -> call (Fn m h) t
| call_error : forall m h t1 t2 o o', exec m t1 o -> o <> Returned -> exec h t2 o' -> call (Fn m h) (t1 ++ t2).

(* ---- threads ---- *)
(* A thread: the locks it holds (handle and mode) and what it does next. *)
Record thread := mk_thread { th_held : list (Z * bool); th_todo : list (Z * event) }.
Definition idle (ts : list thread) (h : Z) (w : bool) : Prop :=
  forall t w', In t ts -> In (h, w') (th_held t) -> w = false /\ w' = false.
(* One step of one thread: a lock is granted for reading if nobody holds it for writing, and for
   writing if nobody holds it. *)
Inductive step : list thread -> list thread -> Prop :=
| step_grab : forall a b held h w todo, idle (a ++ mk_thread held ((h, EGrab w) :: todo) :: b) h w ->
    step (a ++ mk_thread held ((h, EGrab w) :: todo) :: b) (a ++ mk_thread ((h, w) :: held) todo :: b)
| step_release : forall a b h w held held' todo,
    step (a ++ mk_thread (held ++ (h, w) :: held') ((h, ERelease w) :: todo) :: b) (a ++ mk_thread (held ++ held') todo :: b).
Inductive steps : list thread -> list thread -> Prop :=
| steps_refl : forall s, steps s s
| steps_step : forall s s' s'', steps s s' -> step s' s'' -> steps s s''.

(* A thread that makes the calls given, each on a handle. *)
Definition calls_of (cs : list (Z * list event)) : list (Z * event) := concat (map (fun c => map (pair (fst c)) (snd c)) cs).
Definition start (cs : list (Z * list event)) : thread := mk_thread [] (calls_of cs).
Definition finished (ts : list thread) : Prop := Forall (fun t => th_todo t = []) ts.
