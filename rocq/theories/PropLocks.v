(* C50: the functions of the API give their locks back. *)
Require Import String.
From Verif Require Import Base BaseLemmas Locks LockSpec LockTable LockProofs.
Open Scope string_scope.
Open Scope list_scope.

Definition leaky : string := "libfsapfs_volume_get_snapshot_by_index".

(* Every execution of every function but one leaves the lock of its handle as it was. *)
Theorem C50_calls_balanced_partial : forall name f t, In (name, f) api -> name <> leaky -> call f t -> balanced t.
Proof.
  intros name f t HI HN HC. apply (frees_sound 40 f); [|exact HC].
  assert (X : forallb (fun p => String.eqb (fst p) leaky || frees 40 (snd p)) api = true) by (vm_compute; reflexivity).
  rewrite forallb_forall in X. specialize (X _ HI). cbn [fst snd] in X. apply Bool.orb_prop in X. destruct X as [X|X]; [|exact X].
  apply String.eqb_eq in X. contradiction.
Qed.
Print Assumptions C50_calls_balanced_partial.

(* Any number of threads, each with any sequence of calls on any handles: as long as a thread
   has something left to do, some thread can go on; and when all are done no lock is held. *)
Definition history (cs : list (Z * list event)) : Prop :=
  Forall (fun c => exists name f, In (name, f) api /\ name <> leaky /\ call f (snd c)) cs.
Theorem C50_no_deadlock_partial : forall css ts, Forall history css -> steps (map start css) ts ->
  (finished ts \/ exists ts', step ts ts') /\ (finished ts -> Forall (fun t => th_held t = []) ts).
Proof.
  intros css ts HH HS.
  assert (HG : Forall good ts).
  { apply (steps_good _ _ HS). apply Forall_map. eapply Forall_impl; [|exact HH]. intros cs HC. left. split; [reflexivity|]. apply calls_pairs.
    eapply Forall_impl; [|exact HC]. intros c (name & f & HI & HN & HX). apply (C50_calls_balanced_partial name f); assumption. }
  split; [apply good_progress, HG|apply good_finished, HG].
Qed.
Print Assumptions C50_no_deadlock_partial.

(* two threads use a volume at the same time: both grab its lock for reading *)
Lemma is_locked_call : exists t, t = [EGrab false; ERelease false] /\ call f_volume_is_locked t.
Proof.
  eexists. split; [reflexivity|]. apply call_return.
  apply (exec_next _ _ [] _ _ (one_right _ _ _ _ exec_nil)).
  apply (exec_next _ _ [EGrab false] [ERelease false] _ (one_grab _ _)).
  apply (exec_next _ _ [ERelease false] [] _ (one_release _ _)). apply exec_stop; [constructor|discriminate].
Qed.
Example C50_example : forall v, let tr := [EGrab false; ERelease false] in let css := [[(v, tr)]; [(v, tr); (v, tr)]] in
  Forall history css /\ exists ts, steps (map start css) ts /\ map th_held ts = [[(v, false)]; [(v, false)]] /\ exists ts', step ts ts'.
Proof.
  intros v tr css. destruct is_locked_call as (t & -> & HC).
  assert (HH : history [(v, tr)] /\ history [(v, tr); (v, tr)]).
  { assert (X : exists name f, In (name, f) api /\ name <> leaky /\ call f tr).
    { exists "libfsapfs_volume_is_locked", f_volume_is_locked. split; [|split; [discriminate|exact HC]]. unfold api. cbn [In]. tauto. }
    split; repeat (constructor; [exact X|]); constructor. }
  split; [repeat (constructor; [apply HH|]); constructor|].
  exists [mk_thread [(v, false)] [(v, ERelease false)]; mk_thread [(v, false)] [(v, ERelease false); (v, EGrab false); (v, ERelease false)]].
  split; [|split; [reflexivity|]].
  - eapply steps_step; [eapply steps_step; [apply steps_refl|]|].
    + apply (step_grab [] [start [(v, tr); (v, tr)]] [] v false [(v, ERelease false)]). intros t w' [<-|[<-|[]]] [].
    + apply (step_grab [mk_thread [(v, false)] [(v, ERelease false)]] [] [] v false [(v, ERelease false); (v, EGrab false); (v, ERelease false)]).
      intros t w' [<-|[<-|[]]]; cbn [th_held In]; [|tauto]. intros [X|[]]. injection X as <-. auto.
  - eexists. apply (step_release [] _ v false [] []).
Qed.

(* The full statement is false: with an index out of range libfsapfs_volume_get_snapshot_by_index
   returns without giving the lock back, and the next call that needs the lock for writing, here
   libfsapfs_volume_unlock, waits forever, even in the same thread. *)
Theorem C50_lock_not_released_refuted : exists f g t1 t2, In (leaky, f) api /\ In ("libfsapfs_volume_unlock", g) api /\ call f t1 /\ call g t2 /\
  ~ balanced t1 /\ forall v, exists ts, steps [start [(v, t1); (v, t2)]] ts /\ ~ finished ts /\ forall ts', ~ step ts ts'.
Proof.
  exists f_volume_get_snapshot_by_index, f_volume_unlock, [EGrab false], [EGrab true; ERelease true].
  split; [unfold api, leaky; cbn [In]; tauto|]. split; [unfold api; cbn [In]; tauto|]. split; [|split; [|split]].
  - apply call_return. do 3 apply (exec_next _ _ [] _ _ (one_right _ _ _ _ exec_nil)). apply (exec_next _ _ [EGrab false] [] _ (one_grab _ _)).
    apply exec_stop; [|discriminate]. apply one_left. apply exec_stop; [constructor|discriminate].
  - apply call_return. repeat apply (exec_next _ _ [] _ _ (one_right _ _ _ _ exec_nil)). apply (exec_next _ _ [EGrab true] [ERelease true] _ (one_grab _ _)).
    apply (exec_next _ _ [ERelease true] [] _ (one_release _ _)). apply exec_stop; [constructor|discriminate].
  - intros X. inversion X.
  - intros v. exists [mk_thread [(v, false)] [(v, EGrab true); (v, ERelease true)]]. split; [|split].
    + eapply steps_step; [apply steps_refl|]. apply (step_grab [] [] [] v false [(v, EGrab true); (v, ERelease true)]). intros t w' [<-|[]] [].
    + intros X. inversion X as [|? ? E _]. discriminate.
    + intros ts' X. inversion X as [a b held h w todo HI E|a b h w h1 h2 todo E].
      * destruct a as [|x a]; [|destruct a; discriminate]. injection E as -> -> -> _ _. 
        destruct (HI (mk_thread [(v, false)] ((v, EGrab true) :: todo)) false) as (E & _); [left; reflexivity|left; reflexivity|discriminate].
      * destruct a as [|x a]; [|destruct a; discriminate]. cbn [app] in E. discriminate E.
Qed.
Print Assumptions C50_lock_not_released_refuted.
