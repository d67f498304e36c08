(* C88 and C89: how long the objects of the library live. *)
From Coq Require Import Bool List Arith Lia.
From Verif Require Import Base Walk FileEntry Lifetime LifetimeSpec LifetimeProofs LifetimeOrder.
Import ListNotations.
Local Open Scope nat_scope.

(* ---- C88: memory that was given back is not touched ---- *)

(* A program that frees what it got from an object before the object: no call touches
   memory that was given back, nor gives memory back twice. *)
Theorem C88_no_use_after_free_partial : forall cs, obeys [] (trace cs) ->
  forall c a, In (c, a) (trace cs) -> a <> Oob.
Proof. intros cs O c a Q. exact (proj1 (proj1 (run_good cs [] start inv_start O) c a Q)). Qed.
Print Assumptions C88_no_use_after_free_partial.

(* At its end, such a program may close and free in any order, as long as a file IO
   handle of its own is not freed before the container. *)
Theorem C88_free_in_any_order_partial : forall cs fs, obeys [] (trace cs) -> (forall c, In c fs -> gives_back c = true) ->
  forall c a, In (c, a) (trace (cs ++ fs)) -> a <> Oob.
Proof.
  intros cs fs O G c a Q. destruct (run_good cs [] start inv_start O) as (A & I).
  unfold trace in Q. rewrite (run_app cs fs start A) in Q. cbn [fst] in Q. apply in_app_or in Q. destruct Q as [Q|Q].
  - exact (proj1 (A c a Q)).
  - destruct (run_frees fs _ _ (inv_weak _ _ I) G) as (B & _). exact (proj1 (B c a Q)).
Qed.
Print Assumptions C88_free_in_any_order_partial.

(* Two openings with another handle, two volumes, entries of entries, attributes and a
   snapshot, and calls on all of them; freed in the order of the rule. *)
Definition fp_calls : list call :=
  [ NewFile; NewContainer; OpenFile 1 0 true; GetVolume 1 true; GetVolume 1 false; GetEntry 2 Late; GetEntry 2 Done; GetSub 3 true
  ; GetAttr 4 Done; GetSnapshot 2 true; Use 1 true; Use 2 true; Use 3 true; Use 4 true; Use 5 true; Use 6 true
  ; FreeAttr 5; FreeEntry 3; Use 4 false; FreeEntry 4; FreeSnapshot 6; FreeVolume 2; Close 1; OpenName 1 true; Use 1 true
  ; OpenName 1 true; FreeContainer 1; FreeFile 0; FreeFile 0 ].
Ltac not_given := let m := fresh in let x := fresh in let T := fresh in
  intros m x T; repeat (destruct m as [|m]; [cbn in T; injection T as <-; cbn; intros; discriminate|]); destruct m; discriminate T.
Example fp_ex :
  obeys [] (trace fp_calls) /\
  map snd (trace fp_calls) =
    [ Ok (Some 0); Ok (Some 1); Ok None; Ok (Some 2); Fail; Fail; Ok (Some 3); Ok (Some 4)
    ; Ok (Some 5); Ok (Some 6); Ok None; Ok None; Ok None; Ok None; Ok None; Ok None
    ; Ok None; Ok None; Ok None; Ok None; Ok None; Ok None; Ok None; Ok None; Ok None
    ; Fail; Ok None; Ok None; Ok None ].
Proof.
  split; [|vm_compute; reflexivity].
  assert (E : trace fp_calls = ltac:(let x := eval vm_compute in (trace fp_calls) in exact x)) by (vm_compute; reflexivity).
  rewrite E. clear E. cbn [obeys learn app change dead with_ from_of nth_error o_kind o_from o_live o_with].
  repeat (split; [try exact I; cbn [rule]; unfold none_from, unused; not_given|]). exact I.
Qed.

(* What is got from an object uses its memory: the calls below are given objects that were
   not freed, and touch memory that was given back. *)
Ltac held_ex := 
  match goal with |- held_only [] ?t => let x := eval vm_compute in t in change t with x end;
  cbn [held_only given learn app change dead with_ from_of nth_error o_kind o_from o_live o_with];
  repeat (split; [let n := fresh in let H := fresh in intros n H; cbn [In] in H; repeat (destruct H as [<-|H]; [eexists; split; [reflexivity|reflexivity]|]); destruct H|]);
  exact I.

(* A volume after its container was closed. *)
Theorem C88_closed_container_refuted : exists cs, held_only [] (trace cs) /\ In (Use 1 false, Oob) (trace cs).
Proof.
  exists [NewContainer; OpenName 0 true; GetVolume 0 true; Close 0; Use 1 false].
  split; [held_ex|vm_compute; auto 10].
Qed.
Print Assumptions C88_closed_container_refuted.
(* Also if it was opened again. *)
Theorem C88_opened_again_refuted : exists cs, held_only [] (trace cs) /\ In (GetEntry 1 Done, Oob) (trace cs).
Proof.
  exists [NewContainer; OpenName 0 true; GetVolume 0 true; Close 0; OpenName 0 true; GetEntry 1 Done].
  split; [held_ex|vm_compute; auto 10].
Qed.
Print Assumptions C88_opened_again_refuted.
(* A file entry after its volume was freed. *)
Theorem C88_freed_volume_refuted : exists cs, held_only [] (trace cs) /\ In (Use 2 false, Oob) (trace cs).
Proof.
  exists [NewContainer; OpenName 0 true; GetVolume 0 true; GetEntry 1 Done; FreeVolume 1; Use 2 false].
  split; [held_ex|vm_compute; auto 10].
Qed.
Print Assumptions C88_freed_volume_refuted.
(* An extended attribute after its file entry was freed. *)
Theorem C88_freed_entry_refuted : exists cs, held_only [] (trace cs) /\ In (Use 3 false, Oob) (trace cs).
Proof.
  exists [NewContainer; OpenName 0 true; GetVolume 0 true; GetEntry 1 Done; GetAttr 2 Done; FreeEntry 2; Use 3 false].
  split; [held_ex|vm_compute; auto 10].
Qed.
Print Assumptions C88_freed_entry_refuted.
(* A snapshot after its volume was freed. *)
Theorem C88_freed_volume_snapshot_refuted : exists cs, held_only [] (trace cs) /\ In (Use 2 false, Oob) (trace cs).
Proof.
  exists [NewContainer; OpenName 0 true; GetVolume 0 true; GetSnapshot 1 true; FreeVolume 1; Use 2 false].
  split; [held_ex|vm_compute; auto 10].
Qed.
Print Assumptions C88_freed_volume_snapshot_refuted.
(* A container after the handle it was opened with was freed: it can not even be freed. *)
Theorem C88_freed_handle_refuted : exists cs, held_only [] (trace cs) /\ In (FreeContainer 1, Oob) (trace cs).
Proof.
  exists [NewFile; NewContainer; OpenFile 1 0 true; FreeFile 0; FreeContainer 1].
  split; [held_ex|vm_compute; auto 10].
Qed.
Print Assumptions C88_freed_handle_refuted.
(* But a sub file entry does not need the file entry it was got from. *)
Example fp_sub : map snd (trace [NewContainer; OpenName 0 true; GetVolume 0 true; GetEntry 1 Done; GetSub 2 true; FreeEntry 2; Use 3 true])
  = [Ok (Some 0); Ok None; Ok (Some 1); Ok (Some 2); Ok (Some 3); Ok None; Ok None].
Proof. vm_compute. reflexivity. Qed.

(* ---- C89: what a program freed is given back ---- *)

(* A program that freed its objects, in any order, leaves nothing but superblocks of
   snapshots. *)
Theorem C89_no_leak_partial : forall cs fs, obeys [] (trace cs) -> (forall c, In c fs -> gives_back c = true) ->
  (forall n o, nth_error (known (trace (cs ++ fs))) n = Some o -> o_live o = false) ->
  (forall b, live (after (cs ++ fs)) b = true ->
     snd b = Super /\ exists o, nth_error (known (trace (cs ++ fs))) (fst b) = Some o /\ o_kind o = KSnapshot) /\
  ((forall v ok, ~ In (GetSnapshot v ok) cs) -> forall b, live (after (cs ++ fs)) b = false).
Proof.
  intros cs fs O G H. destruct (run_good cs [] start inv_start O) as (A & I).
  assert (W : winv (known (trace (cs ++ fs))) (after (cs ++ fs))).
  { unfold known, trace, after. rewrite (run_app cs fs start A). cbn [fst snd]. rewrite fold_left_app.
    exact (proj2 (run_frees fs _ _ (inv_weak _ _ I) G)). }
  split; [exact (left_over _ _ W H)|]. intros N. apply (nothing_left _ _ W); [|exact H].
  unfold after. apply ns_run.
  - intros n h m. destruct n; discriminate.
  - intros v ok Q. apply in_app_or in Q. destruct Q as [Q|Q]; [exact (N v ok Q)|]. discriminate (G _ Q).
Qed.
Print Assumptions C89_no_leak_partial.

(* The calls of fp_ex without the snapshot, freed in another order. *)
Definition fq_calls : list call :=
  [ NewContainer; OpenName 0 true; GetVolume 0 true; GetEntry 1 Done; GetSub 2 true; GetAttr 3 Done; Use 2 true; Use 4 true ].
Definition fq_frees : list call := [FreeVolume 1; FreeEntry 3; Close 0; FreeAttr 4; FreeContainer 0; FreeEntry 2].
Example fq_ex : obeys [] (trace fq_calls) /\ forallb gives_back fq_frees = true /\
  map o_live (known (trace (fq_calls ++ fq_frees))) = [false; false; false; false; false] /\
  map snd (fst (run (after fq_calls) fq_frees)) = [Ok None; Ok None; Ok None; Ok None; Ok None; Ok None] /\
  live (after fq_calls) (2, Vals) = true /\ live (after (fq_calls ++ fq_frees)) (2, Vals) = false.
Proof.
  split.
  { assert (E : trace fq_calls = ltac:(let x := eval vm_compute in (trace fq_calls) in exact x)) by (vm_compute; reflexivity).
    rewrite E. clear E. cbn [obeys rule]. repeat (split; [exact I|]). exact I. }
  vm_compute. repeat split.
Qed.

(* A snapshot that was got and freed leaves its superblock. *)
Theorem C89_snapshot_leak_refuted : exists cs, obeys [] (trace cs) /\
  (forall n o, nth_error (known (trace cs)) n = Some o -> o_live o = false) /\ exists b, live (after cs) b = true.
Proof.
  exists [NewContainer; OpenName 0 true; GetVolume 0 true; GetSnapshot 1 true; FreeSnapshot 2; FreeVolume 1; Close 0; FreeContainer 0].
  split; [|split].
  - match goal with |- obeys [] ?t => let x := eval vm_compute in t in change t with x end.
    cbn [obeys rule learn app change dead with_ from_of nth_error o_kind o_from o_live o_with].
    repeat (split; [try exact I; unfold none_from, unused; not_given|]). exact I.
  - match goal with |- context [known ?t] => let x := eval vm_compute in (known t) in change (known t) with x end.
    intros n o T. repeat (destruct n as [|n]; [cbn in T; injection T as <-; reflexivity|]). destruct n; discriminate T.
  - exists (2, Super). vm_compute. reflexivity.
Qed.
Print Assumptions C89_snapshot_leak_refuted.
