(* C90 and C91: the reference counts of the Python objects. *)
From Coq Require Import Bool List Arith Lia.
From Verif Require Import Base Walk FileEntry Lifetime LifetimeSpec LifetimeProofs LifetimeOrder PyLife PyLifeSpec PyLifeProofs.
Import ListNotations.
Local Open Scope nat_scope.

(* ---- C90: memory that was given back is not touched ---- *)

(* A Python program works with objects it has a reference to. If it closes a container
   when it has no reference left to what it got from it, and does not open a container
   that is open with a file object with another, whatever references it drops in which
   order, no memory is touched that was given back. *)
Theorem C90_python_no_use_after_free_partial : forall ops, python [] (py_trace ops) -> careful_all [] (py_trace ops) ->
  forall op a, In (op, a) (py_trace ops) -> a <> Oob /\ a <> Fuel.
Proof. intros ops H C op a Q. exact (proj1 (py_run_good ops [] [] pystart pinv_start H C) op a Q). Qed.
Print Assumptions C90_python_no_use_after_free_partial.

(* In particular if it never closes a container, and opens it once. *)
Definition opens (op : pyop) : bool := match op with PyOpenFile _ _ | PyClose _ => true | _ => false end.
Lemma no_opens_careful tr : forall t, (forall op a, In (op, a) tr -> opens op = false) -> careful_all t tr.
Proof.
  induction tr as [|[op a] tr IH]; intros t H; cbn [careful_all]; [exact I|]. split.
  - pose proof (H op a (or_introl eq_refl)) as Q. destruct op; try discriminate Q; exact I.
  - apply IH. intros op' a' Q. apply (H op' a'). now right.
Qed.
Lemma run_ops ops : forall s op a, In (op, a) (fst (py_run s ops)) -> In op ops.
Proof.
  induction ops as [|o ops IH]; intros s op a Q; cbn [py_run] in Q; [destruct Q|].
  destruct (py_perform o s) as [r s1]. specialize (IH s1 op a). destruct r; try (destruct (py_run s1 ops) as [tr s2]; cbn [fst] in *);
    destruct Q as [Q|Q]; try (left; congruence); try (right; exact (IH Q)); destruct Q.
Qed.
Theorem C90_open_by_name_partial : forall ops, python [] (py_trace ops) -> (forall op, In op ops -> opens op = false) ->
  forall op a, In (op, a) (py_trace ops) -> a <> Oob.
Proof.
  intros ops H N op a Q. refine (proj1 (C90_python_no_use_after_free_partial ops H _ op a Q)).
  apply no_opens_careful. intros op' a' Q'. exact (N op' (run_ops ops _ _ _ Q')).
Qed.
Print Assumptions C90_open_by_name_partial.

(* A container opened with a file object; its volumes are kept as a sequence. All but
   the attribute is dropped, and the attribute still works; a second container is closed
   and opened again. *)
Definition fr_ops : list pyop :=
  [ PyNew; PyOpenFile 0 false; PyOpenFile 0 true; PySequence 0 false; PyVolume 1 true; PyDrop 0; PyEntry 2 Late; PyEntry 2 Done
  ; PyKeep 3; PyDrop 1; PyDrop 2; PySub 3 true; PyDrop 3; PyDrop 3; PySequence 4 false; PyDrop 4; PyAttr 5 Done; PySub 5 true; PyDrop 5
  ; PyDrop 7; PyUse 6 true
  ; PyNew; PyOpen 8 true; PyVolume 8 true; PyDrop 9; PyClose 8; PyOpen 8 false; PyOpen 8 true; PyClose 8; PyClose 8
  ; PyOpenFile 8 true; PyDrop 8; PyUse 6 false; PyDrop 6 ].

(* Deciding the rules on an example. *)
Definition holds_b (t : ptable) (op : pyop) : bool :=
  match subject op with
  | Some x => match nth_error t x with Some o => 0 <? q_refs o | None => false end
  | None => true
  end.
Lemma holds_b_ok t op : holds_b t op = true -> holds t op.
Proof.
  unfold holds_b, holds. intros H x Q. rewrite Q in H. destruct (nth_error t x) as [o|]; [|discriminate H].
  exists o. split; [reflexivity|]. now apply Nat.ltb_lt.
Qed.
(* Nothing that was got from x, directly or not: looked up along the chain. *)
Fixpoint below (fuel : nat) (t : ptable) (x y : nat) : bool :=
  match fuel with
  | O => false
  | S fuel => match qfrom t y with Some z => Nat.eqb z x || below fuel t x z | None => false end
  end.
Definition ordered (t : ptable) : bool := forallb (fun y => match qfrom t y with Some z => z <? y | None => true end) (seq 0 (length t)).
Lemma below_ok t x y : ordered t = true -> descends t x y -> forall fuel, y < fuel -> below fuel t x y = true.
Proof.
  intros O D.
  assert (Od : forall y z, qfrom t y = Some z -> z < y).
  { intros y' z Q. unfold ordered in O. rewrite forallb_forall in O.
    assert (Ly : y' < length t). { unfold qfrom in Q. apply nth_error_Some. destruct (nth_error t y'); congruence. }
    specialize (O y' ltac:(apply in_seq; lia)). rewrite Q in O. now apply Nat.ltb_lt. }
  induction D as [y Q|y z D IH Q]; intros [|fuel] Lt; try lia; cbn [below]; rewrite Q.
  - now rewrite Nat.eqb_refl.
  - apply orb_true_iff. right. apply IH. pose proof (Od z y Q). lia.
Qed.
Definition careful_b (t : ptable) (op : pyop) : bool :=
  match op with
  | PyClose x => ordered t && forallb (fun y => negb (below (S y) t x y) || match nth_error t y with Some o => Nat.eqb (q_refs o) 0 | None => true end) (seq 0 (length t))
  | PyOpenFile x _ => match nth_error t x with Some o => negb (q_file o) | None => true end
  | _ => true
  end.
Lemma careful_b_ok t op : careful_b t op = true -> careful t op.
Proof.
  destruct op; cbn [careful_b careful]; auto.
  - intros H o Q. rewrite Q in H. now destruct (q_file o).
  - intros H y o D Q. apply andb_true_iff in H. destruct H as (O & H). rewrite forallb_forall in H.
    assert (Ly : y < length t) by (apply nth_error_Some; congruence). specialize (H y ltac:(apply in_seq; lia)).
    rewrite (below_ok t x y O D (S y) ltac:(lia)), Q in H. cbn [negb orb] in H. now apply Nat.eqb_eq.
Qed.
Fixpoint both_b (t : ptable) (tr : list (pyop * res (option nat))) : bool :=
  match tr with
  | [] => true
  | (op, a) :: r => holds_b t op && careful_b t op && both_b (plearn t op a) r
  end.
Lemma both_b_ok tr : forall t, both_b t tr = true -> python t tr /\ careful_all t tr.
Proof.
  induction tr as [|[op a] tr IH]; intros t H; cbn [both_b python careful_all] in *; [auto|].
  apply andb_true_iff in H. destruct H as (H & Hr). apply andb_true_iff in H. destruct H as (H1 & H2).
  destruct (IH _ Hr). split; split; auto using holds_b_ok, careful_b_ok.
Qed.
Fixpoint holds_all_b (t : ptable) (tr : list (pyop * res (option nat))) : bool :=
  match tr with
  | [] => true
  | (op, a) :: r => holds_b t op && holds_all_b (plearn t op a) r
  end.
Lemma holds_all_b_ok tr : forall t, holds_all_b t tr = true -> python t tr.
Proof.
  induction tr as [|[op a] tr IH]; intros t H; cbn [holds_all_b python] in *; [exact I|].
  apply andb_true_iff in H. destruct H as (H1 & H2). split; auto using holds_b_ok.
Qed.

Example fr_ex : python [] (py_trace fr_ops) /\ careful_all [] (py_trace fr_ops) /\
  map snd (py_trace fr_ops) =
    [ Ok (Some 0); Fail; Ok None; Ok (Some 1); Ok (Some 2); Ok None; Fail; Ok (Some 3)
    ; Ok None; Ok None; Ok None; Ok (Some 4); Ok None; Ok None; Ok (Some 5); Ok None; Ok (Some 6); Ok (Some 7); Ok None
    ; Ok None; Ok None
    ; Ok (Some 8); Ok None; Ok (Some 9); Ok None; Ok None; Fail; Ok None; Ok None; Fail
    ; Ok None; Ok None; Ok None; Ok None ].
Proof.
  assert (H : python [] (py_trace fr_ops) /\ careful_all [] (py_trace fr_ops)) by (apply both_b_ok; vm_compute; reflexivity).
  destruct H. split; [assumption|]. split; [assumption|]. vm_compute. reflexivity.
Qed.

(* close() while a volume is left. *)
Theorem C90_close_refuted : exists ops, python [] (py_trace ops) /\ In (PyUse 1 false, Oob) (py_trace ops).
Proof.
  exists [PyNew; PyOpen 0 true; PyVolume 0 true; PyClose 0; PyUse 1 false].
  split; [apply holds_all_b_ok; vm_compute; reflexivity|vm_compute; auto 10].
Qed.
Print Assumptions C90_close_refuted.
(* close() of a container that was opened with a file object, while only an attribute of
   a file entry is left. *)
Theorem C90_close_attribute_refuted : exists ops, python [] (py_trace ops) /\ In (PyUse 3 false, Oob) (py_trace ops).
Proof.
  exists [PyNew; PyOpenFile 0 true; PyVolume 0 true; PyEntry 1 Done; PyAttr 2 Done; PyDrop 1; PyDrop 2; PyClose 0; PyUse 3 false].
  split; [apply holds_all_b_ok; vm_compute; reflexivity|vm_compute; auto 15].
Qed.
Print Assumptions C90_close_attribute_refuted.
(* open_file_object on a container that is open with a file object fails, and frees the
   handle that is in use: the container can then not be dropped. *)
Theorem C90_open_file_object_twice_refuted : exists ops, python [] (py_trace ops) /\
  In (PyOpenFile 0 true, Fail) (py_trace ops) /\ In (PyDrop 0, Oob) (py_trace ops).
Proof.
  exists [PyNew; PyOpenFile 0 true; PyOpenFile 0 true; PyDrop 0].
  split; [apply holds_all_b_ok; vm_compute; reflexivity|vm_compute; auto 10].
Qed.
Print Assumptions C90_open_file_object_twice_refuted.

(* ---- C91: what a program dropped is given back ---- *)

Definition keeps_np {A} (m : P A) : Prop := forall s, no_snapshot (lib s) -> no_snapshot (lib (snd (m s))).
Lemma np_bind {A B} (m : P A) (k : A -> P B) : keeps_np m -> (forall a, keeps_np (k a)) -> keeps_np (bindM m k).
Proof.
  intros Hm Hk s H. unfold bindM. specialize (Hm s H). destruct (m s) as [[a| | |] s1]; cbn [snd] in *; auto. apply Hk. exact Hm.
Qed.
Lemma np_ret {A} (r : res A) : keeps_np (retM r : P A).
Proof. intros s H. exact H. Qed.
Lemma np_pget x : keeps_np (pget x).
Proof. intros s H. exact H. Qed.
Lemma np_pset x o : keeps_np (pset x o).
Proof. intros s H. exact H. Qed.
Lemma np_padd o : keeps_np (padd o).
Proof. intros s H. exact H. Qed.
Lemma np_ask c : of_snapshot c = false -> keeps_np (ask c).
Proof.
  intros Q s H. unfold ask. pose proof (ns_perform c Q (lib s) H) as H1. destruct (perform c (lib s)) as [a l]. exact H1.
Qed.
Lemma np_ask_ok c : of_snapshot c = false -> keeps_np (ask_ok c).
Proof.
  intros Q s H. unfold ask_ok. pose proof (np_ask c Q s H) as H1. destruct (ask c s) as [[a| | |] l]; exact H1.
Qed.
Ltac np :=
  repeat first
    [ apply np_ret | apply np_pget | apply np_pset | apply np_padd | apply np_ask; reflexivity | apply np_ask_ok; reflexivity
    | match goal with
      | |- keeps_np (match ?x with _ => _ end) => destruct x
      | |- keeps_np (bindM _ _) => apply np_bind; [|intros ?]
      | |- keeps_np (incref _) => unfold incref
      | |- keeps_np (py_close _) => unfold py_close
      | |- keeps_np (dealloc _) => unfold dealloc
      | |- keeps_np (py_open_file _ _) => unfold py_open_file
      | |- keeps_np (source _) => unfold source
      | |- keeps_np (wrap _ _ _) => unfold wrap
      | |- keeps_np (pret _) => apply np_ret
      | |- keeps_np pfail => apply np_ret
      end ].
Lemma np_decref fuel : forall x, keeps_np (decref fuel x).
Proof. induction fuel as [|fuel IH]; intros x; cbn [decref]; np; try apply IH. Qed.
Lemma np_perform op : keeps_np (py_perform op).
Proof. destruct op; unfold py_perform; np. apply np_decref. Qed.
Lemma np_run ops : forall s, no_snapshot (lib s) -> no_snapshot (lib (snd (py_run s ops))).
Proof.
  induction ops as [|op ops IH]; intros s H; cbn [py_run]; [exact H|].
  pose proof (np_perform op s H) as H1. destruct (py_perform op s) as [a s1]. cbn [snd] in H1. specialize (IH s1 H1).
  destruct a; try exact H1; destruct (py_run s1 ops) as [tr s2]; exact IH.
Qed.

(* A program that has dropped all its references leaves nothing of the library. *)
Theorem C91_python_no_leak : forall ops, python [] (py_trace ops) -> careful_all [] (py_trace ops) ->
  (forall x o, nth_error (py_known (py_trace ops)) x = Some o -> q_refs o = 0) ->
  forall b, live (lib (py_after ops)) b = false.
Proof.
  intros ops H C N. destruct (py_run_good ops [] [] pystart pinv_start H C) as (_ & t & I).
  apply (nothing_left t).
  - exact (inv_weak _ _ (pi_inv _ _ _ _ I)).
  - apply np_run. intros n h m. destruct n; discriminate.
  - exact (all_gone _ _ _ I N).
Qed.
Print Assumptions C91_python_no_leak.

(* And what a reference is left to, with all it was got from, is not freed before. *)
Theorem C91_python_keeps : forall ops, python [] (py_trace ops) -> careful_all [] (py_trace ops) ->
  forall x o, nth_error (py_known (py_trace ops)) x = Some o -> 0 < q_refs o ->
  forall y, y = x \/ descends (py_known (py_trace ops)) y x ->
  exists p, nth_error (pys (py_after ops)) y = Some p /\ 0 < p_count p /\
    forall n, p_lib p = Some n -> live (lib (py_after ops)) (n, Self) = true.
Proof.
  intros ops H C x o Q R y D. destruct (py_run_good ops [] [] pystart pinv_start H C) as (_ & t & I). fold (py_trace ops) (py_after ops) in I.
  set (s := py_after ops) in *.
  assert (Up : exists p, nth_error (pys s) y = Some p /\ 0 < p_count p).
  { destruct (subject_is _ _ _ _ _ I Q R) as (p & E & Cp).
    destruct D as [->|D]; [eauto|]. clear Q R. revert p E Cp. 
    induction D as [z Z|w z D IH Z]; intros p E Cp.
    - destruct (pi_row _ _ _ _ _ _ I E) as (r & Rw). destruct (pi_at _ _ _ _ I _ r p Rw E) as (F & _).
      unfold qfrom in Z. unfold py_known in Z. rewrite Rw in Z. rewrite Z in F. symmetry in F.
      destruct (parent_alive _ _ _ _ _ _ _ I E Cp F) as (d & Dd & Cd & _). eauto.
    - destruct (pi_row _ _ _ _ _ _ I E) as (r & Rw). destruct (pi_at _ _ _ _ I _ r p Rw E) as (F & _).
      unfold qfrom in Z. unfold py_known in Z. rewrite Rw in Z. rewrite Z in F. symmetry in F.
      destruct (parent_alive _ _ _ _ _ _ _ I E Cp F) as (d & Dd & Cd & _). exact (IH d Dd Cd). }
  destruct Up as (p & E & Cp). exists p. split; [exact E|]. split; [exact Cp|]. intros n Ln.
  pose proof (pi_lib _ _ _ _ I y p E Cp) as L.
  assert (Lo : exists ob, nth_error t n = Some ob /\ o_live ob = true).
  { destruct (p_kind p); [ | | | |congruence]; destruct L as (m & ob & L1 & L2 & L3 & _); exists ob; assert (m = n) as -> by congruence; auto. }
  destruct Lo as (ob & T & Lv). destruct (live_body _ _ _ _ (pi_inv _ _ _ _ I) T Lv) as (b & B & _).
  exact (self_live _ _ _ _ (pi_inv _ _ _ _ I) B).
Qed.
Print Assumptions C91_python_keeps.

(* fr_ops drops everything. *)
Example fs_ex : map q_refs (py_known (py_trace fr_ops)) = [0; 0; 0; 0; 0; 0; 0; 0; 0; 0] /\
  live (lib (snd (py_run pystart (firstn 21 fr_ops)))) (3, Own) = true /\ live (lib (py_after fr_ops)) (3, Own) = false.
Proof. vm_compute. repeat split. Qed.
