(* The reference counts keep the objects of the library in the order that
   LifetimeSpec asks for. *)
From Coq Require Import Bool List Arith Lia.
From Verif Require Import Base Walk FileEntry Lifetime LifetimeSpec LifetimeProofs PyLife PyLifeSpec.
Import ListNotations.
Local Open Scope nat_scope.

(* ---- how many objects keep a reference to x ---- *)
Definition parent_is (x : nat) (p : pyobj) : bool := match p_parent p with Some y => Nat.eqb y x | None => false end.
Definition keeps (x : nat) (p : pyobj) : nat := if (0 <? p_count p) && parent_is x p then 1 else 0.
Fixpoint children (l : list pyobj) (x : nat) : nat :=
  match l with [] => 0 | p :: r => keeps x p + children r x end.

Lemma children_set l : forall y p p' x, nth_error l y = Some p ->
  children (set_nth y p' l) x + keeps x p = children l x + keeps x p'.
Proof.
  induction l as [|a l IH]; intros [|y] p p' x E; try discriminate; cbn [set_nth children nth_error] in *.
  - assert (a = p) as -> by congruence. lia.
  - specialize (IH y p p' x E). lia.
Qed.
Lemma children_snoc l p x : children (l ++ [p]) x = children l x + keeps x p.
Proof. induction l as [|a l IH]; cbn [app children]; lia. Qed.
Lemma children_one l : forall y p x, nth_error l y = Some p -> keeps x p <= children l x.
Proof.
  induction l as [|a l IH]; intros [|y] p x E; try discriminate; cbn [children nth_error] in *.
  - assert (a = p) as -> by congruence. lia.
  - specialize (IH y p x E). lia.
Qed.
Lemma children_some l x : 0 < children l x -> exists y p, nth_error l y = Some p /\ keeps x p = 1.
Proof.
  induction l as [|a l IH]; cbn [children]; [lia|]. intros H. unfold keeps at 1 in H.
  destruct ((0 <? p_count a) && parent_is x a) eqn:Q.
  - exists 0, a. split; [reflexivity|]. unfold keeps. now rewrite Q.
  - destruct (IH H) as (y & p & Y & K). exists (S y), p. auto.
Qed.
Lemma keeps_one x p : keeps x p = 1 <-> 0 < p_count p /\ p_parent p = Some x.
Proof.
  unfold keeps, parent_is. destruct (p_parent p) as [y|].
  - destruct (Nat.ltb_spec 0 (p_count p)); destruct (Nat.eqb_spec y x) as [->|N]; cbn [andb]; split; try discriminate; try tauto.
    + intros (_ & Q). congruence.
    + intros (Q & _). lia.
    + intros (Q & _). lia.
  - rewrite andb_false_r. split; [discriminate|]. intros (_ & Q). discriminate Q.
Qed.

Definition lib_kind (k : pkind) (l : kind) : Prop :=
  match k, l with
  | PContainer, KContainer | PVolume, KVolume | PEntry, KEntry | PAttr, KAttr => True
  | _, _ => False
  end.
Definition parent_kind (k p : pkind) : Prop :=
  match k, p with
  | PVolume, PContainer | PEntry, PVolume | PAttr, PEntry | PSequence, PContainer | PSequence, PEntry => True
  | _, _ => False
  end.

(* The library object of the parent. *)
Definition lib_from (l : list pyobj) (p : pyobj) (n : option nat) : Prop :=
  match p_parent p with
  | Some y => exists o, nth_error l y = Some o /\ p_lib o = n /\ n <> None
  | None => n = None
  end.

(* ex: an object to which one reference more is counted than there is. *)
Record pinv (q : ptable) (t : table) (s : pystate) (ex : option nat) : Prop := {
  pi_inv : inv t (lib s);
  pi_len : length q = length (pys s);
  pi_at : forall x o p, nth_error q x = Some o -> nth_error (pys s) x = Some p ->
    q_from o = p_parent p /\ (q_seq o = true <-> p_kind p = PSequence) /\
    (0 < p_count p -> (q_file o = true <-> p_file p <> None)) /\
    p_count p = q_refs o + children (pys s) x + (if match ex with Some y => Nat.eqb x y | None => false end then 1 else 0);
  pi_parent : forall x p, nth_error (pys s) x = Some p ->
    match p_parent p with
    | Some y => y < x /\ exists o, nth_error (pys s) y = Some o /\ parent_kind (p_kind p) (p_kind o)
    | None => p_kind p = PContainer
    end;
  pi_lib : forall x p, nth_error (pys s) x = Some p -> 0 < p_count p ->
    match p_kind p with
    | PSequence => p_lib p = None
    | _ => exists n o, p_lib p = Some n /\ nth_error t n = Some o /\ o_live o = true /\ lib_kind (p_kind p) (o_kind o)
                       /\ lib_from (pys s) p (o_from o)
                       /\ (p_kind p = PContainer -> forall f, p_file p = Some f <-> o_with o = Some (Some f))
    end;
  pi_bound : forall x p n, nth_error (pys s) x = Some p -> p_lib p = Some n -> n < length t;
  pi_inj : forall x y p o n, nth_error (pys s) x = Some p -> nth_error (pys s) y = Some o ->
    p_lib p = Some n -> p_lib o = Some n -> x = y;
  pi_file : forall x p f, nth_error (pys s) x = Some p -> 0 < p_count p -> p_file p = Some f ->
    p_kind p = PContainer /\ f < length t;
  pi_finj : forall x y p o f, nth_error (pys s) x = Some p -> nth_error (pys s) y = Some o ->
    0 < p_count p -> 0 < p_count o -> p_file p = Some f -> p_file o = Some f -> x = y;
  pi_conv : forall n o, nth_error t n = Some o -> o_live o = true ->
    match o_kind o with
    | KFile => exists x p, nth_error (pys s) x = Some p /\ 0 < p_count p /\ p_file p = Some n
    | KSnapshot => False
    | _ => exists x p, nth_error (pys s) x = Some p /\ 0 < p_count p /\ p_lib p = Some n
    end
}.

Lemma pinv_start : pinv [] [] pystart None.
Proof.
  split; try exact inv_start; try reflexivity; intros [|x]; intros; discriminate.
Qed.

(* ---- what the calls of the library answer ---- *)

Definition keep_len {A} (m : L A) : Prop := forall s a s', m s = (Ok a, s') -> length (objects s') = length (objects s).
Definition makes (m : L nat) : Prop := forall s n s', m s = (Ok n, s') -> n = length (objects s).

Lemma bind_ok {S A B} (m : M S A) (k : A -> M S B) s b s' : bindM m k s = (Ok b, s') ->
  exists a s1, m s = (Ok a, s1) /\ k a s1 = (Ok b, s').
Proof. unfold bindM. destruct (m s) as [[a| | |] s1]; try discriminate. eauto. Qed.
Lemma keep_bind {A B} (m : L A) (k : A -> L B) : keep_len m -> (forall a, keep_len (k a)) -> keep_len (bindM m k).
Proof.
  intros Hm Hk s b s' E. destruct (bind_ok _ _ _ _ _ E) as (a & s1 & E1 & E2).
  rewrite (Hk a s1 b s' E2). exact (Hm s a s1 E1).
Qed.
Lemma makes_bind {A} (m : L A) (k : A -> L nat) : keep_len m -> (forall a, makes (k a)) -> makes (bindM m k).
Proof.
  intros Hm Hk s b s' E. destruct (bind_ok _ _ _ _ _ E) as (a & s1 & E1 & E2).
  rewrite (Hk a s1 b s' E2). exact (Hm s a s1 E1).
Qed.
Lemma keep_touch b : keep_len (touch b).
Proof. intros s a s'. unfold touch. destruct (live s b); congruence. Qed.
Lemma keep_ret {A} (r : res A) : keep_len (retM r).
Proof. intros s a s'. unfold retM. congruence. Qed.
Lemma keep_alloc b : keep_len (alloc b).
Proof. intros s a s'. unfold alloc. intros E. injection E as _ <-. reflexivity. Qed.
Lemma keep_store n b : keep_len (store n b).
Proof. intros s a s'. unfold store. intros E. injection E as _ <-. cbn [objects]. apply length_set_nth. Qed.
Lemma keep_touch_all l : keep_len (touch_all l).
Proof. induction l as [|b l IH]; [exact (keep_ret (Ok tt))|]. cbn [touch_all]. apply keep_bind; auto using keep_touch. Qed.
Lemma keep_load n : keep_len (load n).
Proof.
  intros s a s'. unfold load. destruct (nth_error (objects s) n) as [[[|] b]|]; try discriminate.
  apply keep_bind; [apply keep_touch|intros; apply keep_ret].
Qed.
Lemma keep_volume_grow v b : keep_len (volume_grow v b).
Proof.
  destruct b; try exact (keep_ret Fail). cbn [volume_grow]. destruct fs; [apply keep_touch|].
  apply keep_bind; auto using keep_alloc, keep_store.
Qed.
Lemma keep_entry_use v b g : keep_len (entry_use v b g).
Proof.
  destruct b; try exact (keep_ret Fail). cbn [entry_use]. apply keep_bind; [apply keep_touch_all|]. intros _.
  destruct vals; [apply keep_touch|]. destruct g; [|exact (keep_ret (Ok tt))].
  apply keep_bind; auto using keep_alloc, keep_store.
Qed.
Lemma makes_fail : makes fail.
Proof. intros s n s'. discriminate. Qed.
Lemma makes_create b q : makes (bindM (create b) (fun n => bindM (alloc (n, q)) (fun _ => ret n))).
Proof. intros s n s'. cbn [create bindM alloc ret retM]. intros E. now injection E as <- _. Qed.

Definition getter (c : call) : bool :=
  match c with
  | NewFile | NewContainer | GetVolume _ _ | GetEntry _ _ | GetSub _ _ | GetAttr _ _ | GetSnapshot _ _ => true
  | _ => false
  end.
Lemma made c s r s' : getter c = true -> perform c s = (Ok r, s') -> r = Some (length (objects s)).
Proof.
  assert (S : forall m : L nat, makes m -> forall s r s', some m s = (Ok r, s') -> r = Some (length (objects s))).
  { intros m Mk s0 r0 s0' E. destruct (bind_ok _ _ _ _ _ E) as (n & s1 & E1 & E2). unfold ret, retM in E2.
    assert (r0 = Some n) as -> by congruence. f_equal. exact (Mk _ _ _ E1). }
  intros G. destruct c; try discriminate G; cbn [perform]; apply S; clear.
  - intros s n s'. unfold file_initialize, create. intros E. now injection E as <- _.
  - apply makes_create.
  - apply makes_bind; [apply keep_load|]. intros [|[p|] k| | | |]; try exact makes_fail.
    apply makes_bind; [apply keep_touch_all|]. intros _. destruct ok; [apply makes_create|exact makes_fail].
  - apply makes_bind; [apply keep_load|]. intros [| |io h g fs| | |]; try exact makes_fail.
    apply makes_bind; [apply keep_touch_all|]. intros _. destruct o; [exact makes_fail| |];
      (apply makes_bind; [apply keep_volume_grow|]); intros _; [exact makes_fail|apply makes_create].
  - apply makes_bind; [apply keep_load|]. intros [| | |io h own fs vals| |]; try exact makes_fail.
    apply makes_bind; [apply keep_entry_use|]. intros _. destruct ok; [apply makes_create|exact makes_fail].
  - apply makes_bind; [apply keep_load|]. intros [| | |io h own fs vals| |]; try exact makes_fail.
    destruct o; (apply makes_bind; [apply keep_entry_use|]); intros _; [exact makes_fail|exact makes_fail|apply makes_create].
  - apply makes_bind; [apply keep_load|]. intros [| |io h g fs| | |]; try exact makes_fail.
    apply makes_bind; [apply keep_touch_all|]. intros _. destruct ok; [apply makes_create|exact makes_fail].
Qed.

(* Functions that never report an error. *)
Definition no_fail {A} (m : L A) : Prop := forall s, fst (m s) <> Fail.
Lemma no_fail_bind {A B} (m : L A) (k : A -> L B) : no_fail m -> (forall a, no_fail (k a)) -> no_fail (bindM m k).
Proof.
  intros Hm Hk s. unfold bindM. specialize (Hm s). destruct (m s) as [[a| | |] s1]; cbn [fst] in *; try discriminate; auto.
  apply Hk.
Qed.
Lemma no_fail_touch b : no_fail (touch b).
Proof. intros s. unfold touch. now destruct (live s b). Qed.
Lemma no_fail_release b : no_fail (release b).
Proof. apply no_fail_bind; [apply no_fail_touch|]. intros _ s. discriminate. Qed.
Lemma no_fail_ret {A} (a : A) : no_fail (ret a).
Proof. intros s. discriminate. Qed.
Lemma no_fail_forget n b : no_fail (forget n b).
Proof. intros s. discriminate. Qed.

Ltac at_ s := match goal with |- fst (?m s) <> Fail => let Q := fresh "Q" in assert (Q : no_fail m); [|exact (Q s)] end.
Ltac no_failing :=
  repeat first [apply no_fail_release | apply no_fail_forget | apply no_fail_ret
               | match goal with |- no_fail (if ?x then _ else _) => destruct x end
               | apply no_fail_bind; [|intros _]].

(* The object behind a live entry of the table. *)
Lemma live_body t s n o : inv t s -> nth_error t n = Some o -> o_live o = true ->
  exists b, nth_error (objects s) n = Some (true, b) /\ sound (objects s) n o b.
Proof.
  intros I T Lv. assert (Lt : n < length (objects s)) by (rewrite <- (i_len _ _ I); apply nth_error_Some; congruence).
  destruct (nth_error (objects s) n) as [[h b]|] eqn:E; [|apply nth_error_None in E; lia].
  destruct (i_obj _ _ I n o h b T E) as (Hh & S & _). exists b. assert (h = true) as -> by congruence. auto.
Qed.

Definition freer (k : kind) (n : nat) : call :=
  match k with
  | KFile => FreeFile n | KContainer => FreeContainer n | KVolume => FreeVolume n
  | KEntry => FreeEntry n | KAttr => FreeAttr n | KSnapshot => FreeSnapshot n
  end.

Lemma freed t s n o : inv t s -> nth_error t n = Some o -> o_live o = true -> rule t (freer (o_kind o) n) ->
  exists r s', perform (freer (o_kind o) n) s = (Ok r, s') /\ inv (change n dead t) s'.
Proof.
  intros I T Lv R. pose proof (perform_good t s _ I R) as G. unfold good in G.
  destruct (live_body t s n o I T Lv) as (b & E & Sd).
  assert (NF : fst (perform (freer (o_kind o) n) s) <> Fail).
  { pose proof (load_held _ _ _ E (self_live _ _ _ _ I E)) as Ld.
    assert (Fr : forall m, (fst (m s) <> Fail) -> fst (freeing n m s) <> Fail).
    { intros m Hm. unfold freeing, held, bindM. rewrite E. unfold none, bindM.
      destruct (m s) as [[a| | |] s1]; cbn [fst] in *; try discriminate; auto. }
    unfold sound in Sd.
    destruct (o_kind o) eqn:K, b as [|op k|io h g fs|io h own fs vals|io h own fs vals|m]; try contradiction;
      cbn [freer perform]; apply Fr;
      unfold file_free, container_free, volume_free, entry_free, attr_free, snapshot_free;
      rewrite (bind_is _ _ _ _ _ Ld); cbv beta iota.
    2: { destruct op as [p|]; cbv iota.
      - destruct (close_ok t s n p k I R E) as (s1 & C & _ & _). rewrite (bind_is _ _ _ _ _ C). cbv beta iota. at_ s1. no_failing.
      - at_ s. no_failing. }
    all: at_ s; no_failing. }
  destruct (perform (freer (o_kind o) n) s) as [[r| | |] s1]; cbn [fst] in NF; try contradiction; try (now destruct NF).
  exists r, s1. split; [reflexivity|]. destruct (o_kind o); exact G.
Qed.

(* ---- Python objects ---- *)
Lemma nth_pchange n f t m :
  nth_error (pchange n f t) m = if Nat.eqb m n then option_map f (nth_error t m) else nth_error t m.
Proof.
  revert n m; induction t as [|o t IH]; intros [|n] [|m]; cbn [pchange nth_error Nat.eqb option_map]; auto.
  - now destruct (Nat.eqb m n).
Qed.
Lemma length_pchange n f t : length (pchange n f t) = length t.
Proof. revert n; induction t as [|o t IH]; intros [|n]; cbn; auto. Qed.

Lemma pi_row q t s ex x p : pinv q t s ex -> nth_error (pys s) x = Some p -> exists o, nth_error q x = Some o.
Proof.
  intros I E. destruct (nth_error q x) as [o|] eqn:Q; [eauto|]. exfalso. apply nth_error_None in Q.
  assert (x < length (pys s)) by (apply nth_error_Some; congruence). pose proof (pi_len _ _ _ _ I). lia.
Qed.
Lemma pi_row' q t s ex x o : pinv q t s ex -> nth_error q x = Some o -> exists p, nth_error (pys s) x = Some p.
Proof.
  intros I E. destruct (nth_error (pys s) x) as [p|] eqn:Q; [eauto|]. exfalso. apply nth_error_None in Q.
  assert (x < length q) by (apply nth_error_Some; congruence). pose proof (pi_len _ _ _ _ I). lia.
Qed.

(* The parent of an object that is left is left. *)
Lemma parent_alive q t s ex x p y : pinv q t s ex -> nth_error (pys s) x = Some p -> 0 < p_count p -> p_parent p = Some y ->
  exists o, nth_error (pys s) y = Some o /\ 0 < p_count o /\ parent_kind (p_kind p) (p_kind o).
Proof.
  intros I E C Pp. pose proof (pi_parent _ _ _ _ I x p E) as H. rewrite Pp in H. destruct H as (Lt & o & O & K).
  exists o. split; [exact O|]. split; [|exact K].
  destruct (pi_row _ _ _ _ _ _ I O) as (r & Rw). destruct (pi_at _ _ _ _ I y r o Rw O) as (_ & _ & _ & Cn).
  pose proof (children_one (pys s) x p y E) as H1. rewrite (proj2 (keeps_one y p) (conj C Pp)) in H1. lia.
Qed.

(* What is left of the objects that were got from a library object belongs to Python
   objects that keep a reference to its Python object. *)
Lemma live_child q t s ex x p n m o : pinv q t s ex -> nth_error (pys s) x = Some p -> p_lib p = Some n ->
  nth_error t m = Some o -> o_live o = true -> o_from o = Some n ->
  exists y c, nth_error (pys s) y = Some c /\ 0 < p_count c /\ p_parent c = Some x.
Proof.
  intros I E Ln T Lv F. pose proof (pi_conv _ _ _ _ I m o T Lv) as C.
  assert (W : o_kind o <> KFile -> exists y c, nth_error (pys s) y = Some c /\ 0 < p_count c /\ p_lib c = Some m).
  { intros N. destruct (o_kind o); try exact C; try contradiction; congruence. }
  destruct W as (y & c & Y & Cc & Lc).
  { intros K. destruct (live_body _ _ _ _ (pi_inv _ _ _ _ I) T Lv) as (b & B & S). unfold sound in S. rewrite K in S.
    destruct b; try contradiction. destruct S. congruence. }
  exists y, c. split; [exact Y|]. split; [exact Cc|].
  pose proof (pi_lib _ _ _ _ I y c Y Cc) as H.
  assert (H' : exists n o, p_lib c = Some n /\ nth_error t n = Some o /\ lib_from (pys s) c (o_from o)).
  { destruct (p_kind c); [ | | | |congruence]; destruct H as (n' & o' & H1 & H2 & _ & _ & H3 & _); exists n', o'; auto. }
  destruct H' as (n' & o' & H1 & H2 & H3). assert (n' = m) as -> by congruence. assert (o' = o) as -> by congruence.
  unfold lib_from in H3. rewrite F in H3. destruct (p_parent c) as [z|]; [|discriminate H3].
  destruct H3 as (oz & Z & Lz & _). f_equal. exact (pi_inj _ _ _ _ I z x oz p n Z E Lz Ln).
Qed.
Lemma none_from_x q t s ex x p n : pinv q t s ex -> nth_error (pys s) x = Some p -> p_lib p = Some n ->
  children (pys s) x = 0 -> none_from t n.
Proof.
  intros I E Ln C m o T Lv F. destruct (live_child _ _ _ _ _ _ _ _ _ I E Ln T Lv F) as (y & c & Y & Cc & Pc).
  pose proof (children_one (pys s) y c x Y) as H. rewrite (proj2 (keeps_one x c) (conj Cc Pc)) in H. lia.
Qed.

(* The file IO handle of a container is one of the program's. *)
Lemma file_is q t s ex x p f : pinv q t s ex -> nth_error (pys s) x = Some p -> 0 < p_count p -> p_file p = Some f ->
  exists o, nth_error t f = Some o /\ o_live o = true /\ o_kind o = KFile.
Proof.
  intros I E C F. destruct (pi_file _ _ _ _ I x p f E C F) as (K & _).
  pose proof (pi_lib _ _ _ _ I x p E C) as H. rewrite K in H. destruct H as (n & o & Ln & T & Lv & _ & _ & W).
  apply (W eq_refl) in F. pose proof (dep_with _ _ _ _ _ (pi_inv _ _ _ _ I) T Lv F) as B.
  destruct (inv_get _ _ _ _ _ (pi_inv _ _ _ _ I) B) as (r & R & Lr & S & _). exists r. split; [exact R|].
  split; [congruence|]. specialize (S eq_refl). unfold sound in S. destruct (o_kind r); try contradiction. reflexivity.
Qed.

(* The last reference to x is gone and its library object was freed. *)
Lemma pinv_kill q t s x p p' t' l' : pinv q t s (Some x) -> nth_error (pys s) x = Some p -> p_count p = 1 ->
  p_kind p' = p_kind p -> p_lib p' = p_lib p -> p_parent p' = p_parent p -> p_count p' = 0 ->
  inv t' l' -> length t' = length t ->
  (forall n o, nth_error t' n = Some o -> o_live o = true -> nth_error t n = Some o /\ p_lib p <> Some n /\ p_file p <> Some n) ->
  (forall n o, nth_error t n = Some o -> o_live o = true -> p_lib p <> Some n -> p_file p <> Some n -> nth_error t' n = Some o) ->
  pinv q t' (mk_ps (set_nth x p' (pys s)) l') (p_parent p).
Proof.
  intros I E C1 Kk Kl Kp C0 I' Ln A B.
  assert (Get : forall y c, nth_error (set_nth x p' (pys s)) y = Some c ->
            exists d, nth_error (pys s) y = Some d /\ p_kind c = p_kind d /\ p_lib c = p_lib d /\ p_parent c = p_parent d
                      /\ (0 < p_count c -> y <> x /\ c = d)).
  { intros y c Y. rewrite nth_set_nth in Y. destruct (Nat.eqb_spec y x) as [->|N].
    - rewrite E in Y. exists p. assert (c = p') as -> by congruence. repeat split; auto; lia.
    - exists c. repeat split; auto. }
  assert (Put : forall y d, nth_error (pys s) y = Some d ->
            exists c, nth_error (set_nth x p' (pys s)) y = Some c /\ p_kind c = p_kind d /\ p_lib c = p_lib d /\ p_parent c = p_parent d
                      /\ (y <> x -> c = d)).
  { intros y d Y. destruct (Nat.eqb_spec y x) as [->|N].
    - exists p'. rewrite nth_set_nth, Nat.eqb_refl, E. assert (d = p) as -> by congruence. repeat split; auto. now intros Q.
    - exists d. rewrite nth_set_nth, (proj2 (Nat.eqb_neq y x) N). auto. }
  pose proof (pi_parent _ _ _ _ I x p E) as Px.
  destruct (pi_row _ _ _ _ _ _ I E) as (r & Rw). destruct (pi_at _ _ _ _ I x r p Rw E) as (Q1 & Q2 & Q3 & Q4).
  rewrite Nat.eqb_refl in Q4.
  split; cbn [lib pys].
  - exact I'.
  - rewrite length_set_nth. exact (pi_len _ _ _ _ I).
  - intros y o c Rc Y. pose proof (children_set (pys s) x p p' y E) as CS.
    assert (Kz : keeps y p' = 0). { unfold keeps. rewrite C0. reflexivity. }
    assert (Kb : keeps y p = if match p_parent p with Some z => Nat.eqb y z | None => false end then 1 else 0).
    { unfold keeps, parent_is. rewrite C1. cbn [Nat.ltb Nat.leb andb]. destruct (p_parent p) as [z|]; [|reflexivity].
      now rewrite Nat.eqb_sym. }
    rewrite nth_set_nth in Y. destruct (Nat.eqb_spec y x) as [->|N].
    + rewrite E in Y. assert (c = p') as -> by congruence. assert (o = r) as -> by congruence.
      rewrite Kp, Kk. split; [exact Q1|]. split; [exact Q2|]. split; [lia|].
      rewrite C0. lia.
    + destruct (pi_at _ _ _ _ I y o c Rc Y) as (S1 & S2 & S3 & S4). rewrite (proj2 (Nat.eqb_neq y x) N) in S4.
      repeat split; auto; try apply S2; try apply S3; auto. lia.
  - intros y c Y. destruct (Get y c Y) as (d & D & Kc & _ & Pc & _). rewrite Pc, Kc.
    pose proof (pi_parent _ _ _ _ I y d D) as H. destruct (p_parent d) as [z|]; [|exact H].
    destruct H as (Lt & o & O & K). split; [exact Lt|]. destruct (Put z o O) as (o' & O' & K' & _). exists o'. rewrite K'. auto.
  - intros y c Y Cc. destruct (Get y c Y) as (d & D & _ & _ & _ & Sm). destruct (Sm Cc) as (N & ->).
    pose proof (pi_lib _ _ _ _ I y d D Cc) as H.
    assert (Fr : forall n o, p_lib d = Some n -> nth_error t n = Some o -> o_live o = true -> lib_kind (p_kind d) (o_kind o) ->
               nth_error t' n = Some o).
    { intros n o L1 T1 Lv1 K1. apply B; auto.
      - intros L2. apply N. exact (pi_inj _ _ _ _ I y x d p n D E L1 L2).
      - intros F2. destruct (file_is _ _ _ _ _ _ _ I E ltac:(lia) F2) as (o2 & T2 & _ & K2).
        assert (o2 = o) as -> by congruence. rewrite K2 in K1. now destruct (p_kind d). }
    assert (Lf : forall n, lib_from (pys s) d n -> lib_from (set_nth x p' (pys s)) d n).
    { intros n. unfold lib_from. destruct (p_parent d) as [z|]; [|auto]. intros (o & O & L1 & L2).
      destruct (Put z o O) as (o' & O' & _ & L' & _). exists o'. rewrite L'. auto. }
    destruct (p_kind d) eqn:Kd; [ | | | |exact H];
      destruct H as (n & o & L1 & T1 & Lv1 & K1 & F1 & W1); exists n, o; repeat split; auto; try apply W1; auto; discriminate.
  - intros y c n Y Lc. destruct (Get y c Y) as (d & D & _ & Ld & _). rewrite Ln. apply (pi_bound _ _ _ _ I y d n D). congruence.
  - intros y z c d n Y Z Lc Ld. destruct (Get y c Y) as (c1 & Y1 & _ & L1 & _). destruct (Get z d Z) as (d1 & Z1 & _ & L2 & _).
    apply (pi_inj _ _ _ _ I y z c1 d1 n Y1 Z1); congruence.
  - intros y c f Y Cc Fc. destruct (Get y c Y) as (d & D & _ & _ & _ & Sm). destruct (Sm Cc) as (N & ->). rewrite Ln.
    exact (pi_file _ _ _ _ I y d f D Cc Fc).
  - intros y z c d f Y Z Cc Cd Fc Fd. destruct (Get y c Y) as (c1 & Y1 & _ & _ & _ & S1). destruct (Get z d Z) as (d1 & Z1 & _ & _ & _ & S2).
    destruct (S1 Cc) as (_ & ->). destruct (S2 Cd) as (_ & ->). exact (pi_finj _ _ _ _ I y z c1 d1 f Y1 Z1 Cc Cd Fc Fd).
  - intros n o T Lv. destruct (A n o T Lv) as (T0 & N1 & N2). pose proof (pi_conv _ _ _ _ I n o T0 Lv) as H.
    destruct (o_kind o); try exact H; destruct H as (y & c & Y & Cc & Q); destruct (Put y c Y) as (c' & Y' & _ & _ & _ & Sm);
      (assert (Ny : y <> x) by (intros ->; congruence)); specialize (Sm Ny); subst c'; exists y, c; auto.
Qed.

(* A file IO handle belongs to one container. *)
Lemma opened_with q t s ex x p c f m o : pinv q t s ex -> nth_error (pys s) x = Some p -> 0 < p_count p ->
  p_file p = Some f -> p_lib p = Some c -> nth_error t m = Some o -> o_live o = true -> o_with o = Some (Some f) -> m = c.
Proof.
  intros I E C F Lc T Lv W.
  assert (K : o_kind o = KContainer).
  { destruct (live_body _ _ _ _ (pi_inv _ _ _ _ I) T Lv) as (b & _ & S). unfold sound in S.
    destruct (o_kind o), b as [|[op|] k| | | |]; try contradiction; try reflexivity; destruct S as (S1 & S2); congruence. }
  pose proof (pi_conv _ _ _ _ I m o T Lv) as H. rewrite K in H. destruct H as (y & d & Y & Cd & Ld).
  pose proof (pi_lib _ _ _ _ I y d Y Cd) as H.
  assert (H' : p_kind d = PContainer /\ p_file d = Some f).
  { destruct (p_kind d) eqn:Kd; [ | | | |congruence]; destruct H as (n' & o' & H1 & H2 & _ & H3 & _ & H4);
      assert (n' = m) as -> by congruence; assert (o' = o) as -> by congruence; rewrite K in H3; try contradiction.
    split; [reflexivity|]. now apply (H4 eq_refl). }
  destruct H' as (Kd & Fd). assert (y = x) as -> by exact (pi_finj _ _ _ _ I y x d p f Y E Cd C Fd F).
  congruence.
Qed.

Lemma none_from_change t n m g : (forall o, o_from (g o) = o_from o) -> (forall o, o_live (g o) = true -> o_live o = true) ->
  none_from t n -> none_from (change m g t) n.
Proof.
  intros G1 G2 H k o T Lv. rewrite nth_change in T. destruct (Nat.eqb k m); [|exact (H k o T Lv)].
  destruct (nth_error t k) as [o'|] eqn:Q; [|discriminate T]. cbn [option_map] in T. assert (o = g o') as -> by congruence.
  rewrite G1. apply (H k o' Q). now apply G2.
Qed.

Lemma ask_is c s a l : perform c (lib s) = (a, l) -> ask c s = (a, mk_ps (pys s) l).
Proof. intros E. unfold ask. now rewrite E. Qed.
Lemma bindP {A B} (m : P A) (k : A -> P B) s a s' : m s = (Ok a, s') -> bindM m k s = k a s'.
Proof. intros E. unfold bindM. now rewrite E. Qed.
Lemma bindP_fail {A B} (m : P A) (k : A -> P B) s s' : m s = (Fail, s') -> bindM m k s = (Fail, s').
Proof. intros E. unfold bindM. now rewrite E. Qed.
Lemma pget_is x s p : nth_error (pys s) x = Some p -> pget x s = (Ok p, s).
Proof. intros E. unfold pget. now rewrite E. Qed.

(* close of a container that is open with a file object *)
Lemma close_file_ok q t s ex x p c f : pinv q t s ex -> nth_error (pys s) x = Some p -> 0 < p_count p ->
  p_kind p = PContainer -> p_lib p = Some c -> p_file p = Some f -> none_from t c ->
  forall l p2, nth_error l x = Some p2 -> p_kind p2 = PContainer -> p_lib p2 = Some c -> p_file p2 = Some f ->
  exists l', py_close x (mk_ps l (lib s)) = (Ok tt, mk_ps (set_nth x (set_file p2 None) l) l')
    /\ inv (change f dead (change c (with_ None) t)) l' /\ f <> c.
Proof.
  intros I E C K Lc F NF l p2 E2 K2 L2 F2.
  pose proof (pi_lib _ _ _ _ I x p E C) as H. rewrite K in H. destruct H as (n & o & Ln & T & Lv & Kd & _ & W).
  assert (n = c) as -> by congruence. pose proof (proj1 (W eq_refl f) F) as Wf.
  destruct (o_kind o) eqn:Ko; try contradiction.
  destruct (live_body _ _ _ _ (pi_inv _ _ _ _ I) T Lv) as (b & B & S). unfold sound in S. rewrite Ko in S.
  destruct b as [|[op|] k| | | |]; try contradiction; [|destruct S; congruence].
  destruct (close_ok t (lib s) c op k (pi_inv _ _ _ _ I) NF B) as (s1 & Cl & I1 & _).
  destruct (file_is _ _ _ _ _ _ _ I E C F) as (of & Tf & Lf & Kf).
  assert (N : f <> c) by (intros ->; congruence).
  assert (T1 : nth_error (change c (with_ None) t) f = Some of) by (rewrite nth_change, (proj2 (Nat.eqb_neq f c) N); exact Tf).
  destruct (freed (change c (with_ None) t) s1 f of I1 T1 Lf) as (r & s2 & Fr & I2).
  { rewrite Kf. cbn [freer rule]. intros m o' T' Lv' W'. rewrite nth_change in T'. destruct (Nat.eqb_spec m c) as [->|Nm].
    - rewrite T in T'. cbn [option_map] in T'. assert (o' = with_ None o) as -> by congruence. discriminate W'.
    - apply Nm. exact (opened_with _ _ _ _ _ _ _ _ _ _ I E C F Lc T' Lv' W'). }
  rewrite Kf in Fr. cbn [freer] in Fr.
  exists s2. split; [|split; [exact I2|exact N]].
  unfold py_close. rewrite (bindP _ _ _ _ _ (pget_is x (mk_ps l (lib s)) p2 E2)). cbv beta. rewrite K2, L2. cbv iota.
  assert (A : ask_ok (Close c) (mk_ps l (lib s)) = (Ok true, mk_ps l s1)).
  { unfold ask_ok. assert (Pf : perform (Close c) (lib s) = (Ok None, s1)) by (cbn [perform]; unfold none; rewrite (bind_is _ _ _ _ _ Cl); reflexivity).
    rewrite (ask_is (Close c) (mk_ps l (lib s)) (Ok None) s1 Pf). reflexivity. }
  rewrite (bindP _ _ _ _ _ A). cbv beta iota. rewrite F2. cbv iota.
  rewrite (bindP _ _ _ _ _ (ask_is (FreeFile f) (mk_ps l s1) (Ok r) s2 Fr)). reflexivity.
Qed.

Lemma set_set A n (a b : A) l : set_nth n a (set_nth n b l) = set_nth n a l.
Proof. revert n; induction l as [|x l IH]; intros [|n]; cbn [set_nth]; f_equal; auto. Qed.

Lemma dealloc_ok q t s x p : pinv q t s (Some x) -> nth_error (pys s) x = Some p -> p_count p = 1 ->
  exists t' s', dealloc x (mk_ps (set_nth x (set_count p 0) (pys s)) (lib s)) = (Ok tt, s') /\ pinv q t' s' (p_parent p).
Proof.
  intros I E C. assert (C' : 0 < p_count p) by lia.
  destruct (pi_row _ _ _ _ _ _ I E) as (r & Rw). destruct (pi_at _ _ _ _ I x r p Rw E) as (Q1 & Q2 & Q3 & Q4).
  rewrite Nat.eqb_refl in Q4. assert (Ch : children (pys s) x = 0) by lia.
  assert (E0 : nth_error (set_nth x (set_count p 0) (pys s)) x = Some (set_count p 0)) by (rewrite nth_set_nth, Nat.eqb_refl, E; reflexivity).
  pose proof (pi_lib _ _ _ _ I x p E C') as H.
  unfold dealloc. rewrite (bindP _ _ _ _ _ (pget_is x (mk_ps (set_nth x (set_count p 0) (pys s)) (lib s)) _ E0)). cbv beta.
  assert (Ek : p_kind (set_count p 0) = p_kind p) by reflexivity.
  assert (El : p_lib (set_count p 0) = p_lib p) by reflexivity.
  assert (Ef : p_file (set_count p 0) = p_file p) by reflexivity.
  rewrite Ek, El, Ef. clear Ek El Ef.
  (* an object with a library object and without a file IO handle *)
  assert (Plain : forall n o, p_lib p = Some n -> nth_error t n = Some o -> o_live o = true -> p_file p = None ->
            exists t' s', bindM (ask (freer (o_kind o) n)) (fun _ => pret tt) (mk_ps (set_nth x (set_count p 0) (pys s)) (lib s)) = (Ok tt, s')
                          /\ pinv q t' s' (p_parent p)).
  { intros n o Ln T Lv Fn. pose proof (none_from_x _ _ _ _ _ _ _ I E Ln Ch) as NF.
    destruct (freed t (lib s) n o (pi_inv _ _ _ _ I) T Lv) as (a & l' & Pf & I').
    { destruct (o_kind o) eqn:Ko; try exact NF; try exact Logic.I. exfalso.
      assert (lib_kind (p_kind p) KFile).
      { destruct (p_kind p); [ | | | |congruence]; destruct H as (n' & o' & H1 & H2 & _ & H3 & _);
          assert (n' = n) as -> by congruence; assert (o' = o) as -> by congruence; now rewrite Ko in H3. }
      now destruct (p_kind p). }
    exists (change n dead t), (mk_ps (set_nth x (set_count p 0) (pys s)) l'). split.
    - rewrite (bindP _ _ _ _ _ (ask_is _ (mk_ps (set_nth x (set_count p 0) (pys s)) (lib s)) _ _ Pf)). reflexivity.
    - apply (pinv_kill q t s x p (set_count p 0)); auto.
      + apply length_change.
      + intros m o' T' Lv'. rewrite nth_change in T'. destruct (Nat.eqb_spec m n) as [->|N].
        * rewrite T in T'. cbn [option_map] in T'. assert (o' = dead o) as -> by congruence. discriminate Lv'.
        * split; [exact T'|]. split; congruence.
      + intros m o' T' Lv' N _. rewrite nth_change. destruct (Nat.eqb_spec m n) as [->|N']; [congruence|exact T']. }
  destruct (p_kind p) eqn:K.
  - destruct H as (c & o & Lc & T & Lv & Kd & Fr & W). destruct (o_kind o) eqn:Ko; try contradiction. rewrite Lc. cbv iota.
    destruct (p_file p) as [f|] eqn:F.
    + pose proof (none_from_x _ _ _ _ _ _ _ I E Lc Ch) as NF.
      destruct (close_file_ok _ _ _ _ _ _ _ _ I E C' K Lc F NF _ _ E0 K Lc F) as (l1 & Cl & I1 & N).
      rewrite (bindP _ _ _ _ _ Cl). cbv beta.
      set (t2 := change f dead (change c (with_ None) t)) in *.
      assert (T2 : nth_error t2 c = Some (with_ None o)).
      { unfold t2. rewrite !nth_change. rewrite (proj2 (Nat.eqb_neq c f)) by congruence. rewrite Nat.eqb_refl, T. reflexivity. }
      destruct (freed t2 l1 c (with_ None o) I1 T2) as (a & l2 & Pf & I2).
      { exact Lv. }
      { cbn [with_ o_kind]. rewrite Ko. cbn [freer rule]. unfold t2. apply none_from_change; [reflexivity|discriminate|].
        apply none_from_change; auto. }
      cbn [with_ o_kind] in Pf. rewrite Ko in Pf. cbn [freer] in Pf.
      exists (change c dead t2). eexists. split.
      * rewrite (bindP _ _ _ _ _ (ask_is (FreeContainer c) (mk_ps _ l1) _ _ Pf)). reflexivity.
      * cbn [pys]. rewrite set_set. apply (pinv_kill q t s x p); auto.
        -- unfold t2. now rewrite !length_change.
        -- intros m o' T' Lv'. unfold t2 in T'. rewrite !nth_change in T'.
           destruct (Nat.eqb_spec m c) as [->|N1].
           { rewrite (proj2 (Nat.eqb_neq c f)) in T' by congruence. rewrite T in T'. cbn [option_map] in T'.
             assert (o' = dead (with_ None o)) as -> by congruence. discriminate Lv'. }
           destruct (Nat.eqb_spec m f) as [->|N2].
           { destruct (nth_error t f) as [o2|]; [|discriminate T']. cbn [option_map] in T'. assert (o' = dead o2) as -> by congruence. discriminate Lv'. }
           split; [exact T'|]. split; congruence.
        -- intros m o' T' Lv' N1 N2. unfold t2. rewrite !nth_change.
           rewrite (proj2 (Nat.eqb_neq m c)) by congruence. rewrite (proj2 (Nat.eqb_neq m f)) by congruence. exact T'.
    + rewrite (bindP _ _ _ _ _ (eq_refl : pret tt (mk_ps (set_nth x (set_count p 0) (pys s)) (lib s)) = _)). cbv beta.
      specialize (Plain c o Lc T Lv eq_refl). rewrite Ko in Plain. exact Plain.
  - destruct H as (n & o & Ln & T & Lv & Kd & _). destruct (o_kind o) eqn:Ko; try contradiction. rewrite Ln. cbv iota.
    specialize (Plain n o Ln T Lv). rewrite Ko in Plain. apply Plain. destruct (p_file p) eqn:F; [|reflexivity].
    destruct (pi_file _ _ _ _ I x p n0 E C' F). congruence.
  - destruct H as (n & o & Ln & T & Lv & Kd & _). destruct (o_kind o) eqn:Ko; try contradiction. rewrite Ln. cbv iota.
    specialize (Plain n o Ln T Lv). rewrite Ko in Plain. apply Plain. destruct (p_file p) eqn:F; [|reflexivity].
    destruct (pi_file _ _ _ _ I x p n0 E C' F). congruence.
  - destruct H as (n & o & Ln & T & Lv & Kd & _). destruct (o_kind o) eqn:Ko; try contradiction. rewrite Ln. cbv iota.
    specialize (Plain n o Ln T Lv). rewrite Ko in Plain. apply Plain. destruct (p_file p) eqn:F; [|reflexivity].
    destruct (pi_file _ _ _ _ I x p n0 E C' F). congruence.
  - exists t. eexists. split; [reflexivity|]. apply (pinv_kill q t s x p (set_count p 0)); auto.
    + exact (pi_inv _ _ _ _ I).
    + intros m o T Lv. split; [exact T|]. split; [congruence|]. intros F.
      destruct (pi_file _ _ _ _ I x p m E C' F). congruence.
Qed.

(* ---- how the invariant moves ---- *)
Definition exc (ex : option nat) (y : nat) : nat := if match ex with Some z => Nat.eqb y z | None => false end then 1 else 0.

Lemma pinv_lib q t s ex l' : pinv q t s ex -> inv t l' -> pinv q t (mk_ps (pys s) l') ex.
Proof. intros [] I'. split; auto. Qed.

Lemma set_count_same x p c l y d : nth_error l x = Some p -> nth_error (set_nth x (set_count p c) l) y = Some d ->
  exists e, nth_error l y = Some e /\ p_kind d = p_kind e /\ p_lib d = p_lib e /\ p_parent d = p_parent e /\ p_file d = p_file e
    /\ (p_count d = if Nat.eqb y x then c else p_count e).
Proof.
  intros E Y. rewrite nth_set_nth in Y. destruct (Nat.eqb_spec y x) as [->|N].
  - rewrite E in Y. exists p. assert (d = set_count p c) as -> by congruence. repeat split; auto.
  - exists d. repeat split; auto.
Qed.
Lemma set_count_back x p c l y e : nth_error l x = Some p -> nth_error l y = Some e ->
  exists d, nth_error (set_nth x (set_count p c) l) y = Some d /\ p_kind d = p_kind e /\ p_lib d = p_lib e
    /\ p_parent d = p_parent e /\ p_file d = p_file e /\ (p_count d = if Nat.eqb y x then c else p_count e).
Proof.
  intros E Y. rewrite nth_set_nth. destruct (Nat.eqb_spec y x) as [->|N].
  - rewrite E. assert (e = p) as -> by congruence. exists (set_count p c). repeat split; auto.
  - exists e. repeat split; auto.
Qed.

(* The count of an object changes, but it stays. *)
Lemma pinv_count q q' t s ex ex' x p c : pinv q t s ex -> nth_error (pys s) x = Some p -> 0 < p_count p -> 0 < c ->
  length q' = length q ->
  (forall y o', nth_error q' y = Some o' -> exists o, nth_error q y = Some o /\ q_from o' = q_from o /\ q_seq o' = q_seq o /\
     q_file o' = q_file o /\
     q_refs o' + exc ex' y + (if Nat.eqb y x then p_count p else 0) = q_refs o + exc ex y + (if Nat.eqb y x then c else 0)) ->
  pinv q' t (mk_ps (set_nth x (set_count p c) (pys s)) (lib s)) ex'.
Proof.
  intros I E C C' Ln H.
  assert (Up : forall y d e, nth_error (set_nth x (set_count p c) (pys s)) y = Some d -> nth_error (pys s) y = Some e ->
             0 < p_count d -> 0 < p_count e).
  { intros y d e Y Y' Cd. destruct (set_count_same _ _ _ _ _ _ E Y) as (e' & E' & _ & _ & _ & _ & Cn).
    assert (e' = e) as -> by congruence. destruct (Nat.eqb_spec y x) as [->|N]; [|lia]. assert (e = p) as -> by congruence. exact C. }
  assert (Dn : forall y d e, nth_error (set_nth x (set_count p c) (pys s)) y = Some d -> nth_error (pys s) y = Some e ->
             0 < p_count e -> 0 < p_count d).
  { intros y d e Y Y' Cd. destruct (set_count_same _ _ _ _ _ _ E Y) as (e' & E' & _ & _ & _ & _ & Cn).
    assert (e' = e) as -> by congruence. destruct (Nat.eqb_spec y x) as [->|N]; lia. }
  assert (CS : forall y, children (set_nth x (set_count p c) (pys s)) y = children (pys s) y).
  { intros y. pose proof (children_set (pys s) x p (set_count p c) y E) as CS.
    assert (keeps y (set_count p c) = keeps y p); [|lia]. unfold keeps, parent_is. cbn [set_count p_count p_parent].
    rewrite (proj2 (Nat.ltb_lt 0 c) C'), (proj2 (Nat.ltb_lt 0 (p_count p)) C). reflexivity. }
  split; cbn [lib pys].
  - exact (pi_inv _ _ _ _ I).
  - rewrite length_set_nth, Ln. exact (pi_len _ _ _ _ I).
  - intros y o' d Rw Y. destruct (H y o' Rw) as (o & O & F1 & F2 & F3 & F4).
    destruct (set_count_same _ _ _ _ _ _ E Y) as (e & Y' & K1 & K2 & K3 & K4 & K5).
    destruct (pi_at _ _ _ _ I y o e O Y') as (S1 & S2 & S3 & S4). rewrite F1, F2, F3, K1, K3, K4.
    split; [exact S1|]. split; [exact S2|]. split; [intros Cd; apply S3; exact (Up _ _ _ Y Y' Cd)|].
    rewrite CS. fold (exc ex' y). fold (exc ex y) in S4. rewrite K5. destruct (Nat.eqb_spec y x) as [->|N].
    + assert (e = p) as -> by congruence. lia.
    + lia.
  - intros y d Y. destruct (set_count_same _ _ _ _ _ _ E Y) as (e & Y' & K1 & K2 & K3 & K4 & K5). rewrite K3, K1.
    pose proof (pi_parent _ _ _ _ I y e Y') as Q. destruct (p_parent e) as [z|]; [|exact Q].
    destruct Q as (Lt & o & O & K). split; [exact Lt|]. destruct (set_count_back x p c _ _ _ E O) as (o' & O' & Ko & _). exists o'. rewrite Ko. auto.
  - intros y d Y Cd. destruct (set_count_same _ _ _ _ _ _ E Y) as (e & Y' & K1 & K2 & K3 & K4 & K5).
    pose proof (pi_lib _ _ _ _ I y e Y' (Up _ _ _ Y Y' Cd)) as Q. rewrite K1, K2, K4.
    assert (Lf : forall n, lib_from (pys s) e n -> lib_from (set_nth x (set_count p c) (pys s)) d n).
    { intros n. unfold lib_from. rewrite K3. destruct (p_parent e) as [z|]; [|auto]. intros (o & O & L1 & L2).
      destruct (set_count_back x p c _ _ _ E O) as (o' & O' & _ & L' & _). exists o'. rewrite L'. auto. }
    destruct (p_kind e); [ | | | |exact Q]; destruct Q as (n & o & Q1 & Q2 & Q3 & Q4 & Q5 & Q6); exists n, o; auto 8.
  - intros y d n Y Ld. destruct (set_count_same _ _ _ _ _ _ E Y) as (e & Y' & K1 & K2 & K3 & K4 & K5).
    apply (pi_bound _ _ _ _ I y e n Y'). congruence.
  - intros y z d e n Y Z Ld Le. destruct (set_count_same _ _ _ _ _ _ E Y) as (d' & Y' & _ & K2 & _).
    destruct (set_count_same _ _ _ _ _ _ E Z) as (e' & Z' & _ & K2' & _). apply (pi_inj _ _ _ _ I y z d' e' n Y' Z'); congruence.
  - intros y d f Y Cd Fd. destruct (set_count_same _ _ _ _ _ _ E Y) as (e & Y' & K1 & K2 & K3 & K4 & K5). rewrite K1.
    apply (pi_file _ _ _ _ I y e f Y'); [exact (Up _ _ _ Y Y' Cd)|congruence].
  - intros y z d e f Y Z Cd Ce Fd Fe. destruct (set_count_same _ _ _ _ _ _ E Y) as (d' & Y' & _ & _ & _ & K2 & _).
    destruct (set_count_same _ _ _ _ _ _ E Z) as (e' & Z' & _ & _ & _ & K2' & _).
    apply (pi_finj _ _ _ _ I y z d' e' f Y' Z'); try congruence; [exact (Up _ _ _ Y Y' Cd)|exact (Up _ _ _ Z Z' Ce)].
  - intros n o T Lv. pose proof (pi_conv _ _ _ _ I n o T Lv) as Q.
    destruct (o_kind o); try exact Q; destruct Q as (y & e & Y & Ce & Qe);
      destruct (set_count_back x p c _ _ _ E Y) as (d & Y' & K1 & K2 & K3 & K4 & K5); exists y, d;
      (split; [exact Y'|]; split; [exact (Dn _ _ _ Y' Y Ce)|congruence]).
Qed.

Lemma decref_ok fuel : forall x q t s p, pinv q t s (Some x) -> nth_error (pys s) x = Some p -> x < fuel ->
  exists t' s', decref fuel x s = (Ok tt, s') /\ pinv q t' s' None.
Proof.
  induction fuel as [|fuel IH]; intros x q t s p I E Lt; [lia|]. cbn [decref].
  rewrite (bindP _ _ _ _ _ (pget_is x s p E)). cbv beta.
  destruct (pi_row _ _ _ _ _ _ I E) as (r & Rw). destruct (pi_at _ _ _ _ I x r p Rw E) as (_ & _ & _ & Q4).
  rewrite Nat.eqb_refl in Q4.
  destruct (p_count p) as [|[|n]] eqn:C; [lia| |].
  - destruct (dealloc_ok q t s x p I E C) as (t1 & s1 & D & I1).
    rewrite (bindP (pset x (set_count p 0)) _ s tt _ eq_refl). cbv beta. rewrite (bindP _ _ _ _ _ D). cbv beta.
    pose proof (pi_parent _ _ _ _ I x p E) as Pp. destruct (p_parent p) as [y|].
    + destruct Pp as (Ly & o & O & _).
      destruct (pi_row _ _ _ _ _ _ I O) as (ry & Ry). destruct (pi_row' _ _ _ _ _ _ I1 Ry) as (py & Py).
      exact (IH y q t1 s1 py I1 Py ltac:(lia)).
    + exists t1, s1. split; [reflexivity|exact I1].
  - exists t. eexists. split; [reflexivity|]. apply (pinv_count q q t s (Some x) None x p (S n)); auto; try lia.
    intros y o' Y. exists o'. repeat split; auto. unfold exc. destruct (Nat.eqb_spec y x); lia.
Qed.

(* A new object. *)
Lemma pinv_add q t s par k lb seq ts :
  pinv q t s par ->
  match par with
  | Some y => exists o, nth_error (pys s) y = Some o /\ parent_kind k (p_kind o)
  | None => k = PContainer
  end ->
  (seq = true <-> k = PSequence) ->
  match lb with
  | None => k = PSequence /\ ts = []
  | Some n => k <> PSequence /\ n = length t /\ exists o, ts = [o] /\ o_live o = true /\ lib_kind k (o_kind o) /\ o_with o = None
              /\ lib_from (pys s) (mk_py k lb 1 par None) (o_from o)
  end ->
  forall l', inv (t ++ ts) l' ->
  pinv (q ++ [mk_pobj 1 par seq false]) (t ++ ts) (mk_ps (pys s ++ [mk_py k lb 1 par None]) l') None.
Proof.
  intros I Hp Hs Hl l' I'. set (p' := mk_py k lb 1 par None) in *.
  assert (Get : forall y c, nth_error (pys s ++ [p']) y = Some c ->
            (y < length (pys s) /\ nth_error (pys s) y = Some c) \/ (y = length (pys s) /\ c = p')).
  { intros y c Y. destruct (Nat.lt_ge_cases y (length (pys s))) as [Lt|Ge].
    - left. rewrite nth_error_app1 in Y by exact Lt. auto.
    - right. rewrite nth_error_app2 in Y by exact Ge. destruct (y - length (pys s)) as [|m] eqn:Q.
      + split; [lia|]. cbn in Y. congruence.
      + destruct m; discriminate Y. }
  assert (Put : forall y c, nth_error (pys s) y = Some c -> nth_error (pys s ++ [p']) y = Some c).
  { intros y c Y. rewrite nth_error_app1; [exact Y|]. apply nth_error_Some. congruence. }
  assert (Tp : forall n o, nth_error t n = Some o -> nth_error (t ++ ts) n = Some o).
  { intros n o T. rewrite nth_error_app1; [exact T|]. apply nth_error_Some. congruence. }
  assert (New : nth_error (pys s ++ [p']) (length (pys s)) = Some p') by (rewrite nth_error_app2, Nat.sub_diag by lia; reflexivity).
  assert (Lf : forall d n, lib_from (pys s) d n -> lib_from (pys s ++ [p']) d n).
  { intros d n. unfold lib_from. destruct (p_parent d) as [z|]; [|auto]. intros (o & O & L1 & L2). exists o. auto. }
  split; cbn [lib pys].
  - exact I'.
  - rewrite !app_length, (pi_len _ _ _ _ I). reflexivity.
  - intros y o c Rw Y. rewrite children_snoc.
    assert (Kp : keeps y p' = exc par y).
    { unfold keeps, parent_is, exc, p'. cbn [p_count p_parent Nat.ltb Nat.leb andb]. destruct par; [|reflexivity]. now rewrite Nat.eqb_sym. }
    destruct (Get y c Y) as [(Lt & Y')|(-> & ->)].
    + rewrite nth_error_app1 in Rw by (rewrite (pi_len _ _ _ _ I); exact Lt).
      destruct (pi_at _ _ _ _ I y o c Rw Y') as (S1 & S2 & S3 & S4). fold (exc par y) in S4. repeat split; try apply S2; try apply S3; auto. lia.
    + rewrite nth_error_app2 in Rw by (rewrite (pi_len _ _ _ _ I); lia). rewrite (pi_len _ _ _ _ I), Nat.sub_diag in Rw.
      cbn [nth_error] in Rw. assert (o = mk_pobj 1 par seq false) as -> by congruence.
      cbn [q_from q_seq q_file q_refs]. split; [reflexivity|]. split; [exact Hs|]. split; [intros _; split; [discriminate|now intros []]|].
      assert (Z : children (pys s) (length (pys s)) = 0).
      { destruct (children (pys s) (length (pys s))) as [|m] eqn:Q; [reflexivity|]. exfalso.
        destruct (children_some (pys s) (length (pys s)) ltac:(lia)) as (z & d & Z & Kz). apply keeps_one in Kz. destruct Kz as (_ & Pz).
        pose proof (pi_parent _ _ _ _ I z d Z) as H. rewrite Pz in H. destruct H as (Lt & o2 & O2 & _).
        assert (length (pys s) < length (pys s)); [|lia]. apply nth_error_Some. congruence. }
      assert (Z2 : keeps (length (pys s)) p' = 0).
      { rewrite Kp. unfold exc. destruct par as [y|]; [|reflexivity]. destruct Hp as (o2 & O2 & _).
        assert (y < length (pys s)) by (apply nth_error_Some; congruence).
        rewrite (proj2 (Nat.eqb_neq (length (pys s)) y)) by lia. reflexivity. }
      rewrite Z, Z2. reflexivity.
  - intros y c Y. destruct (Get y c Y) as [(Lt & Y')|(-> & ->)].
    + pose proof (pi_parent _ _ _ _ I y c Y') as H. destruct (p_parent c) as [z|]; [|exact H].
      destruct H as (Lz & o & O & K). split; [exact Lz|]. exists o. auto.
    + cbn [p' p_parent p_kind]. destruct par as [z|]; [|exact Hp]. destruct Hp as (o & O & K). split; [apply nth_error_Some; congruence|].
      exists o. auto.
  - intros y c Y Cc. destruct (Get y c Y) as [(Lt & Y')|(-> & ->)].
    + pose proof (pi_lib _ _ _ _ I y c Y' Cc) as H. destruct (p_kind c); [ | | | |exact H];
        destruct H as (n & o & Q1 & Q2 & Q3 & Q4 & Q5 & Q6); exists n, o; auto 8.
    + cbn [p' p_kind p_lib p_file]. destruct lb as [n|].
      * destruct Hl as (Nk & -> & o & -> & Lv & Kd & W & F).
        assert (X : exists n o0, Some (length t) = Some n /\ nth_error (t ++ [o]) n = Some o0 /\ o_live o0 = true /\ lib_kind k (o_kind o0)
                    /\ lib_from (pys s ++ [p']) p' (o_from o0) /\ (k = PContainer -> forall f, None = Some f <-> o_with o0 = Some (Some f))).
        { exists (length t), o. split; [reflexivity|]. split; [rewrite nth_error_app2, Nat.sub_diag by lia; reflexivity|].
          split; [exact Lv|]. split; [exact Kd|]. split; [apply Lf; exact F|]. rewrite W. intros _ f. split; discriminate. }
        destruct k; try exact X. now destruct Nk.
      * destruct Hl as (-> & _). reflexivity.
  - intros y c n Y Lc. rewrite app_length. destruct (Get y c Y) as [(Lt & Y')|(-> & ->)].
    + pose proof (pi_bound _ _ _ _ I y c n Y' Lc). lia.
    + cbn [p' p_lib] in Lc. subst lb. destruct Hl as (_ & -> & o & -> & _). cbn [length]. lia.
  - assert (Fresh : forall y c n, nth_error (pys s) y = Some c -> p_lib c = Some n -> p_lib p' = Some n -> False).
    { intros y c n Y Lc Lp. cbn [p' p_lib] in Lp. pose proof (pi_bound _ _ _ _ I y c n Y Lc). subst lb. destruct Hl as (_ & -> & _). lia. }
    intros y z c d n Y Z Lc Ld. destruct (Get y c Y) as [(Lt & Y')|(-> & ->)]; destruct (Get z d Z) as [(Lz & Z')|(-> & ->)].
    + exact (pi_inj _ _ _ _ I y z c d n Y' Z' Lc Ld).
    + destruct (Fresh y c n Y' Lc Ld).
    + destruct (Fresh z d n Z' Ld Lc).
    + reflexivity.
  - intros y c f Y Cc Fc. destruct (Get y c Y) as [(Lt & Y')|(-> & ->)]; [|discriminate Fc].
    destruct (pi_file _ _ _ _ I y c f Y' Cc Fc). rewrite app_length. split; [auto|lia].
  - intros y z c d f Y Z Cc Cd Fc Fd. destruct (Get y c Y) as [(Lt & Y')|(-> & ->)]; [|discriminate Fc].
    destruct (Get z d Z) as [(Lz & Z')|(-> & ->)]; [|discriminate Fd]. exact (pi_finj _ _ _ _ I y z c d f Y' Z' Cc Cd Fc Fd).
  - intros n o T Lv. destruct (Nat.lt_ge_cases n (length t)) as [Lt|Ge].
    + rewrite nth_error_app1 in T by exact Lt. pose proof (pi_conv _ _ _ _ I n o T Lv) as H.
      destruct (o_kind o); try exact H; destruct H as (y & c & Y & Q); exists y, c; auto.
    + rewrite nth_error_app2 in T by exact Ge. destruct lb as [m|].
      * destruct Hl as (Nk & -> & o2 & -> & _ & Kd & _). destruct (n - length t) as [|j] eqn:Q; [|destruct j; discriminate T].
        cbn [nth_error] in T. assert (o = o2) as -> by congruence. assert (n = length t) as -> by lia.
        destruct (o_kind o2); try (exists (length (pys s)), p'; cbn [p' p_count p_lib]; auto; fail); now destruct k.
      * destruct Hl as (_ & ->). destruct (n - length t); discriminate T.
Qed.

(* A container is opened or closed. *)
Lemma pinv_update q q' t t' s l' x p c fl : pinv q t s None ->
  nth_error (pys s) x = Some p -> 0 < p_count p -> p_kind p = PContainer -> p_lib p = Some c ->
  inv t' l' -> length t <= length t' ->
  (forall n o, nth_error t n = Some o -> o_live o = true -> p_file p <> Some n -> n <> c -> nth_error t' n = Some o) ->
  (forall o, nth_error t c = Some o -> exists o', nth_error t' c = Some o' /\ o_kind o' = o_kind o /\ o_from o' = o_from o
     /\ o_live o' = o_live o /\ forall f, fl = Some f <-> o_with o' = Some (Some f)) ->
  (forall n o, nth_error t' n = Some o -> o_live o = true -> n <> c ->
     (fl = Some n /\ o_kind o = KFile) \/ (nth_error t n = Some o /\ p_file p <> Some n)) ->
  (forall f, fl = Some f -> length t <= f < length t' \/ fl = p_file p) ->
  length q' = length q ->
  (forall y o', nth_error q' y = Some o' -> exists o, nth_error q y = Some o /\ q_from o' = q_from o /\ q_seq o' = q_seq o /\
     q_refs o' = q_refs o /\ (y <> x -> q_file o' = q_file o) /\ (y = x -> (q_file o' = true <-> fl <> None))) ->
  pinv q' t' (mk_ps (set_nth x (set_file p fl) (pys s)) l') None.
Proof.
  intros I E C K Lc I' Ln A Ac B Fl Lq Hq.
  assert (Get : forall y d, nth_error (set_nth x (set_file p fl) (pys s)) y = Some d ->
     exists e, nth_error (pys s) y = Some e /\ p_kind d = p_kind e /\ p_lib d = p_lib e /\ p_parent d = p_parent e /\ p_count d = p_count e
       /\ ((y <> x /\ d = e) \/ (y = x /\ e = p /\ p_file d = fl))).
  { intros y d Y. rewrite nth_set_nth in Y. destruct (Nat.eqb_spec y x) as [->|N].
    - rewrite E in Y. assert (d = set_file p fl) as -> by congruence. exists p. cbn. auto 10.
    - exists d. auto 10. }
  assert (Put : forall y e, nth_error (pys s) y = Some e ->
     exists d, nth_error (set_nth x (set_file p fl) (pys s)) y = Some d /\ p_kind d = p_kind e /\ p_lib d = p_lib e
       /\ p_parent d = p_parent e /\ p_count d = p_count e /\ (y <> x -> d = e)).
  { intros y e Y. rewrite nth_set_nth. destruct (Nat.eqb_spec y x) as [->|N].
    - rewrite E. exists (set_file p fl). assert (e = p) as -> by congruence. repeat split; auto. now intros Q.
    - exists e. auto 10. }
  assert (CS : forall y, children (set_nth x (set_file p fl) (pys s)) y = children (pys s) y).
  { intros y. pose proof (children_set (pys s) x p (set_file p fl) y E) as CS.
    assert (keeps y (set_file p fl) = keeps y p) by reflexivity. lia. }
  assert (Lf : forall d e n, p_parent d = p_parent e -> lib_from (pys s) e n -> lib_from (set_nth x (set_file p fl) (pys s)) d n).
  { intros d e n Pd. unfold lib_from. rewrite Pd. destruct (p_parent e) as [z|]; [|auto]. intros (o & O & L1 & L2).
    destruct (Put z o O) as (o' & O' & _ & L' & _). exists o'. rewrite L'. auto. }
  assert (Old : forall y d f, y <> x -> nth_error (pys s) y = Some d -> 0 < p_count d -> p_file d = Some f -> fl <> Some f).
  { intros y d f N Y Cd Fd Q. destruct (Fl f Q) as [Lt|Eq].
    - destruct (pi_file _ _ _ _ I y d f Y Cd Fd). lia.
    - apply N. apply (pi_finj _ _ _ _ I y x d p f Y E Cd C Fd). congruence. }
  split; cbn [lib pys].
  - exact I'.
  - rewrite length_set_nth, Lq. exact (pi_len _ _ _ _ I).
  - intros y o' d Rw Y. destruct (Hq y o' Rw) as (o & O & F1 & F2 & F3 & F4 & F5).
    destruct (Get y d Y) as (e & Y' & K1 & K2 & K3 & K4 & K5).
    destruct (pi_at _ _ _ _ I y o e O Y') as (S1 & S2 & S3 & S4). rewrite F1, F2, F3, K1, K3, K4, CS.
    split; [exact S1|]. split; [exact S2|]. split; [|exact S4]. intros Ce.
    destruct K5 as [(N & ->)|(-> & -> & ->)]; [rewrite (F4 N); exact (S3 Ce)|exact (F5 eq_refl)].
  - intros y d Y. destruct (Get y d Y) as (e & Y' & K1 & K2 & K3 & K4 & K5). rewrite K3, K1.
    pose proof (pi_parent _ _ _ _ I y e Y') as Q. destruct (p_parent e) as [z|]; [|exact Q].
    destruct Q as (Lt & o & O & Kk). split; [exact Lt|]. destruct (Put z o O) as (o' & O' & Ko & _). exists o'. rewrite Ko. auto.
  - intros y d Y Cd. destruct (Get y d Y) as (e & Y' & K1 & K2 & K3 & K4 & K5). rewrite K4 in Cd.
    pose proof (pi_lib _ _ _ _ I y e Y' Cd) as Q. destruct K5 as [(N & ->)|(-> & -> & Fd)].
    + assert (Fr : forall n o, p_lib e = Some n -> nth_error t n = Some o -> o_live o = true -> lib_kind (p_kind e) (o_kind o) ->
               nth_error t' n = Some o).
      { intros n o L1 T1 Lv1 Kk. apply A; auto.
        - intros F2. destruct (file_is _ _ _ _ _ _ _ I E C F2) as (o2 & T2 & _ & Q2).
          assert (o2 = o) as -> by congruence. rewrite Q2 in Kk. now destruct (p_kind e).
        - intros ->. apply N. exact (pi_inj _ _ _ _ I y x e p c Y' E L1 Lc). }
      destruct (p_kind e) eqn:Ke; [ | | | |exact Q]; destruct Q as (n & o & Q1 & Q2 & Q3 & Q4 & Q5 & Q6); exists n, o;
        (split; [exact Q1|]); (split; [apply Fr; auto|]); (split; [exact Q3|]); (split; [exact Q4|]);
        (split; [exact (Lf e e _ eq_refl Q5)|exact Q6]).
    + rewrite K1, K in *. destruct Q as (n & o & Q1 & Q2 & Q3 & Q4 & Q5 & Q6). assert (n = c) as -> by congruence.
      destruct (Ac o Q2) as (o' & T' & E1 & E2 & E3 & E4). exists c, o'. rewrite E1, E2, E3, K2, Fd.
      split; [exact Q1|]. split; [exact T'|]. split; [exact Q3|]. split; [exact Q4|]. split; [exact (Lf d p _ K3 Q5)|]. intros _; exact E4.
  - intros y d n Y Ld. destruct (Get y d Y) as (e & Y' & K1 & K2 & _).
    pose proof (pi_bound _ _ _ _ I y e n Y'). rewrite K2 in Ld. specialize (H Ld). lia.
  - intros y z d e n Y Z Ld Le. destruct (Get y d Y) as (d' & Y' & _ & K2 & _). destruct (Get z e Z) as (e' & Z' & _ & K2' & _).
    apply (pi_inj _ _ _ _ I y z d' e' n Y' Z'); congruence.
  - intros y d f Y Cd Fd. destruct (Get y d Y) as (e & Y' & K1 & K2 & K3 & K4 & [(N & ->)|(-> & -> & Q)]).
    + destruct (pi_file _ _ _ _ I y e f Y' Cd Fd). split; [auto|lia].
    + split; [congruence|]. destruct (Fl f ltac:(congruence)) as [Lt|Eq]; [lia|].
      destruct (pi_file _ _ _ _ I x p f E C ltac:(congruence)). lia.
  - intros y z d e f Y Z Cd Ce Fd Fe. destruct (Get y d Y) as (d' & Y' & _ & _ & _ & Q1 & Q2).
    destruct (Get z e Z) as (e' & Z' & _ & _ & _ & Q3 & Q4).
    destruct Q2 as [(N1 & ->)|(-> & -> & Q2)], Q4 as [(N2 & ->)|(-> & -> & Q4)].
    + exact (pi_finj _ _ _ _ I y z d' e' f Y' Z' Cd Ce Fd Fe).
    + destruct (Old y d' f N1 Y' Cd Fd). congruence.
    + destruct (Old z e' f N2 Z' Ce Fe). congruence.
    + reflexivity.
  - intros n o T Lv. destruct (Nat.eq_dec n c) as [->|N].
    + pose proof (pi_lib _ _ _ _ I x p E C) as Q. rewrite K in Q. destruct Q as (n & o2 & Q1 & Q2 & Q3 & Q4 & _).
      assert (n = c) as -> by congruence. destruct (Ac o2 Q2) as (o' & T' & E1 & _). assert (o' = o) as -> by congruence.
      destruct (o_kind o2) eqn:Ko; try contradiction. rewrite E1. destruct (Put x p E) as (d & D & _ & Ld & _ & Cd & _).
      exists x, d. rewrite Ld, Cd. auto.
    + destruct (B n o T Lv N) as [(F & Ko)|(T0 & F)].
      * rewrite Ko. exists x, (set_file p fl). split; [rewrite nth_set_nth, Nat.eqb_refl, E; reflexivity|]. split; [exact C|exact F].
      * pose proof (pi_conv _ _ _ _ I n o T0 Lv) as Q.
        destruct (o_kind o); try exact Q; destruct Q as (y & e & Y & Ce & Qe); destruct (Put y e Y) as (d & Y' & K1 & K2 & K3 & K4 & K5).
        -- assert (Ny : y <> x) by (intros ->; congruence). rewrite (K5 Ny) in Y'. exists y, e. auto.
        -- exists y, d. rewrite K2, K4. auto.
        -- exists y, d. rewrite K2, K4. auto.
        -- exists y, d. rewrite K2, K4. auto.
        -- exists y, d. rewrite K2, K4. auto.
Qed.

(* What is left of the Python objects is held by the program, or by what is got from it. *)
Lemma alive_ref q t s : pinv q t s None -> forall k y p, length (pys s) - y <= k -> nth_error (pys s) y = Some p -> 0 < p_count p ->
  exists z o, (z = y \/ descends q y z) /\ nth_error q z = Some o /\ 0 < q_refs o.
Proof.
  intros I. induction k as [|k IH]; intros y p Lk E C.
  - assert (y < length (pys s)) by (apply nth_error_Some; congruence). lia.
  - destruct (pi_row _ _ _ _ _ _ I E) as (r & Rw). destruct (pi_at _ _ _ _ I y r p Rw E) as (_ & _ & _ & Q4).
    destruct (q_refs r) as [|m] eqn:R; [|exists y, r; repeat split; auto; lia].
    destruct (children_some (pys s) y ltac:(lia)) as (z & c & Z & Kz). apply keeps_one in Kz. destruct Kz as (Cz & Pz).
    pose proof (pi_parent _ _ _ _ I z c Z) as H. rewrite Pz in H. destruct H as (Lt & _).
    assert (z < length (pys s)) by (apply nth_error_Some; congruence).
    destruct (IH z c ltac:(lia) Z Cz) as (w & o & D & W & Ow). exists w, o. split; [|auto]. right.
    destruct (pi_row _ _ _ _ _ _ I Z) as (rz & Rz). destruct (pi_at _ _ _ _ I z rz c Rz Z) as (Fz & _).
    assert (D1 : descends q y z) by (apply D_one; unfold qfrom; rewrite Rz; congruence).
    destruct D as [->|D]; [exact D1|]. clear - D1 D. induction D as [v V|v w D IH V]; [exact (D_more _ _ _ _ D1 V)|exact (D_more _ _ _ _ IH V)].
Qed.
Lemma no_children q t s x : pinv q t s None -> (forall y o, descends q x y -> nth_error q y = Some o -> q_refs o = 0) ->
  children (pys s) x = 0.
Proof.
  intros I H. destruct (children (pys s) x) as [|m] eqn:Q; [reflexivity|]. exfalso.
  destruct (children_some (pys s) x ltac:(lia)) as (y & c & Y & Ky). apply keeps_one in Ky. destruct Ky as (Cy & Py).
  destruct (alive_ref q t s I _ y c (le_n _) Y Cy) as (z & o & D & Z & O).
  destruct (pi_row _ _ _ _ _ _ I Y) as (ry & Ry). destruct (pi_at _ _ _ _ I y ry c Ry Y) as (Fy & _).
  assert (D1 : descends q x y) by (apply D_one; unfold qfrom; rewrite Ry; congruence).
  assert (D2 : descends q x z).
  { destruct D as [->|D]; [exact D1|]. clear - D1 D. induction D as [v V|v w D IH V]; [exact (D_more _ _ _ _ D1 V)|exact (D_more _ _ _ _ IH V)]. }
  rewrite (H z o D2 Z) in O. lia.
Qed.

(* ---- one operation ---- *)
Definition pgood (q : ptable) (op : pyop) (s : pystate) : Prop :=
  match py_perform op s with
  | (Oob, _) | (Fuel, _) => False
  | (a, s') => exists t', pinv (plearn q op a) t' s' None
  end.
Lemma pgood_is q op s a s' t' : py_perform op s = (a, s') -> a <> Oob -> a <> Fuel -> pinv (plearn q op a) t' s' None -> pgood q op s.
Proof. intros E N1 N2 I. unfold pgood. rewrite E. destruct a; try contradiction; try (now destruct N1); try (now destruct N2); eauto. Qed.

Lemma set_nth_app A n (a : A) l r : n < length l -> set_nth n a (l ++ r) = set_nth n a l ++ r.
Proof. revert n; induction l as [|b l IH]; intros [|n] H; cbn [length app set_nth] in *; try lia; auto. f_equal. apply IH. lia. Qed.

(* A new object with a reference to its parent x. *)
Lemma wrap_ok q t s x p k lb seq ts l' : pinv q t s None -> nth_error (pys s) x = Some p -> 0 < p_count p ->
  parent_kind k (p_kind p) -> (seq = true <-> k = PSequence) ->
  match lb with
  | None => k = PSequence /\ ts = []
  | Some n => k <> PSequence /\ n = length t /\ exists o, ts = [o] /\ o_live o = true /\ lib_kind k (o_kind o) /\ o_with o = None
              /\ o_from o = p_lib p /\ p_lib p <> None
  end -> inv (t ++ ts) l' ->
  exists s', wrap k x lb (mk_ps (pys s) l') = (Ok (length (pys s)), s') /\
    pinv (q ++ [mk_pobj 1 (Some x) seq false]) (t ++ ts) s' None.
Proof.
  intros I E C Kp Hs Hl I'.
  assert (Lx : x < length (pys s)) by (apply nth_error_Some; congruence).
  assert (I1 : pinv q t (mk_ps (set_nth x (set_count p (S (p_count p))) (pys s)) (lib s)) (Some x)).
  { apply (pinv_count q q t s None (Some x) x p (S (p_count p))); auto; try lia.
    intros y o' Y. exists o'. repeat split; auto. unfold exc. destruct (Nat.eqb_spec y x); lia. }
  eexists. split.
  - unfold wrap. rewrite (bindP (padd _) _ _ _ _ eq_refl). cbv beta. cbn [pys lib].
    assert (Q : incref x (mk_ps (pys s ++ [mk_py k lb 1 (Some x) None]) l') =
      (Ok tt, mk_ps (set_nth x (set_count p (S (p_count p))) (pys s) ++ [mk_py k lb 1 (Some x) None]) l')).
    { unfold incref. erewrite bindP by (apply pget_is; cbn [pys]; rewrite nth_error_app1 by exact Lx; exact E).
      unfold pset. cbn [pys lib]. now rewrite set_nth_app. }
    rewrite (bindP _ _ _ _ _ Q). reflexivity.
  - apply (pinv_add q t _ (Some x) k lb seq ts I1); auto; cbn [pys].
    + exists (set_count p (S (p_count p))). rewrite nth_set_nth, Nat.eqb_refl, E. auto.
    + destruct lb as [n|]; [|exact Hl]. destruct Hl as (Nk & Nn & o & H1 & H2 & H3 & H4 & H5 & H6).
      split; [exact Nk|]. split; [exact Nn|]. exists o. repeat split; auto. unfold lib_from. cbn [p_parent].
      exists (set_count p (S (p_count p))). rewrite nth_set_nth, Nat.eqb_refl, E. cbn [set_count p_lib]. rewrite H5. auto.
Qed.

(* The object of an operation is there. *)
Lemma subject_is q t s x o : pinv q t s None -> nth_error q x = Some o -> 0 < q_refs o ->
  exists p, nth_error (pys s) x = Some p /\ 0 < p_count p.
Proof.
  intros I Q R. destruct (pi_row' _ _ _ _ _ _ I Q) as (p & E). exists p. split; [exact E|].
  destruct (pi_at _ _ _ _ I x o p Q E) as (_ & _ & _ & C). lia.
Qed.

Lemma lib_of q t s ex x p : pinv q t s ex -> nth_error (pys s) x = Some p -> 0 < p_count p -> p_kind p <> PSequence ->
  exists n o, p_lib p = Some n /\ nth_error t n = Some o /\ o_live o = true /\ lib_kind (p_kind p) (o_kind o).
Proof.
  intros I E C K. pose proof (pi_lib _ _ _ _ I x p E C) as H.
  destruct (p_kind p); try (now destruct K); destruct H as (n & o & H1 & H2 & H3 & H4 & _); exists n, o; auto.
Qed.

(* A call of the library by the binding that makes an object and wraps it. *)
Lemma get_step q t s x p n k c o' op :
  pinv q t s None -> nth_error (pys s) x = Some p -> 0 < p_count p -> p_lib p = Some n ->
  getter c = true -> rule t c -> (forall r, learn t c (Ok r) = t ++ [o']) ->
  o_live o' = true -> lib_kind k (o_kind o') -> o_with o' = None -> o_from o' = Some n ->
  parent_kind k (p_kind p) -> k <> PSequence ->
  (forall y, plearn q op (Ok y) = q ++ [mk_pobj 1 (Some x) false false]) -> plearn q op Fail = q ->
  py_perform op s = bindM (ask c) (fun n => bindM (wrap k x n) (fun y => pret (Some y))) s ->
  pgood q op s.
Proof.
  intros I E C Ln G R Le Lv Kk W F Kp Ns P1 P2 Eq.
  pose proof (perform_good t (lib s) c (pi_inv _ _ _ _ I) R) as Gd. unfold good in Gd.
  destruct (perform c (lib s)) as [[r| | |] l'] eqn:Pf; try contradiction.
  - pose proof (made c (lib s) r l' G Pf) as ->. rewrite <- (i_len _ _ (pi_inv _ _ _ _ I)) in *. rewrite Le in Gd.
    destruct (wrap_ok q t s x p k (Some (length t)) false [o'] l' I E C Kp) as (s' & Wr & I'); auto.
    { split; [discriminate|intros ->; now destruct Ns]. }
    { split; [exact Ns|]. split; [reflexivity|]. exists o'. rewrite Ln. repeat split; auto. discriminate. }
    apply (pgood_is q op s (Ok (Some (length (pys s)))) s' (t ++ [o'])); [rewrite Eq|discriminate|discriminate|rewrite P1; exact I'].
    rewrite (bindP _ _ _ _ _ (ask_is c s _ _ Pf)). cbv beta. rewrite (bindP _ _ _ _ _ Wr). reflexivity.
  - apply (pgood_is q op s Fail (mk_ps (pys s) l') t); [rewrite Eq|discriminate|discriminate|rewrite P2; exact (pinv_lib _ _ _ _ _ I Gd)].
    rewrite (bindP_fail _ _ _ _ (ask_is c s _ _ Pf)). reflexivity.
Qed.

Lemma fail_step q t s op : pinv q t s None -> py_perform op s = (Fail, s) -> plearn q op Fail = q -> pgood q op s.
Proof. intros I E Q. apply (pgood_is q op s Fail s t E); try discriminate. rewrite Q. exact I. Qed.

(* The source of an item. *)
Lemma source_is q t s x p : pinv q t s None -> nth_error (pys s) x = Some p -> 0 < p_count p ->
  exists y c, source x s = (Ok y, s) /\ nth_error (pys s) y = Some c /\ 0 < p_count c /\ p_kind c <> PSequence /\ qsource q x = Some y.
Proof.
  intros I E C. destruct (pi_row _ _ _ _ _ _ I E) as (r & Rw). destruct (pi_at _ _ _ _ I x r p Rw E) as (Q1 & Q2 & _).
  unfold source. rewrite (bindP _ _ _ _ _ (pget_is x s p E)). cbv beta. unfold qsource. rewrite Rw.
  pose proof (pi_parent _ _ _ _ I x p E) as H.
  destruct (p_kind p) eqn:K.
  5: { destruct (p_parent p) as [y|] eqn:Py; [|discriminate H].
       destruct (parent_alive _ _ _ _ _ _ _ I E C Py) as (c & Y & Cc & Kc). exists y, c. rewrite (proj2 Q2 eq_refl), Q1.
       rewrite K in Kc. repeat split; auto. intros Q. rewrite Q in Kc. exact Kc. }
  all: destruct (q_seq r); [destruct Q2 as (Q2 & _); discriminate (Q2 eq_refl)|]; exists x, p; rewrite K; repeat split; auto; discriminate.
Qed.

Lemma open_name_closed c ok s r s' : perform (OpenName c ok) s = (Ok r, s') -> exists k, nth_error (objects s) c = Some (true, BContainer None k).
Proof.
  cbn [perform]. unfold none, container_open. intros H. destruct (bind_ok _ _ _ _ _ H) as (a & s1 & E1 & _).
  destruct (bind_ok _ _ _ _ _ E1) as (b & s2 & E2 & E3). unfold load in E2.
  destruct (nth_error (objects s) c) as [[[|] b']|]; try discriminate. destruct (bind_ok _ _ _ _ _ E2) as (u & s3 & E4 & E5).
  unfold ret, retM in E5. assert (b' = b) as -> by congruence.
  destruct b as [|[op|] k| | | |]; try discriminate E3; [|eauto].
  destruct (bind_ok _ _ _ _ _ E3) as (u1 & s4 & _ & E6). destruct (bind_ok _ _ _ _ _ E6) as (u2 & s5 & _ & E7). discriminate E7.
Qed.
Lemma open_file_closed c f ok s r s' : perform (OpenFile c f ok) s = (Ok r, s') -> exists k, nth_error (objects s) c = Some (true, BContainer None k).
Proof.
  cbn [perform]. unfold none, container_open_file. intros H. destruct (bind_ok _ _ _ _ _ H) as (a & s1 & E1 & _).
  destruct (bind_ok _ _ _ _ _ E1) as (b & s2 & E2 & E3). unfold load in E2.
  destruct (nth_error (objects s) c) as [[[|] b']|]; try discriminate. destruct (bind_ok _ _ _ _ _ E2) as (u & s3 & E4 & E5).
  unfold ret, retM in E5. assert (b' = b) as -> by congruence.
  destruct b as [|[op|] k| | | |]; try discriminate E3. eauto.
Qed.
Lemma closed_with t s c o k : inv t s -> nth_error t c = Some o -> o_live o = true -> nth_error (objects s) c = Some (true, BContainer None k) ->
  o_with o = None.
Proof.
  intros I T Lv B. destruct (live_body _ _ _ _ I T Lv) as (b & B' & S). assert (b = BContainer None k) as -> by congruence.
  unfold sound in S. destruct (o_kind o); try contradiction. now destruct S.
Qed.

(* What is known of the other objects stays. *)
Lemma same_rows (q : ptable) x (fl : option nat) (o : pobj) : nth_error q x = Some o -> (q_file o = true <-> fl <> None) ->
  forall (y : nat) (o' : pobj), nth_error q y = Some o' -> exists o : pobj, nth_error q y = Some o /\ q_from o' = q_from o /\ q_seq o' = q_seq o /\
     q_refs o' = q_refs o /\ (y <> x -> q_file o' = q_file o) /\ (y = x -> (q_file o' = true <-> fl <> None)).
Proof. intros Q H y o' Y. exists o'. repeat split; auto; intros; subst; assert (o' = o) as -> by congruence; now apply H. Qed.
Lemma new_rows (q : ptable) x (fl : option nat) b : (b = true <-> fl <> None) ->
  forall y o', nth_error (pchange x (fun o => mk_pobj (q_refs o) (q_from o) (q_seq o) b) q) y = Some o' ->
     exists o, nth_error q y = Some o /\ q_from o' = q_from o /\ q_seq o' = q_seq o /\
     q_refs o' = q_refs o /\ (y <> x -> q_file o' = q_file o) /\ (y = x -> (q_file o' = true <-> fl <> None)).
Proof.
  intros H y o' Y. rewrite nth_pchange in Y. destruct (Nat.eqb_spec y x) as [->|N].
  - destruct (nth_error q x) as [o|]; [|discriminate Y]. cbn [option_map] in Y. exists o.
    assert (o' = mk_pobj (q_refs o) (q_from o) (q_seq o) b) as -> by congruence. cbn [q_from q_seq q_refs q_file].
    repeat split; auto; try (now intros []); intros; now apply H.
  - exists o'. repeat split; auto; now intros ->.
Qed.

Lemma set_file_none p : p_file p = None -> set_file p None = p.
Proof. intros H. unfold set_file. rewrite <- H. now destruct p. Qed.
Lemma set_nth_same A n (a : A) l : nth_error l n = Some a -> set_nth n a l = l.
Proof. revert n; induction l as [|b l IH]; intros [|n] H; cbn [set_nth nth_error] in *; try discriminate; f_equal; [congruence|auto]. Qed.

Lemma new_step q t s : pinv q t s None -> pgood q PyNew s.
Proof.
  intros I. pose proof (perform_good t (lib s) NewContainer (pi_inv _ _ _ _ I) Logic.I) as Gd. unfold good in Gd.
  destruct (perform NewContainer (lib s)) as [[r| | |] l'] eqn:Pf; try contradiction.
  - pose proof (made NewContainer (lib s) r l' eq_refl Pf) as ->. rewrite <- (i_len _ _ (pi_inv _ _ _ _ I)) in *. cbn [learn] in Gd.
    refine (pgood_is q PyNew s (Ok (Some (length (pys s)))) (mk_ps (pys s ++ [mk_py PContainer (Some (length t)) 1 None None]) l')
      (t ++ [mk_obj KContainer None true None]) _ _ _ _); [|discriminate|discriminate|].
    + cbn [py_perform]. rewrite (bindP _ _ _ _ _ (ask_is NewContainer s _ _ Pf)). cbv beta. reflexivity.
    + cbn [plearn pys lib]. apply (pinv_add q t s None PContainer (Some (length t)) false [mk_obj KContainer None true None]); auto.
      * split; discriminate.
      * split; [discriminate|]. split; [reflexivity|]. eexists. repeat split.
  - discriminate Pf.
Qed.

(* An operation that is for another kind of object. *)
Ltac wrong_kind I E := apply (fail_step _ _ _ _ I); [|reflexivity]; cbn [py_perform]; unfold py_open_file, py_close;
  first [ rewrite (bindP _ _ _ _ _ (pget_is _ _ _ E)); cbv beta; match goal with K : p_kind _ = _ |- _ => rewrite K end; reflexivity
        | apply bindP_fail; rewrite (bindP _ _ _ _ _ (pget_is _ _ _ E)); cbv beta; match goal with K : p_kind _ = _ |- _ => rewrite K end; reflexivity ].

Lemma open_step q t s x p ok : pinv q t s None -> nth_error (pys s) x = Some p -> 0 < p_count p -> pgood q (PyOpen x ok) s.
Proof.
  intros I E C. destruct (p_kind p) eqn:K; try (wrong_kind I E).
  pose proof (pi_lib _ _ _ _ I x p E C) as H. rewrite K in H. destruct H as (c & o & Lc & T & Lv & Kd & Fr & W).
  assert (Eq : py_perform (PyOpen x ok) s = bindM (ask (OpenName c ok)) (fun _ => pret None) s).
  { cbn [py_perform]. rewrite (bindP _ _ _ _ _ (pget_is x s p E)). cbv beta. rewrite K, Lc. reflexivity. }
  pose proof (perform_good t (lib s) (OpenName c ok) (pi_inv _ _ _ _ I) Logic.I) as Gd. unfold good in Gd.
  destruct (perform (OpenName c ok) (lib s)) as [[r| | |] l'] eqn:Pf; try contradiction.
  - destruct (open_name_closed _ _ _ _ _ Pf) as (k & B). pose proof (closed_with _ _ _ _ _ (pi_inv _ _ _ _ I) T Lv B) as Wn.
    assert (Fn : p_file p = None). { destruct (p_file p) as [f|]; [|reflexivity]. pose proof (proj1 (W eq_refl f) eq_refl). congruence. }
    apply (pgood_is q (PyOpen x ok) s (Ok None) (mk_ps (pys s) l') (change c (with_ (Some None)) t)); try discriminate.
    + rewrite Eq. rewrite (bindP _ _ _ _ _ (ask_is _ s _ _ Pf)). reflexivity.
    + cbn [plearn]. destruct (pi_row _ _ _ _ _ _ I E) as (r2 & Rw). destruct (pi_at _ _ _ _ I x r2 p Rw E) as (_ & _ & Q3 & _).
      assert (Up : pinv q (change c (with_ (Some None)) t) (mk_ps (set_nth x (set_file p None) (pys s)) l') None).
      { apply (pinv_update q q t _ s l' x p c None); auto; try discriminate.
        - rewrite length_change. lia.
        - intros n o' T' Lv' _ N. rewrite nth_change, (proj2 (Nat.eqb_neq n c) N). exact T'.
        - intros o' T'. exists (with_ (Some None) o'). rewrite nth_change, Nat.eqb_refl, T'. repeat split; auto; discriminate.
        - intros n o' T' Lv' N. rewrite nth_change, (proj2 (Nat.eqb_neq n c) N) in T'. right. split; [exact T'|congruence].
        - apply (same_rows q x None r2 Rw). specialize (Q3 C). rewrite Fn in Q3. exact Q3. }
      rewrite (set_file_none p Fn), (set_nth_same _ _ _ _ E) in Up. exact Up.
  - apply (pgood_is q (PyOpen x ok) s Fail (mk_ps (pys s) l') t); try discriminate; [|exact (pinv_lib _ _ _ _ _ I Gd)].
    rewrite Eq. rewrite (bindP_fail _ _ _ _ (ask_is _ s _ _ Pf)). reflexivity.
Qed.

Lemma close_step q t s x p : pinv q t s None -> nth_error (pys s) x = Some p -> 0 < p_count p -> careful q (PyClose x) -> pgood q (PyClose x) s.
Proof.
  intros I E C Cf. destruct (p_kind p) eqn:K; try (wrong_kind I E).
  pose proof (pi_lib _ _ _ _ I x p E C) as H. rewrite K in H. destruct H as (c & o & Lc & T & Lv & Kd & Fr & W).
  cbn [careful] in Cf. pose proof (no_children _ _ _ _ I Cf) as Ch. pose proof (none_from_x _ _ _ _ _ _ _ I E Lc Ch) as NF.
  destruct (pi_row _ _ _ _ _ _ I E) as (r2 & Rw). destruct (pi_at _ _ _ _ I x r2 p Rw E) as (_ & _ & Q3 & _).
  destruct (p_file p) as [f|] eqn:F.
  - destruct (close_file_ok _ _ _ _ _ _ _ _ I E C K Lc F NF (pys s) p E K Lc F) as (l' & Cl & I' & N).
    apply (pgood_is q (PyClose x) s (Ok None) (mk_ps (set_nth x (set_file p None) (pys s)) l') (change f dead (change c (with_ None) t))); try discriminate.
    + cbn [py_perform]. destruct s as [ps l]. cbn [pys lib] in *. rewrite (bindP _ _ _ _ _ Cl). reflexivity.
    + cbn [plearn]. apply (pinv_update q _ t _ s l' x p c None); auto; try discriminate.
      * rewrite !length_change. lia.
      * intros n o' T' Lv' N1 N2. rewrite !nth_change. rewrite (proj2 (Nat.eqb_neq n f)) by congruence. rewrite (proj2 (Nat.eqb_neq n c) N2). exact T'.
      * intros o' T'. exists (with_ None o'). rewrite !nth_change. rewrite (proj2 (Nat.eqb_neq c f)) by congruence. rewrite Nat.eqb_refl, T'.
        repeat split; auto; discriminate.
      * intros n o' T' Lv' N2. rewrite !nth_change in T'. rewrite (proj2 (Nat.eqb_neq n c) N2) in T'.
        destruct (Nat.eqb_spec n f) as [->|Nf].
        -- destruct (nth_error t f) as [o3|]; [|discriminate T']. cbn [option_map] in T'. assert (o' = dead o3) as -> by congruence. discriminate Lv'.
        -- right. split; [exact T'|congruence].
      * apply length_pchange.
      * apply new_rows. split; [discriminate|now intros []].
  - pose proof (perform_good t (lib s) (Close c) (pi_inv _ _ _ _ I) NF) as Gd. unfold good in Gd.
    assert (Eq : py_perform (PyClose x) s = bindM (bindM (ask_ok (Close c)) (fun ok => if ok then pret tt else pfail)) (fun _ => pret None) s).
    { cbn [py_perform]. unfold py_close, bindM at 1 2 4. rewrite (pget_is x s p E), K, Lc, F. reflexivity. }
    destruct (perform (Close c) (lib s)) as [[r| | |] l'] eqn:Pf; try contradiction.
    + apply (pgood_is q (PyClose x) s (Ok None) (mk_ps (pys s) l') (change c (with_ None) t)); try discriminate.
      * rewrite Eq. unfold bindM, ask_ok. rewrite (ask_is (Close c) s _ _ Pf). reflexivity.
      * cbn [plearn].
        assert (Up : pinv (pchange x (fun o => mk_pobj (q_refs o) (q_from o) (q_seq o) false) q) (change c (with_ None) t) (mk_ps (set_nth x (set_file p None) (pys s)) l') None).
        { apply (pinv_update q _ t _ s l' x p c None); auto; try discriminate.
          - rewrite length_change. lia.
          - intros n o' T' Lv' _ N. rewrite nth_change, (proj2 (Nat.eqb_neq n c) N). exact T'.
          - intros o' T'. exists (with_ None o'). rewrite nth_change, Nat.eqb_refl, T'. repeat split; auto; discriminate.
          - intros n o' T' Lv' N. rewrite nth_change, (proj2 (Nat.eqb_neq n c) N) in T'. right. split; [exact T'|congruence].
          - apply length_pchange.
          - apply new_rows. split; [discriminate|now intros []]. }
        rewrite (set_file_none p F), (set_nth_same _ _ _ _ E) in Up. exact Up.
    + apply (pgood_is q (PyClose x) s Fail (mk_ps (pys s) l') t); try discriminate; [|exact (pinv_lib _ _ _ _ _ I Gd)].
      rewrite Eq. unfold bindM, ask_ok. rewrite (ask_is (Close c) s _ _ Pf). reflexivity.
Qed.

Lemma open_file_step q t s x p ok : pinv q t s None -> nth_error (pys s) x = Some p -> 0 < p_count p -> careful q (PyOpenFile x ok) ->
  pgood q (PyOpenFile x ok) s.
Proof.
  intros I E C Cf. destruct (p_kind p) eqn:K; try (wrong_kind I E).
  pose proof (pi_lib _ _ _ _ I x p E C) as H. rewrite K in H. destruct H as (c & o & Lc & T & Lv & Kd & Fr & W).
  destruct (pi_row _ _ _ _ _ _ I E) as (r2 & Rw). destruct (pi_at _ _ _ _ I x r2 p Rw E) as (_ & _ & Q3 & _).
  cbn [careful] in Cf. specialize (Cf r2 Rw).
  assert (Fn : p_file p = None).
  { destruct (p_file p) as [f|]; [|reflexivity]. rewrite (proj2 (Q3 C) ltac:(discriminate)) in Cf. discriminate Cf. }
  assert (Lt : c < length t) by (apply nth_error_Some; congruence).
  pose proof (perform_good t (lib s) NewFile (pi_inv _ _ _ _ I) Logic.I) as Gd. unfold good in Gd.
  destruct (perform NewFile (lib s)) as [[r| | |] l1] eqn:Pf; try contradiction.
  2: { cbn [perform some file_initialize create bindM] in Pf. unfold some, file_initialize, create, bindM, ret, retM in Pf. discriminate Pf. }
  pose proof (made NewFile (lib s) r l1 eq_refl Pf) as ->. rewrite <- (i_len _ _ (pi_inv _ _ _ _ I)) in *. cbn [learn] in Gd.
  set (f := length t) in *. set (t1 := t ++ [mk_obj KFile None true None]) in *.
  assert (T1 : forall n, n < length t -> nth_error t1 n = nth_error t n) by (intros n Ln; unfold t1; now rewrite nth_error_app1).
  assert (Tf : nth_error t1 f = Some (mk_obj KFile None true None)) by (unfold t1, f; rewrite nth_error_app2, Nat.sub_diag by lia; reflexivity).
  assert (L1 : length t1 = S (length t)) by (unfold t1; rewrite app_length; cbn; lia).
  pose proof (perform_good t1 l1 (OpenFile c f ok) Gd Logic.I) as Gd2. unfold good in Gd2.
  assert (Tc : nth_error t1 c = Some o) by (rewrite T1 by exact Lt; exact T).
  destruct (perform (OpenFile c f ok) l1) as [[r| | |] l2] eqn:Pf2; try contradiction.
  - destruct (open_file_closed _ _ _ _ _ _ Pf2) as (k & B). pose proof (closed_with _ _ _ _ _ Gd Tc Lv B) as Wn.
    cbn [learn] in Gd2.
    apply (pgood_is q (PyOpenFile x ok) s (Ok None) (mk_ps (set_nth x (set_file p (Some f)) (pys s)) l2) (change c (with_ (Some (Some f))) t1)); try discriminate.
    + cbn [py_perform]. refine (bindP _ _ _ _ _ _). unfold py_open_file. rewrite (bindP _ _ _ _ _ (pget_is x s p E)). cbv beta.
      rewrite K, Lc, Fn. rewrite (bindP _ _ _ _ _ (ask_is NewFile s _ _ Pf)). cbv beta iota.
      erewrite bindP; [|unfold ask_ok; rewrite (ask_is (OpenFile c f ok) (mk_ps (pys s) l1) _ _ Pf2); reflexivity]. reflexivity.
    + cbn [plearn]. apply (pinv_update q _ t _ s l2 x p c (Some f)); auto; try discriminate.
      * rewrite length_change. lia.
      * intros n o' T' Lv' _ N. rewrite nth_change, (proj2 (Nat.eqb_neq n c) N). rewrite T1; [exact T'|]. apply nth_error_Some. congruence.
      * intros o' T'. exists (with_ (Some (Some f)) o'). rewrite nth_change, Nat.eqb_refl. rewrite T1 by exact Lt. rewrite T'.
        split; [reflexivity|]. do 3 (split; [reflexivity|]). intros g. cbn [with_ o_with]. split; intros Q; congruence.
      * intros n o' T' Lv' N. rewrite nth_change, (proj2 (Nat.eqb_neq n c) N) in T'.
        destruct (Nat.lt_ge_cases n (length t)) as [Ln|Ge].
        -- right. rewrite T1 in T' by exact Ln. split; [exact T'|congruence].
        -- left. assert (n < length t1) by (apply nth_error_Some; congruence). assert (n = f) as -> by (unfold f; lia).
           split; [reflexivity|]. rewrite Tf in T'. assert (o' = mk_obj KFile None true None) as -> by congruence. reflexivity.
      * intros g Q. left. assert (g = f) as -> by congruence. rewrite length_change. unfold f; lia.
      * apply length_pchange.
      * apply new_rows. split; [discriminate|reflexivity].
  - cbn [learn] in Gd2.
    destruct (freed t1 l2 f _ Gd2 Tf eq_refl) as (r3 & l3 & Pf3 & I3).
    { cbn [o_kind freer rule]. intros m o' T' Lv' Wm.
      pose proof (dep_with _ _ _ _ _ Gd2 T' Lv' Wm) as B.
      destruct (Nat.lt_ge_cases m (length t)) as [Lm|Ge].
      - rewrite T1 in T' by exact Lm. pose proof (dep_with _ _ _ _ _ (pi_inv _ _ _ _ I) T' Lv' Wm) as B'.
        assert (f < length (objects (lib s))) by (apply nth_error_Some; congruence).
        rewrite <- (i_len _ _ (pi_inv _ _ _ _ I)) in H. unfold f in H. lia.
      - assert (m < length t1) by (apply nth_error_Some; congruence). assert (m = f) as -> by (unfold f; lia).
        rewrite Tf in T'. assert (o' = mk_obj KFile None true None) as -> by congruence. discriminate Wm. }
    cbn [o_kind freer] in Pf3.
    apply (pgood_is q (PyOpenFile x ok) s Fail (mk_ps (pys s) l3) (change f dead t1)); try discriminate.
    + cbn [py_perform]. apply bindP_fail. unfold py_open_file. rewrite (bindP _ _ _ _ _ (pget_is x s p E)). cbv beta.
      rewrite K, Lc, Fn. rewrite (bindP _ _ _ _ _ (ask_is NewFile s _ _ Pf)). cbv beta iota.
      erewrite bindP; [|unfold ask_ok; rewrite (ask_is (OpenFile c f ok) (mk_ps (pys s) l1) _ _ Pf2); reflexivity]. cbv beta iota.
      erewrite bindP; [|exact (ask_is (FreeFile f) (mk_ps (pys s) l2) _ _ Pf3)]. reflexivity.
    + cbn [plearn].
      assert (Up : pinv q (change f dead t1) (mk_ps (set_nth x (set_file p None) (pys s)) l3) None).
      { apply (pinv_update q q t _ s l3 x p c None); auto; try discriminate.
        - rewrite length_change. lia.
        - intros n o' T' Lv' _ N. assert (n < length t) by (apply nth_error_Some; congruence).
          rewrite nth_change. rewrite (proj2 (Nat.eqb_neq n f)) by (unfold f; lia). rewrite T1; auto.
        - intros o' T'. exists o'. rewrite nth_change. rewrite (proj2 (Nat.eqb_neq c f)) by (unfold f; lia). rewrite T1 by exact Lt.
          assert (o' = o) as -> by congruence. repeat split; auto; [discriminate|]. intros Q. apply (W eq_refl) in Q. congruence.
        - intros n o' T' Lv' N. rewrite nth_change in T'. destruct (Nat.eqb_spec n f) as [->|Nf].
          + rewrite Tf in T'. cbn [option_map] in T'. assert (o' = dead (mk_obj KFile None true None)) as -> by congruence. discriminate Lv'.
          + right. assert (n < length t1) by (apply nth_error_Some; congruence). rewrite T1 in T' by (unfold f in Nf; lia). split; [exact T'|congruence].
        - apply (same_rows q x None r2 Rw). specialize (Q3 C). rewrite Fn in Q3. exact Q3. }
      rewrite (set_file_none p Fn), (set_nth_same _ _ _ _ E) in Up. exact Up.
Qed.

Lemma volume_step q t s x p ok : pinv q t s None -> nth_error (pys s) x = Some p -> 0 < p_count p -> pgood q (PyVolume x ok) s.
Proof.
  intros I E C. destruct (source_is _ _ _ _ _ I E C) as (y & c & Sr & Y & Cc & Ns & Qs).
  destruct (lib_of _ _ _ _ _ _ I Y Cc Ns) as (n & o & Ln & T & Lv & Kd).
  assert (Eq : py_perform (PyVolume x ok) s = match p_kind c with
     | PContainer => bindM (ask (GetVolume n ok)) (fun n => bindM (wrap PVolume y n) (fun y => pret (Some y))) s
     | _ => (Fail, s) end).
  { cbn [py_perform]. rewrite (bindP _ _ _ _ _ Sr). cbv beta. rewrite (bindP _ _ _ _ _ (pget_is y s c Y)). cbv beta. rewrite Ln.
    now destruct (p_kind c). }
  destruct (p_kind c) eqn:K; try (apply (fail_step _ _ _ _ I Eq); reflexivity).
  apply (get_step q t s y c n PVolume (GetVolume n ok) (mk_obj KVolume (Some n) true None)); auto; try exact Logic.I; try discriminate.
  - rewrite K. exact Logic.I.
  - intros z. cbn [plearn]. now rewrite Qs.
Qed.

Lemma entry_step q t s x p r : pinv q t s None -> nth_error (pys s) x = Some p -> 0 < p_count p -> pgood q (PyEntry x r) s.
Proof.
  intros I E C. destruct (p_kind p) eqn:K; try (wrong_kind I E).
  destruct (lib_of _ _ _ _ _ _ I E C ltac:(congruence)) as (n & o & Ln & T & Lv & Kd).
  apply (get_step q t s x p n PEntry (GetEntry n r) (mk_obj KEntry (Some n) true None)); auto; try exact Logic.I; try discriminate.
  - rewrite K. exact Logic.I.
  - cbn [py_perform]. rewrite (bindP _ _ _ _ _ (pget_is x s p E)). cbv beta. rewrite K, Ln. reflexivity.
Qed.

Lemma attr_step q t s x p r : pinv q t s None -> nth_error (pys s) x = Some p -> 0 < p_count p -> pgood q (PyAttr x r) s.
Proof.
  intros I E C. destruct (source_is _ _ _ _ _ I E C) as (y & c & Sr & Y & Cc & Ns & Qs).
  destruct (lib_of _ _ _ _ _ _ I Y Cc Ns) as (n & o & Ln & T & Lv & Kd).
  assert (Eq : py_perform (PyAttr x r) s = match p_kind c with
     | PEntry => bindM (ask (GetAttr n r)) (fun n => bindM (wrap PAttr y n) (fun y => pret (Some y))) s
     | _ => (Fail, s) end).
  { cbn [py_perform]. rewrite (bindP _ _ _ _ _ Sr). cbv beta. rewrite (bindP _ _ _ _ _ (pget_is y s c Y)). cbv beta. rewrite Ln.
    now destruct (p_kind c). }
  destruct (p_kind c) eqn:K; try (apply (fail_step _ _ _ _ I Eq); reflexivity).
  apply (get_step q t s y c n PAttr (GetAttr n r) (mk_obj KAttr (Some n) true None)); auto; try exact Logic.I; try discriminate.
  - rewrite K. exact Logic.I.
  - intros z. cbn [plearn]. now rewrite Qs.
Qed.

Lemma sub_step q t s x p ok : pinv q t s None -> nth_error (pys s) x = Some p -> 0 < p_count p -> pgood q (PySub x ok) s.
Proof.
  intros I E C. destruct (source_is _ _ _ _ _ I E C) as (y & c & Sr & Y & Cc & Ns & Qs).
  pose proof (pi_lib _ _ _ _ I y c Y Cc) as H.
  assert (Wr : p_kind c <> PEntry -> py_perform (PySub x ok) s = (Fail, s)).
  { intros N. cbn [py_perform]. rewrite (bindP _ _ _ _ _ Sr). cbv beta. rewrite (bindP _ _ _ _ _ (pget_is y s c Y)). cbv beta.
    now destruct (p_kind c). }
  destruct (p_kind c) eqn:K; try (apply (fail_step _ _ _ _ I (Wr ltac:(discriminate))); reflexivity). clear Wr.
  destruct H as (n & o & Ln & T & Lv & Kd & Fr & _).
  destruct (p_parent c) as [v|] eqn:Pc; [|pose proof (pi_parent _ _ _ _ I y c Y) as Q; rewrite Pc in Q; congruence].
  destruct (parent_alive _ _ _ _ _ _ _ I Y Cc Pc) as (d & D & Cd & Kpd). rewrite K in Kpd.
  unfold lib_from in Fr. rewrite Pc in Fr. destruct Fr as (d' & D' & Ld & Nn). assert (d' = d) as -> by congruence.
  destruct (o_from o) as [m|] eqn:Fo; [|now destruct Nn].
  destruct (pi_row _ _ _ _ _ _ I Y) as (ry & Ry). destruct (pi_at _ _ _ _ I y ry c Ry Y) as (Qf & _).
  assert (Qv : qvolume q x = Some v). { unfold qvolume, qfrom. rewrite Qs, Ry, Qf. exact Pc. }
  apply (get_step q t s v d m PEntry (GetSub n ok) (mk_obj KEntry (from_of t n) true None)); auto; try exact Logic.I; try discriminate.
  - cbn [o_from]. unfold from_of. rewrite T. exact Fo.
  - intros z. cbn [plearn]. now rewrite Qv.
  - cbn [py_perform]. rewrite (bindP _ _ _ _ _ Sr). cbv beta. rewrite (bindP _ _ _ _ _ (pget_is y s c Y)). cbv beta. rewrite K, Ln, Pc. reflexivity.
Qed.

Lemma use_call t s n g : inv t s -> exists a s', perform (Use n g) s = (a, s') /\ inv t s' /\ a <> Oob /\ a <> Fuel.
Proof.
  intros I. pose proof (perform_good t s (Use n g) I Logic.I) as G. unfold good in G.
  destruct (perform (Use n g) s) as [[r| | |] s']; try contradiction; eexists _, s'; (split; [reflexivity|]); (split; [exact G|]); split; discriminate.
Qed.

Lemma sequence_step q t s x p g : pinv q t s None -> nth_error (pys s) x = Some p -> 0 < p_count p -> pgood q (PySequence x g) s.
Proof.
  intros I E C.
  assert (Kk : (p_kind p = PContainer \/ p_kind p = PEntry) \/ py_perform (PySequence x g) s = (Fail, s)).
  { destruct (p_kind p) eqn:K; auto; right; cbn [py_perform]; rewrite (bindP _ _ _ _ _ (pget_is x s p E)); cbv beta; now rewrite K. }
  destruct Kk as [Kk|Eq]; [|apply (fail_step _ _ _ _ I Eq); reflexivity].
  destruct (lib_of _ _ _ _ _ _ I E C ltac:(destruct Kk; congruence)) as (n & o & Ln & T & Lv & Kd).
  assert (Eq : py_perform (PySequence x g) s = bindM (ask (Use n g)) (fun _ => bindM (wrap PSequence x None) (fun y => pret (Some y))) s).
  { cbn [py_perform]. rewrite (bindP _ _ _ _ _ (pget_is x s p E)). cbv beta. rewrite Ln. destruct Kk as [-> | ->]; reflexivity. }
  destruct (use_call t (lib s) n g (pi_inv _ _ _ _ I)) as (a & l' & Pf & I' & N1 & N2).
  destruct a as [r| | |]; try (now destruct N1); try (now destruct N2).
  - destruct (wrap_ok q t s x p PSequence None true [] l' I E C) as (s' & Wr & I2).
    + destruct Kk as [-> | ->]; exact Logic.I.
    + split; reflexivity.
    + auto.
    + rewrite app_nil_r. exact I'.
    + apply (pgood_is q (PySequence x g) s (Ok (Some (length (pys s)))) s' (t ++ [])); try discriminate; [|exact I2].
      rewrite Eq. rewrite (bindP _ _ _ _ _ (ask_is _ s _ _ Pf)). cbv beta. rewrite (bindP _ _ _ _ _ Wr). reflexivity.
  - apply (pgood_is q (PySequence x g) s Fail (mk_ps (pys s) l') t); try discriminate; [|exact (pinv_lib _ _ _ _ _ I I')].
    rewrite Eq. rewrite (bindP_fail _ _ _ _ (ask_is _ s _ _ Pf)). reflexivity.
Qed.

Lemma use_step q t s x p g : pinv q t s None -> nth_error (pys s) x = Some p -> 0 < p_count p -> pgood q (PyUse x g) s.
Proof.
  intros I E C. destruct (p_lib p) as [n|] eqn:Ln.
  - assert (Eq : py_perform (PyUse x g) s = bindM (ask (Use n g)) (fun _ => pret None) s).
    { cbn [py_perform]. rewrite (bindP _ _ _ _ _ (pget_is x s p E)). cbv beta. now rewrite Ln. }
    destruct (use_call t (lib s) n g (pi_inv _ _ _ _ I)) as (a & l' & Pf & I' & N1 & N2).
    destruct a as [r| | |]; try (now destruct N1); try (now destruct N2).
    + apply (pgood_is q (PyUse x g) s (Ok None) (mk_ps (pys s) l') t); try discriminate; [|exact (pinv_lib _ _ _ _ _ I I')].
      rewrite Eq. rewrite (bindP _ _ _ _ _ (ask_is _ s _ _ Pf)). reflexivity.
    + apply (pgood_is q (PyUse x g) s Fail (mk_ps (pys s) l') t); try discriminate; [|exact (pinv_lib _ _ _ _ _ I I')].
      rewrite Eq. rewrite (bindP_fail _ _ _ _ (ask_is _ s _ _ Pf)). reflexivity.
  - apply (pgood_is q (PyUse x g) s (Ok None) s t); try discriminate; [|exact I].
    cbn [py_perform]. rewrite (bindP _ _ _ _ _ (pget_is x s p E)). cbv beta. now rewrite Ln.
Qed.

Lemma keep_step q t s x p : pinv q t s None -> nth_error (pys s) x = Some p -> 0 < p_count p -> pgood q (PyKeep x) s.
Proof.
  intros I E C. apply (pgood_is q (PyKeep x) s (Ok None) (mk_ps (set_nth x (set_count p (S (p_count p))) (pys s)) (lib s)) t); try discriminate.
  - cbn [py_perform]. refine (bindP _ _ _ _ _ _). unfold incref. rewrite (bindP _ _ _ _ _ (pget_is x s p E)). reflexivity.
  - cbn [plearn]. apply (pinv_count q _ t s None None x p (S (p_count p))); auto; try lia.
    + apply length_pchange.
    + intros y o' Y. rewrite nth_pchange in Y. destruct (Nat.eqb_spec y x) as [->|N].
      * destruct (nth_error q x) as [o|]; [|discriminate Y]. cbn [option_map] in Y. exists o.
        assert (o' = mk_pobj (S (q_refs o)) (q_from o) (q_seq o) (q_file o)) as -> by congruence. cbn [q_from q_seq q_file q_refs]. repeat split; lia.
      * exists o'. repeat split; auto.
Qed.

Lemma drop_step q t s x p o : pinv q t s None -> nth_error (pys s) x = Some p -> 0 < p_count p -> nth_error q x = Some o -> 0 < q_refs o ->
  pgood q (PyDrop x) s.
Proof.
  intros I E C Q R. set (q' := pchange x (fun o => mk_pobj (pred (q_refs o)) (q_from o) (q_seq o) (q_file o)) q).
  assert (Sm : set_nth x (set_count p (p_count p)) (pys s) = pys s) by (apply set_nth_same; rewrite E; now destruct p).
  assert (I1 : pinv q' t s (Some x)).
  { pose proof (pinv_count q q' t s None (Some x) x p (p_count p) I E C C (length_pchange _ _ _)) as H. rewrite Sm in H.
    destruct s as [ps l]. cbn [pys lib] in H. apply H. clear H. intros y o' Y. unfold q' in Y. rewrite nth_pchange in Y.
    unfold exc. destruct (Nat.eqb_spec y x) as [->|N].
    - rewrite Q in Y. cbn [option_map] in Y. exists o.
      assert (o' = mk_pobj (pred (q_refs o)) (q_from o) (q_seq o) (q_file o)) as -> by congruence. cbn [q_from q_seq q_file q_refs]. repeat split; auto; lia.
    - exists o'. repeat split; auto. }
  destruct (decref_ok (S x) x q' t s p I1 E ltac:(lia)) as (t' & s' & D & I').
  apply (pgood_is q (PyDrop x) s (Ok None) s' t'); try discriminate; [|exact I'].
  unfold py_perform. rewrite (bindP _ _ _ _ _ D). reflexivity.
Qed.

Lemma py_step q t s op : pinv q t s None -> holds q op -> careful q op -> pgood q op s.
Proof.
  intros I H Cf.
  assert (Sb : forall x, subject op = Some x -> exists p, nth_error (pys s) x = Some p /\ 0 < p_count p).
  { intros x Sx. destruct (H x Sx) as (o & O & R). exact (subject_is _ _ _ _ _ I O R). }
  destruct op; try (destruct (Sb x eq_refl) as (p & E & C)).
  - exact (new_step q t s I).
  - exact (open_step q t s x p ok I E C).
  - exact (open_file_step q t s x p ok I E C Cf).
  - exact (close_step q t s x p I E C Cf).
  - exact (volume_step q t s x p ok I E C).
  - exact (entry_step q t s x p o I E C).
  - exact (sub_step q t s x p ok I E C).
  - exact (attr_step q t s x p o I E C).
  - exact (sequence_step q t s x p grow I E C).
  - exact (use_step q t s x p grow I E C).
  - exact (keep_step q t s x p I E C).
  - destruct (H x eq_refl) as (o & O & R). exact (drop_step q t s x p o I E C O R).
Qed.

Lemma py_run_good ops : forall q t s, pinv q t s None -> python q (fst (py_run s ops)) -> careful_all q (fst (py_run s ops)) ->
  (forall op a, In (op, a) (fst (py_run s ops)) -> a <> Oob /\ a <> Fuel) /\
  exists t', pinv (fold_left (fun t x => plearn t (fst x) (snd x)) (fst (py_run s ops)) q) t' (snd (py_run s ops)) None.
Proof.
  induction ops as [|op ops IH]; intros q t s I Hp Hc; cbn [py_run] in *.
  - split; [intros ? ? []|]. exists t. exact I.
  - destruct (py_perform op s) as [a s1] eqn:Pf.
    assert (G : holds q op /\ careful q op).
    { destruct a; [destruct (py_run s1 ops)| destruct (py_run s1 ops)| |destruct (py_run s1 ops)]; cbn [fst] in Hp, Hc; destruct Hp, Hc; auto. }
    pose proof (py_step q t s op I (proj1 G) (proj2 G)) as Gd. unfold pgood in Gd. rewrite Pf in Gd.
    destruct a as [v| | |]; try contradiction; destruct Gd as (t1 & I1);
      destruct (py_run s1 ops) as [tr s2] eqn:Rn; cbn [fst snd] in *; destruct Hp as (_ & Hp); destruct Hc as (_ & Hc);
      specialize (IH _ t1 s1 I1); rewrite Rn in IH; cbn [fst snd] in IH; destruct (IH Hp Hc) as (A & B);
      (split; [|exact B]); intros op' a' [Q|Q]; try exact (A op' a' Q);
      injection Q as <- <-; split; discriminate.
Qed.

(* Without references nothing is left. *)
Lemma all_gone q t s : pinv q t s None -> (forall y o, nth_error q y = Some o -> q_refs o = 0) ->
  forall n o, nth_error t n = Some o -> o_live o = false.
Proof.
  intros I H n o T. destruct (o_live o) eqn:Lv; [|reflexivity]. exfalso.
  assert (Gone : forall y p, nth_error (pys s) y = Some p -> 0 < p_count p -> False).
  { intros y p Y C. destruct (alive_ref q t s I _ y p (le_n _) Y C) as (z & r & _ & Z & R). rewrite (H z r Z) in R. lia. }
  pose proof (pi_conv _ _ _ _ I n o T Lv) as Q. destruct (o_kind o); try exact Q; destruct Q as (y & p & Y & C & _); exact (Gone y p Y C).
Qed.
