(* The blocks that are allocated are determined by the objects, and the pointers of the
   objects that are left lead to blocks of objects that are left. *)
From Coq Require Import Bool List Arith Lia.
From Verif Require Import Base Walk FileEntry Lifetime LifetimeSpec.
Import ListNotations.
Local Open Scope nat_scope.

(* Whether part p of an object is allocated. *)
Definition part_live (x : bool * body) (p : part) : bool :=
  match snd x, p with
  | BSnapshot _, Super => true
  | b, _ =>
      fst x && match b, p with
               | _, Self => true
               | BContainer _ _, Io => true
               | BContainer (Some _) k, Meta j => Nat.eqb j k
               | BContainer (Some _) k, Bag j => Nat.eqb j k
               | BContainer (Some o) k, Handle j => op_mine o && Nat.eqb j k
               | BVolume _ _ _ _, Own => true
               | BVolume _ _ _ fs, Fs => fs
               | BEntry _ _ _ _ _, Own => true
               | BEntry _ _ _ _ vals, Vals => vals
               | BAttr _ _ _ _ _, Own => true
               | _, _ => false
               end
  end.
Definition alive (l : list (bool * body)) (b : block) : bool :=
  match nth_error l (fst b) with Some x => part_live x (snd b) | None => false end.

Definition is_open (l : list (bool * body)) (c : nat) (p : opening) (k : nat) : Prop :=
  nth_error l c = Some (true, BContainer (Some p) k).

(* What the pointers of the n-th object are, if it is left. *)
Definition sound (l : list (bool * body)) (n : nat) (o : obj) (b : body) : Prop :=
  match o_kind o, b with
  | KFile, BFile => o_from o = None /\ o_with o = None
  | KContainer, BContainer None _ => o_from o = None /\ o_with o = None
  | KContainer, BContainer (Some p) k =>
      o_from o = None /\
      ((o_with o = Some None /\ p = mk_opening (n, Handle k) true) \/
      (exists f, o_with o = Some (Some f) /\ p = mk_opening (f, Self) false /\ nth_error l f = Some (true, BFile)))
  | KVolume, BVolume io h g fs =>
      o_with o = None /\
      exists c p k, o_from o = Some c /\ is_open l c p k /\ io = (c, Io) /\ h = op_handle p /\ g = (c, Bag k)
  | KEntry, BEntry io h own fs vals =>
      o_with o = None /\
      exists v g, o_from o = Some v /\ own = (v, Own) /\ fs = (v, Fs) /\
      nth_error l v = Some (true, BVolume io h g true)
  | KAttr, BAttr io h own fs vals =>
      o_with o = None /\
      exists e, o_from o = Some e /\ vals = (e, Vals) /\ nth_error l e = Some (true, BEntry io h own fs true)
  | KSnapshot, BSnapshot m =>
      o_with o = None /\
      exists v io h g fs, o_from o = Some v /\ m = (v, Own) /\ nth_error l v = Some (true, BVolume io h g fs)
  | _, _ => False
  end.

Record inv (t : table) (s : state) : Prop := {
  i_len : length t = length (objects s);
  i_live : forall b, live s b = alive (objects s) b;
  i_obj : forall n o h b, nth_error t n = Some o -> nth_error (objects s) n = Some (h, b) ->
    h = o_live o /\ (h = true -> sound (objects s) n o b) /\ (h = false -> o_with o = None)
    /\ (forall m, b = BSnapshot m -> o_kind o = KSnapshot)
}.

Lemma inv_start : inv [] start.
Proof.
  split; [reflexivity | intros [[|n] p]; reflexivity | intros [|n]; discriminate].
Qed.

(* ---- lists ---- *)
Lemma length_set_nth A n (x : A) l : length (set_nth n x l) = length l.
Proof. revert n; induction l as [|a l IH]; intros [|n]; cbn; auto. Qed.
Lemma nth_set_nth A n (x : A) l m :
  nth_error (set_nth n x l) m = if Nat.eqb m n then match nth_error l m with Some _ => Some x | None => None end else nth_error l m.
Proof.
  revert n m; induction l as [|a l IH]; intros [|n] [|m]; cbn [set_nth nth_error Nat.eqb]; auto.
  - now destruct (Nat.eqb m n).
Qed.
Lemma length_change n f t : length (change n f t) = length t.
Proof. revert n; induction t as [|o t IH]; intros [|n]; cbn; auto. Qed.
Lemma nth_change n f t m :
  nth_error (change n f t) m = if Nat.eqb m n then option_map f (nth_error t m) else nth_error t m.
Proof.
  revert n m; induction t as [|o t IH]; intros [|n] [|m]; cbn [change nth_error Nat.eqb option_map]; auto.
  - now destruct (Nat.eqb m n).
Qed.
Lemma nth_snoc A (l : list A) x m :
  nth_error (l ++ [x]) m = if Nat.eqb m (length l) then Some x else nth_error l m.
Proof.
  destruct (Nat.eqb_spec m (length l)) as [->|N].
  - now rewrite nth_error_app2, Nat.sub_diag by lia.
  - destruct (Nat.lt_ge_cases m (length l)) as [Lt|Ge].
    + now apply nth_error_app1.
    + replace (nth_error l m) with (@None A) by (symmetry; apply nth_error_None; lia).
      apply nth_error_None. rewrite app_length. cbn. lia.
Qed.

Lemma alive_set l n x b :
  alive (set_nth n x l) b = if Nat.eqb (fst b) n then match nth_error l n with Some _ => part_live x (snd b) | None => false end else alive l b.
Proof.
  unfold alive. rewrite nth_set_nth. destruct (Nat.eqb_spec (fst b) n) as [->|N]; [|reflexivity].
  now destruct (nth_error l n).
Qed.
Lemma alive_snoc l x b :
  alive (l ++ [x]) b = if Nat.eqb (fst b) (length l) then part_live x (snd b) else alive l b.
Proof. unfold alive. rewrite nth_snoc. now destruct (Nat.eqb _ _). Qed.
Lemma alive_new l p : alive l (length l, p) = false.
Proof. unfold alive. cbn [fst]. now replace (nth_error l (length l)) with (@None (bool * body)) by (symmetry; apply nth_error_None; lia). Qed.

Lemma inv_get t s n h b : inv t s -> nth_error (objects s) n = Some (h, b) ->
  exists o, nth_error t n = Some o /\ h = o_live o /\ (h = true -> sound (objects s) n o b)
            /\ (h = false -> o_with o = None) /\ (forall m, b = BSnapshot m -> o_kind o = KSnapshot).
Proof.
  intros [IL IV IO] E. destruct (nth_error t n) as [o|] eqn:T.
  - exists o. split; [reflexivity|]. exact (IO n o h b T E).
  - exfalso. apply nth_error_None in T. assert (n < length (objects s)) by (apply nth_error_Some; congruence). lia.
Qed.

(* ---- how an object may be replaced ---- *)

(* The objects an object depends on. *)
Definition depends (n : nat) (o : obj) : Prop := o_from o = Some n \/ o_with o = Some (Some n).

(* The only change that those which depend on an object do not notice: a volume gets its
   file system. *)
Definition same (x y : option (bool * body)) : Prop :=
  y = x \/ exists io h g, x = Some (true, BVolume io h g false) /\ y = Some (true, BVolume io h g true).

Lemma sound_ext l l' n o b :
  (forall m, depends m o -> same (nth_error l m) (nth_error l' m)) ->
  sound l n o b -> sound l' n o b.
Proof.
  intros E. unfold sound, is_open.
  assert (R : forall m x, depends m o -> nth_error l m = Some x ->
                nth_error l' m = Some x \/ exists io h g, x = (true, BVolume io h g false) /\ nth_error l' m = Some (true, BVolume io h g true)).
  { intros m x D X. destruct (E m D) as [Q|(io & h & g & Q & Q')]; [left; congruence|right; exists io, h, g; split; congruence]. }
  destruct (o_kind o) eqn:K, b as [|[p|] k|io h g fs|io h own fs vals|io h own fs vals|m]; auto.
  - intros (F0 & [S|(f & W & P & F)]); (split; [exact F0|]); [now left|right; exists f].
    destruct (R f _ (or_intror W) F) as [Q|(? & ? & ? & Q & _)]; [auto|discriminate Q].
  - intros (W & c & p & k & F & O & T). split; [exact W|]. exists c, p, k.
    destruct (R c _ (or_introl F) O) as [Q|(? & ? & ? & Q & _)]; [auto|discriminate Q].
  - intros (W & v & g & F & O1 & O2 & O). split; [exact W|]. exists v, g.
    destruct (R v _ (or_introl F) O) as [Q|(? & ? & ? & Q & _)]; [auto|discriminate Q].
  - intros (W & e & F & O1 & O). split; [exact W|]. exists e.
    destruct (R e _ (or_introl F) O) as [Q|(? & ? & ? & Q & _)]; [auto|discriminate Q].
  - intros (W & v & io & h & g & fs & F & O1 & O). split; [exact W|].
    destruct (R v _ (or_introl F) O) as [Q|(a & b & c & Q & Q')].
    + exists v, io, h, g, fs. auto.
    + exists v, a, b, c, true. split; [exact F|]. split; [exact O1|exact Q'].
Qed.

(* The n-th object is replaced. *)
Lemma inv_set t s n o h b f h' b' lv :
  inv t s -> nth_error t n = Some o -> nth_error (objects s) n = Some (h, b) ->
  (forall m x, nth_error t m = Some x -> o_live x = true -> m <> n -> depends n x ->
     same (Some (h, b)) (Some (h', b'))) ->
  (forall p, lv (n, p) = part_live (h', b') p) ->
  (forall m p, m <> n -> lv (m, p) = live s (m, p)) ->
  h' = o_live (f o) ->
  (h' = true -> sound (set_nth n (h', b') (objects s)) n (f o) b') ->
  (h' = false -> o_with (f o) = None) ->
  (forall m, b' = BSnapshot m -> o_kind (f o) = KSnapshot) ->
  inv (change n f t) (mk_state (set_nth n (h', b') (objects s)) lv).
Proof.
  intros I T E D L1 L2 H1 H2 H3 H4. pose proof I as [IL IV IO]. split; cbn [objects live].
  - now rewrite length_change, length_set_nth.
  - intros [m p]. rewrite alive_set. cbn [fst snd]. destruct (Nat.eqb_spec m n) as [->|N].
    + rewrite E. apply L1.
    + rewrite L2 by exact N. apply IV.
  - intros m x y c X Y. rewrite nth_change in X. rewrite nth_set_nth in Y.
    destruct (Nat.eqb_spec m n) as [->|N].
    + rewrite T in X. rewrite E in Y. cbn [option_map] in X.
      assert (x = f o) as -> by congruence. assert (y = h') as -> by congruence. assert (c = b') as -> by congruence.
      auto.
    + destruct (IO m x y c X Y) as (A1 & A2 & A3 & A4). split; [exact A1|]. split; [|auto].
      intros Yt. specialize (A2 Yt). revert A2. apply sound_ext. intros k Dk. rewrite nth_set_nth.
      destruct (Nat.eqb_spec k n) as [->|Nk]; [|now left]. rewrite E.
      refine (D m x X _ N Dk). congruence.
Qed.

(* A new object. *)
Lemma inv_new t s o b lv :
  inv t s ->
  (forall p, lv (length (objects s), p) = part_live (true, b) p) ->
  (forall m p, m <> length (objects s) -> lv (m, p) = live s (m, p)) ->
  o_live o = true ->
  sound (objects s) (length (objects s)) o b ->
  (forall m, b = BSnapshot m -> o_kind o = KSnapshot) ->
  inv (t ++ [o]) (mk_state (objects s ++ [(true, b)]) lv).
Proof.
  intros I L1 L2 H1 H2 H4. pose proof I as [IL IV IO].
  assert (Q : forall k x, nth_error (objects s) k = Some x -> nth_error (objects s ++ [(true, b)]) k = Some x).
  { intros k x X. rewrite nth_error_app1; [exact X|]. apply nth_error_Some. congruence. }
  assert (Hs : forall n o' b', sound (objects s) n o' b' -> sound (objects s ++ [(true, b)]) n o' b').
  { intros n o' b'. unfold sound, is_open.
    destruct (o_kind o'), b' as [|[p|] k|io h g fs|io h own fs vals|io h own fs vals|m]; auto.
    - intros (F0 & [S|(f & W & P & F)]); (split; [exact F0|]); [now left|right; exists f; auto].
    - intros (W & c & p & k & F & O & T). split; [exact W|]. exists c, p, k. auto.
    - intros (W & v & g & F & O1 & O2 & O). split; [exact W|]. exists v, g. auto.
    - intros (W & e & F & O1 & O). split; [exact W|]. exists e. auto.
    - intros (W & v & io & h & g & fs & F & O1 & O). split; [exact W|]. exists v, io, h, g, fs. auto. }
  split; cbn [objects live].
  - rewrite !app_length, IL. reflexivity.
  - intros [m p]. rewrite alive_snoc. cbn [fst snd]. destruct (Nat.eqb_spec m (length (objects s))) as [->|N].
    + apply L1.
    + rewrite L2 by exact N. apply IV.
  - intros m x y c X Y. rewrite nth_snoc in X. rewrite nth_snoc in Y. rewrite IL in X.
    destruct (Nat.eqb_spec m (length (objects s))) as [->|N].
    + assert (x = o) as -> by congruence. assert (y = true) as -> by congruence. assert (c = b) as -> by congruence.
      repeat split; auto. discriminate.
    + destruct (IO m x y c X Y) as (A1 & A2 & A3 & A4). repeat split; auto.
Qed.

(* ---- running a call ---- *)
Lemma block_eqb_refl b : block_eqb b b = true.
Proof. destruct b as [n p]. unfold block_eqb. cbn [fst snd]. rewrite Nat.eqb_refl. destruct p; cbn; auto using Nat.eqb_refl. Qed.

(* The call answers, and what it answers is in line with what the program knows. *)
Definition good (t : table) (c : call) (s : state) : Prop :=
  match perform c s with
  | (Oob, _) | (Fuel, _) => False
  | (a, s') => inv (learn t c a) s'
  end.

Lemma load_held s n b : nth_error (objects s) n = Some (true, b) -> live s (n, Self) = true -> load n s = (Ok b, s).
Proof. intros E Lv. unfold load. rewrite E. unfold bindM, touch. now rewrite Lv. Qed.
Lemma load_not s n : (forall b, nth_error (objects s) n <> Some (true, b)) -> load n s = (Fail, s).
Proof.
  intros E. unfold load. destruct (nth_error (objects s) n) as [[[|] b]|]; try reflexivity.
  exfalso. now apply (E b).
Qed.

Lemma self_live t s n b : inv t s -> nth_error (objects s) n = Some (true, b) -> live s (n, Self) = true.
Proof.
  intros I E. rewrite (i_live _ _ I). unfold alive. cbn [fst]. rewrite E. unfold part_live. cbn [fst snd].
  now destruct b as [|[p|] k| | | |].
Qed.

Lemma part_is t s n x p : inv t s -> nth_error (objects s) n = Some x -> live s (n, p) = part_live x p.
Proof. intros I E. rewrite (i_live _ _ I). unfold alive. cbn [fst snd]. now rewrite E. Qed.

Lemma some_step A (l : list A) n : (exists x, nth_error l n = Some x) \/ nth_error l n = None.
Proof. destruct (nth_error l n); eauto. Qed.

Lemma touch_ok b s : live s b = true -> touch b s = (Ok tt, s).
Proof. intros E. unfold touch. now rewrite E. Qed.
Lemma release_ok b s : live s b = true -> release b s = (Ok tt, mk_state (objects s) (upd (live s) b false)).
Proof. intros E. unfold release, bindM. now rewrite (touch_ok b s E). Qed.
Lemma touch_all_ok l s : (forall b, In b l -> live s b = true) -> touch_all l s = (Ok tt, s).
Proof.
  induction l as [|b l IH]; intros E; [reflexivity|].
  cbn [touch_all]. unfold bindM. rewrite touch_ok by (apply E; now left). apply IH. intros c C. apply E. now right.
Qed.
Lemma bind_is {A B} (m : L A) (k : A -> L B) s a s' : m s = (Ok a, s') -> bindM m k s = k a s'.
Proof. intros E. unfold bindM. now rewrite E. Qed.
Lemma bind_fail {A B} (m : L A) (k : A -> L B) s s' : m s = (Fail, s') -> bindM m k s = (Fail, s').
Proof. intros E. unfold bindM. now rewrite E. Qed.

Ltac blocks :=
  repeat (progress (cbn [live objects]; try unfold upd; try unfold block_eqb; cbn [fst snd part_eqb]; rewrite ?Nat.eqb_refl; cbn [andb orb])).
(* The parts of the object that changed. *)
Ltac parts I E :=
  let p := fresh "p" in
  intros p; destruct p; blocks; cbn [live objects]; rewrite ?(part_is _ _ _ _ _ I E);
  unfold part_live; cbn [fst snd andb op_mine op_handle];
  repeat match goal with |- context [Nat.eqb ?a ?b] => destruct (Nat.eqb_spec a b); subst end;
  try reflexivity; try lia.
(* The parts of the others. *)
Ltac others :=
  let m := fresh "m" in let p := fresh "p" in let N := fresh "N" in
  intros m p N; blocks; cbn [live objects];
  rewrite ?(proj2 (Nat.eqb_neq _ _) N); cbn [andb]; try reflexivity.

Lemma change_id n t : change n (fun o => o) t = t.
Proof. revert n; induction t as [|o t IH]; intros [|n]; cbn [change]; f_equal; auto. Qed.

(* Making a part of an object that nothing depends on while it is not there. *)
Lemma new_file_good t s : inv t s -> good t NewFile s.
Proof.
  intros I. unfold good. cbn. apply (inv_new t s (mk_obj KFile None true None) BFile); auto; try discriminate.
  - intros p. destruct p; blocks; cbn [live objects part_live fst snd andb]; rewrite ?(i_live _ _ I), ?alive_new; reflexivity.
  - others.
  - split; reflexivity.
Qed.
Lemma new_container_good t s : inv t s -> good t NewContainer s.
Proof.
  intros I. unfold good. cbn. apply (inv_new t s (mk_obj KContainer None true None) (BContainer None 0)); auto; try discriminate.
  - intros p. destruct p; blocks; cbn [live objects part_live fst snd andb]; rewrite ?(i_live _ _ I), ?alive_new; reflexivity.
  - others.
  - split; reflexivity.
Qed.

(* A call on an object whose pointer is NULL, or of another type. *)
Lemma good_fail t c s s' : inv t s' -> perform c s = (Fail, s') -> good t c s.
Proof. intros I E. unfold good. now rewrite E. Qed.

Lemma load_cases t s n : inv t s ->
  (load n s = (Fail, s)) \/
  (exists b o, nth_error (objects s) n = Some (true, b) /\ nth_error t n = Some o /\ o_live o = true
     /\ sound (objects s) n o b /\ load n s = (Ok b, s)).
Proof.
  intros I. destruct (nth_error (objects s) n) as [[[|] b]|] eqn:E.
  - right. destruct (inv_get _ _ _ _ _ I E) as (o & T & Lv & S & _). exists b, o.
    repeat split; auto. apply load_held; [exact E|]. exact (self_live _ _ _ _ I E).
  - left. apply load_not. congruence.
  - left. apply load_not. congruence.
Qed.

Lemma freeing_cases t s n m : inv t s ->
  (freeing n m s = (Fail, s)) \/
  (exists b o, nth_error (objects s) n = Some (false, b) /\ nth_error t n = Some o /\ o_live o = false /\ o_with o = None /\ freeing n m s = (Ok None, s)) \/
  (exists b, nth_error (objects s) n = Some (true, b) /\ freeing n m s = none m s).
Proof.
  intros I. unfold freeing, held, bindM. destruct (nth_error (objects s) n) as [[[|] b]|] eqn:E.
  - right. right. exists b. auto.
  - right. left. destruct (inv_get _ _ _ _ _ I E) as (o & T & Lv & _ & W & _). exists b, o. repeat split; auto.
  - left. reflexivity.
Qed.

Lemma change_dead t n o : nth_error t n = Some o -> o_live o = false -> o_with o = None -> change n dead t = t.
Proof.
  revert n; induction t as [|x t IH]; intros [|n] T Lv W; try discriminate; cbn [change nth_error] in *.
  - assert (x = o) as -> by congruence. destruct o as [a b c d]. cbn in Lv, W. subst. reflexivity.
  - now rewrite IH.
Qed.

(* What an object that another one depends on is. *)
Definition dependable (b : body) : Prop :=
  match b with
  | BContainer (Some _) _ | BVolume _ _ _ _ | BEntry _ _ _ _ true => True
  | _ => False
  end.
Lemma dep_from t s m x n : inv t s -> nth_error t m = Some x -> o_live x = true -> o_from x = Some n ->
  exists b, nth_error (objects s) n = Some (true, b) /\ dependable b.
Proof.
  intros I T Lv F. assert (Lt : m < length (objects s)) by (rewrite <- (i_len _ _ I); apply nth_error_Some; congruence).
  destruct (nth_error (objects s) m) as [[h b]|] eqn:E; [|apply nth_error_None in E; lia].
  destruct (i_obj _ _ I m x h b T E) as (Hh & S & _). rewrite Lv in Hh. specialize (S Hh). unfold sound, is_open in S.
  destruct (o_kind x), b as [|[p|] k|io hh g fs|io hh own fs vals|io hh own fs vals|mm]; try contradiction.
  - destruct S. congruence.
  - destruct S. congruence.
  - destruct S. congruence.
  - destruct S as (_ & c & p & k & F' & O & _). assert (c = n) as -> by congruence. exists (BContainer (Some p) k). cbn. auto.
  - destruct S as (_ & v & g & F' & _ & _ & O). assert (v = n) as -> by congruence. exists (BVolume io hh g true). cbn. auto.
  - destruct S as (_ & v & F' & _ & O). assert (v = n) as -> by congruence. exists (BEntry io hh own fs true). cbn. auto.
  - destruct S as (_ & v & io & hh & g & fs & F' & _ & O). assert (v = n) as -> by congruence. exists (BVolume io hh g fs). cbn. auto.
Qed.
Lemma dep_with t s m x n : inv t s -> nth_error t m = Some x -> o_live x = true -> o_with x = Some (Some n) ->
  nth_error (objects s) n = Some (true, BFile).
Proof.
  intros I T Lv F. assert (Lt : m < length (objects s)) by (rewrite <- (i_len _ _ I); apply nth_error_Some; congruence).
  destruct (nth_error (objects s) m) as [[h b]|] eqn:E; [|apply nth_error_None in E; lia].
  destruct (i_obj _ _ I m x h b T E) as (Hh & S & _). rewrite Lv in Hh. specialize (S Hh). unfold sound, is_open in S.
  destruct (o_kind x), b as [|[p|] k|io hh g fs|io hh own fs vals|io hh own fs vals|mm]; try contradiction;
    try (destruct S; congruence).
  destruct S as (_ & [(W & _)|(f & W & _ & O)]); congruence.
Qed.

(* Nothing that is left depends on the n-th object. *)
Lemma no_dep t s n b (P : Prop) : inv t s -> nth_error (objects s) n = Some (true, b) ->
  ((forall m x, nth_error t m = Some x -> o_live x = true -> o_from x <> Some n) \/ ~ dependable b) ->
  ((forall m x, nth_error t m = Some x -> o_live x = true -> o_with x <> Some (Some n)) \/ b <> BFile) ->
  forall m x, nth_error t m = Some x -> o_live x = true -> m <> n -> depends n x -> P.
Proof.
  intros I E H1 H2 m x X Lx _ [F|W]; exfalso.
  - destruct H1 as [H|H]; [exact (H m x X Lx F)|]. destruct (dep_from _ _ _ _ _ I X Lx F) as (c & C & D).
    apply H. assert (b = c) as -> by congruence. exact D.
  - destruct H2 as [H|H]; [exact (H m x X Lx W)|]. apply H. pose proof (dep_with _ _ _ _ _ I X Lx W). congruence.
Qed.

Lemma free_file_good t s n : inv t s -> rule t (FreeFile n) -> good t (FreeFile n) s.
Proof.
  intros I R. unfold good. cbn [perform].
  destruct (freeing_cases t s n (file_free n) I) as [->|[(b & o & E & T & Lv & W & ->)|(b & E & ->)]].
  - exact I.
  - cbn [learn]. now rewrite (change_dead t n o T Lv W).
  - destruct (inv_get _ _ _ _ _ I E) as (o & T & Lv & S & _).
    unfold none, file_free. unfold bindM at 1 2. rewrite (load_held _ _ _ E (self_live _ _ _ _ I E)).
    destruct b; try exact I.
    unfold bindM. rewrite (release_ok _ _ (self_live _ _ _ _ I E)). cbn [forget retM ret objects live learn].
    apply (inv_set t s n o true BFile dead); auto; try discriminate.
    + apply (no_dep t s n BFile); auto.
    + parts I E.
    + others.
Qed.

Lemma free_attr_good t s n : inv t s -> good t (FreeAttr n) s.
Proof.
  intros I. unfold good. cbn [perform].
  destruct (freeing_cases t s n (attr_free n) I) as [->|[(b & o & E & T & Lv & W & ->)|(b & E & ->)]].
  - exact I.
  - cbn [learn]. now rewrite (change_dead t n o T Lv W).
  - destruct (inv_get _ _ _ _ _ I E) as (o & T & Lv & S & _).
    unfold none, attr_free. unfold bindM at 1 2. rewrite (load_held _ _ _ E (self_live _ _ _ _ I E)).
    destruct b as [| | | |io h own fs vals|]; try exact I.
    erewrite bind_is by (apply release_ok; rewrite (part_is _ _ _ _ _ I E); reflexivity).
    erewrite bind_is by (apply release_ok; cbn [live]; blocks; exact (self_live _ _ _ _ I E)).
    cbn [forget retM ret objects live learn].
    apply (inv_set t s n o true (BAttr io h own fs vals) dead); auto; try discriminate.
    + apply (no_dep t s n (BAttr io h own fs vals)); auto. right. discriminate.
    + parts I E.
    + others.
Qed.
Lemma free_snapshot_good t s n : inv t s -> good t (FreeSnapshot n) s.
Proof.
  intros I. unfold good. cbn [perform].
  destruct (freeing_cases t s n (snapshot_free n) I) as [->|[(b & o & E & T & Lv & W & ->)|(b & E & ->)]].
  - exact I.
  - cbn [learn]. now rewrite (change_dead t n o T Lv W).
  - destruct (inv_get _ _ _ _ _ I E) as (o & T & Lv & S & _ & K).
    unfold none, snapshot_free. unfold bindM at 1 2. rewrite (load_held _ _ _ E (self_live _ _ _ _ I E)).
    destruct b as [| | | | |q]; try exact I.
    erewrite bind_is by (apply release_ok; exact (self_live _ _ _ _ I E)).
    cbn [forget retM ret objects live learn].
    apply (inv_set t s n o true (BSnapshot q) dead); auto; try discriminate.
    + apply (no_dep t s n (BSnapshot q)); auto. right. discriminate.
    + parts I E.
    + others.
Qed.
Lemma free_entry_good t s n : inv t s -> rule t (FreeEntry n) -> good t (FreeEntry n) s.
Proof.
  intros I R. unfold good. cbn [perform].
  destruct (freeing_cases t s n (entry_free n) I) as [->|[(b & o & E & T & Lv & W & ->)|(b & E & ->)]].
  - exact I.
  - cbn [learn]. now rewrite (change_dead t n o T Lv W).
  - destruct (inv_get _ _ _ _ _ I E) as (o & T & Lv & S & _ & K).
    unfold none, entry_free. unfold bindM at 1 2. rewrite (load_held _ _ _ E (self_live _ _ _ _ I E)).
    destruct b as [| | |io h own fs vals| |]; try exact I.
    erewrite bind_is by (apply release_ok; rewrite (part_is _ _ _ _ _ I E); reflexivity).
    destruct vals.
    + erewrite bind_is by (apply release_ok; cbn [live]; blocks; rewrite (part_is _ _ _ _ _ I E); reflexivity).
      erewrite bind_is by (apply release_ok; cbn [live]; blocks; exact (self_live _ _ _ _ I E)).
      cbn [forget retM ret objects live learn].
      apply (inv_set t s n o true (BEntry io h own fs true) dead); auto; try discriminate.
      * apply (no_dep t s n (BEntry io h own fs true)); auto. right. discriminate.
      * parts I E.
      * others.
    + erewrite bind_is by reflexivity.
      erewrite bind_is by (apply release_ok; cbn [live]; blocks; exact (self_live _ _ _ _ I E)).
      cbn [forget retM ret objects live learn].
      apply (inv_set t s n o true (BEntry io h own fs false) dead); auto; try discriminate.
      * apply (no_dep t s n (BEntry io h own fs false)); auto. right. discriminate.
      * parts I E.
      * others.
Qed.
Lemma free_volume_good t s n : inv t s -> rule t (FreeVolume n) -> good t (FreeVolume n) s.
Proof.
  intros I R. unfold good. cbn [perform].
  destruct (freeing_cases t s n (volume_free n) I) as [->|[(b & o & E & T & Lv & W & ->)|(b & E & ->)]].
  - exact I.
  - cbn [learn]. now rewrite (change_dead t n o T Lv W).
  - destruct (inv_get _ _ _ _ _ I E) as (o & T & Lv & S & _ & K).
    unfold none, volume_free. unfold bindM at 1 2. rewrite (load_held _ _ _ E (self_live _ _ _ _ I E)).
    destruct b as [| |io h g fs| | |]; try exact I.
    erewrite bind_is by (apply release_ok; rewrite (part_is _ _ _ _ _ I E); reflexivity).
    destruct fs.
    + erewrite bind_is by (apply release_ok; cbn [live]; blocks; rewrite (part_is _ _ _ _ _ I E); reflexivity).
      erewrite bind_is by (apply release_ok; cbn [live]; blocks; exact (self_live _ _ _ _ I E)).
      cbn [forget retM ret objects live learn].
      apply (inv_set t s n o true (BVolume io h g true) dead); auto; try discriminate.
      * apply (no_dep t s n (BVolume io h g true)); auto. right. discriminate.
      * parts I E.
      * others.
    + erewrite bind_is by reflexivity.
      erewrite bind_is by (apply release_ok; cbn [live]; blocks; exact (self_live _ _ _ _ I E)).
      cbn [forget retM ret objects live learn].
      apply (inv_set t s n o true (BVolume io h g false) dead); auto; try discriminate.
      * apply (no_dep t s n (BVolume io h g false)); auto. right. discriminate.
      * parts I E.
      * others.
Qed.

(* The file IO handle of an opened container is there. *)
Lemma handle_live t s c p k : inv t s -> is_open (objects s) c p k -> live s (op_handle p) = true.
Proof.
  intros I E. destruct (inv_get _ _ _ _ _ I E) as (o & T & Lv & S & _). specialize (S eq_refl).
  unfold sound in S. destruct (o_kind o); try contradiction.
  destruct S as (_ & [(_ & ->)|(f & _ & -> & F)]); cbn [op_handle].
  - rewrite (part_is _ _ _ _ _ I E). unfold part_live. cbn [snd fst andb op_mine]. apply Nat.eqb_refl.
  - exact (self_live _ _ _ _ I F).
Qed.
Lemma meta_live t s c p k : inv t s -> is_open (objects s) c p k ->
  live s (c, Io) = true /\ live s (c, Meta k) = true /\ live s (c, Bag k) = true.
Proof.
  intros I E. rewrite !(part_is _ _ _ _ _ I E). unfold part_live. cbn [snd fst andb]. now rewrite Nat.eqb_refl.
Qed.

Lemma close_ok t s c p k : inv t s -> none_from t c -> is_open (objects s) c p k ->
  exists s1, container_close c s = (Ok tt, s1) /\ inv (change c (with_ None) t) s1
             /\ nth_error (objects s1) c = Some (true, BContainer None k).
Proof.
  intros I R E. destruct (inv_get _ _ _ _ _ I E) as (o & T & Lv & S & _). specialize (S eq_refl).
  pose proof (handle_live _ _ _ _ _ I E) as Hh. destruct (meta_live _ _ _ _ _ I E) as (Hi & Hm & Hb).
  unfold container_close. erewrite bind_is by exact (load_held _ _ _ E (self_live _ _ _ _ I E)); cbv beta iota.
  erewrite bind_is by exact (touch_ok _ _ Hh); cbv beta iota.
  unfold sound in S. destruct (o_kind o) eqn:K; try contradiction.
  assert (D : forall m x, nth_error t m = Some x -> o_live x = true -> m <> c -> depends c x ->
                same (Some (true, BContainer (Some p) k)) (Some (true, BContainer None k))).
  { apply (no_dep t s c (BContainer (Some p) k)); auto. right. discriminate. }
  destruct S as (F0 & [(W & Q)|(f & W & Q & F)]); subst p; cbn [op_mine op_handle] in *.
  - erewrite bind_is by exact (release_ok _ _ Hh); cbv beta iota.
    erewrite bind_is by (apply touch_ok; cbn [live]; blocks; exact Hi); cbv beta iota.
    erewrite bind_is by (apply release_ok; cbn [live]; blocks; exact Hm); cbv beta iota.
    erewrite bind_is by (apply release_ok; cbn [live]; blocks; exact Hb); cbv beta iota.
    unfold store. cbn [objects live]. eexists. split; [reflexivity|]. split.
    + apply (inv_set t s c o true (BContainer (Some (mk_opening (c, Handle k) true)) k) (with_ None)); auto; try discriminate.
      * parts I E.
      * others.
      * intros _. unfold sound, with_. cbn [o_kind o_from o_with]. rewrite K. auto.
    + cbn [objects]. rewrite nth_set_nth, Nat.eqb_refl. now rewrite E.
  - erewrite bind_is by reflexivity; cbv beta iota.
    erewrite bind_is by exact (touch_ok _ _ Hi); cbv beta iota.
    erewrite bind_is by exact (release_ok _ _ Hm); cbv beta iota.
    erewrite bind_is by (apply release_ok; cbn [live]; blocks; exact Hb); cbv beta iota.
    unfold store. cbn [objects live]. eexists. split; [reflexivity|]. split.
    + apply (inv_set t s c o true (BContainer (Some (mk_opening (f, Self) false)) k) (with_ None)); auto; try discriminate.
      * parts I E.
      * others.
      * intros _. unfold sound, with_. cbn [o_kind o_from o_with]. rewrite K. auto.
    + cbn [objects]. rewrite nth_set_nth, Nat.eqb_refl. now rewrite E.
Qed.

Lemma close_good t s c : inv t s -> rule t (Close c) -> good t (Close c) s.
Proof.
  intros I R. unfold good. cbn [perform]. unfold none.
  destruct (load_cases t s c I) as [H|(b & o & E & T & Lv & S & H)].
  - unfold container_close. erewrite bind_fail by (erewrite bind_fail by exact H; reflexivity). exact I.
  - destruct b as [|[p|] k| | | |];
      try (unfold container_close; erewrite bind_fail by (erewrite bind_is by exact H; reflexivity); exact I); cbv beta iota.
    destruct (close_ok t s c p k I R E) as (s1 & C & I1 & _). erewrite bind_is by exact C. exact I1; cbv beta iota.
Qed.

Lemma change_change n f g t : change n f (change n g t) = change n (fun o => f (g o)) t.
Proof. revert n; induction t as [|o t IH]; intros [|n]; cbn [change]; f_equal; auto. Qed.
Lemma change_ext n f g t : (forall o, f o = g o) -> change n f t = change n g t.
Proof. intros E. revert n; induction t as [|o t IH]; intros [|n]; cbn [change]; f_equal; auto. Qed.

Lemma free_container_good t s c : inv t s -> rule t (FreeContainer c) -> good t (FreeContainer c) s.
Proof.
  intros I R. unfold good. cbn [perform].
  destruct (freeing_cases t s c (container_free c) I) as [->|[(b & o & E & T & Lv & W & ->)|(b & E & ->)]].
  - exact I.
  - cbn [learn]. now rewrite (change_dead t c o T Lv W).
  - unfold none, container_free. unfold bindM at 1 2. rewrite (load_held _ _ _ E (self_live _ _ _ _ I E)).
    destruct b as [|op k| | | |]; try exact I.
    assert (exists t1 s1, (match op with Some _ => container_close c | None => ret tt end) s = (Ok tt, s1)
              /\ inv t1 s1 /\ nth_error (objects s1) c = Some (true, BContainer None k) /\ change c dead t1 = change c dead t)
      as (t1 & s1 & C & I1 & E1 & Q).
    { destruct op as [p|].
      - destruct (close_ok t s c p k I R E) as (s1 & C & I1 & E1). exists (change c (with_ None) t), s1.
        split; [exact C|]. split; [exact I1|]. split; [exact E1|]. rewrite change_change. apply change_ext. reflexivity.
      - exists t, s. auto. }
    rewrite (bind_is _ _ _ _ _ C); cbv beta iota.
    erewrite bind_is by (apply release_ok; rewrite (part_is _ _ _ _ _ I1 E1); reflexivity); cbv beta iota.
    erewrite bind_is by (apply release_ok; cbn [live]; blocks; exact (self_live _ _ _ _ I1 E1)); cbv beta iota.
    cbn [forget retM ret objects live learn]. rewrite <- Q.
    destruct (inv_get _ _ _ _ _ I1 E1) as (o & T & Lv & S & _ & K).
    apply (inv_set t1 s1 c o true (BContainer None k) dead); auto; try discriminate.
    + apply (no_dep t1 s1 c (BContainer None k)); auto. right. discriminate.
    + parts I1 E1.
    + others.
Qed.

Lemma open_name_good t s c ok : inv t s -> good t (OpenName c ok) s.
Proof.
  intros I. unfold good. cbn [perform]. unfold none.
  destruct (load_cases t s c I) as [H|(b & o & E & T & Lv & Sd & H)].
  - unfold container_open. erewrite bind_fail by (erewrite bind_fail by exact H; reflexivity). exact I.
  - destruct b as [|op k| | | |];
      try (unfold container_open; erewrite bind_fail by (erewrite bind_is by exact H; reflexivity); exact I); cbv beta iota.
    unfold container_open. unfold bindM at 1. erewrite bind_is by exact H; cbv beta iota.
    assert (Hi : live s (c, Io) = true) by (rewrite (part_is _ _ _ _ _ I E); destruct op; reflexivity).
    assert (B : inv t (mk_state (objects s) (upd (upd (live s) (c, Handle (Datatypes.S k)) true) (c, Handle (Datatypes.S k)) false))).
    { destruct I as [IL IV IO]. split; cbn [objects live]; auto. intros [m p]. rewrite <- IV.
      unfold upd. destruct (block_eqb (m, p) (c, Handle (Datatypes.S k))) eqn:Q; [|reflexivity].
      rewrite IV. unfold block_eqb in Q. cbn [fst snd] in Q. apply andb_true_iff in Q. destruct Q as [Q1 Q2].
      apply Nat.eqb_eq in Q1. subst m. unfold alive. cbn [fst]. rewrite E. cbn [snd].
      destruct p as [| |j| | | | | |]; try discriminate Q2. cbn [part_eqb] in Q2. apply Nat.eqb_eq in Q2. subst j.
      unfold part_live. cbn [fst snd andb]. destruct op; [|reflexivity].
      rewrite (proj2 (Nat.eqb_neq (Datatypes.S k) k)) by lia. now rewrite andb_false_r. }
    destruct op as [p|].
    + erewrite bind_is by reflexivity; cbv beta iota. erewrite bind_is by (apply release_ok; cbn [live]; blocks; reflexivity).
      cbn [fail retM objects live]. exact B.
    + destruct ok.
      * erewrite bind_is by reflexivity. unfold container_read. cbn [op_handle]; cbv beta iota.
        erewrite bind_is by (apply touch_all_ok; intros x [<-|[<-|[]]]; cbn [live]; blocks; [exact Hi|reflexivity]); cbv beta iota.
        cbn [alloc bindM store objects live ret retM learn].
        apply (inv_set t s c o true (BContainer None k) (with_ (Some None))); auto; try discriminate.
        -- apply (no_dep t s c (BContainer None k)); auto. right. discriminate.
        -- parts I E.
        -- others.
        -- intros _. unfold sound in *. unfold with_. cbn [o_kind o_from o_with]. destruct (o_kind o); try contradiction.
           destruct Sd. auto.
      * erewrite bind_is by reflexivity; cbv beta iota.
        erewrite bind_is by (apply touch_all_ok; intros x [<-|[<-|[]]]; cbn [live]; blocks; [exact Hi|reflexivity]); cbv beta iota.
        erewrite bind_is by (apply release_ok; cbn [live]; blocks; reflexivity); cbv beta iota.
        cbn [fail retM objects live]. exact B.
Qed.
Lemma open_file_good t s c f ok : inv t s -> good t (OpenFile c f ok) s.
Proof.
  intros I. unfold good. cbn [perform]. unfold none.
  destruct (load_cases t s c I) as [H|(b & o & E & T & Lv & Sd & H)].
  - unfold container_open_file. erewrite bind_fail by (erewrite bind_fail by exact H; reflexivity). exact I.
  - destruct b as [|[p|] k| | | |];
      try (unfold container_open_file; erewrite bind_fail by (erewrite bind_is by exact H; reflexivity); exact I); cbv beta iota.
    unfold container_open_file. unfold bindM at 1. erewrite bind_is by exact H; cbv beta iota.
    destruct (load_cases t s f I) as [H'|(b & o' & E' & T' & Lv' & S' & H')].
    + erewrite bind_fail by exact H'. exact I.
    + erewrite bind_is by exact H'. destruct b as [| | | | |]; try exact I; cbv beta iota.
      unfold container_read. cbn [op_handle].
      assert (Hi : live s (c, Io) = true) by (rewrite (part_is _ _ _ _ _ I E); reflexivity).
      erewrite bind_is by (apply touch_all_ok; intros x [<-|[<-|[]]]; [exact Hi|exact (self_live _ _ _ _ I E')]); cbv beta iota.
      destruct ok; [|exact I].
      cbn [alloc bindM store objects live ret retM learn].
      assert (N : f <> c) by congruence.
      apply (inv_set t s c o true (BContainer None k) (with_ (Some (Some f)))); auto; try discriminate.
      * apply (no_dep t s c (BContainer None k)); auto. right. discriminate.
      * parts I E.
      * others.
      * intros _. unfold sound in *. unfold with_. cbn [o_kind o_from o_with]. destruct (o_kind o); try contradiction.
        destruct Sd as (F0 & _). split; [exact F0|]. right. exists f. repeat split; auto.
        rewrite nth_set_nth. now rewrite (proj2 (Nat.eqb_neq f c) N).
Qed.

(* ---- the pointers of the objects that are left ---- *)
Lemma volume_live t s v io h g fs : inv t s -> nth_error (objects s) v = Some (true, BVolume io h g fs) ->
  live s io = true /\ live s h = true /\ live s g = true /\ live s (v, Own) = true /\ live s (v, Fs) = fs.
Proof.
  intros I E. rewrite !(part_is _ _ v _ _ I E). destruct (inv_get _ _ _ _ _ I E) as (o & T & Lv & S & _).
  specialize (S eq_refl). unfold sound in S. destruct (o_kind o); try contradiction.
  destruct S as (_ & c & p & k & _ & O & -> & -> & ->). destruct (meta_live _ _ _ _ _ I O) as (H1 & _ & H2).
  repeat split; auto. exact (handle_live _ _ _ _ _ I O).
Qed.
Lemma entry_live t s e io h own fs vals : inv t s -> nth_error (objects s) e = Some (true, BEntry io h own fs vals) ->
  live s io = true /\ live s h = true /\ live s own = true /\ live s fs = true /\ live s (e, Own) = true /\ live s (e, Vals) = vals.
Proof.
  intros I E. rewrite !(part_is _ _ e _ _ I E). destruct (inv_get _ _ _ _ _ I E) as (o & T & Lv & S & _).
  specialize (S eq_refl). unfold sound in S. destruct (o_kind o); try contradiction.
  destruct S as (_ & v & g & _ & -> & -> & O). destruct (volume_live _ _ _ _ _ _ _ I O) as (H1 & H2 & _ & H3 & H4).
  repeat split; auto.
Qed.

Lemma inv_same t s n o b b' lv :
  inv t s -> nth_error t n = Some o -> nth_error (objects s) n = Some (true, b) ->
  (forall m x, nth_error t m = Some x -> o_live x = true -> m <> n -> depends n x ->
     same (Some (true, b)) (Some (true, b'))) ->
  (forall p, lv (n, p) = part_live (true, b') p) ->
  (forall m p, m <> n -> lv (m, p) = live s (m, p)) ->
  o_live o = true ->
  sound (set_nth n (true, b') (objects s)) n o b' ->
  (forall m, b' = BSnapshot m -> o_kind o = KSnapshot) ->
  inv t (mk_state (set_nth n (true, b') (objects s)) lv).
Proof.
  intros. rewrite <- (change_id n t). apply (inv_set t s n o true b (fun o => o)); auto. discriminate.
Qed.

Lemma volume_grow_ok t s v io h g fs : inv t s -> nth_error (objects s) v = Some (true, BVolume io h g fs) ->
  exists s1, volume_grow v (BVolume io h g fs) s = (Ok tt, s1) /\ inv t s1
    /\ nth_error (objects s1) v = Some (true, BVolume io h g true) /\ length (objects s1) = length (objects s).
Proof.
  intros I E. destruct (volume_live _ _ _ _ _ _ _ I E) as (_ & _ & _ & _ & H). unfold volume_grow. destruct fs.
  - exists s. rewrite (touch_ok _ _ H). auto.
  - cbn [alloc bindM store objects live]. eexists. split; [reflexivity|].
    destruct (inv_get _ _ _ _ _ I E) as (o & T & Lv & Sd & _). specialize (Sd eq_refl).
    split; [|cbn [objects]; rewrite nth_set_nth, Nat.eqb_refl, E, length_set_nth; auto].
    apply (inv_same t s v o (BVolume io h g false)); auto; try discriminate.
    + intros _ _ _ _ _ _. right. exists io, h, g. auto.
    + parts I E.
    + others.
    + unfold sound in *. destruct (o_kind o); try contradiction.
      destruct Sd as (W & c & p & k & F & O & R). split; [exact W|]. exists c, p, k. split; [exact F|]. split; [|exact R].
      unfold is_open in *. rewrite nth_set_nth. destruct (Nat.eqb_spec c v) as [->|N]; [congruence|exact O].
Qed.

Lemma entry_use_ok t s e io h own fs vals grow : inv t s -> nth_error (objects s) e = Some (true, BEntry io h own fs vals) ->
  exists s1, entry_use e (BEntry io h own fs vals) grow s = (Ok tt, s1) /\ inv t s1
    /\ nth_error (objects s1) e = Some (true, BEntry io h own fs (vals || grow)) /\ length (objects s1) = length (objects s).
Proof.
  intros I E. destruct (entry_live _ _ _ _ _ _ _ _ I E) as (H1 & H2 & H3 & H4 & H5 & H). unfold entry_use.
  erewrite bind_is by (apply touch_all_ok; intros x [<-|[<-|[<-|[<-|[<-|[]]]]]]; assumption). cbv beta iota.
  destruct vals.
  - exists s. rewrite (touch_ok _ _ H). auto.
  - destruct grow; [|exists s; auto].
    cbn [alloc bindM store objects live orb]. eexists. split; [reflexivity|].
    destruct (inv_get _ _ _ _ _ I E) as (o & T & Lv & Sd & _). specialize (Sd eq_refl).
    split; [|cbn [objects]; rewrite nth_set_nth, Nat.eqb_refl, E, length_set_nth; auto].
    apply (inv_same t s e o (BEntry io h own fs false)); auto; try discriminate.
    + apply (no_dep t s e (BEntry io h own fs false)); auto. right. discriminate.
    + parts I E.
    + others.
    + unfold sound in *. destruct (o_kind o); try contradiction.
      destruct Sd as (W & c & g & F & Q1 & Q2 & O). split; [exact W|]. exists c, g. split; [exact F|]. split; [exact Q1|]. split; [exact Q2|].
      rewrite nth_set_nth. destruct (Nat.eqb_spec c e) as [->|N]; [congruence|exact O].
Qed.

(* A new object with one part. *)
Lemma new_ok t s o b q : inv t s -> o_live o = true ->
  (forall p, part_live (true, b) p = (match p with Self => true | _ => part_eqb p q end)) ->
  sound (objects s) (length (objects s)) o b ->
  (forall m, b = BSnapshot m -> o_kind o = KSnapshot) ->
  exists s1, bindM (create (fun _ => b)) (fun n => bindM (alloc (n, q)) (fun _ => ret n)) s = (Ok (length (objects s)), s1)
             /\ inv (t ++ [o]) s1.
Proof.
  intros I Lo P Sd K. cbn [create bindM alloc ret retM objects live]. eexists. split; [reflexivity|].
  apply inv_new; auto.
  - intros p. rewrite P. unfold upd, block_eqb. cbn [fst snd]. rewrite Nat.eqb_refl, (i_live _ _ I), alive_new.
    cbn [andb]. destruct p; cbn [part_eqb]; destruct q; cbn [part_eqb]; try reflexivity;
    repeat match goal with |- context [Nat.eqb ?a ?b] => destruct (Nat.eqb a b) end; reflexivity.
  - others.
Qed.

Lemma get_volume_good t s c ok : inv t s -> good t (GetVolume c ok) s.
Proof.
  intros I. unfold good. cbn [perform]. unfold some.
  destruct (load_cases t s c I) as [H|(b & o & E & T & Lv & Sd & H)].
  - unfold get_volume. erewrite bind_fail by (erewrite bind_fail by exact H; reflexivity). exact I.
  - destruct b as [|[p|] k| | | |];
      try (unfold get_volume; erewrite bind_fail by (erewrite bind_is by exact H; reflexivity); exact I).
    unfold get_volume. unfold bindM at 1. erewrite bind_is by exact H. cbv beta iota.
    destruct (meta_live _ _ _ _ _ I E) as (Hi & Hm & Hb).
    erewrite bind_is by (apply touch_all_ok; intros x [<-|[<-|[<-|[<-|[]]]]]; auto; exact (handle_live _ _ _ _ _ I E)).
    cbv beta iota. destruct ok; [|exact I].
    destruct (new_ok t s (mk_obj KVolume (Some c) true None) (BVolume (c, Io) (op_handle p) (c, Bag k) false) Own I) as (s1 & -> & I1);
      auto; try discriminate.
    + intros q; destruct q; reflexivity.
    + cbn. split; [reflexivity|]. exists c, p, k. auto.
Qed.
Lemma get_entry_good t s v r : inv t s -> good t (GetEntry v r) s.
Proof.
  intros I. unfold good. cbn [perform]. unfold some.
  destruct (load_cases t s v I) as [H|(b & o & E & T & Lv & Sd & H)].
  - unfold get_entry. erewrite bind_fail by (erewrite bind_fail by exact H; reflexivity). exact I.
  - destruct b as [|? ?|io h g fs| | |];
      try (unfold get_entry; erewrite bind_fail by (erewrite bind_is by exact H; reflexivity); exact I).
    unfold get_entry. unfold bindM at 1. erewrite bind_is by exact H. cbv beta iota.
    destruct (volume_live _ _ _ _ _ _ _ I E) as (H1 & H2 & H3 & H4 & _).
    erewrite bind_is by (apply touch_all_ok; intros x [<-|[<-|[<-|[<-|[]]]]]; assumption).
    cbv beta iota. destruct r; [exact I| |];
      destruct (volume_grow_ok t s v io h g fs I E) as (s1 & G & I1 & E1 & Ln); erewrite bind_is by exact G; cbv beta iota; [exact I1|].
    destruct (new_ok t s1 (mk_obj KEntry (Some v) true None) (BEntry io h (v, Own) (v, Fs) false) Own I1) as (s2 & -> & I2);
      auto; try discriminate.
    + intros q; destruct q; reflexivity.
    + cbn. split; [reflexivity|]. exists v, g. auto.
Qed.
Lemma get_sub_good t s e ok : inv t s -> good t (GetSub e ok) s.
Proof.
  intros I. unfold good. cbn [perform]. unfold some.
  destruct (load_cases t s e I) as [H|(b & o & E & T & Lv & Sd & H)].
  - unfold get_sub. erewrite bind_fail by (erewrite bind_fail by exact H; reflexivity). exact I.
  - destruct b as [|? ?| |io h own fs vals| |];
      try (unfold get_sub; erewrite bind_fail by (erewrite bind_is by exact H; reflexivity); exact I).
    unfold get_sub. unfold bindM at 1. erewrite bind_is by exact H. cbv beta iota.
    destruct (entry_use_ok t s e io h own fs vals false I E) as (s1 & G & I1 & E1 & Ln).
    erewrite bind_is by exact G. cbv beta iota. destruct ok; [|exact I1].
    destruct (inv_get _ _ _ _ _ I1 E1) as (o' & T' & Lv' & Sd' & _). specialize (Sd' eq_refl).
    assert (o' = o) as -> by congruence.
    destruct (new_ok t s1 (mk_obj KEntry (o_from o) true None) (BEntry io h own fs false) Own I1) as (s2 & -> & I2);
      auto; try discriminate.
    + intros q; destruct q; reflexivity.
    + unfold sound in *. cbn [o_kind o_from o_with]. destruct (o_kind o); try contradiction. destruct Sd' as (_ & R). auto.
    + cbn [ret retM learn]. unfold from_of. now rewrite T.
Qed.
Lemma get_attr_good t s e r : inv t s -> good t (GetAttr e r) s.
Proof.
  intros I. unfold good. cbn [perform]. unfold some.
  destruct (load_cases t s e I) as [H|(b & o & E & T & Lv & Sd & H)].
  - unfold get_attr. erewrite bind_fail by (erewrite bind_fail by exact H; reflexivity). exact I.
  - destruct b as [|? ?| |io h own fs vals| |];
      try (unfold get_attr; erewrite bind_fail by (erewrite bind_is by exact H; reflexivity); exact I).
    unfold get_attr. unfold bindM at 1. erewrite bind_is by exact H. cbv beta iota.
    destruct r.
    + destruct (entry_use_ok t s e io h own fs vals false I E) as (s1 & G & I1 & E1 & Ln).
      erewrite bind_is by exact G. exact I1.
    + destruct (entry_use_ok t s e io h own fs vals true I E) as (s1 & G & I1 & E1 & Ln).
      erewrite bind_is by exact G. exact I1.
    + destruct (entry_use_ok t s e io h own fs vals true I E) as (s1 & G & I1 & E1 & Ln).
      erewrite bind_is by exact G. cbv beta iota. rewrite orb_true_r in E1.
      destruct (new_ok t s1 (mk_obj KAttr (Some e) true None) (BAttr io h own fs (e, Vals)) Own I1) as (s2 & -> & I2);
        auto; try discriminate.
      * intros q; destruct q; reflexivity.
      * cbn. split; [reflexivity|]. exists e. auto.
Qed.
Lemma get_snapshot_good t s v ok : inv t s -> good t (GetSnapshot v ok) s.
Proof.
  intros I. unfold good. cbn [perform]. unfold some.
  destruct (load_cases t s v I) as [H|(b & o & E & T & Lv & Sd & H)].
  - unfold get_snapshot. erewrite bind_fail by (erewrite bind_fail by exact H; reflexivity). exact I.
  - destruct b as [|? ?|io h g fs| | |];
      try (unfold get_snapshot; erewrite bind_fail by (erewrite bind_is by exact H; reflexivity); exact I).
    unfold get_snapshot. unfold bindM at 1. erewrite bind_is by exact H. cbv beta iota.
    destruct (volume_live _ _ _ _ _ _ _ I E) as (H1 & H2 & H3 & H4 & _).
    erewrite bind_is by (apply touch_all_ok; intros x [<-|[<-|[<-|[]]]]; assumption).
    cbv beta iota. destruct ok; [|exact I].
    destruct (new_ok t s (mk_obj KSnapshot (Some v) true None) (BSnapshot (v, Own)) Super I) as (s2 & -> & I2);
      auto; try discriminate.
    + intros q; destruct q; reflexivity.
    + cbn. split; [reflexivity|]. exists v, io, h, g, fs. auto.
Qed.
Lemma use_good t s x r : inv t s -> good t (Use x r) s.
Proof.
  intros I. unfold good. cbn [perform]. unfold none, use.
  destruct (load_cases t s x I) as [H|(b & o & E & T & Lv & Sd & H)].
  - erewrite bind_fail by (erewrite bind_fail by exact H; reflexivity). exact I.
  - unfold bindM at 1. erewrite bind_is by exact H. cbv beta iota.
    destruct b as [|[p|] k|io h g fs|io h own fs vals|io h own fs vals|m].
    + exact I.
    + destruct (meta_live _ _ _ _ _ I E) as (Hi & Hm & Hb).
      rewrite touch_all_ok; [exact I|]. intros y [<-|[<-|[<-|[<-|[]]]]]; auto. exact (handle_live _ _ _ _ _ I E).
    + rewrite touch_ok; [exact I|]. rewrite (part_is _ _ _ _ _ I E). reflexivity.
    + destruct (volume_live _ _ _ _ _ _ _ I E) as (H1 & H2 & H3 & H4 & H5).
      erewrite bind_is by (apply touch_all_ok; intros y [<-|[<-|[<-|[<-|[]]]]]; assumption). cbv beta iota.
      destruct fs; [rewrite (touch_ok _ _ H5); exact I|]. destruct r; [|exact I].
      destruct (volume_grow_ok t s x io h g false I E) as (s1 & -> & I1 & _). exact I1.
    + destruct (entry_use_ok t s x io h own fs vals r I E) as (s1 & -> & I1 & _). exact I1.
    + unfold sound in Sd. destruct (o_kind o); try contradiction. destruct Sd as (_ & e & F & -> & O).
      destruct (entry_live _ _ _ _ _ _ _ _ I O) as (H1 & H2 & H3 & H4 & _ & H6).
      rewrite touch_all_ok; [exact I|].
      intros y [<-|[<-|[<-|[<-|[<-|[<-|[]]]]]]]; try assumption. rewrite (part_is _ _ _ _ _ I E). reflexivity.
    + unfold sound in Sd. destruct (o_kind o); try contradiction. destruct Sd as (_ & v & io & h & g & fs & F & -> & O).
      destruct (volume_live _ _ _ _ _ _ _ I O) as (_ & _ & _ & H4 & _).
      rewrite touch_all_ok; [exact I|].
      intros y [<-|[<-|[]]]; [assumption|]. rewrite (part_is _ _ _ _ _ I E). reflexivity.
Qed.

Lemma perform_good t s c : inv t s -> rule t c -> good t c s.
Proof.
  intros I R. destruct c.
  - exact (new_file_good t s I).
  - exact (free_file_good t s f I R).
  - exact (new_container_good t s I).
  - exact (open_name_good t s c ok I).
  - exact (open_file_good t s c f ok I).
  - exact (close_good t s c I R).
  - exact (free_container_good t s c I R).
  - exact (get_volume_good t s c ok I).
  - exact (free_volume_good t s v I R).
  - exact (get_entry_good t s v o I).
  - exact (get_sub_good t s e ok I).
  - exact (free_entry_good t s e I R).
  - exact (get_attr_good t s e o I).
  - exact (free_attr_good t s a I).
  - exact (get_snapshot_good t s v ok I).
  - exact (free_snapshot_good t s p I).
  - exact (use_good t s x grow I).
Qed.

Lemma run_good cs : forall t s, inv t s -> obeys t (fst (run s cs)) ->
  (forall c a, In (c, a) (fst (run s cs)) -> a <> Oob /\ a <> Fuel)
  /\ inv (fold_left (fun t x => learn t (fst x) (snd x)) (fst (run s cs)) t) (snd (run s cs)).
Proof.
  induction cs as [|c cs IH]; intros t s I O; cbn [run] in *.
  - split; [intros ? ? []|exact I].
  - assert (R : rule t c).
    { destruct (perform c s) as [[v| | |] s1]; try (destruct (run s1 cs)); cbn [fst obeys] in O; apply O. }
    pose proof (perform_good t s c I R) as G. unfold good in G.
    destruct (perform c s) as [a s1]. destruct a as [v| | |]; try contradiction.
    + specialize (IH (learn t c (Ok v)) s1 G). destruct (run s1 cs) as [tr s2]. cbn [fst snd] in *. cbn [obeys] in O.
      destruct (IH (proj2 O)) as [A B]. split.
      * intros c' a' [Q|Q]; [injection Q as _ <-; split; discriminate|exact (A c' a' Q)].
      * cbn [fold_left fst snd]. exact B.
    + specialize (IH (learn t c Fail) s1 G). destruct (run s1 cs) as [tr s2]. cbn [fst snd] in *. cbn [obeys] in O.
      destruct (IH (proj2 O)) as [A B]. split.
      * intros c' a' [Q|Q]; [injection Q as _ <-; split; discriminate|exact (A c' a' Q)].
      * cbn [fold_left fst snd]. exact B.
Qed.
