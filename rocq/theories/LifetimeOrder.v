(* At the end of a program the objects may be freed in any order: the free functions and
   the close of a container follow no pointer to another object than the handle that the
   program gave. *)
From Coq Require Import Bool List Arith Lia.
From Verif Require Import Base Walk FileEntry Lifetime LifetimeSpec LifetimeProofs.
Import ListNotations.
Local Open Scope nat_scope.

(* The blocks are still determined by the objects; of the pointers only those to the
   file IO handles are known to lead to something. *)
Record winv (t : table) (s : state) : Prop := {
  w_len : length t = length (objects s);
  w_live : forall b, live s b = alive (objects s) b;
  w_obj : forall n o h b, nth_error t n = Some o -> nth_error (objects s) n = Some (h, b) ->
    h = o_live o /\ (h = false -> o_with o = None) /\ (forall m, b = BSnapshot m -> o_kind o = KSnapshot);
  w_open : forall c p k, is_open (objects s) c p k ->
    p = mk_opening (c, Handle k) true \/ exists f, p = mk_opening (f, Self) false /\ nth_error (objects s) f = Some (true, BFile)
}.

Lemma inv_weak t s : inv t s -> winv t s.
Proof.
  intros I. split.
  - exact (i_len _ _ I).
  - exact (i_live _ _ I).
  - intros n o h b T E. destruct (i_obj _ _ I n o h b T E) as (H1 & _ & H2 & H3). auto.
  - intros c p k E. destruct (inv_get _ _ _ _ _ I E) as (o & _ & _ & S & _). specialize (S eq_refl). unfold sound in S.
    destruct (o_kind o); try contradiction. destruct S as (_ & [(_ & S)|(f & _ & S & F)]); eauto.
Qed.

Lemma w_get t s n h b : winv t s -> nth_error (objects s) n = Some (h, b) ->
  exists o, nth_error t n = Some o /\ h = o_live o /\ (h = false -> o_with o = None) /\ (forall m, b = BSnapshot m -> o_kind o = KSnapshot).
Proof.
  intros I E. destruct (nth_error t n) as [o|] eqn:T.
  - exists o. split; [reflexivity|]. exact (w_obj _ _ I n o h b T E).
  - exfalso. apply nth_error_None in T. rewrite (w_len _ _ I) in T.
    assert (n < length (objects s)) by (apply nth_error_Some; congruence). lia.
Qed.
Lemma w_self t s n b : winv t s -> nth_error (objects s) n = Some (true, b) -> live s (n, Self) = true.
Proof.
  intros I E. rewrite (w_live _ _ I). unfold alive. cbn [fst]. rewrite E. unfold part_live. cbn [fst snd].
  now destruct b as [|[p|] k| | | |].
Qed.
Lemma w_part t s n x p : winv t s -> nth_error (objects s) n = Some x -> live s (n, p) = part_live x p.
Proof. intros I E. rewrite (w_live _ _ I). unfold alive. cbn [fst snd]. now rewrite E. Qed.

Lemma winv_set t s n o h b f h' b' lv :
  winv t s -> nth_error t n = Some o -> nth_error (objects s) n = Some (h, b) ->
  b <> BFile -> (forall p k, b' <> BContainer (Some p) k \/ h' = false) ->
  (forall p, lv (n, p) = part_live (h', b') p) ->
  (forall m p, m <> n -> lv (m, p) = live s (m, p)) ->
  h' = o_live (f o) -> (h' = false -> o_with (f o) = None) -> (forall m, b' = BSnapshot m -> o_kind (f o) = KSnapshot) ->
  winv (change n f t) (mk_state (set_nth n (h', b') (objects s)) lv).
Proof.
  intros I T E Nf Nc L1 L2 H1 H2 H3. split; cbn [objects live].
  - rewrite length_change, length_set_nth. exact (w_len _ _ I).
  - intros [m p]. rewrite alive_set. cbn [fst snd]. destruct (Nat.eqb_spec m n) as [->|N].
    + rewrite E. apply L1.
    + rewrite L2 by exact N. apply (w_live _ _ I).
  - intros m x y c X Y. rewrite nth_change in X. rewrite nth_set_nth in Y.
    destruct (Nat.eqb_spec m n) as [->|N]; [|exact (w_obj _ _ I m x y c X Y)].
    rewrite T in X. rewrite E in Y. cbn [option_map] in X.
    assert (x = f o) as -> by congruence. assert (y = h') as -> by congruence. assert (c = b') as -> by congruence. auto.
  - intros c p k O. unfold is_open in O. rewrite nth_set_nth in O. destruct (Nat.eqb_spec c n) as [->|N].
    + exfalso. rewrite E in O. destruct (Nc p k) as [Q|Q]; congruence.
    + destruct (w_open _ _ I c p k O) as [Q|(g & Q & G)]; [left; exact Q|right]. exists g. split; [exact Q|].
      rewrite nth_set_nth. destruct (Nat.eqb_spec g n) as [->|Ng]; [|exact G]. exfalso. congruence.
Qed.

Definition wgood (t : table) (c : call) (s : state) : Prop :=
  match perform c s with
  | (Oob, _) | (Fuel, _) => False
  | (a, s') => winv (learn t c a) s'
  end.

Ltac wparts I E :=
  let p := fresh "p" in
  intros p; destruct p; blocks; cbn [live objects]; rewrite ?(w_part _ _ _ _ _ I E);
  unfold part_live; cbn [fst snd andb op_mine op_handle];
  repeat match goal with |- context [Nat.eqb ?a ?b] => destruct (Nat.eqb_spec a b); subst end;
  try reflexivity; try lia.

Lemma w_freeing t s n m : winv t s ->
  (freeing n m s = (Fail, s)) \/
  (exists b o, nth_error (objects s) n = Some (false, b) /\ nth_error t n = Some o /\ o_live o = false /\ o_with o = None /\ freeing n m s = (Ok None, s)) \/
  (exists b, nth_error (objects s) n = Some (true, b) /\ freeing n m s = none m s).
Proof.
  intros I. unfold freeing, held, bindM. destruct (nth_error (objects s) n) as [[[|] b]|] eqn:E.
  - right. right. exists b. auto.
  - right. left. destruct (w_get _ _ _ _ _ I E) as (o & T & Lv & W & _). exists b, o. repeat split; auto.
  - left. reflexivity.
Qed.

Lemma w_free_attr t s n : winv t s -> wgood t (FreeAttr n) s.
Proof.
  intros I. unfold wgood. cbn [perform].
  destruct (w_freeing t s n (attr_free n) I) as [->|[(b & o & E & T & Lv & W & ->)|(b & E & ->)]].
  - exact I.
  - cbn [learn]. now rewrite (change_dead t n o T Lv W).
  - destruct (w_get _ _ _ _ _ I E) as (o & T & Lv & _).
    unfold none, attr_free. unfold bindM at 1 2. rewrite (load_held _ _ _ E (w_self _ _ _ _ I E)).
    destruct b as [| | | |io h own fs vals|]; try exact I.
    erewrite bind_is by (apply release_ok; rewrite (w_part _ _ _ _ _ I E); reflexivity).
    erewrite bind_is by (apply release_ok; cbn [live]; blocks; exact (w_self _ _ _ _ I E)).
    cbn [forget retM ret objects live learn].
    apply (winv_set t s n o true (BAttr io h own fs vals) dead); auto; try discriminate.
    + wparts I E.
    + others.
Qed.
Lemma w_free_snapshot t s n : winv t s -> wgood t (FreeSnapshot n) s.
Proof.
  intros I. unfold wgood. cbn [perform].
  destruct (w_freeing t s n (snapshot_free n) I) as [->|[(b & o & E & T & Lv & W & ->)|(b & E & ->)]].
  - exact I.
  - cbn [learn]. now rewrite (change_dead t n o T Lv W).
  - destruct (w_get _ _ _ _ _ I E) as (o & T & Lv & _ & K).
    unfold none, snapshot_free. unfold bindM at 1 2. rewrite (load_held _ _ _ E (w_self _ _ _ _ I E)).
    destruct b as [| | | | |q]; try exact I.
    erewrite bind_is by (apply release_ok; exact (w_self _ _ _ _ I E)).
    cbn [forget retM ret objects live learn].
    apply (winv_set t s n o true (BSnapshot q) dead); auto; try discriminate.
    + wparts I E.
    + others.
Qed.
Lemma w_free_entry t s n : winv t s -> wgood t (FreeEntry n) s.
Proof.
  intros I. unfold wgood. cbn [perform].
  destruct (w_freeing t s n (entry_free n) I) as [->|[(b & o & E & T & Lv & W & ->)|(b & E & ->)]].
  - exact I.
  - cbn [learn]. now rewrite (change_dead t n o T Lv W).
  - destruct (w_get _ _ _ _ _ I E) as (o & T & Lv & _ & K).
    unfold none, entry_free. unfold bindM at 1 2. rewrite (load_held _ _ _ E (w_self _ _ _ _ I E)).
    destruct b as [| | |io h own fs vals| |]; try exact I.
    erewrite bind_is by (apply release_ok; rewrite (w_part _ _ _ _ _ I E); reflexivity).
    destruct vals.
    + erewrite bind_is by (apply release_ok; cbn [live]; blocks; rewrite (w_part _ _ _ _ _ I E); reflexivity).
      erewrite bind_is by (apply release_ok; cbn [live]; blocks; exact (w_self _ _ _ _ I E)).
      cbn [forget retM ret objects live learn].
      apply (winv_set t s n o true (BEntry io h own fs true) dead); auto; try discriminate.
      * wparts I E.
      * others.
    + erewrite bind_is by reflexivity.
      erewrite bind_is by (apply release_ok; cbn [live]; blocks; exact (w_self _ _ _ _ I E)).
      cbn [forget retM ret objects live learn].
      apply (winv_set t s n o true (BEntry io h own fs false) dead); auto; try discriminate.
      * wparts I E.
      * others.
Qed.
Lemma w_free_volume t s n : winv t s -> wgood t (FreeVolume n) s.
Proof.
  intros I. unfold wgood. cbn [perform].
  destruct (w_freeing t s n (volume_free n) I) as [->|[(b & o & E & T & Lv & W & ->)|(b & E & ->)]].
  - exact I.
  - cbn [learn]. now rewrite (change_dead t n o T Lv W).
  - destruct (w_get _ _ _ _ _ I E) as (o & T & Lv & _ & K).
    unfold none, volume_free. unfold bindM at 1 2. rewrite (load_held _ _ _ E (w_self _ _ _ _ I E)).
    destruct b as [| |io h g fs| | |]; try exact I.
    erewrite bind_is by (apply release_ok; rewrite (w_part _ _ _ _ _ I E); reflexivity).
    destruct fs.
    + erewrite bind_is by (apply release_ok; cbn [live]; blocks; rewrite (w_part _ _ _ _ _ I E); reflexivity).
      erewrite bind_is by (apply release_ok; cbn [live]; blocks; exact (w_self _ _ _ _ I E)).
      cbn [forget retM ret objects live learn].
      apply (winv_set t s n o true (BVolume io h g true) dead); auto; try discriminate.
      * wparts I E.
      * others.
    + erewrite bind_is by reflexivity.
      erewrite bind_is by (apply release_ok; cbn [live]; blocks; exact (w_self _ _ _ _ I E)).
      cbn [forget retM ret objects live learn].
      apply (winv_set t s n o true (BVolume io h g false) dead); auto; try discriminate.
      * wparts I E.
      * others.
Qed.

Lemma w_close t s c p k : winv t s -> is_open (objects s) c p k ->
  exists s1, container_close c s = (Ok tt, s1) /\ winv (change c (with_ None) t) s1
             /\ nth_error (objects s1) c = Some (true, BContainer None k).
Proof.
  intros I E. destruct (w_get _ _ _ _ _ I E) as (o & T & Lv & W & K).
  assert (Hm : live s (c, Io) = true /\ live s (c, Meta k) = true /\ live s (c, Bag k) = true).
  { rewrite !(w_part _ _ _ _ _ I E). unfold part_live. cbn [snd fst andb]. now rewrite Nat.eqb_refl. }
  destruct Hm as (Hi & Hm & Hb).
  assert (Hh : live s (op_handle p) = true).
  { destruct (w_open _ _ I c p k E) as [->|(f & -> & F)]; cbn [op_handle].
    - rewrite (w_part _ _ _ _ _ I E). unfold part_live. cbn [snd fst andb op_mine]. apply Nat.eqb_refl.
    - exact (w_self _ _ _ _ I F). }
  unfold container_close. erewrite bind_is by exact (load_held _ _ _ E (w_self _ _ _ _ I E)); cbv beta iota.
  erewrite bind_is by exact (touch_ok _ _ Hh); cbv beta iota.
  destruct (w_open _ _ I c p k E) as [->|(f & -> & F)]; cbn [op_mine op_handle] in *.
  - erewrite bind_is by exact (release_ok _ _ Hh); cbv beta iota.
    erewrite bind_is by (apply touch_ok; cbn [live]; blocks; exact Hi); cbv beta iota.
    erewrite bind_is by (apply release_ok; cbn [live]; blocks; exact Hm); cbv beta iota.
    erewrite bind_is by (apply release_ok; cbn [live]; blocks; exact Hb); cbv beta iota.
    unfold store. cbn [objects live]. eexists. split; [reflexivity|]. split.
    + apply (winv_set t s c o true (BContainer (Some (mk_opening (c, Handle k) true)) k) (with_ None)); auto; try discriminate.
      * left. discriminate.
      * wparts I E.
      * others.
    + cbn [objects]. rewrite nth_set_nth, Nat.eqb_refl. now rewrite E.
  - erewrite bind_is by reflexivity; cbv beta iota.
    erewrite bind_is by exact (touch_ok _ _ Hi); cbv beta iota.
    erewrite bind_is by exact (release_ok _ _ Hm); cbv beta iota.
    erewrite bind_is by (apply release_ok; cbn [live]; blocks; exact Hb); cbv beta iota.
    unfold store. cbn [objects live]. eexists. split; [reflexivity|]. split.
    + apply (winv_set t s c o true (BContainer (Some (mk_opening (f, Self) false)) k) (with_ None)); auto; try discriminate.
      * left. discriminate.
      * wparts I E.
      * others.
    + cbn [objects]. rewrite nth_set_nth, Nat.eqb_refl. now rewrite E.
Qed.
Lemma w_close_good t s c : winv t s -> wgood t (Close c) s.
Proof.
  intros I. unfold wgood. cbn [perform]. unfold none.
  destruct (nth_error (objects s) c) as [[[|] b]|] eqn:E.
  - pose proof (load_held _ _ _ E (w_self _ _ _ _ I E)) as H.
    destruct b as [|[p|] k| | | |];
      try (unfold container_close; erewrite bind_fail by (erewrite bind_is by exact H; reflexivity); exact I); cbv beta iota.
    destruct (w_close t s c p k I E) as (s1 & C & I1 & _). erewrite bind_is by exact C. exact I1.
  - assert (H : load c s = (Fail, s)) by (apply load_not; congruence).
    unfold container_close. erewrite bind_fail by (erewrite bind_fail by exact H; reflexivity). exact I.
  - assert (H : load c s = (Fail, s)) by (apply load_not; congruence).
    unfold container_close. erewrite bind_fail by (erewrite bind_fail by exact H; reflexivity). exact I.
Qed.
Lemma w_free_container t s c : winv t s -> wgood t (FreeContainer c) s.
Proof.
  intros I. unfold wgood. cbn [perform].
  destruct (w_freeing t s c (container_free c) I) as [->|[(b & o & E & T & Lv & W & ->)|(b & E & ->)]].
  - exact I.
  - cbn [learn]. now rewrite (change_dead t c o T Lv W).
  - unfold none, container_free. unfold bindM at 1 2. rewrite (load_held _ _ _ E (w_self _ _ _ _ I E)).
    destruct b as [|op k| | | |]; try exact I.
    assert (exists t1 s1, (match op with Some _ => container_close c | None => ret tt end) s = (Ok tt, s1)
              /\ winv t1 s1 /\ nth_error (objects s1) c = Some (true, BContainer None k) /\ change c dead t1 = change c dead t)
      as (t1 & s1 & C & I1 & E1 & Q).
    { destruct op as [p|].
      - destruct (w_close t s c p k I E) as (s1 & C & I1 & E1). exists (change c (with_ None) t), s1.
        split; [exact C|]. split; [exact I1|]. split; [exact E1|]. rewrite change_change. apply change_ext. reflexivity.
      - exists t, s. auto. }
    rewrite (bind_is _ _ _ _ _ C); cbv beta iota.
    erewrite bind_is by (apply release_ok; rewrite (w_part _ _ _ _ _ I1 E1); reflexivity); cbv beta iota.
    erewrite bind_is by (apply release_ok; cbn [live]; blocks; exact (w_self _ _ _ _ I1 E1)); cbv beta iota.
    cbn [forget retM ret objects live learn]. rewrite <- Q.
    destruct (w_get _ _ _ _ _ I1 E1) as (o & T & Lv & _ & K).
    apply (winv_set t1 s1 c o true (BContainer None k) dead); auto; try discriminate.
    + wparts I1 E1.
    + others.
Qed.

Lemma free_good t s c : winv t s -> gives_back c = true -> wgood t c s.
Proof.
  intros I G. destruct c; try discriminate G.
  - exact (w_close_good t s c I).
  - exact (w_free_container t s c I).
  - exact (w_free_volume t s v I).
  - exact (w_free_entry t s e I).
  - exact (w_free_attr t s a I).
  - exact (w_free_snapshot t s p I).
Qed.

Lemma run_frees cs : forall t s, winv t s -> (forall c, In c cs -> gives_back c = true) ->
  (forall c a, In (c, a) (fst (run s cs)) -> a <> Oob /\ a <> Fuel)
  /\ winv (fold_left (fun t x => learn t (fst x) (snd x)) (fst (run s cs)) t) (snd (run s cs)).
Proof.
  induction cs as [|c cs IH]; intros t s I G; cbn [run].
  - split; [intros ? ? []|exact I].
  - pose proof (free_good t s c I (G c (or_introl eq_refl))) as W. unfold wgood in W.
    assert (Gr : forall c', In c' cs -> gives_back c' = true) by (intros c' C'; apply G; now right).
    destruct (perform c s) as [a s1]. destruct a as [v| | |]; try contradiction;
      destruct (IH _ s1 W Gr) as (A & B); destruct (run s1 cs) as [tr s2]; cbn [fst snd fold_left] in *;
      (split; [|exact B]); intros c' a' [Q|Q]; try exact (A c' a' Q); injection Q as _ <-; split; discriminate.
Qed.

Lemma run_app cs fs : forall s, (forall c a, In (c, a) (fst (run s cs)) -> a <> Oob /\ a <> Fuel) ->
  run s (cs ++ fs) = (fst (run s cs) ++ fst (run (snd (run s cs)) fs), snd (run (snd (run s cs)) fs)).
Proof.
  induction cs as [|c cs IH]; intros s H; cbn [run app].
  - cbn [fst snd app]. now destruct (run s fs).
  - cbn [run] in H. destruct (perform c s) as [a s1].
    assert (Na : a <> Oob) by (destruct a; try discriminate; apply (H c Oob); now left).
    assert (Rs : forall c' a', In (c', a') (fst (run s1 cs)) -> a' <> Oob /\ a' <> Fuel).
    { intros c' a' Q. apply (H c' a'). destruct a; try (now destruct Na); destruct (run s1 cs) as [tr s2]; right; exact Q. }
    specialize (IH s1 Rs). rewrite IH. destruct a; try (now destruct Na); destruct (run s1 cs) as [tr s2]; reflexivity.
Qed.

(* When no object is left, only the superblocks of snapshots are. *)
Lemma left_over t s : winv t s -> (forall n o, nth_error t n = Some o -> o_live o = false) ->
  forall b, live s b = true -> snd b = Super /\ exists o, nth_error t (fst b) = Some o /\ o_kind o = KSnapshot.
Proof.
  intros I H [n p] Lb. rewrite (w_live _ _ I) in Lb. unfold alive in Lb. cbn [fst snd] in *.
  destruct (nth_error (objects s) n) as [[h b]|] eqn:E; [|discriminate Lb].
  destruct (w_get _ _ _ _ _ I E) as (o & T & Lv & _ & K). rewrite (H n o T) in Lv. subst h.
  unfold part_live in Lb. cbn [fst snd andb] in Lb. destruct b as [| | | | |m]; try discriminate Lb.
  destruct p; try discriminate Lb. split; [reflexivity|]. exists o. split; [exact T|]. exact (K m eq_refl).
Qed.

(* ---- programs without snapshots ---- *)
Definition no_snapshot (s : state) : Prop := forall n h m, nth_error (objects s) n <> Some (h, BSnapshot m).
Definition keeps_ns {A} (m : L A) : Prop := forall s, no_snapshot s -> no_snapshot (snd (m s)).
Definition plain (b : body) : Prop := forall m, b <> BSnapshot m.

Lemma ns_bind {A B} (m : L A) (k : A -> L B) : keeps_ns m -> (forall a, keeps_ns (k a)) -> keeps_ns (bindM m k).
Proof.
  intros Hm Hk s H. unfold bindM. specialize (Hm s H). destruct (m s) as [[a| | |] s1]; cbn [snd] in *; auto. apply Hk. exact Hm.
Qed.
Lemma ns_ret {A} (r : res A) : keeps_ns (retM r).
Proof. intros s H. exact H. Qed.
Lemma ns_touch b : keeps_ns (touch b).
Proof. intros s H. exact H. Qed.
Lemma ns_alloc b : keeps_ns (alloc b).
Proof. intros s H. exact H. Qed.
Lemma ns_release b : keeps_ns (release b).
Proof. apply ns_bind; [apply ns_touch|]. intros _ s H. exact H. Qed.
Lemma ns_touch_all l : keeps_ns (touch_all l).
Proof. induction l as [|b l IH]; [exact (ns_ret (Ok tt))|]. cbn [touch_all]. apply ns_bind; [apply ns_touch|auto]. Qed.
Lemma ns_held n : keeps_ns (held n).
Proof. intros s H. exact H. Qed.
Lemma ns_store n b : plain b -> keeps_ns (store n b).
Proof.
  intros Pb s H. unfold store. cbn [snd]. intros k h m. cbn [objects]. rewrite nth_set_nth. destruct (Nat.eqb k n); [|apply H].
  destruct (nth_error (objects s) k); [|discriminate]. intros E. apply (Pb m). congruence.
Qed.
Lemma ns_forget n b : plain b -> keeps_ns (forget n b).
Proof.
  intros Pb s H. unfold forget. cbn [snd]. intros k h m. cbn [objects]. rewrite nth_set_nth. destruct (Nat.eqb k n); [|apply H].
  destruct (nth_error (objects s) k); [|discriminate]. intros E. apply (Pb m). congruence.
Qed.
Lemma ns_create b : (forall n, plain (b n)) -> keeps_ns (create b).
Proof.
  intros Pb s H. unfold create. cbn [snd]. intros k h m. cbn [objects]. rewrite nth_snoc. destruct (Nat.eqb k (length (objects s))); [|apply H].
  intros E. apply (Pb (length (objects s)) m). congruence.
Qed.
Lemma ns_load n : keeps_ns (load n).
Proof.
  intros s H. unfold load. destruct (nth_error (objects s) n) as [[[|] b]|]; try exact H.
  unfold bindM, touch. now destruct (live s (n, Self)).
Qed.

Ltac ns :=
  repeat first
    [ apply ns_ret | apply ns_touch | apply ns_alloc | apply ns_release | apply ns_touch_all | apply ns_held
    | apply ns_store; intros ?; discriminate | apply ns_forget; intros ?; discriminate
    | apply ns_create; intros ? ?; discriminate
    | apply ns_load
    | match goal with
      | |- keeps_ns (match ?x with _ => _ end) => destruct x
      | |- keeps_ns (bindM _ _) => apply ns_bind; [|intros ?]
      | |- keeps_ns (some _) => unfold some
      | |- keeps_ns (none _) => unfold none
      | |- keeps_ns (freeing _ _) => unfold freeing
      | |- keeps_ns (file_free _) => unfold file_free
      | |- keeps_ns (container_free _) => unfold container_free
      | |- keeps_ns (container_close _) => unfold container_close
      | |- keeps_ns (container_open _ _) => unfold container_open
      | |- keeps_ns (container_open_file _ _ _) => unfold container_open_file
      | |- keeps_ns (container_read _ _ _ _) => unfold container_read
      | |- keeps_ns (volume_free _) => unfold volume_free
      | |- keeps_ns (entry_free _) => unfold entry_free
      | |- keeps_ns (attr_free _) => unfold attr_free
      | |- keeps_ns (get_volume _ _) => unfold get_volume
      | |- keeps_ns (get_entry _ _) => unfold get_entry
      | |- keeps_ns (get_sub _ _) => unfold get_sub
      | |- keeps_ns (get_attr _ _) => unfold get_attr
      | |- keeps_ns (use _ _) => unfold use
      | |- keeps_ns (volume_grow _ _) => unfold volume_grow
      | |- keeps_ns (entry_use _ _ _) => unfold entry_use
      | |- keeps_ns (ret _) => apply ns_ret
      | |- keeps_ns fail => apply ns_ret
      | |- keeps_ns file_initialize => unfold file_initialize
      | |- keeps_ns container_initialize => unfold container_initialize
      end ].

Definition of_snapshot (c : call) : bool := match c with GetSnapshot _ _ | FreeSnapshot _ => true | _ => false end.
Lemma ns_perform c : of_snapshot c = false -> keeps_ns (perform c).
Proof. intros Q. destruct c; try discriminate Q; cbn [perform]; ns. Qed.
(* Freeing what is no snapshot as one. *)
Lemma ns_free_snapshot p : keeps_ns (perform (FreeSnapshot p)).
Proof.
  cbn [perform]. unfold freeing, none, snapshot_free. apply ns_bind; [apply ns_held|]. intros [|]; [|apply ns_ret].
  apply ns_bind; [|intros _; apply ns_ret]. intros s H. unfold bindM, load.
  destruct (nth_error (objects s) p) as [[[|] b]|] eqn:E; try exact H.
  unfold bindM, touch. destruct (live s (p, Self)); [|exact H].
  destruct b as [| | | | |m]; try exact H. exfalso. exact (H p true m E).
Qed.
Lemma ns_run cs : forall s, no_snapshot s -> (forall v ok, ~ In (GetSnapshot v ok) cs) -> no_snapshot (snd (run s cs)).
Proof.
  induction cs as [|c cs IH]; intros s H N; cbn [run]; [exact H|].
  assert (H1 : no_snapshot (snd (perform c s))).
  { destruct (of_snapshot c) eqn:Q; [|exact (ns_perform c Q s H)].
    destruct c; try discriminate Q; [exfalso; apply (N v ok); now left|exact (ns_free_snapshot p s H)]. }
  assert (Nr : forall v ok, ~ In (GetSnapshot v ok) cs) by (intros v ok Q; apply (N v ok); now right).
  destruct (perform c s) as [a s1]. cbn [snd] in H1. specialize (IH s1 H1 Nr).
  destruct a; try exact H1; destruct (run s1 cs) as [tr s2]; exact IH.
Qed.

Lemma nothing_left t s : winv t s -> no_snapshot s -> (forall n o, nth_error t n = Some o -> o_live o = false) ->
  forall b, live s b = false.
Proof.
  intros I N H [n p]. rewrite (w_live _ _ I). unfold alive. cbn [fst snd].
  destruct (nth_error (objects s) n) as [[h b]|] eqn:E; [|reflexivity].
  destruct (w_get _ _ _ _ _ I E) as (o & T & Lv & _ & K). rewrite (H n o T) in Lv. subst h.
  unfold part_live. cbn [fst snd andb]. destruct b as [| | | | |m]; try reflexivity. exfalso. exact (N n false m E).
Qed.
