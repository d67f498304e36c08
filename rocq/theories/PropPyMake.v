(* C120: the methods of pyfsapfs that make their results. *)
From Coq Require Import ZArith List Bool Arith Lia.
From Verif Require Import PyRefs PyRefsSpec PyRefsProofs PyMake PyMakeSpec.
Import ListNotations.
Local Open Scope Z_scope.

Section Proofs.
  Variables (W : Type) (i : interp W) (null : nat) (fo : option nat) (own : nat -> Prop) (pre : list nat).
  Hypothesis HF : forall x, In x (opt fo) -> In x pre.
  Notation tri := (tri W own).
  Ltac rt := apply tri_ret; reflexivity.
  Ltac lb := eapply tri_bind; [apply library_tri; first [exact HF | intros ?x ?Hx; rewrite ?in_app_iff; cbn [In]; rewrite ?in_app_iff; auto 6]|intros ?; cbv beta].
  Lemma new_made q s : fst (fst (new W i q s)) = fst (fst (i_new i q (snd s))).
  Proof. unfold new. destruct (i_new i q (snd s)) as [[x e] w]. reflexivity. Qed.
  Lemma num_is q s : fst (fst (num W i q s)) = fst (fst (i_num i q (snd s))).
  Proof. unfold num. destruct (i_num i q (snd s)) as [[x e] w]. reflexivity. Qed.

  Lemma read_size_tri size l count : roomy i ->
    tri pre (read_size W i null fo size l count) (fun a => opt a ++ pre).
  Proof.
    intros [HR _]. unfold read_size. apply tri_if; [apply tri_new; intros y []|]. apply tri_if; [st; rt|]. apply tri_if; [st; rt|].
    apply tri_bind_pure with (mid := fun o => opt o ++ pre) (P := fun o => o <> None); [apply tri_new; intros y []|intros s; rewrite new_made; apply HR|].
    intros [x|] HN; [|contradiction]. clear HN. cbn [opt app as_string].
    st. lb. apply tri_if.
    - st. dr pre. rt.
    - unfold resize.
      apply tri_bind with (mid := fun a => opt (snd a) ++ pre).
      + st. apply tri_if; [rt|]. dr pre. rt.
      + intros [b o]. cbn [fst snd]. apply tri_if; [rt|]. dr pre. rt.
  Qed.
  Lemma size_argument_tri x : In x pre -> tri pre (size_argument W i x) (fun _ => pre).
  Proof.
    intros Hx. unfold size_argument. eapply tri_bind; [apply copy_tri; exact Hx|intros ok; cbv beta]. apply tri_if; [rt|]. st. rt.
  Qed.
  Lemma num_long x : In x pre -> tri pre (num W i (QIsLong x)) (fun _ => pre).
  Proof. intros Hx. apply tri_num. intros y [<- | []]. left. exact Hx. Qed.
  Lemma read_tri arg sized size l1 l2 count : roomy i ->
    (forall x b, arg = Some (x, b) -> In x pre /\ classed i x) ->
    tri pre (read W i null fo arg sized size l1 l2 count) (fun a => opt a ++ pre).
  Proof.
    intros HR HA. unfold read.
    apply tri_bind_pure with (mid := fun _ => pre) (P := fun r => r <> -1).
    - destruct arg as [[x b]|]; [|rt]. apply num_long. apply (HA x b eq_refl).
    - intros s. destruct arg as [[x b]|]; [|cbn; discriminate]. rewrite num_is. apply (HA x b eq_refl).
    - intros r Hr. rewrite (proj2 (Z.eqb_neq _ _) Hr).
      apply tri_bind with (mid := fun _ => pre).
      + destruct arg as [[x b]|].
        * apply tri_if; [apply size_argument_tri; apply (HA x b eq_refl)|]. apply tri_if; [|st; rt]. lb. apply tri_if; [rt|st; rt].
        * lb. apply tri_if; [rt|st; rt].
      + intros go. apply tri_if; [apply read_size_tri; exact HR|rt].
  Qed.
  Lemma read_at_tri x size positive l count : roomy i -> In x pre -> classed i x ->
    tri pre (read_at W i null fo x size positive l count) (fun a => opt a ++ pre).
  Proof.
    intros HR Hx HC. unfold read_at.
    apply tri_bind_pure with (mid := fun _ => pre) (P := fun r => r <> -1); [apply num_long; exact Hx|intros s; rewrite num_is; apply HC|].
    intros r Hr. rewrite (proj2 (Z.eqb_neq _ _) Hr). apply tri_if; [st; rt|].
    eapply tri_bind; [apply size_argument_tri; exact Hx|intros go; cbv beta].
    apply tri_if; [|rt]. apply tri_if; [st; rt|]. apply read_size_tri. exact HR.
  Qed.
  Lemma set_tri t a : roomy i -> tri (opt a ++ t :: pre) (set_item W i null (Some t) a) (fun _ => t :: pre).
  Proof. intros HR. unfold set_item. st. dr (t :: pre). rt. Qed.
  Lemma set_ok t a s : roomy i -> fst (fst (set_item W i null (Some t) a s)) = true.
  Proof. intros [_ [_ HS]]. unfold set_item. rewrite !hbind_fst, num_is, HS. reflexivity. Qed.
  Lemma extent_tri l works off size flags : roomy i ->
    tri pre (extent W i null fo l works off size flags) (fun a => opt a ++ pre).
  Proof.
    intros HR. unfold extent. lb. apply tri_if; [st; rt|].
    apply tri_bind_pure with (mid := fun o => opt o ++ pre) (P := fun o => o <> None); [apply tri_new; intros y []|intros s; rewrite new_made; apply HR|].
    intros [x|] HN; [|contradiction]. clear HN. cbn [opt app].
    Ltac one HR := st; (eapply tri_bind_pure with (P := fun ok => ok = true); [apply set_tri; exact HR|intros ?s; apply set_ok; exact HR|intros ?ok ->; cbv beta; cbn [negb]]).
    one HR. one HR. one HR. rt.
  Qed.
  Lemma name_tri none l1 l2 r1 size r2 :
    tri pre (name W i fo none l1 l2 r1 size r2) (fun a => opt a ++ pre).
  Proof.
    unfold name. lb. apply tri_if; [st; rt|]. apply tri_if; [st; rt|]. lb. apply tri_if; [st; rt|].
    st. destruct a1 as [x|]; [rt|]. st. rt.
  Qed.
End Proofs.

Lemma refs_cnt l x : refs l x = cnt l x.
Proof.
  unfold refs. induction l as [|y l IH]; [reflexivity|]. cbn [count_occ cnt]. unfold ind. destruct (Nat.eq_dec y x); lia.
Qed.
Lemma made W own pre (f : H W (option nat)) s a t s' : tri W own pre f (fun a => opt a ++ pre) -> f s = (a, t, s') ->
  sound own (refs pre) t /\ forall x, afters (refs pre) t x = refs pre x + ind_opt a x + exceptions t x.
Proof.
  intros T E. destruct (T (refs pre) s a t s') as [S1 B1]; [intros x; rewrite refs_cnt; lia|exact E|]. split; [exact S1|].
  intros x. rewrite (B1 x), cnt_app, refs_cnt, ind_opt_cnt. lia.
Qed.
Definition nothing (x : nat) : Prop := False.

(* read: of any argument, whatever the library reads through the file object and returns. What is
   used or given back is the argument, the file object, or was made; in the end there is the
   result besides, and the exceptions that were raised meanwhile (C118). *)
Theorem C120_read_partial : forall W (i : interp W) null fo arg sized size l1 l2 count s a t s',
  let pre := match arg with Some (x, _) => [x] | None => [] end ++ opt fo in
  roomy i -> (forall x b, arg = Some (x, b) -> classed i x) ->
  read W i null fo arg sized size l1 l2 count s = (a, t, s') ->
  sound nothing (refs pre) t /\ forall x, afters (refs pre) t x = refs pre x + ind_opt a x + exceptions t x.
Proof.
  intros W i null fo arg sized size l1 l2 count s a t s' pre HR HA E. apply (made W nothing pre _ s a t s') with (2 := E).
  apply read_tri; [intros x Hx; apply in_or_app; right; exact Hx|exact HR|].
  intros x b ->. split; [left; reflexivity|apply (HA x b eq_refl)].
Qed.
Print Assumptions C120_read_partial.
Theorem C120_read_at_partial : forall W (i : interp W) null fo x size positive l count s a t s',
  roomy i -> classed i x -> read_at W i null fo x size positive l count s = (a, t, s') ->
  sound nothing (refs (x :: opt fo)) t /\
  forall y, afters (refs (x :: opt fo)) t y = refs (x :: opt fo) y + ind_opt a y + exceptions t y.
Proof.
  intros W i null fo x size positive l count s a t s' HR HC E. apply (made W nothing _ _ s a t s') with (2 := E).
  apply read_at_tri; [intros y Hy; right; exact Hy|exact HR|left; reflexivity|exact HC].
Qed.
Print Assumptions C120_read_at_partial.
Theorem C120_extent_partial : forall W (i : interp W) null fo l works off size flags s a t s',
  roomy i -> extent W i null fo l works off size flags s = (a, t, s') ->
  sound nothing (refs (opt fo)) t /\
  forall y, afters (refs (opt fo)) t y = refs (opt fo) y + ind_opt a y + exceptions t y.
Proof.
  intros W i null fo l works off size flags s a t s' HR E. apply (made W nothing _ _ s a t s') with (2 := E).
  apply extent_tri; [intros y Hy; exact Hy|exact HR].
Qed.
Print Assumptions C120_extent_partial.
(* Names need no such interpreter. *)
Theorem C120_name : forall W (i : interp W) fo none l1 l2 r1 size r2 s a t s',
  name W i fo none l1 l2 r1 size r2 s = (a, t, s') ->
  sound nothing (refs (opt fo)) t /\
  forall y, afters (refs (opt fo)) t y = refs (opt fo) y + ind_opt a y + exceptions t y.
Proof.
  intros W i fo none l1 l2 r1 size r2 s a t s' E. apply (made W nothing _ _ s a t s') with (2 := E).
  apply name_tri. intros y Hy. exact Hy.
Qed.
Print Assumptions C120_name.

(* ---- the lock ---- *)
Section Keep.
  Variables (W : Type) (i : interp W) (null : nat) (fo : option nat).
  Ltac kp := repeat first
    [ apply keeps_ret | apply keeps_new | apply keeps_num | apply keeps_format
    | apply keeps_decref | apply keeps_incref | apply keeps_uses | apply keeps_library | apply keeps_copy | apply keeps_error_raise
    | apply keeps_if | apply keeps_bind; [|intros ?] ].
  Lemma keeps_as_string o : keeps W (as_string W null o).
  Proof. destruct o; cbn [as_string]; apply keeps_uses. Qed.
  Lemma keeps_resize o : keeps W (resize W i null o).
  Proof. unfold resize. destruct o; kp. Qed.
  Lemma keeps_read_size size l count : keeps W (read_size W i null fo size l count).
  Proof. unfold read_size. kp; first [apply keeps_as_string | apply keeps_resize]. Qed.
  Local Opaque read_size.
  Lemma keeps_size_argument x : keeps W (size_argument W i x).
  Proof. unfold size_argument. kp. Qed.
  Local Opaque size_argument.
  Lemma keeps_read_made arg sized size l1 l2 count : keeps W (read W i null fo arg sized size l1 l2 count).
  Proof.
    unfold read. kp.
    - destruct arg as [[x b]|]; kp.
    - destruct arg as [[x b]|]; kp. apply keeps_size_argument.
    - apply keeps_read_size.
  Qed.
  Lemma keeps_read_at x size positive l count : keeps W (read_at W i null fo x size positive l count).
  Proof. unfold read_at. kp; [apply keeps_size_argument|apply keeps_read_size]. Qed.
  Lemma keeps_set t a : keeps W (set_item W i null t a).
  Proof. unfold set_item. destruct t; kp. Qed.
  Local Opaque set_item.
  Lemma keeps_extent l works off size flags : keeps W (extent W i null fo l works off size flags).
  Proof. unfold extent. kp; apply keeps_set. Qed.
  Lemma keeps_name none l1 l2 r1 size r2 : keeps W (name W i fo none l1 l2 r1 size r2).
  Proof. unfold name. kp. match goal with |- keeps _ (match ?o with _ => _ end) => destruct o end; kp. Qed.
End Keep.
(* Any interpreter: the lock is held when it is used, and once in the end. *)
Theorem C120_lock : forall W (i : interp W) null fo arg sized size l1 l2 count x positive works off flags none r1 r2 s,
  lock [1%nat] (snd (fst (read W i null fo arg sized size l1 l2 count s))) = Some [1%nat] /\
  lock [1%nat] (snd (fst (read_at W i null fo x size positive l1 count s))) = Some [1%nat] /\
  lock [1%nat] (snd (fst (extent W i null fo l1 works off size flags s))) = Some [1%nat] /\
  lock [1%nat] (snd (fst (name W i fo none l1 l2 r1 size r2 s))) = Some [1%nat].
Proof.
  intros. repeat split.
  - apply (keeps_read_made W i null fo arg sized size l1 l2 count s O []).
  - apply (keeps_read_at W i null fo x size positive l1 count s O []).
  - apply (keeps_extent W i null fo l1 works off size flags s O []).
  - apply (keeps_name W i fo none l1 l2 r1 size r2 s O []).
Qed.
Print Assumptions C120_lock.

(* ---- a result or an exception ---- *)
Local Transparent read_size size_argument set_item.
Section Raise.
  Variables (W : Type) (i : interp W) (null : nat) (fo : option nat).
  Definition raises_or (f : H W (option nat)) : Prop := forall s, fst (fst (f s)) = None -> fst (snd (f s)) <> None.
  Lemma ro_bind A (f : H W A) k : (forall a, raises_or (k a)) -> raises_or (hbind W f k).
  Proof.
    intros HK s. unfold hbind. destruct (f s) as [[a t] s1]. specialize (HK a s1). destruct (k a s1) as [[b u] s2]. exact HK.
  Qed.
  Lemma ro_some x : raises_or (hret W (Some x)).
  Proof. intros s E. discriminate E. Qed.
  Lemma ro_format l : raises_or (hbind W (err_format W i) (fun _ => fold_right (fun o k => hbind W (decref W o) (fun _ => k)) (hret W None) l)).
  Proof.
    intros s _. unfold hbind at 1, err_format. destruct (i_format i (snd s)) as [e w].
    assert (G : forall w, fst (snd (fold_right (fun o k => hbind W (decref W o) (fun _ => k)) (hret W (@None nat)) l (Some e, w))) = Some e).
    { induction l as [|o l IH]; intros w'; [reflexivity|]. cbn [fold_right]. unfold hbind at 1, decref at 1. specialize (IH w').
      match goal with |- context [fold_right ?a ?b l ?c] => destruct (fold_right a b l c) as [[c1 c2] c3] end. exact IH. }
    specialize (G w). match goal with |- context [fold_right ?a ?b l ?c] => destruct (fold_right a b l c) as [[c1 c2] c3] end.
    cbn [fst snd] in *. rewrite G. discriminate.
  Qed.
  Lemma ro_raise : raises_or (hbind W (error_fetch_and_raise W i) (fun _ => hret W None)).
  Proof.
    intros s _. unfold error_fetch_and_raise, hbind at 1. unfold hbind at 1. destruct (err_fetch W s) as [[v t0] s0].
    unfold hbind at 1. destruct (new W i (QRepr v) s0) as [[o t1] s1].
    unfold hbind at 1. destruct (new W i (QUtf8 o) s1) as [[u t2] s2].
    unfold hbind at 1.
    match goal with |- context [?m s2] => destruct (m s2) as [[n t3] s3] end.
    unfold hbind at 1, err_format. destruct (i_format i (snd s3)) as [e w]. cbn. discriminate.
  Qed.
  Lemma ro_new q : honest i -> raises_or (new W i q).
  Proof.
    intros [_ HN] s. unfold new. specialize (HN q (snd s)). destruct (i_new i q (snd s)) as [[x e] w]. cbn [fst snd] in *.
    intros E. specialize (HN E). destruct e; cbn; [discriminate|contradiction].
  Qed.
  Hypothesis HH : honest i.
  Ltac ro := repeat first [exact (ro_format []) | exact ro_raise | apply ro_some].
  Lemma ro_if (c : bool) f g : raises_or f -> raises_or g -> raises_or (if c then f else g).
  Proof. destruct c; auto. Qed.
  Lemma ro_pure A (f : H W A) k (P : A -> Prop) : (forall s, P (fst (fst (f s)))) -> (forall a, P a -> raises_or (k a)) -> raises_or (hbind W f k).
  Proof.
    intros HP HK s. unfold hbind. specialize (HP s). destruct (f s) as [[a t] s1]. specialize (HK a HP s1). destruct (k a s1) as [[b u] s2]. exact HK.
  Qed.
  Lemma ro_read_size size l count : roomy i -> resizes i -> raises_or (read_size W i null fo size l count).
  Proof.
    intros [HM _] HR. unfold read_size. apply ro_if; [apply ro_new; exact HH|]. apply ro_if; [ro|]. apply ro_if; [ro|].
    apply ro_pure with (P := fun o => o <> None); [intros s; rewrite new_made; apply HM|]. intros [x|] HN; [|contradiction].
    apply ro_bind. intros _. apply ro_bind. intros _. apply ro_if; [exact (ro_format [Some x])|].
    intros s2. unfold resize, hbind, num. specialize (HR x (snd s2)). destruct (i_num i (QResize x) (snd s2)) as [[r e2] w2]. cbn [fst snd] in *.
    destruct (Z.eqb_spec r 0) as [R|R]; cbn [hret fst snd opt decref]; [discriminate|]. intros _. destruct HR as [HR|HR]; [contradiction|].
    destruct e2; cbn; [discriminate|contradiction].
  Qed.
  Lemma ro_go (f : H W bool) k :
    (forall s, fst (fst (f s)) = false -> fst (snd (f s)) <> None) -> raises_or k ->
    raises_or (hbind W f (fun go => if go then k else hret W None)).
  Proof.
    intros Hf Hk s. specialize (Hf s). unfold hbind. destruct (f s) as [[[|] t] s1]; cbn [fst snd] in Hf.
    - specialize (Hk s1). destruct (k s1) as [[b u] s2]. exact Hk.
    - cbn. intros _. apply Hf. reflexivity.
  Qed.
  Lemma fb_format s : fst (snd (hbind W (err_format W i) (fun _ => hret W false) s)) <> None.
  Proof. unfold hbind, err_format. destruct (i_format i (snd s)). cbn. discriminate. Qed.
  Lemma fb_bind A (f : H W A) (k : A -> H W bool) :
    (forall a s, fst (fst (k a s)) = false -> fst (snd (k a s)) <> None) ->
    forall s, fst (fst (hbind W f k s)) = false -> fst (snd (hbind W f k s)) <> None.
  Proof. intros HK s. unfold hbind. destruct (f s) as [[a t] s1]. specialize (HK a s1). destruct (k a s1) as [[b u] s2]. exact HK. Qed.
  Lemma fb_size x s : fst (fst (size_argument W i x s)) = false -> fst (snd (size_argument W i x s)) <> None.
  Proof.
    unfold size_argument. apply fb_bind. intros [|] s2; [discriminate|]. intros _. apply fb_format.
  Qed.
  Lemma fb_sized sized l s : let f := hbind W (library W i fo l) (fun _ => if sized : bool then hret W true else hbind W (err_format W i) (fun _ => hret W false)) in
    fst (fst (f s)) = false -> fst (snd (f s)) <> None.
  Proof. cbv zeta. apply fb_bind. intros _ s2. destruct sized; [discriminate|]. intros _. apply fb_format. Qed.
  Lemma ro_read arg sized size l1 l2 count : roomy i -> resizes i -> raises_or (read W i null fo arg sized size l1 l2 count).
  Proof.
    intros HM HR. unfold read. apply ro_bind. intros r. apply ro_if; [exact ro_raise|]. apply ro_go; [|apply ro_read_size; assumption].
    intros s. destruct arg as [[x b]|]; [|apply fb_sized]. destruct (negb (r =? 0)); [apply fb_size|]. destruct b; [apply fb_sized|]. intros _. apply fb_format.
  Qed.
  Lemma ro_read_at x size positive l count : roomy i -> resizes i -> raises_or (read_at W i null fo x size positive l count).
  Proof.
    intros HM HR. unfold read_at. apply ro_bind. intros r. apply ro_if; [exact ro_raise|]. apply ro_if; [ro|].
    apply ro_go; [apply fb_size|]. apply ro_if; [ro|]. apply ro_read_size; assumption.
  Qed.
  Lemma ro_name none l1 l2 r1 size r2 : raises_or (name W i fo none l1 l2 r1 size r2).
  Proof.
    unfold name. apply ro_bind. intros _. apply ro_if; [ro|]. apply ro_if; [apply ro_bind; intros _; ro|].
    apply ro_bind. intros _. apply ro_if; [ro|]. apply ro_bind. intros [x|]; ro.
  Qed.
  Lemma ro_extent l works off size flags : roomy i -> raises_or (extent W i null fo l works off size flags).
  Proof.
    intros HM. unfold extent. apply ro_bind. intros _. apply ro_if; [ro|].
    apply ro_pure with (P := fun o => o <> None); [intros s; rewrite new_made; apply HM|]. intros [t|] HN; [|contradiction].
    do 3 (apply ro_bind; intros ?; apply ro_pure with (P := fun ok => ok = true); [intros s; apply set_ok; exact HM|intros ok ->; cbn [negb]]).
    apply ro_some.
  Qed.
End Raise.
(* When there is no result there is an exception. *)
Theorem C120_raised : forall W (i : interp W) null fo arg sized size l1 l2 count x positive works off flags none r1 r2 s,
  roomy i -> honest i -> resizes i ->
  let raised r := fst (fst r) = None -> fst (snd r) <> None in
  raised (read W i null fo arg sized size l1 l2 count s) /\
  raised (read_at W i null fo x size positive l1 count s) /\
  raised (extent W i null fo l1 works off size flags s) /\
  raised (name W i fo none l1 l2 r1 size r2 s).
Proof.
  intros W i null fo arg sized size l1 l2 count x positive works off flags none r1 r2 s HM HH HR raised. repeat split; unfold raised.
  - apply ro_read; assumption.
  - apply ro_read_at; assumption.
  - apply ro_extent; assumption.
  - apply ro_name.
Qed.
Print Assumptions C120_raised.

(* ---- which results ---- *)
Lemma read_size_fst W (i : interp W) null fo size l count s : roomy i -> strings i ->
  (fst (fst (read_size W i null fo size l count s)) = None <-> size < 0 \/ 2 ^ 31 <= size \/ (size <> 0 /\ count = -1)).
Proof.
  intros [HM _] [HS _]. unfold read_size. destruct (Z.eqb_spec size 0) as [Z0|Z0].
  { rewrite new_made. split; [intros E; destruct (HM 0 (snd s) E)|lia]. }
  destruct (Z.ltb_spec size 0) as [L|L]; [rewrite !hbind_fst; split; [lia|reflexivity]|].
  destruct (Z.ltb_spec (2 ^ 31 - 1) size) as [G|G]; [rewrite !hbind_fst; split; [lia|reflexivity]|].
  rewrite hbind_fst, new_made. specialize (HM size (snd s)). destruct (fst (fst (i_new i (QMake size) (snd s)))) as [x|]; [|contradiction].
  rewrite !hbind_fst. destruct (Z.eqb_spec count (-1)) as [C|C]; [rewrite !hbind_fst; split; [lia|reflexivity]|].
  rewrite !hbind_fst. unfold resize. rewrite !hbind_fst, num_is, HS. cbn. split; [discriminate|lia].
Qed.
(* When there is memory: read without an argument has no result if the library has no size, or one
   that is no int, or cannot read; an extent or a name has none if the library has none; and None
   is the name of what has no name. *)
Theorem C120_results : forall W (i : interp W) null fo sized size l1 l2 count works off flags none r1 r2 s, roomy i -> strings i ->
  (fst (fst (read W i null fo None sized size l1 l2 count s)) = None <->
    sized = false \/ size < 0 \/ 2 ^ 31 <= size \/ (size <> 0 /\ count = -1)) /\
  (fst (fst (extent W i null fo l1 works off size flags s)) = None <-> works = false) /\
  (fst (fst (name W i fo none l1 l2 r1 size r2 s)) = None <-> r1 = -1 \/ (r1 <> 0 /\ size <> 0 /\ r2 <> 1)) /\
  (r1 = 0 \/ (r1 <> -1 /\ size = 0) -> fst (fst (name W i fo none l1 l2 r1 size r2 s)) = Some none).
Proof.
  intros W i null fo sized size l1 l2 count works off flags none r1 r2 s HM HS. split; [|split; [|split]].
  - unfold read. rewrite hbind_fst. cbn [hret fst]. change (0 =? -1) with false. cbv iota. rewrite hbind_fst.
    match goal with |- context [if fst (fst (hbind W ?f ?k ?x)) then _ else _] => rewrite (hbind_fst W _ _ f k x) end.
    destruct sized; cbn [hret fst].
    + rewrite read_size_fst by assumption. intuition discriminate.
    + rewrite hbind_fst. cbn. tauto.
  - unfold extent. rewrite hbind_fst. destruct works; cbn [negb].
    + split; [|discriminate]. rewrite hbind_fst, new_made. pose proof (proj1 (proj2 HM)) as HT.
      match goal with |- context [i_new i (QTuple 3) ?w] => specialize (HT 3 w); destruct (fst (fst (i_new i (QTuple 3) w))) as [t|]; [|contradiction] end.
      do 3 (rewrite hbind_fst; rewrite hbind_fst; rewrite set_ok by exact HM; cbn [negb]). cbn. discriminate.
    + rewrite hbind_fst. split; reflexivity.
  - unfold name. rewrite hbind_fst. destruct (Z.eqb_spec r1 (-1)) as [R|R]; [rewrite hbind_fst; split; [lia|reflexivity]|].
    destruct (Z.eqb_spec r1 0) as [R0|R0]; cbn [orb]; [rewrite hbind_fst; cbn; split; [discriminate|lia]|].
    destruct (Z.eqb_spec size 0) as [Z0|Z0]; [rewrite hbind_fst; cbn; split; [discriminate|lia]|].
    rewrite hbind_fst. destruct (Z.eqb_spec r2 1) as [R2|R2]; cbn [negb]; [|rewrite hbind_fst; split; [lia|reflexivity]].
    rewrite hbind_fst, new_made. pose proof (proj2 HS) as HD.
    match goal with |- context [i_new i QDecode ?w] => specialize (HD w); destruct (fst (fst (i_new i QDecode w))) as [t|]; [|contradiction] end.
    cbn. split; [discriminate|lia].
  - intros HN. unfold name. rewrite hbind_fst. destruct (Z.eqb_spec r1 (-1)) as [R|R]; [lia|].
    destruct (Z.eqb_spec r1 0) as [R0|R0]; cbn [orb]; [rewrite hbind_fst; reflexivity|].
    destruct (Z.eqb_spec size 0) as [Z0|Z0]; [rewrite hbind_fst; reflexivity|lia].
Qed.
Print Assumptions C120_results.

Lemma copy_integer W (i : interp W) x s : integer i x -> fst (fst (copy_to_64bit W i false x s)) = true.
Proof.
  intros [H1 H2]. unfold copy_to_64bit. rewrite !hbind_fst, num_is, H1. cbn [fst]. change (1 =? -1) with false. change (1 =? 0) with false. cbv iota.
  rewrite !hbind_fst.
  match goal with |- context [err_occurred W (snd (num W i (QLong x) ?z))] => set (s1 := z); assert (E1 : fst s1 = None) by reflexivity end.
  unfold err_occurred, num. specialize (H2 (snd s1)). destruct (i_num i (QLong x) (snd s1)) as [[v e] w]. cbn [fst snd] in *.
  rewrite H2, E1. reflexivity.
Qed.
(* read at an offset, of an argument that is an integer: the offset is not negative either. *)
Theorem C120_results_at : forall W (i : interp W) null fo x size positive l count s, roomy i -> strings i ->
  (integer i x -> fst (fst (read_at W i null fo x size positive l count s)) = None <->
    size < 0 \/ 2 ^ 31 <= size \/ (size <> 0 /\ (positive = false \/ count = -1))) /\
  ((forall w, fst (fst (i_num i (QIsLong x) w)) = 0) -> fst (fst (read_at W i null fo x size positive l count s)) = None).
Proof.
  intros W i null fo x size positive l count s HM HS. split.
  - intros HI. unfold read_at. rewrite hbind_fst, num_is, (proj1 HI). cbn [fst]. change (1 =? -1) with false. change (1 =? 0) with false. cbv iota.
    rewrite hbind_fst. unfold size_argument. rewrite !hbind_fst, (copy_integer W i x _ HI). cbn [hret fst].
    destruct (Z.ltb_spec 0 size) as [L|L]; cbn [andb].
    + destruct positive; cbn [negb].
      * rewrite read_size_fst by assumption. intuition (try lia; discriminate).
      * rewrite hbind_fst. cbn. intuition lia.
    + rewrite read_size_fst by assumption. intuition lia.
  - intros HI. unfold read_at. rewrite hbind_fst, num_is, HI. change (0 =? -1) with false. change (0 =? 0) with true. cbv iota.
    rewrite hbind_fst. reflexivity.
Qed.
Print Assumptions C120_results_at.

(* The result of a read is a string that was made with the size, that of an extent a tuple of
   three, that of a name a text or None. *)
Section Made.
  Variables (W : Type) (i : interp W) (null : nat) (fo : option nat).
  Definition makes (q : question) (f : H W (option nat)) : Prop :=
    forall s, fst (fst (f s)) = None \/ exists w, fst (fst (f s)) = fst (fst (i_new i q w)).
  Lemma mk_bind A q (f : H W A) k : (forall a, makes q (k a)) -> makes q (hbind W f k).
  Proof. intros HK s. rewrite hbind_fst. apply HK. Qed.
  Lemma mk_if q (c : bool) f g : makes q f -> makes q g -> makes q (if c then f else g).
  Proof. destruct c; auto. Qed.
  Lemma mk_none q : makes q (hret W None).
  Proof. left. reflexivity. Qed.
  Lemma mk_new q : makes q (new W i q).
  Proof. intros s. right. exists (snd s). apply new_made. Qed.
  Lemma mk_read_size size l count : makes (QMake size) (read_size W i null fo size l count).
  Proof.
    unfold read_size. destruct (Z.eqb_spec size 0) as [->|Z0]; [apply mk_new|].
    apply mk_if; [apply mk_bind; intros _; apply mk_none|]. apply mk_if; [apply mk_bind; intros _; apply mk_none|].
    intros s. rewrite hbind_fst, new_made.
    assert (G : forall o s, fst (fst (hbind W (as_string W null o) (fun _ => hbind W (library W i fo l) (fun _ =>
       if count =? -1 then hbind W (err_format W i) (fun _ => hbind W (decref W o) (fun _ => hret W None))
       else hbind W (resize W i null o) (fun a => if fst a then hret W (snd a) else hbind W (decref W (snd a)) (fun _ => hret W None)))) s)) = None \/
       fst (fst (hbind W (as_string W null o) (fun _ => hbind W (library W i fo l) (fun _ =>
       if count =? -1 then hbind W (err_format W i) (fun _ => hbind W (decref W o) (fun _ => hret W None))
       else hbind W (resize W i null o) (fun a => if fst a then hret W (snd a) else hbind W (decref W (snd a)) (fun _ => hret W None)))) s)) = o).
    { intros o s1. rewrite !hbind_fst. destruct (count =? -1); [rewrite !hbind_fst; left; reflexivity|]. rewrite !hbind_fst.
      unfold resize. destruct o as [x|]; [|rewrite !hbind_fst; left; reflexivity]. rewrite !hbind_fst, num_is.
      match goal with |- context [if ?c then hret W (true, _) else _] => destruct c end; [right; reflexivity|].
      rewrite !hbind_fst. left. reflexivity. }
    destruct (G (fst (fst (i_new i (QMake size) (snd s)))) (snd (new W i (QMake size) s))) as [E|E]; rewrite E; [left; reflexivity|right].
    exists (snd s). reflexivity.
  Qed.
  Lemma mk_extent l works off size flags : makes (QTuple 3) (extent W i null fo l works off size flags).
  Proof.
    unfold extent. apply mk_bind. intros _. apply mk_if; [apply mk_bind; intros _; apply mk_none|].
    intros s. rewrite hbind_fst, new_made. set (t := fst (fst (i_new i (QTuple 3) (snd s)))).
    do 3 (rewrite hbind_fst; rewrite hbind_fst;
      match goal with |- context [if negb ?c then _ else _] => destruct (negb c) end; [rewrite !hbind_fst; left; reflexivity|]).
    right. exists (snd s). reflexivity.
  Qed.
End Made.
Theorem C120_made : forall W (i : interp W) null fo arg sized size l1 l2 count x positive works off flags none r1 r2 s,
  let of_kind q a := a = None \/ exists w, a = fst (fst (i_new i q w)) in
  of_kind (QMake size) (fst (fst (read W i null fo arg sized size l1 l2 count s))) /\
  of_kind (QMake size) (fst (fst (read_at W i null fo x size positive l1 count s))) /\
  of_kind (QTuple 3) (fst (fst (extent W i null fo l1 works off size flags s))) /\
  (of_kind QDecode (fst (fst (name W i fo none l1 l2 r1 size r2 s))) \/ fst (fst (name W i fo none l1 l2 r1 size r2 s)) = Some none).
Proof.
  intros W i null fo arg sized size l1 l2 count x positive works off flags none r1 r2 s of_kind. repeat split.
  - revert s. unfold read. apply mk_bind. intros r. apply mk_if; [apply mk_bind; intros _; apply mk_none|].
    apply mk_bind. intros go. apply mk_if; [apply mk_read_size|apply mk_none].
  - revert s. unfold read_at. apply mk_bind. intros r. apply mk_if; [apply mk_bind; intros _; apply mk_none|].
    apply mk_if; [apply mk_bind; intros _; apply mk_none|].
    apply mk_bind. intros go. apply mk_if; [|apply mk_none]. apply mk_if; [apply mk_bind; intros _; apply mk_none|apply mk_read_size].
  - revert s. apply mk_extent.
  - unfold name. rewrite hbind_fst. destruct (r1 =? -1); [rewrite hbind_fst; left; left; reflexivity|].
    destruct ((r1 =? 0) || (size =? 0)); [rewrite hbind_fst; right; reflexivity|]. rewrite hbind_fst.
    destruct (negb (r2 =? 1)); [rewrite hbind_fst; left; left; reflexivity|]. rewrite hbind_fst, new_made. left.
    match goal with |- context [i_new i QDecode ?w] => destruct (fst (fst (i_new i QDecode w))) as [t|] eqn:E; [right; exists w; rewrite E; reflexivity|] end.
    left. rewrite hbind_fst. reflexivity.
Qed.
Print Assumptions C120_made.

(* ---- without memory ---- *)
(* None is 0, NULL 9, the file object 1, the argument 2, MemoryError 4. Objects are numbered from
   10. *)
Definition able : interp nat :=
  mk_int (fun q w => (Some (10 + w)%nat, None, S w)) (fun q w => (match q with QSet _ | QResize _ => 0 | _ => 1 end, None, w)) (fun w => (mk_exn 4 None None, w)).
(* no memory for 2 GiB; for tuples *)
Definition no_memory : interp nat :=
  mk_int (fun q w => match q with QMake n => if n <? 2 ^ 20 then (Some (10 + w)%nat, None, S w) else (None, Some (mk_exn 4 None None), w)
                     | QTuple _ => (None, Some (mk_exn 4 None None), w)
                     | _ => (Some (10 + w)%nat, None, S w) end)
    (fun q w => (match q with QSet _ | QResize _ => 0 | _ => 1 end, None, w)) (fun w => (mk_exn 4 None None, w)).
Lemma no_memory_honest : honest no_memory.
Proof.
  split; intros q w; [destruct q; cbn; discriminate|]. destruct q; try (cbn; discriminate). cbn [no_memory i_new]. destruct (n <? 2 ^ 20); discriminate.
Qed.

(* read of a size that there is no memory for: NULL is followed. *)
Theorem C120_memory_refuted : exists W (i : interp W) null fo x size l count s a t s',
  honest i /\ resizes i /\ (forall q w, fst (fst (i_new i q w)) <> Some null) /\ classed i x /\
  0 < size < 2 ^ 31 /\ refs [x; fo] null = 0 /\
  read W i null (Some fo) (Some (x, false)) true size [] l count s = (a, t, s') /\ ~ sound nothing (refs [x; fo]) t.
Proof.
  exists nat, no_memory, 9%nat, 1%nat, 2%nat, (2 ^ 30), [IoRead 4096], 4096, (None, O).
  let r := eval vm_compute in (read nat no_memory 9 (Some 1%nat) (Some (2%nat, false)) true (2 ^ 30) [] [IoRead 4096] 4096 (None, O)) in
    match r with (?a, ?t, ?s) => exists a, t, s end.
  split; [exact no_memory_honest|]. split; [intros x w; left; reflexivity|].
  split; [intros q w; destruct q; cbn; try discriminate; destruct (n <? 1048576); discriminate|].
  split; [intros w; discriminate|]. split; [lia|]. split; [reflexivity|]. split; [vm_compute; reflexivity|].
  intros HS. cbn [sound] in HS. repeat match type of HS with _ /\ _ => destruct HS as [HA HS]; cbn [allowed] in HA;
    try (specialize (HA 9%nat (or_introl eq_refl)); destruct HA as [HA|[]]; vm_compute in HA; discriminate HA); clear HA end.
Qed.
Print Assumptions C120_memory_refuted.
(* An extent, without memory for the tuple: the same. *)
Theorem C120_tuple_refuted : exists W (i : interp W) null fo l off size flags s a t s',
  honest i /\ (forall q w, fst (fst (i_new i q w)) <> Some null) /\ refs [fo] null = 0 /\
  extent W i null (Some fo) l true off size flags s = (a, t, s') /\ ~ sound nothing (refs [fo]) t.
Proof.
  exists nat, no_memory, 9%nat, 1%nat, [IoRead 4096], 8192, 4096, 0, (None, O).
  let r := eval vm_compute in (extent nat no_memory 9 (Some 1%nat) [IoRead 4096] true 8192 4096 0 (None, O)) in
    match r with (?a, ?t, ?s) => exists a, t, s end.
  split; [exact no_memory_honest|].
  split; [intros q w; destruct q; cbn; try discriminate; destruct (n <? 1048576); discriminate|].
  split; [reflexivity|]. split; [vm_compute; reflexivity|].
  intros HS. cbn [sound] in HS. repeat match type of HS with _ /\ _ => destruct HS as [HA HS]; cbn [allowed] in HA;
    try (specialize (HA 9%nat (or_introl eq_refl)); destruct HA as [HA|[]]; vm_compute in HA; discriminate HA); clear HA end.
Qed.
Print Assumptions C120_tuple_refuted.

(* A read of 100 bytes through the file object, of the rest, of nothing, one that fails, one with a
   negative offset; an extent; a name. *)
Example C120_example :
  roomy able /\ classed able 2 /\ honest able /\ resizes able /\ strings able /\ integer able 2 /\
  (let '(a, t, _) := read nat able 9 (Some 1%nat) (Some (2%nat, false)) true 100 [] [IoRead 4096] 100 (None, O) in
    a = Some 10%nat /\ afters (refs [2%nat; 1%nat]) t 10 = 1 /\ afters (refs [2%nat; 1%nat]) t 1 = 1 /\ length t = 28%nat) /\
  (let '(a, t, _) := read nat able 9 (Some 1%nat) None true 100 [IoRead 4096] [IoRead 4096] 100 (None, O) in a = Some 13%nat) /\
  (let '(a, t, _) := read nat able 9 (Some 1%nat) None true 0 [] [IoRead 4096] 100 (None, O) in a = Some 10%nat) /\
  (let '(a, t, (p, _)) := read nat able 9 (Some 1%nat) (Some (2%nat, false)) true 100 [] [] (-1) (None, O) in
    a = None /\ afters (refs [2%nat; 1%nat]) t 10 = 0 /\ p = Some (mk_exn 4 None None)) /\
  (let '(a, t, (p, _)) := read_at nat able 9 (Some 1%nat) 2 100 false [IoRead 4096] 100 (None, O) in a = None /\ p <> None) /\
  (let '(a, t, _) := extent nat able 9 (Some 1%nat) [] true 8192 4096 0 (None, O) in
    a = Some 10%nat /\ afters (refs [1%nat]) t 10 = 1 /\ afters (refs [1%nat]) t 12 = 0) /\
  (let '(a, t, _) := name nat able (Some 1%nat) 0 [] [] 1 5 1 (None, O) in a = Some 10%nat) /\
  (let '(a, t, _) := name nat able (Some 1%nat) 0 [] [] 0 0 1 (None, O) in a = Some 0%nat /\ afters (refs [1%nat]) t 0 = 1).
Proof.
  split; [repeat split; intros; cbn; discriminate|]. split; [intros w; cbn; discriminate|].
  split; [split; intros q w; [destruct q|]; cbn; discriminate|]. split; [intros x w; left; reflexivity|].
  split; [split; intros; cbn; [reflexivity|discriminate]|]. split; [split; reflexivity|].
  repeat split; vm_compute; try reflexivity; discriminate.
Qed.
