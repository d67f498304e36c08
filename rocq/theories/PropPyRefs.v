(* C118: the references of pyfsapfs to Python objects. C119: the interpreter lock. *)
From Coq Require Import ZArith List Bool Arith Lia.
From Verif Require Import PyRefs PyRefsSpec PyRefsProofs.
Import ListNotations.
Local Open Scope Z_scope.

(* A container object is made, opened with file objects, read, closed, as often as the program
   likes, and deallocated. No reference is given back that pyfsapfs does not have, nothing is used
   without one, and in the end the only references left are those of the exceptions that were
   raised meanwhile (and one to None). *)
Theorem C118_references_partial : forall W (i : interp W) none l s a t s',
  hbind W (uses W i none l None) (dealloc_container W i none) s = (a, t, s') ->
  sound (file_object l) none_held t /\
  forall x, x <> none -> afters none_held t x = exceptions t x.
Proof.
  intros W i none l s a t s' E.
  assert (T : forall h, tri W (file_object l) (opt h) (dealloc_container W i none h) (fun _ => match h with Some _ => [none] | None => [] end)).
  { intros h. pose proof (dealloc_tri W i (file_object l) [] none h) as D. rewrite !app_nil_r in D. exact D. }
  unfold hbind in E. destruct (uses W i none l None s) as [[h t1] s1] eqn:E1.
  destruct (dealloc_container W i none h s1) as [[u t2] s2] eqn:E2. injection E as <- <- <-.
  destruct (uses_tri W i (file_object l) [] none l None) with (b := none_held) (s := s) (a := h) (t := t1) (s' := s1) as [S1 B1];
    [intros fo c w HI; exists c, w; exact HI|intros x; cbn; unfold none_held; lia|exact E1|].
  destruct (T h (afters none_held t1) s1 u t2 s2) as [S2 B2]; [|exact E2|].
  { intros x. rewrite (B1 x), !app_nil_r. cbn [opt app cnt]. unfold none_held. pose proof (exceptions_pos t1 x). lia. }
  split; [apply sound_app; split; assumption|].
  intros x Hx. rewrite afters_app, (B2 x), (B1 x), exceptions_app, !app_nil_r. cbn [opt app cnt]. unfold none_held.
  destruct h; cbn [opt cnt]; [|lia].
  assert (Hi : ind none x = 0) by (unfold ind; destruct (Nat.eq_dec none x); [congruence|reflexivity]). lia.
Qed.
Print Assumptions C118_references_partial.

Lemma quiet_exceptions t x : quiet t -> exceptions t x = 0.
Proof.
  induction t as [|e t IH]; intros Q; [reflexivity|].
  assert (Q' : quiet t) by (intros e' HI; apply (Q e'); right; exact HI).
  destruct e; cbn [exceptions]; try (apply IH; exact Q'). exfalso. apply (Q e). left. reflexivity.
Qed.

(* Without exceptions none is left. *)
Theorem C118_no_exceptions : forall W (i : interp W) none l s a t s',
  hbind W (uses W i none l None) (dealloc_container W i none) s = (a, t, s') -> quiet t ->
  forall x, x <> none -> afters none_held t x = 0.
Proof.
  intros W i none l s a t s' E Q x Hx. destruct (C118_references_partial W i none l s a t s' E) as [_ B].
  rewrite (B x Hx). apply quiet_exceptions. exact Q.
Qed.
Print Assumptions C118_no_exceptions.

(* check_container_signature_file_object: the reference that is left is the result's. *)
Theorem C118_check_partial : forall W (i : interp W) ctrue cfalse fo l r s a t s',
  check_signature W i ctrue cfalse fo l r s = (a, t, s') ->
  sound (fun x => x = fo) none_held t /\
  (forall x, afters none_held t x = ind_opt a x + exceptions t x) /\
  a = (if r =? -1 then None else if r =? 0 then Some cfalse else Some ctrue).
Proof.
  intros W i ctrue cfalse fo l r s a t s' E.
  destruct (check_tri W i (fun x => x = fo) ctrue cfalse fo l r) with (b := none_held) (s := s) (a := a) (t := t) (s' := s') as [S1 B1];
    [intros x; cbn; unfold none_held; lia|exact E|].
  split; [exact S1|]. split.
  - intros x. rewrite (B1 x), ind_opt_cnt. cbn [cnt]. unfold none_held. lia.
  - assert (F : fst (fst (check_signature W i ctrue cfalse fo l r s)) = a) by (rewrite E; reflexivity).
    rewrite <- F. unfold check_signature. rewrite !hbind_fst. destruct (r =? -1); [rewrite !hbind_fst; reflexivity|].
    rewrite !hbind_fst. destruct (r =? 0); cbn [negb]; rewrite !hbind_fst; reflexivity.
Qed.
Print Assumptions C118_check_partial.

(* open_container_file_object: the references left are the new container's, and its to the file
   object. *)
Theorem C118_open_partial : forall W (i : interp W) none fo l works s c h t s',
  open_new_file_object W i none fo l works s = (c, h, t, s') ->
  sound (fun x => x = fo) none_held t /\
  (forall x, x <> none -> afters none_held t x = ind_opt c x + ind_opt h x + exceptions t x).
Proof.
  intros W i none fo l works s c h t s' E.
  destruct (open_new_tri W i (fun x => x = fo) none fo l works eq_refl) with (b := none_held) (s := s) (a := (c, h)) (t := t) (s' := s') as [S1 B1];
    [intros x; cbn; unfold none_held; lia|exact E|].
  split; [exact S1|]. intros x Hx. rewrite (B1 x). unfold opened_refs. cbn [fst snd].
  assert (Hi : ind none x = 0) by (unfold ind; destruct (Nat.eq_dec none x); [congruence|reflexivity]).
  destruct c as [c|].
  - cbn [cnt]. rewrite <- ind_opt_cnt. cbn [ind_opt]. unfold none_held. lia.
  - assert (F : fst (fst (open_new_file_object W i none fo l works s)) = (None, h)) by (rewrite E; reflexivity).
    assert (Hh : h = None).
    { revert F. unfold open_new_file_object. rewrite hbind_fst. destruct (fst (fst (new W i QContainer s))) as [c|].
      - rewrite hbind_fst. destruct (fst (fst (fst (open_file_object W i none fo l works None (snd (new W i QContainer s)))))).
        + cbn. discriminate.
        + rewrite !hbind_fst. cbn. congruence.
      - rewrite !hbind_fst. cbn. congruence. }
    subst h. cbn [cnt ind_opt]. unfold none_held. lia.
Qed.
Print Assumptions C118_open_partial.

(* open_container, of a name, if no exception is fetched: the same. *)
Lemma raise_fetches W (i : interp W) e w : ~ quiet (snd (fst (error_fetch_and_raise W i (Some e, w)))).
Proof.
  intros Q. apply (Q e). unfold error_fetch_and_raise. rewrite bind_trace. apply in_or_app. left. left. reflexivity.
Qed.
Lemma named_refs W (i : interp W) none text works s a t s' : honest i ->
  open_named W i none text works s = (a, t, s') -> quiet t ->
  sound (fun x => x = text) none_held t /\ (forall x, afters none_held t x = ind_opt a x) /\ (a = None \/ a = Some none).
Proof.
  intros [Hn Hw] E Q. revert E. unfold open_named, hbind at 1, err_clear at 1. cbn [snd].
  unfold hbind at 1. unfold num at 1. cbn [snd fst]. specialize (Hn (QIsText text) (snd s)) as Hn1.
  destruct (i_num i (QIsText text) (snd s)) as [[r e] w] eqn:E1. cbn [fst snd] in Hn1.
  destruct (Z.eqb_spec r (-1)) as [R|R].
  { specialize (Hn1 R). destruct e as [e|]; [|contradiction]. cbn [pend]. unfold hbind at 1.
    pose proof (raise_fetches W i e w) as RF. destruct (error_fetch_and_raise W i (Some e, w)) as [[u t1] s1]. cbn [fst snd] in RF.
    cbn [hret]. intros [= <- <- <-]. exfalso. apply RF. intros e' HI. apply (Q e'). right. right. rewrite app_nil_r. exact HI. }
  destruct (Z.eqb_spec r 0) as [R0|R0]; cbn [negb].
  - unfold hbind at 1, err_clear at 1. cbn [snd fst]. unfold hbind at 1. unfold num at 1. cbn [snd fst].
    specialize (Hn (QIsBytes text) w) as Hn2.
    destruct (i_num i (QIsBytes text) w) as [[r2 e2] w2] eqn:E2. cbn [fst snd] in Hn2.
    destruct (Z.eqb_spec r2 (-1)) as [R2|R2].
    { specialize (Hn2 R2). destruct e2 as [e2|]; [|contradiction]. cbn [pend]. unfold hbind at 1.
      pose proof (raise_fetches W i e2 w2) as RF. destruct (error_fetch_and_raise W i (Some e2, w2)) as [[u t1] s1]. cbn [fst snd] in RF.
      cbn [hret]. intros [= <- <- <-]. exfalso. apply RF. intros e' HI. apply (Q e'). right. right. right. right. rewrite app_nil_r. exact HI. }
    destruct (r2 =? 0); cbn [negb].
    + unfold hbind, err_format, hret. cbn [snd fst]. destruct (i_format i w2) as [e3 w3]. intros [= <- <- <-].
      cbn. split; [|split; [reflexivity|left; reflexivity]]. repeat split; intros x Hx; cbn in Hx; intuition.
    + unfold hbind, err_clear, num, library, hret, emit. cbn [snd fst]. unfold hbind. destruct (i_num i (QBytes (Some text)) w2) as [[n e3] w3]. cbn [snd fst].
      destruct works; cbn [incref].
      * unfold hbind, emit, hret. intros [= <- <- <-]. cbn. split; [|split; [intros x; unfold none_held; lia|right; reflexivity]].
        repeat split; intros x Hx; cbn in Hx; intuition.
      * unfold err_format. cbn [snd]. destruct (i_format i w3) as [e4 w4]. intros [= <- <- <-].
        cbn. split; [|split; [reflexivity|left; reflexivity]]. repeat split; intros x Hx; cbn in Hx; intuition.
  - unfold hbind at 1, err_clear at 1. cbn [snd fst]. unfold hbind at 1. unfold new at 1. cbn [snd fst].
    specialize (Hw (QUtf8 (Some text)) w) as Hw2.
    destruct (i_new i (QUtf8 (Some text)) w) as [[u e2] w2] eqn:E2. cbn [fst snd] in Hw2.
    destruct u as [u|].
    + unfold hbind, num, library, hret, emit, decref. cbn [snd fst]. unfold hbind. destruct (i_num i (QBytes (Some u)) w2) as [[n e3] w3]. cbn [snd fst].
      destruct works; cbn [incref].
      * unfold incref, emit, hret. intros [= <- <- <-]. pose proof (ind_same u) as US. cbn. unfold none_held.
        split; [|split; [intros x; lia|right; reflexivity]].
        repeat split; try (intros x Hx; cbn in Hx; intuition); try lia. subst. left. lia.
      * unfold err_format. cbn [snd]. destruct (i_format i w3) as [e4 w4]. intros [= <- <- <-]. pose proof (ind_same u) as US. cbn. unfold none_held.
        split; [|split; [intros x; lia|left; reflexivity]]. repeat split; try (intros x Hx; cbn in Hx; intuition); try lia. subst. left. lia.
    + specialize (Hw2 eq_refl). destruct e2 as [e2|]; [|contradiction]. cbn [pend]. unfold hbind at 1.
      pose proof (raise_fetches W i e2 w2) as RF. destruct (error_fetch_and_raise W i (Some e2, w2)) as [[u t1] s1]. cbn [fst snd] in RF.
      cbn [hret]. intros [= <- <- <-]. exfalso. apply RF. intros e' HI. apply (Q e'). right. right. right. right. rewrite app_nil_r. exact HI.
Qed.
Theorem C118_named_partial : forall W (i : interp W) none text works s a t s', honest i ->
  open_new_named W i none text works s = (a, t, s') -> quiet t ->
  sound (fun x => x = text) none_held t /\ forall x, x <> none -> afters none_held t x = ind_opt a x.
Proof.
  intros W i none text works s a t s' HH E Q. revert E. unfold open_new_named, hbind at 1, new at 1.
  destruct (i_new i QContainer (snd s)) as [[c e] w] eqn:E1. destruct c as [c|].
  - unfold hbind at 1. destruct (open_named W i none text works (pend (fst s) e, w)) as [[r t1] s1] eqn:E2.
    assert (Main : quiet t1 -> sound (fun x => x = text) none_held t1 /\ (forall x, afters none_held t1 x = ind_opt r x) /\ (r = None \/ r = Some none))
      by (intros Q1; apply (named_refs W i none text works _ r t1 s1 HH E2 Q1)).
    assert (Mono : forall own b t, sound own none_held t -> (forall x, 0 <= b x) ->
              sound own b t /\ forall x, afters b t x = b x + afters none_held t x).
    { clear. intros own b t. assert (G : forall t b b2, (forall x, b2 x <= b x) -> sound own b2 t ->
        sound own b t /\ forall x, afters b t x = afters b2 t x + (b x - b2 x)).
      { clear. induction t as [|e t IH]; intros b b2 L SS; [split; [exact Logic.I|intros x; cbn; lia]|].
        cbn [sound] in SS. destruct SS as [A1 S1]. destruct (IH (after b e) (after b2 e)) as [S2 B2].
        - intros x. specialize (L x). destruct e; cbn [after]; lia.
        - exact S1.
        - split; [split; [|exact S2]|].
          + destruct e; cbn [allowed] in *; try exact Logic.I; [specialize (L x); lia|].
            intros x Hx. destruct (A1 x Hx) as [P|P]; [left; specialize (L x); lia|right; exact P].
          + intros x. cbn [afters]. rewrite (B2 x). specialize (L x). destruct e; cbn [after]; lia. }
      intros SS P. destruct (G t b none_held) as [S1 B1]; [intros x; apply P|exact SS|]. split; [exact S1|].
      intros x. rewrite (B1 x). unfold none_held. lia. }
    destruct r as [r|].
    + unfold hret. intros [= <- <- <-].
      destruct Main as [S1 [B1 R1]]; [intros e' HI; apply (Q e'); right; right; rewrite app_nil_r; exact HI|].
      destruct (Mono _ (after none_held (Took c)) t1 S1) as [S2 B2]; [intros x; cbn [after]; unfold none_held; pose proof (ind_range c x); lia|].
      rewrite app_nil_r. split.
      * split; [intros x []|]. split; [exact Logic.I|]. exact S2.
      * intros x Hx. cbn [map opt app afters]. change (afters (after (after none_held (Uses [])) (Took c)) t1 x) with (afters (after none_held (Took c)) t1 x).
        rewrite (B2 x), (B1 x). destruct R1 as [R1|R1]; [discriminate R1|]. injection R1 as ->. cbn [ind_opt after].
        unfold none_held, ind at 2. destruct (Nat.eq_dec none x); [congruence|lia].
    + cbn [dealloc_container]. unfold hbind, decref, dealloc_container, library, hbind, hret, emit. cbn [fst snd opt map app].
      intros [= <- <- <-].
      destruct Main as [S1 [B1 _]]; [intros e' HI; apply (Q e'); right; right; apply in_or_app; left; exact HI|].
      destruct (Mono _ (after none_held (Took c)) t1 S1) as [S2 B2]; [intros x; cbn [after]; unfold none_held; pose proof (ind_range c x); lia|].
      assert (BT : forall x, afters (after (after none_held (Uses [])) (Took c)) t1 x = ind c x).
      { intros x. change (afters (after (after none_held (Uses [])) (Took c)) t1 x) with (afters (after none_held (Took c)) t1 x).
        rewrite (B2 x), (B1 x). cbn [after ind_opt]. unfold none_held. lia. }
      split.
      * split; [intros x []|]. split; [exact Logic.I|]. apply sound_app. split; [exact S2|].
        split; [|repeat split]. cbn [allowed]. rewrite (BT c), ind_same. lia.
      * intros x Hx. cbn [map opt app afters]. rewrite afters_app. cbn [afters after]. rewrite (BT x). cbn [ind_opt]. lia.
  - unfold hbind, err_format, hret. cbn [fst snd]. destruct (i_format i w) as [e2 w2]. intros [= <- <- <-]. cbn.
    split; [|reflexivity]. repeat split; intros x Hx; destruct Hx.
Qed.
Print Assumptions C118_named_partial.

(* ---- what stays ---- *)
(* None is 0, the file object 1, True 2, False 3, IOError 4. *)
Definition well : interp nat :=
  mk_int (fun q w => (Some (10 + w)%nat, None, S w)) (fun q w => (1, None, w)) (fun w => (mk_exn 4 None None, w)).
(* the same, but read raises an exception, 5, with a traceback, 6 *)
Definition raises : interp nat :=
  mk_int (fun q w => match q with QCall _ _ _ => (None, Some (mk_exn 4 (Some 5%nat) (Some 6%nat)), w) | _ => (Some (10 + w)%nat, None, S w) end)
    (fun q w => (1, None, w)) (fun w => (mk_exn 4 None None, w)).
(* the same, but the text 7 has no UTF-8 *)
Definition no_utf8 : interp nat :=
  mk_int (fun q w => match q with QUtf8 (Some 7%nat) => (None, Some (mk_exn 4 (Some 5%nat) None), w) | _ => (Some (10 + w)%nat, None, S w) end)
    (fun q w => (1, None, w)) (fun w => (mk_exn 4 None None, w)).

(* A read that raises: the signature check raises too, and the exception of the file object with
   its traceback is never freed, three references for every read. *)
Theorem C118_exceptions_refuted : exists W (i : interp W) ctrue cfalse fo l s e t s',
  honest i /\ check_signature W i ctrue cfalse fo l (-1) s = (None, t, s') /\
  In (Fetched e) t /\ x_value e = Some 5%nat /\ x_trace e = Some 6%nat /\
  afters none_held t 5 = 2 /\ afters none_held t 6 = 2 /\ afters none_held t fo = 0.
Proof.
  exists nat, raises, 2%nat, 3%nat, 1%nat, [IoRead 32; IoRead 32], (None, O), (mk_exn 4 (Some 5%nat) (Some 6%nat)).
  let r := eval vm_compute in (check_signature nat raises 2 3 1 [IoRead 32; IoRead 32] (-1) (None, O)) in
    match r with (_, ?t, ?s) => exists t, s end.
  split; [|split; [vm_compute; reflexivity|]].
  - split; intros q w; [cbn; discriminate|]. destruct q; cbn; discriminate.
  - split; [repeat (first [left; reflexivity | right])|]. repeat split; vm_compute; reflexivity.
Qed.
Print Assumptions C118_exceptions_refuted.

(* open_container_file_object and the end of the container: two more references to None, without
   any exception. *)
Theorem C118_none_refuted : exists W (i : interp W) none fo l s t s',
  honest i /\
  hbind W (open_new_file_object W i none fo l true) (fun a =>
    hbind W (decref W (fst a)) (fun _ => dealloc_container W i none (snd a))) s = (tt, t, s') /\
  quiet t /\ afters none_held t none = 2.
Proof.
  exists nat, well, 0%nat, 1%nat, [IoSize; IoSeek 0 0; IoRead 4096], (None, O).
  let r := eval vm_compute in (hbind nat (open_new_file_object nat well 0 1 [IoSize; IoSeek 0 0; IoRead 4096] true) (fun a =>
    hbind nat (decref nat (fst a)) (fun _ => dealloc_container nat well 0 (snd a))) (None, O)) in
    match r with (_, ?t, ?s) => exists t, s end.
  split; [|split; [vm_compute; reflexivity|]].
  - split; intros q w; cbn; discriminate.
  - split; [|vm_compute; reflexivity]. intros e HI. cbn [In] in HI. repeat (destruct HI as [HI|HI]; [discriminate HI|]). destruct HI.
Qed.
Print Assumptions C118_none_refuted.

(* A second __init__ of an open container object: the file object is never given back. *)
Theorem C118_init_refuted : exists W (i : interp W) none fo l s t s',
  honest i /\
  hbind W (uses W i none [UOpen fo l true] None) (fun h =>
    hbind W (init_container W h) (fun h => dealloc_container W i none h)) s = (tt, t, s') /\
  quiet t /\ afters none_held t fo = 1.
Proof.
  exists nat, well, 0%nat, 1%nat, [IoRead 32], (None, O).
  let r := eval vm_compute in (hbind nat (uses nat well 0 [UOpen 1 [IoRead 32] true] None) (fun h =>
    hbind nat (init_container nat h) (fun h => dealloc_container nat well 0 h)) (None, O)) in
    match r with (_, ?t, ?s) => exists t, s end.
  split; [|split; [vm_compute; reflexivity|]].
  - split; intros q w; cbn; discriminate.
  - split; [|vm_compute; reflexivity]. intros e HI. cbn [In] in HI. repeat (destruct HI as [HI|HI]; [discriminate HI|]). destruct HI.
Qed.
Print Assumptions C118_init_refuted.

(* A name without UTF-8: the string that the message of the exception is made of stays. *)
Theorem C118_message_refuted : exists W (i : interp W) none text works s t s' x,
  honest i /\ open_new_named W i none text works s = (None, t, s') /\ x <> none /\
  afters none_held t x - exceptions t x = 1.
Proof.
  exists nat, no_utf8, 0%nat, 7%nat, true, (None, O).
  let r := eval vm_compute in (open_new_named nat no_utf8 0 7 true (None, O)) in
    match r with (_, ?t, ?s) => exists t, s end.
  exists 12%nat. split; [|split; [vm_compute; reflexivity|split; [discriminate|vm_compute; reflexivity]]].
  split; intros q w; [cbn; discriminate|]. destruct q as [| | | | | | | | | |o|o| | | | | |]; cbn; try discriminate.
  destruct o as [[|[|[|[|[|[|[|[|o]]]]]]]]|]; cbn; discriminate.
Qed.
Print Assumptions C118_message_refuted.

(* Two containers' worth of reading, without a close at the end; the size is asked for, with and
   without exceptions. *)
Example C118_example :
  let p i := hbind nat (uses nat i 0 [UOpen 1 [IoSize; IoSeek 0 0; IoRead 4096] true; UCall [IoRead 10]; UClose; UOpen 8 [IoRead 5] true; UCall [IoSeek 3 1]] None)
               (dealloc_container nat i 0) (None, O) in
  (let '(_, t, _) := p well in length t = 171%nat /\ afters none_held t 1 = 0 /\ afters none_held t 8 = 0 /\ afters none_held t 10 = 0 /\ quiet t) /\
  (let '(_, t, _) := p raises in afters none_held t 1 = 0 /\ afters none_held t 5 = 6 /\ exceptions t 5 = 6).
Proof.
  cbv zeta. split.
  - vm_compute. repeat split; try reflexivity. intros e HI. repeat (destruct HI as [HI|HI]; [discriminate HI|]). destruct HI.
  - vm_compute. repeat split; reflexivity.
Qed.
Example C118_check_example :
  let '(a, t, _) := check_signature nat well 2 3 1 [IoRead 32] 1 (None, O) in
  a = Some 2%nat /\ afters none_held t 2 = 1 /\ afters none_held t 1 = 0 /\ length t = 23%nat.
Proof. vm_compute. repeat split; reflexivity. Qed.

(* ---- C119: the lock ---- *)
(* The interpreter calls pyfsapfs with the lock held once. Whatever the program does, and whatever
   the library reads: the interpreter is used with the lock only, and in the end the lock is held
   once. *)
Theorem C119_lock : forall W (i : interp W) none l s,
  lock [1%nat] (snd (fst (hbind W (uses W i none l None) (dealloc_container W i none) s))) = Some [1%nat].
Proof. intros W i none l s. apply (keeps_bind W _ _ _ _ (keeps_many W i none l None) (keeps_dealloc W i none) s O []). Qed.
Print Assumptions C119_lock.
Theorem C119_lock_check : forall W (i : interp W) ctrue cfalse fo l r s,
  lock [1%nat] (snd (fst (check_signature W i ctrue cfalse fo l r s))) = Some [1%nat].
Proof. intros. apply (keeps_check W i ctrue cfalse fo l r s O []). Qed.
Print Assumptions C119_lock_check.
Theorem C119_lock_open : forall W (i : interp W) none fo l works s,
  lock [1%nat] (snd (fst (open_new_file_object W i none fo l works s))) = Some [1%nat].
Proof. intros. apply (keeps_open_new W i none fo l works s O []). Qed.
Print Assumptions C119_lock_open.
Theorem C119_lock_named : forall W (i : interp W) none text works s,
  lock [1%nat] (snd (fst (open_new_named W i none text works s))) = Some [1%nat].
Proof. intros. apply (keeps_new_named W i none text works s O []). Qed.
Print Assumptions C119_lock_named.
(* The functions of the file IO handle take the lock themselves: a thread of the library need not
   have it. *)
Theorem C119_handle : forall W (i : interp W) fo c s n,
  lock [n] (snd (fst (io W i fo c s))) = Some [n] /\ lock [n] (snd (fst (handle_free W fo s))) = Some [n].
Proof. intros. split; [apply (keeps_io W i fo c s n [])|apply (keeps_free W fo s n [])]. Qed.
Print Assumptions C119_handle.
Example C119_example :
  (let '(_, t, _) := io nat well 1 IoSize (None, O) in lock [O] t = Some [O] /\ length t = 20%nat) /\
  lock [1%nat] [Begin; Uses [1%nat]; End] = None /\ lock [1%nat] [Begin; Ensure; Uses [1%nat]; End] = None /\
  lock [1%nat] [Begin; Ensure; Uses [1%nat]; Release; End] = Some [1%nat] /\ lock [1%nat] [Ensure; Uses []] = Some [2%nat].
Proof. vm_compute. repeat split; reflexivity. Qed.
