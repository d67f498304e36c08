(* References and lock: proofs. *)
From Coq Require Import ZArith List Bool Arith Lia.
From Verif Require Import PyRefs PyRefsSpec.
Import ListNotations.
Local Open Scope Z_scope.

Lemma ind_range y x : 0 <= ind y x <= 1. Proof. unfold ind. destruct (Nat.eq_dec y x); lia. Qed.
Lemma ind_same x : ind x x = 1. Proof. unfold ind. destruct (Nat.eq_dec x x); [lia|contradiction]. Qed.
Fixpoint cnt (l : list nat) (x : nat) : Z := match l with [] => 0 | y :: l => ind y x + cnt l x end.
Lemma cnt_app l m x : cnt (l ++ m) x = cnt l x + cnt m x.
Proof. induction l as [|y l IH]; cbn [app cnt]; lia. Qed.
Lemma cnt_pos l x : 0 <= cnt l x.
Proof. induction l as [|y l IH]; cbn [cnt]; [lia|]. pose proof (ind_range y x). lia. Qed.
Lemma cnt_in l x : In x l -> 0 < cnt l x.
Proof.
  induction l as [|y l IH]; intros HI; [contradiction|]. cbn [cnt]. pose proof (ind_range y x). pose proof (cnt_pos l x).
  destruct HI as [-> | HI]; [rewrite ind_same; lia|]. specialize (IH HI). lia.
Qed.
Lemma ind_opt_cnt o x : ind_opt o x = cnt (opt o) x.
Proof. destruct o; cbn [ind_opt opt cnt]; lia. Qed.
Lemma in_exn_pos e x : 0 <= in_exn e x.
Proof. unfold in_exn. rewrite !ind_opt_cnt. pose proof (ind_range (x_type e) x). pose proof (cnt_pos (opt (x_value e)) x). pose proof (cnt_pos (opt (x_trace e)) x). lia. Qed.
Lemma exceptions_pos t x : 0 <= exceptions t x.
Proof. induction t as [|e t IH]; cbn [exceptions]; [lia|]. destruct e; try exact IH. pose proof (in_exn_pos e x). lia. Qed.
Lemma exceptions_app t u x : exceptions (t ++ u) x = exceptions t x + exceptions u x.
Proof. induction t as [|e t IH]; cbn [app exceptions]; [lia|]. destruct e; try exact IH. lia. Qed.
Lemma afters_app b t u : afters b (t ++ u) = afters (afters b t) u.
Proof. revert b; induction t as [|e t IH]; intros b; [reflexivity|]. cbn [app afters]. apply IH. Qed.
Lemma sound_app own b t u : sound own b (t ++ u) <-> sound own b t /\ sound own (afters b t) u.
Proof.
  revert b; induction t as [|e t IH]; intros b; cbn [app sound afters]; [tauto|]. rewrite IH. tauto.
Qed.
Lemma lock_app st t u : lock st (t ++ u) = match lock st t with Some st => lock st u | None => None end.
Proof.
  revert st; induction t as [|e t IH]; intros st; [reflexivity|].
  cbn [app]. destruct e; cbn [lock]; destruct st as [|[|n] r]; try reflexivity; try apply IH.
  destruct r as [|[|m] r]; try reflexivity. apply IH.
Qed.

Section Logic.
  Variables (W : Type) (i : interp W) (own : nat -> Prop).
  (* pre, post: references that the function is sure to have *)
  Definition tri {A} (pre : list nat) (f : H W A) (post : A -> list nat) : Prop :=
    forall b s a t s', (forall x, cnt pre x <= b x) -> f s = (a, t, s') ->
      sound own b t /\ forall x, afters b t x = b x - cnt pre x + cnt (post a) x + exceptions t x.
  Definition has (pre l : list nat) : Prop := forall x, In x l -> In x pre \/ own x.

  Lemma tri_ret A (a : A) pre post : (forall x, cnt pre x = cnt (post a) x) -> tri pre (hret W a) post.
  Proof. intros E b s c t s' HB [= <- <- <-]. split; [exact Logic.I|]. intros x. cbn [afters exceptions]. rewrite (E x). lia. Qed.
  Lemma tri_bind A B (f : H W A) (k : A -> H W B) pre mid post :
    tri pre f mid -> (forall a, tri (mid a) (k a) post) -> tri pre (hbind W f k) post.
  Proof.
    intros Hf Hk b s c t s' HB E. unfold hbind in E. destruct (f s) as [[a t1] s1] eqn:E1. destruct (k a s1) as [[c2 t2] s2] eqn:E2.
    injection E as <- <- <-. destruct (Hf b s a t1 s1 HB E1) as [S1 B1].
    assert (HB2 : forall x, cnt (mid a) x <= afters b t1 x).
    { intros x. rewrite (B1 x). pose proof (HB x). pose proof (exceptions_pos t1 x). lia. }
    destruct (Hk a (afters b t1) s1 c2 t2 s2 HB2 E2) as [S2 B2]. split.
    - apply sound_app. split; assumption.
    - intros x. rewrite afters_app, (B2 x), (B1 x), exceptions_app. lia.
  Qed.
  Lemma tri_bind_pure A B (f : H W A) (k : A -> H W B) pre mid post (P : A -> Prop) :
    tri pre f mid -> (forall s, P (fst (fst (f s)))) -> (forall a, P a -> tri (mid a) (k a) post) -> tri pre (hbind W f k) post.
  Proof.
    intros Hf HP Hk b s c t s' HB E. unfold hbind in E. specialize (HP s). destruct (f s) as [[a t1] s1] eqn:E1. destruct (k a s1) as [[c2 t2] s2] eqn:E2.
    injection E as <- <- <-. destruct (Hf b s a t1 s1 HB E1) as [S1 B1]. cbn [fst] in HP.
    assert (HB2 : forall x, cnt (mid a) x <= afters b t1 x).
    { intros x. rewrite (B1 x). pose proof (HB x). pose proof (exceptions_pos t1 x). lia. }
    destruct (Hk a HP (afters b t1) s1 c2 t2 s2 HB2 E2) as [S2 B2]. split.
    - apply sound_app. split; assumption.
    - intros x. rewrite afters_app, (B2 x), (B1 x), exceptions_app. lia.
  Qed.
  Lemma tri_uses A (f : H W A) pre l : has pre l -> (forall s a t s', f s = (a, t, s') -> t = [Uses l]) -> tri pre f (fun _ => pre).
  Proof.
    intros HH HU b s a t s' HB E. rewrite (HU _ _ _ _ E). split.
    - cbn [sound allowed]. split; [|exact Logic.I]. intros x Hx. destruct (HH x Hx) as [Hp | Ho]; [|right; exact Ho].
      left. pose proof (HB x). pose proof (cnt_in pre x Hp). lia.
    - intros x. cbn [afters exceptions after]. lia.
  Qed.
  Lemma tri_new pre q : has pre (objects q) -> tri pre (new W i q) (fun o => opt o ++ pre).
  Proof.
    intros HH b s a t s' HB E. unfold new in E. destruct (i_new i q (snd s)) as [[x e] w] eqn:En. injection E as <- <- <-.
    split.
    - cbn [sound allowed]. split; [|destruct x; cbn; tauto]. intros y Hy. destruct (HH y Hy) as [Hp | Ho]; [|right; exact Ho].
      left. pose proof (HB y). pose proof (cnt_in pre y Hp). lia.
    - intros y. rewrite cnt_app. destruct x; cbn [opt map afters exceptions after cnt]; lia.
  Qed.
  Lemma tri_num pre q : has pre (objects q) -> tri pre (num W i q) (fun _ => pre).
  Proof.
    intros HH. apply tri_uses with (1 := HH). intros s a t s' E. unfold num in E. destruct (i_num i q (snd s)) as [[x e] w].
    injection E as <- <- <-. reflexivity.
  Qed.
  Lemma tri_clear pre : tri pre (err_clear W) (fun _ => pre).
  Proof. apply tri_uses with (l := []); [intros x []|]. intros s a t s' [= <- <- <-]. reflexivity. Qed.
  Lemma tri_occurred pre : tri pre (err_occurred W) (fun _ => pre).
  Proof. apply tri_uses with (l := []); [intros x []|]. intros s a t s' [= <- <- <-]. reflexivity. Qed.
  Lemma tri_format pre : tri pre (err_format W i) (fun _ => pre).
  Proof.
    apply tri_uses with (l := []); [intros x []|]. intros s a t s' E. unfold err_format in E. destruct (i_format i (snd s)).
    injection E as <- <- <-. reflexivity.
  Qed.
  Lemma tri_use pre l : has pre l -> tri pre (emit W (Uses l)) (fun _ => pre).
  Proof. intros HH. apply tri_uses with (1 := HH). intros s a t s' [= <- <- <-]. reflexivity. Qed.
  Lemma tri_mark pre e : match e with Ensure | Release | Begin | End => True | _ => False end -> tri pre (emit W e) (fun _ => pre).
  Proof.
    intros HE b s a t s' HB [= <- <- <-]. destruct e; try contradiction; (split; [cbn; tauto|]; intros x; cbn [afters exceptions after]; lia).
  Qed.
  Lemma tri_incref pre x : tri pre (incref W x) (fun _ => x :: pre).
  Proof. intros b s a t s' HB [= <- <- <-]. split; [cbn; tauto|]. intros y. cbn [afters exceptions after cnt]. lia. Qed.
  Lemma tri_decref pre o rest : (forall x, cnt pre x = cnt (opt o) x + cnt rest x) -> tri pre (decref W o) (fun _ => rest).
  Proof.
    intros HC b s a t s' HB [= <- <- <-]. split.
    - destruct o as [y|]; [|exact Logic.I]. cbn [opt map sound allowed]. split; [|exact Logic.I].
      pose proof (HB y). pose proof (HC y) as C. cbn [opt cnt] in C. rewrite ind_same in C. pose proof (cnt_pos rest y). lia.
    - intros x. pose proof (HC x). destruct o as [y|]; cbn [opt map afters exceptions after cnt] in *; lia.
  Qed.
  Lemma tri_if A (c : bool) (f g : H W A) pre post : tri pre f post -> tri pre g post -> tri pre (if c then f else g) post.
  Proof. destruct c; auto. Qed.

  Lemma tri_fetch_block A pre (k : option nat -> H W A) post :
    (forall v p, incl pre p -> (forall y, In y (opt v) -> In y p) -> tri p (k v) (fun a => post a ++ p)) ->
    tri pre (hbind W (err_fetch W) k) (fun a => post a ++ pre).
  Proof.
    intros Hk b s a t s' HB E. unfold hbind in E. unfold err_fetch in E. destruct s as [[e|] w]; cbn [fst snd] in E.
    - destruct (k (x_value e) (None, w)) as [[c t2] s2] eqn:E2. injection E as <- <- <-.
      destruct (Hk (x_value e) (pre ++ opt (x_value e)) ltac:(intros y; rewrite in_app_iff; tauto)
                  ltac:(intros y; rewrite in_app_iff; tauto) (after b (Fetched e)) (None, w) c t2 s2) as [S2 B2]; [|exact E2|].
      { intros x. cbn [after]. unfold in_exn. rewrite cnt_app, !ind_opt_cnt. pose proof (HB x). pose proof (ind_range (x_type e) x).
        pose proof (cnt_pos (opt (x_trace e)) x). lia. }
      cbn [app sound allowed afters]. split; [tauto|]. intros x. rewrite (B2 x). cbn [exceptions after]. rewrite !cnt_app. lia.
    - destruct (k None (None, w)) as [[c t2] s2] eqn:E2. injection E as <- <- <-.
      destruct (Hk None pre ltac:(intros y; tauto) ltac:(intros y []) b (None, w) c t2 s2 HB E2) as [S2 B2].
      cbn [app sound allowed afters]. split; [split; [intros x []|exact S2]|]. intros x. 
      change (after b (Uses [])) with (after b (Uses [])). cbn [exceptions]. 
      assert (EQ : afters (after b (Uses [])) t2 x = afters b t2 x) by reflexivity. rewrite EQ, (B2 x). rewrite !cnt_app. lia.
  Qed.
End Logic.

Ltac hs := let y := fresh "y" in let Hy := fresh "Hy" in intros y Hy; cbn [objects opts opt app] in Hy |- *; rewrite ?app_nil_r, ?in_app_iff in *; cbn [In] in *; rewrite ?in_app_iff in *; cbn [In] in *; intuition (subst; auto).
Ltac cs := let y := fresh "y" in intros y; cbn [opt app cnt]; rewrite ?cnt_app; cbn [opt cnt]; rewrite ?cnt_app; cbn [opt cnt]; lia.
Ltac st := eapply tri_bind; [first [apply tri_clear | apply tri_occurred | apply tri_format | (apply tri_new; hs) | (apply tri_num; hs) | (apply tri_use; hs) | (apply tri_mark; exact Logic.I) | apply tri_incref] | intros ?; cbv beta].
Ltac dr q := eapply tri_bind; [apply tri_decref with (rest := q); cs | intros ?; cbv beta].

Section Functions.
  Variables (W : Type) (i : interp W) (own : nat -> Prop).
  Notation tri := (tri W own).

  Lemma fetch_bytes pre u : (forall y, In y (opt u) -> In y pre) ->
    tri pre (match u with Some _ => hbind W (num W i (QBytes u)) (fun _ => hret W tt) | None => hret W tt end) (fun _ => pre).
  Proof.
    intros Hu. destruct u as [u|]; [|apply tri_ret; reflexivity].
    eapply tri_bind; [apply tri_num|intros n; apply tri_ret; reflexivity].
    intros y Hy. left. apply Hu. exact Hy.
  Qed.
  Lemma error_fetch_tri pre : tri pre (error_fetch W i) (fun _ => pre).
  Proof.
    apply (tri_fetch_block W own unit pre _ (fun _ => [])). intros v p Hp Hv. cbn [app].
    eapply tri_bind; [apply tri_new; intros y Hy; left; apply Hv; exact Hy|intros o; cbv beta].
    eapply tri_bind; [apply tri_new; hs|intros u; cbv beta].
    eapply tri_bind; [apply fetch_bytes; intros y Hy; rewrite in_app_iff; tauto|intros n; cbv beta].
    eapply tri_bind; [apply tri_decref with (rest := opt o ++ p); cs|intros n'; cbv beta].
    apply tri_decref. cs.
  Qed.
  Ltac fe := eapply tri_bind; [apply error_fetch_tri|intros ?; cbv beta; apply tri_ret; cs].

  Lemma copy_tri pre un x : In x pre -> tri pre (copy_to_64bit W i un x) (fun _ => pre).
  Proof.
    intros Hx. unfold copy_to_64bit. st. eapply tri_bind; [apply tri_num; intros y [<- | []]; left; exact Hx|intros r; cbv beta].
    apply tri_if; [fe|]. apply tri_if; [apply tri_ret; reflexivity|]. st.
    eapply tri_bind; [apply tri_num; intros y [<- | []]; left; exact Hx|intros v; cbv beta]. st. apply tri_if; [fe|apply tri_ret; reflexivity].
  Qed.
  Lemma read_tri pre fo n : In fo pre -> tri pre (read_buffer W i fo n) (fun _ => pre).
  Proof.
    intros HF. unfold read_buffer. apply tri_if; [apply tri_ret; reflexivity|]. apply tri_if; [apply tri_ret; reflexivity|].
    st. rename a into name. st. rename a into arg. st. st. rename a0 into r. st.
    apply tri_bind with (mid := fun _ => opt r ++ opt arg ++ opt name ++ pre).
    - apply tri_if; [fe|]. destruct r as [x|]; [|apply tri_ret; reflexivity]. cbn [opt app].
      st. apply tri_if; [apply tri_ret; reflexivity|]. st. apply tri_if; [fe|]. st. apply tri_ret. reflexivity.
    - intros ok. dr (opt arg ++ opt name ++ pre). dr (opt name ++ pre). dr pre. apply tri_ret. reflexivity.
  Qed.
  Lemma seek_tri pre fo off wh : In fo pre -> tri pre (seek_offset W i fo off wh) (fun _ => pre).
  Proof.
    intros HF. unfold seek_offset. apply tri_if; [apply tri_ret; reflexivity|].
    st. rename a into name. st. rename a into arg. st. rename a into arg2. st. st. rename a0 into r. st.
    apply tri_bind with (mid := fun _ => opt r ++ opt arg2 ++ opt arg ++ opt name ++ pre).
    - apply tri_if; [fe|]. apply tri_ret. reflexivity.
    - intros ok. dr (opt arg2 ++ opt arg ++ opt name ++ pre). dr (opt arg ++ opt name ++ pre). dr (opt name ++ pre). dr pre. apply tri_ret. reflexivity.
  Qed.
  Lemma offset_call_tri pre fo name : In fo pre -> tri (opt name ++ pre) (offset_call W i fo name) (fun _ => pre).
  Proof.
    intros HF. unfold offset_call. st. st. rename a0 into r. st.
    apply tri_bind with (mid := fun _ => opt r ++ opt name ++ pre).
    - apply tri_if; [fe|]. destruct r as [x|]; [|apply tri_ret; reflexivity]. apply copy_tri. left. reflexivity.
    - intros ok. dr (opt name ++ pre). dr pre. apply tri_ret. reflexivity.
  Qed.
  Lemma offset_tri pre fo : In fo pre -> tri pre (get_offset W i fo) (fun _ => pre).
  Proof.
    intros HF. unfold get_offset. st. rename a into name. st. st. apply tri_if; [|apply offset_call_tri; exact HF].
    dr pre. st. apply offset_call_tri. exact HF.
  Qed.
  Lemma size_tri pre fo : In fo pre -> tri pre (get_size W i fo) (fun _ => pre).
  Proof.
    intros HF. unfold get_size. st. rename a into name. st. st. rename a0 into r. st.
    apply tri_bind with (mid := fun _ => opt r ++ opt name ++ pre).
    - apply tri_if; [fe|]. destruct r as [x|]; [|apply tri_ret; reflexivity]. apply copy_tri. left. reflexivity.
    - intros ok. dr (opt name ++ pre). dr pre. apply tri_ret. reflexivity.
  Qed.
  Ltac rt := apply tri_ret; reflexivity.
  Lemma io_tri pre fo c : In fo pre -> tri pre (io W i fo c) (fun _ => pre).
  Proof.
    intros HF. unfold io. st. apply tri_bind with (mid := fun _ => pre); [|intros u; apply tri_mark; exact Logic.I].
    destruct c as [n|off wh|].
    - eapply tri_bind; [apply read_tri; exact HF|intros; rt].
    - eapply tri_bind; [apply seek_tri; exact HF|intros ok; cbv beta]. apply tri_if; [|rt].
      eapply tri_bind; [apply offset_tri; exact HF|intros; rt].
    - st. rename a0 into name. st. st. 
      assert (HF' : In fo (opt name ++ pre)) by (rewrite in_app_iff; tauto).
      apply tri_bind with (mid := fun _ => opt name ++ pre); [|intros u; apply tri_decref; cs].
      apply tri_if; [eapply tri_bind; [apply size_tri; exact HF'|intros; rt]|].
      eapply tri_bind; [apply offset_tri; exact HF'|intros ok; cbv beta]. apply tri_if; [rt|].
      eapply tri_bind; [apply seek_tri; exact HF'|intros ok2; cbv beta]. apply tri_if; [rt|].
      eapply tri_bind; [apply offset_tri; exact HF'|intros ok3; cbv beta].
      eapply tri_bind; [apply seek_tri; exact HF'|intros; rt].
  Qed.
  Lemma ios_tri pre fo l : In fo pre -> tri pre (ios W i fo l) (fun _ => pre).
  Proof.
    intros HF. induction l as [|c l IH]; cbn [ios]; [rt|]. eapply tri_bind; [apply io_tri; exact HF|intros; exact IH].
  Qed.
  Lemma library_tri pre h l : (forall x, In x (opt h) -> In x pre) -> tri pre (library W i h l) (fun _ => pre).
  Proof.
    intros HH. unfold library. st. apply tri_bind with (mid := fun _ => pre); [|intros u; apply tri_mark; exact Logic.I].
    destruct h as [fo|]; [|rt]. apply ios_tri. apply HH. left. reflexivity.
  Qed.
  Lemma handle_free_tri pre fo rest : (forall x, cnt pre x = ind fo x + cnt rest x) -> tri pre (handle_free W fo) (fun _ => rest).
  Proof.
    intros HC. unfold handle_free. st. eapply tri_bind; [apply tri_decref with (rest := rest)|intros u; apply tri_mark; exact Logic.I].
    intros x. rewrite (HC x). cbn [opt cnt]. lia.
  Qed.

  (* the references after a function of the container object: its result, and that of the handle *)
  Definition result (pre : list nat) (a : option nat * option nat) : list nat := opt (fst a) ++ opt (snd a) ++ pre.
  Lemma open_tri pre none fo l works h : own fo ->
    tri (opt h ++ pre) (open_file_object W i none fo l works h) (result pre).
  Proof.
    intros HO. unfold open_file_object. st. st. apply tri_if; [st; rt|]. st. st. apply tri_if; [st; rt|].
    destruct h as [g|].
    - st. eapply tri_bind; [apply handle_free_tri with (rest := pre); cs|intros u; cbv beta]. rt.
    - cbn [opt app]. eapply tri_bind; [apply tri_incref|intros u; cbv beta].
      eapply tri_bind; [apply library_tri; intros x [<- | []]; left; reflexivity|intros u2; cbv beta].
      apply tri_if.
      + st. rt.
      + st. eapply tri_bind; [apply handle_free_tri with (rest := pre); cs|intros u3; cbv beta]. rt.
  Qed.
  Lemma close_tri pre none h : tri (opt h ++ pre) (close_container W i none h) (result pre).
  Proof.
    unfold close_container. eapply tri_bind; [apply library_tri; intros x []|intros u; cbv beta].
    apply tri_bind with (mid := fun _ => pre).
    - destruct h as [g|]; [|rt]. st. eapply tri_bind; [apply handle_free_tri with (rest := pre); cs|intros u2; apply tri_mark; exact Logic.I].
    - intros u2. st. rt.
  Qed.
  Lemma hbind_fst A B (f : H W A) (k : A -> H W B) s :
    fst (fst (hbind W f k s)) = fst (fst (k (fst (fst (f s))) (snd (f s)))).
  Proof. unfold hbind. destruct (f s) as [[a t] s1]. cbn [fst snd]. destruct (k a s1) as [[c u] s2]. reflexivity. Qed.
  Lemma close_fst none h s : fst (fst (close_container W i none h s)) = (Some none, None).
  Proof. unfold close_container. rewrite !hbind_fst. reflexivity. Qed.
  Lemma open_fst none fo l works s :
    let a := fst (fst (open_file_object W i none fo l works None s)) in a = (None, None) \/ a = (Some none, Some fo).
  Proof.
    cbv zeta. unfold open_file_object. rewrite !hbind_fst.
    match goal with |- context [if negb (?x =? 1) then _ else _] => destruct (negb (x =? 1)) end; rewrite !hbind_fst; [left; reflexivity|].
    match goal with |- context [if negb (?x =? 1) then _ else _] => destruct (negb (x =? 1)) end; rewrite !hbind_fst; [left; reflexivity|].
    destruct works; rewrite !hbind_fst; [right|left]; reflexivity.
  Qed.
  Lemma dealloc_tri pre none h :
    tri (opt h ++ pre) (dealloc_container W i none h) (fun _ => (match h with Some _ => [none] | None => [] end) ++ pre).
  Proof.
    unfold dealloc_container. apply tri_bind with (mid := fun _ => (match h with Some _ => [none] | None => [] end) ++ pre).
    - destruct h as [g|]; [|rt].
      apply tri_bind_pure with (mid := result pre) (P := fun a => a = (Some none, None)); [apply close_tri|apply close_fst|].
      intros a ->. rt.
    - intros u. apply library_tri. intros x [].
  Qed.
  Lemma check_tri ctrue cfalse fo l r :
    tri [] (check_signature W i ctrue cfalse fo l r) (fun a => opt a).
  Proof.
    unfold check_signature. eapply tri_bind; [apply tri_incref|intros u; cbv beta].
    eapply tri_bind; [apply library_tri; intros x [<- | []]; left; reflexivity|intros u2; cbv beta].
    apply tri_if.
    - st. eapply tri_bind; [apply handle_free_tri with (rest := []); cs|intros u3; cbv beta]. rt.
    - eapply tri_bind; [apply handle_free_tri with (rest := []); cs|intros u3; cbv beta].
      apply tri_if; st; rt.
  Qed.
  Definition opened_refs (none : nat) (a : option nat * option nat) : list nat :=
    match fst a with Some c => c :: none :: opt (snd a) | None => [] end.
  Lemma open_new_tri none fo l works : own fo ->
    tri [] (open_new_file_object W i none fo l works) (opened_refs none).
  Proof.
    intros HO. unfold open_new_file_object. st. destruct a as [c|]; [|st; rt]. cbn [opt app].
    apply tri_bind_pure with (mid := result [c]) (P := fun a => a = (None, None) \/ a = (Some none, Some fo));
      [apply (open_tri [c] none fo l works None HO)|intros s; apply (open_fst none fo l works s)|].
    intros a [-> | ->]; unfold result; cbn [fst snd opt app].
    - eapply tri_bind; [apply tri_decref with (rest := []); cs|intros u; cbv beta].
      eapply tri_bind; [apply (dealloc_tri [] none None)|intros u2; cbv beta]. rt.
    - apply tri_ret. intros x. unfold opened_refs. cbn [fst snd opt app cnt]. lia.
  Qed.
  Lemma used_tri pre none u h : (match u with UOpen fo _ _ => own fo | _ => True end) ->
    tri (opt h ++ pre) (used W i none u h) (fun h => opt h ++ pre).
  Proof.
    intros HO. destruct u as [fo l works|l|]; cbn [used].
    - eapply tri_bind; [apply open_tri; exact HO|intros a; cbv beta]. unfold result. dr (opt (snd a) ++ pre). rt.
    - eapply tri_bind; [apply library_tri; intros x; rewrite in_app_iff; tauto|intros u; cbv beta]. rt.
    - eapply tri_bind; [apply close_tri|intros a; cbv beta]. unfold result. dr (opt (snd a) ++ pre). rt.
  Qed.
  Lemma uses_tri pre none l h : (forall fo c w, In (UOpen fo c w) l -> own fo) ->
    tri (opt h ++ pre) (uses W i none l h) (fun h => opt h ++ pre).
  Proof.
    revert h; induction l as [|u l IH]; intros h HO; cbn [uses]; [rt|].
    eapply tri_bind; [apply used_tri|intros h'; apply IH; intros fo c w HI; apply (HO fo c w); right; exact HI].
    destruct u as [fo c w| |]; try exact Logic.I. apply (HO fo c w). left. reflexivity.
  Qed.
End Functions.

(* ---- the lock ---- *)
Section Lock.
  Variables (W : Type) (i : interp W).
  Definition keeps {A} (f : H W A) : Prop :=
    forall s n r, lock (S n :: r) (snd (fst (f s))) = Some (S n :: r).
  (* also without the lock *)
  Definition keeps_any {A} (f : H W A) : Prop :=
    forall s n r, lock (n :: r) (snd (fst (f s))) = Some (n :: r).

  Lemma bind_trace A B (f : H W A) (k : A -> H W B) s :
    snd (fst (hbind W f k s)) = snd (fst (f s)) ++ snd (fst (k (fst (fst (f s))) (snd (f s)))).
  Proof. unfold hbind. destruct (f s) as [[a t] s1]. cbn [fst snd]. destruct (k a s1) as [[c u] s2]. reflexivity. Qed.
  Lemma keeps_bind A B (f : H W A) (k : A -> H W B) : keeps f -> (forall a, keeps (k a)) -> keeps (hbind W f k).
  Proof. intros Hf Hk s n r. rewrite bind_trace, lock_app, (Hf s n r). apply Hk. Qed.
  Lemma keeps_ret A (a : A) : keeps (hret W a).
  Proof. intros s n r. reflexivity. Qed.
  Lemma keeps_if A (c : bool) (f g : H W A) : keeps f -> keeps g -> keeps (if c then f else g).
  Proof. destruct c; auto. Qed.
  Lemma keeps_new q : keeps (new W i q).
  Proof. intros s n r. unfold new. destruct (i_new i q (snd s)) as [[[x|] e] w]; reflexivity. Qed.
  Lemma keeps_num q : keeps (num W i q).
  Proof. intros s n r. unfold num. destruct (i_num i q (snd s)) as [[x e] w]; reflexivity. Qed.
  Lemma keeps_decref o : keeps (decref W o).
  Proof. intros s n r. destruct o; reflexivity. Qed.
  Lemma keeps_incref x : keeps (incref W x).
  Proof. intros s n r. reflexivity. Qed.
  Lemma keeps_clear : keeps (err_clear W).
  Proof. intros s n r. reflexivity. Qed.
  Lemma keeps_occurred : keeps (err_occurred W).
  Proof. intros s n r. reflexivity. Qed.
  Lemma keeps_format : keeps (err_format W i).
  Proof. intros s n r. unfold err_format. destruct (i_format i (snd s)). reflexivity. Qed.
  Lemma keeps_fetch : keeps (err_fetch W).
  Proof. intros [[e|] w] n r; reflexivity. Qed.
  Lemma keeps_uses l : keeps (emit W (Uses l)).
  Proof. intros s n r. reflexivity. Qed.
  Lemma keeps_within A (f : H W A) : keeps f -> keeps_any (hbind W (emit W Ensure) (fun _ => hbind W f (fun _ => emit W Release))).
  Proof.
    intros Hf s n r. rewrite !bind_trace. unfold emit at 1. cbn [fst snd app lock]. rewrite lock_app, (Hf _ n r). reflexivity.
  Qed.
  Lemma keeps_any_keeps A (f : H W A) : keeps_any f -> keeps f.
  Proof. intros Hf s n r. apply Hf. Qed.
  Lemma keeps_without A (f : H W A) : keeps_any f -> keeps (hbind W (emit W Begin) (fun _ => hbind W f (fun _ => emit W End))).
  Proof.
    intros Hf s n r. rewrite !bind_trace. unfold emit at 1. cbn [fst snd app lock]. rewrite lock_app, (Hf _ O (S n :: r)). reflexivity.
  Qed.
  Ltac kp := repeat first [apply keeps_ret | apply keeps_new | apply keeps_num | apply keeps_decref | apply keeps_incref | apply keeps_clear
    | apply keeps_occurred | apply keeps_format | apply keeps_fetch | apply keeps_uses | apply keeps_if
    | match goal with |- keeps (match ?o with Some _ => _ | None => _ end) => destruct o end
    | (apply keeps_bind; [|intros ?])].
  Lemma keeps_error_fetch : keeps (error_fetch W i).
  Proof. unfold error_fetch. kp. Qed.
  Lemma keeps_error_raise : keeps (error_fetch_and_raise W i).
  Proof. unfold error_fetch_and_raise. kp. Qed.
  Ltac kq := repeat first [apply keeps_error_fetch | apply keeps_error_raise | progress kp].
  Lemma keeps_copy un x : keeps (copy_to_64bit W i un x).
  Proof. unfold copy_to_64bit. kq. Qed.
  Lemma keeps_read fo n : keeps (read_buffer W i fo n).
  Proof. unfold read_buffer. kq. Qed.
  Lemma keeps_seek fo off wh : keeps (seek_offset W i fo off wh).
  Proof. unfold seek_offset. kq. Qed.
  Lemma keeps_offset_call fo name : keeps (offset_call W i fo name).
  Proof. unfold offset_call. repeat first [apply keeps_copy | progress kq]. Qed.
  Lemma keeps_offset fo : keeps (get_offset W i fo).
  Proof. unfold get_offset. repeat first [apply keeps_offset_call | progress kq]. Qed.
  Lemma keeps_size fo : keeps (get_size W i fo).
  Proof. unfold get_size. repeat first [apply keeps_copy | progress kq]. Qed.
  Lemma keeps_io fo c : keeps_any (io W i fo c).
  Proof.
    unfold io. apply keeps_within. destruct c; repeat first [apply keeps_read | apply keeps_seek | apply keeps_offset | apply keeps_size | progress kq].
  Qed.
  Lemma keeps_ios fo l : keeps_any (ios W i fo l).
  Proof.
    induction l as [|c l IH]; intros s n r; cbn [ios]; [reflexivity|]. rewrite bind_trace, lock_app, keeps_io. apply IH.
  Qed.
  Lemma keeps_library h l : keeps (library W i h l).
  Proof. unfold library. apply keeps_without. destruct h; [apply keeps_ios|]. intros s n r. reflexivity. Qed.
  Lemma keeps_free fo : keeps_any (handle_free W fo).
  Proof. unfold handle_free. apply keeps_within. apply keeps_decref. Qed.
  Local Opaque handle_free library.
  Ltac kr := repeat first [apply keeps_library | (apply keeps_any_keeps; apply keeps_free) | (apply keeps_without; apply keeps_free) | progress kq].
  Lemma keeps_open none fo l works h : keeps (open_file_object W i none fo l works h).
  Proof. unfold open_file_object, handle_new. kr. Qed.
  Lemma keeps_named none text works : keeps (open_named W i none text works).
  Proof. unfold open_named. kr. Qed.
  Lemma keeps_close none h : keeps (close_container W i none h).
  Proof.
    unfold close_container. apply keeps_bind; [apply keeps_library|intros u]. apply keeps_bind; [|intros u2; kr].
    destruct h; [apply keeps_without; apply keeps_free|kr].
  Qed.
  Lemma keeps_dealloc none h : keeps (dealloc_container W i none h).
  Proof. unfold dealloc_container. apply keeps_bind; [|intros u; kr]. destruct h; [|kr]. apply keeps_bind; [apply keeps_close|intros a; kr]. Qed.
  Lemma keeps_check ctrue cfalse fo l r : keeps (check_signature W i ctrue cfalse fo l r).
  Proof. unfold check_signature, handle_new. kr. Qed.
  Lemma keeps_open_new none fo l works : keeps (open_new_file_object W i none fo l works).
  Proof. unfold open_new_file_object. repeat first [apply keeps_open | apply keeps_dealloc | progress kr]. Qed.
  Lemma keeps_new_named none text works : keeps (open_new_named W i none text works).
  Proof. unfold open_new_named. repeat first [apply keeps_named | apply keeps_dealloc | progress kr]. Qed.
  Lemma keeps_used none u h : keeps (used W i none u h).
  Proof. destruct u; cbn [used]; repeat first [apply keeps_open | apply keeps_close | progress kr]. Qed.
  Lemma keeps_many none l h : keeps (uses W i none l h).
  Proof. revert h; induction l as [|u l IH]; intros h; cbn [uses]; [kr|]. apply keeps_bind; [apply keeps_used|intros h'; apply IH]. Qed.
End Lock.
