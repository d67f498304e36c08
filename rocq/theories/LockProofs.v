(* Proofs about the locks: an analysis of the functions, its soundness, and absence of deadlock
   for threads whose calls are balanced. *)
From Verif Require Import Base BaseLemmas Locks LockSpec.

Definition held := option bool.
Definition after1 (h : held) (e : event) : option held :=
  match e, h with
  | EGrab w, None => Some (Some w)
  | ERelease w, Some w' => if Bool.eqb w w' then Some None else None
  | _, _ => None
  end.
Fixpoint after (h : held) (t : list event) : option held :=
  match t with [] => Some h | e :: t => match after1 h e with Some h' => after h' t | None => None end end.

Definition both {A} (a b : option (list A)) : option (list A) := match a, b with Some a, Some b => Some (a ++ b) | _, _ => None end.
Fixpoint thens (outs : list (outcome * held)) (k : held -> option (list (outcome * held))) : option (list (outcome * held)) :=
  match outs with
  | [] => Some []
  | (Next, h) :: r => both (k h) (thens r k)
  | o :: r => both (Some [o]) (thens r k)
  end.
Fixpoint errors (outs : list (outcome * held)) (k : held -> option (list (outcome * held))) : option (list held) :=
  match outs with
  | [] => Some []
  | (Returned, h) :: r => both (Some [h]) (errors r k)
  | (_, h) :: r => both (option_map (map snd) (k h)) (errors r k)
  end.
Fixpoint run (n : nat) (l : list stmt) (h : held) : option (list (outcome * held)) :=
  match n with
  | O => None
  | S n =>
    match l with
    | [] => Some [(Next, h)]
    | s :: l => match run_one n s h with None => None | Some outs => thens outs (run n l) end
    end
  end
with run_one (n : nat) (s : stmt) (h : held) : option (list (outcome * held)) :=
  match n with
  | O => None
  | S n =>
    match s with
    | Return => Some [(Returned, h)]
    | Goto => Some [(Jumped, h)]
    | Choice a b => both (run n a h) (run n b h)
    | Grab w f => match h with Some _ => None | None => both (Some [(Next, Some w)]) (run n f None) end
    | Release w f => match h with Some w' => if Bool.eqb w w' then Some [(Next, None)] else None | None => None end
    | Call f => option_map (map (pair Next)) (run_fn n f h)
    end
  end
with run_fn (n : nat) (f : func) (h : held) : option (list held) :=
  match n with
  | O => None
  | S n => let (m, e) := f in match run n m h with None => None | Some outs => errors outs (run n e) end
  end.

Lemma both_some {A} (a b : option (list A)) l : both a b = Some l -> exists x y, a = Some x /\ b = Some y /\ l = x ++ y.
Proof. destruct a, b; cbn; try discriminate. intros E. exists l0, l1. split; [reflexivity|]. split; [reflexivity|congruence]. Qed.
Lemma thens_next outs k r h : thens outs k = Some r -> In (Next, h) outs -> exists r', k h = Some r' /\ incl r' r.
Proof.
  revert r. induction outs as [|[o x] outs IH]; intros r E HI; [contradiction|]. cbn [thens] in E.
  assert (X : forall c, both c (thens outs k) = Some r -> exists y, thens outs k = Some y /\ incl y r).
  { intros c Ec. apply both_some in Ec. destruct Ec as (u & y & _ & E2 & ->). exists y. split; [exact E2|]. apply incl_appr, incl_refl. }
  destruct HI as [HI|HI].
  - injection HI as -> ->. apply both_some in E. destruct E as (a & b & E1 & _ & ->). exists a. split; [exact E1|]. apply incl_appl, incl_refl.
  - assert (Y : exists y, thens outs k = Some y /\ incl y r) by (destruct o; eapply X; exact E). destruct Y as (y & EY & IY).
    destruct (IH y EY HI) as (r' & Er & Ir). exists r'. split; [exact Er|]. eapply incl_tran; eauto.
Qed.
Lemma thens_stop outs k r o h : thens outs k = Some r -> o <> Next -> In (o, h) outs -> In (o, h) r.
Proof.
  revert r. induction outs as [|[o' x] outs IH]; intros r E HO HI; [contradiction|]. cbn [thens] in E.
  assert (X : exists c y, thens outs k = Some y /\ r = c ++ y /\ (o' <> Next -> c = [(o', x)])).
  { destruct o'; apply both_some in E; destruct E as (a & b & E1 & E2 & ->); exists a, b; (split; [exact E2|]); (split; [reflexivity|]); intros N; congruence. }
  destruct X as (c & y & EY & -> & HC). apply in_or_app. destruct HI as [HI|HI].
  - injection HI as -> ->. left. rewrite HC by exact HO. left. reflexivity.
  - right. apply (IH y EY HO HI).
Qed.
Lemma errors_in outs k r o h : errors outs k = Some r -> In (o, h) outs ->
  (o = Returned -> In h r) /\ (o <> Returned -> exists r', k h = Some r' /\ incl (map snd r') r).
Proof.
  revert r. induction outs as [|[o' x] outs IH]; intros r E HI; [contradiction|]. cbn [errors] in E. destruct HI as [HI|HI].
  - injection HI as -> ->. destruct o.
    + apply both_some in E. destruct E as (a & b & E1 & _ & ->). split; [discriminate|]. intros _. destruct (k h) as [r'|]; [|discriminate]. cbn in E1. injection E1 as <-.
      exists r'. split; [reflexivity|]. apply incl_appl, incl_refl.
    + apply both_some in E. destruct E as (a & b & E1 & _ & ->). injection E1 as <-. split; [intros _; left; reflexivity|congruence].
    + apply both_some in E. destruct E as (a & b & E1 & _ & ->). split; [discriminate|]. intros _. destruct (k h) as [r'|]; [|discriminate]. cbn in E1. injection E1 as <-.
      exists r'. split; [reflexivity|]. apply incl_appl, incl_refl.
  - assert (X : exists c y, errors outs k = Some y /\ r = c ++ y).
    { destruct o'; apply both_some in E; destruct E as (a & b & E1 & E2 & ->); eauto. }
    destruct X as (c & y & EY & ->). destruct (IH y EY HI) as (H1 & H2). split.
    + intros HO. apply in_or_app. auto.
    + intros HO. destruct (H2 HO) as (r' & E1 & E2). exists r'. split; [exact E1|]. apply incl_appr, E2.
Qed.
Lemma after_app h t1 : forall t2, after h (t1 ++ t2) = match after h t1 with Some h' => after h' t2 | None => None end.
Proof. revert h. induction t1 as [|e t1 IH]; intros h t2; [reflexivity|]. cbn [app after]. destruct (after1 h e); [apply IH|reflexivity]. Qed.

Scheme exec_ind3 := Induction for exec Sort Prop
  with one_ind3 := Induction for one Sort Prop
  with call_ind3 := Induction for call Sort Prop.
Combined Scheme run_ind from exec_ind3, one_ind3, call_ind3.

Lemma run_sound :
  (forall l t o, exec l t o -> forall n h outs, run n l h = Some outs -> exists h', after h t = Some h' /\ In (o, h') outs) /\
  (forall s t o, one s t o -> forall n h outs, run_one n s h = Some outs -> exists h', after h t = Some h' /\ In (o, h') outs) /\
  (forall f t, call f t -> forall n h outs, run_fn n f h = Some outs -> exists h', after h t = Some h' /\ In h' outs).
Proof.
  apply (run_ind (fun l t o _ => forall n h outs, run n l h = Some outs -> exists h', after h t = Some h' /\ In (o, h') outs)
    (fun s t o _ => forall n h outs, run_one n s h = Some outs -> exists h', after h t = Some h' /\ In (o, h') outs)
    (fun f t _ => forall n h outs, run_fn n f h = Some outs -> exists h', after h t = Some h' /\ In h' outs)).
  - intros [|n] h outs E; [discriminate|]. cbn in E. injection E as <-. exists h. split; [reflexivity|left; reflexivity].
  - intros s l t1 t2 o _ IH1 _ IH2 [|n] h outs E; [discriminate|]. cbn [run] in E. destruct (run_one n s h) as [os|] eqn:E1; [|discriminate].
    destruct (IH1 n h os E1) as (h1 & A1 & I1). destruct (thens_next os (run n l) outs h1 E I1) as (r & E2 & IR).
    destruct (IH2 n h1 r E2) as (h2 & A2 & I2). exists h2. rewrite after_app, A1. auto.
  - intros s l t o _ IH1 HO [|n] h outs E; [discriminate|]. cbn [run] in E. destruct (run_one n s h) as [os|] eqn:E1; [|discriminate].
    destruct (IH1 n h os E1) as (h1 & A1 & I1). exists h1. split; [exact A1|]. eapply thens_stop; eauto.
  - intros [|n] h outs E; [discriminate|]. cbn in E. injection E as <-. exists h. split; [reflexivity|left; reflexivity].
  - intros [|n] h outs E; [discriminate|]. cbn in E. injection E as <-. exists h. split; [reflexivity|left; reflexivity].
  - intros a b t o _ IH [|n] h outs E; [discriminate|]. cbn [run_one] in E. apply both_some in E. destruct E as (x & y & E1 & E2 & ->).
    destruct (IH n h x E1) as (h1 & A1 & I1). exists h1. split; [exact A1|]. apply in_or_app. auto.
  - intros a b t o _ IH [|n] h outs E; [discriminate|]. cbn [run_one] in E. apply both_some in E. destruct E as (x & y & E1 & E2 & ->).
    destruct (IH n h y E2) as (h1 & A1 & I1). exists h1. split; [exact A1|]. apply in_or_app. auto.
  - intros w f [|n] h outs E; [discriminate|]. cbn [run_one] in E. destruct h; [discriminate|]. apply both_some in E. destruct E as (x & y & E1 & E2 & ->).
    injection E1 as <-. exists (Some w). split; [reflexivity|]. left. reflexivity.
  - intros w f t o _ IH [|n] h outs E; [discriminate|]. cbn [run_one] in E. destruct h; [discriminate|]. apply both_some in E. destruct E as (x & y & E1 & E2 & ->).
    destruct (IH n None y E2) as (h1 & A1 & I1). exists h1. split; [exact A1|]. apply in_or_app. auto.
  - intros w f [|n] h outs E; [discriminate|]. cbn [run_one] in E. destruct h as [w'|]; [|discriminate]. cbn [after after1]. destruct (Bool.eqb w w'); [|discriminate].
    injection E as <-. exists None. split; [reflexivity|]. left. reflexivity.
  - intros f t _ IH [|n] h outs E; [discriminate|]. cbn [run_one] in E. destruct (run_fn n f h) as [hs|] eqn:E1; [|discriminate]. cbn in E. injection E as <-.
    destruct (IH n h hs E1) as (h1 & A1 & I1). exists h1. split; [exact A1|]. apply in_map. exact I1.
  - intros m e t _ IH [|n] h outs E; [discriminate|]. cbn [run_fn] in E. destruct (run n m h) as [os|] eqn:E1; [|discriminate].
    destruct (IH n h os E1) as (h1 & A1 & I1). exists h1. split; [exact A1|]. apply (proj1 (errors_in os (run n e) outs Returned h1 E I1)). reflexivity.
  - intros m e t1 t2 o o' _ IH1 HO _ IH2 [|n] h outs E; [discriminate|]. cbn [run_fn] in E. destruct (run n m h) as [os|] eqn:E1; [|discriminate].
    destruct (IH1 n h os E1) as (h1 & A1 & I1). destruct (proj2 (errors_in os (run n e) outs o h1 E I1) HO) as (r & E2 & IR).
    destruct (IH2 n h1 r E2) as (h2 & A2 & I2). exists h2. rewrite after_app, A1. split; [exact A2|]. apply IR. apply (in_map snd) in I2. exact I2.
Qed.

Lemma after_balanced : forall t, after None t = Some None -> balanced t.
Proof.
  assert (X : forall n t, (length t <= n)%nat -> after None t = Some None -> balanced t).
  { induction n as [|n IH]; intros t HL E; destruct t as [|e t]; try (constructor; fail); cbn [length] in HL; [lia|].
    cbn [after] in E. destruct e as [w|w]; cbn [after1] in E; [|discriminate]. destruct t as [|e t]; [discriminate|]. cbn [after] in E.
    destruct e as [w'|w']; cbn [after1] in E; [discriminate|]. destruct (Bool.eqb w' w) eqn:EW; [|discriminate]. apply Bool.eqb_prop in EW. subst w'.
    constructor. apply IH; [cbn [length] in HL; lia|exact E]. }
  intros t E. apply (X (length t) t); auto.
Qed.
Definition frees (n : nat) (f : func) : bool :=
  match run_fn n f None with Some hs => forallb (fun h => match h with None => true | Some _ => false end) hs | None => false end.
Lemma frees_sound n f t : frees n f = true -> call f t -> balanced t.
Proof.
  unfold frees. destruct (run_fn n f None) as [hs|] eqn:E; [|discriminate]. intros HF HC.
  destruct (proj2 (proj2 run_sound) f t HC n None hs E) as (h' & A & I). rewrite forallb_forall in HF. specialize (HF h' I). destruct h'; [discriminate|].
  apply after_balanced, A.
Qed.

(* ---- threads ---- *)
Inductive pairs : list (Z * event) -> Prop :=
| pairs_nil : pairs []
| pairs_cons : forall h w l, pairs l -> pairs ((h, EGrab w) :: (h, ERelease w) :: l).
Lemma pairs_app a b : pairs a -> pairs b -> pairs (a ++ b).
Proof. intros H HB. induction H; cbn [app]; [exact HB|constructor; assumption]. Qed.
Lemma balanced_pairs h t : balanced t -> pairs (map (pair h) t).
Proof. intros H. induction H; cbn [map]; constructor; assumption. Qed.
Lemma calls_pairs cs : Forall (fun c => balanced (snd c)) cs -> pairs (calls_of cs).
Proof.
  intros H. unfold calls_of. induction H as [|c cs H _ IH]; [constructor|]. cbn [map concat]. apply pairs_app; [apply balanced_pairs, H|exact IH].
Qed.
Definition good (t : thread) : Prop :=
  (th_held t = [] /\ pairs (th_todo t)) \/ (exists h w l, th_held t = [(h, w)] /\ th_todo t = (h, ERelease w) :: l /\ pairs l).
Lemma step_good ts ts' : step ts ts' -> Forall good ts -> Forall good ts'.
Proof.
  intros HS. destruct HS as [a b held h w todo HI|a b h w h1 h2 todo]; intros HG; apply Forall_app in HG; destruct HG as (HA & HB);
    apply Forall_app; (split; [exact HA|]); inversion HB as [|x l HX HL]; subst; constructor; try exact HL; clear HA HB HL.
  - destruct HX as [(H1 & H2)|(h' & w' & l & H1 & H2 & _)]; cbn [th_held th_todo] in *; [|discriminate]. subst held. inversion H2; subst.
    right. exists h, w, l. cbn [th_held th_todo]. auto.
  - destruct HX as [(H1 & H2)|(h' & w' & l & H1 & H2 & H3)]; cbn [th_held th_todo] in *; [destruct h1; discriminate|].
    injection H2 as -> -> ->. left. cbn [th_held th_todo]. split; [|exact H3]. destruct h1 as [|x h1]; [injection H1 as ->; reflexivity|].
    destruct h1; discriminate.
Qed.
Lemma steps_good ts ts' : steps ts ts' -> Forall good ts -> Forall good ts'.
Proof. intros H. induction H; auto. intros HG. eapply step_good; eauto. Qed.
Lemma nil_dec {A} (l : list A) : {l = []} + {l <> []}.
Proof. destruct l; [left; reflexivity|right; discriminate]. Qed.
Lemma good_progress ts : Forall good ts -> finished ts \/ exists ts', step ts ts'.
Proof.
  intros HG. destruct (Forall_Exists_dec (fun t => th_todo t = []) (fun t => nil_dec (th_todo t)) ts) as [HF|HE]; [left; exact HF|].
  right.
  assert (REL : forall t, In t ts -> th_held t <> [] -> exists ts', step ts ts').
  { intros t HT HH. apply in_split in HT. destruct HT as (a & b & ->). apply Forall_app in HG. destruct HG as (_ & HG). inversion HG as [|x l HX HL]; subst.
    destruct HX as [(H1 & _)|(h & w & l & H1 & H2 & _)]; [contradiction|]. destruct t as [hd td]. cbn [th_held th_todo] in *. subst.
    eexists. apply (step_release a b h w [] []). }
  apply Exists_exists in HE. destruct HE as (t & HT & HN).
  assert (GT : good t) by (rewrite Forall_forall in HG; apply HG, HT).
  destruct GT as [(H1 & H2)|(h & w & l & H1 & H2 & _)]; [|apply (REL t HT); rewrite H1; discriminate].
  destruct t as [hd td]. cbn [th_held th_todo] in *. subst hd. destruct H2 as [|h w l H2]; [contradiction|].
  destruct (Forall_Exists_dec (fun t => th_held t = []) (fun t => nil_dec (th_held t)) ts) as [HX|HX].
  - apply in_split in HT. destruct HT as (a & b & ->). eexists. apply step_grab. intros t w' Ht Hw. exfalso. rewrite Forall_forall in HX. rewrite (HX t Ht) in Hw. contradiction.
  - apply Exists_exists in HX. destruct HX as (t & HT' & HH). apply (REL t HT' HH).
Qed.
Lemma good_finished ts : Forall good ts -> finished ts -> Forall (fun t => th_held t = []) ts.
Proof.
  intros HG HF. unfold finished in HF. rewrite Forall_forall in *. intros t Ht. specialize (HG t Ht). specialize (HF t Ht).
  destruct HG as [(H & _)|(h & w & l & _ & H & _)]; [exact H|congruence].
Qed.
