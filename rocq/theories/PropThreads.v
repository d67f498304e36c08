(* C51: threads that use the same volume. *)
From Verif Require Import Base BaseLemmas Locks Threads.

(* Calls through one handle exclude each other, whatever the threads do. *)
Section One.
  Variable h : Z.
  Inductive rest_of_call : list op -> Prop :=
  | rest_here : forall bs cs, rest_of_call (map OAccess bs ++ [ORelease h true] ++ concat (map (accesses h) cs)).
  Definition outside (t : worker) : Prop := wk_held t = [] /\ wk_place t = Ready /\ exists cs, wk_todo t = concat (map (accesses h) cs).
  Definition inside (m : machine) (t : worker) : Prop :=
    wk_held t = [(h, true)] /\ rest_of_call (wk_todo t) /\
    match wk_place t with
    | Using a => allocated m a
    | Stored b => exists a, node_of (mc_nodes m) b = Some a
    | _ => True
    end.
  Definition safe (m : machine) : Prop :=
    Forall outside (mc_workers m) \/ exists l t r, mc_workers m = l ++ t :: r /\ Forall outside l /\ Forall outside r /\ inside m t.

  Lemma node_of_in nodes b a : node_of nodes b = Some a -> In a (map snd nodes).
  Proof.
    unfold node_of. destruct (find (fun e => fst e =? b) nodes) as [e|] eqn:E; [|discriminate]. cbn. intros X. injection X as <-.
    apply find_some in E. apply in_map. apply E.
  Qed.
  Lemma safe_not_broken m : safe m -> ~ broken m.
  Proof.
    intros HS (t & a & HI & HP & HA). destruct HS as [HF|(l & x & r & E & HL & HR & (_ & _ & HX))].
    - rewrite Forall_forall in HF. destruct (HF t HI) as (_ & P & _). congruence.
    - rewrite E in HI. apply in_app_or in HI. rewrite Forall_forall in HL, HR. destruct HI as [HI|[HI|HI]].
      + destruct (HL t HI) as (_ & P & _). congruence.
      + subst x. rewrite HP in HX. contradiction.
      + destruct (HR t HI) as (_ & P & _). congruence.
  Qed.
  (* a thread outside can only enter, and only if nobody is inside *)
  Lemma outside_moves ws t c t' c' : moves ws t c t' c' -> outside t -> c' = c /\ free_for ws h true /\ wk_held t' = [(h, true)] /\ wk_place t' = Ready /\ rest_of_call (wk_todo t').
  Proof.
    intros HM (H1 & H2 & cs & H3). destruct HM; cbn [wk_held wk_place wk_todo] in *; try discriminate.
    - subst held. destruct cs as [|bs cs]; [discriminate|]. cbn [map concat] in H3. unfold accesses in H3 at 1. cbn [app] in H3. injection H3 as -> -> ->.
      split; [reflexivity|]. split; [assumption|]. split; [reflexivity|]. split; [reflexivity|]. rewrite <- app_assoc. constructor.
    - destruct h1; discriminate.
    - destruct cs as [|bs cs]; discriminate.
    - destruct cs as [|bs cs]; discriminate.
  Qed.
  Lemma inside_moves m ws t t' c' : moves ws t (mc_nodes m, mc_next m) t' c' -> inside m t -> outside t' \/ forall ws', inside (mk_machine ws' (fst c') (snd c')) t'.
  Proof.
    intros HM (H1 & H2 & H3). remember (mc_nodes m, mc_next m) as c eqn:EC. destruct HM; cbn [wk_held wk_place wk_todo] in *; try (injection EC as -> ->).
    - inversion H2 as [bs cs E]. destruct bs; discriminate.
    - left. inversion H2 as [bs cs E]. destruct bs as [|b bs]; [|discriminate]. cbn [map app] in E. injection E as <- <- <-.
      split; [|split; [reflexivity|exists cs; reflexivity]]. cbn [wk_held]. destruct h1 as [|x h1]; [injection H1 as ->; reflexivity|destruct h1; discriminate].
    - right. intros ws'. split; [exact H1|]. inversion H2 as [bs cs E]. destruct bs as [|b' bs]; [discriminate|]. cbn [map app] in E. injection E as -> <-.
      split; [constructor|]. cbn [wk_place]. unfold allocated. cbn. apply (node_of_in _ b). assumption.
    - right. intros ws'. split; [exact H1|]. inversion H2 as [bs cs E]. destruct bs as [|b' bs]; [discriminate|]. cbn [map app] in E. injection E as -> <-.
      split; [constructor|]. exact I.
    - right. intros ws'. split; [exact H1|]. split; [exact H2|]. cbn. unfold node_of, set_node. cbn [find fst]. rewrite Z.eqb_refl. cbn. eauto.
    - right. intros ws'. split; [exact H1|]. split; [exact H2|]. cbn. unfold allocated. cbn. apply (node_of_in _ b). assumption.
    - right. intros ws'. split; [exact H1|]. split; [exact H2|]. exact I.
  Qed.
  Lemma split_mid {A} (l r l' r' : list A) x y : l ++ x :: r = l' ++ y :: r' ->
    (l = l' /\ x = y /\ r = r') \/ (exists k, l' = l ++ x :: k /\ r = k ++ y :: r') \/ (exists k, l = l' ++ y :: k /\ r' = k ++ x :: r).
  Proof.
    revert l'. induction l as [|a l IH]; intros l' E; destruct l' as [|a' l']; cbn [app] in E.
    - left. injection E as E1 E2. split; [reflexivity|]. split; assumption.
    - injection E as E1 E2. right. left. exists l'. rewrite E1. split; [reflexivity|exact E2].
    - injection E as E1 E2. right. right. exists l. rewrite E1. split; [reflexivity|symmetry; exact E2].
    - injection E as E1 E2. subst a'. destruct (IH l' E2) as [(-> & -> & ->)|[(k & -> & ->)|(k & -> & ->)]].
      + left. split; [reflexivity|]. split; reflexivity.
      + right. left. exists k. split; reflexivity.
      + right. right. exists k. split; reflexivity.
  Qed.
  Lemma mstep_safe m m' : mstep m m' -> safe m -> safe m'.
  Proof.
    intros HM HS. destruct HM as [l t r [nodes x] t' c' HV]. cbn [fst snd] in *. unfold safe in *. cbn [mc_workers] in *.
    destruct HS as [HF|(l0 & i & r0 & E & HL & HR & HI)].
    - apply Forall_app in HF. destruct HF as (HL & HF). inversion HF as [|? ? HT HR]; subst.
      destruct (outside_moves _ _ _ _ _ HV HT) as (-> & _ & H1 & H2 & H3). right. exists l, t', r. split; [reflexivity|]. split; [exact HL|]. split; [exact HR|].
      split; [exact H1|]. split; [exact H3|]. rewrite H2. exact I.
    - assert (BUSY : forall t, In t (l ++ t :: r) -> outside t -> moves (l ++ t :: r) t (nodes, x) t' c' -> ~ In i (l ++ t :: r)).
      { intros u _ HU HVU HX. destruct (outside_moves _ _ _ _ _ HVU HU) as (_ & FR & _). destruct HI as (HH & _).
        destruct (FR i true HX) as (X & _); [rewrite HH; left; reflexivity|discriminate]. }
      assert (II : In i (l ++ t :: r)) by (rewrite E; apply in_or_app; right; left; reflexivity).
      destruct (split_mid _ _ _ _ _ _ E) as [(<- & <- & <-)|[(k & E1 & E2)|(k & E1 & E2)]].
      + destruct (inside_moves (mk_machine (l ++ t :: r) nodes x) _ t t' c' HV HI) as [HO|HO].
        * left. apply Forall_app. split; [exact HL|]. constructor; assumption.
        * right. exists l, t', r. split; [reflexivity|]. split; [exact HL|]. split; [exact HR|]. apply HO.
      + exfalso. assert (OT : outside t) by (rewrite Forall_forall in HL; apply HL; rewrite E1; apply in_or_app; right; left; reflexivity).
        apply (BUSY t); [apply in_or_app; right; left; reflexivity|exact OT|exact HV|exact II].
      + exfalso. assert (OT : outside t) by (rewrite Forall_forall in HR; apply HR; rewrite E2; apply in_or_app; right; left; reflexivity).
        apply (BUSY t); [apply in_or_app; right; left; reflexivity|exact OT|exact HV|exact II].
  Qed.
End One.

Theorem C51_one_handle_partial : forall h css m, msteps (begin (map (map (pair h)) css)) m -> ~ broken m.
Proof.
  intros h css m HM. apply (safe_not_broken h).
  assert (X : forall a b, msteps a b -> safe h a -> safe h b) by (intros a b H; induction H; auto; intros; eapply mstep_safe; eauto).
  apply (X _ _ HM). left. cbn [mc_workers begin]. rewrite map_map. apply Forall_map, Forall_forall. intros cs _. split; [reflexivity|]. split; [reflexivity|].
  exists cs. cbn [works wk_todo]. rewrite map_map. reflexivity.
Qed.
Print Assumptions C51_one_handle_partial.
(* One thread is safe whatever handles it uses. *)
Lemma single_moves : forall l t r, [l] = t :: r -> l = t /\ r = [] :> list worker.
Proof. intros l t r E. injection E as -> <-. auto. Qed.
Definition alone (m : machine) : Prop := exists t, mc_workers m = [t] /\
  match wk_place t with Using a => allocated m a | Stored b => exists a, node_of (mc_nodes m) b = Some a | _ => True end.
Theorem C51_one_thread_partial : forall cs m, msteps (begin [cs]) m -> ~ broken m.
Proof.
  intros cs m HM. assert (X : forall a b, msteps a b -> alone a -> alone b).
  { intros a b H. induction H as [|a b c _ IH HS]; auto. intros HA. specialize (IH HA). destruct IH as (t & E & HP).
    destruct HS as [l u r [nodes x] u' c' HV]. cbn [mc_workers mc_nodes] in *. destruct l as [|y l]; [|destruct l; discriminate]. injection E as -> ->.
    exists u'. split; [reflexivity|]. remember (nodes, x) as cc eqn:EC. unfold allocated in *. cbn [mc_nodes] in *.
    destruct HV; cbn [wk_place fst snd] in *; try (injection EC as -> ->); try exact I; try (eapply node_of_in; eassumption).
    unfold node_of, set_node. cbn [fst snd find]. rewrite Z.eqb_refl. cbn. eauto. }
  intros (t & a & HI & HP & HA). destruct (X _ _ HM) as (u & E & HU); [exists (works cs); split; [reflexivity|exact I]|].
  rewrite E in HI. destruct HI as [<-|[]]. rewrite HP in HU. contradiction.
Qed.
Print Assumptions C51_one_thread_partial.

(* The full statement is false: two threads look for the same node, with different file entries,
   before either has stored it; the second to store it frees the node that the first uses. *)
Theorem C51_shared_cache_refuted : exists css m, (forall cs cs' h h' bs bs', In cs css -> In cs' css -> In (h, bs) cs -> In (h', bs') cs' -> cs = cs' \/ h <> h') /\
  msteps (begin css) m /\ broken m.
Proof.
  exists [[(1, [20])]; [(2, [20])]].
  exists (mk_machine [mk_worker [(1, true)] (Using 0) [ORelease 1 true]; mk_worker [(2, true)] (Stored 20) [ORelease 2 true]] [(20, 1)] 2).
  split; [|split].
  - intros cs cs' h h' bs bs' [<-|[<-|[]]] [<-|[<-|[]]] [E|[]] [E'|[]]; injection E as <- <-; injection E' as <- <-; (left; reflexivity) || (right; lia).
  - eapply msteps_step; [eapply msteps_step; [eapply msteps_step; [eapply msteps_step; [eapply msteps_step; [eapply msteps_step; [eapply msteps_step; [apply msteps_refl|]|]|]|]|]|]|].
    + eapply (mstep_one [] _ [works [(2, [20])]] ([], 0) _ ([], 0)). apply move_grab. intros t w' [<-|[<-|[]]] [].
    + eapply (mstep_one [mk_worker [(1, true)] Ready [OAccess 20; ORelease 1 true]] _ [] ([], 0) _ ([], 0)). apply move_grab.
      intros t w' [<-|[<-|[]]]; cbn [wk_held In]; [|intros []]. intros [E|[]]. injection E. intros _ X. exfalso. revert X. clear. intros X. discriminate X.
    + eapply (mstep_one [] _ [mk_worker [(2, true)] Ready [OAccess 20; ORelease 2 true]] ([], 0) _ ([], 0)). apply move_miss. reflexivity.
    + eapply (mstep_one [mk_worker [(1, true)] (Missed 20) [ORelease 1 true]] _ [] ([], 0) _ ([], 0)). apply move_miss. reflexivity.
    + eapply (mstep_one [] _ [mk_worker [(2, true)] (Missed 20) [ORelease 2 true]] ([], 0) _ ([(20, 0)], 1)). apply (move_store _ _ 20 _ [] 0).
    + eapply (mstep_one [] _ [mk_worker [(2, true)] (Missed 20) [ORelease 2 true]] ([(20, 0)], 1) _ ([(20, 0)], 1)). apply move_get. reflexivity.
    + eapply (mstep_one [mk_worker [(1, true)] (Using 0) [ORelease 1 true]] _ [] ([(20, 0)], 1) _ ([(20, 1)], 2)). apply (move_store _ _ 20 _ [(20, 0)] 1).
  - exists (mk_worker [(1, true)] (Using 0) [ORelease 1 true]), 0. split; [left; reflexivity|]. split; [reflexivity|]. unfold allocated. cbn. lia.
Qed.
Print Assumptions C51_shared_cache_refuted.
(* with one handle, the second thread has to wait *)
Example C51_example : exists m, msteps (begin [[(1, [20; 21])]; [(1, [20])]]) m /\ mc_nodes m = [(20, 0)] /\ ~ broken m.
Proof.
  assert (HM : msteps (begin [[(1, [20; 21])]; [(1, [20])]])
    (mk_machine [mk_worker [(1, true)] (Using 0) [OAccess 21; ORelease 1 true]; works [(1, [20])]] [(20, 0)] 1)).
  { eapply msteps_step; [eapply msteps_step; [eapply msteps_step; [eapply msteps_step; [apply msteps_refl|]|]|]|].
    - eapply (mstep_one [] _ [works [(1, [20])]] ([], 0) _ ([], 0)). apply move_grab. intros t w' [<-|[<-|[]]] [].
    - eapply (mstep_one [] _ [works [(1, [20])]] ([], 0) _ ([], 0)). apply move_miss. reflexivity.
    - eapply (mstep_one [] _ [works [(1, [20])]] ([], 0) _ ([(20, 0)], 1)). apply (move_store _ _ 20 _ [] 0).
    - eapply (mstep_one [] _ [works [(1, [20])]] ([(20, 0)], 1) _ ([(20, 0)], 1)). apply move_get. reflexivity. }
  eexists. split; [exact HM|]. split; [reflexivity|]. apply (C51_one_handle_partial 1 [[[20; 21]]; [[20]]]). exact HM.
Qed.
