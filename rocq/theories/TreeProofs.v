(* Traversals of well-formed trees. *)
From Verif Require Import Base BaseLemmas BTree BTreeProofs Walk WalkProofs TreeSpec.
Ltac Zify.zify_post_hook ::= Z.div_mod_to_equations.

Section Sorted.
  Variables (child : list Z -> Z -> Prop) (lt : list Z -> list Z -> Prop) (sep : list Z -> list Z -> Prop).
  Hypothesis lt_trans : forall a b c, lt a b -> lt b c -> lt a c.
  Hypothesis sep_le : forall k k1, sep k k1 -> k = k1 \/ lt k k1.

  Lemma sorted_app l1 l2 : sorted lt l1 -> sorted lt l2 ->
    Forall (fun e => Forall (fun e' => lt (fst e) (fst e')) l2) l1 -> sorted lt (l1 ++ l2).
  Proof.
    induction 1 as [|e es H H1 IH]; intros H2 H3; [exact H2|]. inversion H3; subst. cbn. constructor; [|auto].
    apply Forall_app. auto.
  Qed.
  Lemma sorted_app_inv l1 l2 : sorted lt (l1 ++ l2) ->
    sorted lt l1 /\ sorted lt l2 /\ Forall (fun e => Forall (fun e' => lt (fst e) (fst e')) l2) l1.
  Proof.
    induction l1 as [|e l1 IH]; cbn; intros H; [repeat split; auto; constructor|].
    inversion H as [|? ? H1 H2]; subst. destruct (IH H2) as (A & B & C). apply Forall_app in H1. destruct H1 as (D & E).
    split; [constructor; auto|]. split; [auto|]. constructor; auto.
  Qed.

  Lemma sep_trans k k1 x : sep k k1 -> lt k1 x -> lt k x.
  Proof. intros H L. destruct (sep_le k k1 H) as [->|H']; [auto|]. eapply lt_trans; eauto. Qed.
  Lemma sep_trans_l x k k1 : lt x k -> sep k k1 -> lt x k1.
  Proof. intros L H. destruct (sep_le k k1 H) as [->|H']; [auto|]. eapply lt_trans; eauto. Qed.

  Variable T : Z -> list record -> Prop.
  Hypothesis T_sorted : forall b recs, T b recs -> sorted lt recs.

  (* a key below all separators is below all records *)
  Lemma forest_below es recs x : forest child lt sep T es recs ->
    Forall (fun s => lt x (fst s)) es -> Forall (fun e => lt x (fst e)) recs.
  Proof.
    induction 1 as [|k v b es k1 v1 recs rest Hc HT Hs Hl HF IH]; intros HX; [constructor|].
    inversion HX as [|? ? HX1 HX2]; subst. cbn [fst] in *. apply Forall_app. split; [|auto].
    assert (X1 : lt x k1) by (eapply sep_trans_l; eauto).
    constructor; [exact X1|]. apply T_sorted in HT. inversion HT; subst.
    eapply Forall_impl; [|eassumption]. cbn. intros e He. eapply lt_trans; eauto.
  Qed.
  Lemma forest_sorted es recs : forest child lt sep T es recs -> sorted lt recs.
  Proof.
    induction 1 as [|k v b es k1 v1 recs rest Hc HT Hs Hl HF IH]; [constructor|].
    apply sorted_app; [eauto|auto|]. eapply Forall_impl; [|exact Hl]. cbn. intros e He. eapply forest_below; eauto.
  Qed.
  Lemma forest_seps es recs : forest child lt sep T es recs -> sorted lt es.
  Proof.
    induction 1 as [|k v b es k1 v1 recs rest Hc HT Hs Hl HF IH]; constructor; [|auto].
    inversion Hl as [|? ? Hl1 _]; subst. eapply Forall_impl; [|exact Hl1]. cbn. intros s X. eapply sep_trans; eauto.
  Qed.
  (* an upward closed property of all separators holds of all keys *)
  Lemma forest_up (Q : list Z -> Prop) es recs : (forall a b, Q a -> lt a b -> Q b) ->
    forest child lt sep T es recs -> Forall (fun s => Q (fst s)) es -> Forall (fun e => Q (fst e)) recs.
  Proof.
    intros HQ. induction 1 as [|k v b es k1 v1 recs rest Hc HT Hs Hl HF IH]; intros HX; [constructor|].
    inversion HX as [|? ? HX1 HX2]; subst. cbn [fst] in *. apply Forall_app. split; [|auto].
    assert (X1 : Q k1) by (destruct (sep_le k k1 Hs) as [->|L]; [auto|eapply HQ; eauto]).
    constructor; [exact X1|]. apply T_sorted in HT. inversion HT; subst.
    eapply Forall_impl; [|eassumption]. cbn. intros e He. eapply HQ; eauto.
  Qed.
  (* the forest cut at a separator *)
  Lemma forest_app es1 es2 recs : forest child lt sep T (es1 ++ es2) recs ->
    exists r1 r2, recs = r1 ++ r2 /\ forest child lt sep T es1 r1 /\ forest child lt sep T es2 r2.
  Proof.
    revert recs. induction es1 as [|[k v] es1 IH]; intros recs H.
    - exists [], recs. repeat split; auto. constructor.
    - cbn in H. inversion H as [|? ? b ? k1 v1 rs rest Hc HT Hs Hl HF]; subst.
      destruct (IH _ HF) as (r1 & r2 & -> & F1 & F2). exists (((k1, v1) :: rs) ++ r1), r2.
      split; [rewrite app_assoc; reflexivity|]. split; [|auto]. econstructor; eauto.
      eapply Forall_impl; [|exact Hl]. cbn. intros e X. apply Forall_app in X. tauto.
  Qed.
  (* records before a separator are less than it *)
  Lemma forest_before es1 s es2 recs : forest child lt sep T (es1 ++ s :: es2) recs ->
    exists r1 r2, recs = r1 ++ r2 /\ forest child lt sep T es1 r1 /\ forest child lt sep T (s :: es2) r2 /\
      Forall (fun e => lt (fst e) (fst s)) r1.
  Proof.
    revert recs. induction es1 as [|[k v] es1 IH]; intros recs H.
    - exists [], recs. repeat split; auto; constructor.
    - cbn in H. inversion H as [|? ? b ? k1 v1 rs rest Hc HT Hs Hl HF]; subst.
      destruct (IH _ HF) as (r1 & r2 & -> & F1 & F2 & F3). exists (((k1, v1) :: rs) ++ r1), r2.
      split; [rewrite app_assoc; reflexivity|]. split; [|split; [auto|]].
      + econstructor; eauto. eapply Forall_impl; [|exact Hl]. cbn. intros e X. apply Forall_app in X. tauto.
      + apply Forall_app. split; [|auto]. eapply Forall_impl; [|exact Hl]. cbn. intros e X.
        apply Forall_app in X. destruct X as (_ & X). inversion X; auto.
  Qed.
End Sorted.

Section Subtree.
  Variables (nodeat : bool -> Z -> bool -> list record -> Prop) (child : list Z -> Z -> Prop)
    (lt : list Z -> list Z -> Prop) (sep : list Z -> list Z -> Prop).
  Hypothesis lt_trans : forall a b c, lt a b -> lt b c -> lt a c.
  Hypothesis sep_le : forall k k1, sep k k1 -> k = k1 \/ lt k k1.

  Lemma subtree_sorted h root b recs : subtree nodeat child lt sep h root b recs -> sorted lt recs.
  Proof.
    revert root b recs. induction h as [|h IH]; intros root b recs H; [apply H|].
    destruct H as (es & _ & _ & F). eapply forest_sorted; eauto.
  Qed.

  Variables (ld : Z -> res bnode).
  Hypothesis Hload : forall b leaf es, nodeat false b leaf es ->
    exists n, ld b = Ok n /\ is_leaf n = leaf /\ bn_entries n = es.

  Variable okb : Z -> Prop.
  Hypothesis Hokb : forall b leaf es, nodeat false b leaf es -> okb b.
  Variables (A : Type) (w : walker A) (ans : list record -> A) (okr : list record -> Prop).
  Hypothesis Hlim : max_depth <= wk_lim w.
  Hypothesis Hleaf : forall n, is_leaf n = true -> sorted lt (bn_entries n) -> okr (bn_entries n) ->
    wk_leaf w n = Ok (ans (bn_entries n)).
  Hypothesis Hplan : forall n (T : Z -> list record -> Prop) recs, is_leaf n = false -> bn_entries n <> [] ->
    (forall b r, T b r -> sorted lt r) -> (forall b r, T b r -> okb b) -> okr recs ->
    forest child lt sep T (bn_entries n) recs ->
    exists bs rs, wk_plan w n = map Ok bs /\ Forall2 T bs rs /\ Forall okr rs /\
      fold_left (wk_join w) (map ans rs) (wk_start w) = ans recs.

  Theorem visit_tree h : forall root b recs n d f,
    subtree nodeat child lt sep h root b recs -> okr recs ->
    (forall leaf es, nodeat root b leaf es -> is_leaf n = leaf /\ bn_entries n = es) ->
    d + Z.of_nat h <= max_depth -> Z.of_nat h < Z.of_nat f -> 0 <= d ->
    fst (visit (pure ld) w f d n tt) = Ok (ans recs).
  Proof.
    induction h as [|h IH]; intros root b recs n d f HS HG HN Hd Hf Hd0.
    - destruct HS as (HA & HS). destruct (HN _ _ HA) as (L & E). destruct f as [|f]; [lia|]. cbn [visit].
      rewrite L. replace (wk_lim w <? d) with false by lia. cbn. rewrite Hleaf, E; auto; rewrite E; auto.
    - destruct HS as (es & HA & Hne & HF). destruct (HN _ _ HA) as (L & E). destruct f as [|f]; [lia|]. cbn [visit].
      rewrite L. replace (max_depth <? d) with false by (unfold max_depth in *; lia).
      destruct (Hplan n (subtree nodeat child lt sep h false) recs L) as (bs & rs & PE & F2 & IN & EA); auto.
      { rewrite E; auto. }
      { intros b' r'. apply subtree_sorted. }
      { intros b' r' HT. destruct h; [destruct HT; eauto|destruct HT as (es' & X & _); eauto]. }
      { rewrite E. exact HF. }
      rewrite PE, <- EA. clear EA PE. generalize (wk_start w) as acc.
      induction F2 as [|b' r' bs rs HT F2 IHF]; intros acc; [reflexivity|].
      cbn [map visit_children]. unfold bindM at 1. cbn [retM]. unfold bindM at 1.
      pose proof (Forall_inv IN) as HG'. apply Forall_inv_tail in IN.
      assert (HB : exists leaf es', nodeat false b' leaf es').
      { destruct h; [destruct HT; eauto|destruct HT as (es' & X & _); eauto]. }
      destruct HB as (lf & es' & HA'). destruct (Hload _ _ _ HA') as (m & HL & HM1 & HM2).
      unfold bindM at 1. change (pure ld b' tt) with (ld b', tt). rewrite HL.
      assert (X : fst (visit (pure ld) w f (d + 1) m tt) = Ok (ans r')).
      { apply (IH false b' r' m (d + 1) f); auto; try lia.
        intros leaf2 es2 HA2. destruct (Hload _ _ _ HA2) as (m' & HL' & H1 & H2). assert (m' = m) by congruence. subst. auto. }
      destruct (visit (pure ld) w f (d + 1) m tt) as [r'' []]. cbn in X. subst r''.
      cbn [map fold_left]. apply IHF. exact IN.
  Qed.
End Subtree.
