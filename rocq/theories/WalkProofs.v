(* Proofs about traversals: they terminate, raise no undefined behaviour of their own,
   and do not depend on the content of the cache. *)
From Verif Require Import Base BaseLemmas BTree BTreeProofs Walk.
Ltac Zify.zify_post_hook ::= Z.div_mod_to_equations.

Lemma bindM_fst {S A B} (m : M S A) (f : A -> M S B) s :
  bindM m f s = match m s with
                | (Ok a, s') => f a s' | (Fail, s') => (Fail, s') | (Oob, s') => (Oob, s') | (Fuel, s') => (Fuel, s')
                end.
Proof. reflexivity. Qed.

(* ---- Outcomes ---- *)
Section Fine.
  Variables (S A : Type) (get : Z -> M S bnode) (w : walker A) (I : S -> Prop).
  Hypothesis Hget : forall b s, I s -> fine (fst (get b s)) /\ I (snd (get b s)).
  (* what is needed of a node *)
  Variable G : bnode -> Prop.
  Hypothesis HG : forall b s n, I s -> fst (get b s) = Ok n -> G n.
  Hypothesis Hleaf : forall n, G n -> fine (wk_leaf w n).
  Hypothesis Hplan : forall n, G n -> Forall fine (wk_plan w n).
  Hypothesis Hlim : wk_lim w <= 257.

  Lemma visit_fine f d n s : 258 <= Z.of_nat f + d -> I s -> G n -> (d <= 257) ->
    fine (fst (visit get w f d n s)) /\ I (snd (visit get w f d n s)).
  Proof.
    revert d n s. induction f as [|f IH]; intros d n s Hf HI HGn Hd; [lia|].
    cbn [visit]. destruct (is_leaf n).
    - destruct (wk_lim w <? d); cbn; [split; [exact Logic.I|auto]|]. split; [apply Hleaf; auto|auto].
    - unfold max_depth. destruct (256 <? d) eqn:E; cbn [retM fst snd]; [split; [exact Logic.I|auto]|].
      pose proof (Hplan n HGn) as HP. revert HP. generalize (wk_plan w n) as l. generalize (wk_start w) as acc.
      intros acc l. revert acc s HI. induction l as [|r l IHl]; intros acc s HI HP.
      + cbn. split; [exact Logic.I|auto].
      + cbn [visit_children]. inversion HP as [|? ? Hr HP']; subst.
        rewrite bindM_fst. cbn [retM]. destruct r as [b| | |]; cbn in Hr; try contradiction; [|cbn; split; [exact Logic.I|auto]].
        rewrite bindM_fst. rewrite bindM_fst.
        destruct (Hget b s HI) as (F1 & I1). pose proof (HG b s) as HGb. destruct (get b s) as [r' s'] eqn:E'. cbn [fst snd] in *.
        destruct r' as [m| | |]; cbn in F1; try contradiction; [|cbn; split; [exact Logic.I|auto]].
        destruct (IH (d + 1) m s' ltac:(lia) I1 (HGb m HI eq_refl) ltac:(lia)) as (F2 & I2).
        destruct (visit get w f (d + 1) m s') as [r'' s''] eqn:E''. cbn [fst snd] in *.
        destruct r'' as [a| | |]; cbn in F2; try contradiction; [|cbn; split; [exact Logic.I|auto]].
        apply IHl; auto.
  Qed.
End Fine.

(* ---- Cache transparency ----
   A traversal that retrieves nodes with a state agrees with the one that loads every
   node anew, if each retrieval gives what loading gives, except that it may give the
   root node where loading fails: a traversal that meets the root again fails anyway. *)
Section Agree.
  Variables (S A : Type) (root_c : M S (option bnode)) (get_c : Z -> M S bnode).
  Variables (rootp : res (option bnode)) (ld : Z -> res bnode) (Inv : S -> Prop) (w : walker A).
  Hypothesis HfineR : fine rootp.
  Hypothesis HfineS : forall b, fine (ld b).
  Hypothesis Hroot : forall s, Inv s -> Inv (snd (root_c s)) /\ fst (root_c s) = rootp.
  Hypothesis Hget : forall rn, rootp = Ok (Some rn) -> forall b s, Inv s -> Inv (snd (get_c b s)) /\
    (fst (get_c b s) = ld b \/ (fst (get_c b s) = Ok rn /\ ld b = Fail)).
  Hypothesis Hlim : wk_lim w <= 257.
  Hypothesis HleafR : forall n, rootp = Ok (Some n) -> fine (wk_leaf w n) /\ Forall fine (wk_plan w n).
  Hypothesis HleafS : forall b n, ld b = Ok n -> fine (wk_leaf w n) /\ Forall fine (wk_plan w n).

  Definition U (f : nat) (d : Z) (n : bnode) : res A := fst (visit (pure ld) w f d n tt).

  Lemma pure_visit_fine f d n : 258 <= Z.of_nat f + d -> d <= 257 ->
    fine (wk_leaf w n) -> Forall fine (wk_plan w n) -> fine (U f d n).
  Proof.
    intros. unfold U.
    apply (visit_fine unit A (pure ld) w (fun _ => True)) with (G := fun n => fine (wk_leaf w n) /\ Forall fine (wk_plan w n)); auto.
    - intros b s _. unfold pure. cbn [retM fst snd]. split; [|auto]. apply HfineS.
    - intros b s m _. unfold pure. cbn [retM fst snd]. apply HleafS.
    - tauto.
    - tauto.
  Qed.

  (* Success is kept with more fuel and less depth. *)
  Lemma visit_mono f : forall d n F D a, U f d n = Ok a -> (f <= F)%nat -> D <= d -> U F D n = Ok a.
  Proof.
    unfold U. induction f as [|f IH]; intros d n F D a H HF HD; [cbn in H; discriminate|].
    destruct F as [|F]; [lia|]. cbn [visit] in *. destruct (is_leaf n).
    - destruct (wk_lim w <? d) eqn:E; [discriminate|]. replace (wk_lim w <? D) with false by lia. exact H.
    - unfold max_depth in *. destruct (256 <? d) eqn:E; [discriminate|]. replace (256 <? D) with false by lia.
      revert H. generalize (wk_plan w n) as l. generalize (wk_start w) as acc. intros acc l. revert acc.
      induction l as [|r l IHl]; intros acc H; [exact H|].
      cbn [visit_children] in *. unfold bindM in *. cbn [retM] in *.
      destruct r as [b| | |]; try discriminate.
      change (pure ld b tt) with (ld b, tt) in *. cbv iota beta in *.
      destruct (ld b) as [m| | |]; try discriminate.
      destruct (visit (pure ld) w f (d + 1) m tt) as [r' []] eqn:E'.
      destruct r' as [a'| | |]; try discriminate.
      assert (X : fst (visit (pure ld) w F (D + 1) m tt) = Ok a').
      { apply (IH (d + 1) m F (D + 1)); [rewrite E'; reflexivity|lia|lia]. }
      destruct (visit (pure ld) w F (D + 1) m tt) as [r'' []]. cbn in X. subst r''. apply IHl. exact H.
  Qed.

  Lemma visit_agree rn : rootp = Ok (Some rn) -> forall f d n c,
    258 <= Z.of_nat f + d -> 0 <= d <= 257 -> (f <= walk_fuel)%nat -> Inv c ->
    (fine (wk_leaf w n) /\ Forall fine (wk_plan w n)) ->
    (is_ok (U f d n) = false -> is_ok (U walk_fuel 0 rn) = false) ->
    Inv (snd (visit get_c w f d n c)) /\ fst (visit get_c w f d n c) = U f d n.
  Proof.
    intros HR. induction f as [|f IH]; intros d n c Hf Hd HfF HC (HF1 & HF2) HQ; [lia|].
    revert HQ. unfold U at 1 3. cbn [visit]. destruct (is_leaf n).
    { intros _. destruct (wk_lim w <? d); cbn; auto. }
    unfold max_depth. destruct (256 <? d) eqn:Ed; [cbn; auto|].
    revert HF2. generalize (wk_plan w n) as l. generalize (wk_start w) as acc. intros acc l. revert acc c HC.
    induction l as [|r l IHl]; intros acc c HC HP HQ; [cbn; auto|].
    pose proof (Forall_inv HP) as Hr. pose proof (Forall_inv_tail HP) as HP'. clear HP.
    cbn [visit_children] in *. unfold bindM in *. cbn [retM] in *.
    destruct r as [b| | |]; try (cbn; auto; fail).
    change (pure ld b tt) with (ld b, tt) in *. cbv iota beta in *.
    destruct (Hget rn HR b c HC) as (C1 & HG). destruct (get_c b c) as [rg c1] eqn:Eg. cbn [fst snd] in *.
    destruct HG as [HG|(HG & HFl)].
    - subst rg. destruct (ld b) as [m| | |] eqn:EL; try (cbn; auto; fail).
      assert (QM : is_ok (U f (d + 1) m) = false -> is_ok (U walk_fuel 0 rn) = false).
      { intros X. apply HQ. unfold U in X. destruct (visit (pure ld) w f (d + 1) m tt) as [r' s']. cbn in X.
        destruct r'; try discriminate X; reflexivity. }
      destruct (IH (d + 1) m c1 ltac:(lia) ltac:(lia) ltac:(lia) C1 (HleafS b m EL) QM) as (C' & EQ).
      destruct (visit get_c w f (d + 1) m c1) as [r' c'] eqn:E'. unfold U in EQ.
      destruct (visit (pure ld) w f (d + 1) m tt) as [r'' []] eqn:E''. cbn [fst snd] in *. subst r''.
      destruct r' as [a| | |]; try (cbn; auto; fail).
      apply (IHl (wk_join w acc a) c' C' HP' HQ).
    - (* the root node in the place of a sub node *)
      subst rg. rewrite HFl in *. cbn [fst snd is_ok] in *. specialize (HQ eq_refl).
      destruct (IH (d + 1) rn c1 ltac:(lia) ltac:(lia) ltac:(lia) C1 (HleafR rn HR) (fun _ => HQ)) as (C' & EQ).
      destruct (visit get_c w f (d + 1) rn c1) as [r' c'] eqn:E'. cbn [fst snd] in *.
      assert (FF : fine (U f (d + 1) rn)).
      { apply pure_visit_fine; [lia|lia|apply HleafR; auto|apply HleafR; auto]. }
      assert (NO : is_ok (U f (d + 1) rn) = false).
      { destruct (U f (d + 1) rn) as [a| | |] eqn:EU; auto.
        rewrite (visit_mono f (d + 1) rn walk_fuel 0 a EU) in HQ; [discriminate|lia|lia]. }
      rewrite <- EQ in FF, NO. destruct r'; try discriminate NO; try contradiction FF. cbn. auto.
  Qed.

  Theorem walk_agree_gen c : Inv c ->
    Inv (snd (walk root_c get_c w c)) /\
    fst (walk root_c get_c w c) = fst (walk (retM rootp) (pure ld) w tt).
  Proof.
    intros HC. unfold walk, bindM. cbn [retM]. destruct (Hroot c HC) as (C1 & E1).
    destruct (root_c c) as [rr c1]. cbn [fst snd] in *. subst rr.
    destruct rootp as [[n|]| | |] eqn:EL; try (cbn; auto; fail).
    rewrite <- EL in *. apply (visit_agree n EL walk_fuel 0 n); auto; unfold walk_fuel; try lia.
  Qed.

  Theorem walk_pure_fine : fine (fst (walk (retM rootp) (pure ld) w tt)).
  Proof.
    clear Hroot Hget. unfold walk, bindM. cbn [retM].
    destruct rootp as [[n|]| | |] eqn:EL; try exact I; try contradiction.
    apply pure_visit_fine; unfold walk_fuel; try lia; apply HleafR; auto.
  Qed.
End Agree.

Section Transparent.
  Variables (load_root : res (option bnode)) (load_sub : Z -> res bnode) (rb : Z).
  Variables (P : Type) (evict : P -> list (Z * bnode) -> Z -> P * list (Z * bnode)).
  Hypothesis Hevict : forall p l b, incl (snd (evict p l b)) l.
  Hypothesis Hdisj : forall n, load_root = Ok (Some n) -> load_sub rb = Fail.
  Hypothesis HfineR : fine load_root.
  Hypothesis HfineS : forall b, fine (load_sub b).

  (* Every cached node is what loading its block would give. *)
  Definition consistent (c : cache P) : Prop := forall b n, In (b, n) (snd c) ->
    if b =? rb then load_root = Ok (Some n) else load_sub b = Ok n.

  Lemma find_consistent c b n : consistent c -> cache_find P c b = Some n ->
    if b =? rb then load_root = Ok (Some n) else load_sub b = Ok n.
  Proof.
    unfold cache_find. intros C H. destruct (find _ (snd c)) as [[b' n']|] eqn:E; [|discriminate].
    apply find_some in E. destruct E as (I & E). cbn in *. apply Z.eqb_eq in E. subst b'. injection H as <-. exact (C b n' I).
  Qed.
  Lemma set_consistent c b n : consistent c ->
    (if b =? rb then load_root = Ok (Some n) else load_sub b = Ok n) -> consistent (cache_set P evict c b n).
  Proof.
    intros C H b' n'. unfold cache_set. pose proof (Hevict (fst c) (snd c) b) as I.
    destruct (evict (fst c) (snd c) b) as [p l]. cbn in *. intros [X|X].
    - assert (b' = b) by congruence. assert (n' = n) by congruence. subst. exact H.
    - apply C. apply I. exact X.
  Qed.

  Definition rootp : res (option bnode) := if int_max <? rb then Fail else load_root.
  Definition ldp (b : Z) : res bnode := if int_max <? b then Fail else load_sub b.

  Lemma cached_root_agree c : consistent c ->
    consistent (snd (cached_root load_root rb P evict c)) /\ fst (cached_root load_root rb P evict c) = rootp.
  Proof.
    intros HC. unfold cached_root, rootp. destruct (int_max <? rb); [cbn; auto|].
    destruct (cache_find P c rb) as [n|] eqn:Ef.
    - pose proof (find_consistent c rb n HC Ef) as HM. rewrite Z.eqb_refl in HM. rewrite HM. cbn. auto.
    - destruct load_root as [[n|]| | |] eqn:EL; try (cbn; auto; fail). cbn [fst snd]. split; [|reflexivity].
      rewrite <- EL in *. apply set_consistent; auto. rewrite Z.eqb_refl. exact EL.
  Qed.
  Lemma cached_sub_agree rn : rootp = Ok (Some rn) -> forall b c, consistent c ->
    consistent (snd (cached_sub load_sub P evict b c)) /\
    (fst (cached_sub load_sub P evict b c) = ldp b \/ (fst (cached_sub load_sub P evict b c) = Ok rn /\ ldp b = Fail)).
  Proof.
    intros HR b c HC. unfold rootp in HR. destruct (int_max <? rb) eqn:Erb; [discriminate|].
    unfold cached_sub, ldp. destruct (int_max <? b); [cbn; auto|].
    destruct (cache_find P c b) as [m|] eqn:Ef.
    - pose proof (find_consistent c b m HC Ef) as HM. destruct (b =? rb) eqn:Er; cbn [fst snd]; (split; [auto|]).
      + apply Z.eqb_eq in Er. subst b. right. split; [congruence|]. eapply Hdisj; eauto.
      + left. auto.
    - destruct (load_sub b) as [m| | |] eqn:EL; cbn [fst snd]; try (split; auto; fail).
      split; [|auto]. apply set_consistent; auto.
      assert (HB : b <> rb) by (intros ->; rewrite (Hdisj rn HR) in EL; discriminate).
      replace (b =? rb) with false by lia. exact EL.
  Qed.

  Variables (A : Type) (w : walker A).
  Hypothesis Hlim : wk_lim w <= 257.
  (* the nodes the loading functions give *)
  Hypothesis HleafR : forall n, load_root = Ok (Some n) -> fine (wk_leaf w n) /\ Forall fine (wk_plan w n).
  Hypothesis HleafS : forall b n, load_sub b = Ok n -> fine (wk_leaf w n) /\ Forall fine (wk_plan w n).

  Lemma rootp_fine : fine rootp.
  Proof. unfold rootp. destruct (int_max <? rb); [exact I|auto]. Qed.
  Lemma ldp_fine b : fine (ldp b).
  Proof. unfold ldp. destruct (int_max <? b); [exact I|auto]. Qed.

  Theorem walk_agree c : consistent c ->
    consistent (snd (cached_walk load_root load_sub rb P evict w c)) /\
    fst (cached_walk load_root load_sub rb P evict w c) = plain_walk load_root load_sub rb w.
  Proof.
    intros HC.
    apply (walk_agree_gen (cache P) A (cached_root load_root rb P evict) (cached_sub load_sub P evict) rootp ldp consistent w); auto.
    - apply rootp_fine.
    - apply ldp_fine.
    - apply cached_root_agree.
    - apply cached_sub_agree.
    - unfold rootp. intros n H. destruct (int_max <? rb); [discriminate|auto].
    - unfold ldp. intros b n H. destruct (int_max <? b); [discriminate|eauto].
  Qed.

  Theorem plain_walk_fine : fine (plain_walk load_root load_sub rb w).
  Proof.
    apply (walk_pure_fine _ rootp ldp w); auto.
    - apply rootp_fine.
    - apply ldp_fine.
    - unfold rootp. intros n H. destruct (int_max <? rb); [discriminate|auto].
    - unfold ldp. intros b n H. destruct (int_max <? b); [discriminate|eauto].
  Qed.
End Transparent.

(* A property of all leaf results that joining keeps is one of the result. *)
Section All.
  Variables (A : Type) (ld : Z -> res bnode) (w : walker A) (G : bnode -> Prop) (Q : A -> Prop).
  Hypothesis Hld : forall b n, ld b = Ok n -> G n.
  Hypothesis Hleaf : forall n a, G n -> wk_leaf w n = Ok a -> Q a.
  Hypothesis Hstart : Q (wk_start w).
  Hypothesis Hjoin : forall a b, Q a -> Q b -> Q (wk_join w a b).

  Lemma visit_all f : forall d n a, G n -> fst (visit (pure ld) w f d n tt) = Ok a -> Q a.
  Proof.
    induction f as [|f IH]; intros d n a HG H; cbn [visit] in H; [discriminate|].
    destruct (is_leaf n).
    - destruct (_ <? _); [discriminate|]. cbn in H. eapply Hleaf; eauto.
    - destruct (_ <? _); [discriminate|]. revert H. generalize (wk_start w) Hstart. induction (wk_plan w n) as [|r l IHl]; intros s Hs H.
      + cbn in H. congruence.
      + cbn [visit_children] in H. unfold bindM at 1 in H. destruct r as [b| | |]; cbn [retM] in H; try discriminate.
        unfold bindM at 1 in H. unfold bindM at 1 in H. change (pure ld b tt) with (ld b, tt) in H.
        destruct (ld b) as [m| | |] eqn:EL; try discriminate.
        destruct (visit (pure ld) w f (d + 1) m tt) as [r []] eqn:EV. destruct r as [x| | |]; try discriminate.
        apply IHl in H; auto. apply Hjoin; auto. apply (IH (d + 1) m x); [eauto|]. rewrite EV. reflexivity.
  Qed.
  Lemma walk_all rootp a : (forall n, rootp = Ok (Some n) -> G n) -> fst (walk (retM rootp) (pure ld) w tt) = Ok a -> Q a.
  Proof.
    intros HR H. unfold walk, bindM in H. cbn [retM] in H. destruct rootp as [[n|]| | |]; try discriminate.
    - eapply visit_all; [|exact H]. auto.
    - cbn in H. congruence.
  Qed.
End All.

(* A branch node that is its own and only child ends a traversal with an error. *)
Lemma children_fail : forall {A} (w : walker A) (rec : Z -> M unit A) b l acc,
  fst (rec b tt) = Fail -> fst (visit_children w rec (Ok b :: l) acc tt) = Fail.
Proof.
  intros A w rec b l acc H. cbn [visit_children]. unfold bindM, retM.
  destruct (rec b tt) as [r s]. cbn [fst] in H. subst r. reflexivity.
Qed.
Lemma bind_pure : forall {A} ld b n (f : bnode -> M unit A), ld b = Ok n -> bindM (pure ld b) f tt = f n tt.
Proof. intros A ld b n f H. unfold bindM, pure, retM. rewrite H. reflexivity. Qed.
Lemma visit_self_loop : forall {A} (ld : Z -> res bnode) (w : walker A) n b,
  is_leaf n = false -> wk_plan w n = [Ok b] -> ld b = Ok n ->
  forall fuel depth, 257 < depth + Z.of_nat fuel -> depth <= 257 -> fst (visit (pure ld) w fuel depth n tt) = Fail.
Proof.
  intros A ld w n b HL HP HG. induction fuel as [|fuel IH]; intros depth Hd Hm; [lia|].
  cbn [visit]. rewrite HL. destruct (max_depth <? depth) eqn:E; [reflexivity|]. unfold max_depth in E.
  rewrite HP. apply children_fail. rewrite (bind_pure _ _ n) by exact HG. apply IH; lia.
Qed.
Lemma walk_self_loop : forall {A} root (ld : Z -> res bnode) (w : walker A) m n b,
  root = Ok (Some m) -> is_leaf m = false -> wk_plan w m = [Ok b] ->
  is_leaf n = false -> wk_plan w n = [Ok b] -> ld b = Ok n ->
  fst (walk (retM root) (pure ld) w tt) = Fail.
Proof.
  intros A root ld w m n b -> HM HQ HL HP HG. unfold walk, bindM at 1, retM at 1. unfold walk_fuel.
  cbn [visit]. rewrite HM. change (max_depth <? 0) with false. cbv iota. rewrite HQ. apply children_fail.
  rewrite (bind_pure _ _ n) by exact HG. exact (visit_self_loop ld w n b HL HP HG 257 (0 + 1) ltac:(lia) ltac:(lia)).
Qed.
