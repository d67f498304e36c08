(* Proofs about nodes in memory. *)
From Verif Require Import Base BaseLemmas BTree BTreeProofs Walk WalkProofs Omap OmapProofs Records FsTree FsProofs NodeCache.
Ltac Zify.zify_post_hook ::= Z.div_mod_to_equations.

Lemma find_in h b x : hp_find h b = Some x -> In (b, x) (hp_nodes h).
Proof.
  unfold hp_find. destruct (find _ _) as [[b' y]|] eqn:E; [|discriminate]. apply find_some in E. destruct E as (I & E). cbn in *.
  apply Z.eqb_eq in E. subst b'. congruence.
Qed.
Lemma find_none h b : hp_find h b = None -> ~ In b (map fst (hp_nodes h)).
Proof.
  unfold hp_find. destruct (find _ _) as [x|] eqn:E; [discriminate|]. intros _ HI. apply in_map_iff in HI. destruct HI as (x & <- & HI).
  pose proof (find_none _ _ E x HI) as X. cbn in X. lia.
Qed.
Lemma live_in h b a n : In (b, (a, n)) (hp_nodes h) -> hp_live h a = true.
Proof. intros HI. unfold hp_live. apply existsb_exists. exists (b, (a, n)). split; [exact HI|cbn; lia]. Qed.
Lemma filter_same (l : list cached_node) b : ~ In b (map fst l) -> filter (fun e => negb (fst e =? b)) l = l.
Proof.
  induction l as [|e l IH]; cbn; [reflexivity|]. intros H. destruct (Z.eqb_spec (fst e) b) as [E|E]; [exfalso; auto|]. cbn. f_equal. auto.
Qed.

Section Resident.
  Variables (cap : Z) (evict : list cached_node -> list cached_node) (t : fs) (blocks : list Z).
  Hypothesis HF : bytes_image (fs_img t).
  Hypothesis HO : bytes_image (fs_omap t).
  Hypothesis Hcap : len blocks <= cap.
  Hypothesis HbR : forall n, fs_load_root (fs_img t) (fs_rb t) = Ok (Some n) -> In (fs_rb t) blocks.
  Hypothesis HbS : forall b n, fs_load_sub (fs_img t) b = Ok n -> In b blocks.
  Notation nt := (nt_of t).

  Definition loaded (b : Z) (n : bnode) : Prop :=
    if b =? fs_rb t then fs_load_root (fs_img t) (fs_rb t) = Ok (Some n) else fs_load_sub (fs_img t) b = Ok n.
  Definition resident (h : heap) : Prop :=
    NoDup (map fst (hp_nodes h)) /\ forall b a n, In (b, (a, n)) (hp_nodes h) -> In b blocks /\ loaded b n.

  (* storing a node that is not in the cache frees nothing *)
  Lemma store_ok h b n : resident h -> In b blocks -> loaded b n -> hp_find h b = None ->
    exists a h', hp_store cap evict b n h = (Ok (a, n), h') /\ resident h' /\ incl (hp_nodes h) (hp_nodes h') /\ hp_live h' a = true.
  Proof.
    intros (H1 & H2) HB HL HN. pose proof (find_none _ _ HN) as HI.
    assert (LEN : len (hp_nodes h) < cap).
    { assert (X : (length (b :: map fst (hp_nodes h)) <= length blocks)%nat).
      { apply NoDup_incl_length; [constructor; auto|]. intros x [<-|HX]; [exact HB|]. apply in_map_iff in HX. destruct HX as ([y [a m]] & <- & HX). apply (H2 y a m HX). }
      cbn [length] in X. rewrite map_length in X. unfold len, cached_node in *. lia. }
    assert (SET : hp_set cap evict h b n = mk_heap ((b, (hp_next h, n)) :: hp_nodes h) (hp_next h + 1)).
    { unfold hp_set. rewrite filter_same by exact HI. match goal with |- context [?x <? cap] => assert (X : (x <? cap) = true) by (apply Z.ltb_lt; exact LEN); rewrite X end. reflexivity. }
    exists (hp_next h), (mk_heap ((b, (hp_next h, n)) :: hp_nodes h) (hp_next h + 1)).
    split; [|split; [split|split]].
    - unfold hp_store. rewrite SET. unfold hp_find. cbn [hp_nodes find fst]. rewrite Z.eqb_refl. reflexivity.
    - cbn. constructor; auto.
    - cbn [hp_nodes]. intros x a m [E|HX]; [injection E as <- <- <-; auto|apply (H2 x a m HX)].
    - cbn. intros x HX. right. exact HX.
    - cbn. rewrite Z.eqb_refl. reflexivity.
  Qed.

  Definition rootv (r : res (option (Z * bnode))) : res (option bnode) := let! x := r in Ok (option_map snd x).
  Definition kept (h h' : heap) : Prop := incl (hp_nodes h) (hp_nodes h').
  Lemma kept_live h h' a : kept h h' -> hp_live h a = true -> hp_live h' a = true.
  Proof.
    unfold hp_live. intros K H. apply existsb_exists in H. destruct H as (e & HI & HE). apply existsb_exists. exists e. split; [apply K; exact HI|exact HE].
  Qed.
  Lemma root_ok h : resident h -> exists r h', hp_root cap evict nt h = (r, h') /\ resident h' /\ kept h h' /\ rootv r = fs_root t /\
    (forall a n, r = Ok (Some (a, n)) -> hp_live h' a = true).
  Proof.
    intros HR. unfold hp_root, fs_root. cbn [nt_rb nt_img nt_of]. destruct (int_max <? fs_rb t).
    { exists Fail, h. split; [reflexivity|]. split; [exact HR|]. split; [apply incl_refl|]. split; [reflexivity|discriminate]. }
    destruct (hp_find h (fs_rb t)) as [[a n]|] eqn:E.
    - exists (Ok (Some (a, n))), h. split; [reflexivity|]. split; [exact HR|]. split; [apply incl_refl|].
      apply find_in in E. destruct HR as (_ & H2). destruct (H2 _ _ _ E) as (_ & HL). unfold loaded in HL. rewrite Z.eqb_refl in HL. rewrite HL.
      split; [reflexivity|]. intros a' n' X. injection X as <- <-. eapply live_in; eauto.
    - unfold bindM, retM. destruct (ex_intro (fun r => fs_load_root (fs_img t) (fs_rb t) = r) _ eq_refl) as (lr & EL). rewrite EL. destruct lr as [[n|]| | |];
        try (eexists _, h; split; [reflexivity|]; split; [exact HR|]; split; [apply incl_refl|]; split; [reflexivity|discriminate]).
      destruct (store_ok h (fs_rb t) n HR (HbR n EL)) as (a & h' & HS & HR' & HK & HV); [unfold loaded; rewrite Z.eqb_refl; exact EL|exact E|].
      rewrite HS. exists (Ok (Some (a, n))), h'. split; [reflexivity|]. split; [exact HR'|]. split; [exact HK|]. split; [reflexivity|].
      intros a' n' X. injection X as <- <-. exact HV.
  Qed.
  Definition subv (r : res (Z * bnode)) : res bnode := let! x := r in Ok (snd x).
  Lemma sub_ok rn : fs_root t = Ok (Some rn) -> forall o h, resident h -> exists r h', hp_sub cap evict nt o h = (r, h') /\ resident h' /\ kept h h' /\
    (subv r = fs_sub t o \/ subv r = Ok rn /\ fs_sub t o = Fail) /\ (forall a n, r = Ok (a, n) -> hp_live h' a = true).
  Proof.
    intros HRN o h HR. unfold hp_sub, fs_sub, bindM, retM. cbn [nt_map nt_of].
    assert (RN : fs_load_root (fs_img t) (fs_rb t) = Ok (Some rn)) by (unfold fs_root in HRN; destruct (int_max <? fs_rb t); [discriminate|exact HRN]).
    destruct (omap_lookup (fs_omap t) (fs_orb t) o (fs_txn t)) as [[d|]| | |]; cbn [bind];
      try (eexists _, h; split; [reflexivity|]; split; [exact HR|]; split; [apply incl_refl|]; split; [left; reflexivity|discriminate]).
    cbn [nt_img nt_of]. destruct (int_max <? od_address d) eqn:EM.
    { eexists _, h; split; [reflexivity|]; split; [exact HR|]; split; [apply incl_refl|]; split; [left; reflexivity|discriminate]. }
    destruct (hp_find h (od_address d)) as [[a n]|] eqn:E.
    - exists (Ok (a, n)), h. split; [reflexivity|]. split; [exact HR|]. split; [apply incl_refl|].
      apply find_in in E. pose proof HR as (_ & H2). destruct (H2 _ _ _ E) as (_ & HL). unfold loaded in HL.
      split; [|intros a' n' X; injection X as <- <-; eapply live_in; eauto].
      destruct (Z.eqb_spec (od_address d) (fs_rb t)) as [EB|EB].
      + right. rewrite HL in RN. injection RN as <-. split; [reflexivity|]. rewrite EB. eapply fs_disjoint. exact HL.
      + left. rewrite HL. reflexivity.
    - destruct (ex_intro (fun r => fs_load_sub (fs_img t) (od_address d) = r) _ eq_refl) as (lr & EL). rewrite EL. destruct lr as [n| | |];
        try (eexists _, h; split; [reflexivity|]; split; [exact HR|]; split; [apply incl_refl|]; split; [left; reflexivity|discriminate]).
      destruct (store_ok h (od_address d) n HR (HbS _ n EL)) as (a & h' & HS & HR' & HK & HV); [|exact E|].
      { unfold loaded. destruct (Z.eqb_spec (od_address d) (fs_rb t)) as [EB|EB]; [|exact EL]. rewrite EB in EL. rewrite (fs_disjoint _ _ _ RN) in EL. discriminate. }
      rewrite HS. exists (Ok (a, n)), h'. split; [reflexivity|]. split; [exact HR'|]. split; [exact HK|]. split; [left; reflexivity|].
      intros a' n' X. injection X as <- <-. exact HV.
  Qed.

  (* the traversal with values instead of pointers *)
  Definition vroot : M heap (option bnode) := fun h => (rootv (fst (hp_root cap evict nt h)), snd (hp_root cap evict nt h)).
  Definition vsub (o : Z) : M heap bnode := fun h => (subv (fst (hp_sub cap evict nt o h)), snd (hp_sub cap evict nt o h)).

  Section One.
    Variables (A : Type) (w : walker A) (rn : bnode).
    Hypothesis HRN : fs_root t = Ok (Some rn).
    Lemma visit_values f : forall d x h, resident h -> hp_live h (fst x) = true ->
      hp_visit cap evict nt A w f d x h = visit vsub w f d (snd x) h /\
      resident (snd (visit vsub w f d (snd x) h)) /\ kept h (snd (visit vsub w f d (snd x) h)).
    Proof.
      induction f as [|f IH]; intros d x h HR HL; [split; [reflexivity|]; split; [exact HR|apply incl_refl]|].
      cbn [hp_visit visit]. destruct (is_leaf (snd x)).
      { destruct (wk_lim w <? d); (split; [reflexivity|]; split; [exact HR|apply incl_refl]). }
      destruct (max_depth <? d); [split; [reflexivity|]; split; [exact HR|apply incl_refl]|].
      generalize (wk_start w) as acc. revert h HR HL. induction (wk_plan w (snd x)) as [|r l IHl]; intros h HR HL acc.
      { split; [reflexivity|]. split; [exact HR|apply incl_refl]. }
      cbn [hp_children visit_children]. rewrite HL. rewrite !bindM_fst. change (@retM heap Z r h) with (r, h).
      destruct r as [o| | |]; try (split; [reflexivity|]; split; [exact HR|apply incl_refl]).
      rewrite !bindM_fst. destruct (sub_ok rn HRN o h HR) as (r & h1 & E & HR1 & HK1 & _ & HV).
      assert (EV : vsub o h = (subv r, h1)) by (unfold vsub; rewrite E; reflexivity). rewrite EV, E. destruct r as [[a m]| | |]; cbn [subv bind snd];
        try (split; [reflexivity|]; split; [exact HR1|exact HK1]).
      destruct (IH (d + 1) (a, m) h1 HR1 (HV a m eq_refl)) as (E2 & HR2 & HK2). rewrite E2. cbn [snd fst] in *.
      destruct (visit vsub w f (d + 1) m h1) as [r2 h2]. cbn [snd] in *.
      assert (K2 : kept h h2) by (eapply incl_tran; eauto).
      destruct r2 as [y| | |]; try (split; [reflexivity|]; split; [exact HR2|exact K2]).
      destruct (IHl h2 HR2 (kept_live _ _ _ K2 HL) (wk_join w acc y)) as (E3 & HR3 & HK3).
      split; [exact E3|]. split; [exact HR3|]. eapply incl_tran; eauto.
    Qed.
  End One.
  Lemma walk_values {A} (w : walker A) h : resident h -> hp_walk cap evict nt A w h = walk vroot vsub w h.
  Proof.
    intros HR. unfold hp_walk, walk. rewrite !bindM_fst. unfold vroot. destruct (root_ok h HR) as (r & h' & E & HR' & _ & EV & HV). rewrite E. cbn [fst snd].
    destruct r as [[[a n]|]| | |]; cbn [rootv bind option_map snd]; try reflexivity.
    apply (visit_values A w n (eq_sym EV) walk_fuel 0 (a, n) h' HR' (HV a n eq_refl)).
  Qed.
  Theorem hp_walk_agree {A} (w : walker A) h : fine_walker w -> resident h ->
    resident (snd (hp_walk cap evict nt A w h)) /\ fst (hp_walk cap evict nt A w h) = fs_walk t w.
  Proof.
    intros HW HR. rewrite walk_values by exact HR. unfold fs_walk.
    apply (walk_agree_gen heap A vroot vsub (fs_root t) (fs_sub t) resident w); auto.
    - apply fs_root_fine; auto.
    - apply fs_sub_fine; auto.
    - intros s HS. destruct (root_ok s HS) as (r & h' & E & HR' & _ & EV & _). unfold vroot. rewrite E. cbn [fst snd]. split; [exact HR'|exact EV].
    - intros rn HRN o s HS. destruct (sub_ok rn HRN o s HS) as (r & h' & E & HR' & _ & EV & _). unfold vsub. rewrite E. cbn [fst snd]. split; [exact HR'|exact EV].
    - intros. apply HW. apply (fs_root_entries t); auto.
    - intros. apply HW. eapply (fs_sub_entries t); eauto.
  Qed.
  Lemma hp_bind_agree {A} (w : walker A) (f : A -> res answer) h : fine_walker w -> resident h ->
    resident (snd (bindM (hp_walk cap evict nt A w) (fun r => retM (f r)) h)) /\
    fst (bindM (hp_walk cap evict nt A w) (fun r => retM (f r)) h) = bind (fs_walk t w) f.
  Proof.
    intros HW HS. destruct (hp_walk_agree w h HW HS) as (C & E). unfold bindM.
    destruct (hp_walk cap evict nt A w h) as [r s']. cbn [fst snd] in *. rewrite <- E. destruct r; cbn; auto.
  Qed.
  Lemma hp_ask_agree q h : resident h -> resident (snd (hp_ask cap evict nt q h)) /\ fst (hp_ask cap evict nt q h) = ask t q.
  Proof.
    intros HS. destruct q as [id|id|id|id]; cbn [hp_ask ask].
    - destruct (hp_bind_agree (fs_id_walker id 3) (fun r => let! r := inode_finish r in Ok (AInode r)) h (fs_id_walker_fine id 3) HS) as (H1 & H2).
      split; [exact H1|]. rewrite H2. unfold fs_inode. destruct (fs_walk t (fs_id_walker id 3)); reflexivity.
    - apply (hp_bind_agree (dir_walker id) (fun r => Ok (ADir r)) h (dir_walker_fine id) HS).
    - apply (hp_bind_agree (attr_walker id) (fun r => Ok (AAttrs r)) h (attr_walker_fine id) HS).
    - apply (hp_bind_agree (extent_walker id) (fun r => Ok (AExtents r)) h (extent_walker_fine id) HS).
  Qed.
  Theorem hp_session_agree qs : forall h, resident h -> hp_session cap evict nt qs h = map (ask t) qs.
  Proof.
    induction qs as [|q qs IH]; intros h HR; [reflexivity|]. cbn [hp_session map]. destruct (hp_ask_agree q h HR) as (H1 & H2).
    destruct (hp_ask cap evict nt q h) as [r h']. cbn [fst snd] in *. subst r. f_equal. auto.
  Qed.
End Resident.

(* A traversal that takes at most one child of every node does not use a node after it has
   gone to the child: the size of the cache does not matter. *)
Section OneChild.
  Variables (cap : Z) (evict : list cached_node -> list cached_node) (t : fs).
  Hypothesis HF : bytes_image (fs_img t).
  Hypothesis HO : bytes_image (fs_omap t).
  Hypothesis Hev : forall l, incl (evict l) l.
  Notation nt := (nt_of t).
  Definition faithful (h : heap) : Prop := forall b a n, In (b, (a, n)) (hp_nodes h) -> loaded t b n.

  Lemma store_any h b n : faithful h -> loaded t b n ->
    exists a h', hp_store cap evict b n h = (Ok (a, n), h') /\ faithful h' /\ hp_live h' a = true.
  Proof.
    intros H HL. exists (hp_next h), (hp_set cap evict h b n). unfold hp_store, hp_set. cbn zeta.
    split; [|split].
    - unfold hp_find. cbn [hp_nodes find fst]. rewrite Z.eqb_refl. reflexivity.
    - unfold faithful. cbn [hp_nodes]. intros x a m [E|HX]; [injection E as <- <- <-; auto|]. apply (H x a m).
      assert (Y : In (x, (a, m)) (filter (fun e : cached_node => negb (fst e =? b)) (hp_nodes h))).
      { destruct (len _ <? cap); [exact HX|]. apply (Hev _ _ HX). }
      apply filter_In in Y. apply Y.
    - unfold hp_live. cbn [hp_nodes existsb fst snd]. rewrite Z.eqb_refl. reflexivity.
  Qed.
  Lemma root_any h : faithful h -> exists r h', hp_root cap evict nt h = (r, h') /\ faithful h' /\ rootv r = fs_root t /\
    (forall a n, r = Ok (Some (a, n)) -> hp_live h' a = true).
  Proof.
    intros HR. unfold hp_root, fs_root. cbn [nt_rb nt_img nt_of]. destruct (int_max <? fs_rb t).
    { exists Fail, h. split; [reflexivity|]. split; [exact HR|]. split; [reflexivity|discriminate]. }
    destruct (hp_find h (fs_rb t)) as [[a n]|] eqn:E.
    - exists (Ok (Some (a, n))), h. split; [reflexivity|]. split; [exact HR|]. apply find_in in E.
      pose proof (HR _ _ _ E) as HL. unfold loaded in HL. rewrite Z.eqb_refl in HL. rewrite HL.
      split; [reflexivity|]. intros a' n' X. injection X as <- <-. eapply live_in; eauto.
    - unfold bindM, retM. destruct (ex_intro (fun r => fs_load_root (fs_img t) (fs_rb t) = r) _ eq_refl) as (lr & EL). rewrite EL. destruct lr as [[n|]| | |];
        try (eexists _, h; split; [reflexivity|]; split; [exact HR|]; split; [reflexivity|discriminate]).
      destruct (store_any h (fs_rb t) n HR) as (a & h' & HS & HR' & HV); [unfold loaded; rewrite Z.eqb_refl; exact EL|].
      rewrite HS. exists (Ok (Some (a, n))), h'. split; [reflexivity|]. split; [exact HR'|]. split; [reflexivity|].
      intros a' n' X. injection X as <- <-. exact HV.
  Qed.
  Lemma sub_any rn : fs_root t = Ok (Some rn) -> forall o h, faithful h -> exists r h', hp_sub cap evict nt o h = (r, h') /\ faithful h' /\
    (subv r = fs_sub t o \/ subv r = Ok rn /\ fs_sub t o = Fail) /\ (forall a n, r = Ok (a, n) -> hp_live h' a = true).
  Proof.
    intros HRN o h HR. unfold hp_sub, fs_sub, bindM, retM. cbn [nt_map nt_of].
    assert (RN : fs_load_root (fs_img t) (fs_rb t) = Ok (Some rn)) by (unfold fs_root in HRN; destruct (int_max <? fs_rb t); [discriminate|exact HRN]).
    destruct (omap_lookup (fs_omap t) (fs_orb t) o (fs_txn t)) as [[d|]| | |]; cbn [bind];
      try (eexists _, h; split; [reflexivity|]; split; [exact HR|]; split; [left; reflexivity|discriminate]).
    cbn [nt_img nt_of]. destruct (int_max <? od_address d) eqn:EM.
    { eexists _, h; split; [reflexivity|]; split; [exact HR|]; split; [left; reflexivity|discriminate]. }
    destruct (hp_find h (od_address d)) as [[a n]|] eqn:E.
    - exists (Ok (a, n)), h. split; [reflexivity|]. split; [exact HR|]. apply find_in in E. pose proof (HR _ _ _ E) as HL. unfold loaded in HL.
      split; [|intros a' n' X; injection X as <- <-; eapply live_in; eauto].
      destruct (Z.eqb_spec (od_address d) (fs_rb t)) as [EB|EB].
      + right. rewrite HL in RN. injection RN as <-. split; [reflexivity|]. rewrite EB. eapply fs_disjoint. exact HL.
      + left. rewrite HL. reflexivity.
    - destruct (ex_intro (fun r => fs_load_sub (fs_img t) (od_address d) = r) _ eq_refl) as (lr & EL). rewrite EL. destruct lr as [n| | |];
        try (eexists _, h; split; [reflexivity|]; split; [exact HR|]; split; [left; reflexivity|discriminate]).
      destruct (store_any h (od_address d) n HR) as (a & h' & HS & HR' & HV).
      { unfold loaded. destruct (Z.eqb_spec (od_address d) (fs_rb t)) as [EB|EB]; [|exact EL]. rewrite EB in EL. rewrite (fs_disjoint _ _ _ RN) in EL. discriminate. }
      rewrite HS. exists (Ok (a, n)), h'. split; [reflexivity|]. split; [exact HR'|]. split; [left; reflexivity|].
      intros a' n' X. injection X as <- <-. exact HV.
  Qed.

  Section One.
    Variables (A : Type) (w : walker A).
    Hypothesis Hone : forall n, exists r, wk_plan w n = [r].
    Lemma visit_one rn (HRN : fs_root t = Ok (Some rn)) f : forall d x h, faithful h -> hp_live h (fst x) = true ->
      hp_visit cap evict nt A w f d x h = visit (vsub cap evict t) w f d (snd x) h.
    Proof.
      induction f as [|f IH]; intros d x h HR HL; [reflexivity|]. cbn [hp_visit visit].
      destruct (is_leaf (snd x)); [reflexivity|]. destruct (max_depth <? d); [reflexivity|].
      destruct (Hone (snd x)) as (r & ->). cbn [hp_children visit_children]. rewrite HL. rewrite !bindM_fst. change (@retM heap Z r h) with (r, h).
      destruct r as [o| | |]; try reflexivity.
      rewrite !bindM_fst. destruct (sub_any rn HRN o h HR) as (r & h1 & E & HR1 & _ & HV).
      assert (EV : vsub cap evict t o h = (subv r, h1)) by (unfold vsub; rewrite E; reflexivity). rewrite EV, E.
      destruct r as [[a m]| | |]; cbn [subv bind snd]; try reflexivity. rewrite (IH (d + 1) (a, m) h1 HR1 (HV a m eq_refl)). reflexivity.
    Qed.
    Theorem walk_one h : fine_walker w -> faithful h ->
      faithful (snd (hp_walk cap evict nt A w h)) /\ fst (hp_walk cap evict nt A w h) = fs_walk t w.
    Proof.
      intros HW HR. assert (EQ : hp_walk cap evict nt A w h = walk (vroot cap evict t) (vsub cap evict t) w h).
      { unfold hp_walk, walk. rewrite !bindM_fst. unfold vroot. destruct (root_any h HR) as (r & h' & E & HR' & EV & HV). rewrite E. cbn [fst snd].
        destruct r as [[[a n]|]| | |]; cbn [rootv bind option_map snd]; try reflexivity.
        apply (visit_one n (eq_sym EV) walk_fuel 0 (a, n) h' HR' (HV a n eq_refl)). }
      rewrite EQ. unfold fs_walk.
      apply (walk_agree_gen heap A (vroot cap evict t) (vsub cap evict t) (fs_root t) (fs_sub t) faithful w); auto.
      - apply fs_root_fine; auto.
      - apply fs_sub_fine; auto.
      - intros s HS. destruct (root_any s HS) as (r & h' & E & HR' & EV & _). unfold vroot. rewrite E. cbn [fst snd]. split; [exact HR'|exact EV].
      - intros rn HRN o s HS. destruct (sub_any rn HRN o s HS) as (r & h' & E & HR' & EV & _). unfold vsub. rewrite E. cbn [fst snd]. split; [exact HR'|exact EV].
      - intros. apply HW. apply (fs_root_entries t); auto.
      - intros. apply HW. eapply (fs_sub_entries t); eauto.
    Qed.
  End One.
  Theorem lookups_one ids : forall h, faithful h -> hp_session cap evict nt (map QInode ids) h = map (fun id => ask t (QInode id)) ids.
  Proof.
    induction ids as [|id ids IH]; intros h HR; [reflexivity|]. cbn [map hp_session hp_ask]. rewrite bindM_fst.
    destruct (walk_one _ (fs_id_walker id 3)) with (h := h) as (H1 & H2).
    - intros n. eexists. reflexivity.
    - apply fs_id_walker_fine.
    - exact HR.
    - destruct (hp_walk cap evict nt (option bentry) (fs_id_walker id 3) h) as [r h']. cbn [fst snd] in *. subst r. cbn [ask]. unfold fs_inode.
      destruct (fs_walk t (fs_id_walker id 3)); cbn [bind]; unfold retM; (f_equal; apply IH; exact H1).
  Qed.
End OneChild.
