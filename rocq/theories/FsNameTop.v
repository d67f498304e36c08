(* Name lookup on well-formed trees, for comparison functions that fit the order of keys. *)
From Verif Require Import Base BaseLemmas At BTree BTreeSpec BTreeProofs Walk WalkProofs TreeSpec TreeProofs
  Omap OmapSpec OmapProofs OmapTop Records RecordsSpec RecordsProofs FsTree FsSpec FsProofs FsTop FsLookup FsName.
Ltac Zify.zify_post_hook ::= Z.div_mod_to_equations.

Section NameTree.
  Variable tie : list Z -> list Z -> Prop.
  Hypothesis tie_trans : forall a b c, tie a b -> tie b c -> tie a c.
  Notation lt := (fs_lt tie).
  Variables (id : Z) (cl cb : list Z * Z -> res comparison) (recs0 : list record).
  Hypothesis Hid : 0 <= id < 2 ^ 60.

  (* what the two comparisons give for a key *)
  Definition compared (c : list Z * Z -> res comparison) (k : list Z) : comparison :=
    match dir_key k with Ok p => match c p with Ok x => x | _ => Eq end | _ => Eq end.
  Notation lc := (compared cl).
  Notation bc := (compared cb).
  Definition key_has (k : list Z) : bool := has 9 id (k, []).
  Lemma key_has_eq r : has 9 id r = key_has (fst r).
  Proof. reflexivity. Qed.

  Hypothesis HC : forall r, In r recs0 -> key_has (fst r) = true -> exists p, dir_key (fst r) = Ok p /\
    cl p = Ok (lc (fst r)) /\ cb p = Ok (bc (fst r)) /\ (lc (fst r) = Eq -> exists v, dir_value (snd r) = Ok v).
  Hypothesis M1 : forall a b, In a recs0 -> In b recs0 -> key_has (fst a) = true -> key_has (fst b) = true ->
    lt (fst a) (fst b) -> bc (fst a) <> Gt -> bc (fst b) = Lt.
  Hypothesis M2 : forall r, In r recs0 -> key_has (fst r) = true -> lc (fst r) = Eq -> bc (fst r) = Eq.

  Definition is_eq (c : comparison) : bool := match c with Eq => true | _ => false end.
  Definition is_lt (c : comparison) : bool := match c with Lt => true | _ => false end.
  Definition hit (r : record) : bool := key_has (fst r) && is_eq (lc (fst r)).
  Definition entry (r : record) : option dentry :=
    match dir_key (fst r), dir_value (snd r) with
    | Ok p, Ok (i, a) => Some (mk_de (fst p) (snd p) i a)
    | _, _ => None
    end.
  Definition name_ans (recs : list record) : option dentry :=
    match find hit recs with Some r => entry r | None => None end.

  Definition in0 (r : record) : Prop := In r recs0 /\ fs_rec_ok r.
  Definition inK (k : list Z) : Prop := exists v, in0 (k, v).

  Lemma name_leaf_ok es : Forall in0 es -> name_leaf cl (lookup_word 9 id) es = Ok (name_ans es).
  Proof.
    induction 1 as [|e es (H & H') H1 IH]; [reflexivity|]. cbn [name_leaf]. rewrite fs_word_ok by apply H'. cbn [bind].
    rewrite word_eq by auto. change ((kid (fst e) =? id) && (kty (fst e) =? 9)) with (key_has (fst e)).
    unfold name_ans. cbn [find]. unfold hit at 1. destruct (key_has (fst e)) eqn:E; [|exact IH]. cbn [andb].
    destruct (HC e H E) as (p & K1 & K2 & K3 & K4). rewrite K1. cbn [bind]. rewrite K2. cbn [bind].
    destruct (lc (fst e)); cbn [is_eq]; [|exact IH|exact IH]. destruct (K4 eq_refl) as ([i a] & V). unfold entry.
    rewrite K1, V. reflexivity.
  Qed.

  Definition stop (k : list Z) : bool := above id 9 k || (key_has k && is_lt (bc k)).
  Lemma has_cases k : above id 9 k = false -> key_has k = false -> kid k < id \/ (kid k = id /\ kty k < 9).
  Proof. unfold above, key_has, has. cbn [fst]. intros. lia. Qed.
  Lemma stop_up a b : inK a -> inK b -> stop a = true -> lt a b -> stop b = true.
  Proof.
    intros (va & Ia & _) (vb & Ib & _) H L. unfold stop in *. apply orb_prop in H. apply orb_true_iff. destruct H as [H|H].
    - left. eapply above_up; eauto.
    - apply andb_prop in H. destruct H as (H1 & H2). destruct (above id 9 b) eqn:EA; [auto|right].
      assert (HB : key_has b = true).
      { unfold above, key_has, has in *. cbn [fst] in *. unfold fs_lt in L. lia. }
      rewrite HB. cbn [andb]. replace (bc b) with Lt; [reflexivity|]. symmetry.
      apply (M1 (a, va) (b, vb) Ia Ib H1 HB L). cbn [fst]. destruct (bc a); [discriminate|congruence|discriminate].
  Qed.
  Lemma stop_no_hit r : in0 r -> stop (fst r) = true -> hit r = false.
  Proof.
    intros (H & _) HS. unfold hit. destruct (key_has (fst r)) eqn:E; [|reflexivity]. cbn [andb]. unfold stop in HS. rewrite E in HS. cbn [andb] in HS.
    apply orb_prop in HS. destruct HS as [HS|HS].
    - unfold above, key_has, has in *. cbn [fst] in *. lia.
    - destruct (lc (fst r)) eqn:EL; [|reflexivity|reflexivity]. rewrite (M2 r H E EL) in HS. discriminate.
  Qed.
  Lemma before_no_hit r c : in0 r -> inK c -> lt (fst r) c -> stop c = false -> hit r = false.
  Proof.
    intros (H & HK) (vc & Ic & HKc) L HS. unfold hit. destruct (key_has (fst r)) eqn:E; [|reflexivity]. cbn [andb].
    destruct (lc (fst r)) eqn:EL; [|reflexivity|reflexivity]. exfalso. pose proof (M2 r H E EL) as EB.
    unfold stop in HS. apply orb_false_iff in HS. destruct HS as (HS1 & HS2).
    assert (HB : key_has c = true).
    { unfold above, key_has, has in *. cbn [fst] in *. unfold fs_lt in L. lia. }
    rewrite HB in HS2. cbn [andb] in HS2. assert (X : bc c = Lt) by (apply (M1 r (c, vc) H Ic E HB L); rewrite EB; discriminate). rewrite X in HS2. discriminate.
  Qed.

  Lemma name_branch_step p e es : inK (fst e) ->
    name_branch cb id p (e :: es) = if stop (fst e) then Ok p else name_branch cb id (Some e) es.
  Proof.
    intros (v & H & H'). cbn [name_branch]. rewrite fs_word_ok by apply H'. cbn [bind]. rewrite word_id_mod, word_type_div. fold (kid (fst e)) (kty (fst e)).
    change ((id <? kid (fst e)) || ((kid (fst e) =? id) && (9 <? kty (fst e)))) with (above id 9 (fst e)). unfold stop.
    destruct (above id 9 (fst e)); [reflexivity|]. cbn [orb].
    change ((kid (fst e) =? id) && (kty (fst e) =? 9)) with (key_has (fst e)). destruct (key_has (fst e)) eqn:E; [|reflexivity]. cbn [andb].
    destruct (HC _ H E) as (q & K1 & _ & K3 & _). cbn [fst] in *. rewrite K1. cbn [bind]. rewrite K3. cbn [bind].
    destruct (bc (fst e)); reflexivity.
  Qed.
  Lemma name_branch_split es : forall p, Forall (fun e => inK (fst e)) (p :: es) -> sorted lt (p :: es) -> stop (fst p) = false ->
    exists a c b, p :: es = a ++ c :: b /\ name_branch cb id (Some p) es = Ok (Some c) /\ stop (fst c) = false /\
      Forall (fun e => stop (fst e) = true) b.
  Proof.
    induction es as [|e es IH]; intros p HK HS HP.
    - exists [], p, []. auto.
    - pose proof (Forall_inv_tail HK) as HK'. inversion HS as [|? ? S1 S2]; subst. rewrite name_branch_step by exact (Forall_inv HK').
      destruct (stop (fst e)) eqn:E.
      + exists [], p, (e :: es). split; [reflexivity|]. split; [reflexivity|]. split; [exact HP|]. constructor; [exact E|].
        inversion S2 as [|? ? S3 S4]; subst. apply Forall_forall. intros x Hx.
        rewrite Forall_forall in S3. apply (stop_up (fst e)); auto.
        * exact (Forall_inv HK').
        * rewrite Forall_forall in HK'. apply HK'. right. exact Hx.
      + destruct (IH e HK' S2 E) as (a & c & b & EQ & H1 & H2 & H3). exists (p :: a), c, b.
        split; [rewrite EQ; reflexivity|auto].
  Qed.

  Definition okn (recs : list record) : Prop := Forall in0 recs /\ match recs with [] => True | r :: _ => stop (fst r) = false end.

  Lemma forest_inK T es recs : forest fs_child_of lt eq T es recs -> Forall in0 recs -> Forall (fun e => inK (fst e)) es.
  Proof.
    induction 1 as [|k v b es k1 v1 recs rest Hc HT Hs Hl HF IH]; intros HX; constructor.
    - subst. apply Forall_inv in HX. exists v1. exact HX.
    - apply Forall_app in HX. apply IH. tauto.
  Qed.
  Lemma find_skip (a b : list record) : Forall (fun r => hit r = false) a -> find hit (a ++ b) = find hit b.
  Proof. induction 1 as [|r a H _ IH]; [reflexivity|]. cbn [app find]. rewrite H. exact IH. Qed.
  Lemma find_cut (a b : list record) : Forall (fun r => hit r = false) b -> find hit (a ++ b) = find hit a.
  Proof.
    intros H. induction a as [|r a IH]; cbn [app find].
    - induction H as [|r b H _ IH]; [reflexivity|]. cbn [find]. rewrite H. exact IH.
    - destruct (hit r); [reflexivity|exact IH].
  Qed.

  Lemma name_plan_ok n (T : Z -> list record -> Prop) recs : bn_entries n <> [] ->
    (forall b r, T b r -> sorted lt r) -> (forall b r, T b r -> 0 <= b < 2 ^ 64) -> okn recs ->
    forest fs_child_of lt eq T (bn_entries n) recs ->
    exists bs rs, wk_plan (name_walker cl cb id) n = map Ok bs /\ Forall2 T bs rs /\ Forall okn rs /\
      fold_left (wk_join (name_walker cl cb id)) (map name_ans rs) (wk_start (name_walker cl cb id)) = name_ans recs.
  Proof.
    intros HN HTs HTb (HG & HR) HF. cbn [wk_plan wk_join wk_start name_walker].
    destruct (bn_entries n) as [|e es]; [contradiction|].
    pose proof (forest_inK _ _ _ HF HG) as HK.
    pose proof (forest_seps fs_child_of lt eq (fs_lt_trans tie tie_trans) (SEPLE tie) T _ _ HF) as HS.
    assert (HP : stop (fst e) = false).
    { inversion HF as [|k v b es' k1 v1 r1 rest Hc HT Hs Hl HF' E1 E2]; subst. exact HR. }
    rewrite name_branch_step by exact (Forall_inv HK). rewrite HP.
    destruct (name_branch_split es e HK HS HP) as (a & c & b & EQ & E1 & E2 & E3). rewrite E1. cbn [bind].
    pose proof (eq_ind _ (fun l => forest fs_child_of lt eq T l recs) HF _ EQ) as HF2. cbv beta in HF2. clear HF. rename HF2 into HF. destruct (forest_before fs_child_of lt eq T a c b recs HF) as (r1 & r2 & -> & F1 & F2 & F3).
    apply Forall_app in HG. destruct HG as (G1 & G2).
    pose proof (forest_inK _ _ _ F2 G2) as HKc. 
    inversion F2 as [|k v o es' k1 v1 rc rest Hc HT Hs Hl HF' E4 E5]; subst c es' r2. subst k1.
    apply Forall_app in G2. destruct G2 as (G2 & G3).
    exists [o], [(k, v1) :: rc]. cbn [map]. rw_child (fs_child_read k v o Hc (HTb _ _ HT)). split; [reflexivity|]. split; [auto|].
    split; [constructor; [split; [exact G2|exact E2]|constructor]|]. cbn [fold_left]. unfold name_ans.
    rewrite find_skip, find_cut; [reflexivity| |].
    - (* what follows the child *)
      assert (X : Forall (fun r => exists k0, inK k0 /\ stop k0 = true /\ (k0 = fst r \/ lt k0 (fst r))) rest).
      { apply (forest_up fs_child_of lt eq (SEPLE tie) T HTs (fun k => exists k0, inK k0 /\ stop k0 = true /\ (k0 = k \/ lt k0 k)) b); auto.
        - intros x y (k0 & I0 & S0 & L0) L. exists k0. split; [exact I0|]. split; [exact S0|]. right.
          destruct L0 as [L0|L0]; [subst; exact L|]. eapply fs_lt_trans; eauto.
        - apply Forall_forall. intros s Hs. exists (fst s). rewrite Forall_forall in E3. apply Forall_inv_tail in HKc. rewrite Forall_forall in HKc.
          split; [auto|]. split; [auto|]. left. reflexivity. }
      apply Forall_forall. intros r Hr. rewrite Forall_forall in X, G3. destruct (X r Hr) as (k0 & I0 & S0 & L0).
      apply stop_no_hit; [auto|]. destruct L0 as [L0|L0]; [subst; exact S0|].
      apply (stop_up k0); auto. exists (snd r). destruct r; auto.
    - apply Forall_forall. intros r Hr. rewrite Forall_forall in F3, G1. apply (before_no_hit r k); auto.
      exact (Forall_inv HKc).
  Qed.

  Theorem name_tree h t : fs_tree tie h t recs0 ->
    (h = O \/ match recs0 with [] => True | r :: _ => stop (fst r) = false end) ->
    fs_walk t (name_walker cl cb id) = Ok (name_ans recs0).
  Proof.
    intros (ho & orecs & Hho & HO & Hh & HT & HG) HR.
    assert (HG' : Forall in0 recs0).
    { apply Forall_forall. intros r Hr. split; [exact Hr|rewrite Forall_forall in HG; auto]. }
    destruct HR as [-> | HR].
    - apply (fs_walk_leaf tie t ho orecs _ _ recs0); [cbn; lia|exact HT|]. cbn [wk_leaf name_walker]. intros n EN _.
      rewrite EN. apply name_leaf_ok; auto.
    - apply (fs_walk_tree tie tie_trans t ho orecs Hho HO (name_walker cl cb id) _ okn h); auto.
      + unfold max_depth. cbn. lia.
      + split; auto.
      + cbn [wk_leaf name_walker]. intros n _ _ (H1 & _). apply name_leaf_ok; auto.
      + intros n T rs _ HN HTs HTb HK HF. apply name_plan_ok; auto.
  Qed.
End NameTree.
