(* Records of a well-formed file system tree: parsing, and lookup by identifier. *)
From Verif Require Import Base BaseLemmas At BTree BTreeSpec BTreeProofs Walk WalkProofs TreeSpec TreeProofs
  Omap OmapSpec OmapProofs OmapTop Records RecordsSpec RecordsProofs FsTree FsSpec FsProofs FsTop.
Ltac Zify.zify_post_hook ::= Z.div_mod_to_equations.

(* ---- parsing ---- *)
Lemma dir_rec_read id r e : dir_rec id r e -> read_dentry r = Ok e.
Proof.
  intros (flags & used & full & xs & HK & HV & Hn & Hi & Ha & Hx & HX & HT). unfold read_dentry. rewrite HV.
  replace (dir_key (fst r)) with (Ok (de_name e, de_hash e)).
  - cbn [bind]. rewrite dir_value_ok by auto. destruct e; reflexivity.
  - destruct HK as [(-> & ->)|(-> & H)]; symmetry; [apply dir_key_plain_ok|apply dir_key_hashed_ok]; auto.
Qed.
Lemma extent_rec_read id r e : extent_rec id r e -> read_extent r = Ok e.
Proof.
  intros (flags & HK & HV & H1 & H2 & H3 & H4 & H5). unfold read_extent. rewrite HK, HV.
  rewrite extent_key_ok by auto. cbn [bind]. rewrite extent_value_ok by auto. destruct e; reflexivity.
Qed.
Lemma attr_rec_read id r a : attr_rec id r a -> read_attr r = Ok a.
Proof.
  intros (HK & Hn & Hf & HV). unfold read_attr. rewrite HK, attr_key_ok by auto. cbn [bind].
  assert (E : attr_value (snd r) = Ok (at_flags a, at_data a)); [|rewrite E; destruct a; reflexivity].
  unfold attr_value. destruct a as [nm fl dt]. cbn [at_name at_flags at_data] in *.
  destruct dt as [sid size|v|].
  - destruct HV as (F0 & Hs & Hz & rest & HR & HV). pose proof (at_self (snd r)) as A. rewrite HV in A at 2.
    assert (L : len (snd r) = 52) by (rewrite HV; lens; lia). at_split A.
    rewrite check_true by lia. cbn [bind]. rdl 2%nat fl. rdl 2%nat 48.
    rewrite check_true by lia. cbn [bind]. rewrite land_1, F0. change (negb (1 =? 0)) with true. cbv iota.
    rewrite check_true by lia. cbn [bind]. rdl 8%nat sid. rdl 8%nat size. reflexivity.
  - destruct HV as (F0 & F1 & Hv & HV). pose proof (at_self (snd r)) as A. rewrite HV in A at 2.
    assert (L : len (snd r) = 4 + len v) by (rewrite HV; lens; lia). at_split A.
    rewrite check_true by lia. cbn [bind]. rdl 2%nat fl. rdl 2%nat (len v).
    rewrite check_true by lia. cbn [bind]. rewrite land_1, F0, land_2, F1. cbn [Z.eqb negb andb].
    destruct (Z.ltb_spec 0 (len v)); [|lia]. 
    rewrite (at_rd _ _ v); [reflexivity|at_done|reflexivity].
  - destruct HV as (F0 & HV). pose proof (at_self (snd r)) as A. rewrite HV in A at 2.
    assert (L : len (snd r) = 4) by (rewrite HV; lens; lia). at_split A.
    rewrite check_true by lia. cbn [bind]. rdl 2%nat fl. rdl 2%nat 0.
    rewrite check_true by lia. cbn [bind]. rewrite land_1, F0. cbn [Z.eqb negb andb]. rewrite Z.ltb_irrefl, andb_false_r. reflexivity.
Qed.

(* ---- enumerations ---- *)
Lemma enum_forall2 {A} (parse : bentry -> res A) (R : record -> A -> Prop) id ty recs :
  (forall r a, R r a -> parse r = Ok a) ->
  (forall r, In r recs -> has ty id r = true -> exists a, R r a) ->
  Forall2 R (filter (has ty id) recs) (enum_ans id ty A parse recs).
Proof.
  intros HP HR. unfold enum_ans. assert (H : forall r, In r (filter (has ty id) recs) -> exists a, R r a).
  { intros r Hr. apply filter_In in Hr. destruct Hr; auto. }
  induction (filter (has ty id) recs) as [|r l IH]; [constructor|]. destruct (H r (or_introl eq_refl)) as (a & Ha).
  cbn [flat_map]. replace (parsed A parse r) with [a] by (unfold parsed; rewrite (HP r a Ha); reflexivity).
  cbn [app]. constructor; [exact Ha|]. apply IH. intros r' Hr'. apply H. right; auto.
Qed.

Section Tree.
  Variable tie : list Z -> list Z -> Prop.
  Hypothesis tie_trans : forall a b c, tie a b -> tie b c -> tie a c.
  Notation lt := (fs_lt tie).

  Lemma always_ok id ty : forall k v, fs_rec_ok (k, []) -> has ty id (k, v) = true -> exists m, always (k, v) = Ok m /\
        (m = false -> forall r, fs_rec_ok r -> lt (fst r) k -> has ty id r = false).
  Proof. intros. exists true. split; [reflexivity|discriminate]. Qed.
  Lemma koff_nonneg k : bytes k -> 16 <= len k -> 0 <= koff k.
  Proof.
    intros HB HL. unfold koff. pose proof (le_val_range (slice k 8 8) (bytes_slice _ _ _ HB)). lia.
  Qed.
  Lemma not_first_ok id : forall k v, fs_rec_ok (k, []) -> has 8 id (k, v) = true -> exists m, not_first (k, v) = Ok m /\
        (m = false -> forall r, fs_rec_ok r -> lt (fst r) k -> has 8 id r = false).
  Proof.
    intros k v (H1 & H2 & H3 & H4) HH. unfold has in HH. cbn [fst] in *. assert (K8 : kty k = 8) by lia.
    specialize (H4 K8). exists (0 <? koff k). split.
    - unfold not_first. cbn [fst]. rewrite check_true by lia. cbn [bind]. rewrite rd_le_in by lia. reflexivity.
    - intros E r (R1 & R2 & R3 & R4) L. destruct (has 8 id r) eqn:HR; [|reflexivity]. exfalso. unfold has in HR.
      assert (R8 : kty (fst r) = 8) by lia. pose proof (koff_nonneg (fst r) R2 (R4 R8)).
      unfold fs_lt, tie_lt in L. rewrite R8 in L. cbn [Z.eqb Pos.eqb] in L. lia.
  Qed.

  (* ---- lookup by identifier ---- *)
  Section Find.
    Variable id : Z.
    Hypothesis Hid : 0 <= id < 2 ^ 60.
    Definition id_ans (recs : list record) : option bentry := find (has 3 id) recs.

    Lemma leaf_find_ok es : Forall fs_rec_ok es -> fs_leaf_find (lookup_word 3 id) es = Ok (id_ans es).
    Proof.
      induction 1 as [|e es H H1 IH]; [reflexivity|]. cbn [fs_leaf_find id_ans find]. rewrite fs_word_ok by apply H. cbn [bind].
      rewrite word_eq by auto. change ((kid (fst e) =? id) && (kty (fst e) =? 3)) with (has 3 id e).
      destruct (has 3 id e); [reflexivity|exact IH].
    Qed.

    Lemma find_none l : Forall (fun r => has 3 id r = false) l -> find (has 3 id) l = None.
    Proof. induction 1 as [|r l H H1 IH]; [reflexivity|]. cbn. rewrite H. exact IH. Qed.
    Lemma find_mid a c b : Forall (fun r => has 3 id r = false) a -> Forall (fun r => has 3 id r = false) b ->
      find (has 3 id) (a ++ c ++ b) = find (has 3 id) c.
    Proof.
      intros Ha Hb. induction Ha as [|r a H H1 IH]; cbn [app find].
      - induction c as [|r c IH]; cbn [app find]; [apply find_none; auto|]. destruct (has 3 id r); auto.
      - rewrite H. exact IH.
    Qed.

    (* the child taken *)
    Lemma branch_find_split es : forall p, Forall (fun e => fs_rec_ok (fst e, [])) es ->
      sorted lt es -> (forall e, p = Some e -> Forall (fun e' => lt (fst e) (fst e')) es /\ kid (fst e) < id) ->
      (p <> None \/ es <> []) ->
      exists c, fs_branch_find id 3 p es = Ok (Some c) /\
        ((p = Some c /\ Forall (fun e => above id 3 (fst e) = true) es) \/
         exists a b, es = a ++ c :: b /\
           (above id 3 (fst c) = false \/ (p = None /\ a = [])) /\
           Forall (fun e => above id 3 (fst e) = true) b).
    Proof.
      induction es as [|e es IH]; intros p HK HS HP HN.
      - destruct p as [p|]; [|destruct HN; contradiction]. exists p. split; [reflexivity|]. left. split; [reflexivity|constructor].
      - cbn [fs_branch_find]. pose proof (Forall_inv HK) as (K1 & K2 & K3 & _). apply Forall_inv_tail in HK. cbn [fst] in *.
        rewrite fs_word_ok by exact K1. cbn [bind]. rewrite word_id_mod, word_type_div. fold (kid (fst e)) (kty (fst e)).
        inversion HS as [|? ? HS1 HS2]; subst.
        destruct (id <=? kid (fst e)) eqn:E1.
        + assert (UP : kid (fst e) <> id \/ 3 <= kty (fst e) -> Forall (fun e => above id 3 (fst e) = true) es).
          { intros _. eapply Forall_impl; [|apply (Forall_and HS1 HK)]. cbn. intros x (L & (_ & _ & X3 & _)). cbn [fst] in X3.
            unfold fs_lt, tie_lt in L. unfold above. destruct L as [L|(L1 & [L2|(L2 & L3)])]; [lia|lia|].
            destruct (kty (fst e) =? 3) eqn:K; [contradiction|lia]. }
          assert (UP' := UP ltac:(lia)). clear UP.
          destruct p as [p|].
          * destruct ((kid (fst e) =? id) && (kty (fst e) <=? 3)) eqn:E2.
            -- exists e. split; [reflexivity|]. right. exists [], es. split; [reflexivity|]. split; [left; unfold above; lia|auto].
            -- exists p. split; [reflexivity|]. left. split; [reflexivity|]. constructor; [unfold above; lia|auto].
          * exists e. split; [reflexivity|]. right. exists [], es. split; [reflexivity|]. split; [right; auto|auto].
        + destruct (IH (Some e) HK HS2) as (c & HC & [(EC & HA)|(a & b & -> & HA & HB)]).
          * intros x X. assert (x = e) by congruence. subst x. split; [exact HS1|lia].
          * left; discriminate.
          * exists c. split; [exact HC|]. right. exists [], es. assert (e = c) by congruence. subst c. split; [reflexivity|].
            split; [left; unfold above; lia|exact HA].
          * exists c. split; [exact HC|]. right. exists (e :: a), b. split; [reflexivity|]. split; [|exact HB].
            left. destruct HA as [HA|(HA & _)]; [exact HA|discriminate].
    Qed.

    Lemma id_plan_ok n (T : Z -> list record -> Prop) recs : bn_entries n <> [] ->
      (forall b r, T b r -> sorted lt r) -> (forall b r, T b r -> 0 <= b < 2 ^ 64) ->
      Forall fs_rec_ok recs -> forest fs_child_of lt eq T (bn_entries n) recs ->
      exists bs rs, wk_plan (fs_id_walker id 3) n = map Ok bs /\ Forall2 T bs rs /\ Forall (Forall fs_rec_ok) rs /\
        fold_left (wk_join (fs_id_walker id 3)) (map id_ans rs) (wk_start (fs_id_walker id 3)) = id_ans recs.
    Proof.
      intros HN HTs HTb HG HF. cbn [wk_plan wk_join wk_start fs_id_walker].
      pose proof (fs_forest_keys tie _ _ _ HF HG) as HK.
      pose proof (forest_seps fs_child_of lt eq (fs_lt_trans tie tie_trans) (SEPLE tie) T _ _ HF) as HSS.
      destruct (branch_find_split (bn_entries n) None HK HSS) as (c & HC & [(X & _)|(a & b & EQ & HA & HB)]); [discriminate|auto|discriminate|].
      match goal with |- context [fs_branch_find ?i ?y ?p ?l] => replace (fs_branch_find i y p l) with (@Ok (option bentry) (Some c)) by (symmetry; exact HC) end.
      cbn [bind]. rewrite EQ in HF.
      destruct (forest_before fs_child_of lt eq T _ _ _ _ HF) as (r1 & r2 & -> & F1 & F2 & LT).
      inversion F2 as [|k v o es' k1 v1 rc rest Hc HT Hs Hl HF' E1 E2]. subst c es' r2 k1. cbn [fst] in *.
      apply Forall_app in HG. destruct HG as (HG1 & HG2). apply Forall_app in HG2. destruct HG2 as (HGc & HG2).
      exists [o], [(k, v1) :: rc]. rw_child (fs_child_read k v o Hc (HTb _ _ HT)). split; [reflexivity|]. split; [auto|].
      split; [auto|]. cbn [map fold_left]. unfold id_ans. symmetry. apply find_mid.
      - destruct HA as [HA|(_ & ->)].
        + eapply Forall_impl; [|exact LT]. cbn. intros r L. unfold has, above, fs_lt, tie_lt in *.
          destruct L as [L|(L1 & [L2|(L2 & L3)])]; [lia|lia|]. destruct (kty (fst r) =? 3); [contradiction|lia].
        + inversion F1; subst. constructor.
      - assert (X : Forall (fun r => above id 3 (fst r) = true) rest).
        { apply (forest_up fs_child_of lt eq (SEPLE tie) T HTs (fun k => above id 3 k = true) b); auto.
          intros x y Hx L. eapply (above_up tie); eauto. }
        eapply Forall_impl; [|exact X]. intros r. apply above_not.
    Qed.

    Theorem id_tree h t recs : fs_tree tie h t recs -> fs_walk t (fs_id_walker id 3) = Ok (id_ans recs).
    Proof.
      intros (ho & orecs & Hho & HO & Hh & HT & HG).
      apply (fs_walk_tree tie tie_trans t ho orecs Hho HO (fs_id_walker id 3) id_ans (Forall fs_rec_ok) h); auto.
      - unfold max_depth. cbn. unfold max_depth. lia.
      - cbn [wk_leaf fs_id_walker]. intros n _ _ H. apply leaf_find_ok; auto.
      - intros n T rs _. apply id_plan_ok; auto.
    Qed.
  End Find.

  Lemma fs_tree_sorted h t recs : fs_tree tie h t recs -> sorted lt recs.
  Proof.
    intros (ho & orecs & _ & _ & _ & HT & _). eapply (subtree_sorted _ _ _ _ (fs_lt_trans tie tie_trans) (SEPLE tie)); eauto.
  Qed.
End Tree.
