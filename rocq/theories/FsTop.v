(* File system tree traversals on well-formed trees. *)
From Verif Require Import Base BaseLemmas At BTree BTreeSpec BTreeProofs Walk WalkProofs TreeSpec TreeProofs
  Omap OmapSpec OmapProofs OmapTop Records RecordsSpec RecordsProofs FsTree FsSpec FsProofs.
Ltac Zify.zify_post_hook ::= Z.div_mod_to_equations.

(* ---- words ---- *)

Lemma kword_range k : bytes k -> 8 <= len k -> 0 <= kword k < 2 ^ 64.
Proof.
  intros HB HL. unfold kword. pose proof (le_val_range (slice k 0 8) (bytes_slice _ _ _ HB)) as R.
  rewrite len_slice in R by lia. exact R.
Qed.
Lemma word_id_mod k : word_id k = k mod 2 ^ 60.
Proof. unfold word_id. change 0x0fffffffffffffff with (Z.ones 60). apply Z.land_ones. lia. Qed.
Lemma word_type_div k : word_type k = k / 2 ^ 60.
Proof. unfold word_type. apply Z.shiftr_div_pow2. lia. Qed.
Lemma lookup_word_add ty id : 0 <= id < 2 ^ 60 -> lookup_word ty id = ty * 2 ^ 60 + id.
Proof. intros H. unfold lookup_word. rewrite Z.lor_comm, lor_shift_add, Z.shiftl_mul_pow2 by lia. lia. Qed.
Lemma fs_word_ok e : 8 <= len (fst e) -> fs_word e = Ok (kword (fst e)).
Proof. intros H. unfold fs_word. rewrite check_true by lia. cbn [bind]. rewrite rd_le_in by lia. reflexivity. Qed.
Lemma word_eq k ty id : 0 <= id < 2 ^ 60 -> (kword k =? lookup_word ty id) = (kid k =? id) && (kty k =? ty).
Proof. intros H. rewrite lookup_word_add by auto. unfold kid, kty. lia. Qed.

Lemma fs_child_read k v o : fs_child_of v o -> 0 <= o < 2 ^ 64 -> fs_child (Some (k, v)) = Ok o.
Proof.
  intros -> Hb. unfold fs_child. cbn [snd]. rewrite le_enc_len. cbn [Z.of_nat Pos.of_succ_nat Pos.succ Z.eqb Pos.eqb check bind].
  rewrite rd_le_in by (rewrite ?le_enc_len; lia). rewrite slice_all by (rewrite le_enc_len; reflexivity).
  rewrite le_val_enc; [reflexivity|]. change (256 ^ Z.of_nat 8) with (2 ^ 64). lia.
Qed.

Ltac rw_child H := match type of H with _ = Ok ?b => match goal with |- context [fs_child ?p] =>
  replace (fs_child p) with (@Ok Z b) by (symmetry; exact H) end end.

Lemma fs_lt_trans (tie : list Z -> list Z -> Prop) : (forall a b c, tie a b -> tie b c -> tie a c) ->
  forall a b c, fs_lt tie a b -> fs_lt tie b c -> fs_lt tie a c.
Proof.
  intros HT a b c. unfold fs_lt. intros [H|(H1 & [H2|(H2 & H3)])] [G|(G1 & [G2|(G2 & G3)])]; try (left; lia); right; (split; [lia|]); try (left; lia).
  right. split; [lia|]. unfold tie_lt in *. rewrite <- H2 in G3. destruct (kty a =? 3); [auto|]. destruct (kty a =? 8); [lia|eauto].
Qed.

(* ---- nodes ---- *)
Section Node.
  Variables (dev : device) (orecs : list record) (t : Z).

  Lemma fs_node_load root x leaf es : fs_node dev orecs t root x leaf es ->
    exists b, (if root then b = x else resolves orecs t x b) /\ b <= int_max /\
    exists n, (if root then fs_load_root dev b else let! n := fs_load_sub dev b in Ok (Some n)) = Ok (Some n) /\
      is_leaf n = leaf /\ bn_entries n = es.
  Proof.
    intros (b & HX & Hb & d & HD & OK & HL & HR1 & HR2 & HT & HST & F0 & F1 & F2 & HFT & HR).
    exists b. split; [exact HX|]. split; [unfold int_max; lia|]. exists (node_result d).
    assert (RN : read_node (node_bytes d) = Ok (node_result d)).
    { apply node_round; auto. rewrite F0. destruct root; [lia|]. specialize (HR1 eq_refl). lia. }
    assert (G : is_leaf (node_result d) = leaf /\ bn_entries (node_result d) = es).
    { split; [unfold is_leaf, node_result; cbn; rewrite land_2, F1; destruct leaf; reflexivity|]. exact HR. }
    split; [|exact G].
    unfold fs_load_root, fs_load_sub, read_block. rewrite HD. cbn [bind]. rewrite RN. cbn [bind].
    assert (FL : flag (node_result d) 1 = root /\ flag (node_result d) 4 = false).
    { unfold flag, node_result. cbn. rewrite land_1, land_4, F0, F2. destruct root; auto. }
    destruct FL as (FL1 & FL4). rewrite FL1, FL4.
    change (bn_type (node_result d)) with (nd_type d). change (bn_subtype (node_result d)) with (nd_subtype d).
    rewrite HST. destruct root.
    - assert (TY : nd_type d = 2 \/ nd_type d = 0x10000002) by (cbn in HT; intuition).
      replace (nd_type d =? 0) with false by lia. rewrite (check_true (_ || _)) by lia. cbn [bind Z.eqb Pos.eqb check andb negb].
      change (bn_footer (node_result d)) with
        (if Z.testbit (nd_flags d) 0 then
         let fd := nd_footer d in
         Some (mk_bf (le_val (slice fd 0 4)) (le_val (slice fd 4 4)) (le_val (slice fd 8 4)) (le_val (slice fd 12 4))
                 (le_val (slice fd 16 4)) (le_val (slice fd 20 4)))
       else None). rewrite F0. cbn [bf_node bf_key bf_value].
      specialize (HFT eq_refl).
      assert (L40 : len (nd_footer d) = 40) by (destruct OK as (_ & _ & _ & _ & _ & _ & O7 & _); rewrite F0 in O7; exact O7).
      assert (A : at_ (nd_footer d) 4 (le_enc 4 4096 ++ le_enc 4 0 ++ le_enc 4 0)) by (rewrite <- HFT; apply at_of_slice; lia).
      apply at_app in A. destruct A as (A1 & A). apply at_app in A. destruct A as (A2 & A3). rewrite !le_enc_len in *.
      cbn zeta.
      rewrite (at_slice _ _ _ 4 A1) by reflexivity.
      replace (slice (nd_footer d) 8 4) with (le_enc 4 0) by (symmetry; apply (at_slice _ _ _ 4 A2); reflexivity).
      replace (slice (nd_footer d) 12 4) with (le_enc 4 0) by (symmetry; apply (at_slice _ _ _ 4 A3); reflexivity).
      reflexivity.
    - assert (TY : nd_type d = 3 \/ nd_type d = 0x10000003) by (cbn in HT; intuition).
      rewrite (check_true (_ || _)) by lia. reflexivity.
  Qed.
End Node.

(* ---- what the walkers compute on a tree ---- *)
Section Tree.
  Variable tie : list Z -> list Z -> Prop.
  Hypothesis tie_trans : forall a b c, tie a b -> tie b c -> tie a c.
  Notation lt := (fs_lt tie).
  Lemma SEPLE : forall k k1 : list Z, k = k1 -> k = k1 \/ lt k k1.
  Proof. auto. Qed.

  Lemma fs_forest_keys T es recs : forest fs_child_of lt eq T es recs -> Forall fs_rec_ok recs ->
    Forall (fun e => fs_rec_ok (fst e, [])) es.
  Proof.
    induction 1 as [|k v b es k1 v1 recs rest Hc HT Hs Hl HF IH]; intros HX; constructor.
    - subst. apply Forall_inv in HX. exact HX.
    - apply Forall_app in HX. apply IH. tauto.
  Qed.

  Section Lookup.
    Variables (id ty : Z).
    Hypothesis Hid : 0 <= id < 2 ^ 60.

    Definition above (k : list Z) : bool := (id <? kid k) || ((kid k =? id) && (ty <? kty k)).
    Lemma above_up a b : above a = true -> lt a b -> above b = true.
    Proof. unfold above, fs_lt. intros H [L|(L1 & [L2|(L2 & _)])]; lia. Qed.
    Lemma above_not r : above (fst r) = true -> has ty id r = false.
    Proof. unfold above, has. lia. Qed.
    Lemma no_match l : Forall (fun r => has ty id r = false) l -> filter (has ty id) l = [].
    Proof. induction 1 as [|r l H H1 IH]; [reflexivity|]. cbn. rewrite H. exact IH. Qed.

    Section Enum.
      Variables (A : Type) (parse : bentry -> res A) (more : bentry -> res bool).
      Hypothesis Hmore : forall k v, fs_rec_ok (k, []) -> has ty id (k, v) = true -> exists m, more (k, v) = Ok m /\
        (m = false -> forall r, fs_rec_ok r -> lt (fst r) k -> has ty id r = false).

      Definition good (r : record) : Prop := fs_rec_ok r /\ (has ty id r = true -> exists a, parse r = Ok a).
      Definition parsed (r : record) : list A := match parse r with Ok a => [a] | _ => [] end.
      Definition enum_ans (recs : list record) : list A := flat_map parsed (filter (has ty id) recs).
      Lemma enum_ans_app a b : enum_ans (a ++ b) = enum_ans a ++ enum_ans b.
      Proof. unfold enum_ans. rewrite filter_app, flat_map_app. reflexivity. Qed.
      Lemma enum_ans_none l : Forall (fun r => has ty id r = false) l -> enum_ans l = [].
      Proof. intros H. unfold enum_ans. rewrite no_match by auto. reflexivity. Qed.

      Lemma enum_leaf_ok es : sorted lt es -> Forall good es -> enum_leaf parse (lookup_word ty id) id es = Ok (enum_ans es).
      Proof.
        induction 1 as [|e es H H1 IH]; intros HG; [reflexivity|]. pose proof (Forall_inv HG) as (G1 & G2). apply Forall_inv_tail in HG.
        cbn [enum_leaf]. rewrite fs_word_ok by apply G1. cbn [bind]. rewrite word_id_mod. fold (kid (fst e)).
        rewrite word_eq by auto. destruct (id <? kid (fst e)) eqn:E1.
        - rewrite enum_ans_none; [reflexivity|]. assert (AB : above (fst e) = true) by (unfold above; rewrite E1; reflexivity).
          constructor; [apply above_not; auto|]. eapply Forall_impl; [|exact H]. cbn. intros r L. apply above_not. eapply above_up; eauto.
        - change ((kid (fst e) =? id) && (kty (fst e) =? ty)) with (has ty id e). unfold enum_ans. cbn [filter].
          destruct (has ty id e) eqn:E2; [|auto]. destruct (G2 eq_refl) as (a & Ha). rewrite Ha. cbn [bind].
          rewrite IH by auto. cbn [bind flat_map]. replace (parsed e) with [a] by (unfold parsed; rewrite Ha; reflexivity). reflexivity.
      Qed.

      (* the first key is not above what is looked up *)
      Definition reach (recs : list record) : Prop :=
        match recs with [] => True | r :: _ => above (fst r) = false end.
      Definition okr (recs : list record) : Prop := Forall good recs /\ reach recs.

      Variable T : Z -> list record -> Prop.
      Hypothesis HTs : forall b r, T b r -> sorted lt r.
      Hypothesis HTb : forall b r, T b r -> 0 <= b < 2 ^ 64.

      Lemma good_ok l : Forall good l -> Forall fs_rec_ok l.
      Proof. apply Forall_impl. intros r (H & _). exact H. Qed.

      Lemma enum_plan_some es : forall p recs, forest fs_child_of lt eq T (p :: es) recs -> Forall good recs -> above (fst p) = false ->
        exists bs rs, enum_plan more ty id (Some p) es = map Ok bs /\ Forall2 T bs rs /\ Forall okr rs /\
          concat (map enum_ans rs) = enum_ans recs.
      Proof.
        induction es as [|e es IH]; intros p recs HF HG HA;
          inversion HF as [|k v b es' k1 v1 r1 rest Hc HT Hs Hl HF' E1 E2]; subst p es' recs; subst k1; cbn [fst] in HA;
          apply Forall_app in HG; destruct HG as (HG1 & HG2).
        - inversion HF'; subst. exists [b], [(k, v1) :: r1]. cbn [enum_plan map].  rw_child (fs_child_read k v b Hc (HTb _ _ HT)).
          split; [reflexivity|]. split; [auto|]. split; [constructor; [split; auto|constructor]|].
          cbn [map concat]. rewrite app_nil_r, enum_ans_app. rewrite (enum_ans_none []) by constructor. rewrite app_nil_r. reflexivity.
        - pose proof (fs_forest_keys _ _ _ HF' (good_ok _ HG2)) as HK. apply Forall_inv in HK.
          cbn [enum_plan]. rewrite fs_word_ok by apply HK. rewrite word_id_mod, word_type_div. fold (kid (fst e)) (kty (fst e)).
          change ((id <? kid (fst e)) || ((kid (fst e) =? id) && (ty <? kty (fst e)))) with (above (fst e)).
          change ((kid (fst e) =? id) && (kty (fst e) =? ty)) with (has ty id e).
          assert (OKR : okr ((k, v1) :: r1)) by (split; auto).
          destruct (above (fst e)) eqn:EA.
          + exists [b], [(k, v1) :: r1]. cbn [map]. rw_child (fs_child_read k v b Hc (HTb _ _ HT)).
            split; [reflexivity|]. split; [auto|]. split; [constructor; [auto|constructor]|].
            cbn [map concat]. rewrite app_nil_r, enum_ans_app. rewrite (enum_ans_none rest), app_nil_r; [reflexivity|].
            assert (X : Forall (fun r => above (fst r) = true) rest).
            { apply (forest_up fs_child_of lt eq SEPLE T HTs (fun k => above k = true) (e :: es)); auto.
              - intros a c. apply above_up.
              - constructor; [exact EA|].
                pose proof (forest_seps fs_child_of lt eq (fs_lt_trans tie tie_trans) SEPLE T _ _ HF') as HS. inversion HS as [|? ? HS1 HS2]; subst.
                eapply Forall_impl; [|exact HS1]. cbn. intros s L. eapply above_up; eauto. }
            eapply Forall_impl; [|exact X]. intros r. apply above_not.
          + destruct (IH e rest HF' HG2 EA) as (bs & rs & PE & F2 & HO & EC).
            (* records of the child before e are less than e *)
            assert (HLT : Forall (fun r => lt (fst r) (fst e)) ((k, v1) :: r1)).
            { eapply Forall_impl; [|exact Hl]. cbn. intros r X. apply Forall_inv in X. exact X. }
            destruct (has ty id e) eqn:EH.
            * destruct e as [ke ve]. destruct (Hmore ke ve HK EH) as (m & HM & HMF). cbn [fst] in *. rewrite HM.
              destruct m.
              -- exists (b :: bs), (((k, v1) :: r1) :: rs). cbn [map]. rw_child (fs_child_read k v b Hc (HTb _ _ HT)).
                 split; [f_equal; exact PE|]. split; [auto|]. split; [auto|]. cbn [map concat]. rewrite EC, enum_ans_app. reflexivity.
              -- exists bs, rs. split; [auto|]. split; [auto|]. split; [auto|]. rewrite EC, enum_ans_app.
                 rewrite (enum_ans_none ((k, v1) :: r1)); [reflexivity|].
                 apply Forall_forall. intros r Hr. rewrite Forall_forall in HLT. apply (HMF eq_refl); auto.
                 rewrite Forall_forall in HG1. apply HG1; auto.
            * exists bs, rs. split; [auto|]. split; [auto|]. split; [auto|]. rewrite EC, enum_ans_app.
              rewrite (enum_ans_none ((k, v1) :: r1)); [reflexivity|]. eapply Forall_impl; [|exact HLT]. cbn. intros r L.
              unfold has, above, fs_lt in *. destruct L as [L|(L1 & [L2|(L2 & _)])]; lia.
      Qed.

      Lemma fold_app (l : list (list A)) : forall a, fold_left (@app A) l a = a ++ concat l.
      Proof. induction l as [|x l IH]; intros a; cbn; [rewrite app_nil_r; reflexivity|]. rewrite IH, app_assoc. reflexivity. Qed.

      Lemma enum_plan_ok n recs : bn_entries n <> [] -> okr recs -> forest fs_child_of lt eq T (bn_entries n) recs ->
        exists bs rs, wk_plan (enum_walker parse more ty id) n = map Ok bs /\ Forall2 T bs rs /\ Forall okr rs /\
          fold_left (wk_join (enum_walker parse more ty id)) (map enum_ans rs) (wk_start (enum_walker parse more ty id)) = enum_ans recs.
      Proof.
        intros HN (HG & HR) HF. cbn [wk_plan wk_join wk_start enum_walker].
        destruct (bn_entries n) as [|e es]; [contradiction|].
        assert (HA : above (fst e) = false).
        { inversion HF as [|k v b es' k1 v1 r1 rest Hc HT Hs Hl HF' E1 E2]; subst. exact HR. }
        destruct (enum_plan_some es e recs HF HG HA) as (bs & rs & PE & F2 & HO & EC).
        exists bs, rs. split; [|split; [auto|split; [auto|rewrite fold_app; exact EC]]].
        pose proof (fs_forest_keys _ _ _ HF (good_ok _ HG)) as HK. apply Forall_inv in HK.
        cbn [enum_plan]. rewrite fs_word_ok by apply HK. rewrite word_id_mod, word_type_div. fold (kid (fst e)) (kty (fst e)).
        change ((id <? kid (fst e)) || ((kid (fst e) =? id) && (ty <? kty (fst e)))) with (above (fst e)). rewrite HA.
        change ((kid (fst e) =? id) && (kty (fst e) =? ty)) with (has ty id e).
        destruct (has ty id e) eqn:EH; [|exact PE]. destruct e as [ke ve]. destruct (Hmore ke ve HK EH) as (m & HM & _). rewrite HM. exact PE.
      Qed.
    End Enum.
  End Lookup.

  (* ---- from an object identifier to the node ---- *)
  Section Load.
    Variables (t : fs) (ho : nat) (orecs : list record).
    Hypothesis Hho : Z.of_nat ho <= 256.
    Hypothesis HO : omap_tree (fs_omap t) ho (fs_orb t) orecs.
    Notation nd := (fs_node (fs_img t) orecs (fs_txn t)).

    Lemma fs_sub_ok o b : resolves orecs (fs_txn t) o b -> b <= int_max -> fs_sub t o = fs_load_sub (fs_img t) b.
    Proof.
      intros (Ho & r & HN & HA) Hb. unfold fs_sub.
      destruct (omap_lookup_correct (fs_omap t) ho (fs_orb t) orecs o (fs_txn t) HO Hho (proj1 Ho)) as (r' & HN' & E).
      rewrite E. cbn [bind]. destruct r' as [r'|].
      - assert (r' = r) by (eapply newest_unique; eauto). subst r'. cbn [option_map rec_desc od_address]. rewrite HA.
        replace (int_max <? b) with false by lia. reflexivity.
      - exfalso. destruct HN as (I1 & O1 & T1 & _). specialize (HN' r I1 O1). lia.
    Qed.
    Lemma fs_load_at o leaf es : nd false o leaf es -> exists n, fs_sub t o = Ok n /\ is_leaf n = leaf /\ bn_entries n = es.
    Proof.
      intros H. apply fs_node_load in H. destruct H as (b & HR & Hb & n & HL & H1 & H2). cbn iota in HR.
      rewrite (fs_sub_ok o b HR Hb). apply bind_ok in HL. destruct HL as (m & HL & E). injection E as ->. eauto.
    Qed.
    Lemma fs_node_oid o leaf es : nd false o leaf es -> 0 <= o < 2 ^ 64.
    Proof. intros (b & (H & _) & _). lia. Qed.

    Theorem fs_walk_tree {A} (w : walker A) (ans : list record -> A) (okl : list record -> Prop) h recs :
      Z.of_nat h <= 256 -> max_depth <= wk_lim w ->
      subtree nd fs_child_of lt eq h true (fs_rb t) recs -> okl recs ->
      (forall n, is_leaf n = true -> sorted lt (bn_entries n) -> okl (bn_entries n) -> wk_leaf w n = Ok (ans (bn_entries n))) ->
      (forall n (T : Z -> list record -> Prop) recs, is_leaf n = false -> bn_entries n <> [] ->
        (forall b r, T b r -> sorted lt r) -> (forall b r, T b r -> 0 <= b < 2 ^ 64) -> okl recs ->
        forest fs_child_of lt eq T (bn_entries n) recs ->
        exists bs rs, wk_plan w n = map Ok bs /\ Forall2 T bs rs /\ Forall okl rs /\
          fold_left (wk_join w) (map ans rs) (wk_start w) = ans recs) ->
      fs_walk t w = Ok (ans recs).
    Proof.
      intros Hh Hlim HT HK HL HP.
      assert (HB : exists leaf es, nd true (fs_rb t) leaf es).
      { destruct h; [destruct HT; eauto|destruct HT as (es & X & _); eauto]. }
      destruct HB as (lf & es & HB). destruct (fs_node_load _ _ _ _ _ _ _ HB) as (b & Eb & Hb & n & HN & _). cbn iota in Eb, HN. subst b.
      unfold fs_walk, walk, bindM. cbn [retM]. unfold fs_root. replace (int_max <? fs_rb t) with false by lia. rewrite HN.
      apply (visit_tree nd fs_child_of lt eq (fs_lt_trans tie tie_trans) SEPLE (fs_sub t)) with
        (okb := fun b => 0 <= b < 2 ^ 64) (okr := okl) (h := h) (root := true) (b := fs_rb t); auto.
      - apply fs_load_at.
      - apply fs_node_oid.
      - intros leaf es' H. destruct (fs_node_load _ _ _ _ _ _ _ H) as (b & Eb & _ & m & H2 & H3 & H4). cbn iota in Eb, H2. subst b.
        assert (m = n) by congruence. subst. auto.
      - unfold walk_fuel. lia.
      - lia.
    Qed.

    Theorem fs_walk_leaf {A} (w : walker A) (a : A) recs : 0 <= wk_lim w ->
      subtree nd fs_child_of lt eq 0 true (fs_rb t) recs ->
      (forall n, bn_entries n = recs -> sorted lt (bn_entries n) -> wk_leaf w n = Ok a) ->
      fs_walk t w = Ok a.
    Proof.
      intros Hl (HB & HS) HL. destruct (fs_node_load _ _ _ _ _ _ _ HB) as (b & Eb & Hb & n & HN & H1 & H2). cbn iota in Eb, HN. subst b.
      unfold fs_walk, walk, bindM. cbn [retM]. unfold fs_root. replace (int_max <? fs_rb t) with false by lia. rewrite HN.
      unfold walk_fuel. cbn [visit]. rewrite H1. replace (wk_lim w <? 0) with false by lia. cbn. apply HL; [auto|].
      rewrite H2. exact HS.
    Qed.
  End Load.

  Theorem enum_tree {A} (parse : bentry -> res A) more id ty h t recs : 0 <= id < 2 ^ 60 ->
    (forall k v, fs_rec_ok (k, []) -> has ty id (k, v) = true -> exists m, more (k, v) = Ok m /\
        (m = false -> forall r, fs_rec_ok r -> lt (fst r) k -> has ty id r = false)) ->
    fs_tree tie h t recs -> (forall r, In r recs -> has ty id r = true -> exists a, parse r = Ok a) ->
    (h = O \/ reach id ty recs) ->
    fs_walk t (enum_walker parse more ty id) = Ok (enum_ans id ty A parse recs).
  Proof.
    intros Hid HM (ho & orecs & Hho & HO & Hh & HT & HG) HP HR.
    assert (HG' : Forall (good id ty A parse) recs).
    { apply Forall_forall. intros r Hr. split; [rewrite Forall_forall in HG; auto|auto]. }
    destruct HR as [-> | HR].
    - apply (fs_walk_leaf t ho orecs _ _ recs); [cbn; lia|exact HT|]. cbn [wk_leaf enum_walker]. intros n EN HS.
      rewrite EN in *. apply enum_leaf_ok; auto.
    - apply (fs_walk_tree t ho orecs Hho HO (enum_walker parse more ty id) _ (okr id ty A parse) h); auto.
      + unfold max_depth. cbn. lia.
      + split; auto.
      + cbn. intros n _ HS (H1 & _). apply enum_leaf_ok; auto.
      + intros n T rs _ HN HTs HTb HK HF. apply enum_plan_ok; auto.
  Qed.
End Tree.
