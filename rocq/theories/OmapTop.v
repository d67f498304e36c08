(* Object map lookups on well-formed object maps. *)
From Verif Require Import Base BaseLemmas At BTree BTreeSpec BTreeProofs Walk WalkProofs TreeSpec TreeProofs Omap OmapSpec OmapProofs.
Ltac Zify.zify_post_hook ::= Z.div_mod_to_equations.

Lemma concat_len_const {A} (l : list (list A)) k : Forall (fun x => len x = k) l -> len (concat l) = k * len l.
Proof.
  induction 1 as [|x l H H1 IH]; [cbn; lia|]. cbn [concat]. rewrite len_app, len_cons. lia.
Qed.
Lemma len_rev {A} (l : list A) : len (rev l) = len l.
Proof. unfold len. rewrite rev_length. reflexivity. Qed.
Lemma len_map {A B} (f : A -> B) l : len (map f l) = len l.
Proof. unfold len. rewrite map_length. reflexivity. Qed.

Section Node.
  Variables (dev : device).

  Lemma omap_node_fits d : node_ok d -> len (node_bytes d) = 4096 -> len (nd_gap d) + len (nd_spare d) <= 2048 ->
    Z.testbit (nd_flags d) 2 = true -> 40 < len (nd_free d) + len (values_area (nd_recs d)).
  Proof.
    intros (O1 & _ & _ & _ & _ & O6 & O7 & _ & _ & O10) HL HS HF.
    specialize (O10 HF). destruct O10 as (_ & O10).
    assert (HK : len (keys_area (nd_recs d)) = 16 * len (nd_recs d)).
    { unfold keys_area. rewrite (concat_len_const _ 16), len_map; [reflexivity|]. apply Forall_map. apply Forall_forall.
      intros [k v] Hi. apply (O10 k v Hi). }
    assert (RV : exists vs, 8 <= vs <= 16 /\ vs = if Z.testbit (nd_flags d) 1 then 16 else 8) by (exists (if Z.testbit (nd_flags d) 1 then 16 else 8); split; [destruct (Z.testbit (nd_flags d) 1); lia|reflexivity]).
    destruct RV as (vs & RV & EV). rewrite <- EV in O10.
    assert (HV : len (values_area (nd_recs d)) = vs * len (nd_recs d)).
    { unfold values_area. rewrite (concat_len_const _ vs), len_rev, len_map; [reflexivity|]. apply Forall_rev.
      apply Forall_map. apply Forall_forall. intros [k v] Hi. apply (O10 k v Hi). }
    unfold node_bytes, nd_header, nd_toc, nd_fixed in HL. rewrite !len_app, !le_enc_len in HL. rewrite toc_len, HF in HL.
    pose proof (len_nonneg (nd_recs d)). pose proof (len_nonneg (nd_free d)).
    assert (len (nd_footer d) <= 40) by (rewrite O7; destruct (Z.testbit (nd_flags d) 0); lia).
    rewrite HK in HL. rewrite HV in *. nia.
  Qed.

  Lemma omap_node_load root b leaf es : omap_node dev root b leaf es ->
    b <= int_max /\ exists n, (if root then omap_load_root dev b else let! n := omap_load_sub dev b in Ok (Some n)) = Ok (Some n) /\
      is_leaf n = leaf /\ bn_entries n = es /\ (forall k v, In (k, v) es -> len k = 16 /\ len v = (if leaf then 16 else 8)).
  Proof.
    intros (Hb & d & HD & OK & HL & HS & HT & HST & F0 & F1 & F2 & HFT & HR).
    split; [unfold int_max; lia|]. exists (node_result d).
    assert (RN : read_node (node_bytes d) = Ok (node_result d)).
    { apply node_round; auto. pose proof (omap_node_fits d OK HL HS F2). destruct (Z.testbit (nd_flags d) 0); lia. }
    assert (G : is_leaf (node_result d) = leaf /\ bn_entries (node_result d) = es /\
      (forall k v, In (k, v) es -> len k = 16 /\ len v = (if leaf then 16 else 8))).
    { split; [unfold is_leaf, node_result; cbn; rewrite land_2, F1; destruct leaf; reflexivity|]. split; [exact HR|].
      intros k v Hi. destruct OK as (_ & _ & _ & _ & _ & _ & _ & _ & _ & O10). destruct (O10 F2) as (_ & O). rewrite HR in O.
      specialize (O k v Hi). rewrite F1 in O. destruct leaf; tauto. }
    split; [|exact G]. 
    unfold omap_load_root, omap_load_sub, read_block. rewrite HD. cbn [bind].
    rewrite RN. cbn [bind].
    assert (FL : flag (node_result d) 1 = root /\ flag (node_result d) 4 = true).
    { unfold flag, node_result. cbn. rewrite land_1, land_4, F0, F2. destruct root; auto. }
    destruct FL as (FL1 & FL4). rewrite FL1, FL4.
    change (bn_type (node_result d)) with (nd_type d). change (bn_subtype (node_result d)) with (nd_subtype d).
    rewrite HT, HST. destruct root; [|reflexivity].
    change (bn_footer (node_result d)) with
      (if Z.testbit (nd_flags d) 0 then
       let fd := nd_footer d in
       Some (mk_bf (le_val (slice fd 0 4)) (le_val (slice fd 4 4)) (le_val (slice fd 8 4)) (le_val (slice fd 12 4))
               (le_val (slice fd 16 4)) (le_val (slice fd 20 4)))
     else None). rewrite F0. cbn [bf_node bf_key bf_value].
    specialize (HFT eq_refl).
    assert (L40 : len (nd_footer d) = 40) by (destruct OK as (_ & _ & _ & _ & _ & _ & O7 & _); rewrite F0 in O7; exact O7).
    assert (A : at_ (nd_footer d) 4 (le_enc 4 4096 ++ le_enc 4 16 ++ le_enc 4 16)) by (rewrite <- HFT; apply at_of_slice; lia).
    apply at_app in A. destruct A as (A1 & A). apply at_app in A. destruct A as (A2 & A3). rewrite !le_enc_len in *.
    cbn zeta.
    rewrite (at_slice _ _ _ 4 A1) by reflexivity.
    replace (slice (nd_footer d) 8 4) with (le_enc 4 16) by (symmetry; apply (at_slice _ _ _ 4 A2); reflexivity).
    replace (slice (nd_footer d) 12 4) with (le_enc 4 16) by (symmetry; apply (at_slice _ _ _ 4 A3); reflexivity).
    reflexivity.
  Qed.
End Node.

Lemma okey_lt_trans a b c : okey_lt a b -> okey_lt b c -> okey_lt a c.
Proof. unfold okey_lt, pair_lt. lia. Qed.

Section Lookup.
  Variables (oid t : Z).
  Hypothesis Hoid : 0 < oid.

  Definition gtk (k : list Z) : bool :=
    (oid <? fst (okey k)) || ((fst (okey k) =? oid) && (t <? snd (okey k))).
  Lemma gtk_up a b : gtk a = true -> okey_lt a b -> gtk b = true.
  Proof. unfold gtk, okey_lt, pair_lt. lia. Qed.

  Fixpoint lastle (l : list record) : option record :=
    match l with
    | [] => None
    | e :: r => match lastle r with Some x => Some x | None => if gtk (fst e) then None else Some e end
    end.
  Lemma lastle_app a b : lastle (a ++ b) = match lastle b with Some x => Some x | None => lastle a end.
  Proof. induction a as [|e a IH]; cbn; [destruct (lastle b); reflexivity|]. rewrite IH. destruct (lastle b); reflexivity. Qed.
  Lemma lastle_gt l : Forall (fun e => gtk (fst e) = true) l -> lastle l = None.
  Proof. induction 1 as [|e l H H1 IH]; [reflexivity|]. cbn. rewrite IH, H. reflexivity. Qed.
  Lemma lastle_none l : lastle l = None -> Forall (fun e => gtk (fst e) = true) l.
  Proof.
    induction l as [|e l IH]; cbn; [constructor|]. destruct (lastle l); [discriminate|].
    destruct (gtk (fst e)) eqn:E; [|discriminate]. constructor; auto.
  Qed.
  Lemma lastle_some l e : lastle l = Some e -> exists l1 l2, l = l1 ++ e :: l2 /\ gtk (fst e) = false /\
    Forall (fun e => gtk (fst e) = true) l2.
  Proof.
    induction l as [|x l IH]; cbn; [discriminate|]. destruct (lastle l) as [y|] eqn:E.
    - intros H. injection H as ->. destruct (IH eq_refl) as (l1 & l2 & -> & H1 & H2). exists (x :: l1), l2. auto.
    - destruct (gtk (fst x)) eqn:Ex; [discriminate|]. intros H. injection H as ->. exists [], l.
      repeat split; auto. apply lastle_none; auto.
  Qed.

  Definition ans (recs : list record) : option (option bentry) :=
    match lastle recs with
    | Some e => if rec_oid e =? oid then Some (Some e) else None
    | None => None
    end.

  Fixpoint scan (es : list bentry) (s : omap_scan) : omap_scan :=
    match es with
    | [] => s
    | e :: es =>
      if gtk (fst e) then mk_os (Some e) (rec_oid e) (rec_txn e) (os_prev s) (os_previd s)
      else scan es (mk_os (Some e) (rec_oid e) (rec_txn e) (Some e) (rec_oid e))
    end.
  Lemma loop_scan es : forall s, Forall (fun e => len (fst e) = 16) es -> omap_loop oid t es s = Ok (scan es s).
  Proof.
    induction es as [|e es IH]; intros s H; [reflexivity|]. inversion H as [|? ? H1 H2]; subst. cbn [omap_loop].
    rewrite H1. change (16 <? 16) with false. cbn [negb check bind].
    rewrite !rd_le_in by lia. cbn [bind].
    change (gtk (fst e)) with ((oid <? rec_oid e) || ((rec_oid e =? oid) && (t <? rec_txn e))).
    change (le_val (slice (fst e) 0 8)) with (rec_oid e). change (le_val (slice (fst e) 8 8)) with (rec_txn e).
    cbn [scan]. change (gtk (fst e)) with ((oid <? rec_oid e) || ((rec_oid e =? oid) && (t <? rec_txn e))).
    destruct (_ || _); [reflexivity|]. apply IH; auto.
  Qed.
  Lemma scan_sorted es : forall s, sorted okey_lt es ->
    os_prev (scan es s) = (match lastle es with Some e => Some e | None => os_prev s end) /\
    os_previd (scan es s) = (match lastle es with Some e => rec_oid e | None => os_previd s end) /\
    (match lastle es with
     | Some e => os_entry (scan es s) = Some e \/ ((os_id (scan es s) =? oid) && (os_txn (scan es s) <=? t)) = false
     | None => es <> [] -> os_entry (scan es s) = Some (hd ([], []) es) end).
  Proof.
    induction es as [|e es IH]; intros s H; [cbn; repeat split; auto; contradiction|].
    inversion H as [|? ? H1 H2]; subst. cbn [scan lastle]. destruct (gtk (fst e)) eqn:E.
    - assert (G : Forall (fun e => gtk (fst e) = true) es).
      { eapply Forall_impl; [|exact H1]. cbn. intros a. apply gtk_up; auto. }
      rewrite (lastle_gt es G). cbn. auto.
    - destruct (IH (mk_os (Some e) (rec_oid e) (rec_txn e) (Some e) (rec_oid e)) H2) as (I1 & I2 & I3).
      destruct (lastle es) as [x|] eqn:EL; [auto|]. cbn [os_prev os_previd] in *. split; [auto|]. split; [auto|].
      destruct es as [|e2 es]; [left; reflexivity|]. right.
      apply lastle_none in EL. inversion EL as [|? ? G1 G2]; subst. cbn [scan]. rewrite G1. cbn [os_id os_txn].
      unfold gtk in G1. unfold okey in G1. cbn [fst snd] in G1. fold (rec_oid e2) (rec_txn e2) in G1. lia.
  Qed.

  Lemma entry_leaf n : is_leaf n = true -> sorted okey_lt (bn_entries n) ->
    Forall (fun e => len (fst e) = 16) (bn_entries n) ->
    omap_entry_from_node oid t n = Ok (ans (bn_entries n)).
  Proof.
    intros HL HS HG. unfold omap_entry_from_node. rewrite loop_scan by auto. cbn [bind]. rewrite HL.
    destruct (scan_sorted (bn_entries n) (mk_os None 0 0 None 0) HS) as (E1 & E2 & _). rewrite E1, E2. unfold ans.
    cbn [os_prev os_previd]. destruct (lastle (bn_entries n)); [reflexivity|]. replace (0 =? oid) with false by lia. reflexivity.
  Qed.
  Lemma entry_branch n : is_leaf n = false -> bn_entries n <> [] -> sorted okey_lt (bn_entries n) ->
    Forall (fun e => len (fst e) = 16) (bn_entries n) ->
    omap_entry_from_node oid t n = Ok (Some (Some (match lastle (bn_entries n) with Some e => e | None => hd ([], []) (bn_entries n) end))).
  Proof.
    intros HL HN HS HG. unfold omap_entry_from_node. rewrite loop_scan by auto. cbn [bind]. rewrite HL.
    destruct (scan_sorted (bn_entries n) (mk_os None 0 0 None 0) HS) as (E1 & E2 & E3). rewrite E1.
    cbn [os_prev]. destruct (lastle (bn_entries n)) as [e|].
    - destruct E3 as [E3|E3]; rewrite E3; [|reflexivity]. destruct (_ && _); reflexivity.
    - rewrite E3 by auto. reflexivity.
  Qed.

  Lemma forest_keys T es recs : forest ochild okey_lt eq T es recs -> Forall (fun e => len (fst e) = 16) recs ->
    Forall (fun e => len (fst e) = 16) es.
  Proof.
    induction 1 as [|k v b es k1 v1 recs rest Hc HT Hs Hl HF IH]; intros HX; constructor.
    - subst. cbn. inversion HX; auto.
    - apply Forall_app in HX. apply IH. tauto.
  Qed.

  Lemma ochild_read k v b : ochild v b -> 0 <= b < 2 ^ 31 -> omap_child (Some (k, v)) = Ok b.
  Proof.
    intros -> Hb. unfold omap_child. cbn [snd]. rewrite le_enc_len. cbn [Z.of_nat Pos.of_succ_nat Pos.succ Z.eqb Pos.eqb check bind].
    rewrite rd_le_in by (rewrite ?le_enc_len; lia). rewrite slice_all by (rewrite le_enc_len; reflexivity).
    rewrite le_val_enc; [reflexivity|]. change (256 ^ Z.of_nat 8) with (2 ^ 64). lia.
  Qed.

  Variables (dev : device).
  Notation nd := (omap_node dev).
  Definition wf_block (b : Z) : Prop := exists leaf es, nd false b leaf es.

  Lemma omap_plan n (T : Z -> list record -> Prop) recs : is_leaf n = false -> bn_entries n <> [] ->
    (forall b r, T b r -> sorted okey_lt r) -> (forall b r, T b r -> 0 <= b < 2 ^ 31) ->
    Forall (fun e => len (fst e) = 16) recs ->
    forest ochild okey_lt eq T (bn_entries n) recs ->
    exists bs rs, wk_plan (omap_walker oid t) n = map Ok bs /\ Forall2 T bs rs /\ Forall (Forall (fun e => len (fst e) = 16)) rs /\
      fold_left (wk_join (omap_walker oid t)) (map ans rs) (wk_start (omap_walker oid t)) = ans recs.
  Proof.
    intros HL HN HTs HTb HG HF.
    assert (SEPLE : forall k k1 : list Z, k = k1 -> k = k1 \/ okey_lt k k1) by auto.
    pose proof (forest_seps ochild okey_lt eq okey_lt_trans SEPLE T _ _ HF) as HSS.
    pose proof (forest_keys _ _ _ HF HG) as HK.
    cbn [wk_plan omap_walker]. rewrite (entry_branch n HL HN HSS HK).
    destruct (lastle (bn_entries n)) as [e|] eqn:EL.
    - destruct (lastle_some _ _ EL) as (es1 & es2 & EQ & G1 & G2). rewrite EQ in HF.
      destruct (forest_app ochild okey_lt eq T _ _ _ HF) as (r1 & r2 & -> & F1 & F2).
      inversion F2 as [|k v b ? k1 v1 rs rest Hc HT Hs Hl HF']; subst.
      exists [b], [(k1, v1) :: rs]. rewrite (ochild_read _ v b Hc (HTb _ _ HT)). split; [reflexivity|]. split; [auto|].
      split. { constructor; [|constructor]. apply Forall_app in HG. destruct HG as (_ & HG). apply (Forall_app _ ((k1, v1) :: rs)) in HG. apply HG. }
      cbn [map fold_left omap_walker wk_join wk_start].
      unfold ans. rewrite lastle_app, (lastle_app ((k1, v1) :: rs)).
      assert (RG : Forall (fun e => gtk (fst e) = true) rest).
      { eapply (forest_up ochild okey_lt eq SEPLE T HTs (fun k => gtk k = true)); eauto. intros a c. apply gtk_up. }
      rewrite (lastle_gt rest RG). cbn [fst] in G1.
      destruct (lastle ((k1, v1) :: rs)) eqn:E2; [reflexivity|]. exfalso. apply lastle_none in E2. inversion E2; subst. cbn in *. congruence.
    - apply lastle_none in EL.
      assert (RG : Forall (fun e => gtk (fst e) = true) recs).
      { eapply (forest_up ochild okey_lt eq SEPLE T HTs (fun k => gtk k = true)); eauto. intros a c. apply gtk_up. }
      inversion HF as [E|k v b es k1 v1 rs rest Hc HT Hs Hl HF' E1 E2]; [symmetry in E; contradiction|]. subst recs.
      cbn [hd]. exists [b], [(k1, v1) :: rs]. rewrite (ochild_read _ v b Hc (HTb _ _ HT)). split; [reflexivity|]. split; [auto|].
      split. { constructor; [|constructor]. apply (Forall_app _ ((k1, v1) :: rs)) in HG. apply HG. }
      cbn [map fold_left omap_walker wk_join wk_start]. unfold ans. rewrite (lastle_gt _ RG).
      apply Forall_app in RG. destruct RG as (RG & _). rewrite (lastle_gt _ RG). reflexivity.
  Qed.
End Lookup.

Lemma omap_tree_good dev : forall h root b recs, subtree (omap_node dev) ochild okey_lt eq h root b recs ->
  Forall (fun e => len (fst e) = 16 /\ len (snd e) = 16) recs.
Proof.
  induction h as [|h IH]; intros root b recs H.
  - destruct H as (H & _). destruct (omap_node_load dev root b true recs H) as (_ & n & _ & _ & _ & G).
    apply Forall_forall. intros [k v] Hi. apply (G k v Hi).
  - destruct H as (es & _ & _ & F). induction F as [|k v b' es k1 v1 rs rest Hc HT Hs Hl HF IHF]; [constructor|].
    apply Forall_app. split; [eapply IH; eauto|auto].
Qed.

Lemma ans_newest oid t recs : sorted okey_lt recs ->
  exists r, newest recs oid t r /\ ans oid t recs = option_map Some r.
Proof.
  intros HS. unfold ans. destruct (lastle oid t recs) as [e|] eqn:E.
  - destruct (lastle_some _ _ _ _ E) as (l1 & l2 & -> & G1 & G2).
    destruct (sorted_app_inv okey_lt _ _ HS) as (_ & _ & HL).
    assert (G2' : forall r, In r l2 -> gtk oid t (fst r) = true) by (apply Forall_forall; auto).
    assert (HL' : forall r, In r l1 -> okey_lt (fst r) (fst e)).
    { rewrite Forall_forall in HL. intros r Hr. specialize (HL r Hr). inversion HL; auto. }
    unfold gtk, okey in G1. cbn [fst snd] in G1. fold (rec_oid e) (rec_txn e) in G1.
    destruct (rec_oid e =? oid) eqn:EO.
    + exists (Some e). split; [|reflexivity]. unfold newest. split; [apply in_or_app; right; left; auto|]. split; [lia|]. split; [lia|].
      intros r' Hr' E1 E2. apply in_app_or in Hr'. destruct Hr' as [Hr'|[E3|Hr']]; [|subst r'; lia|].
      * specialize (HL' r' Hr'). unfold okey_lt, pair_lt, okey in HL'. cbn [fst snd] in HL'. fold (rec_oid r') (rec_txn r') (rec_oid e) (rec_txn e) in HL'. lia.
      * specialize (G2' r' Hr'). unfold gtk, okey in G2'. cbn [fst snd] in G2'. fold (rec_oid r') (rec_txn r') in G2'. lia.
    + exists None. split; [|reflexivity]. unfold newest. intros r' Hr' E1.
      apply in_app_or in Hr'. destruct Hr' as [Hr'|[E3|Hr']]; [|subst r'; lia|].
      * specialize (HL' r' Hr'). unfold okey_lt, pair_lt, okey in HL'. cbn [fst snd] in HL'. fold (rec_oid r') (rec_txn r') (rec_oid e) (rec_txn e) in HL'. lia.
      * specialize (G2' r' Hr'). unfold gtk, okey in G2'. cbn [fst snd] in G2'. fold (rec_oid r') (rec_txn r') in G2'. lia.
  - exists None. split; [|reflexivity]. apply lastle_none in E. unfold newest. intros r' Hr' E1. rewrite Forall_forall in E.
    specialize (E r' Hr'). unfold gtk, okey in E. cbn [fst snd] in E. fold (rec_oid r') (rec_txn r') in E. lia.
Qed.

Definition rec_desc (r : record) : odesc :=
  mk_od (rec_oid r) (rec_txn r) (le_val (slice (snd r) 0 4)) (le_val (slice (snd r) 4 4)) (rec_address r).

Theorem omap_lookup_correct dev h rb recs oid t : omap_tree dev h rb recs -> Z.of_nat h <= 256 -> 0 < oid ->
  exists r, newest recs oid t r /\ omap_lookup dev rb oid t = Ok (option_map rec_desc r).
Proof.
  intros HT Hh Ho. pose proof (omap_tree_good dev h true rb recs HT) as HG.
  assert (SEPLE : forall k k1 : list Z, k = k1 -> k = k1 \/ okey_lt k k1) by auto.
  pose proof (subtree_sorted _ _ _ _ okey_lt_trans SEPLE _ _ _ _ HT) as HS.
  destruct (ans_newest oid t recs HS) as (r & HN & HA). exists r. split; [exact HN|].
  assert (HB : exists leaf es, omap_node dev true rb leaf es).
  { destruct h; [destruct HT; eauto|destruct HT as (es & X & _); eauto]. }
  destruct HB as (lf & es & HB). destruct (omap_node_load dev true rb lf es HB) as (Hrb & n & HL & _).
  cbn iota in HL.
  assert (W : plain_walk (omap_load_root dev rb) (omap_load_sub dev) rb (omap_walker oid t) = Ok (ans oid t recs)).
  { unfold plain_walk, walk, bindM, plain_root. cbn [retM]. replace (int_max <? rb) with false by lia. rewrite HL.
    apply (visit_tree (omap_node dev) ochild okey_lt eq okey_lt_trans SEPLE (fun b => if int_max <? b then Fail else omap_load_sub dev b)) with
      (okb := fun b => 0 <= b < 2 ^ 31) (okr := Forall (fun e => len (fst e) = 16)) (h := h) (root := true) (b := rb); auto.
    - intros b leaf es' H. destruct (omap_node_load dev false b leaf es' H) as (H1 & m & H2 & H3 & H4 & _).
      exists m. replace (int_max <? b) with false by lia. apply bind_ok in H2. destruct H2 as (m' & H2 & H5). injection H5 as ->. auto.
    - intros b leaf es' (H & _). exact H.
    - cbn. lia.
    - intros m. cbn [wk_leaf omap_walker]. intros. apply entry_leaf; auto.
    - intros m T rs H1 H2 H3 H4 H5 H6. apply omap_plan; auto.
    - eapply Forall_impl; [|exact HG]. cbn. tauto.
    - intros leaf es' H. destruct (omap_node_load dev true rb leaf es' H) as (H1 & m & H2 & H3 & H4 & _). cbn iota in H2.
      assert (m = n) by congruence. subst. auto.
    - unfold walk_fuel. lia. 
    - lia. }
  unfold omap_lookup. rewrite W, HA. cbn [bind]. destruct r as [r|]; [|reflexivity]. cbn [option_map omap_finish].
  unfold newest in HN. destruct HN as (HI & _). rewrite Forall_forall in HG. destruct (HG r HI) as (G1 & G2).
  unfold read_odesc. rewrite G1, G2. change (16 <? 16) with false. cbn [negb check bind].
  rewrite !rd_le_in by lia. reflexivity.
Qed.

Lemma newest_unique dev h rb recs oid t r1 r2 : omap_tree dev h rb recs ->
  newest recs oid t (Some r1) -> newest recs oid t (Some r2) -> r1 = r2.
Proof.
  intros HT (I1 & O1 & T1 & M1) (I2 & O2 & T2 & M2).
  assert (SEPLE : forall k k1 : list Z, k = k1 -> k = k1 \/ okey_lt k k1) by auto.
  pose proof (TreeProofs.subtree_sorted _ _ _ _ okey_lt_trans SEPLE _ _ _ _ HT) as HS.
  specialize (M1 r2 I2 O2 T2). specialize (M2 r1 I1 O1 T1).
  clear HT. induction HS as [|e es H H1 IH]; [contradiction|]. rewrite Forall_forall in H.
  destruct I1 as [->|I1], I2 as [->|I2]; auto.
  - specialize (H r2 I2). unfold okey_lt, pair_lt, okey in H. cbn [fst snd] in H. fold (rec_oid r1) (rec_oid r2) (rec_txn r1) (rec_txn r2) in H. lia.
  - specialize (H r1 I1). unfold okey_lt, pair_lt, okey in H. cbn [fst snd] in H. fold (rec_oid r1) (rec_oid r2) (rec_txn r1) (rec_txn r2) in H. lia.
Qed.
