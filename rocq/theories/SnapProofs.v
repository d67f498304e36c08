From Coq Require Import Lia.
From Verif Require Import Base BaseLemmas At BTree BTreeSpec BTreeProofs Walk WalkProofs TreeSpec TreeProofs
  Omap OmapSpec OmapProofs OmapTop Name NameSpec NameProofs Records RecordsSpec RecordsProofs FsTree FsSpec FsProofs FsTop Snapshot SnapSpec.
Lemma Ok_inj {A} (x y : A) : Ok x = Ok y -> x = y.
Proof. congruence. Qed.
Ltac Zify.zify_post_hook ::= Z.div_mod_to_equations.

(* ---- any image ---- *)
Lemma snap_load_root_fine img b : bytes_image img -> fine (snap_load_root img b).
Proof.
  intros HI. unfold snap_load_root. apply fine_bind; [apply read_block_fine|]. intros d Hd.
  apply fine_bind; [apply node_fine; eapply read_block_bytes; eauto|]. intros n Hn.
  fine_step; [fine_step|]. fine_step; [fine_step|]. fine_step; [fine_step|].
  apply check_ok in H1. destruct (bn_footer n) eqn:E; [|exfalso; eapply node_footer; eauto].
  repeat fine_step.
Qed.
Lemma snap_load_sub_fine img b : bytes_image img -> fine (snap_load_sub img b).
Proof.
  intros HI. unfold snap_load_sub. apply fine_bind; [apply read_block_fine|]. intros d Hd.
  apply fine_bind; [apply node_fine; eapply read_block_bytes; eauto|]. intros n Hn. repeat fine_step.
Qed.
Lemma snap_read_fine e : bytes (snd e) -> fine (snap_read e).
Proof.
  intros HB. unfold snap_read. fine_step; [fine_step|]. fine_step; [fine_step|]. apply check_ok in H, H0.
  apply fine_bind; [apply fine_rd_le; lia|]. intros b Hb.
  apply fine_bind; [apply fine_rd_le; lia|]. intros n Hn.
  fine_step; [fine_step|]. apply check_ok in H1.
  apply rd_le_ok in Hn. destruct Hn as (_ & _ & _ & Hn). pose proof (le_val_range _ (bytes_slice (snd e) 48 2 HB)).
  fine_step; [apply fine_rd; lia|exact I].
Qed.
Lemma snap_walker_fine : fine_walker snap_walker.
Proof.
  intros n HN. cbn. split.
  - induction HN as [|e es H H1 IH]; cbn [snap_leaf]; [exact I|]. fine_step; [apply fs_word_fine|]. destruct (_ <? _); [exact I|].
    fine_step; [apply snap_read_fine, H|]. fine_step; [exact IH|exact I].
  - clear HN. induction (bn_entries n) as [|e es IH]; cbn [snap_plan]; [constructor|]. pose proof (fs_word_fine e) as F.
    destruct (fs_word e) as [k| | |]; cbn in F; try contradiction; [|repeat constructor].
    destruct (_ <? _); constructor; [apply fs_child_fine|exact IH].
Qed.
Section Walks.
  Variable t : fs.
  Hypothesis HF : bytes_image (fs_img t).
  Hypothesis HO : bytes_image (fs_omap t).
  Lemma snap_root_entries n : snap_root t = Ok (Some n) -> Forall entry_bytes (bn_entries n).
  Proof.
    unfold snap_root. destruct (_ <? _); [discriminate|]. unfold snap_load_root. intros H. apply bind_ok in H. destruct H as (d & Hd & H).
    apply bind_ok in H. destruct H as (m & Hm & H). apply bind_ok in H. destruct H as (? & _ & H).
    apply bind_ok in H. destruct H as (? & _ & H). apply bind_ok in H. destruct H as (? & _ & H). destruct (bn_footer m); [|discriminate].
    apply bind_ok in H. destruct H as (? & _ & H). apply bind_ok in H. destruct H as (? & _ & H). apply bind_ok in H. destruct H as (? & _ & H).
    injection H as <-. exact (node_entries_bytes _ _ (read_block_bytes _ HF _ _ Hd) Hm).
  Qed.
  Lemma snap_sub_entries o n : snap_sub t o = Ok n -> Forall entry_bytes (bn_entries n).
  Proof.
    unfold snap_sub. intros H. apply bind_ok in H. destruct H as ([d|] & _ & H); [|discriminate].
    destruct (_ <? _); [discriminate|]. unfold snap_load_sub in H. apply bind_ok in H. destruct H as (dd & Hd & H).
    apply bind_ok in H. destruct H as (m & Hm & H). apply bind_ok in H. destruct H as (? & _ & H).
    apply bind_ok in H. destruct H as (? & _ & H). apply bind_ok in H. destruct H as (? & _ & H).
    injection H as <-. exact (node_entries_bytes _ _ (read_block_bytes _ HF _ _ Hd) Hm).
  Qed.
  Theorem get_snapshots_fine : fine (get_snapshots t).
  Proof.
    unfold get_snapshots. apply walk_pure_fine.
    - unfold snap_root. destruct (_ <? _); [exact I|apply snap_load_root_fine; auto].
    - intros o. unfold snap_sub. fine_step; [apply omap_lookup_fine; auto|]. destruct x as [d|]; [|exact I].
      destruct (_ <? _); [exact I|apply snap_load_sub_fine; auto].
    - intros n H. apply snap_walker_fine, snap_root_entries, H.
    - intros b n H. eapply snap_walker_fine, snap_sub_entries, H.
  Qed.
End Walks.

(* ---- nodes ---- *)
Lemma snap_node_load dev lead root x leaf es : snap_node dev lead root x leaf es ->
  exists b, (if root then b = x else lead x b) /\ b <= int_max /\
  exists n, (if root then snap_load_root dev b else let! n := snap_load_sub dev b in Ok (Some n)) = Ok (Some n) /\
    is_leaf n = leaf /\ bn_entries n = es.
Proof.
  intros (b & HX & Hb & d & HD & OK & HL & HR1 & HR2 & HT & HST & F0 & F1 & F2 & HFT & HR).
  exists b. split; [exact HX|]. split; [unfold int_max; lia|]. exists (node_result d).
  assert (RN : read_node (node_bytes d) = Ok (node_result d)).
  { apply node_round; auto. rewrite F0. destruct root; [lia|]. specialize (HR1 eq_refl). lia. }
  assert (G : is_leaf (node_result d) = leaf /\ bn_entries (node_result d) = es).
  { split; [unfold is_leaf, node_result; cbn; rewrite land_2, F1; destruct leaf; reflexivity|]. exact HR. }
  split; [|exact G].
  unfold snap_load_root, snap_load_sub, read_block. rewrite HD. cbn [bind]. rewrite RN. cbn [bind].
  assert (FL1 : flag (node_result d) 1 = root).
  { unfold flag, node_result. cbn. rewrite land_1, F0. destruct root; auto. }
  rewrite FL1.
  change (bn_type (node_result d)) with (nd_type d). change (bn_subtype (node_result d)) with (nd_subtype d).
  rewrite HST, HT. destruct root; [|reflexivity].
  cbn [bind Z.eqb Pos.eqb check andb negb].
  change (bn_footer (node_result d)) with
    (if Z.testbit (nd_flags d) 0 then
     let fd := nd_footer d in
     Some (mk_bf (le_val (slice fd 0 4)) (le_val (slice fd 4 4)) (le_val (slice fd 8 4)) (le_val (slice fd 12 4))
             (le_val (slice fd 16 4)) (le_val (slice fd 20 4)))
   else None). rewrite F0. cbn [bf_node bf_key bf_value].
  specialize (HFT eq_refl).
  assert (L40 : len (nd_footer d) = 40) by (destruct OK as (_ & _ & _ & _ & _ & _ & O7 & _); rewrite F0 in O7; exact O7).
  assert (A : at_ (nd_footer d) 4 (le_enc 4 4096 ++ le_enc 4 0 ++ le_enc 4 0)) by (rewrite <- HFT; apply at_of_slice; lia).
  apply at_app in A. destruct A as (A1 & A). apply at_app in A. destruct A as (A2 & A3). rewrite !le_enc_len in *.
  cbn zeta.
  rewrite (at_slice _ _ _ 4 A1) by reflexivity.
  replace (slice (nd_footer d) 8 4) with (le_enc 4 0) by (symmetry; apply (at_slice _ _ _ 4 A2); reflexivity).
  replace (slice (nd_footer d) 12 4) with (le_enc 4 0) by (symmetry; apply (at_slice _ _ _ 4 A3); reflexivity).
  reflexivity.
Qed.

(* ---- records ---- *)
Definition snap_of (s : snapshot) : snap := mk_snap (sm_block s mod 2 ^ 32) (sm_name s).
Lemma snapshot_word s : snapshot_ok s -> kword (snapshot_key s) = 2 ^ 60 + sm_xid s.
Proof.
  intros (H & _). unfold kword, snapshot_key, key_head, key_word. rewrite slice_all by (rewrite le_enc_len; reflexivity).
  rewrite le_val_enc; [lia|]. change (256 ^ Z.of_nat 8) with (2 ^ 64). lia.
Qed.
Lemma le_val_app a : forall b, le_val (a ++ b) = le_val a + 256 ^ len a * le_val b.
Proof.
  induction a as [|x a IH]; intros b; [change (256 ^ len []) with 1; cbn [app le_val]; lia|]. cbn [app le_val]. rewrite IH. pose proof (len_nonneg a).
  rewrite len_cons. replace (1 + len a) with (Z.succ (len a)) by lia. rewrite Z.pow_succ_r by lia. lia.
Qed.
Lemma le_low v : 0 <= v < 2 ^ 64 -> le_val (slice (le_enc 8 v) 0 4) = v mod 2 ^ 32.
Proof.
  intros H. pose proof (le_val_enc 8 v ltac:(change (256 ^ Z.of_nat 8) with (2 ^ 64); lia)) as E.
  assert (S0 : le_enc 8 v = slice (le_enc 8 v) 0 4 ++ slice (le_enc 8 v) 4 4).
  { cbn [le_enc]. reflexivity. }
  pose proof (le_val_range (slice (le_enc 8 v) 0 4) (bytes_slice _ _ _ (le_enc_bytes 8 v))) as R.
  rewrite len_slice in R; [|lia|lia|rewrite ?le_enc_len; lia]. change (256 ^ 4) with (2 ^ 32) in R.
  rewrite S0, le_val_app, len_slice in E; [|lia|lia|rewrite ?le_enc_len; lia]. change (256 ^ 4) with (2 ^ 32) in E. lia.
Qed.
Lemma snapshot_read r s : snapshot_rec r s -> snap_read r = Ok (snap_of s).
Proof.
  intros ((H1 & H2 & H3) & ->). unfold snap_read. cbn [fst snd].
  assert (L : len (snapshot_value s) = 50 + len (sm_name s)).
  { unfold snapshot_value. rewrite !len_app, !le_enc_len. lia. }
  assert (A : at_ (snapshot_value s) 0 (snapshot_value s)) by apply at_self. unfold snapshot_value in A at 2.
  repeat match type of A with at_ _ _ (_ ++ _) => let B := fresh "B" in apply at_app in A; destruct A as (B & A); rewrite !le_enc_len in A end.
  rewrite check_true by (unfold snapshot_key, key_head; rewrite le_enc_len; reflexivity). cbn [bind].
  rewrite check_true by lia. cbn [bind].
  assert (E1 : rd_le 4 (snapshot_value s) 8 = Ok (sm_block s mod 2 ^ 32)).
  { rewrite rd_le_in by lia. f_equal. rewrite <- le_low by lia.
    pose proof (at_slice _ _ _ 8 B0 ltac:(rewrite le_enc_len; reflexivity)) as E. cbn [Z.add Z.of_nat Pos.of_succ_nat Pos.succ] in E.
    rewrite <- E. rewrite slice_slice by lia. reflexivity. }
  rewrite E1. cbn [bind].
  assert (E2 : rd_le 2 (snapshot_value s) 48 = Ok (len (sm_name s))).
  { apply (at_rd_le _ _ 2 _ _ (at_eq _ _ 48 _ B6 ltac:(lia))); [reflexivity|]. change (256 ^ Z.of_nat 2) with (2 ^ 16). lia. }
  rewrite E2. cbn [bind]. rewrite check_true by lia. cbn [bind]. rewrite rd_in by lia. cbn [bind]. unfold snap_of. do 2 f_equal.
  apply (at_slice _ 50 _ _ (at_eq _ _ 50 _ A ltac:(lia))). reflexivity.
Qed.

(* ---- trees ---- *)
Definition snap_good (r : record) : Prop := (exists s, snapshot_rec r s) \/ name_rec r.
Definition parsed (r : record) : list snap := match snap_read r with Ok s => [s] | _ => [] end.
Definition snap_ans (recs : list record) : list snap := flat_map parsed (filter (fun r => kty (fst r) =? 1) recs).
Lemma snap_ans_app a b : snap_ans (a ++ b) = snap_ans a ++ snap_ans b.
Proof. unfold snap_ans. rewrite filter_app, flat_map_app. reflexivity. Qed.
Lemma snap_ans_none l : Forall (fun r => kty (fst r) = 11) l -> snap_ans l = [].
Proof. unfold snap_ans. induction 1 as [|r l H H1 IH]; [reflexivity|]. cbn. rewrite H. exact IH. Qed.
Lemma snapshot_kty r s : snapshot_rec r s -> kty (fst r) = 1 /\ kid (fst r) = sm_xid s /\ 0 <= sm_xid s < 2 ^ 60 - 1.
Proof. intros (H & ->). cbn [fst]. unfold kty, kid. rewrite snapshot_word by exact H. destruct H as (H & _). lia. Qed.
Lemma snap_ans_records ms ns ss : Forall2 snapshot_rec ms ss -> Forall name_rec ns -> snap_ans (ms ++ ns) = map snap_of ss.
Proof.
  intros HM HN. rewrite snap_ans_app, (snap_ans_none ns), app_nil_r by (eapply Forall_impl; [|exact HN]; intros r (_ & _ & H & _); exact H).
  induction HM as [|r s ms ss H HM IH]; [reflexivity|]. unfold snap_ans in *. cbn [filter].
  destruct (snapshot_kty r s H) as (-> & _). cbn [Z.eqb Pos.eqb flat_map map]. unfold parsed at 1. rewrite (snapshot_read r s H). cbn [app]. f_equal. exact IH.
Qed.
Lemma snap_good_word r : snap_good r -> fs_word r = Ok (kword (fst r)).
Proof.
  intros [(s & H & ->)|(H & _)]; apply fs_word_ok; [cbn [fst]; unfold snapshot_key, key_head; rewrite le_enc_len; lia|exact H].
Qed.
Lemma snap_good_type r : snap_good r -> (1 <? word_type (kword (fst r))) = (kty (fst r) =? 11) /\ (kty (fst r) = 11 -> kid (fst r) = 2 ^ 60 - 1) /\ kid (fst r) <= 2 ^ 60 - 1 /\
  (kty (fst r) <> 11 -> kid (fst r) < 2 ^ 60 - 1).
Proof.
  intros H. rewrite word_type_div. fold (kty (fst r)). destruct H as [(s & H)|(_ & _ & H1 & H2)].
  - destruct (snapshot_kty r s H) as (-> & -> & R). lia.
  - rewrite H1, H2. lia.
Qed.
Section Tree.
  Variable tie : list Z -> list Z -> Prop.
  Hypothesis tie_trans : forall a b c, tie a b -> tie b c -> tie a c.
  Notation lt := (fs_lt tie).

  Lemma name_up a b : snap_good b -> kid a = 2 ^ 60 - 1 -> lt a (fst b) -> kty (fst b) = 11.
  Proof.
    intros HG HA L. destruct (snap_good_type b HG) as (_ & _ & H1 & H2). destruct (Z.eq_dec (kty (fst b)) 11) as [E|E]; [exact E|].
    specialize (H2 E). unfold fs_lt in L. lia.
  Qed.
  Lemma snap_leaf_ok es : sorted lt es -> Forall snap_good es -> snap_leaf es = Ok (snap_ans es).
  Proof.
    induction 1 as [|e es H H1 IH]; intros HG; [reflexivity|]. pose proof (Forall_inv HG) as G. apply Forall_inv_tail in HG.
    cbn [snap_leaf]. rewrite snap_good_word by exact G. cbn [bind]. destruct (snap_good_type e G) as (-> & T1 & T2 & T3).
    destruct (Z.eqb_spec (kty (fst e)) 11) as [E|E].
    - rewrite snap_ans_none; [reflexivity|]. constructor; [exact E|]. apply Forall_forall. intros r Hr. rewrite Forall_forall in H, HG.
      apply (name_up (fst e)); auto.
    - destruct G as [(s & G)|(_ & _ & G & _)]; [|contradiction]. rewrite (snapshot_read e s G). cbn [bind]. rewrite (IH HG). cbn [bind].
      unfold snap_ans. cbn [filter]. destruct (snapshot_kty e s G) as (-> & _). cbn [Z.eqb Pos.eqb flat_map]. unfold parsed at 2.
      rewrite (snapshot_read e s G). reflexivity.
  Qed.
  Variable T : Z -> list record -> Prop.
  Hypothesis HTs : forall b r, T b r -> sorted lt r.
  Hypothesis HTb : forall b r, T b r -> 0 <= b < 2 ^ 64.
  Lemma snap_plan_ok es recs : forest fs_child_of lt eq T es recs -> Forall snap_good recs ->
    exists bs rs, snap_plan es = map Ok bs /\ Forall2 T bs rs /\ Forall (Forall snap_good) rs /\ concat (map snap_ans rs) = snap_ans recs.
  Proof.
    intros HF. pose proof HF as HF0. induction HF as [|k v b es k1 v1 recs rest Hc HT Hs Hl HF IH]; intros HG.
    - exists [], []. cbn. auto.
    - subst k1. apply Forall_app in HG. destruct HG as (HG1 & HG2). pose proof (Forall_inv HG1) as G.
      assert (EW : fs_word (k, v) = Ok (kword k)) by (pose proof (snap_good_word _ G) as X; exact X).
      destruct (snap_good_type _ G) as (TT & T1 & T2 & T3). cbn [fst] in *.
      cbn [snap_plan]. rewrite EW, TT. destruct (Z.eqb_spec (kty k) 11) as [E|E].
      + exists [], []. cbn [map concat]. split; [reflexivity|]. split; [constructor|]. split; [constructor|]. symmetry. apply snap_ans_none.
        pose proof (forest_sorted fs_child_of lt eq (fs_lt_trans tie tie_trans) (SEPLE tie) T HTs _ _ HF0) as HS.
        change (((k, v1) :: recs) ++ rest) with ((k, v1) :: (recs ++ rest)) in *. inversion HS as [|? ? HS1 HS2]; subst.
        constructor; [exact E|]. apply Forall_forall. intros r Hr. rewrite Forall_forall in HS1.
        apply (name_up k); auto. apply Forall_inv_tail in HG1. rewrite Forall_forall in HG1, HG2. apply in_app_or in Hr. destruct Hr; auto.
      + destruct (IH HF HG2) as (bs & rs & E1 & E2 & E3 & E4). exists (b :: bs), (((k, v1) :: recs) :: rs).
        cbn [map concat]. rewrite snap_ans_app, E1, E4. split; [|split; [constructor; auto|split; [constructor; auto|reflexivity]]].
        f_equal. apply (fs_child_read k v b Hc). eapply HTb; eauto.
  Qed.
End Tree.

Section Top.
  Variables (tie : list Z -> list Z -> Prop) (t : fs) (lead : Z -> Z -> Prop).
  Hypothesis tie_trans : forall a b c, tie a b -> tie b c -> tie a c.
  Notation nd := (snap_node (fs_img t) lead).
  Hypothesis Hlead : forall x b, lead x b -> 0 <= x < 2 ^ 64 /\ (b <= int_max -> snap_sub t x = snap_load_sub (fs_img t) b).
  Lemma snap_load_at o leaf es : nd false o leaf es -> exists n, snap_sub t o = Ok n /\ is_leaf n = leaf /\ bn_entries n = es.
  Proof.
    intros H. apply snap_node_load in H. destruct H as (b & HR & Hb & n & HL & H1 & H2). cbn iota in HR.
    rewrite (proj2 (Hlead o b HR) Hb). apply bind_ok in HL. destruct HL as (m & HL & E). injection E as ->. eauto.
  Qed.
  Theorem get_snapshots_ok h ss : snap_tree (fs_img t) lead tie h (fs_rb t) ss -> get_snapshots t = Ok (map snap_of ss).
  Proof.
    intros (ms & ns & Hh & HT & HM & HN). rewrite <- (snap_ans_records ms ns ss HM HN).
    assert (HB : exists leaf es, nd true (fs_rb t) leaf es).
    { destruct h; [destruct HT; eauto|destruct HT as (es & X & _); eauto]. }
    destruct HB as (lf & es & HB). destruct (snap_node_load _ _ _ _ _ _ HB) as (b & Eb & Hb & n & HL & _). cbn iota in Eb, HL. subst b.
    unfold get_snapshots, walk, bindM. cbn [retM]. unfold snap_root. replace (int_max <? fs_rb t) with false by lia. rewrite HL.
    apply (visit_tree nd fs_child_of (fs_lt tie) eq (fs_lt_trans tie tie_trans) (SEPLE tie) (snap_sub t)) with
      (okb := fun b => 0 <= b < 2 ^ 64) (okr := Forall snap_good) (h := h) (root := true) (b := fs_rb t); auto.
    - apply snap_load_at.
    - intros o leaf es' (b & HX & _). cbn iota in HX. apply (Hlead o b HX).
    - unfold max_depth. cbn. lia.
    - cbn. intros m _ HS HG. apply (snap_leaf_ok tie); auto.
    - intros m T recs _ _ HTs HTb HG HF. cbn [wk_plan wk_join wk_start snap_walker].
      destruct (snap_plan_ok tie tie_trans T HTs HTb _ _ HF HG) as (bs & rs & E1 & E2 & E3 & E4). exists bs, rs.
      split; [exact E1|]. split; [exact E2|]. split; [exact E3|]. rewrite fold_app. exact E4.
    - apply Forall_app. split.
      + clear - HM. induction HM; constructor; auto. left. eauto.
      + eapply Forall_impl; [|exact HN]. intros r H. right. exact H.
    - intros leaf es' H. destruct (snap_node_load _ _ _ _ _ _ H) as (b & Eb & _ & m & H2 & H3 & H4). cbn iota in Eb, H2. subst b.
      assert (m = n) by congruence. subst. auto.
    - unfold walk_fuel. lia.
    - lia.
  Qed.
End Top.

(* ---- names ---- *)
Lemma utf8_next_fine s : fine (utf8_next s).
Proof.
  unfold utf8_next. destruct s as [|b r]; [exact I|]. destruct (b <? 0x80); [exact I|].
  destruct (_ && _); [destruct r as [|c r]; [exact I|]; destruct (cont c); exact I|].
  destruct (_ && _); [destruct r as [|c [|d r]]; try exact I; destruct (_ && _); exact I|].
  destruct (_ && _); [|exact I]. destruct r as [|c [|d [|e r]]]; try exact I. destruct (_ && _); exact I.
Qed.
Lemma utf8_more_range b : 0 <= utf8_more b <= 3.
Proof. unfold utf8_more. destruct (b <? _); [lia|]. destruct (b <=? _); [lia|]. destruct (b <=? _); [lia|]. destruct (b <=? _); lia. Qed.
Lemma stream_points_fine mem size : size <= len mem -> forall fuel off, 0 <= off -> size - off <= Z.of_nat fuel -> fine (stream_points fuel mem size off).
Proof.
  intros HS. induction fuel as [|fuel IH]; intros off H0 HF; cbn [stream_points].
  - replace (size <=? off) with true by lia. exact I.
  - destruct (size <=? off) eqn:E; [exact I|]. apply Z.leb_gt in E.
    destruct (getb_in mem off ltac:(lia)) as (b & HB & _). rewrite HB. cbn [bind]. pose proof (utf8_more_range b) as R.
    fine_step; [fine_step|]. apply check_ok in H. fine_step; [apply fine_rd; lia|].
    fine_step; [apply utf8_next_fine|]. destruct x1 as [c r]. destruct (c =? 0); [exact I|].
    fine_step; [apply IH; lia|exact I].
Qed.
Lemma stream_start_fine mem : 3 <= len mem -> fine (stream_start mem) /\ forall o, stream_start mem = Ok o -> 0 <= o.
Proof.
  intros HL. unfold stream_start. destruct (getb_in mem 0 ltac:(lia)) as (a & -> & _). cbn [bind].
  destruct (a =? _); [|split; [exact I|intros o E; apply Ok_inj in E; lia]].
  destruct (getb_in mem 1 ltac:(lia)) as (b & -> & _). cbn [bind].
  destruct (b =? _); [|split; [exact I|intros o E; apply Ok_inj in E; lia]].
  destruct (getb_in mem 2 ltac:(lia)) as (c & -> & _). cbn [bind].
  split; [exact I|]. intros o E. apply Ok_inj in E. destruct (c =? _); lia.
Qed.
Lemma stream_text_fine mem size : 3 <= size <= len mem -> fine (stream_text mem size).
Proof.
  intros H. unfold stream_text. replace (size <? 3) with false by lia. destruct (stream_start_fine mem ltac:(lia)) as (F & P).
  apply fine_bind; [exact F|]. intros o Ho. apply stream_points_fine; [lia|apply P; exact Ho|]. specialize (P o Ho). lia.
Qed.

Lemma utf8_char_more c : scalar c -> exists b r, utf8_char c = b :: r /\ 1 + utf8_more b = len (utf8_char c) /\ (c = 0xfeff -> b :: r = [0xef; 0xbb; 0xbf]) /\ (c <> 0xfeff -> forall x, 
  slice (b :: r ++ x) 0 3 <> [0xef; 0xbb; 0xbf]).
Proof.
  intros H. unfold scalar in H. unfold utf8_char.
  destruct (c <? 0x80) eqn:E1; [|destruct (c <? 0x800) eqn:E2; [|destruct (c <? 0x10000) eqn:E3]].
  - exists c, []. split; [reflexivity|]. unfold utf8_more. replace (c <? 0xc2) with true by lia. split; [reflexivity|]. split; [lia|].
    intros N x E. unfold slice in E. change (Z.to_nat 3) with 3%nat in E. change (Z.to_nat 0) with 0%nat in E. cbn [skipn firstn app] in E. apply (f_equal (hd 0)) in E. cbn [hd] in E. lia.
  - exists (0xc0 + c / 64), [0x80 + c mod 64]. split; [reflexivity|]. unfold utf8_more. replace (0xc0 + c / 64 <? 0xc2) with false by lia.
    replace (0xc0 + c / 64 <=? 0xdf) with true by lia. split; [reflexivity|]. split; [lia|].
    intros N x E. unfold slice in E. change (Z.to_nat 3) with 3%nat in E. change (Z.to_nat 0) with 0%nat in E. cbn [skipn firstn app] in E. apply (f_equal (hd 0)) in E. cbn [hd] in E. lia.
  - exists (0xe0 + c / 4096), [0x80 + c / 64 mod 64; 0x80 + c mod 64]. split; [reflexivity|]. unfold utf8_more. replace (0xe0 + c / 4096 <? 0xc2) with false by lia.
    replace (0xe0 + c / 4096 <=? 0xdf) with false by lia. replace (0xe0 + c / 4096 <=? 0xef) with true by lia. split; [reflexivity|].
    split; [intros ->; reflexivity|].
    intros N x E. unfold slice in E. change (Z.to_nat 3) with 3%nat in E. change (Z.to_nat 0) with 0%nat in E. cbn [skipn firstn app] in E. pose proof (f_equal (hd 0) E) as E4. pose proof (f_equal (fun l => hd 0 (tl l)) E) as E5. pose proof (f_equal (fun l => hd 0 (tl (tl l))) E) as E6. cbn [hd tl] in E4, E5, E6. clear E. lia.
  - exists (0xf0 + c / 262144), [0x80 + c / 4096 mod 64; 0x80 + c / 64 mod 64; 0x80 + c mod 64]. split; [reflexivity|]. unfold utf8_more. replace (0xf0 + c / 262144 <? 0xc2) with false by lia.
    replace (0xf0 + c / 262144 <=? 0xdf) with false by lia. replace (0xf0 + c / 262144 <=? 0xef) with false by lia. replace (0xf0 + c / 262144 <=? 0xf4) with true by lia. split; [reflexivity|].
    split; [lia|].
    intros N x E. unfold slice in E. change (Z.to_nat 3) with 3%nat in E. change (Z.to_nat 0) with 0%nat in E. cbn [skipn firstn app] in E. pose proof (f_equal (hd 0) E) as E4. pose proof (f_equal (fun l => hd 0 (tl l)) E) as E5. pose proof (f_equal (fun l => hd 0 (tl (tl l))) E) as E6. cbn [hd tl] in E4, E5, E6. clear E. lia.
Qed.
Lemma getb_app {A} (a : list A) x r : getb (a ++ x :: r) (len a) = Ok x.
Proof.
  pose proof (len_nonneg a). pose proof (len_nonneg r).
  destruct (getb_in (a ++ x :: r) (len a) ltac:(rewrite len_app, len_cons; lia)) as (y & E & N). rewrite E.
  unfold len in N. rewrite Nat2Z.id, nth_error_app2, Nat.sub_diag in N by lia. cbn in N. congruence.
Qed.
Definition ends (size off : Z) (tail : list Z) : Prop := (off < size /\ exists rest, tail = 0 :: rest) \/ off = size.
Lemma stream_points_text size : forall cs pre tail fuel, text cs -> ends size (len pre + len (utf8 cs)) tail -> size - len pre <= Z.of_nat fuel ->
  stream_points fuel (pre ++ utf8 cs ++ tail) size (len pre) = Ok cs.
Proof.
  induction cs as [|c cs IH]; intros pre tail fuel HT HE HF.
  - cbn [utf8 map concat app]. change (len (utf8 [])) with 0 in HE. destruct HE as [(HE & rest & ->)|HE].
    + destruct fuel as [|fuel]; [lia|]. cbn [stream_points]. replace (size <=? len pre) with false by lia.
      rewrite getb_app. cbn [bind]. change (1 + utf8_more 0) with 1. rewrite check_true by lia. cbn [bind]. pose proof (len_nonneg pre). pose proof (len_nonneg rest).
      rewrite rd_in by (rewrite ?len_app, ?len_cons; lia). rewrite slice_app_r by lia. rewrite Z.sub_diag. reflexivity.
    + destruct fuel; cbn [stream_points]; replace (size <=? len pre) with true by lia; reflexivity.
  - pose proof (Forall_inv HT) as (HC & HZ). apply Forall_inv_tail in HT. change (utf8 (c :: cs)) with (utf8_char c ++ utf8 cs) in *.
    destruct (utf8_char_more c HC) as (b & r & EC & EL & _). pose proof (len_nonneg pre). pose proof (len_nonneg (utf8 cs)). pose proof (len_nonneg r).
    rewrite len_app in HE. assert (L1 : len (utf8_char c) = 1 + len r) by (rewrite EC, len_cons; lia).
    assert (HS : len pre + len (utf8_char c) + len (utf8 cs) <= size) by (destruct HE; lia).
    destruct fuel as [|fuel]; [lia|]. cbn [stream_points]. replace (size <=? len pre) with false by lia.
    rewrite <- app_assoc. rewrite EC at 1. cbn [app]. rewrite getb_app. cbn [bind]. rewrite EL. rewrite check_true by lia. cbn [bind].
    pose proof (len_nonneg tail).
    rewrite rd_in by (rewrite ?len_app; lia). cbn [bind]. rewrite slice_app_r, Z.sub_diag by lia.
    rewrite slice_app_l by lia. rewrite slice_all by reflexivity.
    pose proof (utf8_char_next c [] HC) as X. rewrite app_nil_r in X. rewrite X. cbn [bind]. replace (c =? 0) with false by lia.
    rewrite app_assoc, <- len_app. rewrite IH; [reflexivity|exact HT| |rewrite len_app; lia]. rewrite len_app. replace (len pre + len (utf8_char c) + len (utf8 cs)) with (len pre + (len (utf8_char c) + len (utf8 cs))) by lia. exact HE.
Qed.
Lemma getb_1 {A} (a b : A) r : getb (a :: b :: r) 1 = Ok b.
Proof. apply (getb_app [a]). Qed.
Lemma getb_2 {A} (a b c : A) r : getb (a :: b :: c :: r) 2 = Ok c.
Proof. apply (getb_app [a; b]). Qed.
Definition unmark (cs : list Z) : list Z := match cs with c :: r => if c =? 0xfeff then r else cs | [] => [] end.
Lemma stream_text_ok size cs tail : text cs -> 3 <= size -> ends size (len (utf8 cs)) tail -> stream_text (utf8 cs ++ tail) size = Ok (unmark cs).
Proof.
  intros HT HS HE. unfold stream_text. replace (size <? 3) with false by lia.
  destruct cs as [|c cs].
  - change (len (utf8 [])) with 0 in HE. destruct HE as [(_ & rest & ->)|HE]; [|lia].
    change (stream_start (utf8 [] ++ 0 :: rest)) with (@Ok Z 0). cbn [bind].
    apply (stream_points_text size [] []); [exact HT| |change (len []) with 0; lia]. left. split; [change (len [] + len (utf8 [])) with 0; lia|eauto].
  - pose proof (Forall_inv HT) as (HC & HZ). destruct (utf8_char_more c HC) as (b & r & EC & EL & M1 & M2).
    unfold unmark. destruct (Z.eqb_spec c 0xfeff) as [E|E].
    + specialize (M1 E). change (utf8 (c :: cs)) with (utf8_char c ++ utf8 cs) in *. rewrite EC, M1 in *.
      assert (X : stream_start (([239; 187; 191] ++ utf8 cs) ++ tail) = Ok 3).
      { unfold stream_start. cbn [app]. change (getb (239 :: 187 :: 191 :: utf8 cs ++ tail) 0) with (Ok 239). rewrite getb_1, getb_2. reflexivity. }
      rewrite X. cbn [bind].
      rewrite <- app_assoc. rewrite len_app in HE. change 3 with (len [239; 187; 191]) at 1. apply stream_points_text; [apply Forall_inv_tail in HT; exact HT|exact HE|].
      change (len [239; 187; 191]) with 3. lia.
    + assert (X : stream_start (utf8 (c :: cs) ++ tail) = Ok 0).
      { change (utf8 (c :: cs)) with (utf8_char c ++ utf8 cs). rewrite <- app_assoc, EC. specialize (M2 E (utf8 cs ++ tail)).
        change ((b :: r) ++ utf8 cs ++ tail) with (b :: r ++ utf8 cs ++ tail). unfold stream_start. change (getb (b :: r ++ utf8 cs ++ tail) 0) with (Ok b). cbn [bind].
        destruct (Z.eqb_spec b 0xef) as [->|NB]; [|reflexivity]. rewrite EC, len_cons in EL. change (1 + utf8_more 239) with 3 in EL.
        destruct r as [|x [|y [|z r]]]; try (exfalso; rewrite ?len_cons in EL; pose proof (@len_nonneg Z []); try pose proof (len_nonneg r); change (@len Z []) with 0 in EL; lia).
        cbn [app]. rewrite getb_1. cbn [bind]. destruct (Z.eqb_spec x 0xbb) as [->|]; [|reflexivity].
        rewrite getb_2. cbn [bind]. destruct (Z.eqb_spec y 0xbf) as [->|]; [|reflexivity]. exfalso. apply M2. reflexivity. }
      rewrite X. cbn [bind]. apply (stream_points_text size (c :: cs) []); [exact HT|exact HE|change (len []) with 0; lia].
Qed.
