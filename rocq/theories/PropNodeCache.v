(* C65: nodes are not used after the node cache has freed them. *)
From Verif Require Import Base BaseLemmas BTree BTreeSpec BTreeProofs Walk WalkProofs TreeSpec Omap OmapSpec OmapProofs OmapTop PropOmap
  Records RecordsSpec RecordsProofs FsTree FsSpec FsProofs FsTop PropFs NodeCache NodeCacheProofs.
Ltac Zify.zify_post_hook ::= Z.div_mod_to_equations.

(* A tree of at most 8192 nodes: any calls in any order, whatever libfcache does when its cache
   is full. *)
Theorem C65_small_tree_partial : forall t evict blocks qs, bytes_image (fs_img t) -> bytes_image (fs_omap t) ->
  len blocks <= node_cache_size ->
  (forall n, fs_load_root (fs_img t) (fs_rb t) = Ok (Some n) -> In (fs_rb t) blocks) ->
  (forall b n, fs_load_sub (fs_img t) b = Ok n -> In b blocks) ->
  let answers := hp_session node_cache_size evict (nt_of t) qs hp_empty in
  answers = map (ask t) qs /\ ~ In Oob answers.
Proof.
  intros t evict blocks qs HF HO HL HR HS answers.
  assert (E : answers = map (ask t) qs).
  { unfold answers. apply (hp_session_agree node_cache_size evict t blocks HF HO HL HR HS). split; [constructor|]. intros b a n []. }
  split; [exact E|]. rewrite E. intros HI. apply in_map_iff in HI. destruct HI as (q & HQ & _). pose proof (ask_fine t HF HO q) as F. rewrite HQ in F. exact F.
Qed.
Print Assumptions C65_small_tree_partial.
(* The lookup of inodes by identifier: any tree, any cache. *)
Theorem C65_lookups_partial : forall t cap evict ids, bytes_image (fs_img t) -> bytes_image (fs_omap t) -> (forall l, incl (evict l) l) ->
  let answers := hp_session cap evict (nt_of t) (map QInode ids) hp_empty in
  answers = map (fun id => ask t (QInode id)) ids /\ ~ In Oob answers.
Proof.
  intros t cap evict ids HF HO HE answers.
  assert (E : answers = map (fun id => ask t (QInode id)) ids).
  { unfold answers. apply lookups_one; auto. intros b a n []. }
  split; [exact E|]. rewrite E. intros HI. apply in_map_iff in HI. destruct HI as (q & HQ & _). pose proof (ask_fine t HF HO (QInode q)) as F. rewrite HQ in F. exact F.
Qed.
Print Assumptions C65_lookups_partial.
Example C65_example : hp_session node_cache_size oldest (nt_of fx) [QDir 2; QExtents 16; QDir 2] hp_empty =
  [Ok (ADir [mk_de [97; 0] 0 16 77; mk_de [98; 0] 0 17 77]); Ok (AExtents [mk_ex 0 4096 900 0; mk_ex 4096 8192 950 0]);
   Ok (ADir [mk_de [97; 0] 0 16 77; mk_de [98; 0] 0 17 77])] /\
  (* with room for one node only, the root is gone when the second child is to be found *)
  hp_session 1 oldest (nt_of fx) [QDir 2; QInode 16] hp_empty = [Oob; ask fx (QInode 16)].
Proof. split; vm_compute; reflexivity. Qed.

(* ---- a directory of 8281 entries, one per leaf node: 91 branch nodes with 91 leaves each ---- *)
Fixpoint ups (b step : Z) (m : nat) : list Z := match m with O => [] | S m => b :: ups (b + step) step m end.
Definition hx_key (b : Z) : list Z := dir_key_plain 5 [33 + (b / 100 - 1); 33 + (b mod 100 - 1); 0].
Definition hx_ref (k b : Z) : record := (hx_key k, le_enc 8 b).
Definition hx_root : list record := map (fun b => hx_ref (b + 1) b) (ups 100 100 91).
Definition hx_branch (b : Z) : list record := map (fun c => hx_ref c c) (ups (b + 1) 1 91).
Definition hx_leaf (b : Z) : list record := [(hx_key b, dir_value_bytes b 77 8 0 true [])].
Definition hx_img : device := fun b =>
  if b =? 20 then Some (node_bytes (fx_node true false hx_root))
  else if b mod 100 =? 0 then Some (node_bytes (fx_node false false (hx_branch b)))
  else Some (node_bytes (fx_node false true (hx_leaf b))).
(* every object identifier is the number of its block *)
Definition hx : ntree := mk_nt hx_img 20 (fun o => Ok o).

Lemma hx_key_len b : len (hx_key b) = 13.
Proof. unfold hx_key, dir_key_plain. lens. reflexivity. Qed.
Lemma fx_fits root leaf (recs : list record) vs : Forall (fun r : record => len (fst r) = 13 /\ len (snd r) = vs) recs -> 0 <= vs -> (21 + vs) * len recs <= 3900 ->
  len (node_bytes (fx_node root leaf recs)) = 4096 /\ 40 < len (nd_free (fx_node root leaf recs)).
Proof.
  intros H HV HL. unfold record in *. pose proof (len_nonneg recs) as HN.
  assert (HK : len (keys_area recs) = 13 * len recs).
  { unfold keys_area. rewrite (concat_len_const _ 13), len_map; [reflexivity|]. apply Forall_map. eapply Forall_impl; [|exact H]. cbn. tauto. }
  assert (HVA : len (values_area recs) = vs * len recs).
  { unfold values_area. rewrite (concat_len_const _ vs), len_rev, len_map; [reflexivity|]. apply Forall_rev, Forall_map. eapply Forall_impl; [|exact H]. cbn. tauto. }
  unfold node_bytes, nd_header, nd_toc, nd_fixed, fx_node. cbn [nd_object nd_gap nd_recs nd_free nd_footer nd_spare nd_flags nd_lists].
  unfold record. rewrite !len_app, !le_enc_len, toc_len, HK, HVA.
  replace (Z.testbit _ 2) with false by (destruct root, leaf; reflexivity).
  rewrite (zeros_len (4096 - _ - _ - _ - _ - _)) by (destruct root; nia).
  rewrite (zeros_len 24), (zeros_len 8) by lia. change (len (@nil Z)) with 0.
  split; [|destruct root; nia].
  destruct root; [change (len (zeros 4 ++ le_enc 4 4096 ++ le_enc 4 0 ++ le_enc 4 0 ++ zeros 24)) with 40|change (len (@nil Z)) with 0]; clear; cbn [Z.of_nat Pos.of_succ_nat Pos.succ]; ring.
Qed.
Lemma fx_load (img : device) (root leaf : bool) b recs : img b = Some (node_bytes (fx_node root leaf recs)) -> 0 < b < 2 ^ 31 ->
  len (node_bytes (fx_node root leaf recs)) = 4096 -> 40 < len (nd_free (fx_node root leaf recs)) ->
  exists n, (if root then fs_load_root img b else let! n := fs_load_sub img b in Ok (Some n)) = Ok (Some n) /\ is_leaf n = leaf /\ bn_entries n = recs.
Proof.
  intros HI Hb HL HF. set (orecs := [(ex_key b 1, ex_val b)] : list record).
  assert (A1 : rec_oid (ex_key b 1, ex_val b) = b).
  { unfold rec_oid, ex_key. cbn [fst]. rewrite slice_app_l by (rewrite ?le_enc_len; lia). rewrite slice_all by (rewrite le_enc_len; reflexivity). apply le_val_enc. lia. }
  assert (A2 : rec_txn (ex_key b 1, ex_val b) = 1).
  { unfold rec_txn, ex_key. cbn [fst]. rewrite slice_app_r by (rewrite ?le_enc_len; lia). rewrite le_enc_len. rewrite slice_all by (rewrite le_enc_len; reflexivity). apply le_val_enc. lia. }
  assert (A3 : rec_address (ex_key b 1, ex_val b) = b).
  { unfold rec_address, ex_val. cbn [snd]. rewrite app_assoc. rewrite slice_app_r by (rewrite ?len_app, ?le_enc_len; lia). rewrite len_app, !le_enc_len. rewrite slice_all by (rewrite le_enc_len; reflexivity). apply le_val_enc. lia. }
  assert (N : fs_node img orecs 4 root b leaf recs).
  { exists b. split; [destruct root; [reflexivity|]|split; [lia|]].
    - split; [lia|]. exists (ex_key b 1, ex_val b). split; [|exact A3]. split; [left; reflexivity|]. split; [exact A1|]. split; [lia|].
      intros r' [<-|[]] _ _. lia.
    - exists (fx_node root leaf recs). split; [exact HI|]. split; [|split; [exact HL|]].
      + unfold node_ok. rewrite HL. unfold nd_fixed. change (nd_flags (fx_node root leaf recs)) with ((if root then 1 else 0) + (if leaf then 2 else 0)).
        replace (Z.testbit _ 2) with false by (destruct root, leaf; reflexivity).
        split; [reflexivity|]. cbn [nd_type nd_subtype nd_level nd_lists nd_footer fx_node].
        split; [destruct root; lia|]. split; [lia|]. split; [destruct root, leaf; lia|]. split; [destruct leaf; lia|]. split; [reflexivity|].
        split; [destruct root, leaf; reflexivity|]. split; [lia|]. split; [destruct root; vm_compute; auto|]. discriminate.
      + pose proof (len_nonneg (values_area (nd_recs (fx_node root leaf recs)))).
        split; [intros _; lia|]. split; [lia|]. split; [destruct root; cbn; auto|]. split; [reflexivity|].
        split; [destruct root, leaf; reflexivity|]. split; [destruct root, leaf; reflexivity|]. split; [destruct root, leaf; reflexivity|].
        split; [intros ->; reflexivity|reflexivity]. }
  destruct (fs_node_load _ _ _ _ _ _ _ N) as (b' & Eb & _ & n & H1 & H2). exists n.
  assert (b' = b). { destruct root; [exact Eb|]. destruct Eb as (_ & r & (HIn & _) & HA). destruct HIn as [<-|[]]. congruence. }
  subst b'. auto.
Qed.
Lemma ups_len b s m : len (ups b s m) = Z.of_nat m.
Proof. revert b. induction m as [|m IH]; intros b; [reflexivity|]. cbn [ups]. rewrite len_cons, IH. lia. Qed.
Lemma hx_refs_ok (f : Z -> Z) l : Forall (fun r : record => len (fst r) = 13 /\ len (snd r) = 8) (map (fun b => hx_ref (f b) b) l).
Proof. apply Forall_map, Forall_forall. intros b _. split; [apply hx_key_len|apply le_enc_len]. Qed.
Lemma hx_load_root : exists n, fs_load_root hx_img 20 = Ok (Some n) /\ is_leaf n = false /\ bn_entries n = hx_root.
Proof.
  destruct (fx_fits true false hx_root 8) as (H1 & H2); [apply hx_refs_ok|lia|unfold hx_root; rewrite len_map, ups_len; lia|].
  exact (fx_load hx_img true false 20 hx_root eq_refl ltac:(lia) H1 H2).
Qed.
Lemma hx_load_branch b : 20 < b < 2 ^ 31 -> b mod 100 = 0 -> exists n, fs_load_sub hx_img b = Ok n /\ is_leaf n = false /\ bn_entries n = hx_branch b.
Proof.
  intros Hb HM. destruct (fx_fits false false (hx_branch b) 8) as (H1 & H2); [apply (hx_refs_ok (fun c => c))|lia|unfold hx_branch; rewrite len_map, ups_len; lia|].
  destruct (fx_load hx_img false false b (hx_branch b)) as (n & HN & H3); auto; [|lia|].
  - unfold hx_img. replace (b =? 20) with false by lia. rewrite HM. reflexivity.
  - apply bind_ok in HN. destruct HN as (n' & HN & E). exists n'. injection E as ->. auto.
Qed.
Lemma hx_load_leaf b : 20 < b < 2 ^ 31 -> b mod 100 <> 0 -> exists n, fs_load_sub hx_img b = Ok n /\ is_leaf n = true /\ bn_entries n = hx_leaf b.
Proof.
  intros Hb HM. destruct (fx_fits false true (hx_leaf b) 18) as (H1 & H2); [|lia|vm_compute; discriminate|].
  { constructor; [|constructor]. split; [apply hx_key_len|]. cbn [snd]. unfold dir_value_bytes. cbn [xf_blob_opt]. rewrite app_nil_r, !len_app, !le_enc_len. reflexivity. }
  destruct (fx_load hx_img false true b (hx_leaf b)) as (n & HN & H3); auto; [|lia|].
  - unfold hx_img. replace (b =? 20) with false by lia. replace (b mod 100 =? 0) with false by lia. reflexivity.
  - apply bind_ok in HN. destruct HN as (n' & HN & E). exists n'. injection E as ->. auto.
Qed.
Lemma hx_word k v : fs_word (hx_key k, v) = Ok (lookup_word 9 5).
Proof.
  rewrite fs_word_ok by (cbn [fst]; rewrite hx_key_len; lia). cbn [fst]. unfold kword, hx_key, dir_key_plain, RecordsSpec.key_head.
  rewrite slice_app_l by (rewrite ?le_enc_len; lia). rewrite slice_all by (rewrite le_enc_len; reflexivity). rewrite le_val_enc by (vm_compute; auto; split; congruence). reflexivity.
Qed.
Lemma hx_ref_word k b : fs_word (hx_ref k b) = Ok (lookup_word 9 5).
Proof. apply hx_word. Qed.
Lemma hx_ref_child k b : 0 <= b < 2 ^ 64 -> fs_child (Some (hx_ref k b)) = Ok b.
Proof. intros H. apply fs_child_read; [reflexivity|exact H]. Qed.
(* the children of a branch node, all of which are visited *)
Lemma hx_plan_go (f : Z -> Z) l : Forall (fun b => 0 <= b < 2 ^ 64) l -> forall k p, 0 <= p < 2 ^ 64 ->
  enum_plan always 9 5 (Some (hx_ref k p)) (map (fun b => hx_ref (f b) b) l) = map Ok (p :: l).
Proof.
  induction 1 as [|b l Hb _ IH]; intros k p Hp.
  - cbn [map enum_plan]. rewrite hx_ref_child by exact Hp. reflexivity.
  - cbn [map enum_plan]. rewrite hx_ref_word. change ((5 <? word_id (lookup_word 9 5)) || ((word_id (lookup_word 9 5) =? 5) && (9 <? word_type (lookup_word 9 5)))) with false.
    change ((word_id (lookup_word 9 5) =? 5) && (word_type (lookup_word 9 5) =? 9)) with true. cbv iota. cbn [always].
    rewrite hx_ref_child by exact Hp. change (map Ok (p :: b :: l)) with (Ok p :: map Ok (b :: l)). f_equal. apply IH; exact Hb.
Qed.
Lemma hx_plan (f : Z -> Z) b l : Forall (fun b => 0 <= b < 2 ^ 64) (b :: l) ->
  enum_plan always 9 5 None (map (fun b => hx_ref (f b) b) (b :: l)) = map Ok (b :: l).
Proof.
  intros H. inversion H as [|? ? Hb Hl]; subst. cbn [map enum_plan]. rewrite hx_ref_word.
  change ((5 <? word_id (lookup_word 9 5)) || ((word_id (lookup_word 9 5) =? 5) && (9 <? word_type (lookup_word 9 5)))) with false.
  change ((word_id (lookup_word 9 5) =? 5) && (word_type (lookup_word 9 5) =? 9)) with true. cbv iota. cbn [always].
  apply (hx_plan_go f l Hl (f b) b Hb).
Qed.
Lemma ups_range lo hi s m : 0 <= s -> forall b, lo <= b -> b + s * Z.of_nat m <= hi -> Forall (fun x => lo <= x < hi + 1) (ups b s m).
Proof.
  intros Hs. induction m as [|m IH]; intros b H1 H2; [constructor|]. cbn [ups]. constructor; [nia|]. apply IH; nia.
Qed.
Definition hx_entry (b : Z) : dentry := mk_de [33 + (b / 100 - 1); 33 + (b mod 100 - 1); 0] 0 b 77.
Lemma hx_leaf_ok b : 0 <= b < 2 ^ 64 -> enum_leaf read_dentry (lookup_word 9 5) 5 (hx_leaf b) = Ok [hx_entry b].
Proof.
  intros Hb. unfold hx_leaf. cbn [enum_leaf]. rewrite hx_word. cbn [bind]. change (5 <? word_id (lookup_word 9 5)) with false. rewrite Z.eqb_refl. cbv iota.
  unfold read_dentry. cbn [fst snd]. unfold hx_key. rewrite dir_key_plain_ok by (vm_compute; split; discriminate). cbn [bind].
  rewrite dir_value_ok; [reflexivity|exact Hb|lia|vm_compute; reflexivity|constructor|constructor].
Qed.
(* what the traversal needs of the nodes *)
Definition hx_w := dir_walker 5.
Lemma hx_branch_plan n b : 20 < b < 2 ^ 31 -> bn_entries n = hx_branch b -> wk_plan hx_w n = map Ok (ups (b + 1) 1 91).
Proof.
  intros Hb HN. cbn [wk_plan hx_w dir_walker enum_walker]. rewrite HN. unfold hx_branch.
  apply (hx_plan (fun c => c) (b + 1) (ups (b + 1 + 1) 1 90)). apply (ups_range 0 (2 ^ 64 - 1) 1 91); lia.
Qed.
Lemma hx_root_plan n : bn_entries n = hx_root -> wk_plan hx_w n = map Ok (ups 100 100 91).
Proof.
  intros HN. cbn [wk_plan hx_w dir_walker enum_walker]. rewrite HN. unfold hx_root.
  apply (hx_plan (fun c => c + 1) 100 (ups 200 100 90)). apply (ups_range 0 (2 ^ 64 - 1) 100 91); lia.
Qed.

(* ---- the nodes in memory: all of those ever loaded, newest first, as far as there is room ---- *)
Section Oldest.
  Variable cap : Z.
  Hypothesis Hcap : 1 <= cap.
  Definition hist (h : heap) (l : list cached_node) : Prop := hp_nodes h = firstn (Z.to_nat cap) l.
  Lemma push_firstn (l : list cached_node) x m : (1 <= m)%nat ->
    (x :: (if (length (firstn m l) <? m)%nat then firstn m l else removelast (firstn m l))) = firstn m (x :: l).
  Proof.
    intros Hm. destruct m as [|m]; [lia|]. rewrite firstn_cons. f_equal. destruct (Nat.ltb_spec (length (firstn (S m) l)) (S m)) as [H|H].
    - rewrite firstn_length in H. rewrite !firstn_all2 by lia. reflexivity.
    - rewrite firstn_length in H. apply removelast_firstn. lia.
  Qed.
  Lemma in_firstn {A} (l : list A) m x : In x (firstn m l) -> In x l.
  Proof. intros H. rewrite <- (firstn_skipn m l). apply in_or_app. left. exact H. Qed.
  Lemma hist_set h l b n : hist h l -> ~ In b (map fst l) -> hist (hp_set cap oldest h b n) ((b, (hp_next h, n)) :: l).
  Proof.
    intros H HB. unfold hist, hp_set. cbn [hp_nodes]. rewrite filter_same.
    - rewrite H. rewrite <- push_firstn by lia. f_equal.
      assert (X : (len (firstn (Z.to_nat cap) l) <? cap) = (length (firstn (Z.to_nat cap) l) <? Z.to_nat cap)%nat).
      { unfold len. destruct (Nat.ltb_spec (length (firstn (Z.to_nat cap) l)) (Z.to_nat cap)); lia. }
      match goal with |- context [?x <? cap] => assert (Y : (x <? cap) = (length (firstn (Z.to_nat cap) l) <? Z.to_nat cap)%nat) by exact X; rewrite Y end. unfold hist in H. unfold oldest. rewrite <- H. reflexivity.
    - rewrite H. intros X. apply HB. apply in_map_iff in X. destruct X as (e & <- & X). apply in_map. eapply in_firstn; eauto.
  Qed.

  Variable rn : bnode.
  (* the root was loaded first, then c nodes from blocks below k *)
  Definition st (h : heap) (k c : Z) : Prop := exists l, hist h (l ++ [(20, (0, rn))]) /\ Forall (fun e : cached_node => fst e < k /\ 0 < fst (snd e)) l /\
    len l = c /\ 0 < hp_next h /\ 20 < k.
  Lemma st_full h k c : st h k c -> cap <= c -> hp_live h 0 = false.
  Proof.
    intros (l & H1 & H2 & H3 & _) Hc. unfold hp_live. rewrite H1. rewrite firstn_app.
    replace (Z.to_nat cap - length l)%nat with 0%nat by (unfold len in H3; lia). rewrite firstn_O, app_nil_r.
    destruct (existsb _ _) eqn:E; [|reflexivity]. apply existsb_exists in E. destruct E as (e & HI & HE). apply in_firstn in HI.
    rewrite Forall_forall in H2. specialize (H2 e HI). lia.
  Qed.
  Lemma st_load h k c b n : st h k c -> k <= b <= int_max -> fs_load_sub hx_img b = Ok n ->
    exists a h', hp_sub cap oldest hx b h = (Ok (a, n), h') /\ st h' (b + 1) (c + 1).
  Proof.
    intros (l & H1 & H2 & H3 & H4 & H5) Hb HL. exists (hp_next h), (hp_set cap oldest h b n).
    assert (NB : ~ In b (map fst (l ++ [(20, (0, rn))]))).
    { intros X. apply in_map_iff in X. destruct X as (e & E & X). apply in_app_or in X. destruct X as [X|[<-|[]]]; [|cbn in E; lia].
      rewrite Forall_forall in H2. specialize (H2 e X). lia. }
    split.
    - unfold hp_sub. rewrite bindM_fst. cbn [nt_map hx retM]. replace (int_max <? b) with false by lia.
      destruct (hp_find h b) as [x|] eqn:E.
      { exfalso. apply NB. apply find_in in E. rewrite H1 in E. apply in_firstn in E. change b with (fst (b, x)). apply in_map. exact E. }
      cbn [nt_img hx]. rewrite HL. rewrite bindM_fst. cbn [retM]. unfold hp_store, hp_find, hp_set. cbn [hp_nodes find fst]. rewrite Z.eqb_refl. reflexivity.
    - exists ((b, (hp_next h, n)) :: l). split; [apply hist_set; assumption|]. split; [|split; [rewrite len_cons; lia|]].
      + constructor; [cbn; lia|]. eapply Forall_impl; [|exact H2]. cbn. intros e X. lia.
      + cbn. lia.
  Qed.

  Definition rec_at (f : nat) (d : Z) (o : Z) : M heap (list dentry) := bindM (hp_sub cap oldest hx o) (fun m => hp_visit cap oldest hx _ hx_w f d m).
  (* the leaves from b on below one branch node *)
  Lemma hx_leaves f d a m : d <= 257 -> forall b h k c acc, st h k c -> k <= b -> 20 < b -> b mod 100 <> 0 -> b mod 100 + Z.of_nat m <= 100 -> b + Z.of_nat m <= int_max ->
    exists r h', hp_children _ hx_w (rec_at (S f) d) a (map Ok (ups b 1 m)) acc h = (r, h') /\ (r = Oob \/ exists x, r = Ok x /\ st h' (Z.max k (b + Z.of_nat m)) (c + Z.of_nat m)).
  Proof.
    intros Hd. induction m as [|m IH]; intros b h k c acc HS Hk Hb HM HF HX.
    - cbn [ups map hp_children]. exists (Ok acc), h. split; [reflexivity|]. right. exists acc. split; [reflexivity|].
      destruct HS as (l & H1 & H2 & H3 & H4 & H5). exists l. split; [exact H1|]. split; [eapply Forall_impl; [|exact H2]; cbn; intros; lia|]. lia.
    - cbn [ups map hp_children]. destruct (hp_live h a); [|exists Oob, h; split; [reflexivity|left; reflexivity]].
      rewrite bindM_fst. cbn [retM]. rewrite bindM_fst. unfold rec_at at 1. rewrite bindM_fst.
      destruct (hx_load_leaf b) as (n & HL & HN & HE); [unfold int_max in *; lia|exact HM|].
      destruct (st_load h k c b n HS ltac:(lia) HL) as (a' & h' & E & HS'). rewrite E.
      cbn [hp_visit snd]. rewrite HN. change (wk_lim hx_w) with 257. replace (257 <? d) with false by lia.
      cbn [hx_w dir_walker enum_walker wk_leaf retM]. rewrite HE, hx_leaf_ok by (unfold int_max in *; lia).
      destruct m as [|m].
      { cbn [ups map hp_children]. eexists _, h'. split; [reflexivity|]. right. eexists. split; [reflexivity|].
        replace (Z.max k (b + Z.of_nat 1)) with (b + 1) by lia. exact HS'. }
      destruct (IH (b + 1) h' (b + 1) (c + 1) (wk_join hx_w acc [hx_entry b]) HS') as (r & h2 & E2 & HR); [lia|lia|lia|lia|lia|].
      change (wk_join _ acc [hx_entry b]) with (wk_join hx_w acc [hx_entry b]). exists r, h2. split; [exact E2|]. destruct HR as [->|(x & -> & HR)]; [left; reflexivity|right; exists x].
      split; [reflexivity|]. replace (Z.max k (b + Z.of_nat (S (S m)))) with (Z.max (b + 1) (b + 1 + Z.of_nat (S m))) by lia.
      replace (c + Z.of_nat (S (S m))) with (c + 1 + Z.of_nat (S m)) by lia. exact HR.
  Qed.
  (* one branch node *)
  Lemma hx_branch_visit f d b h k c : d <= 255 -> st h k c -> k <= b -> 20 < b -> b mod 100 = 0 -> b + 200 <= int_max ->
    exists r h', rec_at (S (S f)) d b h = (r, h') /\ (r = Oob \/ exists x, r = Ok x /\ st h' (b + 92) (c + 92)).
  Proof.
    intros Hd HS Hk Hb HM HX. unfold rec_at. rewrite bindM_fst. destruct (hx_load_branch b) as (n & HL & HN & HE); [unfold int_max in *; lia|exact HM|].
    destruct (st_load h k c b n HS ltac:(lia) HL) as (a & h' & E & HS'). rewrite E. cbn [hp_visit snd fst]. rewrite HN.
    unfold max_depth. replace (256 <? d) with false by lia. rewrite (hx_branch_plan n b) by (try exact HE; unfold int_max in *; lia).
    destruct (hx_leaves f (d + 1) a 91 ltac:(lia) (b + 1) h' (b + 1) (c + 1) (wk_start hx_w) HS') as (r & h2 & E2 & HR); [lia|lia|lia|lia|lia|].
    unfold rec_at in E2. cbn [hp_visit] in E2. exists r, h2. split; [exact E2|]. destruct HR as [->|(x & -> & HR)]; [left; reflexivity|right; exists x].
    split; [reflexivity|]. replace (b + 92) with (Z.max (b + 1) (b + 1 + Z.of_nat 91)) by lia. replace (c + 92) with (c + 1 + Z.of_nat 91) by lia. exact HR.
  Qed.
  (* the root: the cache is full before its last child *)
  Lemma hx_root_visit f d m : d <= 255 -> forall b h k c acc, st h k c -> k <= b -> 20 < b -> b mod 100 = 0 -> b + 100 * (Z.of_nat m + 2) <= int_max ->
    cap <= c + 92 * Z.of_nat m ->
    exists h', hp_children _ hx_w (rec_at (S (S f)) d) 0 (map Ok (ups b 100 (S m))) acc h = (Oob, h').
  Proof.
    intros Hd. induction m as [|m IH]; intros b h k c acc HS Hk Hb HM HX HC.
    - cbn [ups map hp_children]. rewrite (st_full h k c HS) by lia. eauto.
    - change (ups b 100 (S (S m))) with (b :: ups (b + 100) 100 (S m)). cbn [map hp_children].
      destruct (hp_live h 0); [|eauto]. rewrite bindM_fst. cbn [retM]. rewrite bindM_fst.
      destruct (hx_branch_visit f d b h k c Hd HS Hk Hb HM ltac:(lia)) as (r & h' & E & HR). rewrite E. destruct HR as [->|(x & -> & HR)]; [eauto|].
      apply (IH (b + 100) h' (b + 92) (c + 92)); try lia. exact HR.
  Qed.
End Oldest.
(* The directory itself is fine: without freed nodes the enumeration gives all 8281 entries. *)
Lemma visit_branch {S A} (get : Z -> M S bnode) (w : walker A) f d n s : is_leaf n = false -> (max_depth <? d) = false ->
  visit get w (Datatypes.S f) d n s = visit_children w (fun b => bindM (get b) (fun m => visit get w f (d + 1) m)) (wk_plan w n) (wk_start w) s.
Proof. intros H1 H2. cbn [visit]. rewrite H1, H2. reflexivity. Qed.
Lemma hp_visit_branch cap evict t {A} (w : walker A) f d x h : is_leaf (snd x) = false -> (max_depth <? d) = false ->
  hp_visit cap evict t A w (Datatypes.S f) d x h =
  hp_children A w (fun o => bindM (hp_sub cap evict t o) (fun m => hp_visit cap evict t A w f (d + 1) m)) (fst x) (wk_plan w (snd x)) (wk_start w) h.
Proof. intros H1 H2. cbn [hp_visit]. rewrite H1, H2. reflexivity. Qed.
Definition hx_ld (o : Z) : res bnode := if int_max <? o then Fail else fs_load_sub hx_img o.
Lemma hx_leaves_pure f d m : d <= 257 -> forall b acc, 20 < b -> b mod 100 <> 0 -> b mod 100 + Z.of_nat m <= 100 -> b + Z.of_nat m <= int_max ->
  visit_children hx_w (fun o => bindM (pure hx_ld o) (fun n => visit (pure hx_ld) hx_w (S f) d n)) (map Ok (ups b 1 m)) acc tt = (Ok (acc ++ map hx_entry (ups b 1 m)), tt).
Proof.
  intros Hd. induction m as [|m IH]; intros b acc Hb HM HF HX; [cbn [ups map visit_children retM]; rewrite app_nil_r; reflexivity|].
  cbn [ups map visit_children]. rewrite bindM_fst. cbn [retM]. rewrite !bindM_fst.
  destruct (hx_load_leaf b) as (n & HL & HN & HE); [unfold int_max in *; lia|exact HM|].
  change (pure hx_ld b tt) with (hx_ld b, tt). unfold hx_ld at 1. replace (int_max <? b) with false by lia. rewrite HL.
  assert (V : visit (pure hx_ld) hx_w (S f) d n tt = (Ok [hx_entry b], tt)).
  { cbn [visit]. rewrite HN. change (wk_lim hx_w) with 257. replace (257 <? d) with false by lia. unfold retM. cbn [hx_w dir_walker enum_walker wk_leaf].
    rewrite HE, hx_leaf_ok by (unfold int_max in *; lia). reflexivity. }
  rewrite V. change (wk_join hx_w acc [hx_entry b]) with (acc ++ [hx_entry b]). destruct m as [|m]; [reflexivity|].
  rewrite IH by lia. rewrite <- app_assoc. reflexivity.
Qed.
Lemma hx_branches_pure f d m : d <= 255 -> forall b acc, 20 < b -> b mod 100 = 0 -> b + 100 * (Z.of_nat m + 2) <= int_max ->
  visit_children hx_w (fun o => bindM (pure hx_ld o) (fun n => visit (pure hx_ld) hx_w (S (S f)) d n)) (map Ok (ups b 100 m)) acc tt =
  (Ok (acc ++ concat (map (fun b => map hx_entry (ups (b + 1) 1 91)) (ups b 100 m))), tt).
Proof.
  intros Hd. induction m as [|m IH]; intros b acc Hb HM HX; [cbn [ups map visit_children retM concat]; rewrite app_nil_r; reflexivity|].
  cbn [ups map visit_children]. rewrite bindM_fst. cbn [retM]. rewrite !bindM_fst.
  destruct (hx_load_branch b) as (n & HL & HN & HE); [unfold int_max in *; lia|exact HM|].
  change (pure hx_ld b tt) with (hx_ld b, tt). unfold hx_ld at 1. replace (int_max <? b) with false by lia. rewrite HL.
  assert (V : visit (pure hx_ld) hx_w (S (S f)) d n tt = (Ok (map hx_entry (ups (b + 1) 1 91)), tt)).
  { rewrite visit_branch; [|exact HN|unfold max_depth; lia]. rewrite (hx_branch_plan n b) by (try exact HE; unfold int_max in *; lia).
    apply (hx_leaves_pure f (d + 1) 91 ltac:(lia) (b + 1) []); lia. }
  rewrite V. rewrite IH by lia. cbn [concat]. rewrite app_assoc. reflexivity.
Qed.
Definition hx_entries : list dentry := concat (map (fun b => map hx_entry (ups (b + 1) 1 91)) (ups 100 100 91)).
Lemma hx_entries_len : len hx_entries = 8281.
Proof.
  assert (X : forall q m b, len (concat (map (fun b => map hx_entry (ups (b + 1) 1 q)) (ups b 100 m))) = Z.of_nat q * Z.of_nat m).
  { intros q. induction m as [|m IH]; intros b; [cbn; lia|]. cbn [ups map concat]. rewrite len_app, len_map, ups_len, IH. lia. }
  unfold hx_entries. rewrite X. reflexivity.
Qed.
Lemma hx_pure_fuel f n : is_leaf n = false -> bn_entries n = hx_root -> fst (visit (pure hx_ld) hx_w (S (S (S f))) 0 n tt) = Ok hx_entries.
Proof.
  intros HN HE. rewrite visit_branch; [|exact HN|reflexivity]. rewrite (hx_root_plan n HE). change (wk_start hx_w) with (@nil dentry).
  rewrite (hx_branches_pure f (0 + 1) 91 ltac:(lia) 100 []); [reflexivity|lia|reflexivity|unfold int_max; lia].
Qed.
Lemma hx_pure : fst (walk (retM (fs_load_root hx_img 20)) (pure hx_ld) hx_w tt) = Ok hx_entries.
Proof.
  destruct hx_load_root as (n & HL & HN & HE). unfold walk. rewrite bindM_fst. rewrite HL. exact (hx_pure_fuel 255 n HN HE).
Qed.
Lemma hx_oob_fuel f n : is_leaf n = false -> bn_entries n = hx_root ->
  fst (hp_visit node_cache_size oldest hx _ hx_w (S (S (S f))) 0 (0, n) (mk_heap [(20, (0, n))] 1)) = Oob.
Proof.
  intros HN HE.
  assert (S0 : st node_cache_size n (mk_heap [(20, (0, n))] 1) 21 0).
  { exists []. split; [|split; [constructor|split; [reflexivity|cbn; lia]]]. unfold hist. cbn [hp_nodes app]. rewrite firstn_all2; [reflexivity|]. cbn [length]. unfold node_cache_size. lia. }
  destruct (hx_root_visit node_cache_size ltac:(unfold node_cache_size; lia) n f (0 + 1) 90 ltac:(lia) 100 (mk_heap [(20, (0, n))] 1) 21 0 (wk_start hx_w) S0) as (h' & E);
    [lia|lia|reflexivity|unfold int_max; lia|unfold node_cache_size; lia|].
  rewrite hp_visit_branch; [|exact HN|reflexivity]. cbn [fst snd]. rewrite (hx_root_plan n HE). unfold rec_at in E. rewrite E. reflexivity.
Qed.
Lemma hx_oob : fst (hp_walk node_cache_size oldest hx _ hx_w hp_empty) = Oob.
Proof.
  destruct hx_load_root as (n & HL & HN & HE).
  assert (R : hp_root node_cache_size oldest hx hp_empty = (Ok (Some (0, n)), mk_heap [(20, (0, n))] 1)).
  { unfold hp_root. cbn [nt_rb nt_img hx]. change (int_max <? 20) with false. cbv iota. change (hp_find hp_empty 20) with (@None (Z * bnode)). cbv iota.
    rewrite HL. reflexivity. }
  unfold hp_walk. rewrite bindM_fst, R. exact (hx_oob_fuel 255 n HN HE).
Qed.
(* The full statement is false: while a directory of 8281 leaf nodes is enumerated, the root node
   is freed as the oldest one in the cache, and then used to find the next child. *)
Theorem C65_freed_node_used_refuted : exists (t : ntree) id entries,
  fst (walk (retM (fs_load_root (nt_img t) (nt_rb t))) (pure (fun o => let! b := nt_map t o in if int_max <? b then Fail else fs_load_sub (nt_img t) b)) (dir_walker id) tt) = Ok entries /\
  len entries = 8281 /\ hp_session node_cache_size oldest t [QDir id] hp_empty = [Oob].
Proof.
  exists hx, 5, hx_entries. split; [exact hx_pure|]. split; [exact hx_entries_len|].
  cbn [hp_session hp_ask]. rewrite bindM_fst. pose proof hx_oob as H. unfold hx_w in H.
  destruct (hp_walk node_cache_size oldest hx (list dentry) (dir_walker 5) hp_empty) as [r h]. cbn [fst] in H. rewrite H. reflexivity.
Qed.
Print Assumptions C65_freed_node_used_refuted.
