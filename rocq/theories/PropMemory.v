(* C115: programs that free their objects get all memory back. *)
From Coq Require Import Permutation.
From Verif Require Import Base BaseLemmas Compressed CompressedSpec CompressedTop PropCompressed Name NameSpec NameProofs PropName BTreeSpec BTreeProofs BTree Walk Omap TreeSpec OmapSpec OmapTop OmapProofs PropOmap RecordsSpec Records RecordsProofs FsTree FsSpec FsProofs FsTop FsLookup PropFs
  FsNameSpec FsName FsNameProofs FsNameTop PropFsName Snapshot VolumeSuper VSuperSpec VSuperProofs FileEntry FileSpec FileProofs FileTop PropFile EntryName EntrySpec PropEntry ToolExample PropToolInfo PropSnap PropVSuper ExtAttr SafeUse
  Memory MemorySpec MemoryProofs MemoryEntry MemoryTop MemorySame.
Ltac Zify.zify_post_hook ::= Z.div_mod_to_equations.

(* Whatever calls a program makes, in whatever order: nothing is freed that is not allocated, and what is
   allocated in the end is what its objects own, what was there before, and what is lost for
   one of three reasons. *)
Theorem C115_given_back_partial : forall lzvn junk t img ctx fold v hp cs answers p,
  h_bad hp = false -> psteps lzvn junk t img ctx fold v (mk_prog hp []) cs = Ok (answers, p) ->
  h_bad (p_heap p) = false /\
  exists lost, Forall (lost_for t cs) lost /\ Permutation (h_live (p_heap p)) (flat_map owned_by (p_objs p) ++ lost ++ h_live hp).
Proof.
  intros lzvn junk t img ctx fold v hp cs answers p HB H.
  assert (I : pinv t cs (h_live hp) (mk_prog hp [])).
  { split; [constructor|]. exists []. split; [constructor|]. split; [exact HB|]. intros b. reflexivity. }
  destruct (psteps_inv lzvn junk t img ctx fold v cs (h_live hp) cs _ _ _ (incl_refl cs) I H) as (_ & lost & L & HH). apply holds_perm in HH. destruct HH as (H1 & H2).
  split; [exact H1|]. exists lost. split; [exact L|exact H2].
Qed.
Print Assumptions C115_given_back_partial.

(* ---- a volume without compressed files, by its records ---- *)
Lemma enum_above {A} (parse : bentry -> res A) more (tie : list Z -> list Z -> Prop) h t recs ty id : (forall a b c, tie a b -> tie b c -> tie a c) ->
  fs_tree tie (S h) t recs -> ~ reach id ty recs -> fs_walk t (enum_walker parse more ty id) = Fail.
Proof.
  intros HTR (ho & orecs & Hho & HO & Hh & HT & HG) NR. destruct HT as (es & HN & HE & HF).
  destruct (fs_node_load _ _ _ _ _ _ _ HN) as (b & Eb & Hb & n & HL & H1 & H2). cbn iota in Eb, HL. subst b.
  unfold fs_walk, walk, bindM. cbn [retM]. unfold fs_root. replace (int_max <? fs_rb t) with false by lia. rewrite HL.
  unfold walk_fuel. cbn [visit]. rewrite H1. replace (max_depth <? 0) with false by (unfold max_depth; lia). cbn [wk_plan enum_walker]. rewrite H2.
  pose proof (fs_forest_keys tie (fun b r => subtree (fs_node (fs_img t) orecs (fs_txn t)) fs_child_of (fs_lt tie) eq h false b r) es recs HF HG) as HK.
  destruct es as [|e es]; [congruence|]. apply Forall_inv in HK.
  assert (HA : above id ty (fst e) = true).
  { inversion HF as [|k v b es' k1 v1 r1 rest Hc HT Hs Hl HF' E1 E2]; subst. unfold reach in NR. cbn [app fst] in *. destruct (above id ty k1); [reflexivity|congruence]. }
  cbn [enum_plan]. rewrite fs_word_ok by apply HK. rewrite word_id_mod, word_type_div. fold (kid (fst e)) (kty (fst e)).
  change ((id <? kid (fst e)) || ((kid (fst e) =? id) && (ty <? kty (fst e)))) with (above id ty (fst e)). rewrite HA. reflexivity.
Qed.
(* Every attribute has a name, and none is com.apple.decmpfs. *)
Definition none_packed (recs : list TreeSpec.record) : Prop :=
  forall id r, In r recs -> has 4 id r = true -> exists a n, attr_rec id r a /\ file_name n /\ spells n (at_name a) /\ hd 0 n <> 0xfeff /\ n <> decmpfs_name.
Lemma none_packed_tree (tie : list Z -> list Z -> Prop) h t recs : (forall a b c, tie a b -> tie b c -> tie a c) -> fs_tree tie h t recs -> none_packed recs -> no_compressed t.
Proof.
  intros HTR HT HN id l x Hid HA HX E.
  assert (HR : forall r, In r recs -> has 4 id r = true -> exists a, attr_rec id r a) by (intros r I1 I2; destruct (HN id r I1 I2) as (a & n & X & _); eauto).
  assert (HB : h = O \/ not_below 4 id recs).
  { destruct h as [|h]; [left; reflexivity|right]. destruct recs as [|r recs].
    - destruct HT as (ho & orecs & _ & _ & _ & (es & _ & NE & F) & _). inversion F; subst. congruence.
    - destruct (above id 4 (fst r)) eqn:AB.
      + exfalso. assert (X : fs_attrs t id = Fail) by (eapply enum_above; [exact HTR|exact HT|]; cbn [reach]; congruence). congruence.
      + exists r. split; [left; reflexivity|]. unfold above in AB. lia. }
  destruct (C19_attribute_enumeration_partial tie h t recs id HTR HT Hid HR HB) as (l' & E' & F). assert (l' = l) by congruence. subst l'.
  assert (Y : exists r, In r recs /\ has 4 id r = true /\ attr_rec id r x).
  { clear - F HX. assert (G : exists r, In r (filter (has 4 id) recs) /\ attr_rec id r x).
    { induction F as [|r y rs ys H1 H2 IH]; [destruct HX|]. destruct HX as [->|HX]; [exists r; split; [left; reflexivity|exact H1]|]. destruct (IH HX) as (r' & R1 & R2). exists r'. split; [right; exact R1|exact R2]. }
    destruct G as (r & R1 & R2). apply filter_In in R1. destruct R1 as (R0 & R1). exists r. auto. }
  destruct Y as (r & R1 & R2 & R3). destruct (HN id r R1 R2) as (a & n & A1 & A2 & A3 & A4 & A5).
  assert (a = x) as ->. { apply attr_rec_read in A1. apply attr_rec_read in R3. congruence. }
  destruct (ascii_name decmpfs_name eq_refl) as (FD & DD). change decmpfs_key with decmpfs_name in E. rewrite (una_equal_ok utf8_next _ decmpfs_name _ n FD DD A2 A3 A4) in E.
  destruct (list_eq_dec Z.eq_dec decmpfs_name n); congruence.
Qed.

(* On a volume without compressed files, a program that takes no snapshot and gives no path with an empty
   name: once all objects are freed, exactly what was allocated before is. *)
Theorem C115_all_freed : forall (tie : list Z -> list Z -> Prop) h lzvn junk t recs img ctx fold v hp cs answers p,
  (forall a b c, tie a b -> tie b c -> tie a c) -> fs_tree tie h t recs -> none_packed recs ->
  (forall i, ~ In (PSnap i) cs) -> (forall c u str, In c cs -> asks_path c u str -> plain_path u str) ->
  h_bad hp = false -> psteps lzvn junk t img ctx fold v (mk_prog hp []) cs = Ok (answers, p) -> Forall (eq OFreed) (p_objs p) ->
  h_bad (p_heap p) = false /\ Permutation (h_live (p_heap p)) (h_live hp).
Proof.
  intros tie h lzvn junk t recs img ctx fold v hp cs answers p HTR HT HN HS HP HB H HF.
  destruct (C115_given_back_partial _ _ _ _ _ _ _ _ _ _ _ HB H) as (H1 & lost & HL & H2). split; [exact H1|].
  assert (lost = []) as ->.
  { destruct lost as [|b lost]; [reflexivity|]. exfalso. apply Forall_inv in HL. unfold lost_for in HL. destruct (fst b); try exact HL.
    - destruct HL as (c & u & str & I & A & N). apply N. eapply HP; eassumption.
    - apply HL. eapply none_packed_tree; eassumption.
    - destruct HL as (i & I). exact (HS i I). }
  assert (E : flat_map owned_by (p_objs p) = []) by (clear - HF; induction HF as [|o l <- _ IH]; [reflexivity|exact IH]). rewrite E in H2. exact H2.
Qed.
Print Assumptions C115_all_freed.

(* The accounting changes nothing: calls give what they give in the model without it. *)
Theorem C115_same_answers : forall lzvn junk e c s, bytes_image (fs_img (fe_tree e)) -> bytes_image (fs_omap (fe_tree e)) ->
  match entry_call lzvn junk e c (m_st s) with
  | Ok (a, st) => exists s', entry_call_m lzvn junk e c s = Ok (a, s') /\ m_st s' = st
  | Fail => entry_call_m lzvn junk e c s = Fail
  | Oob => entry_call_m lzvn junk e c s = Oob
  | Fuel => entry_call_m lzvn junk e c s = Fuel
  end.
Proof. intros lzvn junk e c s HF HO. apply call_ref. intros x. apply attr_stream_fine; assumption. Qed.
Print Assumptions C115_same_answers.
Theorem C115_same_entries : forall t img ctx next fold id str h,
  match fs_by_path t next fold id str with
  | Ok r => exists h' l, by_path_m t img ctx next fold id str h = (Ok l, h') /\ option_map fst l = option_map (fun p => mk_fe t img ctx (fst (fst p)) (snd (fst p)) (snd p)) r
  | Fail => fst (by_path_m t img ctx next fold id str h) = Fail
  | Oob => fst (by_path_m t img ctx next fold id str h) = Oob
  | Fuel => fst (by_path_m t img ctx next fold id str h) = Fuel
  end.
Proof.
  intros t img ctx next fold id str h. pose proof (by_path_sim t img ctx next fold id str h) as H.
  destruct (by_path_m t img ctx next fold id str h) as [[r| | |] h']; cbn [fst mapr] in *; destruct (fs_by_path t next fold id str) as [q| | |]; cbn [bind] in H; try discriminate; try reflexivity.
  exists h', r. split; [reflexivity|]. injection H as H. exact H.
Qed.
Print Assumptions C115_same_entries.

Theorem C115_same_sub : forall e i s,
  match entry_sub e i (m_st s) with
  | (Ok x, st) => exists l s', entry_sub_m e i s = (Ok (x, l), s') /\ m_st s' = st
  | (Fail, st) => exists s', entry_sub_m e i s = (Fail, s') /\ m_st s' = st
  | (Oob, st) => exists s', entry_sub_m e i s = (Oob, s') /\ m_st s' = st
  | (Fuel, st) => exists s', entry_sub_m e i s = (Fuel, s') /\ m_st s' = st
  end.
Proof.
  intros e i s. destruct (sub_ref e i s) as (H1 & H2).
  destruct (entry_sub e i (m_st s)) as [r st]. cbn [fst snd] in *.
  destruct (entry_sub_m e i s) as [[[x l]| | |] s']; cbn [fst snd mapr] in *; subst r st; eauto.
Qed.
Print Assumptions C115_same_sub.

(* ---- what is lost ---- *)
Definition hm : heap := mk_heap 0 [] false.
Definition fm_v : open_volume := {| ov_size := 409600; ov_super := vcontents vx4; ov_omap := 30; ov_bag := None; ov_locked := false; ov_snapshots := [mk_snap 77 [97; 0]; mk_snap 77 [98; 99; 0]] |}.
Definition ends_with (t : fs) (img : image) (cs : list pcall) : list panswer * list bool * heap :=
  match psteps no_lzvn no_junk t img None true fm_v (mk_prog hm []) cs with
  | Ok (l, p) => (l, map (fun o => match o with OFreed => true | _ => false end) (p_objs p), p_heap p)
  | _ => ([], [], hm)
  end.
(* the program runs, frees all its objects, and the blocks l stay allocated *)
Definition freed_but (t : fs) (img : image) (cs : list pcall) (l : list block) : Prop :=
  exists answers p, psteps no_lzvn no_junk t img None true fm_v (mk_prog hm []) cs = Ok (answers, p) /\ Forall (eq OFreed) (p_objs p) /\ h_live (p_heap p) = l.
Lemma ends_freed t img cs answers bs h : (answers <> []) -> ends_with t img cs = (answers, bs, h) -> forallb (fun b => b) bs = true -> freed_but t img cs (h_live h).
Proof.
  intros NE E HB. unfold ends_with in E. unfold freed_but. destruct (psteps no_lzvn no_junk t img None true fm_v (mk_prog hm []) cs) as [[l p]| | |]; try (injection E as E1 E2 E3; congruence).
  injection E as <- <- <-. exists l, p. split; [reflexivity|]. split; [|reflexivity]. clear NE. induction (p_objs p) as [|o os IH]; [constructor|]. cbn [map forallb] in HB. apply andb_true_iff in HB. destruct HB as (H1 & H2).
  constructor; [destruct o; try discriminate; reflexivity|apply IH; exact H2].
Qed.
(* The path /a//b: the record of a is lost. *)
Theorem C115_empty_component_refuted : exists (tie : list Z -> list Z -> Prop) h t recs img str l, fs_tree tie h t recs /\
  freed_but t img [PByPath false str] l /\ l <> [].
Proof.
  exists fx_tie, 0%nat, fi, fi_recs, fz_dev, [47; 97; 47; 47; 98], [(KRecord, 0)]. split; [exact fi_tree|]. split; [|discriminate].
  apply (ends_freed _ _ _ [QNone] [] (mk_heap 1 [(KRecord, 0)] false)); [discriminate|vm_compute; reflexivity|reflexivity].
Qed.
Print Assumptions C115_empty_component_refuted.
(* A file with 3 bytes of com.apple.decmpfs: asking for its size loses the data stream. *)
Definition fm_short_recs : list TreeSpec.record := [fi_root; fz_child 2 [97] 17; fy_inode 17 0; fy_attr 17 decmpfs_name [102; 112; 109]].
Definition fm_short : fs := one_node fm_short_recs.
Lemma fm_short_tree : fs_tree fx_tie 0 fm_short fm_short_recs.
Proof. one_node_tac fm_short_recs. Qed.
Theorem C115_short_header_refuted : exists (tie : list Z -> list Z -> Prop) h t recs img id l, fs_tree tie h t recs /\
  freed_but t img [PById id; PCall 0 CSize; PFree 0] l /\ l <> [].
Proof.
  exists fx_tie, 0%nat, fm_short, fm_short_recs, fz_dev, 17, [(KStream, 3)]. split; [exact fm_short_tree|]. split; [|discriminate].
  apply (ends_freed _ _ _ [QNew; QEntry RError; QDone] [true] (mk_heap 4 [(KStream, 3)] false)); [discriminate|vm_compute; reflexivity|reflexivity].
Qed.
Print Assumptions C115_short_header_refuted.
(* A compressed file that is read loses the stream of its compressed data. *)
Theorem C115_compressed_refuted : exists (tie : list Z -> list Z -> Prop) h t recs img id l, fs_tree tie h t recs /\
  freed_but t img [PById id; PCall 0 (CRead 2); PFree 0] l /\ l <> [].
Proof.
  exists fx_tie, 0%nat, fi, fi_recs, fz_dev, 17, [(KStream, 5)]. split; [exact fi_tree|]. split; [|discriminate].
  apply (ends_freed _ _ _ [QNew; QEntry (RBytes [97; 98]); QDone] [true] (mk_heap 7 [(KStream, 5)] false)); [discriminate|vm_compute; reflexivity|reflexivity].
Qed.
Print Assumptions C115_compressed_refuted.
(* A snapshot loses its superblock. *)
Theorem C115_snapshot_refuted : exists t img l, freed_but t img [PSnap 0; PFree 0] l /\ l <> [].
Proof.
  exists fi, (vx_dev 50 51), [(KSuper, 1)]. split; [|discriminate].
  assert (E : snapshot_open (vx_dev 50 51) fm_v 0 = Ok (vcontents vx5)).
  { apply (C64_snapshot_opens_own_superblock_partial _ _ [sx5; sx9] 0 sx5); [reflexivity|reflexivity|lia|cbn; lia|]. split; [cbn; lia|]. split; [reflexivity|exact vx5_ok]. }
  unfold freed_but. exists [QNew; QDone], (mk_prog (mk_heap 2 [(KSuper, 1)] false) [OFreed]). split; [|split; [repeat constructor|reflexivity]].
  cbn [psteps pstep p_heap]. unfold snap_m, onM, orelse, bindM, retM. rewrite E. reflexivity.
Qed.
Print Assumptions C115_snapshot_refuted.

(* ---- a volume where nothing is lost: root/a/b with an attribute, and a symbolic link root/l ---- *)
Definition fm_recs : list TreeSpec.record :=
  [fi_root; fz_child 2 [97] 16; fz_child 2 [108] 18; fy_inode 16 0; fz_child 16 [98] 17; fy_inode 17 0; fy_attr 17 [120] [1; 2; 3]; fy_inode 18 0; fy_attr 18 symlink_name [116; 0]].
Definition fm : fs := one_node fm_recs.
Lemma fm_tree : fs_tree fx_tie 0 fm fm_recs.
Proof. one_node_tac fm_recs. Qed.
Definition fm_calls : list pcall :=
  [PByPath false [47; 97]; PSub 0 0; PCall 1 (CRead 5); PAttr 1 0; PXCall 2 (XRead 2); PSubByName 0 true [98]; PParent 3; PByPath false [47; 108]; PCall 5 CLink; PCall 5 CAttrs;
   PByPath false [47; 122]; PCall 3 CExtents; PSub 0 7; PFree 2; PFree 1; PFree 0; PFree 3; PFree 4; PFree 5].
Lemma fm_none_packed : none_packed fm_recs.
Proof.
  intros id r HI HH.
  assert (C : r = fy_attr 17 [120] [1; 2; 3] \/ r = fy_attr 18 symlink_name [116; 0]).
  { assert (T : kty (fst r) = 4) by (unfold has in HH; lia). cbn [fm_recs In] in HI.
    repeat (destruct HI as [<-|HI]; [first [left; reflexivity|right; reflexivity|exfalso; vm_compute in T; discriminate]|]). destruct HI. }
  destruct C as [-> | ->].
  - assert (id = 17) as -> by (unfold has in HH; change (kid (fst (fy_attr 17 [120] [1; 2; 3]))) with 17 in HH; lia).
    eexists _, [120]. split; [apply fy_attr_rec; [split; [|reflexivity]; vm_compute; discriminate|reflexivity]|]. destruct (fy_ascii [120] eq_refl) as (A & B & C). repeat (split; [assumption|]). discriminate.
  - assert (id = 18) as -> by (unfold has in HH; change (kid (fst (fy_attr 18 symlink_name [116; 0]))) with 18 in HH; lia).
    eexists _, symlink_name. split; [apply fy_attr_rec; [split; [|reflexivity]; vm_compute; discriminate|reflexivity]|]. destruct (fy_ascii symlink_name eq_refl) as (A & B & C). repeat (split; [assumption|]). discriminate.
Qed.
Example C115_instance : fs_tree fx_tie 0 fm fm_recs /\ none_packed fm_recs /\ (forall i, ~ In (PSnap i) fm_calls) /\ (forall c u str, In c fm_calls -> asks_path c u str -> plain_path u str).
Proof.
  split; [exact fm_tree|]. split; [exact fm_none_packed|]. split.
  - intros i HI. cbn [fm_calls In] in HI. repeat (destruct HI as [HI|HI]; [discriminate|]). exact HI.
  - assert (P : forall p : list Z, forallb (fun c => (0 <? c) && (c <? 0x80)) p = true -> (forall a b, p <> a ++ 47 :: 47 :: b) -> plain_path false p /\ plain_path true p).
    { intros p HP HN. destruct (ascii_name p HP) as (F & _).
      assert (E8 : utf8 p = p). { clear - HP. induction p as [|c p IH]; [reflexivity|]. cbn [forallb] in HP. apply andb_true_iff in HP. destruct HP as (H0 & H). unfold utf8 in *. cbn [map concat]. rewrite (IH H). unfold utf8_char. replace (c <? 0x80) with true by lia. reflexivity. }
      assert (E16 : utf16 p = p). { clear - HP. induction p as [|c p IH]; [reflexivity|]. cbn [forallb] in HP. apply andb_true_iff in HP. destruct HP as (H0 & H). unfold utf16 in *. cbn [map concat]. rewrite (IH H). unfold utf16_char. replace (c <? 0x10000) with true by lia. reflexivity. }
      split; exists p; (split; [exact F|split; [exact HN|congruence]]). }
    assert (Q : forall x y : Z, (x <> 47 \/ y <> 47) -> forall a b, [x; y] <> a ++ 47 :: 47 :: b).
    { intros x y HN a b E. destruct a as [|a0 [|a1 [|a2 a]]]; try (cbn in E; discriminate). cbn in E. injection E as -> -> _. lia. }
    assert (R : forall x : Z, forall a b, [x] <> a ++ 47 :: 47 :: b) by (intros x [|a0 [|a1 a]] b E; discriminate).
    intros c u str HI HA. destruct HA as [-> | (k & ->)]; cbn [fm_calls In] in HI; repeat (destruct HI as [HI|HI]; [first [discriminate HI|injection HI; intros; subst; apply P; [reflexivity|first [apply R|apply Q; lia]]]|]); contradiction.
Qed.
Example C115_example : ends_with fm fz_dev fm_calls =
  ([QNew; QNew; QEntry (RBytes []); QNew; QAttr (XBytes [1; 2]); QNew; QNew; QNew; QEntry (RLink (Some [116; 0])); QEntry (RCount 1); QNone; QEntry (RCount 0); QError; QDone; QDone; QDone; QDone; QDone; QDone],
   [true; true; true; true; true; true], mk_heap 26 [] false).
Proof. vm_compute. reflexivity. Qed.
