(* C84 to C87: a mounted volume. *)
From Verif Require Import Base BaseLemmas Name NameSpec NameProofs PropName BTreeSpec BTreeProofs Walk Omap TreeSpec OmapSpec OmapTop PropOmap RecordsSpec Records RecordsProofs FsTree FsSpec FsProofs FsTop FsLookup PropFs
  FsNameSpec FsName FsNameProofs FsNameTop PropFsName Snapshot FileEntry FileSpec FileProofs FileTop PropFile EntryName EntrySpec PropEntry KeyBag EndSpec EndProofs ToolPath ToolPathSpec ToolPathProofs ToolMount ToolMountProofs ToolExample PropToolPath
  CryptSpec DataSpec Compressed CompressedSpec CompressedTop PropCompressed ToolInfo ToolInfoSpec ToolLine ToolHier PropToolInfo ToolFuse ToolFuseSpec.
Ltac Zify.zify_post_hook ::= Z.div_mod_to_equations.

(* ---- C84: stat ---- *)
Lemma size_of lzvn junk e A f I st pos : follows lzvn junk e A f I -> I st pos -> exists st', entry_size e st = (Ok (len (fl_data f)), st') /\ I st' pos.
Proof.
  intros (_ & HS & _) HI. destruct (HS CSize st pos HI) as (st' & G & I'). cbn [entry_call file_step fst snd] in G, I'. unfold answer_of in G.
  destruct (entry_size e st) as ([n| | |] & s) eqn:E; try discriminate. exists s. assert (n = len (fl_data f) /\ s = st') as (-> & ->) by (split; congruence). split; [reflexivity|exact I'].
Qed.
(* What the mount shows of a file: the conditions, and the result *)
Definition showable (f : file) (i : inode) : Prop :=
  fl_link f = None /\ len (fl_data f) < 2 ^ 63 /\ Forall (fun x => 0 <= x < 2 ^ 63) [in_access i; in_changed i; in_mtime i] /\
  (Z.land (in_mode i) 0xf000 = 0x4000 \/ Z.land (in_mode i) 0x4000 = 0 /\ in_links i = 1).
Lemma seconds_ok x : 0 <= x < 2 ^ 63 -> seconds_of x (Z.quot (s64 x) 1000000000).
Proof. intros H. exists x. split; [lia|]. split; [rewrite Z.mod_small by lia; reflexivity|]. unfold s64. replace (x <? 2 ^ 63) with true by lia. apply Z.quot_div_nonneg; lia. Qed.
Lemma land_part m a b : Z.land a b = a -> Z.land (Z.land m b) a = Z.land m a.
Proof. intros E. rewrite <- Z.land_assoc. f_equal. rewrite Z.land_comm. exact E. Qed.
Lemma entry_stat_ok lzvn junk e A f I st pos : follows lzvn junk e A f I -> I st pos -> showable f (fe_inode e) ->
  exists s st', entry_stat e st = (Ok s, st') /\ I st' pos /\ posix_stat f (fe_inode e) s.
Proof.
  intros HF HI (NL & LS & HT & HM). destruct (size_of lzvn junk e A f I st pos HF HI) as (st' & G & I'). unfold entry_stat. rewrite (bindM_ok _ _ _ _ _ G). unfold retM, stat_info.
  replace (len (fl_data f) <=? 2 ^ 63 - 1) with true by lia. cbn [check bind]. eexists _, st'. split; [reflexivity|]. split; [exact I'|]. set (m := in_mode (fe_inode e)) in *.
  assert (MM : mount_mode m = m).
  { unfold mount_mode. assert (E : Z.land m 0xf000 =? 0xe000 = false); [|rewrite E; reflexivity]. apply Z.eqb_neq. intros E. destruct HM as [HM|(HM & _)]; [rewrite HM in E; discriminate|].
    pose proof (land_part m 0x4000 0xf000 eq_refl) as Q. rewrite E in Q. rewrite HM in Q. discriminate. }
  rewrite MM. unfold posix_stat. cbn [sb_size sb_mode sb_links sb_atime sb_ctime sb_mtime]. fold m.
  split; [reflexivity|]. split; [intros w (_ & _ & W); rewrite NL in W; discriminate|]. split; [reflexivity|]. split.
  - intros ND. destruct HM as [HM|(HM & HL)]; [contradiction|]. rewrite HM. change (0 =? 0) with true. cbv iota. symmetry. exact HL.
  - pose proof (Forall_inv HT) as T1. pose proof (Forall_inv (Forall_inv_tail HT)) as T2. pose proof (Forall_inv (Forall_inv_tail (Forall_inv_tail HT))) as T3. cbn beta in T1, T2, T3.
    split; [apply seconds_ok, T1|]. split; [apply seconds_ok, T2|apply seconds_ok, T3].
Qed.
Lemma located_ok bad t dev ctx fold p text id i d : mount_open bad t fold p = Ok (Some (text, (id, i, d))) -> located bad t dev ctx fold p = Ok (Some (mk_fe t dev ctx id i d)).
Proof. intros E. unfold located. rewrite E. reflexivity. Qed.
(* getattr of a path that opens (C75) a file (C66). *)
Theorem C84_getattr_partial : forall (tie : list Z -> list Z -> Prop) h t recs dev ctx block lzvn bad fold p text id i d r l f,
  (forall a b c, tie a b -> tie b c -> tie a c) -> fs_tree tie h t recs -> 0 <= id < 2 ^ 60 -> In r recs -> has 3 id r = true ->
  volume_data dev ctx block -> is_file lzvn block recs id i l f ->
  mount_open bad t fold p = Ok (Some (text, (id, i, d))) -> showable f i ->
  exists s, fuse_getattr bad t dev ctx fold p = Ok (inl s) /\ posix_stat f i s.
Proof.
  intros tie h t recs dev ctx block lzvn bad fold p text id i d r l f H1 H2 H3 H4 H5 H6 H8 HO HS.
  destruct (file_entry_follows tie h t recs dev ctx block lzvn (fun _ s => s) id i d r l f H1 H2 H3 H4 H5 H6 ltac:(reflexivity) H8) as (I & HI).
  destruct (entry_stat_ok _ _ _ _ _ _ f_init 0 HI (proj1 HI) HS) as (s & st & G & _ & P). exists s. split; [|exact P].
  unfold fuse_getattr, with_entry. rewrite (located_ok _ _ dev ctx _ _ _ _ _ _ HO). cbn [bind]. rewrite G. reflexivity.
Qed.
Print Assumptions C84_getattr_partial.
(* Sizes that stat cannot hold are never given, whatever the volume says; the kind 0xe is shown as a
   regular file with the same permissions. *)
Theorem C84_size_fits : forall bad t dev ctx fold p s, fuse_getattr bad t dev ctx fold p = Ok (inl s) -> sb_size s < 2 ^ 63.
Proof.
  intros bad t dev ctx fold p s. unfold fuse_getattr, with_entry. destruct (located bad t dev ctx fold p) as [[e|]| | |]; cbn [bind]; try discriminate.
  unfold entry_stat, bindM, retM, stat_info. destruct (entry_size e f_init) as ([n| | |], st); cbn [fst or_errno]; try discriminate.
  destruct (n <=? 2 ^ 63 - 1) eqn:C; cbn [check bind or_errno]; [|discriminate]. intros [= <-]. cbn [sb_size]. lia.
Qed.
Print Assumptions C84_size_fits.
Theorem C84_kind : forall m, 0 <= m < 65536 -> (m / 4096 = 14 -> mount_mode m = 0x8000 + m mod 4096) /\ (m / 4096 <> 14 -> mount_mode m = m).
Proof.
  intros m M. unfold mount_mode. rewrite land_type by exact M. split; intros H.
  - rewrite H. change (14 * 4096 =? 0xe000) with true. cbv iota. change 0xfff with (Z.ones 12). rewrite Z.land_ones by lia. change (2 ^ 12) with 4096.
    rewrite Z.lor_comm. change 0x8000 with (Z.shiftl 8 12). rewrite lor_shift_add; [lia|lia|change (2 ^ 12) with 4096; lia].
  - replace (m / 4096 * 4096 =? 0xe000) with false by lia. reflexivity.
Qed.
Print Assumptions C84_kind.
Definition got {A} (r : res (A + errno)) : option A := match r with Ok (inl a) => Some a | _ => None end.
Lemma got_some {A} (r : res (A + errno)) a : got r = Some a -> r = Ok (inl a).
Proof. destruct r as [[x|x]| | |]; cbn [got]; congruence. Qed.
(* the file b in the directory a *)
Example C84_example : got (fuse_getattr (fun _ => None) fi fz_dev None true [47; 97; 47; 98]) = Some (mk_stat 2 0x81a4 1 0 0 0).
Proof. vm_compute. reflexivity. Qed.
(* /a/b is opened as file 17, which C77_instance describes. *)
Example C84_instance : (exists text d, mount_open (fun _ => None) fi true [47; 97; 47; 98] = Ok (Some (text, (17, fy_value (fy_inode 17 0), d)))) /\ showable (mk_file [97; 98] [] 1 None) (fy_value (fy_inode 17 0)).
Proof.
  split; [eexists _, _; vm_compute; reflexivity|]. split; [reflexivity|]. split; [reflexivity|]. split; [|right; vm_compute; auto].
  repeat (apply Forall_cons; [vm_compute; split; [discriminate|reflexivity]|]). apply Forall_nil.
Qed.
(* The full statement is false for symbolic links, whose size is 0, *)
Theorem C84_link_size_refuted : exists (tie : list Z -> list Z -> Prop) h t recs dev block lzvn bad fold p text id i d l f w s,
  (forall a b c, tie a b -> tie b c -> tie a c) /\ fs_tree tie h t recs /\ inode_is recs id (Some i) /\ volume_data dev None block /\ is_file lzvn block recs id i l f /\
  mount_open bad t fold p = Ok (Some (text, (id, i, d))) /\ target_is f w /\ w <> [] /\
  fuse_getattr bad t dev None fold p = Ok (inl s) /\ sb_size s = 0 /\ ~ posix_stat f i s.
Proof.
  exists fx_tie, 0%nat, fk, fk_recs, fz_dev, (plain_block fz_dev), no_lzvn, (fun _ => None), true, [47; 108], [108], 18, (fy_value (fy_inode 18 0)), (Some (fz_rec [108] 18)).
  eexists _, _. exists fk_target, (mk_stat 0 0x81a4 1 0 0 0). split; [unfold fx_tie; intros; lia|]. split; [exact fk_tree|].
  split; [apply volume_inode; [unfold fk_recs; cbn [In]; tauto|vm_compute; reflexivity|lia|vm_compute; reflexivity]|]. split; [apply vd_plain|]. split; [exact fk_file|].
  split; [vm_compute; reflexivity|].
  assert (T : target_is (mk_file [] [] 1 (Some (fk_target ++ [0]))) fk_target).
  { destruct (fy_ascii fk_target eq_refl) as (A & B & C). split; [exact A|]. split; [exact C|]. vm_compute. reflexivity. }
  split; [exact T|]. split; [discriminate|]. split; [apply got_some; vm_compute; reflexivity|]. split; [reflexivity|]. intros (_ & X & _). specialize (X _ T). vm_compute in X. discriminate.
Qed.
Print Assumptions C84_link_size_refuted.
(* and for times before 1970, which are rounded up, and numbers of links, which are 1 or 2: the file
   of an inode with two names and a time one nanosecond before 1970. *)
Definition fo_stored : stored_inode := {|
  st_parent_id := 2; st_private_id := 16; st_create_time := 2 ^ 64 - 1; st_mod_time := 2 ^ 64 - 1; st_change_time := 13; st_access_time := 14;
  st_internal_flags := 0; st_nlink := 2; st_protection_class := 0; st_write_generation := 0; st_bsd_flags := 0;
  st_uid := 501; st_gid := 20; st_mode := 33188; st_pad1 := 0; st_pad2 := 0 |}.
Definition fo_inode : TreeSpec.record := (RecordsSpec.key_head 3 16, inode_value_bytes fo_stored 40 true [(8, 0, le_enc 8 0 ++ zeros 32)]).
Definition fo_recs : list TreeSpec.record := [fi_root; fz_child 2 [97; 98] 16; fz_child 2 [99; 100] 16; fo_inode].
Definition fo : fs := one_node fo_recs.
Lemma fo_tree : fs_tree fx_tie 0 fo fo_recs.
Proof. one_node_tac fo_recs. Qed.
Lemma fo_file : is_file no_lzvn (plain_block fz_dev) fo_recs 16 (fy_value fo_inode) [] (mk_file [] [] 0 None).
Proof.
  apply plain_empty; [lia|vm_compute; reflexivity..|]. exists fi_root. split; [left; reflexivity|]. left. vm_compute. reflexivity.
Qed.
Theorem C84_times_refuted : exists (tie : list Z -> list Z -> Prop) h t recs dev block lzvn bad fold p text id i d l f s,
  (forall a b c, tie a b -> tie b c -> tie a c) /\ fs_tree tie h t recs /\ inode_is recs id (Some i) /\ volume_data dev None block /\ is_file lzvn block recs id i l f /\
  mount_open bad t fold p = Ok (Some (text, (id, i, d))) /\ fl_link f = None /\
  fuse_getattr bad t dev None fold p = Ok (inl s) /\ ~ seconds_of (in_mtime i) (sb_mtime s) /\ in_links i = 2 /\ sb_links s = 1.
Proof.
  exists fx_tie, 0%nat, fo, fo_recs, fz_dev, (plain_block fz_dev), no_lzvn, (fun _ => None), true, [47; 97; 98], [97; 98], 16, (fy_value fo_inode), (Some (fz_rec [97; 98] 16)).
  eexists _, _. exists (mk_stat 0 0x81a4 1 0 0 0). split; [unfold fx_tie; intros; lia|]. split; [exact fo_tree|].
  split; [apply volume_inode; [unfold fo_recs; cbn [In]; tauto|vm_compute; reflexivity|lia|vm_compute; reflexivity]|]. split; [apply vd_plain|]. split; [exact fo_file|].
  split; [vm_compute; reflexivity|]. split; [reflexivity|]. split; [apply got_some; vm_compute; reflexivity|]. split; [|vm_compute; auto].
  assert (E : in_mtime (fy_value fo_inode) = 2 ^ 64 - 1) by (vm_compute; reflexivity). rewrite E. clear E. cbn [sb_mtime]. intros (x & X1 & X2 & X3). lia.
Qed.
Print Assumptions C84_times_refuted.

(* ---- C85: the bytes of a file, the target of a link ---- *)
Theorem C85_read_partial : forall (tie : list Z -> list Z -> Prop) h t recs dev ctx block lzvn junk bad fold p text id i d r l f reads,
  (forall a b c, tie a b -> tie b c -> tie a c) -> fs_tree tie h t recs -> 0 <= id < 2 ^ 60 -> In r recs -> has 3 id r = true ->
  volume_data dev ctx block -> (forall d s, len (junk d s) = len s) -> is_file lzvn block recs id i l f ->
  mount_open bad t fold p = Ok (Some (text, (id, i, d))) -> Forall (fun q => 0 <= fst q < 2 ^ 31 /\ 0 <= snd q) reads ->
  fuse_file lzvn junk bad t dev ctx fold p reads = Ok (inl (map (fun q => inl (slice (fl_data f) (snd q) (Z.min (fst q) (len (fl_data f) - snd q)))) reads)).
Proof.
  intros tie h t recs dev ctx block lzvn junk bad fold p text id i d r l f reads H1 H2 H3 H4 H5 H6 H7 H8 HO HR.
  destruct (file_entry_follows tie h t recs dev ctx block lzvn junk id i d r l f H1 H2 H3 H4 H5 H6 H7 H8) as (I & HI).
  unfold fuse_file, with_entry. rewrite (located_ok _ _ dev ctx _ _ _ _ _ _ HO). cbn [bind].
  assert (X : forall st pos, I st pos -> fuse_reads lzvn junk (mk_fe t dev ctx id i d) reads st = Ok (map (fun q => inl (slice (fl_data f) (snd q) (Z.min (fst q) (len (fl_data f) - snd q)))) reads)); [|rewrite (X f_init 0 (proj1 HI)); reflexivity].
  destruct HI as (_ & HS & _). clear - HS HR. induction reads as [|(n & off) reads IH]; intros st pos HI; cbn [fuse_reads map]; [reflexivity|].
  pose proof (Forall_inv HR) as (R1 & R2). cbn [fst snd] in R1, R2. unfold fuse_read. replace (2 ^ 31 - 1 <? n) with false by lia.
  destruct (HS (CReadAt off n) st pos HI) as (st' & G & I'). rewrite G. cbn [bind file_step] in *. replace ((0 <=? off) && (0 <=? n) && (n <=? 2 ^ 63 - 1)) with true in * by lia. cbn [fst snd] in *.
  rewrite (IH (Forall_inv_tail HR) st' _ I'). reflexivity.
Qed.
Print Assumptions C85_read_partial.
Example C85_example : got (fuse_file no_lzvn no_junk (fun _ => None) fi fz_dev None true [47; 97; 47; 98] [(9, 0); (1, 1); (4, 7)]) = Some [inl [97; 98]; inl [98]; inl []].
Proof. vm_compute. reflexivity. Qed.
Theorem C85_readlink_partial : forall (tie : list Z -> list Z -> Prop) h t recs dev ctx block lzvn bad fold p text id i d r l f s size,
  (forall a b c, tie a b -> tie b c -> tie a c) -> fs_tree tie h t recs -> 0 <= id < 2 ^ 60 -> In r recs -> has 3 id r = true ->
  volume_data dev ctx block -> is_file lzvn block recs id i l f -> mount_open bad t fold p = Ok (Some (text, (id, i, d))) ->
  target_is f s -> fuse_readlink bad t dev ctx fold p size = Ok (if len (utf8 s) <? size then inl (utf8 s) else inr EIO).
Proof.
  intros tie h t recs dev ctx block lzvn bad fold p text id i d r l f s size H1 H2 H3 H4 H5 H6 H8 HO (T1 & T2 & T3).
  destruct (file_entry_follows tie h t recs dev ctx block lzvn (fun _ s => s) id i d r l f H1 H2 H3 H4 H5 H6 ltac:(reflexivity) H8) as (I & HI).
  unfold fuse_readlink, with_entry. rewrite (located_ok _ _ dev ctx _ _ _ _ _ _ HO). cbn [bind]. destruct HI as (I0 & HS & _). destruct (HS CLink f_init 0 I0) as (st & G & _). cbn [entry_call file_step fst] in G. unfold answer_of in G.
  destruct (entry_link (mk_fe t dev ctx id i d) f_init) as ([v| | |] & st'); try discriminate. assert (v = Some (utf8 s ++ [0])) as -> by congruence. cbn [bind].
  rewrite (name_text s (utf8 s ++ [0]) T1 (or_intror eq_refl) T2). cbn [bind]. destruct (len (utf8 s) <? size) eqn:C.
  - replace (len (utf8 s) + 1 <=? size) with true by lia. cbn [check bind]. rewrite c_string_utf8 by exact T1. reflexivity.
  - replace (len (utf8 s) + 1 <=? size) with false by lia. reflexivity.
Qed.
Print Assumptions C85_readlink_partial.
Example C85_link_example : got (fuse_readlink (fun _ => None) fk fz_dev None true [47; 108] 9) = Some fk_target /\ fuse_readlink (fun _ => None) fk fz_dev None true [47; 108] 8 = Ok (inr EIO).
Proof. vm_compute. auto. Qed.
(* The full statement is false: a target that does not fit is an error, and not cut to the size of the
   buffer. *)
Theorem C85_readlink_refuted : exists (tie : list Z -> list Z -> Prop) h t recs dev block lzvn bad fold p text id i d l f s size,
  (forall a b c, tie a b -> tie b c -> tie a c) /\ fs_tree tie h t recs /\ inode_is recs id (Some i) /\ volume_data dev None block /\ is_file lzvn block recs id i l f /\
  mount_open bad t fold p = Ok (Some (text, (id, i, d))) /\ target_is f s /\ 0 < size <= len (utf8 s) /\ fuse_readlink bad t dev None fold p size = Ok (inr EIO).
Proof.
  exists fx_tie, 0%nat, fk, fk_recs, fz_dev, (plain_block fz_dev), no_lzvn, (fun _ => None), true, [47; 108], [108], 18, (fy_value (fy_inode 18 0)), (Some (fz_rec [108] 18)).
  eexists _, _. exists fk_target, 8. split; [unfold fx_tie; intros; lia|]. split; [exact fk_tree|].
  split; [apply volume_inode; [unfold fk_recs; cbn [In]; tauto|vm_compute; reflexivity|lia|vm_compute; reflexivity]|]. split; [apply vd_plain|]. split; [exact fk_file|].
  split; [vm_compute; reflexivity|]. split; [destruct (fy_ascii fk_target eq_refl) as (A & B & C); split; [exact A|]; split; [exact C|vm_compute; reflexivity]|].
  split; [vm_compute; split; [reflexivity|discriminate]|]. exact (proj2 C85_link_example).
Qed.
Print Assumptions C85_readlink_refuted.

(* ---- C86: extended attributes ---- *)
Lemma attrs_again e st A st' : get_attrs e st = (Ok A, st') -> get_attrs e st' = (Ok A, st').
Proof.
  unfold get_attrs. destruct (f_attrs st) as [a|] eqn:E; [intros H; assert (st' = st) as -> by congruence; rewrite E; exact H|].
  unfold onM, bindM, retM. destruct (let! l := fs_attrs (fe_tree e) (fe_id e) in classify l (mk_fa l None None None)) as [a| | |]; try discriminate. intros H. assert (a = A) as -> by congruence. assert (st' = set_attrs st A) as -> by congruence. reflexivity.
Qed.
Lemma names_app a b : names_of (a ++ b) = names_of a ++ names_of b.
Proof. unfold names_of. rewrite map_app. apply concat_app. Qed.
Section Listing.
  Variables (e : fentry) (A : fattrs) (l : list (attr * list Z)).
  Hypothesis HA : fa_all A = map fst l.
  Hypothesis HN : Forall (fun p => attr_text (fst p) = Ok (snd p)) l.
  Lemma list_names_ok size : forall rest pre st, l = pre ++ rest -> get_attrs e st = (Ok A, st) ->
    list_names (length rest) e (len pre) size (names_of pre) st = if (size =? 0) || (match rest with [] => true | _ => len (names_of l) <=? size end) then Ok (names_of l) else Fail.
  Proof.
    induction rest as [|(a & s) rest IH]; intros pre st E G; cbn [list_names length].
    - rewrite app_nil_r in E. subst pre. rewrite orb_true_r. reflexivity.
    - unfold entry_attr. rewrite (bindM_ok _ _ _ _ _ G). unfold retM. rewrite HA. rewrite len_map. pose proof (len_nonneg pre) as LP.
      assert (LL : len pre < len l) by (rewrite E, len_app, len_cons; pose proof (len_nonneg rest); lia). replace ((0 <=? len pre) && (len pre <? len l)) with true by lia.
      assert (GB : getb (map fst l) (len pre) = Ok a).
      { unfold getb. rewrite len_map. replace ((0 <=? len pre) && (len pre <? len l)) with true by lia. rewrite E, map_app. rewrite nth_error_app2 by (rewrite map_length; unfold len; lia). rewrite map_length. unfold len. rewrite Nat2Z.id, Nat.sub_diag. reflexivity. }
      rewrite GB. cbn [bind]. assert (NT : attr_text a = Ok s).
      { rewrite Forall_forall in HN. apply (HN (a, s)). rewrite E. apply in_or_app. right. left. reflexivity. }
      rewrite NT. cbn [bind]. assert (NE : names_of (pre ++ [(a, s)]) = names_of pre ++ utf8 s ++ [0]) by (rewrite names_app; f_equal; unfold names_of; cbn [map concat snd]; apply app_nil_r).
      assert (TL : names_of l = names_of (pre ++ [(a, s)]) ++ names_of rest) by (rewrite E, <- names_app, <- app_assoc; reflexivity).
      assert (LN : len (names_of (pre ++ [(a, s)])) = len (names_of pre) + len (utf8 s) + 1) by (rewrite NE, !len_app; change (len [0]) with 1; lia).
      specialize (IH (pre ++ [(a, s)]) st ltac:(rewrite <- app_assoc; exact E) G). rewrite NE in IH. rewrite len_app in IH. change (len [(a, s)]) with 1 in IH.
      destruct (size =? 0) eqn:S0; cbn [orb check bind] in *; [exact IH|].
      pose proof (len_nonneg (names_of rest)) as LR. assert (LT : len (names_of l) = len (names_of pre) + len (utf8 s) + 1 + len (names_of rest)) by (rewrite TL, len_app, LN; reflexivity).
      destruct (len (utf8 s) + 1 <=? size - len (names_of pre)) eqn:C; cbn [check bind].
      + rewrite IH. destruct rest as [|q rest]; [|reflexivity]. change (len (names_of [])) with 0 in LT. replace (len (names_of l) <=? size) with true by lia. reflexivity.
      + replace (len (names_of l) <=? size) with false by lia. reflexivity.
  Qed.
End Listing.
Lemma follows_attrs (tie : list Z -> list Z -> Prop) h t recs dev ctx block lzvn id i d r l f :
  (forall a b c, tie a b -> tie b c -> tie a c) -> fs_tree tie h t recs -> 0 <= id < 2 ^ 60 -> In r recs -> has 3 id r = true ->
  volume_data dev ctx block -> is_file lzvn block recs id i l f -> exists A st, get_attrs (mk_fe t dev ctx id i d) f_init = (Ok A, st) /\ fa_all A = map fst l.
Proof.
  intros H1 H2 H3 H4 H5 H6 H8. destruct (file_entry_follows tie h t recs dev ctx block lzvn (fun _ s => s) id i d r l f H1 H2 H3 H4 H5 H6 ltac:(reflexivity) H8) as (I & I0 & _ & _ & HG).
  destruct (HG f_init 0 I0) as (st & G). eexists _, st. split; [exact G|reflexivity].
Qed.
(* The names are listed one after another, each with an end-of-string character. *)
Theorem C86_listxattr_partial : forall (tie : list Z -> list Z -> Prop) h t recs dev ctx block lzvn bad fold p text id i d r l f size,
  (forall a b c, tie a b -> tie b c -> tie a c) -> fs_tree tie h t recs -> 0 <= id < 2 ^ 60 -> In r recs -> has 3 id r = true ->
  volume_data dev ctx block -> is_file lzvn block recs id i l f -> mount_open bad t fold p = Ok (Some (text, (id, i, d))) ->
  size = 0 \/ len (names_of l) <= size < 2 ^ 31 ->
  fuse_listxattr bad t dev ctx fold p size = Ok (sized (names_of l) size).
Proof.
  intros tie h t recs dev ctx block lzvn bad fold p text id i d r l f size H1 H2 H3 H4 H5 H6 H8 HO HS. destruct (follows_attrs tie h t recs dev ctx block lzvn id i d r l f H1 H2 H3 H4 H5 H6 H8) as (A & st & G & GA).
  pose proof (len_nonneg (names_of l)) as LN. unfold fuse_listxattr. replace (2 ^ 31 - 1 <? size) with false by lia. unfold with_entry. rewrite (located_ok _ _ dev ctx _ _ _ _ _ _ HO). cbn [bind]. unfold entry_attrs. rewrite (bindM_ok _ _ _ _ _ G). unfold retM. cbn [bind]. rewrite GA, len_map.
  assert (HN : Forall (fun p => attr_text (fst p) = Ok (snd p)) l).
  { destruct H8 as ((F & _) & _). eapply forall2_right; [exact F|]. intros x q (_ & Q1 & Q2 & Q3). unfold attr_text. apply name_text; assumption. }
  pose proof (list_names_ok _ A l GA HN size l [] st eq_refl (attrs_again _ _ _ _ G)) as X. change (len (@nil (attr * list Z))) with 0 in X. change (names_of []) with (@nil Z) in X.
  unfold len at 1. rewrite Nat2Z.id. rewrite X. unfold sized. destruct (size =? 0) eqn:S0; cbn [orb].
  - reflexivity.
  - assert (LE : (len (names_of l) <=? size) = true) by lia. destruct l as [|q l]; [rewrite LE; reflexivity|]. rewrite LE. reflexivity.
Qed.
Print Assumptions C86_listxattr_partial.
(* The value of an attribute with a name, and that there is none. *)
Theorem C86_getxattr_partial : forall (tie : list Z -> list Z -> Prop) h t recs dev ctx block lzvn bad fold p text id i d r l f s size,
  (forall a b c, tie a b -> tie b c -> tie a c) -> fs_tree tie h t recs -> 0 <= id < 2 ^ 60 -> In r recs -> has 3 id r = true ->
  volume_data dev ctx block -> is_file lzvn block recs id i l f -> mount_open bad t fold p = Ok (Some (text, (id, i, d))) ->
  file_name s -> 0 <= size < 2 ^ 31 ->
  (attr_named s l = None -> fuse_getxattr bad t dev ctx fold p (utf8 s) size = Ok (inr ENODATA)) /\
  (forall a v, attr_named s l = Some a -> attr_holds block recs a v -> len v < 2 ^ 31 -> fuse_getxattr bad t dev ctx fold p (utf8 s) size = Ok (sized v size)).
Proof.
  intros tie h t recs dev ctx block lzvn bad fold p text id i d r l f s size H1 H2 H3 H4 H5 H6 H8 HO HN HS.
  pose proof (C67_extended_attributes_partial tie h t recs dev ctx block lzvn (fun _ s => s) id i d r l f [] [] f_init H1 H2 H3 H4 H5 H6 ltac:(reflexivity) H8 eq_refl) as (X1 & _ & _ & X4).
  unfold fuse_getxattr. replace (2 ^ 31 - 1 <? size) with false by lia. unfold with_entry. rewrite (located_ok _ _ dev ctx _ _ _ _ _ _ HO). cbn [bind]. rewrite (X1 s (utf8 s) HN (or_introl eq_refl)). split.
  - intros ->. reflexivity.
  - intros a v N V L. rewrite N. apply named_in in N. destruct (X4 _ v N V) as (Y1 & y & Y2 & Y3). cbn [fst] in Y1, Y2. rewrite Y1. unfold sized. pose proof (len_nonneg v). replace (2 ^ 31 - 1 <? len v) with false by lia.
    destruct (size =? 0) eqn:S0; [reflexivity|]. destruct (size <? len v) eqn:C; [replace (len v <=? size) with false by lia; reflexivity|]. replace (len v <=? size) with true by lia.
    rewrite Y2. cbn [bind]. rewrite Y3 by lia. cbn [bind or_errno]. replace (Z.min size (len v - 0)) with (len v) by lia. rewrite slice_0_all. reflexivity.
Qed.
Print Assumptions C86_getxattr_partial.
Example C86_example : got (fuse_listxattr (fun _ => None) fi fz_dev None true [47; 97; 47; 98] 17) = None /\
  got (fuse_listxattr (fun _ => None) fi fz_dev None true [47; 97; 47; 98] 0) = Some (18, []) /\
  got (fuse_listxattr (fun _ => None) fi fz_dev None true [47; 97; 47; 98] 18) = Some (18, decmpfs_name ++ [0]) /\
  got (fuse_getxattr (fun _ => None) fi fz_dev None true [47; 97; 47; 98] decmpfs_name 100) = Some (19, fy_raw) /\
  fuse_getxattr (fun _ => None) fi fz_dev None true [47; 97; 47; 98] decmpfs_name 18 = Ok (inr ERANGE) /\
  fuse_getxattr (fun _ => None) fi fz_dev None true [47; 97; 47; 98] [120] 18 = Ok (inr ENODATA).
Proof. vm_compute. repeat split. Qed.
(* The full statement is false: a list that does not fit is an error of the device. *)
Theorem C86_listxattr_refuted : exists (tie : list Z -> list Z -> Prop) h t recs dev block lzvn bad fold p text id i d l f size,
  (forall a b c, tie a b -> tie b c -> tie a c) /\ fs_tree tie h t recs /\ inode_is recs id (Some i) /\ volume_data dev None block /\ is_file lzvn block recs id i l f /\
  mount_open bad t fold p = Ok (Some (text, (id, i, d))) /\ sized (names_of l) size = inr ERANGE /\ fuse_listxattr bad t dev None fold p size = Ok (inr EIO).
Proof.
  exists fx_tie, 0%nat, fi, fi_recs, fz_dev, (plain_block fz_dev), no_lzvn, (fun _ => None), true, [47; 97; 47; 98], [98], 17, (fy_value (fy_inode 17 0)), (Some (fz_rec [98] 17)).
  eexists _, _. exists 17. split; [unfold fx_tie; intros; lia|]. split; [exact fi_tree|].
  split; [apply volume_inode; [unfold fi_recs; cbn [In]; tauto|vm_compute; reflexivity|lia|vm_compute; reflexivity]|]. split; [apply vd_plain|]. split; [exact C77_instance|].
  split; [vm_compute; reflexivity|]. split; vm_compute; reflexivity.
Qed.
Print Assumptions C86_listxattr_refuted.

(* ---- C87: directories ---- *)
(* Object id is a file that the mount shows: its inode is v. *)
Definition shown_object (lzvn : list Z -> Z -> res (list Z)) (block : extent -> Z -> list Z -> Prop) (recs : list TreeSpec.record) (id : Z) (v : inode) (f : file) : Prop :=
  0 <= id < 2 ^ 60 /\ (exists r, In r recs /\ has 3 id r = true) /\ (exists l, is_file lzvn block recs id v l f) /\ showable f v.
Lemma keeps_bind {A B} (m : M fstate A) (k : A -> M fstate B) :
  (forall st, f_dir (snd (m st)) = f_dir st) -> (forall a st, f_dir (snd (k a st)) = f_dir st) -> forall st, f_dir (snd (bindM m k st)) = f_dir st.
Proof. intros H1 H2 st. unfold bindM. specialize (H1 st). destruct (m st) as ([a| | |] & st'); cbn [snd] in *; try exact H1. rewrite H2. exact H1. Qed.
Lemma stat_keeps_dir e st : f_dir (snd (entry_stat e st)) = f_dir st.
Proof.
  unfold entry_stat. apply keeps_bind; [|reflexivity]. clear st. intros st. unfold entry_size, need_size. destruct (f_size st =? unset); [|reflexivity]. revert st. apply keeps_bind; [|reflexivity].
  intros st. unfold get_data_size. destruct (f_header st); [reflexivity|]. revert st. apply keeps_bind.
  - intros st. unfold get_attrs. destruct (f_attrs st); [reflexivity|]. revert st. apply keeps_bind; reflexivity.
  - intros a. destruct (fa_comp a) as [x|]; [|reflexivity]. apply keeps_bind; [reflexivity|]. intros [(m & z)|] st; reflexivity.
Qed.
Lemma shown_stat (tie : list Z -> list Z -> Prop) h t recs dev ctx block lzvn id v d f :
  (forall a b c, tie a b -> tie b c -> tie a c) -> fs_tree tie h t recs -> volume_data dev ctx block -> shown_object lzvn block recs id v f ->
  exists s st, entry_stat (mk_fe t dev ctx id v d) f_init = (Ok s, st) /\ f_dir st = None /\ posix_stat f v s.
Proof.
  intros H1 H2 H6 (H3 & (r & H4 & H5) & (l & H8) & HS).
  destruct (file_entry_follows tie h t recs dev ctx block lzvn (fun _ s => s) id v d r l f H1 H2 H3 H4 H5 H6 ltac:(reflexivity) H8) as (I & HI).
  destruct (entry_stat_ok _ _ _ _ _ _ f_init 0 HI (proj1 HI) HS) as (s & st & G & _ & P). exists s, st. split; [exact G|]. split; [|exact P].
  pose proof (stat_keeps_dir (mk_fe t dev ctx id v d) f_init) as K. rewrite G in K. exact K.
Qed.
Lemma filename_text e s : entry_text e = Ok s -> file_name s -> s <> [] -> fits (utf8 s) -> mount_filename e = mount_from (utf8 s).
Proof.
  intros ET F N B. unfold mount_filename, entry_name_size, entry_name. rewrite ET. cbn [bind]. pose proof (len_nonneg (utf8 s)). unfold fits in B. unfold ssize_max.
  replace (negb (len (utf8 s) + 1 =? 0) && (len (utf8 s) + 1 <=? 2 ^ 63 - 1)) with true by lia. cbn [check bind]. replace (len (utf8 s) + 1 <=? len (utf8 s) + 1) with true by lia. cbn [check bind].
  rewrite Z.add_simpl_r. rewrite slice_app_l by lia. rewrite slice_0_all. reflexivity.
Qed.
(* The name and the values shown for one entry. *)
Definition listed (t : fs) dev ctx lzvn block (recs : list TreeSpec.record) (p : dentry * list Z) (q : list Z * fstat) : Prop :=
  mount_from (utf8 (snd p)) = Ok (fst q) /\ exists v f, inode_is recs (de_inode (fst p)) (Some v) /\ shown_object lzvn block recs (de_inode (fst p)) v f /\ posix_stat f v (snd q) /\
  fst (entry_stat (mk_fe t dev ctx (de_inode (fst p)) v (Some (fst p))) f_init) = Ok (snd q).
Section Fill.
  Variable tie : list Z -> list Z -> Prop.
  Variables (h : nat) (t : fs) (recs : list TreeSpec.record) (dev : Omap.image) (ctx : option (list Z -> list Z -> list Z)) (block : extent -> Z -> list Z -> Prop) (lzvn : list Z -> Z -> res (list Z)).
  Variables (id : Z) (i : inode) (d : option dentry) (r : TreeSpec.record) (l : list (dentry * list Z)).
  Hypothesis tie_trans : forall a b c, tie a b -> tie b c -> tie a c.
  Hypothesis HT : fs_tree tie h t recs.
  Hypothesis Hid : 0 <= id < 2 ^ 60.
  Hypothesis HI : In r recs.
  Hypothesis HH : has 3 id r = true.
  Hypothesis HD : volume_data dev ctx block.
  Hypothesis HL : entries recs id l.
  Hypothesis HV : forall p, In p l -> snd p <> [] /\ fits (utf8 (snd p)) /\ exists v f, inode_is recs (de_inode (fst p)) (Some v) /\ shown_object lzvn block recs (de_inode (fst p)) v f.
  Lemma entries_name p : In p l -> file_name (snd p) /\ spells (snd p) (de_name (fst p)) /\ hd 0 (snd p) <> 0xfeff.
  Proof.
    intros Ip. assert (F : Forall (fun p => file_name (snd p) /\ spells (snd p) (de_name (fst p)) /\ hd 0 (snd p) <> 0xfeff) l).
    { eapply forall2_right; [exact HL|]. intros x q (_ & Q). exact Q. }
    rewrite Forall_forall in F. exact (F p Ip).
  Qed.
  Lemma dir_fill_ok : forall rest pre st, l = pre ++ rest -> f_dir st = None \/ f_dir st = Some (map fst l) ->
    exists m, dir_fill (length rest) (mk_fe t dev ctx id i d) (len pre) st = Ok m /\ Forall2 (listed t dev ctx lzvn block recs) rest m.
  Proof.
    induction rest as [|(de & s) rest IH]; intros pre st E HS; cbn [dir_fill length]; [exists []; split; [reflexivity|constructor]|].
    assert (Ip : In (de, s) l) by (rewrite E; apply in_or_app; right; left; reflexivity).
    destruct (HV _ Ip) as (NE & FB & v & f & IV & SO). cbn [fst snd] in *. destruct (entries_name _ Ip) as (FN & SP & BM). cbn [fst snd] in *.
    assert (DL : fs_dir t id = Ok (map fst l)) by exact (dir_listed tie h t recs id r l tie_trans HT Hid HI HH HL).
    assert (GB : getb (map fst l) (len pre) = Ok de).
    { unfold getb. rewrite len_map. rewrite E, len_app, len_cons. pose proof (len_nonneg rest). pose proof (len_nonneg pre). replace (_ && _) with true by lia.
      rewrite map_app, nth_error_app2 by (rewrite map_length; unfold len; lia). rewrite map_length. unfold len. rewrite Nat2Z.id, Nat.sub_diag. reflexivity. }
    destruct (sub_call (mk_fe t dev ctx id i d) (map fst l) st (len pre) de (de_inode de, v)) as (st' & S1 & S2).
    - destruct HS as [N|S]; [left; split; [exact N|exact DL]|right; exact S].
    - rewrite len_map, E, len_app, len_cons. pose proof (len_nonneg rest). pose proof (len_nonneg pre). lia.
    - exact GB.
    - cbn [fe_tree]. exact (inode_found tie h t recs _ (Some v) tie_trans HT IV).
    - rewrite S1. cbn [bind fe_tree fe_img fe_ctx fst snd].
      rewrite (filename_text (mk_fe t dev ctx (de_inode de) v (Some de)) s); [|unfold entry_text; cbn [fe_rec]; apply name_text; assumption|assumption..].
      pose proof (mount_from_chars s FN NE FB) as MF. rewrite MF. cbn [bind].
      destruct (shown_stat tie h t recs dev ctx block lzvn (de_inode de) v (Some de) f tie_trans HT HD SO) as (sb & st2 & G & _ & P). rewrite G. cbn [bind fst].
      destruct (IH (pre ++ [(de, s)]) st' ltac:(rewrite <- app_assoc; exact E) (or_intror S2)) as (m & M1 & M2). rewrite len_app in M1. change (len [(de, s)]) with 1 in M1. rewrite M1. cbn [bind].
      eexists. split; [reflexivity|]. constructor; [|exact M2]. split; [exact MF|]. exists v, f. cbn [fst snd]. split; [exact IV|]. split; [exact SO|]. split; [exact P|]. rewrite G. reflexivity.
  Qed.
End Fill.
(* The parent of a directory can be shown: it has a name of its own. *)
Definition named_object (v : inode) : Prop :=
  exists n s, in_name v = Some n /\ file_name s /\ spells s n /\ hd 0 s <> 0xfeff /\ s <> [] /\ fits (utf8 s).
(* readdir of a path that opens a directory: the directory, its parent, and all entries in the order
   of their records, with the names that C74 is about and the values of getattr. *)
Theorem C87_readdir_partial : forall (tie : list Z -> list Z -> Prop) h t recs dev ctx block lzvn bad fold p text id i d f r l,
  (forall a b c, tie a b -> tie b c -> tie a c) -> fs_tree tie h t recs -> volume_data dev ctx block ->
  mount_open bad t fold p = Ok (Some (text, (id, i, d))) -> In r recs -> has 3 id r = true -> shown_object lzvn block recs id i f -> entries recs id l ->
  (forall p, In p l -> snd p <> [] /\ fits (utf8 (snd p)) /\ exists v f, inode_is recs (de_inode (fst p)) (Some v) /\ shown_object lzvn block recs (de_inode (fst p)) v f) ->
  (2 < id -> exists v g, inode_is recs (in_parent i) (Some v) /\ named_object v /\ shown_object lzvn block recs (in_parent i) v g) ->
  exists s u m, fuse_readdir bad t dev ctx fold p = Ok (inl (([46], s) :: ([46; 46], u) :: m)) /\
    posix_stat f i s /\ fuse_getattr bad t dev ctx fold p = Ok (inl s) /\
    (2 < id -> exists v g, inode_is recs (in_parent i) (Some v) /\ shown_object lzvn block recs (in_parent i) v g /\ posix_stat g v u) /\
    (id <= 2 -> u = mk_stat 0 0 1 0 0 0) /\ Forall2 (listed t dev ctx lzvn block recs) l m.
Proof.
  intros tie h t recs dev ctx block lzvn bad fold p text id i d f r l H1 H2 HD HO HI HH SO HL HV HP. pose proof SO as (Hid & _).
  destruct (shown_stat tie h t recs dev ctx block lzvn id i d f H1 H2 HD SO) as (s & st & G & D0 & P).
  assert (HU : exists u, (let! q := entry_parent (mk_fe t dev ctx id i d) in match q with None => stat_info 0 0 0 0 0 | Some x => let! _ := mount_filename x in fst (entry_stat x f_init) end) = Ok u /\
    (2 < id -> exists v g, inode_is recs (in_parent i) (Some v) /\ shown_object lzvn block recs (in_parent i) v g /\ posix_stat g v u) /\
    (id <= 2 -> u = mk_stat 0 0 1 0 0 0)).
  { destruct (id <=? 2) eqn:C.
    - unfold entry_parent. cbn [fe_id]. replace (2 <? id) with false by lia. cbn [bind]. eexists. split; [reflexivity|]. split; [lia|reflexivity].
    - destruct (HP ltac:(lia)) as (v & g & IV & (n & sn & N1 & N2 & N3 & N4 & N5 & N6) & SV). rewrite (C70_parent_partial tie h t recs dev ctx id i d v H1 H2 IV). rewrite C. cbn [bind].
      rewrite (filename_text (mk_fe t dev ctx (in_parent i) v None) sn); [|unfold entry_text; cbn [fe_rec fe_inode]; rewrite N1; apply name_text; assumption|assumption..].
      rewrite (mount_from_chars sn N2 N5 N6). cbn [bind]. destruct (shown_stat tie h t recs dev ctx block lzvn (in_parent i) v None g H1 H2 HD SV) as (u & st2 & GU & _ & PU). rewrite GU.
      exists u. split; [reflexivity|]. split; [intros _; eauto 6|lia]. }
  destruct HU as (u & HU1 & HU2 & HU3).
  destruct (get_dir_ok tie h t recs dev ctx id i d r l H1 H2 Hid HI HH HL st (or_introl D0)) as (st1 & GD & D1).
  destruct (dir_fill_ok tie h t recs dev ctx block lzvn id i d r l H1 H2 Hid HI HH HD HL HV l [] st1 eq_refl (or_intror D1)) as (m & M1 & M2). change (len (@nil (dentry * list Z))) with 0 in M1.
  exists s, u, m. split; [|split; [exact P|split; [|split; [exact HU2|split; [exact HU3|exact M2]]]]].
  - unfold fuse_readdir, with_entry. rewrite (located_ok _ _ dev ctx _ _ _ _ _ _ HO). cbn [bind]. rewrite G. cbn [bind].
    destruct (entry_parent (mk_fe t dev ctx id i d)) as [q| | |]; cbn [bind] in *; try discriminate.
    destruct (match q with None => _ | Some x => _ end) as [u'| | |]; cbn [bind] in *; try discriminate. assert (u' = u) as -> by congruence.
    unfold entry_subs. rewrite (bindM_ok _ _ _ _ _ GD). unfold retM. cbn [bind]. rewrite len_map. unfold len. rewrite Nat2Z.id. rewrite M1. reflexivity.
  - unfold fuse_getattr, with_entry. rewrite (located_ok _ _ dev ctx _ _ _ _ _ _ HO). cbn [bind]. rewrite G. reflexivity.
Qed.
Print Assumptions C87_readdir_partial.
(* getattr of the path of a listed name gives the values that are listed with it: C75 opens the path
   with the record of the entry. *)
Theorem C87_listed_getattr_partial : forall (tie : list Z -> list Z -> Prop) h t recs dev ctx block lzvn hashed fold bad v dirs id e r d s q,
  (forall a b c, tie a b -> tie b c -> tie a c) -> fs_tree tie h t recs -> directories tie hashed fold recs -> inode_is recs 2 (Some v) ->
  leads hashed fold recs 2 None dirs id e -> named hashed fold id recs r d s ->
  Forall (fun s => s <> [] /\ ~ In 47 s) (dirs ++ [s]) -> Forall file_name dirs -> hd 0 s <> 0xfeff -> Forall (fun s => fits (utf8 s)) (dirs ++ [s]) ->
  listed t dev ctx lzvn block recs (d, s) q ->
  exists texts, Forall2 (fun s t => mount_from (utf8 s) = Ok t) dirs texts /\
    (len (path_of (texts ++ [fst q])) < 2 ^ 63 - 1 -> fuse_getattr bad t dev ctx fold (path_of (texts ++ [fst q])) = Ok (inl (snd q))).
Proof.
  intros tie h t recs dev ctx block lzvn hashed fold bad v dirs id e r d s q H1 H2 H3 H4 H5 H6 H8 H9 H10 H11 (Q1 & w & f & Q2 & Q3 & Q4 & Q5). cbn [fst snd] in *.
  destruct (C75_mount_open_partial tie h t recs dev ctx hashed fold bad v dirs id e r d s w H1 H2 H3 H4 H5 H6 Q2 H8 H9 H10 H11) as (texts & text & T1 & T2 & T3). exists texts. split; [exact T1|]. intros L.
  pose proof H6 as (_ & _ & _ & FS & SP & _). apply Forall_app in H8, H11. destruct H8 as (_ & N). destruct H11 as (_ & B).
  rewrite (filename_text (mk_fe t dev ctx (de_inode d) w (Some d)) s) in T2; [|unfold entry_text; cbn [fe_rec]; apply name_text; assumption|assumption|apply (Forall_inv N)|apply (Forall_inv B)].
  assert (text = fst q) as -> by congruence. unfold fuse_getattr, with_entry. rewrite (located_ok _ _ dev ctx _ _ _ _ _ _ (T3 L)). cbn [bind]. rewrite Q5. reflexivity.
Qed.
Print Assumptions C87_listed_getattr_partial.
Example C87_example : option_map (map fst) (got (fuse_readdir (fun _ => None) fi fz_dev None true [47])) = Some [[46]; [46; 46]; [97]; [99; 92; 120; 48; 97; 124; 92; 92]] .
Proof. vm_compute. reflexivity. Qed.
(* the directory a, whose parent has the name root *)
Example C87_example_sub : option_map (map fst) (got (fuse_readdir (fun _ => None) fi fz_dev None true [47; 97])) = Some [[46]; [46; 46]; [98]].
Proof. vm_compute. reflexivity. Qed.
(* C87_readdir_partial applies to it. *)
Lemma fi_showable f id : fl_link f = None -> len (fl_data f) <= 2 -> In id [16; 17] -> showable f (fy_value (fy_inode id 0)).
Proof.
  intros H1 H2 H3. split; [exact H1|]. split; [lia|]. destruct H3 as [<-|[<-|[]]]; (split; [|right; vm_compute; auto]); repeat (apply Forall_cons; [vm_compute; split; [discriminate|reflexivity]|]); apply Forall_nil.
Qed.
Example C87_instance : exists s u m, fuse_readdir (fun _ => None) fi fz_dev None true [47; 97] = Ok (inl (([46], s) :: ([46; 46], u) :: m)) /\ Forall2 (listed fi fz_dev None no_lzvn (plain_block fz_dev) fi_recs) [(fz_rec [98] 17, [98])] m.
Proof.
  assert (NB : forall id, 2 < id -> not_below 8 id fi_recs) by (intros id L; exists fi_root; split; [left; reflexivity|]; left; vm_compute; exact L).
  assert (V17 : inode_is fi_recs 17 (Some (fy_value (fy_inode 17 0)))) by (apply volume_inode; [unfold fi_recs; cbn [In]; tauto|vm_compute; reflexivity|lia|vm_compute; reflexivity]).
  assert (V2 : inode_is fi_recs 2 (Some (fy_value fi_root))) by (apply volume_inode; [unfold fi_recs; cbn [In]; tauto|vm_compute; reflexivity|lia|vm_compute; reflexivity]).
  assert (E : filter (has 9 16) fi_recs = [fz_child 16 [98] 17]) by (vm_compute; reflexivity).
  destruct (C87_readdir_partial fx_tie 0 fi fi_recs fz_dev None (plain_block fz_dev) no_lzvn (fun _ => None) true [47; 97] [97] 16 (fy_value (fy_inode 16 0)) (Some (fz_rec [97] 16)) (mk_file [] [] 0 None) (fy_inode 16 0) [(fz_rec [98] 17, [98])]) as (s & u & m & M1 & _ & _ & _ & _ & M2).
  - unfold fx_tie. intros. lia.
  - exact fi_tree.
  - apply vd_plain.
  - vm_compute. reflexivity.
  - unfold fi_recs. cbn [In]. tauto.
  - vm_compute. reflexivity.
  - split; [lia|]. split; [exists (fy_inode 16 0); split; [unfold fi_recs; cbn [In]; tauto|vm_compute; reflexivity]|]. split; [|apply fi_showable; [reflexivity|vm_compute; discriminate|cbn [In]; tauto]].
    exists []. apply plain_empty; [lia|vm_compute; reflexivity..|]. apply NB. lia.
  - unfold entries. rewrite E. constructor; [|constructor]. cbn [fst snd]. split; [apply fz_dir_rec; [vm_compute; split; discriminate|lia]|]. destruct (fy_ascii [98] eq_refl) as (Y1 & Y2 & Y3). split; [exact Y1|]. split; [right; reflexivity|exact Y3].
  - intros q [<-|[]]. cbn [fst snd fz_rec de_inode]. split; [discriminate|]. split; [vm_compute; reflexivity|]. eexists _, _. split; [exact V17|].
    split; [lia|]. split; [exists (fy_inode 17 0); split; [unfold fi_recs; cbn [In]; tauto|vm_compute; reflexivity]|]. split; [eexists; exact C77_instance|]. apply fi_showable; [reflexivity|vm_compute; discriminate|cbn [In]; tauto].
  - intros _. assert (EP : in_parent (fy_value (fy_inode 16 0)) = 2) by (vm_compute; reflexivity). rewrite EP. exists (fy_value fi_root), (mk_file [] [] 0 None). split; [exact V2|]. split.
    + exists [114; 111; 111; 116; 0], [114; 111; 111; 116]. split; [vm_compute; reflexivity|]. destruct (fy_ascii [114; 111; 111; 116] eq_refl) as (Y1 & Y2 & Y3). split; [exact Y1|]. split; [exact Y2|]. split; [exact Y3|]. split; [discriminate|vm_compute; reflexivity].
    + split; [lia|]. split; [exists fi_root; split; [left; reflexivity|vm_compute; reflexivity]|]. split.
      * exists []. apply plain_empty; [lia|vm_compute; reflexivity..|]. exists fi_root. split; [left; reflexivity|]. right. vm_compute. split; [reflexivity|discriminate].
      * split; [reflexivity|]. split; [vm_compute; reflexivity|]. split; [|right; vm_compute; auto]. repeat (apply Forall_cons; [vm_compute; split; [discriminate|reflexivity]|]); apply Forall_nil.
  - exists s, u, m. split; [exact M1|exact M2].
Qed.
(* The full statement is false: a directory cannot be listed if the inode of its parent has no name,
   as the root directory of fz. *)
Theorem C87_readdir_refuted : exists (tie : list Z -> list Z -> Prop) h t recs dev bad fold p text id i d r l,
  (forall a b c, tie a b -> tie b c -> tie a c) /\ fs_tree tie h t recs /\
  mount_open bad t fold p = Ok (Some (text, (id, i, d))) /\ In r recs /\ has 3 id r = true /\ entries recs id l /\ l <> [] /\
  (forall p, In p l -> snd p <> [] /\ exists v, inode_is recs (de_inode (fst p)) (Some v)) /\
  inode_is recs 2 (Some (fy_value (fy_inode 2 0))) /\ in_parent i = 2 /\ fuse_readdir bad t dev None fold p = Ok (inr EIO).
Proof.
  exists fx_tie, 0%nat, fz, fz_recs, fz_dev, (fun _ => None), true, [47; 99; 100], [99; 100], 18, (fy_value (fy_inode 18 0)), (Some (fz_rec [99; 100] 18)), (fy_inode 18 0), [(fz_rec [120] 17, [120]); (fz_rec [104; 108] 16, [104; 108])].
  split; [unfold fx_tie; intros; lia|]. split; [exact fz_tree|]. split; [vm_compute; reflexivity|]. split; [unfold fz_recs; cbn [In]; tauto|]. split; [vm_compute; reflexivity|].
  split.
  { unfold entries. assert (E : filter (has 9 18) fz_recs = [fz_child 18 [120] 17; fz_child 18 [104; 108] 16]) by (vm_compute; reflexivity). rewrite E. clear E.
    assert (X : forall s k, forallb (fun c => (0 <? c) && (c <? 0x80)) s = true -> 1 <= len (utf8 s) <= 1022 -> 0 <= k < 2 ^ 64 -> dir_rec 18 (fz_child 18 s k) (fz_rec s k) /\ file_name s /\ spells s (de_name (fz_rec s k)) /\ hd 0 s <> 0xfeff).
    { intros s k A B C. split; [apply fz_dir_rec; assumption|]. destruct (fy_ascii s A) as (Y1 & Y2 & Y3). split; [exact Y1|]. split; [right; reflexivity|exact Y3]. }
    constructor; [cbn [fst snd]; apply X; [reflexivity|vm_compute; split; discriminate|lia]|]. constructor; [cbn [fst snd]; apply X; [reflexivity|vm_compute; split; discriminate|lia]|]. constructor. }
  split; [discriminate|]. split.
  { intros q [<-|[<-|[]]]; cbn [fst snd fz_rec de_inode]; (split; [discriminate|]); apply fz_inode_is; vm_compute; reflexivity. }
  split; [split; [lia|]; exists (fy_inode 2 0); split; [left; reflexivity|split; vm_compute; reflexivity]|]. split; vm_compute; reflexivity.
Qed.
Print Assumptions C87_readdir_refuted.
