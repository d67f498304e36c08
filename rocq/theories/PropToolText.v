(* C108 to C110: what fsapfsinfo shows of a container, of volumes and of file entries. *)
From Coq Require Import String.
From Verif Require Import Base BaseLemmas Name NameSpec NameProofs PropName BTreeSpec BTreeProofs Walk Omap TreeSpec OmapSpec OmapTop PropOmap RecordsSpec Records RecordsProofs FsTree FsSpec FsProofs FsTop FsLookup PropFs
  FsNameSpec FsName FsNameProofs FsNameTop PropFsName Container ContainerSpec ContainerProofs Snapshot SnapSpec VolumeSuper VSuperSpec VSuperProofs PropVSuper FileEntry FileSpec FileProofs FileTop PropFile EntryName EntrySpec PropEntry KeyBag EndSpec EndProofs ToolPath ToolPathSpec ToolPathProofs ToolMount ToolMountProofs ToolExample PropToolPath
  CryptSpec DataSpec Compressed CompressedSpec CompressedTop PropCompressed ToolInfo ToolInfoSpec ToolLine ToolHier PropToolInfo ToolFuse ToolFuseSpec PropFuse ToolText ToolTextSpec ToolTextProofs ToolEntryText ToolTextInj.
Open Scope list_scope.
Ltac Zify.zify_post_hook ::= Z.div_mod_to_equations.

(* ---- C108: the container and its volumes ---- *)
(* The text about a volume has one line for every item, and these say what the superblock of the
   volume says; there is an item for every snapshot. *)
Theorem C108_volume_text_partial : forall date img n v d name names locked, volume_known img v d name names -> 0 <= n < 2 ^ 31 -> Forall (fun cs => ~ In 10 cs) (name :: names) ->
  exists t l, volume_text img n v locked = Ok t /\ volume_items (n + 1) (facts_of d name locked names) l /\ states date t l.
Proof. exact known_states. Qed.
Print Assumptions C108_volume_text_partial.
Theorem C108_container_text_partial : forall date img id locked vols fs, bytes id -> len id = 16 -> len vols < 2 ^ 31 -> Forall2 (known img) vols fs ->
  exists t l, container_text img id locked vols = Ok t /\ container_items id locked fs l /\ states date t l.
Proof. exact container_states. Qed.
Print Assumptions C108_container_text_partial.
(* and such a text has one meaning *)
Theorem C108_volume_text_determines : forall date n f f' l l' t, facts_ok f -> facts_ok f' -> volume_items n f l -> volume_items n f' l' -> states date t l -> states date t l' -> f = f'.
Proof. exact volume_inj. Qed.
Print Assumptions C108_volume_text_determines.

(* A container is not shown in part: a volume that cannot be had is an error. *)
Theorem C108_no_volume_left_out : forall img id locked vols t, container_text img id locked vols = Ok t -> Forall (fun v => exists w b, v = Ok (w, b)) vols.
Proof.
  intros img id locked vols t. unfold container_text. generalize 0 at 1. intros i. intros H. assert (X : exists r, volumes_text img i vols = Ok r) by (destruct (volumes_text img i vols); try discriminate; eauto).
  clear H. destruct X as (r & X). revert i r X. induction vols as [|v vols IH]; intros i r X; [constructor|]. cbn [volumes_text] in X. destruct v as [(w & b)| | |]; cbn [bind] in X; try discriminate.
  constructor; [eauto|]. destruct (volume_text img i w b); cbn [bind] in X; try discriminate. destruct (volumes_text img (i + 1) vols) eqn:E; cbn [bind] in X; try discriminate. exact (IH _ _ E).
Qed.
Print Assumptions C108_no_volume_left_out.

(* the volume of C62, with two snapshots *)
Definition vt_volume : open_volume :=
  {| ov_size := 409600; ov_super := vcontents vx4; ov_omap := 30; ov_bag := None; ov_locked := false; ov_snapshots := [mk_snap 77 [97; 0]; mk_snap 77 [98; 99; 0]] |}.
Lemma ascii_printable n : forallb (fun c => (0 <? c) && (c <? 0x80)) n = true -> printable n /\ utf8 n = n.
Proof.
  intros H. destruct (fy_ascii n H) as (A & B & C). split; [split; [exact A|destruct n as [|c n]; [exact Logic.I|exact C]]|].
  destruct B as [B|B]; [exfalso|apply app_inj_tail in B; symmetry; tauto]. clear A C. assert (U : utf8 n = n).
  { clear B. induction n as [|c n IH]; [reflexivity|]. cbn [forallb] in H. apply andb_true_iff in H. destruct H as (H0 & H1). rewrite utf8_cons, IH by exact H1. unfold utf8_char. replace (c <? 0x80) with true by lia. reflexivity. }
  rewrite U in B. apply (f_equal (@List.length Z)) in B. rewrite app_length in B. cbn in B. lia.
Qed.
Lemma vx_snapshot a b n r : forallb (fun c => (0 <? c) && (c <? 0x80)) n = true -> len n < 256 -> snapshot_known (vx_dev a b) (mk_snap 77 (n ++ 0 :: r)) n.
Proof.
  intros H L. destruct (ascii_printable n H) as (P & U). split; [exact P|]. rewrite U. split; [exact L|]. cbn [sn_name sn_block]. split; [exists r; reflexivity|].
  exists vx5. split; [lia|]. split; [reflexivity|exact vx5_ok].
Qed.
Example C108_instance : volume_known (vx_dev 50 51) vt_volume vx4 [86; 233] [[97]; [98; 99]] /\ known (vx_dev 50 51) (Ok (vt_volume, true)) (facts_of vx4 [86; 233] true [[97]; [98; 99]]).
Proof.
  assert (K : volume_known (vx_dev 50 51) vt_volume vx4 [86; 233] [[97]; [98; 99]]).
  { split; [exact vx4_ok|]. split; [reflexivity|]. split; [split; [repeat constructor; lia|cbn; lia]|]. destruct vx4_fields as (_ & _ & _ & _ & E & _). split; [exists (zeros 253); split; [exact E|right; exists (zeros 252); reflexivity]|].
    split; [|reflexivity]. apply Forall2_cons; [exact (vx_snapshot 50 51 [97] [] eq_refl eq_refl)|]. apply Forall2_cons; [exact (vx_snapshot 50 51 [98; 99] [] eq_refl eq_refl)|]. apply Forall2_nil. }
  split; [exact K|]. exists vt_volume, vx4, [86; 233], [[97]; [98; 99]], true. split; [reflexivity|]. split; [exact K|]. split; [|reflexivity]. repeat constructor; cbn [In]; lia.
Qed.
Lemma vx4_facts : facts_of vx4 [86; 233] true [[97]; [98; 99]] = mk_vf (repeat 6 16) [86; 233] 2 9 0 true [[97]; [98; 99]].
Proof. vm_compute. reflexivity. Qed.
Example C108_example : volume_text (vx_dev 50 51) 0 vt_volume true = Ok (
  [10] ++ chars "Volume: 1 information:" ++ [10; 9] ++ chars "Identifier" ++ [9; 9; 9] ++ chars ": 06060606-0606-0606-0606-060606060606" ++
  [10; 9] ++ chars "Name" ++ [9; 9; 9; 9] ++ chars ": V" ++ [0xc3; 0xa9] ++ [10; 9] ++ chars "Compatible features" ++ [9; 9] ++ chars ": 0x00000002" ++
  [10; 9; 9] ++ chars "(APFS_FEATURE_HARDLINK_MAP_RECORDS)" ++ [10; 10; 9] ++ chars "Incompatible features" ++ [9; 9] ++ chars ": 0x00000009" ++
  [10; 9; 9] ++ chars "(APFS_INCOMPAT_CASE_INSENSITIVE)" ++ [10; 9; 9] ++ chars "(APFS_INCOMPAT_NORMALIZATION_INSENSITIVE)" ++
  [10; 10; 9] ++ chars "Read-only compatible features" ++ [9] ++ chars ": 0x00000000" ++ [10; 10; 9] ++ chars "Is locked" ++
  [10; 9] ++ chars "Number of snapshots" ++ [9; 9] ++ chars ": 2" ++ [10; 9] ++ chars "Snapshot: 1 information:" ++ [10; 9; 9] ++ chars "Name" ++ [9; 9; 9] ++ chars ": a" ++
  [10; 9] ++ chars "Snapshot: 2 information:" ++ [10; 9; 9] ++ chars "Name" ++ [9; 9; 9] ++ chars ": bc" ++ [10]).
Proof. rewrite (volume_text_is _ 0 _ _ _ _ true (proj1 C108_instance)), vx4_facts. vm_compute. reflexivity. Qed.

(* The full statement is false: names are printed as they are. The names of a volume and of its
   snapshot hold ends of lines: a volume without and one with case-insensitive names are shown
   alike. *)
Definition vt_sb (sum incompatible : Z) (name : list Z) : list Z :=
  le_enc 8 sum ++ (le_enc 8 1026 ++ le_enc 8 4 ++ le_enc 4 13 ++ le_enc 4 0 ++ [65; 80; 83; 66] ++ le_enc 4 0 ++ le_enc 8 0 ++ le_enc 8 0 ++ le_enc 8 incompatible ++ zeros 64 ++
    le_enc 8 29 ++ le_enc 8 80 ++ le_enc 8 0 ++ le_enc 8 60 ++ zeros 16 ++ le_enc 8 30 ++ zeros 56 ++ repeat 6 16 ++ zeros 8 ++ le_enc 8 1 ++ zeros 432 ++
    name ++ zeros (256 - len name) ++ zeros 3136).
Definition vt_middle (flags : list Z) : list Z :=
  [10; 9] ++ chars "Compatible features" ++ [9; 9] ++ chars ": 0x00000000" ++ [10; 10; 9] ++ chars "Incompatible features" ++ [9; 9] ++ flags ++
  [10; 10; 9] ++ chars "Read-only compatible features" ++ [9] ++ chars ": 0x00000000" ++ [10; 10; 9] ++ chars "Number of snapshots" ++ [9; 9] ++ chars ": 1" ++ [10; 9] ++ chars "Snapshot: 1 information:" ++ [10; 9; 9] ++ chars "Name" ++ [9; 9; 9] ++ chars ": ".
Definition vt_name : list Z := chars "A" ++ vt_middle (chars ": 0x00000000") ++ chars "B".
Definition vt_snap : list Z := chars "B" ++ vt_middle (chars ": 0x00000001" ++ [10; 9; 9] ++ chars "(APFS_INCOMPAT_CASE_INSENSITIVE)") ++ chars "C".
Definition vt_d1 : list Z := vt_sb 15082898138828331672 0 (chars "A").
Definition vt_d2 : list Z := vt_sb 8582922763298435805 1 vt_name.
Definition vt_v (d name : list Z) : open_volume := {| ov_size := 409600; ov_super := vcontents d; ov_omap := 30; ov_bag := None; ov_locked := false; ov_snapshots := [mk_snap 77 (name ++ [0])] |}.
Lemma vt_d1_ok : vsuper_block false vt_d1.
Proof. apply vsuper_by_read; vm_compute; reflexivity. Qed.
Lemma vt_d2_ok : vsuper_block false vt_d2.
Proof. apply vsuper_by_read; vm_compute; reflexivity. Qed.
Lemma vt_known d name snap rest : vsuper_block false d -> forallb (fun c => (0 <? c) && (c <? 0x80)) name = true -> slice d 704 256 = name ++ 0 :: rest ->
  forallb (fun c => (0 <? c) && (c <? 0x80)) snap = true -> len snap < 256 -> volume_known (vx_dev 50 51) (vt_v d snap) d name [snap].
Proof.
  intros V N E S L. destruct (ascii_printable name N) as (P & U). split; [exact V|]. split; [reflexivity|]. split; [exact P|]. split; [exists (0 :: rest); rewrite U; split; [exact E|right; exists rest; reflexivity]|].
  split; [|reflexivity]. apply Forall2_cons; [exact (vx_snapshot 50 51 snap [] S L)|apply Forall2_nil].
Qed.
Theorem C108_volume_text_refuted : exists img v1 d1 n1 s1 v2 d2 n2 s2, volume_known img v1 d1 n1 s1 /\ volume_known img v2 d2 n2 s2 /\
  Z.testbit (num d1 56 8) 0 = false /\ Z.testbit (num d2 56 8) 0 = true /\ n1 <> n2 /\ s1 <> s2 /\ volume_text img 0 v1 false = volume_text img 0 v2 false.
Proof.
  exists (vx_dev 50 51), (vt_v vt_d1 vt_snap), vt_d1, (chars "A"), [vt_snap], (vt_v vt_d2 (chars "C")), vt_d2, vt_name, [chars "C"].
  assert (K1 : volume_known (vx_dev 50 51) (vt_v vt_d1 vt_snap) vt_d1 (chars "A") [vt_snap]) by (apply (vt_known _ _ _ (zeros 254)); [exact vt_d1_ok|vm_compute; reflexivity..]).
  assert (K2 : volume_known (vx_dev 50 51) (vt_v vt_d2 (chars "C")) vt_d2 vt_name [chars "C"]) by (apply (vt_known _ _ _ (zeros 70)); [exact vt_d2_ok|vm_compute; reflexivity..]).
  split; [exact K1|]. split; [exact K2|]. split; [vm_compute; reflexivity|]. split; [vm_compute; reflexivity|]. split; [discriminate|]. split; [discriminate|].
  rewrite (volume_text_is _ 0 _ _ _ _ false K1), (volume_text_is _ 0 _ _ _ _ false K2). apply f_equal. vm_compute. reflexivity.
Qed.
Print Assumptions C108_volume_text_refuted.

(* ---- C109: a file entry ---- *)
(* The text about an entry has one line for every item; these say what the inode, the entry of the
   directory, the data and the attributes say. *)
Theorem C109_text_by_identifier_partial : forall (tie : list Z -> list Z -> Prop) h t recs dev ctx block lzvn junk date when id r i l f name target,
  (forall t, date t = Ok (when t) /\ ~ In 10 (when t)) ->
  (forall a b c, tie a b -> tie b c -> tie a c) -> fs_tree tie h t recs -> 0 <= id < 2 ^ 60 -> In r recs -> has 3 id r = true -> bytes (snd r) -> inode_value (snd r) = Ok i ->
  volume_data dev ctx block -> (forall d s, len (junk d s) = len s) -> is_file lzvn block recs id i l f -> len (fl_data f) < 2 ^ 64 ->
  (exists n, in_name i = Some n /\ file_name name /\ spells name n /\ hd 0 name <> 0xfeff /\ name <> [] /\ fits (utf8 name)) -> target_shown f target ->
  Forall (fun s => ~ In 10 s) (map snd l) -> len l < 2 ^ 31 ->
  (is_device i = true -> 0 <= in_device i < 2 ^ 32 /\ minor (in_device i) < 256) ->
  exists txt items all, show_identifier lzvn junk date t dev ctx id = Ok txt /\ entry_items id name (len (fl_data f)) i None target (map snd l) items /\
    shown_by None items all /\ states when txt all.
Proof.
  intros tie h t recs dev ctx block lzvn junk date when id r i l f name target HW H1 H2 H3 H4 H5 HB HI H6 H7 H8 HZ (n & N1 & N2 & N3 & N4 & N5 & N6) HT HA HL HD.
  assert (K : name_known (mk_fe t dev ctx id i None) name) by (split; [unfold entry_text; cbn [fe_rec fe_inode]; rewrite N1; apply name_text; assumption|auto]).
  destruct (entry_info_ok lzvn junk date when HW tie h t recs dev ctx block id i None r l f name target H1 H2 H3 H4 H5 HB HI H6 H7 H8 HZ K HT HA HL HD) as (txt & items & E & I & S).
  unfold show_identifier. rewrite (inode_found tie h t recs id (Some i) H1 H2) by (split; [exact H3|exists r; auto]). cbn [bind]. rewrite E. cbn [bind]. eexists _, items, _. split; [reflexivity|]. split; [exact I|]. split; [reflexivity|].
  unfold heading. rewrite <- !app_assoc. cbn [app]. apply (head_then when (chars "Apple File System (APFS) information") 0); [apply clean_ok; reflexivity|]. apply blank_then.
  apply (head_then when (chars "File entry") 0); [apply clean_ok; reflexivity|]. apply states_app; [exact S|]. rewrite <- (app_nil_r nl). apply blank_then, states_nil.
Qed.
Print Assumptions C109_text_by_identifier_partial.
(* The same for an entry that is found by a path: q is the option, and the path is shown as what
   has to be escaped to be the option. *)
Theorem C109_text_by_path_partial : forall (tie : list Z -> list Z -> Prop) h t recs dev ctx block lzvn junk date when bad fold id r i d l f name target q,
  (forall t, date t = Ok (when t) /\ ~ In 10 (when t)) ->
  (forall a b c, tie a b -> tie b c -> tie a c) -> fs_tree tie h t recs -> 0 <= id < 2 ^ 60 -> In r recs -> has 3 id r = true -> bytes (snd r) -> inode_value (snd r) = Ok i ->
  volume_data dev ctx block -> (forall d s, len (junk d s) = len s) -> is_file lzvn block recs id i l f -> len (fl_data f) < 2 ^ 64 ->
  info_open bad t fold (utf8 q) = Ok (Some (id, i, Some d)) -> file_name q -> q <> [] -> fits (utf8 q) ->
  file_name name -> spells name (de_name d) -> hd 0 name <> 0xfeff -> name <> [] -> fits (utf8 name) -> target_shown f target ->
  Forall (fun s => ~ In 10 s) (map snd l) -> len l < 2 ^ 31 ->
  (is_device i = true -> 0 <= in_device i < 2 ^ 32 /\ minor (in_device i) < 256) ->
  exists txt items all, show_path lzvn junk date bad t dev ctx fold (utf8 q) = Ok txt /\ entry_items id name (len (fl_data f)) i (Some (de_added d)) target (map snd l) items /\
    shown_by (Some q) items all /\ states when txt all.
Proof.
  intros tie h t recs dev ctx block lzvn junk date when bad fold id r i d l f name target q HW H1 H2 H3 H4 H5 HB HI H6 H7 H8 HZ HO Q1 Q2 Q3 N2 N3 N4 N5 N6 HT HA HL HD.
  assert (K : name_known (mk_fe t dev ctx id i (Some d)) name) by (split; [unfold entry_text; cbn [fe_rec fe_inode]; apply name_text; assumption|auto]).
  destruct (entry_info_ok lzvn junk date when HW tie h t recs dev ctx block id i (Some d) r l f name target H1 H2 H3 H4 H5 HB HI H6 H7 H8 HZ K HT HA HL HD) as (txt & items & E & I & S).
  destruct (spelled_line when q Q1 Q2 Q3) as (p & P1 & P2 & P3).
  unfold show_path. rewrite HO. cbn [bind]. rewrite P1. cbn [bind]. rewrite E. cbn [bind]. eexists _, items, _. split; [reflexivity|]. split; [exact I|]. split; [reflexivity|].
  unfold heading. rewrite <- !app_assoc. cbn [app]. apply (head_then when (chars "Apple File System (APFS) information") 0); [apply clean_ok; reflexivity|]. apply blank_then.
  apply (head_then when (chars "File entry") 0); [apply clean_ok; reflexivity|]. apply line_then; [exact P2|apply clean_ok; reflexivity|exact P3|]. apply states_app; [exact S|]. rewrite <- (app_nil_r nl). apply blank_then, states_nil.
Qed.
Print Assumptions C109_text_by_path_partial.

(* the file "b" of the directory "a" of C77 *)
Definition ft_day (t : Z) : list Z := chars "day " ++ dec (Z.abs t).
Definition ft_when (t : Z) : list Z := if (0 <=? t) && (t <? 2 ^ 63) then ft_day t else [].
Lemma ft_when_ok t : Ok (ft_when t) = Ok (ft_when t) /\ ~ In 10 (ft_when t).
Proof.
  split; [reflexivity|]. unfold ft_when. destruct ((0 <=? t) && (t <? 2 ^ 63)) eqn:C; [|intros []]. unfold ft_day. apply not_in_app; [apply clean_ok; reflexivity|]. eapply decimal_in, dec_ok. lia.
Qed.
Example C109_instance : exists txt items all, show_path no_lzvn no_junk (fun t => Ok (ft_when t)) (fun _ => None) fi fz_dev None true (chars "/a/b") = Ok txt /\
  entry_items 17 [98] 2 (fy_value (fy_inode 17 0)) (Some (de_added (fz_rec [98] 17))) None [decmpfs_name] items /\ shown_by (Some (chars "/a/b")) items all /\ states ft_when txt all.
Proof.
  change (chars "/a/b") with (utf8 (chars "/a/b")) at 1.
  apply (C109_text_by_path_partial fx_tie 0 fi fi_recs fz_dev None (plain_block fz_dev) no_lzvn no_junk (fun t => Ok (ft_when t)) ft_when (fun _ => None) true 17 (fy_inode 17 0) (fy_value (fy_inode 17 0)) (fz_rec [98] 17)
    [(mk_at (decmpfs_name ++ [0]) 2 (AInline fy_raw), decmpfs_name)] (mk_file [97; 98] [] 1 None) [98] None (chars "/a/b")).
  - exact ft_when_ok.
  - unfold fx_tie. intros; lia.
  - exact fi_tree.
  - lia.
  - unfold fi_recs. cbn [In]. tauto.
  - vm_compute. reflexivity.
  - apply all_bytes. vm_compute. reflexivity.
  - vm_compute. reflexivity.
  - apply vd_plain.
  - reflexivity.
  - exact C77_instance.
  - reflexivity.
  - vm_compute. reflexivity.
  - apply (fy_ascii (chars "/a/b")). reflexivity.
  - discriminate.
  - unfold fits. vm_compute. reflexivity.
  - apply (fy_ascii [98]). reflexivity.
  - right. reflexivity.
  - cbn. lia.
  - discriminate.
  - unfold fits. vm_compute. reflexivity.
  - reflexivity.
  - constructor; [|constructor]. apply clean_ok. reflexivity.
  - reflexivity.
  - intros H. vm_compute in H. discriminate.
Qed.
Example C109_example : show_path no_lzvn no_junk (fun t => Ok (ft_when t)) (fun _ => None) fi fz_dev None true (chars "/a/b") = Ok (
  chars "Apple File System (APFS) information:" ++ [10; 10] ++ chars "File entry:" ++ [10; 9] ++ chars "Path" ++ [9; 9; 9] ++ chars ": /a/b" ++
  [10; 9] ++ chars "Identifier" ++ [9; 9] ++ chars ": 17" ++ [10; 9] ++ chars "Name" ++ [9; 9; 9] ++ chars ": b" ++ [10; 9] ++ chars "Size" ++ [9; 9; 9] ++ chars ": 2" ++
  [10; 9] ++ chars "Creation time" ++ [9; 9] ++ chars ": day 12Z" ++ [10; 9] ++ chars "Modification time" ++ [9] ++ chars ": day 11Z" ++
  [10; 9] ++ chars "Inode change time" ++ [9] ++ chars ": day 13Z" ++ [10; 9] ++ chars "Access time" ++ [9; 9] ++ chars ": day 14Z" ++
  [10; 9] ++ chars "Added time" ++ [9; 9] ++ chars ": day 77Z" ++ [10; 9] ++ chars "Number of links" ++ [9; 9] ++ chars ": 1" ++
  [10; 9] ++ chars "Owner identifier" ++ [9] ++ chars ": 501" ++ [10; 9] ++ chars "Group identifier" ++ [9] ++ chars ": 20" ++
  [10; 9] ++ chars "File mode" ++ [9; 9] ++ chars ": -rw-r--r-- (0100644)" ++ [10; 9] ++ chars "Extended attributes:" ++
  [10; 9; 9] ++ chars "Attribute: 1" ++ [9] ++ chars ": com.apple.decmpfs" ++ [10; 10]).
Proof. vm_compute. reflexivity. Qed.

(* The full statement is false. Objects 16 with the name "d", and the attributes of a list *)
Definition ft_stored (mode : Z) : stored_inode := {|
  st_parent_id := 2; st_private_id := 16; st_create_time := 0; st_mod_time := 12; st_change_time := 2 ^ 64 - 1; st_access_time := 14;
  st_internal_flags := 0; st_nlink := 1; st_protection_class := 0; st_write_generation := 0; st_bsd_flags := 0;
  st_uid := 501; st_gid := 20; st_mode := mode; st_pad1 := 0; st_pad2 := 0 |}.
Definition ft_inode (mode d : Z) : TreeSpec.record := (RecordsSpec.key_head 3 16, inode_value_bytes (ft_stored mode) 16 true [(4, 0, [100; 0]); (14, 0, le_enc 4 d)]).
Definition ft_recs (mode d : Z) (attrs : list (list Z)) : list TreeSpec.record := fi_root :: ft_inode mode d :: map (fun n => fy_attr 16 n [1]) attrs.
Lemma ft_file recs mode d attrs : recs = ft_recs mode d attrs -> in_stream (fy_value (ft_inode mode d)) = 16 -> in_size (fy_value (ft_inode mode d)) = 0 ->
  filter (has 4 16) recs = map (fun n => fy_attr 16 n [1]) attrs -> filter (has 8 16) recs = [] ->
  Forall (fun n => forallb (fun c => (0 <? c) && (c <? 0x80)) n = true /\ len n < 1000 /\ n <> decmpfs_name /\ n <> symlink_name) attrs -> NoDup attrs ->
  is_file no_lzvn (plain_block fz_dev) recs 16 (fy_value (ft_inode mode d)) (map (fun n => (mk_at (n ++ [0]) 2 (AInline [1]), n)) attrs) (mk_file [] [] (len attrs) None).
Proof.
  intros ER ES EZ E4 E8 F ND. assert (X : extents_of recs 16 []).
  { split; [lia|]. split; [exists fi_root; split; [rewrite ER; left; reflexivity|]; left; vm_compute; reflexivity|]. rewrite E8. constructor. }
  assert (NN : forall s, Forall (fun n => n <> s) attrs -> attr_named s (map (fun n => (mk_at (n ++ [0]) 2 (AInline [1]), n)) attrs) = None).
  { clear. intros s. induction 1 as [|n attrs H _ IH]; [reflexivity|]. cbn [map attr_named]. destruct (list_eq_dec Z.eq_dec s n); [congruence|exact IH]. }
  split; [|rewrite ES; split; [|split; [exact X|split; [constructor|split]]]].
  - split; [|rewrite map_map, map_id; exact ND]. rewrite E4. clear - F. induction F as [|n attrs (A & L & _) F IH]; [constructor|]. cbn [map]. constructor; [|exact IH]. cbn [fst snd].
    split; [apply fy_attr_rec; [change (len [1]) with 1; lia|exact L]|apply (fy_ascii n A)].
  - left. cbn [fl_data]. split; [left; apply NN; eapply Forall_impl; [|exact F]; cbn; tauto|]. split; [exact EZ|]. exists [], (fun _ => 0). rewrite ES. split; [exact X|]. split; [reflexivity|]. split; [unfold total, len; cbn; lia|]. split; [constructor|]. split; [intros e k []|reflexivity].
  - unfold FileSpec.link_is. rewrite NN; [reflexivity|]. eapply Forall_impl; [|exact F]; cbn; tauto.
  - cbn [fl_attrs]. rewrite len_map. reflexivity.
Qed.

(* The devices with the numbers 0, 300 and 1, 44 are shown alike. *)
Definition ft_300 : list TreeSpec.record := ft_recs 0x21a4 300 [].
Definition ft_44 : list TreeSpec.record := ft_recs 0x21a4 (2 ^ 24 + 44) [].
Lemma ft_300_tree : fs_tree fx_tie 0 (one_node ft_300) ft_300.
Proof. one_node_tac ft_300. Qed.
Lemma ft_44_tree : fs_tree fx_tie 0 (one_node ft_44) ft_44.
Proof. one_node_tac ft_44. Qed.
Definition object_in (t : fs) (recs : list TreeSpec.record) (id : Z) (i : inode) (l : list (attr * list Z)) (f : file) : Prop :=
  (exists (tie : list Z -> list Z -> Prop) h, (forall a b c, tie a b -> tie b c -> tie a c) /\ fs_tree tie h t recs) /\ inode_is recs id (Some i) /\ is_file no_lzvn (plain_block fz_dev) recs id i l f.
Lemma ft_object recs mode d attrs : recs = ft_recs mode d attrs -> fs_tree fx_tie 0 (one_node recs) recs -> is_ok (inode_value (snd (ft_inode mode d))) = true ->
  in_stream (fy_value (ft_inode mode d)) = 16 -> in_size (fy_value (ft_inode mode d)) = 0 ->
  filter (has 4 16) recs = map (fun n => fy_attr 16 n [1]) attrs -> filter (has 8 16) recs = [] ->
  Forall (fun n => forallb (fun c => (0 <? c) && (c <? 0x80)) n = true /\ len n < 1000 /\ n <> decmpfs_name /\ n <> symlink_name) attrs -> NoDup attrs ->
  object_in (one_node recs) recs 16 (fy_value (ft_inode mode d)) (map (fun n => (mk_at (n ++ [0]) 2 (AInline [1]), n)) attrs) (mk_file [] [] (len attrs) None).
Proof.
  intros ER HT HI ES EZ E4 E8 F ND. split; [exists fx_tie, 0%nat; split; [unfold fx_tie; intros; lia|exact HT]|]. split.
  - apply volume_inode; [rewrite ER; right; left; reflexivity|reflexivity|lia|exact HI].
  - apply ft_file; assumption.
Qed.
Theorem C109_device_refuted : exists t t' recs recs' i i' l f, object_in t recs 16 i l f /\ object_in t' recs' 16 i' l f /\ is_device i = true /\ is_device i' = true /\
  (major (in_device i), minor (in_device i)) = (0, 300) /\ (major (in_device i'), minor (in_device i')) = (1, 44) /\
  forall junk date, show_identifier no_lzvn junk date t fz_dev None 16 = show_identifier no_lzvn junk date t' fz_dev None 16.
Proof.
  exists (one_node ft_300), (one_node ft_44), ft_300, ft_44, (fy_value (ft_inode 0x21a4 300)), (fy_value (ft_inode 0x21a4 (2 ^ 24 + 44))). eexists _, _.
  split; [apply (ft_object ft_300 0x21a4 300 []); [reflexivity|exact ft_300_tree|vm_compute; reflexivity..|constructor|constructor]|].
  split; [apply (ft_object ft_44 0x21a4 (2 ^ 24 + 44) []); [reflexivity|exact ft_44_tree|vm_compute; reflexivity..|constructor|constructor]|].
  split; [vm_compute; reflexivity|]. split; [vm_compute; reflexivity|]. split; [vm_compute; reflexivity|]. split; [vm_compute; reflexivity|]. intros junk date.
  vm_compute. reflexivity.
Qed.
Print Assumptions C109_device_refuted.
(* A file with one attribute whose name has an end of line is shown as one with two attributes. *)
Definition ft_names : list (list Z) := [[97]; [98]].
Definition ft_evil : list (list Z) := [chars "a" ++ [10; 9; 9] ++ chars "Attribute: 2" ++ [9] ++ chars ": b"].
Definition ft_two : list TreeSpec.record := ft_recs 0x81a4 0 ft_names.
Definition ft_one : list TreeSpec.record := ft_recs 0x81a4 0 ft_evil.
Lemma ft_two_tree : fs_tree fx_tie 0 (one_node ft_two) ft_two.
Proof. one_node_tac ft_two. Qed.
Lemma ft_one_tree : fs_tree fx_tie 0 (one_node ft_one) ft_one.
Proof. one_node_tac ft_one. Qed.
Theorem C109_attribute_names_refuted : exists t t' recs recs' i l l' f f', object_in t recs 16 i l f /\ object_in t' recs' 16 i l' f' /\ len l = 1 /\ len l' = 2 /\
  forall junk date, show_identifier no_lzvn junk date t fz_dev None 16 = show_identifier no_lzvn junk date t' fz_dev None 16.
Proof.
  exists (one_node ft_one), (one_node ft_two), ft_one, ft_two, (fy_value (ft_inode 0x81a4 0)). eexists _, _, _, _.
  split; [apply (ft_object ft_one 0x81a4 0 ft_evil); [reflexivity|exact ft_one_tree|vm_compute; reflexivity..| |]|].
  { constructor; [|constructor]. split; [reflexivity|]. split; [reflexivity|]. split; discriminate. }
  { constructor; [intros []|constructor]. }
  split; [apply (ft_object ft_two 0x81a4 0 ft_names); [reflexivity|exact ft_two_tree|vm_compute; reflexivity..| |]|].
  { constructor; [|constructor; [|constructor]]; (split; [reflexivity|]; split; [reflexivity|]; split; discriminate). }
  { constructor; [intros [H|[]]; discriminate|]. constructor; [intros []|constructor]. }
  split; [reflexivity|]. split; [reflexivity|]. intros junk date. vm_compute. reflexivity.
Qed.
Print Assumptions C109_attribute_names_refuted.
(* An object whose inode has no name is not shown by its identifier, though it is a file with a name. *)
Theorem C109_unnamed_refuted : exists t recs id i l f fold s d, object_in t recs id i l f /\ below false fold recs 2 None s id d /\
  forall junk date, show_identifier no_lzvn junk date t fz_dev None id = Fail.
Proof.
  exists fi, fi_recs, 17, (fy_value (fy_inode 17 0)). eexists _, _. exists true, [[97]; [98]], (Some (fz_rec [98] 17)). split.
  - split; [exists fx_tie, 0%nat; split; [unfold fx_tie; intros; lia|exact fi_tree]|]. split; [|exact C77_instance].
    apply volume_inode; [unfold fi_recs; cbn [In]; tauto|vm_compute; reflexivity|lia|vm_compute; reflexivity].
  - split.
    + eapply below_down; [apply (link_named _ _ fi_links_ok (mk_link 2 [97] 16)); cbn; tauto|]. eapply below_down; [apply (link_named _ _ fi_links_ok (mk_link 16 [98] 17)); cbn; tauto|]. apply below_here.
    + intros junk date. vm_compute. reflexivity.
Qed.
Print Assumptions C109_unnamed_refuted.
(* and an entry that the positive theorem is about: device 3, 7 *)
Definition ft_37 : list TreeSpec.record := ft_recs 0x61a4 (3 * 2 ^ 24 + 7) [].
Lemma ft_37_tree : fs_tree fx_tie 0 (one_node ft_37) ft_37.
Proof. one_node_tac ft_37. Qed.
Example C109_identifier_instance : exists txt items all, show_identifier no_lzvn no_junk (fun t => Ok (ft_when t)) (one_node ft_37) fz_dev None 16 = Ok txt /\
  entry_items 16 [100] 0 (fy_value (ft_inode 0x61a4 (3 * 2 ^ 24 + 7))) None None [] items /\ shown_by None items all /\ states ft_when txt all.
Proof.
  apply (C109_text_by_identifier_partial fx_tie 0 (one_node ft_37) ft_37 fz_dev None (plain_block fz_dev) no_lzvn no_junk (fun t => Ok (ft_when t)) ft_when 16 (ft_inode 0x61a4 (3 * 2 ^ 24 + 7)) _ [] (mk_file [] [] 0 None)).
  - exact ft_when_ok.
  - unfold fx_tie. intros; lia.
  - exact ft_37_tree.
  - lia.
  - right. left. reflexivity.
  - reflexivity.
  - apply all_bytes. vm_compute. reflexivity.
  - vm_compute. reflexivity.
  - apply vd_plain.
  - reflexivity.
  - apply (ft_file ft_37 0x61a4 (3 * 2 ^ 24 + 7) []); [reflexivity|vm_compute; reflexivity..|constructor|constructor].
  - reflexivity.
  - exists [100; 0]. split; [vm_compute; reflexivity|]. destruct (fy_ascii [100] eq_refl) as (A & B & C). split; [exact A|]. split; [exact B|]. split; [exact C|]. split; [discriminate|]. unfold fits. vm_compute. reflexivity.
  - reflexivity.
  - constructor.
  - reflexivity.
  - intros _. vm_compute. repeat split; discriminate.
Qed.
Example C109_identifier_example : show_identifier no_lzvn no_junk (fun t => Ok (ft_when t)) (one_node ft_37) fz_dev None 16 = Ok (
  chars "Apple File System (APFS) information:" ++ [10; 10] ++ chars "File entry:" ++
  [10; 9] ++ chars "Identifier" ++ [9; 9] ++ chars ": 16" ++ [10; 9] ++ chars "Name" ++ [9; 9; 9] ++ chars ": d" ++ [10; 9] ++ chars "Size" ++ [9; 9; 9] ++ chars ": 0" ++
  [10; 9] ++ chars "Creation time" ++ [9; 9] ++ chars ": day 12Z" ++ [10; 9] ++ chars "Modification time" ++ [9] ++ chars ": Not set (0)" ++
  [10; 9] ++ chars "Inode change time" ++ [9] ++ chars ": Z" ++ [10; 9] ++ chars "Access time" ++ [9; 9] ++ chars ": day 14Z" ++
  [10; 9] ++ chars "Number of links" ++ [9; 9] ++ chars ": 1" ++
  [10; 9] ++ chars "Owner identifier" ++ [9] ++ chars ": 501" ++ [10; 9] ++ chars "Group identifier" ++ [9] ++ chars ": 20" ++
  [10; 9] ++ chars "File mode" ++ [9; 9] ++ chars ": brw-r--r-- (0060644)" ++ [10; 9] ++ chars "Device number" ++ [9; 9] ++ chars ": 3,7" ++ [10; 10]) /\
  show_identifier no_lzvn no_junk (fun t => Ok (ft_when t)) (one_node ft_37) fz_dev None 17 = Ok (chars "Apple File System (APFS) information:" ++ [10; 10]).
Proof. vm_compute. auto. Qed.

(* ---- C110: the path in this text ---- *)
(* Characters that are written as they are *)
Definition kept (c : Z) : Prop := (0x20 <= c <= 0x7e \/ 0xa0 <= c <= 0x2027) /\ c <> 92.
Lemma kept_path q : Forall kept q -> q <> [] -> fits (utf8 q) -> path_from (utf8 q) = Ok (utf8 q).
Proof.
  intros F N B. rewrite path_from_ok; [|eapply Forall_impl; [|exact F]; unfold kept, scalar; lia|exact N|exact B]. f_equal. clear N B. induction F as [|c q K F IH]; [reflexivity|].
  unfold escs in *. cbn [map concat]. rewrite IH, utf8_cons. f_equal. unfold esc, kept in *.
  replace (is_control c) with false by (unfold is_control; lia). replace (is_unprintable c) with false by (unfold is_unprintable; lia). replace (c =? 92) with false by lia. reflexivity.
Qed.
(* The path in the text, given as the option, selects the same entry. *)
Definition path_line_of (txt : list Z) : list Z := nth 3 (lines txt) [].
Theorem C110_shown_path_opens_partial : forall lzvn junk date bad t img ctx fold q txt, Forall kept q -> q <> [] -> fits (utf8 q) ->
  show_path lzvn junk date bad t img ctx fold (utf8 q) = Ok txt ->
  path_line_of txt = [9] ++ chars "Path" ++ [9; 9; 9] ++ chars ": " ++ utf8 q.
Proof.
  intros lzvn junk date bad t img ctx fold q txt F N B. unfold show_path. destruct (info_open bad t fold (utf8 q)) as [[((id & v) & d)|]| | |]; cbn [bind]; try discriminate. rewrite (kept_path q F N B). cbn [bind].
  destruct (entry_info lzvn junk date (mk_fe t img ctx id v d)) as [a| | |]; cbn [bind]; try discriminate. intros E. assert (txt = heading ++ chars "File entry:" ++ nl ++ tab 1 ++ chars "Path" ++ tab 3 ++ colon ++ utf8 q ++ nl ++ a ++ nl) as -> by congruence. clear E.
  assert (Q : ~ In 10 (utf8 q)). { apply utf8_in; [eapply Forall_impl; [|exact F]; unfold kept; lia|]. intros C. rewrite Forall_forall in F. specialize (F _ C). unfold kept in F. lia. }
  unfold path_line_of, heading. rewrite <- !app_assoc.
  assert (X : forall l r, ~ In 10 l -> lines (l ++ nl ++ r) = l :: lines r).
  { intros l r NL. rewrite app_assoc. rewrite (lines_app r (l ++ nl) [l]); [reflexivity|]. apply lines_line, NL. }
  rewrite X by (apply clean_ok; reflexivity). change (nl ++ ?x) with ([] ++ nl ++ x) at 1. rewrite (X []) by (intros []). rewrite X by (apply clean_ok; reflexivity).
  replace (tab 1 ++ chars "Path" ++ tab 3 ++ colon ++ utf8 q ++ nl ++ a ++ nl) with ((tab 1 ++ chars "Path" ++ tab 3 ++ colon ++ utf8 q) ++ nl ++ a ++ nl) by (rewrite <- !app_assoc; reflexivity).
  rewrite X by (repeat apply not_in_app; try exact Q; apply clean_ok; reflexivity). reflexivity.
Qed.
Print Assumptions C110_shown_path_opens_partial.
Example C110_instance : Forall kept (chars "/a/b") /\ match show_path no_lzvn no_junk (fun t => Ok (ft_when t)) (fun _ => None) fi fz_dev None true (chars "/a/b") with Ok txt => path_line_of txt | _ => [] end = [9] ++ chars "Path" ++ [9; 9; 9] ++ chars ": /a/b".
Proof. split; [change (chars "/a/b") with [47; 97; 47; 98]; unfold kept; repeat (apply Forall_cons; [lia|]); apply Forall_nil|vm_compute; reflexivity]. Qed.
(* The full statement is false: an option with escaped characters is escaped a second time. What
   is shown for the entry with the name "c", an end of line, "|" and a backslash selects nothing. *)
Theorem C110_shown_path_refuted : exists (tie : list Z -> list Z -> Prop) h t recs fold q i v d txt shown, (forall a b c, tie a b -> tie b c -> tie a c) /\ fs_tree tie h t recs /\
  info_open (fun _ => None) t fold q = Ok (Some (i, v, d)) /\ show_path no_lzvn no_junk (fun t => Ok (ft_when t)) (fun _ => None) t fz_dev None fold q = Ok txt /\
  path_line_of txt = [9] ++ chars "Path" ++ [9; 9; 9] ++ chars ": " ++ shown /\ info_open (fun _ => None) t fold shown = Ok None.
Proof.
  set (q := [47; 99; 92; 120; 48; 97; 124; 92; 92]). set (s := [47; 99; 92; 92; 120; 48; 97; 124; 92; 92; 92; 92]).
  assert (X : exists txt, show_path no_lzvn no_junk (fun t => Ok (ft_when t)) (fun _ => None) fi fz_dev None true q = Ok txt /\ path_line_of txt = [9] ++ chars "Path" ++ [9; 9; 9] ++ chars ": " ++ s) by (eexists; split; vm_compute; reflexivity).
  destruct X as (txt & X1 & X2). exists fx_tie, 0%nat, fi, fi_recs, true, q, 19. eexists _, _. exists txt, s. split; [unfold fx_tie; intros; lia|]. split; [exact fi_tree|]. split; [vm_compute; reflexivity|]. split; [exact X1|]. split; [exact X2|]. vm_compute. reflexivity.
Qed.
Print Assumptions C110_shown_path_refuted.
