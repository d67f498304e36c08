(* C73: a file, from the blocks of a device to the bytes a reader gets. *)
From Coq Require Import Lia.
From Verif Require Import Base BaseLemmas Checksum Checksummed BTree BTreeSpec BTreeProofs Walk WalkProofs TreeSpec Omap OmapProofs OmapSpec OmapTop PropOmap Records RecordsSpec FsTree FsSpec FsProofs FsLookup PropFs Name NameSpec NameProofs PropName FsName FsNameSpec FsNameProofs PropFsName PropCompressed FileEntry FileSpec FileTop PropFile EntryName EntrySpec PropEntry
  Crypt CryptSpec CryptProofs PropCrypt KeyBag KeyBagSpec Volume VolumeSpec PropVolume Container ContainerSpec ContainerProofs ContainerTop PropContainer DataRead DataSpec DataProofs DataSplit PropData Snapshot SnapSpec SnapProofs VolumeSuper VSuperSpec VSuperProofs PropVSuper Session SessionSpec SessionProofs PropSession EndSpec EndProofs.
Ltac Zify.zify_post_hook ::= Z.div_mod_to_equations.

(* C73. Whatever the blocks of a device say about a file is what a reader gets: the container is
   opened, the volume by its index, the passwords are set, the file is looked up by its path and
   then read in any way. The volume is encrypted or not; every object on the way is found as its
   own format describes: superblock, object maps, key bags, keys, tree, directories, names,
   extents, blocks. *)
Theorem C73_file_from_device_partial : forall enc dec sha hmac xenc xts P Q evn evb unkeyed lzvn junk (tie : list Z -> list Z -> Prop) dev b d v user recovery n hashed v2 p id rec i l f u j1 j2 pn qn cs,
  primitives enc dec sha hmac -> (forall k1 k2, unit_cipher 512 (xenc k1 k2) (xts k1 k2)) ->
  (forall (p : P) l b, incl (snd (evn p l b)) l) -> (forall (q : Q) l b, incl (snd (evb q l b)) l) ->
  (forall a b c, tie a b -> tie b c -> tie a c) -> len j1 = 32 -> len j2 = 32 -> (forall d s, len (junk d s) = len s) ->
  volume_stored enc sha hmac xenc tie dev b d v user recovery n ->
  let fold := Z.testbit (num (vn_super n) 56 8) 0 in let recs := vn_recs n in
  directories tie hashed fold recs -> inode_is recs 2 (Some v2) ->
  file_name p -> 2 <= len (utf16 p) -> leads hashed fold recs 2 None (components p) id rec ->
  inode_is recs id (Some i) -> is_file lzvn (file_block (data_cipher xenc (vn_key n)) dev) recs id i l f ->
  exists c od ov h ctx t st,
    open (fun id => xts id id) dev = Ok c /\ volume_by_index dev c (Z.of_nat v) = Ok od /\ volume_open (fun id => xts id id) dev (c_size c) (c_bag c) (od_address od) = Ok ov /\
    vrun P Q evn evb dec sha hmac xts unkeyed dev ov (bags_of c ov) (fresh P Q ov pn qn)
      [VState (SetUser user); VState (SetRecovery recovery); VPath u (if u : bool then utf16 p else utf8 p) j1 j2] =
      Ok ([AInt (match user with Some _ => 1 | None => -1 end); AInt (match recovery with Some _ => 1 | None => -1 end); AEntry (Some (id, i, rec))], h) /\
    context xts ov (v_keys (h_volume h)) = Some ctx /\ volume_fs dev ctx ov = Ok t /\
    entry_calls lzvn junk (mk_fe t dev ctx id i rec) cs f_init = Ok (file_steps f 0 cs, st).
Proof.
  intros enc dec sha hmac xenc xts P Q evn evb unkeyed lzvn junk tie dev b d v user recovery n hashed v2 p id rec i l f u j1 j2 pn qn cs
    HP HX Hevn Hevb HT L1 L2 HJ HV fold recs HD H2 FP LP HL HI HF.
  destruct (container_volume enc sha hmac xenc xts HX tie HT dev b d v user recovery n HV) as (c & od & E1 & E2 & E3 & E4).
  destruct (tree_found enc sha hmac xenc xts HX tie HT dev b d v user recovery n HV) as (TF & h0 & FT).
  pose proof (path_found tie h0 _ recs hashed fold 2 v2 p id rec i u HT FT HD H2 FP LP HL HI) as PF.
  assert (EF : volume_folds (open_of dev n) = fold) by (unfold volume_folds; cbn [open_of ov_super vcontents vs_incompatible]; apply low_bit). rewrite <- EF in PF.
  destruct (lookup_stored enc dec sha hmac HP xenc xts HX P Q evn evb Hevn Hevb unkeyed tie HT dev b d v user recovery n HV c pn qn u _ j1 j2 _ E4 L1 L2 PF) as (h & EV & EC).
  assert (VD : volume_data dev (ctx_of xts (vn_key n)) (file_block (data_cipher xenc (vn_key n)) dev)).
  { destruct (vn_key n) as [m|]; cbn [ctx_of data_cipher file_block]; [apply vd_sealed, HX|apply vd_plain]. }
  destruct HI as (Hid & ri & R1 & R2 & R3).
  destruct (C66_file_entry_partial tie h0 _ recs dev _ _ lzvn junk id i rec ri l f cs HT FT Hid R1 R2 VD HJ HF) as (st & ES).
  exists c, od, (open_of dev n), h, (ctx_of xts (vn_key n)). eexists. exists st. split; [exact E1|]. split; [exact E2|]. split; [exact E3|]. split; [exact EV|]. split; [exact EC|].
  split; [exact TF|exact ES].
Qed.
Print Assumptions C73_file_from_device_partial.

(* ---- a whole device ----
   The container of PropContainer with a volume 42 in block 101: its object map is in blocks 29
   and 30, its tree is block 20. It ignores case. Directory 2 has directory 18 "d" and file 17 "e";
   directory 18 has file 16 "ab", of 4100 bytes in blocks 900 and 950. *)
Definition we_super : list Z := vx_sb 15082768284787134670 0x0000000d 4 0 [86].
Definition we_recs : list TreeSpec.record :=
  [fy_inode 2 0; fz_child 2 [100] 18; fz_child 2 [101] 17; fy_inode 16 4100; fy_attr 16 [120] [1; 2; 3]; fy_extent 0 4096 900; fy_extent 4096 4096 950;
   fy_inode 17 0; fy_inode 18 0; fz_child 18 [97; 98] 16].
Definition we_orecs : list TreeSpec.record := [(ex_key 80 1, ex_val 20)].
Definition we_crecs : list TreeSpec.record := [(ex_key 40 1, ex_val 100); (ex_key 42 1, ex_val 101)].
Definition we_node : list Z := node_bytes (fx_node true true we_recs).
Definition we_map : list Z := node_bytes (ex_node true true we_orecs).
Definition we_dev : device := fun b =>
  if (0 <=? b) && (b <=? 6) then dev5 b else if b =? 101 then Some we_super else if b =? 29 then Some vx_omap else if b =? 30 then Some we_map
  else if b =? 20 then Some we_node else fy_dev b.
Definition we : volume_on := {|
  vn_root := 6; vn_crecs := we_crecs; vn_bag := None; vn_super := we_super; vn_omap := 30; vn_orecs := we_orecs; vn_keys := None; vn_snapshots := [];
  vn_key := None; vn_nodes := we_dev; vn_top := 20; vn_recs := we_recs |}.
Lemma we_super_ok : vsuper_block false we_super.
Proof. apply vsuper_by_read; vm_compute; reflexivity. Qed.
Lemma we_fields : num we_super 128 8 = 29 /\ num we_super 136 8 = 80 /\ num we_super 152 8 = 0 /\ xid we_super = 4 /\ num we_super 56 8 = 9.
Proof. vm_compute. auto. Qed.
Lemma we_device : device_ok we_dev.
Proof.
  intros b d. unfold we_dev. destruct (dev5_ok (fun _ _ x => x)) as (D5 & _).
  assert (H' : Forall (fun d => bytes d /\ len d <= 4096) [we_super; vx_omap; we_map; we_node; window fy_content 0 4096; window fy_content 4096 4096]).
  { apply Forall_cons; [destruct we_super_ok as (L & B & _); split; [exact B|lia]|].
    apply Forall_cons; [split; [apply bytesb_ok|]; vm_compute; congruence|]. apply Forall_cons; [split; [apply bytesb_ok|]; vm_compute; congruence|].
    apply Forall_cons; [split; [apply bytesb_ok|]; vm_compute; congruence|]. 
    do 2 (apply Forall_cons; [split; [apply bytesb_ok; vm_compute; reflexivity|rewrite window_len; lia]|]). constructor. }
  rewrite Forall_forall in H'. unfold fy_dev. specialize (D5 b d). generalize dependent dev5. generalize dependent we_super. generalize dependent vx_omap. generalize dependent we_map.
  generalize dependent we_node. generalize dependent (window fy_content 0 4096). generalize dependent (window fy_content 4096 4096). intros b1 b2 b3 b4 b5 b6 H f Hf.
  destruct ((0 <=? b) && (b <=? 6)); [exact Hf|]. clear Hf.
  do 6 (match goal with |- context [b =? ?k] => destruct (b =? k) end; [intros E; apply H; assert (X : Some d = Some d) by reflexivity; rewrite <- E in X at 1; injection X as <-; cbn [In]; tauto|]). discriminate.
Qed.
(* More blocks behind the container do not change it. *)
Lemma we_consistent enc : consistent enc we_dev 0 sb5.
Proof.
  destruct (dev5_ok enc) as (_ & d0 & A1 & A2 & A3 & A4 & A5 & A6 & A7 & A8).
  assert (EV : forall b, 0 <= b <= 6 -> we_dev b = dev5 b) by (intros b Hb; unfold we_dev; replace ((0 <=? b) && (b <=? 6)) with true by lia; reflexivity).
  destruct sb5_fields as (F1 & F2 & F3 & F4 & F5 & F6 & F7).
  assert (D0 : d0 = sb5) by (destruct A1 as (E & _); change (dev5 0) with (Some sb5) in E; injection E as <-; reflexivity).
  subst d0. split; [exact we_device|]. exists sb5. split; [split; [rewrite EV by lia; apply A1|apply A1]|]. split; [exact A2|]. split; [exact A3|]. split; [exact A4|].
  remember sb5 as s eqn:Es. clear Es. 
  split; [|split; [|split]].
  - intros i Hi. rewrite EV by lia. apply A5, Hi.
  - destruct A6 as (i & m & I1 & I2 & I3). exists i, m. split; [exact I1|]. rewrite EV by lia. split; [exact I2|exact I3].
  - destruct A7 as ((B1 & B2) & B3 & B4). split; [split; [rewrite EV by lia; exact B1|exact B2]|]. split; [exact B3|].
    intros b' d' Hb (C1 & C2). apply B4; [exact Hb|]. rewrite EV in C1 by lia. split; assumption.
  - destruct A8 as (root & l & (R1 & o & R2) & R3). exists root, None. split; [split; [exact R1|]; exists o; rewrite EV by lia; exact R2|]. left. exact F7.
Qed.
Lemma we_newest recs o x r : In r recs -> rec_oid r = o -> rec_txn r <= x ->
  forallb (fun r' => negb (rec_oid r' =? o) || negb (rec_txn r' <=? x) || (rec_txn r' <=? rec_txn r)) recs = true -> newest recs o x (Some r).
Proof.
  intros H1 H2 H3 H4. split; [exact H1|]. split; [exact H2|]. split; [exact H3|]. intros r' I1 I2 I3. rewrite forallb_forall in H4. specialize (H4 r' I1). lia.
Qed.
Lemma we_stored enc sha hmac xenc : volume_stored enc sha hmac xenc fx_tie we_dev 0 sb5 1 None None we.
Proof.
  destruct we_fields as (F1 & F2 & F3 & F4 & F5). destruct sb5_fields as (G1 & G2 & G3 & G4 & G5 & G6 & G7).
  unfold volume_stored. cbn [we vn_root vn_crecs vn_bag vn_super vn_omap vn_orecs vn_keys vn_snapshots vn_key vn_nodes vn_top vn_recs].
  split; [apply we_consistent|]. split; [exists 98%nat; vm_compute; reflexivity|].
  split; [split; [lia|]; exists ex_omap; rewrite G6; split; [reflexivity|]; vm_compute; intuition congruence|].
  split; [exists 0%nat; split; [lia|]; split; [ex_node_tac|]; sorted_tac|].
  split; [left; exact G7|].
  split; [exists 42, (ex_key 42 1, ex_val 101); split; [vm_compute; reflexivity|]; split; [apply we_newest; [right; left; reflexivity|reflexivity|rewrite G1; vm_compute; discriminate|rewrite G1; vm_compute; reflexivity]|];
    split; [split; [vm_compute; discriminate|reflexivity]|]; split; [reflexivity|exact we_super_ok]|].
  split; [rewrite F1; split; [lia|]; exists vx_omap; split; [reflexivity|]; vm_compute; intuition congruence|].
  split; [exists 0%nat; split; [lia|]; split; [ex_node_tac|]; sorted_tac|].
  split; [reflexivity|]. split; [left; split; [exact F3|reflexivity]|]. split; [reflexivity|]. split; [lia|]. rewrite F2, F4.
  split; [exists (ex_key 80 1, ex_val 20); split; [apply we_newest; [left; reflexivity|reflexivity|vm_compute; discriminate|vm_compute; reflexivity]|vm_compute; reflexivity]|].
  split; [intros b d _ E _; exact E|].
  exists 0%nat, 0%nat, we_orecs. cbn [fs_omap fs_orb fs_img fs_txn fs_rb]. split; [lia|]. split; [split; [ex_node_tac|]; sorted_tac|]. split; [lia|]. split.
  - cbn [subtree]. split.
    + exists 20. split; [reflexivity|]. split; [lia|]. exists (fx_node true true we_recs). split; [reflexivity|].
      assert (L : len (node_bytes (fx_node true true we_recs)) = 4096) by (vm_compute; reflexivity).
      assert (LF : (0 <? len (nd_free (fx_node true true we_recs)) + len (values_area (nd_recs (fx_node true true we_recs)))) = true) by (vm_compute; reflexivity).
      split; [|split; [exact L|]].
      * unfold node_ok. rewrite L. unfold nd_fixed. change (nd_flags (fx_node true true we_recs)) with 3.
        change (Z.testbit 3 2) with false. split; [reflexivity|]. cbn [nd_type nd_subtype nd_level nd_lists nd_footer fx_node].
        split; [lia|]. split; [lia|]. split; [lia|]. split; [lia|]. split; [reflexivity|].
        split; [reflexivity|]. split; [lia|]. split; [vm_compute; auto|]. discriminate.
      * split; [discriminate|]. split; [lia|]. split; [cbn; auto|]. split; [reflexivity|].
        split; [reflexivity|]. split; [reflexivity|]. split; [reflexivity|]. split; [reflexivity|reflexivity].
    + unfold we_recs. fs_sorted.
  - unfold we_recs. repeat (apply Forall_cons || apply Forall_nil); apply fs_rec_ok_dec; vm_compute; reflexivity.
Qed.
Lemma we_children id r : In r we_recs -> has 9 id r = true ->
  exists s i, r = fz_child id s i /\ ((id = 2 /\ s = [100] /\ i = 18) \/ (id = 2 /\ s = [101] /\ i = 17) \/ (id = 18 /\ s = [97; 98] /\ i = 16)).
Proof.
  intros H1 H2. unfold has in H2. apply andb_true_iff in H2. destruct H2 as (H2 & H3). apply Z.eqb_eq in H2. apply Z.eqb_eq in H3.
  unfold we_recs in H1. repeat (destruct H1 as [<-|H1]; [vm_compute in H2, H3; first [discriminate H3|subst id; eexists; eexists; split; [reflexivity|tauto]]|]). destruct H1.
Qed.
Lemma we_named id r e s : named false true id we_recs r e s -> exists s0 i, r = fz_child id s0 i /\ e = fz_rec s0 i /\ s = s0 /\
  ((id = 2 /\ s0 = [100] /\ i = 18) \/ (id = 2 /\ s0 = [101] /\ i = 17) \/ (id = 18 /\ s0 = [97; 98] /\ i = 16)).
Proof.
  intros (H1 & H2 & H3 & H4 & H5 & _). destruct (we_children id r H1 H2) as (s0 & i & -> & C). exists s0, i. split; [reflexivity|].
  assert (A : 1 <= len (utf8 s0) <= 1022 /\ 0 <= i < 2 ^ 64 /\ file_name s0 /\ spells s0 (s0 ++ [0]) /\ utf8 s0 = s0).
  { destruct C as [(_ & -> & ->)|[(_ & -> & ->)|(_ & -> & ->)]]; (split; [vm_compute; split; discriminate|]); (split; [lia|]);
      (split; [apply fy_ascii; reflexivity|]); (split; [apply fy_ascii; reflexivity|vm_compute; reflexivity]). }
  destruct A as (A1 & A2 & A3 & A4 & A5). pose proof (fz_dir_rec id s0 i A1 A2) as D. apply dir_rec_read in D. apply dir_rec_read in H3.
  assert (E : e = fz_rec s0 i) by congruence. split; [exact E|]. split; [|exact C]. subst e. cbn [fz_rec de_name] in H5. rewrite A5 in H5. eapply spells_inj; eauto.
Qed.
Lemma we_is_named id s i : In (fz_child id s i) we_recs -> has 9 id (fz_child id s i) = true -> forallb (fun c => (0 <? c) && (c <? 0x80)) s = true -> utf8 s = s -> 1 <= len s <= 1022 -> 0 <= i < 2 ^ 64 ->
  named false true id we_recs (fz_child id s i) (fz_rec s i) s.
Proof.
  intros H1 H2 H3 H4 H5 H6. split; [exact H1|]. split; [exact H2|]. split; [apply fz_dir_rec; rewrite ?H4; assumption|].
  destruct (fy_ascii s H3) as (A & B & _). split; [exact A|]. split; [|reflexivity]. cbn [fz_rec de_name]. rewrite H4. exact B.
Qed.
Lemma we_inode id size : In (fy_inode id size) we_recs -> has 3 id (fy_inode id size) = true -> 0 <= id < 2 ^ 60 -> is_ok (inode_value (snd (fy_inode id size))) = true ->
  inode_is we_recs id (Some (fy_value (fy_inode id size))).
Proof.
  intros H1 H2 H3 H4. split; [exact H3|]. exists (fy_inode id size). split; [exact H1|]. split; [exact H2|]. unfold fy_value.
  destruct (inode_value (snd (fy_inode id size))); [reflexivity|discriminate..].
Qed.
Lemma we_directories : directories fx_tie false true we_recs.
Proof.
  intros id v _. split; [|split; [|split]].
  - intros r H1 H2. destruct (we_children id r H1 H2) as (s & i & -> & C). exists (fz_rec s i), s.
    destruct C as [(_ & -> & ->)|[(_ & -> & ->)|(_ & -> & ->)]]; apply we_is_named; try assumption; try reflexivity; try lia; vm_compute; split; discriminate.
  - intros a b ea eb sa sb Ha Hb T. destruct (we_named _ _ _ _ Ha) as (s0 & i & -> & -> & -> & C). destruct (we_named _ _ _ _ Hb) as (s1 & j & -> & -> & -> & D). right. split; [reflexivity|].
    unfold fx_tie in T. destruct C as [(K & -> & ->)|[(K & -> & ->)|(K & -> & ->)]], D as [(M & -> & ->)|[(M & -> & ->)|(M & -> & ->)]]; subst id; try discriminate M; try (exfalso; clear - T; lia).
    + apply cmp_key_lt. vm_compute. reflexivity.
    + exfalso. vm_compute in T. discriminate T.
  - intros r e s H. split; [discriminate|]. destruct (we_named _ _ _ _ H) as (s0 & i & -> & -> & -> & C). cbn [fz_rec de_inode].
    destruct C as [(_ & _ & ->)|[(_ & _ & ->)|(_ & _ & ->)]]; eexists; [apply (we_inode 18 0)|apply (we_inode 17 0)|apply (we_inode 16 4100)]; try lia; try (vm_compute; reflexivity); unfold we_recs; cbn [In]; tauto.
  - intros r1 e1 s1 r2 e2 s2 H1 H2 S. destruct (we_named _ _ _ _ H1) as (s0 & i & -> & -> & -> & C). destruct (we_named _ _ _ _ H2) as (s3 & j & -> & -> & -> & D).
    destruct C as [(K & -> & ->)|[(K & -> & ->)|(K & -> & ->)]], D as [(M & -> & ->)|[(M & -> & ->)|(M & -> & ->)]]; subst id; try discriminate M; try reflexivity; vm_compute in S; discriminate S.
Qed.
(* the path "/d/ab" *)
Definition we_path : list Z := [47; 100; 47; 97; 98].
Lemma we_leads : leads false true we_recs 2 None (components we_path) 16 (Some (fz_rec [97; 98] 16)).
Proof.
  change (components we_path) with [[100]; [97; 98]].
  apply (leads_down _ _ _ _ _ _ _ (fz_child 2 [100] 18) (fz_rec [100] 18) [100]); [|discriminate|reflexivity|reflexivity|].
  - apply we_is_named; try reflexivity; try lia; [unfold we_recs; cbn [In]; tauto|vm_compute; split; discriminate].
  - apply (leads_down _ _ _ _ _ _ _ (fz_child 18 [97; 98] 16) (fz_rec [97; 98] 16) [97; 98]); [|discriminate|reflexivity|reflexivity|apply leads_here].
    apply we_is_named; try reflexivity; try lia; [unfold we_recs; cbn [In]; tauto|vm_compute; split; discriminate].
Qed.
Lemma we_file : is_file no_lzvn (plain_block we_dev) we_recs 16 (fy_value (fy_inode 16 4100)) [(mk_at [120; 0] 2 (AInline [1; 2; 3]), [120])]
    (mk_file (window fy_content 0 4100) [mk_ex 0 4096 900 0; mk_ex 4096 4096 950 0] 1 None).
Proof.
  assert (X : extents_of we_recs 16 [mk_ex 0 4096 900 0; mk_ex 4096 4096 950 0]).
  { split; [lia|]. split.
    - exists (fy_inode 16 4100). split; [do 3 right; left; reflexivity|]. right. vm_compute. split; [reflexivity|discriminate].
    - assert (E : filter (has 8 16) we_recs = [fy_extent 0 4096 900; fy_extent 4096 4096 950]) by (vm_compute; reflexivity). rewrite E.
      constructor; [apply fy_extent_rec; lia|]. constructor; [apply fy_extent_rec; lia|constructor]. }
  assert (ES : in_stream (fy_value (fy_inode 16 4100)) = 16) by (vm_compute; reflexivity).
  split; [|split; [|split; [|split; [|split; [reflexivity|reflexivity]]]]]; cbn [fl_extents fl_data].
  - split; [|repeat constructor; intros []].
    assert (E : filter (has 4 16) we_recs = [fy_attr 16 [120] [1; 2; 3]]) by (vm_compute; reflexivity).
    rewrite E. constructor; [|constructor]. cbn [fst snd]. split; [apply (fy_attr_rec 16 [120] [1; 2; 3]); [split; [|reflexivity]; vm_compute; discriminate|reflexivity]|].
    apply (fy_ascii [120]). reflexivity.
  - left. split; [left; reflexivity|]. rewrite window_len by lia. split; [vm_compute; reflexivity|].
    exists [mk_ex 0 4096 900 0; mk_ex 4096 4096 950 0], fy_content. rewrite ES. rewrite window_len by lia.
    split; [exact X|]. split; [cbn [contiguous ex_off ex_size]; repeat split; lia|]. split; [cbn [total fold_right ex_size]; lia|].
    split; [repeat constructor; cbn [ex_block ex_size]; lia|]. split; [|reflexivity].
    intros e k [<-|[<-|[]]] Hk; cbn [ex_size ex_block ex_off] in *; replace (Z.testbit (in_flags (fy_value (fy_inode 16 4100))) 9) with false by (vm_compute; reflexivity); cbn [andb].
    + assert (k = 0) as -> by lia. split; [reflexivity|]. unfold len. rewrite map_length, seq_length. lia.
    + assert (k = 0) as -> by lia. split; [reflexivity|]. unfold len. rewrite map_length, seq_length. lia.
  - rewrite ES. exact X.
  - repeat constructor; cbn [ex_block]; lia.
Qed.

(* The file is opened and read: the last bytes of the first block and the first of the second. *)
Example C73_example : forall enc dec sha hmac xenc xts unkeyed, primitives enc dec sha hmac -> (forall k1 k2, unit_cipher 512 (xenc k1 k2) (xts k1 k2)) ->
  exists c od ov h ctx t st,
    open (fun id => xts id id) we_dev = Ok c /\ volume_by_index we_dev c 1 = Ok od /\ volume_open (fun id => xts id id) we_dev (c_size c) (c_bag c) (od_address od) = Ok ov /\
    vrun unit unit keep keep dec sha hmac xts unkeyed we_dev ov (bags_of c ov) (fresh unit unit ov tt tt)
      [VState (SetUser None); VState (SetRecovery None); VPath false we_path (zeros 32) (zeros 32)] =
      Ok ([AInt (-1); AInt (-1); AEntry (Some (16, fy_value (fy_inode 16 4100), Some (fz_rec [97; 98] 16)))], h) /\
    context xts ov (v_keys (h_volume h)) = Some ctx /\ volume_fs we_dev ctx ov = Ok t /\
    entry_calls no_lzvn no_junk (mk_fe t we_dev ctx 16 (fy_value (fy_inode 16 4100)) (Some (fz_rec [97; 98] 16))) [CSize; CReadAt 4094 4; CRead 2; COffset; CExtents] f_init =
      Ok ([RSize 4100; RBytes [78; 79; 80; 81]; RBytes [82; 83]; RPos 4100; RCount 2], st).
Proof.
  intros enc dec sha hmac xenc xts unkeyed HP HX. destruct we_fields as (_ & _ & _ & _ & F5).
  destruct (C73_file_from_device_partial enc dec sha hmac xenc xts unit unit keep keep unkeyed no_lzvn no_junk fx_tie we_dev 0 sb5 1 None None we false
    (fy_value (fy_inode 2 0)) we_path 16 (Some (fz_rec [97; 98] 16)) (fy_value (fy_inode 16 4100)) [(mk_at [120; 0] 2 (AInline [1; 2; 3]), [120])]
    (mk_file (window fy_content 0 4100) [mk_ex 0 4096 900 0; mk_ex 4096 4096 950 0] 1 None) false (zeros 32) (zeros 32) tt tt
    [CSize; CReadAt 4094 4; CRead 2; COffset; CExtents]) as (c & od & ov & h & ctx & t & st & E1 & E2 & E3 & E4 & E5 & E6 & E7).
  - exact HP.
  - exact HX.
  - intros p l b. apply incl_refl.
  - intros q l b. apply incl_refl.
  - unfold fx_tie. lia.
  - apply zeros_len. lia.
  - apply zeros_len. lia.
  - reflexivity.
  - apply we_stored.
  - cbn [we vn_super vn_recs]. rewrite F5. exact we_directories.
  - apply we_inode; [left; reflexivity|vm_compute; reflexivity|lia|vm_compute; reflexivity].
  - apply fy_ascii. reflexivity.
  - vm_compute. discriminate.
  - cbn [we vn_super vn_recs]. rewrite F5. exact we_leads.
  - apply we_inode; [do 3 right; left; reflexivity|vm_compute; reflexivity|lia|vm_compute; reflexivity].
  - exact we_file.
  - exists c, od, ov, h, ctx, t, st. split; [exact E1|]. split; [exact E2|]. split; [exact E3|]. split; [exact E4|]. split; [exact E5|]. split; [exact E6|].
    rewrite E7. apply (f_equal (fun l => Ok (l, st))). vm_compute. reflexivity.
Qed.
