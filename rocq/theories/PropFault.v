(* C101, C102: blocks that cannot be read. *)
From Coq Require Import Lia.
From Verif Require Import Base BaseLemmas BTree Walk WalkProofs Omap OmapProofs OmapSpec TreeSpec RecordsSpec Records FsTree FsSpec PropFs Name FsName CryptSpec Crypt DataSpec DataRead Compressed CompressedSpec
  KeyBag Volume PropVolume Sha256 Aes PropCompressed FileEntry FileSpec FileProofs FileTop PropFile PropEntry Container VolumeSuper Snapshot Session SessionSpec SessionProofs PropSession EndSpec PropEnd ToolPath ToolMount ToolFuse ToolWin ToolExample PropToolPath PropToolInfo PropFuse PropToolWin FaultSpec Faults FaultProofs.

(* ---- C101 ---- *)
(* From a device with unreadable blocks, a container, a volume, a file, its bytes are what they are
   on the whole device, or there is an error. Nothing is missing that is there, nothing is read as
   something else. *)
Theorem C101_fetch : forall faulty aes sha hmac xts lzvn junk dev' dev index user recovery j1 j2 path off n, worse faulty dev' dev ->
  due faulty (fetch aes sha hmac xts lzvn junk dev' index user recovery j1 j2 path off n) (fetch aes sha hmac xts lzvn junk dev index user recovery j1 j2 path off n).
Proof. intros. apply fetch_due. assumption. Qed.
Print Assumptions C101_fetch.

(* The calls one by one: opening a container, a volume by its index, a snapshot; *)
Theorem C101_opening : forall faulty xts dev' dev, worse faulty dev' dev ->
  due faulty (open xts dev') (open xts dev) /\
  (forall c i, due faulty (volume_by_index dev' c i) (volume_by_index dev c i)) /\
  (forall n bag b, due faulty (volume_open xts dev' n bag b) (volume_open xts dev n bag b)) /\
  (forall ov i, due faulty (snapshot_open dev' ov i) (snapshot_open dev ov i)) /\
  (forall rb oid xid, due faulty (omap_lookup dev' rb oid xid) (omap_lookup dev rb oid xid)).
Proof.
  intros faulty xts dev' dev H. split; [apply open_due, H|]. split; [intros; apply by_index_due, H|]. split; [intros; apply volume_open_due, H|]. split; [|intros; apply omap_due, H].
  intros ov i. unfold snapshot_open. apply due_bind; [apply due_refl|]. intros _ _. apply due_bind; [apply due_refl|]. intros s _. apply vsuper_due, H.
Qed.
Print Assumptions C101_opening.

(* retrieving file entries, directories, attributes, extents and snapshots. *)
Theorem C101_lookups : forall faulty t' t, fs_worse faulty t' t ->
  (forall id, due faulty (fs_inode t' id) (fs_inode t id)) /\
  (forall next fold id s, due faulty (fs_by_name t' next fold id s) (fs_by_name t next fold id s)) /\
  (forall next fold id s, due faulty (fs_by_path t' next fold id s) (fs_by_path t next fold id s)) /\
  (forall id, due faulty (fs_dir t' id) (fs_dir t id)) /\
  (forall id, due faulty (fs_attrs t' id) (fs_attrs t id)) /\
  (forall id, due faulty (fs_extents t' id) (fs_extents t id)) /\
  due faulty (get_snapshots t') (get_snapshots t).
Proof.
  intros faulty t' t H. split; [intros; apply inode_due, H|]. split; [intros; apply by_name_due, H|]. split; [intros; apply by_path_due, H|].
  split; [intros; apply fs_walk_due, H|]. split; [intros; apply fs_walk_due, H|]. split; [intros; apply fs_walk_due, H|]. apply snap_due, H.
Qed.
Print Assumptions C101_lookups.

(* A file of 4100 bytes in the blocks 900 and 950, of which 950 cannot be read: the first block
   can, and there is no other answer for the second one than an error. *)
Definition without (b : Z) (dev : device) : device := fun x => if x =? b then None else dev x.
Lemma without_worse b dev : worse true (without b dev) dev.
Proof. intros x. unfold without. destruct (x =? b); auto. Qed.
Definition we_fetch (dev : device) (path : list Z) (off n : Z) : res (option (list Z)) :=
  fetch (fun _ d => d) (fun d => d) (fun _ d => d) (fun _ _ _ d => d) no_lzvn no_junk dev 1 None None (zeros 32) (zeros 32) path off n.
Example C101_example : we_fetch (without 950 we_dev) we_path 4090 4 = Ok (Some [74; 75; 76; 77]) /\ we_fetch (without 950 we_dev) we_path 4094 4 = Fail.
Proof. vm_compute. auto. Qed.
(* A name that is not there, and the same with a block of the tree that cannot be read. *)
Definition without_tree (b : Z) (t : fs) : fs := mk_fs (without b (fs_img t)) (fs_rb t) (fs_omap t) (fs_orb t) (fs_txn t).
Lemma without_tree_worse b t : fs_worse true (without_tree b t) t.
Proof. split; [apply without_worse|]. split; [intros x; left; reflexivity|]. auto. Qed.
Example C101_example_missing : fs_by_path fi utf8_next true 2 [47; 122] = Ok None /\ fs_by_path (without_tree 20 fi) utf8_next true 2 [47; 122] = Fail.
Proof. vm_compute. auto. Qed.

(* The full statement is false for mounted volumes: with a block that cannot be read, a file that
   is there is reported as missing. *)
Theorem C101_mounted_refuted : exists (tie : list Z -> list Z -> Prop) h t recs t' dev bad fold p q s,
  (forall a b c, tie a b -> tie b c -> tie a c) /\ fs_tree tie h t recs /\ fs_worse true t' t /\
  fuse_getattr bad t dev None fold p = Ok (inl s) /\ fuse_getattr bad t' dev None fold p = Ok (inr ENOENT) /\
  (exists e, win_create bad t dev None fold 0x80000000 1 q = Ok (inl e)) /\ win_create bad t' dev None fold 0x80000000 1 q = Ok (inr NOT_FOUND).
Proof.
  exists fx_tie, 0%nat, fi, fi_recs, (without_tree 20 fi), fz_dev, (fun _ => None), true, [47; 97; 47; 98], [92; 97; 92; 98], (mk_stat 2 0x81a4 1 0 0 0).
  split; [unfold fx_tie; intros; lia|]. split; [exact fi_tree|]. split; [apply without_tree_worse|]. split; [vm_compute; reflexivity|]. split; [vm_compute; reflexivity|].
  split; [eexists; vm_compute; reflexivity|vm_compute; reflexivity].
Qed.
Print Assumptions C101_mounted_refuted.

(* ---- C102 ---- *)
(* Calls on an open file, some of them while blocks cannot be read: each call gives what the file
   gives, or an error during such a time. A failed call changes nothing but the position, which it
   may leave where it should have read. Given for each call: whether blocks may be unreadable, the
   tree and the device as they are. *)
Theorem C102_file_partial : forall (tie : list Z -> list Z -> Prop) h t recs dev ctx block lzvn junk id i r l f (cs : list (bool * (fs * device) * fcall)),
  (forall a b c, tie a b -> tie b c -> tie a c) -> fs_tree tie h t recs -> 0 <= id < 2 ^ 60 -> In r recs -> has 3 id r = true ->
  volume_data dev ctx block -> (forall d s, len (junk d s) = len s) -> is_file lzvn block recs id i l f ->
  Forall (fun c => fs_worse (fst (fst c)) (fst (snd (fst c))) t /\ worse (fst (fst c)) (snd (snd (fst c))) dev) cs ->
  exists a st, lcalls lzvn junk ctx id i (map (fun c => (now_of (fst (snd (fst c))) (snd (snd (fst c))), snd c)) cs) l_init = Ok (a, st) /\
    history f 0 (map (fun c => (fst (fst c), snd c)) cs) a.
Proof.
  intros tie h t recs dev ctx block lzvn junk id i r l f cs H1 H2 H3 H4 H5 H6 H7 H8 HC.
  destruct (file_entry_facts tie h t recs dev ctx block lzvn junk id i None r l f H1 H2 H3 H4 H5 H6 H7 H8) as (hdr & FF & N).
  set (cs' := map (fun c : bool * (fs * device) * fcall => (fst (fst c), now_of (fst (snd (fst c))) (snd (snd (fst c))), snd c)) cs).
  assert (F' : Forall (fun c => now_worse (fst (fst c)) (snd (fst c)) (now_of t dev)) cs').
  { unfold cs'. rewrite Forall_map. eapply Forall_impl; [|exact HC]. intros ((fy & (t' & dev')) & c) (X1 & X2). cbn [fst snd] in *. apply now_of_worse; assumption. }
  destruct (lcalls_ok lzvn junk t dev ctx id i None _ hdr _ _ _ FF cs' l_init 0 (linv_init lzvn junk t dev ctx _ hdr _ _ _) F') as (a & st & pos & E & HH & _).
  exists a, st. unfold cs' in E, HH. rewrite map_map in E, HH. cbn [fst snd fa_all] in *. rewrite OmapTop.len_map, <- N in HH. split; [exact E|]. destruct f; exact HH.
Qed.
Print Assumptions C102_file_partial.

(* The file of the device above: block 950 is lost and comes back, then the tree is lost. *)
Definition lanswers (r : res (list fanswer * lstate)) : option (list fanswer) := match r with Ok (l, _) => Some l | _ => None end.
Definition whole : now := now_of fy fy_dev.
Definition lost : now := now_of fy (without 950 fy_dev).
Definition lost_tree : now := now_of (without_tree 20 fy) fy_dev.
Example C102_example : lanswers (lcalls no_lzvn no_junk None 16 (fy_value (fy_inode 16 4100))
    [(lost_tree, CSize); (lost, CReadAt 4094 4); (lost, COffset); (lost, CReadAt 4092 2); (whole, CRead 4); (lost_tree, CSeek 4094 0); (lost_tree, CRead 9); (lost, CRead 1); (lost_tree, CLink); (lost_tree, CSize)] l_init) =
  Some [RError; RError; RPos 4094; RBytes [76; 77]; RBytes [78; 79; 80; 81]; RPos 4094; RBytes [78; 79; 80; 81; 82; 83]; RBytes []; RLink None; RSize 4100].
Proof. vm_compute. reflexivity. Qed.
Example C102_instance : exists a st, lcalls no_lzvn no_junk None 16 (fy_value (fy_inode 16 4100)) [(lost, CReadAt 4094 4); (whole, CRead 4)] l_init = Ok (a, st) /\
  history (mk_file (window fy_content 0 4100) [mk_ex 0 4096 900 0; mk_ex 4096 4096 950 0] 1 None) 0 [(true, CReadAt 4094 4); (false, CRead 4)] a.
Proof.
  assert (R : forall t, fs_worse false t t) by (intros t; split; [intros b; left; reflexivity|]; split; [intros b; left; reflexivity|auto]).
  destruct (C102_file_partial fx_tie 0%nat fy fy_recs fy_dev None (plain_block fy_dev) no_lzvn no_junk 16 (fy_value (fy_inode 16 4100)) (fy_inode 16 4100) [(mk_at [120; 0] 2 (AInline [1; 2; 3]), [120])]
    (mk_file (window fy_content 0 4100) [mk_ex 0 4096 900 0; mk_ex 4096 4096 950 0] 1 None) [(true, (fy, without 950 fy_dev), CReadAt 4094 4); (false, (fy, fy_dev), CRead 4)]) as (a & st & E & H).
  - unfold fx_tie. lia.
  - exact fy_tree.
  - lia.
  - right. left. reflexivity.
  - vm_compute. reflexivity.
  - apply vd_plain.
  - reflexivity.
  - exact C66_instance_plain.
  - constructor; [|constructor; [|constructor]]; cbn [fst snd]; (split; [|first [apply without_worse|intros b; left; reflexivity]]); [|apply R].
    split; [intros b; left; reflexivity|]. split; [intros b; left; reflexivity|auto].
  - exists a, st. auto.
Qed.
(* A history is no excuse: without faults there is one list of answers, that of the file. *)
Theorem C102_exact : forall f pos l a, Forall (fun c => fst c = false) l -> history f pos l a -> a = file_steps f pos (map snd l).
Proof.
  intros f pos l a F H. revert F. induction H as [pos|pos fy c l a pos' r E H IH|pos c l pos' r _ _ H IH]; intros F; cbn [map snd file_steps].
  - reflexivity.
  - rewrite E, (IH (Forall_inv_tail F)). reflexivity.
  - discriminate (Forall_inv F).
Qed.
Print Assumptions C102_exact.

(* Lookups on an open volume, after any calls during which blocks may have been unreadable: what
   the volume holds under the keys in force, or an error if blocks are unreadable now. [unkeyed]
   as in C71. *)
Theorem C102_lookups_partial : forall P Q evn evb, (forall (p : P) l b, incl (snd (evn p l b)) l) -> (forall (q : Q) l b, incl (snd (evb q l b)) l) ->
  forall aes sha hmac xts, (forall k1 k2, exists enc, unit_cipher 512 enc (xts k1 k2)) ->
  forall dec img c b ov unkeyed, bytes_image img -> volume_open dec img (c_size c) (c_bag c) b = Ok ov -> unkeyed = None \/ ov_bag ov = None ->
  forall p q (cs : list (bool * device * vcall)) l h, Forall (fun c => worse (fst (fst c)) (snd (fst c)) img) cs ->
  vcalls P Q evn evb aes sha hmac xts unkeyed ov (bags_of c ov) (fresh P Q ov p q) (map (fun c => (snd (fst c), snd c)) cs) = Ok (l, h) ->
  forall faulty img' d a h', worse faulty img' img -> lookup_call d -> vstep P Q evn evb aes sha hmac xts unkeyed img' ov (bags_of c ov) h d = Ok (a, h') ->
  (faulty = true /\ a = AError) \/
  ((ov_bag ov = None -> a = stored_answer img ov None d) /\
   (v_locked (h_volume h') = true -> ov_bag ov <> None -> a = AError) /\
   (v_locked (h_volume h') = false -> ov_bag ov <> None -> exists k1 k2, v_keys (h_volume h') = Some (k1, k2) /\ a = stored_answer img ov (Some (xts k1 k2)) d)).
Proof.
  intros P Q evn evb H1 H2 aes sha hmac xts HX dec img c b ov unkeyed HB HO HU p q cs l h HF HR faulty img' d a h' HW HL HS.
  pose proof (open_locked _ _ _ _ _ _ HO) as HK.
  assert (S0 : sound P Q xts img ov (fresh P Q ov p q)) by (apply (sound_fresh P Q xts unkeyed img ov (bags_of c ov)); [reflexivity|exact HK|exact HU]).
  assert (S1 : sound P Q xts img ov h) by (eapply (vcalls_sound P Q evn evb H1 H2 aes sha hmac xts HX unkeyed img ov (bags_of c ov)); [exact HB|reflexivity|exact HK|exact HU|exact S0|exact HF|exact HR]).
  destruct (vstep_due P Q evn evb H1 H2 aes sha hmac xts HX unkeyed img ov (bags_of c ov) HB eq_refl HK HU faulty img' HW h d S1 a h' HS) as [E|(F & -> & _)]; [|left; auto].
  right. destruct (lookup_sound P Q evn evb H1 H2 aes sha hmac xts HX unkeyed img ov (bags_of c ov) HB eq_refl HK HU h d S1 HL a h' E) as ((K & _) & A).
  unfold SessionProofs.answers, context, keys_ok in *. destruct (ov_bag ov) as [bag|].
  - split; [discriminate|]. destruct (v_locked (h_volume h')); [rewrite K in A; split; [intros; exact A|discriminate]|]. split; [discriminate|].
    intros _ _. destruct K as [K|K]; [discriminate|]. destruct (v_keys (h_volume h')) as [(k1, k2)|]; [|congruence]. eauto.
  - split; [intros; exact A|]. split; intros; congruence.
Qed.
Print Assumptions C102_lookups_partial.
(* The encrypted volume of C71: the object map is lost, then the tree; what is in the caches is not
   read again. *)
Example C102_example_lookups : ss_answers (vcalls unit unit keep keep aes_dec sha256 hmac_sha256 sx_cipher None ss_ov (sample_bags [entry_pw]) (fresh unit unit ss_ov tt tt)
    [(ss_img, ss_password); (without 30 ss_img, ss_path); (without 20 ss_img, ss_path); (ss_img, ss_path); (without 20 ss_img, ss_path); (ss_img, VPath false [47; 120] [] [])]) =
  [inl 1; inl (-1); inl (-1); inr (Some 16); inr (Some 16); inr None].
Proof. vm_compute. reflexivity. Qed.
