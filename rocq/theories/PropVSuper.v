(* C61-C64: opening volumes and snapshots. *)
From Coq Require Import Lia.
From Verif Require Import Base BaseLemmas Checksum Checksummed BTree BTreeSpec BTreeProofs Walk TreeSpec Omap OmapSpec PropOmap Records RecordsSpec RecordsProofs FsTree FsSpec PropFs
  Crypt CryptSpec KeyBag KeyBagSpec Volume Container ContainerSpec ContainerProofs NameSpec Snapshot SnapSpec SnapProofs PropSnap VolumeSuper VSuperSpec VSuperProofs.

(* ---- a small volume ---- *)
(* superblock with object map in block 29 and root object 80 *)
Definition vx_sb (sum ty x snaps : Z) (name : list Z) : list Z :=
  le_enc 8 sum ++ (le_enc 8 1026 ++ le_enc 8 x ++ le_enc 4 ty ++ le_enc 4 0 ++ [65; 80; 83; 66] ++ le_enc 4 0 ++ le_enc 8 2 ++ le_enc 8 0 ++ le_enc 8 9 ++ zeros 64 ++
    le_enc 8 29 ++ le_enc 8 80 ++ le_enc 8 0 ++ le_enc 8 snaps ++ zeros 16 ++ le_enc 8 30 ++ zeros 56 ++ repeat 6 16 ++ zeros 8 ++ le_enc 8 1 ++ zeros 432 ++
    name ++ zeros (256 - len name) ++ zeros 3136).
Definition vx_omap : list Z := zeros 24 ++ le_enc 4 omap_kind ++ le_enc 4 0 ++ zeros 16 ++ le_enc 8 30 ++ zeros 40.
Definition vx4 := vx_sb 263347271079507576 0x0000000d 4 60 [86; 0xc3; 0xa9].
Definition vx5 := vx_sb 5905088627941133011 0x4000000d 5 0 [86; 49].
Definition vx9 := vx_sb 5906038537267833311 0x4000000d 9 0 [86; 50].
(* the snapshot superblocks are in blocks 77 and 2^32 + 77 *)
Definition vx_dev (a b : Z) : device := fun i =>
  if i =? 29 then Some vx_omap else if i =? 59 then Some vx4 else if i =? 77 then Some vx5 else if i =? 2 ^ 32 + 77 then Some vx9
  else if i =? 30 then sx_omap 30 else sx_img a b i.
Definition bytesb (d : list Z) : bool := forallb (fun x => (0 <=? x) && (x <? 256)) d.
Lemma bytesb_ok d : bytesb d = true -> bytes d.
Proof.
  intros H. apply Forall_forall. intros x Hx. unfold bytesb in H. rewrite forallb_forall in H. specialize (H x Hx). unfold is_byte. lia.
Qed.
Lemma vsuper_by_read d sn : bytesb d = true -> len d = 4096 -> is_ok (vsuper_read d sn) = true -> vsuper_block sn d.
Proof.
  intros B L H. apply bytesb_ok in B. destruct (vsuper_read d sn) as [s| | |] eqn:E; try discriminate. apply (vsuper_read_iff d sn s B L) in E. apply E.
Qed.
Lemma vx4_ok : vsuper_block false vx4.
Proof. apply vsuper_by_read; vm_compute; reflexivity. Qed.
Lemma vx5_ok : vsuper_block true vx5.
Proof. apply vsuper_by_read; vm_compute; reflexivity. Qed.
Lemma vx9_ok : vsuper_block true vx9.
Proof. apply vsuper_by_read; vm_compute; reflexivity. Qed.
Lemma vx_device a b : 0 <= a < 256 -> 0 <= b < 256 -> len (node_bytes (sx_node true false (sx_root a b))) <= 4096 -> bytesb (node_bytes (sx_node true false (sx_root a b))) = true ->
  device_ok (vx_dev a b).
Proof.
  intros Ha Hb HL HB i d.
  assert (H' : Forall (fun d => bytes d /\ len d <= 4096) [vx_omap; vx4; vx5; vx9; node_bytes (ex_node true true sx_orecs);
    node_bytes (sx_node true false (sx_root a b)); node_bytes (sx_node false true sx_leaf1); node_bytes (sx_node false true sx_leaf2);
    node_bytes (sx_node true true (sx_leaf1 ++ sx_leaf2))]).
  { assert (V : forall sn x, vsuper_block sn x -> bytes x /\ len x <= 4096) by (intros sn x (L & B & _); split; [exact B|lia]).
    apply Forall_cons; [split; [apply bytesb_ok|]; vm_compute; congruence|].
    apply Forall_cons; [apply (V false), vx4_ok|]. apply Forall_cons; [apply (V true), vx5_ok|]. apply Forall_cons; [apply (V true), vx9_ok|].
    apply Forall_cons; [split; [apply bytesb_ok|]; vm_compute; congruence|].
    apply Forall_cons; [split; [apply bytesb_ok; exact HB|exact HL]|].
    do 3 (apply Forall_cons; [split; [apply bytesb_ok|]; vm_compute; congruence|]). constructor. }
  clear HL HB. rewrite Forall_forall in H'. unfold vx_dev, sx_img. change (sx_omap 30) with (Some (node_bytes (ex_node true true sx_orecs))).
  generalize dependent vx_omap. generalize dependent vx4. generalize dependent vx5. generalize dependent vx9. generalize dependent (node_bytes (ex_node true true sx_orecs)).
  generalize dependent (node_bytes (sx_node true false (sx_root a b))). generalize dependent (node_bytes (sx_node false true sx_leaf1)).
  generalize dependent (node_bytes (sx_node false true sx_leaf2)). generalize dependent (node_bytes (sx_node true true (sx_leaf1 ++ sx_leaf2))).
  intros b1 b2 b3 b4 b5 b6 b7 b8 b9 H.
  do 9 (match goal with |- context [i =? ?k] => destruct (i =? k) end; [intros E; apply H; assert (X : Some d = Some d) by reflexivity; rewrite <- E in X at 1; injection X as <-; cbn [In]; tauto|]). discriminate.
Qed.

(* ---- C61 ---- *)
(* A block of the size of a superblock is accepted if and only if it is a superblock of the
   kind asked for, with correct checksum, and its fields are those recorded in it. *)
Theorem C61_superblock_accepted_iff_valid : forall d is_snapshot, bytes d -> len d = 4096 ->
  (forall s, vsuper_read d is_snapshot = Ok s <-> vsuper_block is_snapshot d /\ s = vcontents d) /\
  (~ vsuper_block is_snapshot d -> vsuper_read d is_snapshot = Fail).
Proof.
  intros d sn B L. split; [intros s; apply vsuper_read_iff; assumption|]. intros H. pose proof (vsuper_read_fine d sn B L) as F.
  destruct (vsuper_read d sn) as [s| | |] eqn:E; try contradiction; [|reflexivity]. apply (vsuper_read_iff d sn s B L) in E. tauto.
Qed.
Print Assumptions C61_superblock_accepted_iff_valid.
(* and the same for a block of a device *)
Theorem C61_superblock_of_block : forall img b is_snapshot, device_ok img -> 0 <= b < 2 ^ 51 ->
  (forall s, vsuper_at img b is_snapshot = Ok s <-> exists d, vsuper_in img is_snapshot b d /\ s = vcontents d) /\
  ((forall d, ~ vsuper_in img is_snapshot b d) -> vsuper_at img b is_snapshot = Fail).
Proof.
  intros img b sn D Hb.
  assert (X : forall s, vsuper_at img b sn = Ok s <-> exists d, vsuper_in img sn b d /\ s = vcontents d).
  { intros s. split.
    - intros E. apply (vsuper_at_ok img b sn s D) in E. rewrite Z.mod_small in E by lia. exact E.
    - intros (d & H & ->). apply vsuper_at_in, H. }
  split; [exact X|]. intros H. pose proof (vsuper_at_fine img b sn D) as F. destruct (vsuper_at img b sn) as [s| | |]; try contradiction; [|reflexivity].
  destruct (proj1 (X s) eq_refl) as (d & Hd & _). destruct (H d Hd).
Qed.
Print Assumptions C61_superblock_of_block.
Lemma vx_reads : vsuper_read vx4 true = Fail /\ vsuper_read vx5 false = Fail.
Proof. vm_compute. auto. Qed.
Example C61_example : vsuper_block false vx4 /\ (vs_xid (vcontents vx4), vs_omap (vcontents vx4), vs_root (vcontents vx4), vs_snapshots (vcontents vx4), vs_id (vcontents vx4)) =
  (4, 29, 80, 60, repeat 6 16) /\ vsuper_read vx4 true = Fail /\ vsuper_read vx5 false = Fail.
Proof. split; [exact vx4_ok|]. split; [vm_compute; reflexivity|exact vx_reads]. Qed.

(* ---- C62 ---- *)
Theorem C62_volume_opens_recorded_state_partial : forall enc dec, (forall id, unit_cipher 512 (enc id) (dec id)) ->
  forall img size bag b d o ho orecs k (tie : list Z -> list Z -> Prop) ss, device_ok img -> (forall a b c, tie a b -> tie b c -> tie a c) ->
  vsuper_in img false b d -> omap_object img (num d 128 8) o -> Z.of_nat ho <= 256 -> omap_tree (part size img) ho o orecs ->
  volume_keys_are enc img bag d k -> snapshots_are (part size img) tie d orecs ss -> num d 136 8 <> 0 ->
  exists v, volume_open dec img size (match bag with None => None | Some l => Some (Some l) end) b = Ok v /\
    ov_super v = vcontents d /\ ov_omap v = o /\ ov_bag v = k /\ (ov_locked v = true <-> k <> None) /\ map sn_name (ov_snapshots v) = map sm_name ss.
Proof.
  intros enc dec HC img size bag b d o ho orecs k tie ss D HT HV HO Hho HOT HK HS HR.
  eexists. split; [apply (volume_open_ok enc dec HC img size bag b d o ho orecs k tie ss); assumption|]. cbn [ov_super ov_omap ov_bag ov_locked ov_snapshots].
  split; [reflexivity|]. split; [reflexivity|]. split; [reflexivity|]. split; [destruct k; split; congruence|].
  rewrite map_map. apply map_ext. reflexivity.
Qed.
Print Assumptions C62_volume_opens_recorded_state_partial.
(* The name of the volume, which takes 256 bytes in the superblock. *)
Theorem C62_volume_name : forall d is_snapshot cs, vsuper_block is_snapshot d -> text cs -> no_mark cs ->
  (exists rest, slice d 704 256 = utf8 cs ++ rest /\ (rest = [] \/ exists r, rest = 0 :: r)) ->
  volume_name (vcontents d) = Ok cs.
Proof.
  intros d sn cs (L & _) HT HN (rest & E & HR). unfold volume_name. change (vs_name (vcontents d)) with (slice d 704 256).
  assert (L2 : len (utf8 cs) + len rest = 256) by (rewrite <- len_app, <- E, len_slice by lia; reflexivity). rewrite E. rewrite stream_text_ok; [|exact HT|lia|].
  - unfold unmark, no_mark in *. destruct cs as [|c cs]; [reflexivity|]. rewrite (proj2 (Z.eqb_neq _ _) HN). reflexivity.
  - destruct HR as [->|(r & ->)]; [right; change (len (@nil Z)) with 0 in L2; lia|left]. rewrite len_cons in L2. pose proof (len_nonneg r). split; [lia|eauto].
Qed.
Print Assumptions C62_volume_name.
Lemma vx4_fields : num vx4 128 8 = 29 /\ num vx4 136 8 = 80 /\ num vx4 152 8 = 60 /\ xid vx4 = 4 /\ slice vx4 704 256 = utf8 [86; 233] ++ zeros 253 /\ num vx4 264 8 = 1.
Proof. vm_compute. auto 10. Qed.
Lemma vx_opens enc dec : (forall id, unit_cipher 512 (enc id) (dec id)) -> volume_open dec (vx_dev 50 51) 409600 None 59 =
  Ok {| ov_size := 409600; ov_super := vcontents vx4; ov_omap := 30; ov_bag := None; ov_locked := false; ov_snapshots := [mk_snap 77 [97; 0]; mk_snap 77 [98; 99; 0]] |}.
Proof.
  intros HC. destruct vx4_fields as (F1 & F2 & F3 & F4 & _). assert (HT : forall a b c, fx_tie a b -> fx_tie b c -> fx_tie a c) by (unfold fx_tie; lia).
  pose proof (vx_device 50 51 ltac:(lia) ltac:(lia) ltac:(vm_compute; discriminate) ltac:(vm_compute; reflexivity)) as D. pose proof vx4_ok as S4.
  apply (volume_open_ok enc dec HC (vx_dev 50 51) 409600 None 59 vx4 30 0 sx_orecs None fx_tie [sx5; sx9] D HT).
  - split; [lia|]. split; [reflexivity|exact S4].
  - rewrite F1. split; [lia|]. exists vx_omap. split; [reflexivity|]. vm_compute. intuition congruence.
  - lia.
  - apply sx_omap_tree. reflexivity.
  - reflexivity.
  - right. rewrite F3, F4. split; [lia|]. exists 1%nat. apply sx_virtual. intros i [<-|[<-|[<-|[]]]]; reflexivity.
  - rewrite F2. lia.
Qed.
Example C62_example : forall enc dec, (forall id, unit_cipher 512 (enc id) (dec id)) ->
  exists v, volume_open dec (vx_dev 50 51) 409600 None 59 = Ok v /\ ov_locked v = false /\ map sn_name (ov_snapshots v) = [[97; 0]; [98; 99; 0]] /\
    volume_name (ov_super v) = Ok [86; 233].
Proof.
  intros enc dec HC. eexists. split; [apply (vx_opens enc dec HC)|]. split; [reflexivity|]. split; [reflexivity|]. cbn [ov_super].
  apply (C62_volume_name vx4 false); [exact vx4_ok| | |].
  - repeat constructor; unfold scalar; lia.
  - cbn. lia.
  - exists (zeros 253). destruct vx4_fields as (_ & _ & _ & _ & E & _). split; [exact E|]. right. exists (zeros 252). reflexivity.
Qed.
(* The full statement is false: with a snapshot tree of more than one node, in the on-disk
   format, the volume does not open at all. *)
Theorem C62_physical_snapshot_tree_refuted : exists img size b d o orecs ss, device_ok img /\ vsuper_in img false b d /\ omap_object img (num d 128 8) o /\
  omap_tree (part size img) 0 o orecs /\ num d 152 8 <> 0 /\ (exists tie h, snap_tree (part size img) physical tie h (num d 152 8) ss) /\ num d 136 8 <> 0 /\
  forall dec, volume_open dec img size None b = Fail.
Proof.
  exists (vx_dev 61 62), 409600, 59, vx4, 30, sx_orecs, [sx5; sx9]. destruct vx4_fields as (F1 & F2 & F3 & F4 & _). pose proof vx4_ok as S4.
  split; [apply vx_device; try lia; vm_compute; congruence|]. split; [split; [lia|split; [reflexivity|exact S4]]|].
  split; [rewrite F1; split; [lia|]; exists vx_omap; split; [reflexivity|]; vm_compute; intuition congruence|].
  split; [apply sx_omap_tree; reflexivity|]. split; [lia|]. split; [|split; [lia|]].
  - exists fx_tie, 1%nat. rewrite F3. apply sx_physical. intros i [<-|[<-|[<-|[]]]]; reflexivity.
  - intros dec. assert (E : vsuper_at (vx_dev 61 62) 59 false = Ok (vcontents vx4)) by (apply vsuper_at_in; split; [lia|split; [reflexivity|exact S4]]).
    unfold volume_open. rewrite E. cbn [bind].
    change (vs_omap (vcontents vx4)) with (num vx4 128 8). change (vs_snapshots (vcontents vx4)) with (num vx4 152 8). change (vs_root (vcontents vx4)) with (num vx4 136 8).
    change (vs_xid (vcontents vx4)) with (xid vx4). rewrite F1, F3, F4. cbn [volume_keys].
    assert (EO : omap_at (vx_dev 61 62) 29 = Ok 30) by (vm_compute; reflexivity). change (negb (29 =? 0)) with true. cbn [check bind]. rewrite EO. cbn [bind].
    change (negb (30 =? 0)) with true. cbn [check bind]. change (60 =? 0) with false. cbv iota.
    assert (EG : get_snapshots (mk_fs (within 409600 (vx_dev 61 62)) 60 (within 409600 (vx_dev 61 62)) 30 4) = Fail) by (vm_compute; reflexivity). rewrite EG. reflexivity.
Qed.
Print Assumptions C62_physical_snapshot_tree_refuted.

(* ---- C63 ---- *)
Theorem C63_open_safe_on_any_device : forall dec img, (forall id m s, bytes s -> len s = 512 -> bytes (dec id (data_unit m) s) /\ len (dec id (data_unit m) s) = 512) ->
  device_ok img -> forall size bag b, fine (volume_open dec img size bag b) /\
  forall v, volume_open dec img size bag b = Ok v -> fine (volume_name (ov_super v)) /\
    forall i, fine (snapshot_open img v i) /\ forall s, snapshot_open img v i = Ok s -> fine (volume_name s).
Proof.
  intros dec img Hdec D size bag b. assert (N : forall b' sn s, vsuper_at img b' sn = Ok s -> fine (volume_name s)).
  { intros b' sn s E. apply (vsuper_at_ok img b' sn s D) in E. destruct E as (d & (_ & _ & (L & _)) & ->). apply stream_text_fine.
    change (vs_name (vcontents d)) with (slice d 704 256). rewrite len_slice by lia. lia. }
  split; [apply volume_open_fine; assumption|]. intros v E. split.
  - unfold volume_open in E. apply bind_ok in E. destruct E as (s & ES & E). apply bind_ok in E. destruct E as (u & _ & E). apply bind_ok in E. destruct E as (o & _ & E).
    apply bind_ok in E. destruct E as (u1 & _ & E). apply bind_ok in E. destruct E as ((k & lk) & _ & E). apply bind_ok in E. destruct E as (sn & _ & E).
    apply bind_ok in E. destruct E as (u2 & _ & E). apply SnapProofs.Ok_inj in E. subst v. cbn [ov_super]. apply (N _ _ _ ES).
  - intros i. split; [apply (snapshot_open_fine dec); assumption|]. intros s ES. unfold snapshot_open in ES. apply bind_ok in ES. destruct ES as (u & _ & ES).
    apply bind_ok in ES. destruct ES as (x & _ & ES). apply (N _ _ _ ES).
Qed.
Print Assumptions C63_open_safe_on_any_device.
Example C63_example : device_ok (vx_dev 61 62) /\ forall dec, (forall id m s, bytes s -> len s = 512 -> bytes (dec id (data_unit m) s) /\ len (dec id (data_unit m) s) = 512) ->
  fine (volume_open dec (vx_dev 61 62) 0 None 59) /\ fine (volume_open dec (vx_dev 61 62) 4096 (Some None) 60) /\ fine (volume_open dec (vx_dev 61 62) 409600 None (2 ^ 64 - 1)).
Proof.
  assert (D : device_ok (vx_dev 61 62)) by (apply vx_device; try lia; vm_compute; congruence). split; [exact D|]. intros dec Hdec.
  pose proof (fun size bag b => proj1 (C63_open_safe_on_any_device dec _ Hdec D size bag b)) as F. split; [exact (F 0 None 59)|split; [exact (F 4096 (Some None) 60)|exact (F 409600 None (2 ^ 64 - 1))]].
Qed.

(* ---- C64 ---- *)
(* A snapshot opens its own superblock if the number of its block fits 32 bits. *)
Theorem C64_snapshot_opens_own_superblock_partial : forall img v ss i s d, ov_snapshots v = map snap_of ss -> nth_error ss (Z.to_nat i) = Some s -> 0 <= i ->
  sm_block s < 2 ^ 32 -> vsuper_in img true (sm_block s) d -> snapshot_open img v i = Ok (vcontents d).
Proof.
  intros img v ss i s d EV EN Hi Hs HD. unfold snapshot_open. rewrite EV.
  assert (HL : i < len (map snap_of ss)) by (rewrite OmapTop.len_map; unfold len; assert (X : (Z.to_nat i < length ss)%nat) by (apply nth_error_Some; congruence); lia).
  rewrite check_true by lia. cbn [bind]. destruct (getb_in (map snap_of ss) i ltac:(lia)) as (x & E & EX). rewrite E. cbn [bind].
  rewrite nth_error_map, EN in EX. cbn [option_map] in EX. injection EX as <-. unfold snap_of. cbn [sn_block].
  pose proof HD as (Hb & _). rewrite Z.mod_small by lia. apply vsuper_at_in, HD.
Qed.
Print Assumptions C64_snapshot_opens_own_superblock_partial.
Theorem C64_bad_index_is_an_error : forall img v i, ~ 0 <= i < len (ov_snapshots v) -> snapshot_open img v i = Fail.
Proof. intros img v i H. unfold snapshot_open. replace ((0 <=? i) && (i <? len (ov_snapshots v))) with false by lia. reflexivity. Qed.
Print Assumptions C64_bad_index_is_an_error.
Example C64_example : forall enc dec, (forall id, unit_cipher 512 (enc id) (dec id)) -> exists v, volume_open dec (vx_dev 50 51) 409600 None 59 = Ok v /\
  snapshot_open (vx_dev 50 51) v 0 = Ok (vcontents vx5) /\ snapshot_open (vx_dev 50 51) v 2 = Fail.
Proof.
  intros enc dec HC. eexists. split; [apply (vx_opens enc dec HC)|]. split; [|reflexivity].
  apply (C64_snapshot_opens_own_superblock_partial _ _ [sx5; sx9] 0 sx5); [reflexivity|reflexivity|lia|cbn; lia|]. split; [cbn; lia|]. split; [reflexivity|exact vx5_ok].
Qed.
(* The full statement is false: the second snapshot of the example is recorded in block
   2^32 + 77, which has its superblock, but the superblock of the first one is opened. *)
Theorem C64_block_number_truncated_refuted : exists img v ss s d d', device_ok img /\
  (forall enc dec, (forall id, unit_cipher 512 (enc id) (dec id)) -> volume_open dec img 409600 None 59 = Ok v) /\
  ov_snapshots v = map snap_of ss /\ nth_error ss 1 = Some s /\ vsuper_in img true (sm_block s) d /\ xid d = sm_xid s /\
  snapshot_open img v 1 = Ok (vcontents d') /\ xid d' <> sm_xid s.
Proof.
  exists (vx_dev 50 51), {| ov_size := 409600; ov_super := vcontents vx4; ov_omap := 30; ov_bag := None; ov_locked := false; ov_snapshots := [mk_snap 77 [97; 0]; mk_snap 77 [98; 99; 0]] |}.
  exists [sx5; sx9], sx9, vx9, vx5. split; [apply vx_device; try lia; vm_compute; congruence|]. split; [exact vx_opens|]. split; [reflexivity|]. split; [reflexivity|].
  assert (X9 : xid vx9 = 9) by (vm_compute; reflexivity). assert (X5 : xid vx5 = 5) by (vm_compute; reflexivity).
  split; [split; [cbn; lia|]; split; [reflexivity|exact vx9_ok]|]. split; [exact X9|]. split; [|rewrite X5; discriminate].
  unfold snapshot_open. cbn [ov_snapshots]. change (check _) with (Ok tt). cbn [bind]. change (getb _ 1) with (Ok (mk_snap 77 [98; 99; 0])). cbn [bind sn_block].
  apply vsuper_at_in. split; [lia|]. split; [reflexivity|exact vx5_ok].
Qed.
Print Assumptions C64_block_number_truncated_refuted.
