(* C111: debug output. *)
From Coq Require Import Lia.
From Verif Require Import Base BaseLemmas At Checksum ChecksumSpec Checksummed BTree BTreeProofs Walk
  Omap OmapSpec Crypt CryptSpec CryptProofs KeyBag KeyBagSpec KeyBagProofs UnlockProofs RecordsProofs Container ContainerSpec ContainerProofs ContainerTop PropContainer PropOpen
  FsTree Snapshot VolumeSuper VSuperSpec VSuperProofs PropVSuper Deflate Compressed CompressedSpec CompressedProofs PropCompressed Verbose VerboseSpec VerboseProofs.
Ltac Zify.zify_post_hook ::= Z.div_mod_to_equations.

(* ---- containers ---- *)
(* For any device: verbose output gives the same container as none, or an error. In particular no
   read outside a buffer and no endless loop. *)
Theorem C111_container_any : forall dec, (forall id m s, bytes s -> len s = 512 -> bytes (dec id (data_unit m) s) /\ len (dec id (data_unit m) s) = 512) ->
  forall img, device_ok img -> (open_v dec img = open dec img \/ open_v dec img = Fail) /\ fine (open_v dec img).
Proof.
  intros dec HD img D. destruct (open_v_only_fails img D dec) as [E|E]; rewrite E; split; auto; [exact I|]. apply open_fine; assumption.
Qed.
Print Assumptions C111_container_any.
(* For a consistent container: exactly if the objects that are printed are there, it opens as
   without. *)
Theorem C111_container_partial : forall enc dec, (forall id, unit_cipher 512 (enc id) (dec id)) ->
  forall img b d, consistent enc img b d -> exists c, open dec img = Ok c /\ (objects_there img d (c_map c) -> open_v dec img = Ok c) /\ (~ objects_there img d (c_map c) -> open_v dec img = Fail).
Proof.
  intros enc dec HC img b d H. destruct (open_consistent enc dec HC img b d H) as (c & m & j & E & _). exists c. split; [exact E|]. split.
  - intros O. apply (open_v_iff enc dec HC img b d c H). split; assumption.
  - intros NO. destruct (open_v_only_fails img (proj1 H) dec) as [X|X]; [exact X|]. exfalso. apply NO. rewrite E in X. apply (open_v_iff enc dec HC img b d c H) in X. apply X.
Qed.
Print Assumptions C111_container_partial.

(* A container whose superblock names a space manager, object 1024, which the checkpoint map has
   in block 20. *)
Definition sb_space : list Z := le_enc 8 9756545122038333515 ++ skipn 8 (firstn 152 sb5) ++ le_enc 8 1024 ++ skipn 160 sb5.
Lemma sb_space_ok : superblock_block sb_space.
Proof. apply superblock_by_read; vm_compute; reflexivity. Qed.
Lemma sb_space_fields : fields sb_space 5 /\ num sb_space 152 8 = 1024 /\ num sb_space 168 8 = 0 /\ num sb_space 1352 8 = 0.
Proof. vm_compute. auto 10. Qed.
Definition dev_space := ex_dev sb_space map5 sb_space (zeros 4096) (zeros 4096).
Lemma dev_space_ok enc : consistent enc dev_space 0 sb_space.
Proof.
  destruct sb_space_fields as ((F1 & F2 & F3 & F4 & F5 & F6 & F7) & _). destruct map_fields as ((M5 & K5) & _).
  pose proof sb_space_ok as S5. pose proof map5_ok as P5. unfold dev_space. remember sb_space as s eqn:Es. clear Es. remember map5 as m eqn:Em. clear Em.
  apply (ex_consistent enc _ _ _ _ _ 0 s m); try assumption; try lia.
  - rewrite F5. reflexivity.
  - repeat (apply Forall_cons; [tauto|]). constructor.
  - cbn [In]. auto.
  - reflexivity.
  - intros i d' Hi E Sd. split; [|lia]. pose proof (superblock_kind_of d' Sd) as K. unfold ex_dev in E.
    assert (C : i = 0 \/ i = 1 \/ i = 2 \/ i = 3 \/ i = 4) by lia. destruct C as [C|[C|[C|[C|C]]]]; subst i; cbn [Z.eqb Pos.eqb] in E; injection E as <-.
    + lia.
    + rewrite K5 in K. discriminate.
    + lia.
    + rewrite zeros_kind in K. discriminate.
    + rewrite zeros_kind in K. discriminate.
Qed.
Definition space_manager : list Z := zeros 24 ++ le_enc 4 0x80000005 ++ zeros 4068.
Lemma only_map s m' m j : kind s = superblock_kind -> 0 <= j <= 3 -> ex_dev s m' s (zeros 4096) (zeros 4096) (1 + j) = Some m -> kind m = map_kind -> m = m'.
Proof.
  intros K1 HJ EM KM. assert (C : j = 0 \/ j = 1 \/ j = 2 \/ j = 3) by lia. destruct C as [-> | [-> | [-> | ->]]]; unfold ex_dev in EM; cbn [Z.add Z.eqb Pos.eqb Pos.add Pos.succ] in EM.
  - congruence.
  - exfalso. assert (m = s) by congruence. subst m. rewrite K1 in KM. discriminate KM.
  - exfalso. assert (m = zeros 4096) by congruence. subst m. rewrite zeros_kind in KM. discriminate KM.
  - exfalso. assert (m = zeros 4096) by congruence. subst m. rewrite zeros_kind in KM. discriminate KM.
Qed.
(* The full statement is false: without its space manager, which nothing but the debug output
   uses, the container opens only without verbose output. *)
Theorem C111_container_refuted : exists img b d, (forall enc, consistent enc img b d) /\
  forall enc dec, (forall id, unit_cipher 512 (enc id) (dec id)) -> (exists c, open dec img = Ok c /\ c_sb c = contents d) /\ open_v dec img = Fail.
Proof.
  exists dev_space, 0, sb_space. split; [exact dev_space_ok|]. intros enc dec HC.
  destruct (open_consistent enc dec HC _ _ _ (dev_space_ok enc)) as (c & m & j & E & O & EM & MB & ECM & (EJ & HJ) & _). split; [exists c; split; [exact E|apply O]|].
  destruct (open_v_only_fails dev_space (proj1 (dev_space_ok enc)) dec) as [X|X]; [exact X|]. exfalso. rewrite E in X. apply (open_v_iff enc dec HC _ _ _ c (dev_space_ok enc)) in X.
  destruct X as (_ & _ & [X|(a & FM & _ & (o & Eo & _))] & _); destruct sb_space_fields as (FF & N1 & _); [lia|]. rewrite N1 in FM. unfold fields in FF.
  assert (K1 : kind sb_space = superblock_kind) by (apply superblock_kind_of, sb_space_ok).
  assert (m = map5) by (destruct FF as (_ & _ & F3 & F4 & _); destruct MB as (_ & _ & _ & KM & _); rewrite EJ, F3 in EM; rewrite F4 in HJ; exact (only_map sb_space map5 m j K1 HJ EM KM)).
  subst m. rewrite ECM in FM. assert (F20 : first_mapping (mappings map5) 1024 (Some 20)).
  { exists [], [(1025, 21); (1024, 22)]. split; [vm_compute; reflexivity|intros []]. }
  pose proof (first_mapping_one _ _ _ _ FM F20) as X. injection X as ->. vm_compute in Eo. discriminate Eo.
Qed.
Print Assumptions C111_container_refuted.
(* With the space manager it opens with verbose output, too. *)
Example C111_container_example : forall dec, open_v dec (ContainerSpec.put dev_space 20 space_manager) =
  Ok {| c_size := 409600; c_sb := contents sb_space; c_map_block := 1; c_map := mappings map5; c_root := 6; c_bag := None |}.
Proof. intros dec. vm_compute. reflexivity. Qed.

(* ---- volumes ---- *)
(* A library with debug output opens a volume exactly if one without does and the extent reference
   tree is there, and otherwise gives an error; for any device. *)
Theorem C111_volume_partial : forall dec img size bag b,
  (volume_open_d dec img size bag b = volume_open dec img size bag b \/ volume_open_d dec img size bag b = Fail) /\
  forall ov, volume_open_d dec img size bag b = Ok ov <->
    volume_open dec img size bag b = Ok ov /\ (vs_extents (ov_super ov) = 0 \/ object_there img (vs_extents (ov_super ov)) 4096 0x40000002 0xf).
Proof.
  intros dec img size bag b. split; [destruct (volume_open_d_only_fails dec img size bag b); auto|]. intros ov. apply volume_open_d_iff.
Qed.
Print Assumptions C111_volume_partial.
Definition vx_ext : list Z := le_enc 8 263224727072646665 ++ skipn 8 (firstn 144 vx4) ++ le_enc 8 31 ++ le_enc 8 0 ++ skipn 160 vx4.
Lemma vx_ext_ok : vsuper_block false vx_ext.
Proof. apply vsuper_by_read; vm_compute; reflexivity. Qed.
Definition ext_dev (t : list Z) : device := fun i => if i =? 29 then Some vx_omap else if i =? 59 then Some vx_ext else if i =? 31 then Some t else None.
Definition ext_tree : list Z := zeros 24 ++ le_enc 4 0x40000002 ++ le_enc 4 0xf ++ zeros 4064.
Definition ext_volume : open_volume := {| ov_size := 409600; ov_super := vcontents vx_ext; ov_omap := 30; ov_bag := None; ov_locked := false; ov_snapshots := [] |}.
Example C111_volume_example : forall dec, volume_open dec (ext_dev ext_tree) 409600 None 59 = Ok ext_volume /\ volume_open_d dec (ext_dev ext_tree) 409600 None 59 = Ok ext_volume.
Proof. intros dec. vm_compute. auto. Qed.
(* The full statement is false: with a damaged extent reference tree, which nothing but the debug
   code uses, only the library without debug output opens the volume. *)
Theorem C111_volume_refuted : exists img ov, device_ok img /\ forall dec, volume_open dec img 409600 None 59 = Ok ov /\ volume_open_d dec img 409600 None 59 = Fail.
Proof.
  exists (ext_dev (zeros 4096)), ext_volume. split; [|intros dec; vm_compute; auto].
  intros b d E. unfold ext_dev in E. destruct (b =? 29); [injection E as <-; split; [apply PropVSuper.bytesb_ok; vm_compute; reflexivity|vm_compute; discriminate]|].
  destruct (b =? 59); [injection E as <-; pose proof vx_ext_ok as (L & B & _); split; [exact B|lia]|].
  destruct (b =? 31); [injection E as <-; apply zeros_small|discriminate].
Qed.
Print Assumptions C111_volume_refuted.

(* ---- compressed files ---- *)
Lemma footer_cases C : le_val (slice C 0 4) <> INLINE_SIG -> 272 <= len C -> bytes C ->
  (footer_read METHOD_DEFLATE (mem C) = Ok tt /\ footer_there C) \/ (footer_read METHOD_DEFLATE (mem C) = Fail /\ ~ footer_there C).
Proof.
  intros HS L HB. unfold footer_read. destruct (read_into_cases C _ 0 4 (buf_init C) ltac:(lia)) as (_ & _ & _ & R). destruct R as (buf & R & B); [lia|lia|].
  rewrite R. cbn [bind]. rewrite (sig_rd C buf B). cbn [bind]. change 0x636d7066 with INLINE_SIG. replace (le_val (slice C 0 4) =? INLINE_SIG) with false by lia.
  change (METHOD_DEFLATE =? METHOD_DEFLATE) with true. cbv iota.
  destruct (read_into_cases C buf 4 268 B ltac:(lia)) as (_ & _ & _ & R1). destruct R1 as (buf1 & R1 & B1); [lia|lia|]. rewrite R1. cbn [bind]. change (4 + 268) with 272 in B1.
  rewrite !(buf_rd_be C 272 buf1 _ 4 B1) by lia. cbn [bind]. unfold footer_there. set (off := be_val (slice C 4 4)). set (size := be_val (slice C 12 4)).
  assert (RG : forall k, 0 <= k -> k + 4 <= len C -> 0 <= be_val (slice C k 4) < 2 ^ 32).
  { intros k K1 K2. pose proof (le_val_range (rev (slice C k 4)) ltac:(apply Forall_rev, bytes_slice; exact HB)) as X. rewrite <- be_val_rev, rev_involutive in X. unfold len in X. rewrite rev_length in X. fold (len (slice C k 4)) in X. rewrite len_slice in X by lia. exact X. }
  pose proof (RG 4 ltac:(lia) ltac:(lia)) as RO. pose proof (RG 12 ltac:(lia) ltac:(lia)) as RS. fold off in RO. fold size in RS. clear RG.
  change (BLOCK + 1) with 65537. destruct (65537 <? size) eqn:E1; cbn [negb check bind]; [right; split; [reflexivity|lia]|]. apply Z.ltb_ge in E1.
  destruct (size =? 0) eqn:E2; [left; split; [reflexivity|lia]|]. apply Z.eqb_neq in E2.
  unfold read_into, mem, src_read, stream_read. replace ((0 <=? off) && (0 <=? size) && (size <=? 2 ^ 63 - 1)) with true by lia. cbn [check bind].
  assert (LS : len (slice C off (Z.min size (len C - off))) = Z.max 0 (Z.min size (len C - off))).
  { destruct (Z.le_gt_cases off (len C)); [rewrite len_slice by lia; lia|]. unfold slice. replace (Z.to_nat (Z.min size (len C - off))) with O by lia. rewrite firstn_O. change (len (@nil Z)) with 0. lia. }
  rewrite store_in by (destruct B1 as (LB & _); lia). cbn [bind]. rewrite LS. destruct (Z.max 0 (Z.min size (len C - off)) =? size) eqn:E3; cbn [check bind].
  - left. split; [reflexivity|]. lia.
  - right. split; [reflexivity|]. lia.
Qed.
Lemma footer_other C method : 4 <= len C -> le_val (slice C 0 4) = INLINE_SIG \/ method <> METHOD_DEFLATE -> footer_read method (mem C) = Ok tt.
Proof.
  intros L H. unfold footer_read. destruct (read_into_cases C _ 0 4 (buf_init C) ltac:(lia)) as (_ & _ & _ & R). destruct R as (buf & R & B); [lia|lia|].
  rewrite R. cbn [bind]. rewrite (sig_rd C buf B). cbn [bind]. change 0x636d7066 with INLINE_SIG. destruct (le_val (slice C 0 4) =? INLINE_SIG) eqn:E; [reflexivity|].
  destruct (method =? METHOD_DEFLATE) eqn:E2; [|reflexivity]. apply Z.eqb_eq in E2. lia.
Qed.
Lemma table_long C method t : get_block_offsets method (mem C) = Ok t -> 4 <= len C.
Proof.
  intros H. destruct (Z.le_gt_cases 4 (len C)) as [L|L]; [exact L|]. exfalso. unfold get_block_offsets in H.
  destruct (read_into_cases C _ 0 4 (buf_init C) ltac:(lia)) as (R & _). destruct R as [(X & _)|R]; [lia|lia|]. rewrite R in H. discriminate H.
Qed.
(* The table of blocks, which reading goes by: with verbose output it is the same, exactly if the
   footer is there that a fork with DEFLATE data announces; otherwise an error. *)
Theorem C111_compressed_partial : forall C method, bytes C ->
  (get_block_offsets_v method (mem C) = get_block_offsets method (mem C) \/ get_block_offsets_v method (mem C) = Fail) /\
  forall t, get_block_offsets_v method (mem C) = Ok t <->
    get_block_offsets method (mem C) = Ok t /\ (le_val (slice C 0 4) = INLINE_SIG \/ method <> METHOD_DEFLATE \/ footer_there C).
Proof.
  intros C method HB. unfold get_block_offsets_v. destruct (get_block_offsets method (mem C)) as [t| | |] eqn:E; cbn [bind]; try (split; [left; reflexivity|intros t'; split; [discriminate|intros (X & _); discriminate X]]).
  pose proof (table_long C method t E) as L.
  destruct (Z.eq_dec (le_val (slice C 0 4)) INLINE_SIG) as [S|S]; [rewrite footer_other by auto; cbn [bind]; split; [auto|]; intros t'; split; [intros X; split; auto|intros (X & _); exact X]|].
  destruct (Z.eq_dec method METHOD_DEFLATE) as [M|M]; [|rewrite footer_other by auto; cbn [bind]; split; [auto|]; intros t'; split; [intros X; split; auto|intros (X & _); exact X]].
  subst method. destruct (deflate_cases C HB S) as [(X & _)|[(X & OK)|(X & _)]]; try congruence. destruct OK as (_ & _ & L272 & _).
  destruct (footer_cases C S L272 HB) as [(F & T)|(F & T)]; rewrite F; cbn [bind].
  - split; [auto|]. intros t'. split; [intros Y; split; auto|intros (Y & _); exact Y].
  - split; [auto|]. intros t'. split; [discriminate|]. intros (_ & [Y|[Y|Y]]); [contradiction|exfalso; apply Y; reflexivity|contradiction].
Qed.
Print Assumptions C111_compressed_partial.
(* A fork of one block with a footer of 50 bytes behind it; the same without the footer is the
   witness below: it can be read only without verbose output. *)
Definition footed (n : Z) : list Z := deflate_fork (be_enc 4 274 ++ be_enc 4 0 ++ be_enc 4 50 ++ zeros 240) 14 [[0xff; 66]] (zeros n).
Example C111_compressed_example : get_block_offsets_v METHOD_DEFLATE (mem (footed 50)) = Ok [272; 324].
Proof. vm_compute. reflexivity. Qed.
Theorem C111_compressed_refuted : exists C t, bytes C /\ get_block_offsets METHOD_DEFLATE (mem C) = Ok t /\ get_block_offsets_v METHOD_DEFLATE (mem C) = Fail /\
  fst (file_reads (decompress_data no_lzvn METHOD_DEFLATE) no_junk METHOD_DEFLATE (mem C) 1 ch_init [(0, 1)]) = [Ok [66]].
Proof. exists (footed 40), [272; 314]. split; [apply PropVSuper.bytesb_ok; vm_compute; reflexivity|]. vm_compute. auto. Qed.
Print Assumptions C111_compressed_refuted.
