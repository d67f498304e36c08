From Coq Require Import Lia.
From Verif Require Import Base BaseLemmas At Checksum ChecksumSpec ChecksumProofs Checksummed BTree BTreeSpec BTreeProofs Walk TreeSpec RecordsProofs
  Omap OmapSpec OmapProofs OmapTop Crypt CryptSpec CryptProofs PropCrypt KeyBag KeyBagSpec KeyBagProofs PropKeyBag FsTree FsSpec FsTop Container ContainerSpec ContainerProofs ContainerTop PropOpen
  DataRead Snapshot SnapSpec SnapProofs VolumeSuper VSuperSpec.
Ltac Zify.zify_post_hook ::= Z.div_mod_to_equations.

(* vsuper_read accepts exactly the volume superblocks *)
Lemma vsuper_read_iff d sn s : bytes d -> len d = 4096 -> (vsuper_read d sn = Ok s <-> vsuper_block sn d /\ s = vcontents d).
Proof.
  intros B L. unfold vsuper_read. rewrite L. change (1008 <=? 4096) with true. cbn [check bind].
  rewrite !num_rd by lia. cbn [bind]. rewrite !rd_in by lia. cbn [bind].
  change (4096 - 8) with 4088. destruct (sum_check d B L) as (v & C & HV).
  fold (vsuper_kind sn). unfold vsuper_block. rewrite <- HV. unfold kind.
  split.
  - destruct (num d 24 4 =? vsuper_kind sn) eqn:E1; [|discriminate]. cbn [check bind].
    destruct (num d 28 4 =? 0) eqn:E2; [|discriminate]. cbn [check bind].
    destruct (list_eqb (slice d 32 4) [65; 80; 83; 66]) eqn:E3; [|discriminate]. cbn [check bind]. rewrite C. cbn [bind].
    destruct (num d 0 8 =? v) eqn:E4; [|discriminate]. cbn [check bind].
    intros H. assert (Hs : vcontents d = s) by (apply Ok_inj; exact H). split; [|symmetry; exact Hs].
    apply Z.eqb_eq in E1, E2, E4. apply list_eqb_iff in E3. auto 15.
  - intros ((_ & _ & E4 & E1 & E2 & E3) & ->).
    rewrite (proj2 (Z.eqb_eq _ _) E1), (proj2 (Z.eqb_eq _ _) E2), (proj2 (list_eqb_iff _ _) E3). cbn [check bind]. rewrite C. cbn [bind].
    rewrite (proj2 (Z.eqb_eq _ _) E4). reflexivity.
Qed.
Lemma vsuper_read_fine d sn : bytes d -> len d = 4096 -> fine (vsuper_read d sn).
Proof.
  intros B L. unfold vsuper_read. rewrite L. change (1008 <=? 4096) with true. cbn [check bind].
  rewrite !num_rd by lia. cbn [bind]. rewrite !rd_in by lia. cbn [bind].
  change (4096 - 8) with 4088. destruct (sum_check d B L) as (v & C & HV). rewrite C.
  do 4 (apply fine_bind; [apply fine_check|intros ? _]; cbn [bind]). exact I.
Qed.
Lemma vsuper_at_in img b d sn : vsuper_in img sn b d -> vsuper_at img b sn = Ok (vcontents d).
Proof.
  intros (Hb & E & V). pose proof V as (L & B & _). unfold vsuper_at. rewrite (read_at_in img b d 4096) by (try assumption; lia). cbn [bind].
  rewrite slice_all by lia. apply vsuper_read_iff; auto.
Qed.
Lemma vsuper_at_fine img b sn : device_ok img -> fine (vsuper_at img b sn).
Proof.
  intros D. unfold vsuper_at. apply fine_bind; [apply read_at_fine; lia|]. intros d E. apply read_at_ok in E; [|lia]. destruct E as (e & E & _ & Le & ->).
  destruct (D _ _ E) as (Be & L4). apply vsuper_read_fine; [apply bytes_slice; exact Be|apply len_slice; lia].
Qed.
Lemma vsuper_at_ok img b sn s : device_ok img -> vsuper_at img b sn = Ok s -> exists d, vsuper_in img sn (b mod 2 ^ 52) d /\ s = vcontents d.
Proof.
  intros D H. unfold vsuper_at in H. apply bind_ok in H. destruct H as (d & E & H). apply read_at_ok in E; [|lia]. destruct E as (e & E & Hb & Le & ->).
  destruct (D _ _ E) as (Be & L4). apply vsuper_read_iff in H; [|apply bytes_slice; exact Be|apply len_slice; lia].
  rewrite slice_all in H by lia. exists e. unfold vsuper_in. tauto.
Qed.

Lemma omap_object_ok img b root : omap_object img b root -> omap_at img b = Ok root.
Proof.
  intros (R & o & E & L & K & Z0 & N & _). unfold omap_at. rewrite (read_at_in img _ o 88) by (try assumption; lia). cbn [bind]. unfold omap_read.
  rewrite len_slice by lia. change (88 <=? 88) with true. cbn [check bind].
  rewrite !num_rd by (rewrite ?len_slice by lia; lia). cbn [bind]. rewrite !num_head by lia. unfold kind, omap_kind in K. rewrite K, Z0, N. reflexivity.
Qed.
Lemma get_extent_none l id : Forall (fun e => ~ bag_entry_for id e) l -> get_extent l id = Ok None.
Proof.
  induction 1 as [|e l H HF IH]; [reflexivity|]. cbn [get_extent].
  replace (negb (be_type e =? 3) || negb (list_eqb (be_id e) id)) with true; [exact IH|].
  symmetry. destruct (Z.eqb_spec (be_type e) 3) as [E|]; [|reflexivity]. cbn [negb orb]. destruct (list_eqb (be_id e) id) eqn:E2; [|reflexivity].
  exfalso. apply H. split; [exact E|]. apply list_eqb_iff. exact E2.
Qed.
Lemma get_extent_some l1 e l2 id b n : Forall (fun e => ~ bag_entry_for id e) l1 -> bag_entry_for id e -> location e b n ->
  0 <= b < 2 ^ 64 -> 0 <= n < 2 ^ 64 -> get_extent (l1 ++ e :: l2) id = Ok (Some (b, n)).
Proof.
  intros HF (E1 & E2) HL Hb Hn. induction HF as [|x l H HF IH]; cbn [app get_extent].
  - rewrite E1, (proj2 (list_eqb_iff (be_id e) id) E2). cbn [Z.eqb Pos.eqb negb orb]. unfold location in HL.
    assert (L : len (be_data e) = 16) by (rewrite HL, len_app, !le_enc_len; reflexivity). rewrite L. cbn [Z.eqb Pos.eqb check bind].
    assert (A : at_ (be_data e) 0 (le_enc 8 b ++ le_enc 8 n)) by (rewrite HL; apply at_self). apply at_app in A. destruct A as (A1 & A2).
    rewrite (at_rd_le _ _ 8 b 8 A1) by (try reflexivity; change (256 ^ Z.of_nat 8) with (2 ^ 64); lia). cbn [bind].
    rewrite le_enc_len in A2. rewrite (at_rd_le _ _ 8 n 8 (at_eq _ _ 8 _ A2 ltac:(lia))) by (try reflexivity; change (256 ^ Z.of_nat 8) with (2 ^ 64); lia). reflexivity.
  - replace (negb (be_type x =? 3) || negb (list_eqb (be_id x) id)) with true; [exact IH|].
    symmetry. destruct (Z.eqb_spec (be_type x) 3) as [E|]; [|reflexivity]. cbn [negb orb]. destruct (list_eqb (be_id x) id) eqn:E3; [|reflexivity].
    exfalso. apply H. split; [exact E|]. apply list_eqb_iff. exact E3.
Qed.
Lemma get_extent_fine l id : fine (get_extent l id).
Proof.
  induction l as [|e l IH]; [exact I|]. cbn [get_extent]. destruct (_ || _); [exact IH|]. apply fine_bind; [apply fine_check|]. intros u H. apply check_ok in H.
  apply fine_bind; [apply fine_rd_le; lia|]. intros b _. apply fine_bind; [apply fine_rd_le; lia|]. intros n _. exact I.
Qed.

Section Open.
  Variables enc dec : list Z -> list Z -> list Z -> list Z.
  Hypothesis HC : forall id, unit_cipher 512 (enc id) (dec id).

  Lemma vbag_ok img b n id l : device_ok img -> vbag_stored enc img b n id l -> volume_bag_at dec img b n id = Ok l.
  Proof.
    intros D (Hb & Hn & Hbn & sectors & sum & ids & size & u & body & rest & HF & HL & (blocks & LB & EB & HB) & EI & H1 & H2 & H3 & H4 & H5 & H6 & H7).
    unfold volume_bag_at. unfold w64. rewrite (Z.mod_small (n * 4096)) by lia. cbv zeta.
    replace (negb (n * 4096 =? 0) && (n * 4096 <=? 128 * 1024 * 1024)) with true by (symmetry; apply andb_true_iff; split; [apply negb_true_iff, Z.eqb_neq; lia|apply Z.leb_le; lia]).
    cbn [check bind]. rewrite seek_ok by lia. cbn [bind]. rewrite Z.div_mul by lia.
    destruct (enc_sectors_len (fun m => enc id (data_unit m)) 512 ltac:(intros m s B L; apply (HC id m s B L)) sectors (8 * b) HF) as (L1 & L2).
    assert (LC : len (concat sectors) = 512 * len sectors).
    { clear - HF. induction sectors as [|s l IH]; [reflexivity|]. cbn [concat]. rewrite len_app, len_cons. pose proof (Forall_inv HF) as (_ & ?). rewrite (IH (Forall_inv_tail HF)). lia. }
    destruct (read_blocks_ok img D blocks b ltac:(lia) ltac:(lia) HB) as (RB & RL).
    replace (Z.to_nat n) with (length blocks) by (unfold len in LB; lia). rewrite RB. cbn [bind]. rewrite EB in *.
    replace (b * 4096 / 512) with (8 * b) by lia.
    rewrite (C36_decrypt_encrypted_partial (enc id) (dec id) 512 (HC id)) by (try assumption; try lia; rewrite zeros_len by lia; lia).
    cbn [bind]. rewrite skipn_all2; [|pose proof (zeros_len (len (concat (enc_sectors (fun m => enc id (data_unit m)) (8 * b) sectors))) ltac:(lia)); unfold len in *; lia].
    rewrite app_nil_r, EI. apply C40_volume_bag_partial; assumption.
  Qed.

  Lemma volume_keys_ok img bag d k : device_ok img -> bytes d -> len d = 4096 -> volume_keys_are enc img bag d k ->
    volume_keys dec img (match bag with None => None | Some l => Some (Some l) end) (vcontents d) =
      Ok (k, match k with None => false | Some _ => true end).
  Proof.
    intros D B L H. unfold volume_keys, volume_keys_are in *. destruct bag as [l|]; [|rewrite H; reflexivity].
    change (vs_flags (vcontents d)) with (num d 264 8). change (vs_id (vcontents d)) with (slice d 240 16).
    change 1 with (2 ^ 0) at 1. rewrite (land_bit _ 0), negb_involutive by lia.
    destruct (Z.testbit (num d 264 8) 0); [rewrite H; reflexivity|]. cbv zeta.
    destruct H as [(H & ->)|(l1 & e & l2 & b & n & v & -> & H1 & H2 & H3 & H4 & ->)].
    - rewrite (get_extent_none _ _ H). reflexivity.
    - pose proof H4 as (Hb & Hn & Hbn & _). rewrite (get_extent_some l1 e l2 _ b n H1 H2 H3) by lia. cbn [bind].
      replace (negb (b =? 0) && negb (n =? 0)) with true by lia. cbn [check bind]. rewrite (vbag_ok img b n _ v D H4). reflexivity.
  Qed.

  Lemma snapshots_ok img (tie : list Z -> list Z -> Prop) d o ho orecs ss : (forall a b c, tie a b -> tie b c -> tie a c) -> Z.of_nat ho <= 256 -> omap_tree img ho o orecs ->
    snapshots_are img tie d orecs ss ->
    (if num d 152 8 =? 0 then Ok [] else get_snapshots (mk_fs img (num d 152 8) img o (xid d))) = Ok (map snap_of ss).
  Proof.
    intros HT Hho HO [(E & ->)|(E & h & HS)]; [rewrite E; reflexivity|]. rewrite (proj2 (Z.eqb_neq _ _) E).
    apply (get_snapshots_ok tie (mk_fs img (num d 152 8) img o (xid d)) (resolves orecs (xid d)) HT) with (h := h); [|exact HS].
    intros x b (Hx & r & HN & HA). split; [lia|]. intros Hb. unfold snap_sub. cbn [fs_omap fs_orb fs_txn fs_img].
    destruct (omap_lookup_correct img ho o orecs x (xid d) HO Hho (proj1 Hx)) as (r' & HN' & E'). rewrite E'. cbn [bind]. destruct r' as [r'|].
    - assert (r' = r) by (eapply newest_unique; eauto). subst r'. cbn [option_map rec_desc od_address]. rewrite HA.
      replace (int_max <? b) with false by lia. reflexivity.
    - exfalso. destruct HN as (I1 & O1 & T1 & _). specialize (HN' r I1 O1). lia.
  Qed.

  Lemma volume_open_ok img size bag b d o ho orecs k (tie : list Z -> list Z -> Prop) ss : device_ok img -> (forall a b c, tie a b -> tie b c -> tie a c) ->
    vsuper_in img false b d -> omap_object img (num d 128 8) o -> Z.of_nat ho <= 256 -> omap_tree (within size img) ho o orecs ->
    volume_keys_are enc img bag d k -> snapshots_are (within size img) tie d orecs ss -> num d 136 8 <> 0 ->
    volume_open dec img size (match bag with None => None | Some l => Some (Some l) end) b =
      Ok {| ov_size := size; ov_super := vcontents d; ov_omap := o; ov_bag := k; ov_locked := match k with None => false | Some _ => true end; ov_snapshots := map snap_of ss |}.
  Proof.
    intros D HT HV HO Hho HOT HK HS HR. unfold volume_open. rewrite (vsuper_at_in _ _ _ _ HV). cbn [bind].
    change (vs_omap (vcontents d)) with (num d 128 8). change (vs_snapshots (vcontents d)) with (num d 152 8). change (vs_root (vcontents d)) with (num d 136 8).
    change (vs_xid (vcontents d)) with (xid d).
    pose proof HO as (Hb & _ & _ & _ & _ & _ & _ & HZ). rewrite check_true by lia. cbn [bind]. rewrite (omap_object_ok _ _ _ HO). cbn [bind].
    rewrite check_true by lia. cbn [bind]. pose proof HV as (_ & _ & (L & B & _)). rewrite (volume_keys_ok img bag d k D B L HK). cbn [bind].
    rewrite (snapshots_ok (within size img) tie d o ho orecs ss HT Hho HOT HS). cbn [bind]. rewrite check_true by lia. reflexivity.
  Qed.
End Open.

Section Any.
  Variables (dec : list Z -> list Z -> list Z -> list Z) (img : device).
  Hypothesis Hdec : forall id m s, bytes s -> len s = 512 -> bytes (dec id (data_unit m) s) /\ len (dec id (data_unit m) s) = 512.
  Hypothesis D : device_ok img.
  Lemma device_bytes : bytes_image img.
  Proof. intros b d E. apply (D b d E). Qed.
  Lemma vbag_any b n id : fine (volume_bag_at dec img b n id).
  Proof.
    unfold volume_bag_at. cbv zeta. apply fine_bind; [apply fine_check|]. intros u _.
    apply fine_bind; [unfold seek; apply fine_bind; [apply fine_check|intros; exact I]|]. intros b' _.
    destruct (read_blocks_any dec img Hdec D (Z.to_nat (w64 (n * 4096) / 4096)) b') as (F & H). apply fine_bind; [exact F|]. intros l E. destruct (H l E) as (B & L).
    destruct (sectors_of 512 ltac:(lia) (8 * Z.to_nat (w64 (n * 4096) / 4096)) l B ltac:(lia)) as (ss & -> & FS).
    rewrite (crypt_ok (dec id) 512 ltac:(lia)); [|intros m s; rewrite tweak_data_unit; intros Bs Ls; apply Hdec; assumption|exact FS|rewrite zeros_len; lia].
    cbn [bind]. apply volume_bag_fine. apply bytes_app. split.
    - apply (enc_sectors_bytes _ 512); [|exact FS]. intros m s Bs Ls. rewrite tweak_data_unit. apply Hdec; assumption.
    - assert (X : bytes (zeros (len (concat ss)))) by apply zeros_bytes. unfold bytes in *. rewrite Forall_forall in *. intros x Hx. apply X.
      rewrite <- (firstn_skipn (length (concat ss)) (zeros (len (concat ss)))). apply in_or_app. auto.
  Qed.
  Lemma volume_open_fine size bag b : fine (volume_open dec img size bag b).
  Proof.
    unfold volume_open. apply fine_bind; [apply vsuper_at_fine, D|]. intros s _. apply fine_bind; [apply fine_check|]. intros u _.
    apply fine_bind; [apply (omap_at_fine dec img Hdec)|]. intros o _. apply fine_bind; [apply fine_check|]. intros u1 _.
    apply fine_bind.
    { unfold volume_keys. destruct bag as [bag|]; [|exact I]. destruct (negb _); [exact I|]. cbv zeta. apply fine_bind; [apply get_extent_fine|].
      intros [[k n]|] _; [|exact I]. apply fine_bind; [apply fine_check|]. intros u2 _. apply fine_bind; [apply vbag_any|]. intros; exact I. }
    intros [k locked] _. apply fine_bind.
    { destruct (_ =? 0); [exact I|]. apply get_snapshots_fine; apply within_bytes; exact device_bytes. }
    intros sn _. apply fine_bind; [apply fine_check|]. intros; exact I.
  Qed.
  Lemma snapshot_open_fine v i : fine (snapshot_open img v i).
  Proof.
    unfold snapshot_open. apply fine_bind; [apply fine_check|]. intros u H. apply check_ok in H.
    destruct (getb_in (ov_snapshots v) i ltac:(lia)) as (s & -> & _). cbn [bind]. apply vsuper_at_fine, D.
  Qed.
End Any.
