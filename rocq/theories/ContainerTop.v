From Coq Require Import Lia.
From Verif Require Import Base BaseLemmas At Checksum ChecksumSpec Checksummed BTree BTreeProofs Walk
  Omap OmapSpec Crypt CryptSpec CryptProofs KeyBag KeyBagSpec KeyBagProofs UnlockProofs Container ContainerSpec ContainerProofs PropKeyBag PropCrypt.
Ltac Zify.zify_post_hook ::= Z.div_mod_to_equations.

Lemma superblock_kind_of d : superblock_block d -> kind d = superblock_kind.
Proof. unfold superblock_block. tauto. Qed.

(* ---- the scan of an intact area ---- *)
Section Intact.
  Variable img : device.
  Hypothesis D : device_ok img.
  Variables (a n : Z) (d0 : list Z).
  Hypothesis H0 : superblock_in img 0 d0.
  Hypothesis Ha : 0 < a.
  Hypothesis Han : a + n < 2 ^ 51.
  Hypothesis Hn : 0 <= n < 2 ^ 31.
  Hypothesis A0 : area d0 = a.
  Hypothesis N0 : area_size d0 = n.
  Hypothesis HI : area_intact img a n.

  Definition done (i : Z) (s : scan) : Prop :=
    sc_index s = i /\
    (exists b d, superblock_in img b d /\ sc_sb s = contents d /\ area d = a /\ area_size d = n /\ (b = 0 \/ a <= b < a + i) /\
      forall b' d', (b' = 0 \/ a <= b' < a + i) -> superblock_in img b' d' -> xid d' <= xid d /\ (before a b b' -> xid d' < xid d)) /\
    (forall j m, 0 <= j < i -> img (a + j) = Some m -> kind m = map_kind -> xid m <= sc_map_xid s) /\
    ((sc_map s = 0 /\ sc_map_xid s = 0) \/ exists j m, 0 <= j < i /\ img (a + j) = Some m /\ map_block m /\ sc_map s = a + j /\ sc_map_xid s = xid m).

  Lemma done_start : done 0 (mk_scan 0 (contents d0) 0 0).
  Proof.
    unfold done. cbn [sc_index sc_sb sc_map sc_map_xid]. split; [reflexivity|]. split; [|split; [lia|left; auto]].
    exists 0, d0. split; [exact H0|]. split; [reflexivity|]. split; [exact A0|]. split; [exact N0|]. split; [auto|].
    intros b' d' [X|X]; [|lia]. intros (S & _). destruct H0 as (S0 & _). rewrite X in S. assert (d' = d0) by congruence. subst d'. split; [lia|].
    intros (Y & _). contradiction.
  Qed.

  Lemma done_step i s : 0 <= i <= n -> done i s -> exists r, scan_step img a s = Ok (inl r) /\ done (i + 1) r.
  Proof.
    intros Hi (E1 & (b & d & S & E2 & E3 & E4 & HB & HM) & HX & HP). destruct (HI i Hi) as (e & Ee & Le & K1 & K2).
    unfold scan_step. rewrite E2. change (sb_area_size (contents d)) with (area_size d). rewrite E4, E1.
    rewrite (proj2 (Z.leb_le _ _)) by lia. cbv zeta.
    rewrite (object_at_in img (a + i) e) by (try assumption; lia). cbn [bind].
    assert (KEEP : kind e <> superblock_kind -> forall m x,
      (forall j m0, 0 <= j < i + 1 -> img (a + j) = Some m0 -> kind m0 = map_kind -> xid m0 <= x) ->
      ((m = 0 /\ x = 0) \/ exists j m0, 0 <= j < i + 1 /\ img (a + j) = Some m0 /\ map_block m0 /\ m = a + j /\ x = xid m0) ->
      done (i + 1) (mk_scan (i + 1) (contents d) m x)).
    { intros NK m x P1 P2. split; [reflexivity|]. cbn [sc_index sc_sb sc_map sc_map_xid]. split; [|split; [exact P1|exact P2]].
      exists b, d. split; [exact S|]. split; [reflexivity|]. split; [exact E3|]. split; [exact E4|]. split; [lia|].
      intros b' d' Hb' S'. destruct (Z.eq_dec b' (a + i)) as [->|N].
      - exfalso. apply NK. destruct S' as (S' & SB). rewrite Ee in S'. assert (d' = e) by congruence. subst. apply superblock_kind_of. exact SB.
      - apply HM; [lia|exact S']. }
    destruct (kind e =? 0x4000000c) eqn:KM.
    - apply Z.eqb_eq in KM. assert (NK : kind e <> superblock_kind) by (rewrite KM; discriminate).
      destruct (sc_map_xid s <? xid e) eqn:C.
      + apply Z.ltb_lt in C. exists (mk_scan (i + 1) (contents d) (w64 (sb_area (contents d) + i)) (xid e)). split; [reflexivity|].
        change (sb_area (contents d)) with (area d). rewrite E3. unfold w64. rewrite Z.mod_small by lia.
        apply KEEP; [exact NK| |].
        * intros j m Hj Hm Km. destruct (Z.eq_dec j i) as [->|N]; [rewrite Ee in Hm; assert (m = e) by congruence; subst; lia|].
          specialize (HX j m ltac:(lia) Hm Km). lia.
        * right. exists i, e. split; [lia|]. split; [exact Ee|]. split; [exact (K2 KM)|]. split; reflexivity.
      + apply Z.ltb_ge in C. exists (mk_scan (i + 1) (contents d) (sc_map s) (sc_map_xid s)). split; [reflexivity|].
        apply KEEP; [exact NK| |].
        * intros j m Hj Hm Km. destruct (Z.eq_dec j i) as [->|N]; [rewrite Ee in Hm; assert (m = e) by congruence; subst; lia|].
          exact (HX j m ltac:(lia) Hm Km).
        * destruct HP as [HP|(j & m & P1 & P2)]; [left; exact HP|right; exists j, m; split; [lia|exact P2]].
    - apply Z.eqb_neq in KM.
      assert (HX' : forall j m0, 0 <= j < i + 1 -> img (a + j) = Some m0 -> kind m0 = map_kind -> xid m0 <= sc_map_xid s).
      { intros j m Hj Hm Km. destruct (Z.eq_dec j i) as [->|N]; [rewrite Ee in Hm; assert (m = e) by congruence; subst; contradiction|].
        exact (HX j m ltac:(lia) Hm Km). }
      assert (HP' : (sc_map s = 0 /\ sc_map_xid s = 0) \/ exists j m0, 0 <= j < i + 1 /\ img (a + j) = Some m0 /\ map_block m0 /\ sc_map s = a + j /\ sc_map_xid s = xid m0).
      { destruct HP as [HP|(j & m & P1 & P2)]; [left; exact HP|right; exists j, m; split; [lia|exact P2]]. }
      destruct (kind e =? 0x80000001) eqn:KS.
      + apply Z.eqb_eq in KS. destruct (K1 KS) as (SB & AE & NE).
        rewrite (superblock_at_in img (a + i) e D) by (try (split; assumption); lia). cbn [bind].
        change (sb_xid (contents d)) with (xid d). change (sb_xid (contents e)) with (xid e). destruct (xid d <? xid e) eqn:C.
        * apply Z.ltb_lt in C. eexists. split; [reflexivity|]. split; [reflexivity|]. cbn [sc_index sc_sb sc_map sc_map_xid]. split; [|split; assumption].
          exists (a + i), e. split; [split; assumption|]. split; [reflexivity|]. split; [exact AE|]. split; [exact NE|]. split; [lia|].
          intros b' d' Hb' S'. destruct (Z.eq_dec b' (a + i)) as [->|N].
          -- destruct S' as (S' & _). rewrite Ee in S'. assert (d' = e) by congruence. subst. split; [lia|]. intros (Y & _). contradiction.
          -- destruct (HM b' d' ltac:(lia) S') as (M & _). split; lia.
        * apply Z.ltb_ge in C. eexists. split; [reflexivity|]. split; [reflexivity|]. cbn [sc_index sc_sb sc_map sc_map_xid]. split; [|split; assumption].
          exists b, d. split; [exact S|]. split; [reflexivity|]. split; [exact E3|]. split; [exact E4|]. split; [lia|].
          intros b' d' Hb' S'. destruct (Z.eq_dec b' (a + i)) as [->|N].
          -- destruct S' as (S' & _). rewrite Ee in S'. assert (d' = e) by congruence. subst. split; [lia|]. intros (Y & Y2). lia.
          -- apply HM; [lia|exact S'].
      + apply Z.eqb_neq in KS. eexists. split; [reflexivity|]. apply KEEP; assumption.
  Qed.

  Lemma done_all : forall (m : nat) k s, (m < k)%nat -> Z.of_nat m <= n + 1 -> done (n + 1 - Z.of_nat m) s ->
    exists r, steps k (scan_step img a) s = Ok (inr r) /\ done (n + 1) r.
  Proof.
    induction m as [|m IH]; intros k s Hk Hm HD; (destruct k as [|k]; [lia|]); cbn [steps].
    - exists s. replace (n + 1 - Z.of_nat 0) with (n + 1) in HD by lia. split; [|exact HD].
      destruct HD as (E1 & (b & d & _ & E2 & _ & E4 & _) & _). unfold scan_step. rewrite E2, E1. change (sb_area_size (contents d)) with (area_size d). rewrite E4.
      rewrite (proj2 (Z.leb_gt _ _)) by lia. reflexivity.
    - destruct (done_step (n + 1 - Z.of_nat (S m)) s ltac:(lia) HD) as (r & E & HR). rewrite E. cbn [bind]. apply IH; [lia|lia|].
      replace (n + 1 - Z.of_nat m) with (n + 1 - Z.of_nat (S m) + 1) by lia. exact HR.
  Qed.
  Lemma scan_area_ok : exists r, scan_area img (contents d0) = Ok r /\ done (n + 1) r.
  Proof.
    unfold scan_area. rewrite rounds_steps. change (sb_area (contents d0)) with (area d0). rewrite A0.
    assert (P : Z.of_nat (2 ^ 32) = 2 ^ 32) by (rewrite Nat2Z.inj_pow; reflexivity).
    destruct (done_all (Z.to_nat (n + 1)) (2 ^ 32) (mk_scan 0 (contents d0) 0 0)) as (r & E & HR); [lia|lia| |].
    - replace (n + 1 - Z.of_nat (Z.to_nat (n + 1))) with 0 by lia. exact done_start.
    - rewrite E. cbn [bind]. exists r. auto.
  Qed.
End Intact.

Lemma newest_one img a n b d b' d' : 0 < a -> newest_superblock img a n b d -> newest_superblock img a n b' d' -> b = b' /\ d = d'.
Proof.
  intros Ha (S & R & M) (S' & R' & M'). destruct (Z.eq_dec b b') as [->|N].
  - split; [reflexivity|]. destruct S as (S & _), S' as (S' & _). congruence.
  - exfalso. destruct (M b' d' R' S') as (L1 & B1), (M' b d R S) as (L2 & B2). unfold before in *.
    assert (X : (b' = 0 \/ (b <> 0 /\ a <= b' < b)) \/ (b = 0 \/ (b' <> 0 /\ a <= b < b'))) by lia.
    destruct X as [X|X]; [specialize (B1 (conj (not_eq_sym N) X))|specialize (B2 (conj N X))]; lia.
Qed.

(* ---- key bag ---- *)
Lemma read_blocks_ok img : device_ok img -> forall blocks b, 0 <= b -> b + len blocks <= 2 ^ 51 ->
  (forall i, 0 <= i < len blocks -> exists d, nth_error blocks (Z.to_nat i) = Some d /\ img (b + i) = Some d /\ len d = 4096) ->
  read_blocks img b (length blocks) = Ok (concat blocks) /\ len (concat blocks) = 4096 * len blocks.
Proof.
  intros D. induction blocks as [|x blocks IH]; intros b Hb Hl H; [split; reflexivity|]. rewrite len_cons in *. pose proof (len_nonneg blocks).
  cbn [length read_blocks concat]. destruct (H 0 ltac:(lia)) as (d & E1 & E2 & L). cbn in E1. assert (x = d) by congruence. subst x. rewrite Z.add_0_r in E2.
  rewrite (read_at_in img b d 4096) by (try assumption; lia). cbn [bind]. rewrite slice_all by lia.
  destruct (IH (b + 1)) as (R & RL); [lia|lia| |].
  - intros i Hi. destruct (H (i + 1) ltac:(lia)) as (d' & F1 & F2 & F3). exists d'. replace (Z.to_nat (i + 1)) with (S (Z.to_nat i)) in F1 by lia.
    replace (b + (i + 1)) with (b + 1 + i) in F2 by lia. auto.
  - rewrite R. cbn [bind]. split; [reflexivity|]. rewrite len_app. lia.
Qed.
Section Open.
  Variables enc dec : list Z -> list Z -> list Z -> list Z.
  Hypothesis HC : forall id, unit_cipher 512 (enc id) (dec id).

  Lemma bag_ok img b n id l : device_ok img -> bag_stored enc img b n id l -> container_bag_at dec img b n id = Ok (Some l).
  Proof.
    intros D (Hb & Hn & Hbn & sectors & sum & ids & size & u & body & rest & HF & HL & (blocks & LB & EB & HB) & EI & H1 & H2 & H3 & H4 & H5 & H6 & H7 & H8).
    unfold container_bag_at. unfold w64. rewrite (Z.mod_small (n * 4096)) by lia. cbv zeta.
    replace (negb (n * 4096 =? 0) && (n * 4096 <=? 128 * 1024 * 1024)) with true by (symmetry; apply andb_true_iff; split; [apply negb_true_iff, Z.eqb_neq; lia|apply Z.leb_le; lia]).
    cbn [check bind]. rewrite seek_ok by lia. cbn [bind]. rewrite Z.div_mul by lia.
    destruct (enc_sectors_len (fun m => enc id (data_unit m)) 512 ltac:(intros m s B L; apply (HC id m s B L)) sectors (8 * b) HF) as (L1 & L2).
    assert (LC : len (concat sectors) = 512 * len sectors).
    { clear - HF. induction sectors as [|s l IH]; [reflexivity|]. cbn [concat]. rewrite len_app, len_cons. pose proof (Forall_inv HF) as (_ & ?). rewrite (IH (Forall_inv_tail HF)). lia. }
    destruct (read_blocks_ok img D blocks b ltac:(lia) ltac:(lia) HB) as (RB & RL).
    replace (Z.to_nat n) with (length blocks) by (unfold len in LB; lia). rewrite RB. cbn [bind]. rewrite EB in *.
    replace (b * 4096 / 512) with (8 * b) by lia.
    rewrite (C36_decrypt_encrypted_partial (enc id) (dec id) 512 (HC id)) by (try assumption; try lia; rewrite zeros_len by lia; lia).
    cbn [bind]. rewrite skipn_all2; [|pose proof (zeros_len (len (concat (enc_sectors (fun m => enc id (data_unit m)) (8 * b) sectors))) ltac:(lia)); unfold len in *; lia].
    rewrite app_nil_r, EI. apply C40_container_bag_partial; try assumption. rewrite <- EI. exact H8.
  Qed.

  Lemma root_ok img d root : root_of img d root -> omap_at img (num d 160 8) = Ok root.
  Proof.
    intros (R & o & E & L & K & Z0 & N & _). unfold omap_at. rewrite (read_at_in img _ o 88) by (try assumption; lia). cbn [bind]. unfold omap_read.
    rewrite len_slice by lia. change (88 <=? 88) with true. cbn [check bind].
    rewrite !num_rd by (rewrite ?len_slice by lia; lia). cbn [bind]. rewrite !num_head by lia. unfold kind, omap_kind in K. rewrite K, Z0, N. reflexivity.
  Qed.

  (* the size is that of the superblock in block 0 *)
  Lemma open_size img c : device_ok img -> open dec img = Ok c -> c_size c = size_of img.
  Proof.
    intros D E. unfold open in E. apply bind_ok in E. destruct E as (s & ES & E). apply (superblock_at_ok img 0 s D) in ES. destruct ES as (d0 & S0 & _ & ->).
    change (0 mod 2 ^ 52) with 0 in S0. unfold size_of. rewrite (proj1 S0). cbv zeta in E. apply bind_ok in E. destruct E as (u & _ & E). apply bind_ok in E. destruct E as (r & _ & E).
    do 5 (apply bind_ok in E; destruct E as (? & _ & E)). apply bind_ok in E. destruct E as (bag & _ & E). injection E as <-. reflexivity.
  Qed.
  Definition opened (img : device) (c : container) (d : list Z) : Prop :=
    c_sb c = contents d /\ root_of img d (c_root c) /\
    match c_bag c with None => bag_of enc img d None | Some (Some l) => bag_of enc img d (Some l) | Some None => False end.

  Lemma open_consistent img b d : consistent enc img b d ->
    exists c m j, open dec img = Ok c /\ opened img c d /\ img (c_map_block c) = Some m /\ map_block m /\ c_map c = mappings m /\
    (c_map_block c = area d + j /\ 0 <= j <= area_size d) /\
    forall i m', 0 <= i <= area_size d -> img (area d + i) = Some m' -> kind m' = map_kind -> xid m' <= xid m.
  Proof.
    intros (D & d0 & S0 & F0 & A0 & AN & HI & (mi & mm & Mi & Em & Km & Xm) & HN & (root & l & HR & HB)).
    assert (B0 : bytes d0 /\ len d0 = 4096) by (destruct S0 as (_ & S0); unfold superblock_block in S0; tauto).
    assert (N0 : 0 <= area_size d0 < 2 ^ 31).
    { split; [apply (num_range d0 104 4); try tauto; lia|]. destruct S0 as (_ & S0). unfold superblock_block in S0; tauto. }
    destruct (scan_area_ok img D (area d0) (area_size d0) d0 S0 A0 AN N0 eq_refl eq_refl HI) as (r & E & (R1 & (b' & d' & S' & R2 & A' & N' & RB & RM) & RX & RP)).
    assert (HN' : newest_superblock img (area d0) (area_size d0) b' d').
    { split; [exact S'|]. split; [lia|]. intros b2 d2 H2. apply RM. lia. }
    destruct (newest_one _ _ _ _ _ _ _ A0 HN HN') as (-> & ->). clear HN'.
    destruct RP as [(_ & RP)|(j & m & Hj & Ej & Mj & MB & MX)]; [specialize (RX mi mm ltac:(lia) Em Km); lia|].
    assert (BM : bytes m /\ len m = 4096) by (unfold map_block in Mj; tauto).
    unfold open. rewrite (superblock_at_in img 0 d0 D ltac:(lia) S0). cbn [bind].
    change (sb_incompatible (contents d0)) with (features d0). change 0x100 with (2 ^ 8). rewrite land_bit by lia. rewrite F0. cbn [negb check bind].
    rewrite E. cbn [bind]. rewrite MB. rewrite (proj2 (Z.eqb_neq (area d0 + j) 0)) by lia. cbn [negb check bind].
    unfold map_at. rewrite (read_at_in img (area d0 + j) m 4096) by (try assumption; lia). cbn [bind]. rewrite slice_all by lia.
    rewrite (proj2 (map_read_iff m (mappings m) (proj1 BM) (proj2 BM)) (conj Mj eq_refl)). cbn [bind]. rewrite R2.
    change (sb_omap (contents d')) with (num d' 160 8). rewrite (root_ok img d' root HR). pose proof HR as (HR1 & _ & _ & _ & _ & _ & _ & HR2).
    rewrite (proj2 (Z.eqb_neq _ _)) by lia. cbn [negb check bind]. rewrite (proj2 (Z.eqb_neq root 0)) by exact HR2. cbn [negb check bind].
    change (sb_bag (contents d')) with (num d' 1296 8). change (sb_bag_size (contents d')) with (num d' 1304 8). change (sb_id (contents d')) with (slice d' 72 16).
    assert (RESULT : forall bag, match bag with None => bag_of enc img d' None | Some (Some l) => bag_of enc img d' (Some l) | Some None => False end ->
      exists c m0 j0, Ok {| c_size := w64 (sb_blocks (contents d0) * 4096); c_sb := contents d'; c_map_block := area d0 + j; c_map := mappings m; c_root := root; c_bag := bag |} = Ok c /\ opened img c d' /\
      img (c_map_block c) = Some m0 /\ map_block m0 /\ c_map c = mappings m0 /\ (c_map_block c = area d' + j0 /\ 0 <= j0 <= area_size d') /\
      forall i m', 0 <= i <= area_size d' -> img (area d' + i) = Some m' -> kind m' = map_kind -> xid m' <= xid m0).
    { intros bag HG. eexists. exists m, j. split; [reflexivity|]. split; [split; [reflexivity|]; split; [exact HR|exact HG]|]. cbn [c_map_block c_map].
      split; [exact Ej|]. split; [exact Mj|]. split; [reflexivity|]. rewrite A', N'. split; [lia|]. intros i m' Hi Em' Km'. rewrite <- MX. apply (RX i m'); [lia|assumption|assumption]. }
    destruct l as [l|].
    - pose proof HB as HB'. cbn [bag_of] in HB'. rewrite (bag_ok img _ _ _ l D HB'). destruct HB' as (P1 & P2 & _).
      rewrite (proj2 (Z.ltb_lt 0 (num d' 1296 8))), (proj2 (Z.ltb_lt 0 (num d' 1304 8))) by lia. cbn [andb bind]. apply RESULT. exact HB.
    - assert (X : (0 <? num d' 1296 8) && (0 <? num d' 1304 8) = false) by (cbn [bag_of] in HB; destruct HB as [HB|HB]; rewrite HB; [reflexivity|apply andb_false_r]).
      rewrite X. cbn [bind]. apply RESULT. exact HB.
  Qed.
End Open.
