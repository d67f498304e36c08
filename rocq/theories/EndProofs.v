(* From the container to the bytes of a file. *)
From Coq Require Import Lia.
From Verif Require Import Base BaseLemmas BTree BTreeSpec BTreeProofs Walk WalkProofs TreeSpec Omap OmapProofs OmapSpec OmapTop Records RecordsSpec FsTree FsSpec FsProofs FsLookup PropFs Name NameSpec NameProofs PropName FsName FsNameSpec FsNameProofs PropFsName FileEntry FileSpec FileTop PropFile EntryName EntrySpec PropEntry
  Crypt CryptSpec CryptProofs PropCrypt KeyBag KeyBagSpec Volume VolumeSpec PropVolume Container ContainerSpec ContainerProofs ContainerTop PropContainer DataRead DataSpec DataProofs DataSplit PropData Snapshot SnapSpec SnapProofs VolumeSuper VSuperSpec VSuperProofs Session SessionSpec SessionProofs EndSpec.
Ltac Zify.zify_post_hook ::= Z.div_mod_to_equations.

(* ---- the nodes ---- *)
Definition cipher_of (enc dec : option (list Z -> list Z -> list Z)) : Prop :=
  match enc, dec with None, None => True | Some e, Some d => unit_cipher 512 e d | _, _ => False end.
Lemma node_read enc ctx dev b d : cipher_of enc ctx -> 0 <= b < 2 ^ 31 -> len d = 4096 -> node_block enc dev b d -> fs_image dev ctx b = Some d.
Proof.
  intros HC Hb L HN. unfold fs_image. destruct enc as [e|], ctx as [x|]; try contradiction; cbn [node_block cipher_of] in *.
  - destruct HN as (ss & -> & F & E). pose proof (sectors_len 512 ss F) as LC.
    pose proof (encrypted_read e x dev (mk_ex 0 4096 b b) 0 (concat ss) HC) as R. cbn [ex_block ex_crypto] in R. rewrite !Z.add_0_r in R.
    replace (b * 4096 + 0 * 4096) with (b * 4096) in R by lia. unfold w64 in R. rewrite (Z.mod_small b) in R by lia. rewrite R; [reflexivity|lia..|].
    exists ss. split; [reflexivity|]. split; [lia|]. split; [exact F|]. cbn [ex_block ex_crypto]. rewrite !Z.add_0_r. exact E.
  - pose proof (plain_read dev (mk_ex 0 4096 b b) 0 d) as R. cbn [ex_block] in R. replace (b * 4096 + 0 * 4096) with (b * 4096) in R by lia.
    rewrite R; [reflexivity|lia..|]. split; [cbn [ex_block]; rewrite Z.add_0_r; exact HN|exact L].
Qed.
Lemma subtree_mono (N N' : bool -> Z -> bool -> list TreeSpec.record -> Prop) child lt sep : (forall r b l es, N r b l es -> N' r b l es) ->
  forall h r b recs, subtree N child lt sep h r b recs -> subtree N' child lt sep h r b recs.
Proof.
  intros HN. induction h as [|h IH]; intros r b recs H; cbn [subtree] in *; [destruct H; auto|].
  destruct H as (es & H1 & H2 & H3). exists es. split; [auto|]. split; [exact H2|].
  clear H1 H2. induction H3 as [|k v b0 es k1 v1 recs rest A1 A2 A3 A4 A5 IH5]; [constructor|]. apply forest_cons with b0; auto.
Qed.
Lemma tree_read (tie : list Z -> list Z -> Prop) h enc ctx dev n nodes top o x recs : cipher_of enc ctx -> nodes_stored enc dev nodes ->
  fs_tree tie h (mk_fs (part n nodes) top (part n dev) o x) recs -> fs_tree tie h (mk_fs (within n (fs_image dev ctx)) top (within n dev) o x) recs.
Proof.
  intros HC HN (ho & orecs & H1 & H2 & H3 & H4 & H5). exists ho, orecs. split; [exact H1|]. split; [exact H2|]. split; [exact H3|]. split; [|exact H5].
  eapply subtree_mono; [|exact H4]. cbn [fs_img fs_txn]. intros r b l es (b' & E & Hb & nd & E1 & E2 & E3 & E4). exists b'. split; [exact E|]. split; [exact Hb|].
  exists nd. split; [|split; [exact E2|]; split; [exact E3|exact E4]]. unfold part, within in *. destruct (b' <? n / 4096); [|discriminate]. apply (node_read enc ctx); auto.
Qed.

(* ---- paths ---- *)
Lemma same_hash fold s q name : file_name s -> spells s name -> name <> [] -> file_name q -> same_name fold s q -> name_hash_of fold s = name_hash_of fold q.
Proof.
  intros Fs Ss N Fq E. destruct (C25_order_of_names fold s name q (utf8 q) Fs Ss N Fq (or_introl eq_refl)) as (c & HC & (_ & QE) & _).
  assert (c = Eq) by (apply QE; symmetry; exact E). subst c. apply C28_equal_names_equal_hashes in HC.
  rewrite (C28_hash_value fold s name Fs Ss), (C28_hash_value fold q (utf8 q) Fq (or_introl eq_refl)) in HC. injection HC as HC. exact HC.
Qed.
Section Path.
  Variables (tie : list Z -> list Z -> Prop) (h : nat) (t : fs) (recs : list TreeSpec.record) (hashed fold : bool).
  Hypothesis HT : forall a b c, tie a b -> tie b c -> tie a c.
  Hypothesis HF : fs_tree tie h t recs.
  Hypothesis HD : directories tie hashed fold recs.
  Lemma leads_step id v r e s c : inode_is recs id (Some v) -> named hashed fold id recs r e s -> c <> [] -> file_name c -> same_name false s c -> same_name fold s c ->
    fs_record t utf8_next fold id (utf8 c) = Ok (Some e).
  Proof.
    intros HI NN NC FC S1 S2. destruct (HD id v HI) as (D1 & D2 & D3 & D4). destruct HI as (Hid & ri & R1 & R2 & _).
    pose proof NN as (_ & _ & DR & FS & SP & HH).
    destruct (C22_name_lookup_partial tie h t recs id hashed fold c (utf8 c) HT HF Hid D1 D2 (ex_intro _ ri (conj R1 R2)) FC (or_introl eq_refl)) as (d & E & HE).
    - intros ->. split; [|intros r0 e0 s0 N0; exact (proj1 (D3 _ _ _ N0) eq_refl)]. rewrite <- (same_hash fold s c (de_name e) FS SP); [|destruct DR as (? & ? & ? & ? & _ & _ & L & _); intros X; rewrite X in L; change (len (@nil Z)) with 0 in L; lia|exact FC|exact S2].
      rewrite <- HH. exact (proj1 (D3 _ _ _ NN) eq_refl).
    - intros r0 e0 s0 N0 S0. assert (e0 = e) by (eapply (D4 r0 e0 s0 r e s); [exact N0|exact NN|]; unfold same_name in *; congruence). subst e0.
      destruct N0 as (_ & _ & _ & F0 & P0 & _). assert (s0 = s) by (eapply spells_inj; eauto). subst s0. exact S1.
    - rewrite E. destruct d as [e0|]; [|exfalso; exact (HE r e s NN S2)]. destruct HE as (r0 & s0 & N0 & S0). do 2 f_equal.
      eapply (D4 r0 e0 s0 r e s); [exact N0|exact NN|]. unfold same_name in *. congruence.
  Qed.
  Lemma leads_descend id d cs i e : leads hashed fold recs id d cs i e -> forall v, inode_is recs id (Some v) -> Forall file_name cs ->
    descend (fun i c => fs_record t utf8_next fold i (utf8 c)) id d cs = Ok (Some (i, e)) /\ exists v, inode_is recs i (Some v).
  Proof.
    induction 1 as [id d|id d c cs r e s i e' NN NC S1 S2 HL IH]; intros v HI FC; [split; [reflexivity|eauto]|]. cbn [descend].
    rewrite (leads_step id v r e s c HI NN NC (Forall_inv FC) S1 S2). destruct c; [congruence|]. cbn [bind].
    destruct (HD id v HI) as (_ & _ & D3 & _). destruct (D3 _ _ _ NN) as (_ & v' & HV). exact (IH v' HV (Forall_inv_tail FC)).
  Qed.
End Path.
Lemma components_names p : file_name p -> Forall file_name (components p).
Proof.
  intros H. unfold components. set (q := match p with 47 :: p => p | _ => p end).
  assert (HQ : file_name q) by (unfold q; destruct p as [|c p]; [exact H|]; destruct c; try exact H; repeat (destruct p0; try exact H); exact (Forall_inv_tail H)).
  pose proof (split_spec q) as SS. destruct (split q) as (init, last). destruct SS as (E & _). unfold file_name in *. rewrite E in HQ. apply Forall_app in HQ. destruct HQ as (H1 & H2).
  apply Forall_app. split; [|destruct last as [|z last]; [constructor|constructor; [exact H2|constructor]]]. clear - H1. induction init as [|c init IH]; [constructor|]. cbn [map concat] in H1. apply Forall_app in H1. destruct H1 as (H0 & H1).
  apply Forall_app in H0. constructor; [tauto|auto].
Qed.

(* ---- newest records ---- *)
Lemma newest_found dev h rb recs oid x r : omap_tree dev h rb recs -> Z.of_nat h <= 256 -> 0 < oid -> newest recs oid x (Some r) ->
  omap_lookup dev rb oid x = Ok (Some (rec_desc r)).
Proof.
  intros HT Hh Ho HN. destruct (omap_lookup_correct dev h rb recs oid x HT Hh Ho) as ([r'|] & N' & ->).
  - cbn. rewrite (newest_unique dev h rb recs oid x r' r HT N' HN). reflexivity.
  - destruct HN as (I & O & T & _). specialize (N' r I O). lia.
Qed.

(* ---- the whole way ---- *)
Lemma low_bit x : negb (Z.land x 1 =? 0) = Z.testbit x 0.
Proof. rewrite Z.bit0_odd. change 1 with (Z.ones 1). rewrite Z.land_ones by lia. rewrite Zodd_mod. change (2 ^ 1) with 2. destruct (Zeq_bool (x mod 2) 1) eqn:E; [apply Zeq_bool_eq in E|apply Zeq_bool_neq in E]; lia. Qed.
Lemma tree_has_root (tie : list Z -> list Z -> Prop) h t recs id v : (forall a b c, tie a b -> tie b c -> tie a c) -> fs_tree tie h t recs -> inode_is recs id (Some v) ->
  exists n, fs_root t = Ok (Some n).
Proof.
  intros HT HF HI. pose proof (inode_found tie h t recs id _ HT HF HI) as E. cbn in E. unfold fs_inode, fs_walk, walk in E. unfold bindM, retM in E.
  destruct (fs_root t) as [[n|]| | |]; cbn [fst bind] in E; try discriminate; eauto.
Qed.
Lemma path_found (tie : list Z -> list Z -> Prop) h t recs hashed fold id v p i e w u : (forall a b c, tie a b -> tie b c -> tie a c) -> fs_tree tie h t recs ->
  directories tie hashed fold recs -> inode_is recs id (Some v) -> file_name p -> 2 <= len (utf16 p) -> leads hashed fold recs id None (components p) i e ->
  inode_is recs i (Some w) ->
  fs_by_path t (if u : bool then utf16_next else utf8_next) fold id (if u then utf16 p else utf8 p) = Ok (Some (i, w, e)).
Proof.
  intros HT HF HD HI FP LP HL HW. destruct (tree_has_root tie h t recs id v HT HF HI) as (n & HR).
  destruct (leads_descend tie h t recs hashed fold HT HF HD id None (components p) i e HL v HI (components_names p FP)) as (DE & _).
  assert (L8 : 2 <= len (utf8 p)) by (pose proof (utf16_utf8_len p); lia).
  destruct (C23_path_components_partial t fold id n p HR FP) as (P8 & P16). specialize (P8 L8). specialize (P16 LP).
  assert (R8 : resolve t (fun i c => fs_record t utf8_next fold i (utf8 c)) id (components p) = Ok (Some (i, w, e))).
  { unfold resolve. rewrite DE. cbn [bind]. pose proof (inode_found tie h t recs i _ HT HF HW) as E. cbn in E. rewrite E. reflexivity. }
  destruct u; [|rewrite P8; exact R8]. rewrite P16, <- R8. unfold resolve.
  rewrite (descend_utf16 t fold (components p) (components_scalar p FP) id None). reflexivity.
Qed.

Section Whole.
  Variables (enc dec : list Z -> list Z -> list Z) (sha : list Z -> list Z) (hmac : list Z -> list Z -> list Z).
  Hypothesis HP : primitives enc dec sha hmac.
  Variables (xenc xts : list Z -> list Z -> list Z -> list Z -> list Z).
  Hypothesis HX : forall k1 k2, unit_cipher 512 (xenc k1 k2) (xts k1 k2).
  Variables (P Q : Type) (evn : P -> list (Z * bnode) -> Z -> P * list (Z * bnode)) (evb : Q -> list (Z * list Z) -> Z -> Q * list (Z * list Z)).
  Hypothesis Hevn : forall p l b, incl (snd (evn p l b)) l.
  Hypothesis Hevb : forall q l b, incl (snd (evb q l b)) l.
  Variable unkeyed : option (list Z -> list Z -> list Z).
  Variables (tie : list Z -> list Z -> Prop).
  Hypothesis HT : forall a b c, tie a b -> tie b c -> tie a c.
  Variables (img : device) (b : Z) (d : list Z) (v : nat) (user recovery : option (list Z)) (n : volume_on).
  Hypothesis HV : volume_stored enc sha hmac xenc tie img b d v user recovery n.

  Definition ctx_of (key : option (list Z)) : option (list Z -> list Z -> list Z) :=
    match key with None => None | Some m => Some (xts (firstn 16 m) (skipn 16 m)) end.
  Lemma ctx_cipher key : cipher_of (data_cipher xenc key) (ctx_of key).
  Proof. destruct key; cbn; [apply HX|exact I]. Qed.
  Lemma bag_unique c : opened (fun id => xenc id id) img c d -> c_bag c = match vn_bag n with None => None | Some l => Some (Some l) end.
  Proof.
    intros (_ & _ & HB). destruct HV as (HC & _ & _ & _ & HN & _). destruct HC as (D & _).
    destruct (c_bag c) as [[l|]|], (vn_bag n) as [l'|]; try contradiction; cbn [bag_of] in *; try reflexivity.
    - pose proof (bag_ok (fun id => xenc id id) (fun id => xts id id) (fun id => HX id id) _ _ _ _ _ D HB) as E1.
      pose proof (bag_ok (fun id => xenc id id) (fun id => xts id id) (fun id => HX id id) _ _ _ _ _ D HN) as E2. rewrite E1 in E2. congruence.
    - destruct HB as (B1 & B2 & _). destruct HN; lia.
    - destruct HN as (B1 & B2 & _). destruct HB; lia.
  Qed.
  (* the container and the volume *)
  Definition open_of : open_volume := {| ov_size := size_of img; ov_super := vcontents (vn_super n); ov_omap := vn_omap n; ov_bag := vn_keys n;
    ov_locked := match vn_keys n with None => false | Some _ => true end; ov_snapshots := map snap_of (vn_snapshots n) |}.
  Theorem container_volume : exists c od, open (fun id => xts id id) img = Ok c /\ volume_by_index img c (Z.of_nat v) = Ok od /\
    volume_open (fun id => xts id id) img (c_size c) (c_bag c) (od_address od) = Ok open_of /\
    b_container (bags_of c open_of) = match vn_bag n with None => [] | Some l => l end.
  Proof.
    pose proof HV as (HC & HS & HR & (hc & Hhc & HCT) & HB & (o & e & E1 & E2 & E3) & HO & (ho & Hho & HOT) & HK & HSN & _ & HN0 & _).
    destruct (open_consistent (fun id => xenc id id) (fun id => xts id id) (fun id => HX id id) img b d HC) as (c & m & j & EO & OP & _).
    pose proof (bag_unique c OP) as EB. pose proof OP as (EC & RT & _).
    assert (ER : c_root c = vn_root n).
    { destruct RT as (_ & o1 & O1 & _ & _ & _ & O2 & _), HR as (_ & o2 & O3 & _ & _ & _ & O4 & _). congruence. }
    assert (SB : superblock_block d) by (destruct HC as (_ & d0 & _ & _ & _ & _ & _ & _ & (N1 & _) & _); exact (proj2 N1)).
    assert (EZ : c_size c = size_of img) by (apply (open_size (fun id => xts id id)); [exact (proj1 HC)|exact EO]).
    rewrite <- ER, <- EZ in HCT. destruct (C48_volumes_by_index_partial img c d hc (vn_crecs n) SB EC HS HCT Hhc) as (_ & _ & VI).
    destruct (VI v o E1) as (r & N & EV). destruct r as [r|]; [|destruct E2 as (I & O & T & _); specialize (N e I O); lia].
    assert (r = e) by (exact (newest_unique (part (c_size c) img) hc (c_root c) (vn_crecs n) o (xid d) r e HCT N E2)). subst r.
    exists c, (mk_od o (rec_txn e) (le_val (slice (snd e) 0 4)) (le_val (slice (snd e) 4 4)) (rec_address e)). split; [exact EO|]. split; [exact EV|]. split.
    - rewrite EB, EZ. cbn [od_address]. destruct HC as (D & _). exact (volume_open_ok (fun id => xenc id id) (fun id => xts id id) (fun id => HX id id) img (size_of img) (vn_bag n) (rec_address e) (vn_super n) (vn_omap n) ho (vn_orecs n) (vn_keys n) tie (vn_snapshots n) D HT E3 HO Hho HOT HK HSN HN0).
    - unfold bags_of. cbn [b_container]. rewrite EB. destruct (vn_bag n); reflexivity.
  Qed.
  (* the keys *)
  Lemma keys_found bg j1 j2 : b_volume bg = vn_keys n -> b_container bg = match vn_bag n with None => [] | Some l => l end -> b_id bg = slice (vn_super n) 240 16 ->
    len j1 = 32 -> len j2 = 32 -> vn_keys n <> None ->
    exists master, vn_key n = Some master /\
    unlock dec sha hmac bg {| v_locked := true; v_user := user; v_recovery := recovery; v_keys := None |} j1 j2 =
      Ok (1, {| v_locked := false; v_user := user; v_recovery := recovery; v_keys := Some (firstn 16 master, skipn 16 master) |}).
  Proof.
    intros B1 B2 B3 L1 L2 NK. pose proof HV as (_ & _ & _ & _ & _ & _ & _ & _ & _ & _ & HU & _). unfold unlocked in HU.
    destruct (vn_keys n) as [l|]; [|congruence]. destruct HU as (l1 & e & l2 & c1 & ce & c2 & kek & master & EM & -> & EB & U1 & U2 & U3 & U4).
    exists master. split; [exact EM|]. rewrite EB in B2. rewrite <- B3 in U3, U4.
    exact (C42_correct_password_partial enc dec sha hmac HP bg {| v_locked := true; v_user := user; v_recovery := recovery; v_keys := None |} l1 e l2 c1 ce c2 kek master j1 j2 eq_refl B1 B2 U1 U2 U3 U4 L1 L2).
  Qed.
  Notation tree := (mk_fs (within (size_of img) (fs_image img (ctx_of (vn_key n)))) (vn_top n) (within (size_of img) img) (vn_omap n) (xid (vn_super n))).
  Lemma tree_found : volume_fs img (ctx_of (vn_key n)) open_of = Ok tree /\ exists h, fs_tree tie h tree (vn_recs n).
  Proof.
    pose proof HV as (_ & _ & _ & _ & _ & (_ & _ & _ & _ & (_ & _ & SBK)) & _ & (ho & Hho & HOT) & _ & _ & _ & HN0 & (r & HR1 & HR2) & HNS & h & HFT). split.
    - unfold volume_fs. cbn [open_of ov_size ov_super ov_omap vcontents vs_root vs_xid].
      assert (0 <= num (vn_super n) 136 8) by (unfold num; apply le_val_range; apply bytes_slice; exact (proj1 (proj2 SBK))).
      rewrite (newest_found (within (size_of img) img) ho (vn_omap n) (vn_orecs n) (num (vn_super n) 136 8) (xid (vn_super n)) r HOT Hho ltac:(lia) HR1). cbn [bind rec_desc od_address]. rewrite HR2. reflexivity.
    - exists h. eapply tree_read; [apply ctx_cipher|exact HNS|exact HFT].
  Qed.
  Notation ctx := (ctx_of (vn_key n)).
  Notation ov := open_of.
  Theorem lookup_stored c p q u str j1 j2 r : b_container (bags_of c ov) = match vn_bag n with None => [] | Some l => l end -> len j1 = 32 -> len j2 = 32 ->
    fs_by_path tree (if u : bool then utf16_next else utf8_next) (volume_folds ov) 2 str = Ok r ->
    exists h', vrun P Q evn evb dec sha hmac xts unkeyed img ov (bags_of c ov) (fresh P Q ov p q) [VState (SetUser user); VState (SetRecovery recovery); VPath u str j1 j2] =
      Ok ([AInt (match user with Some _ => 1 | None => -1 end); AInt (match recovery with Some _ => 1 | None => -1 end); AEntry r], h') /\
      context xts ov (v_keys (h_volume h')) = Some ctx.
  Proof.
    intros HBC L1 L2 HR.
    set (h0 := mk_h (P := P) (Q := Q) {| v_locked := ov_locked ov; v_user := user; v_recovery := recovery; v_keys := None |} None (q, []) (p, [])).
    assert (BI : bytes_image img) by (destruct HV as ((D & _) & _); intros x y E; apply (D x y E)).
    assert (G : exists v1, get_file_system P Q dec sha hmac img ov (bags_of c ov) j1 j2 h0 = (Ok tt, mk_h v1 (Some (vn_top n)) (q, []) (p, [])) /\ context xts ov (v_keys v1) = Some ctx).
    { destruct (tree_found) as (TF & _). unfold volume_fs in TF.
      unfold get_file_system. cbn [h0 h_root h_volume v_locked h_blocks h_nodes].
      assert (EU : exists r v1, (if ov_locked ov then unlock dec sha hmac (bags_of c ov) (h_volume h0) j1 j2 else Ok (0, h_volume h0)) = Ok (r, v1) /\ r <> -1 /\ context xts ov (v_keys v1) = Some ctx).
      { destruct (vn_keys n) as [l|] eqn:EK.
        - replace (ov_locked ov) with true by (cbn; rewrite EK; reflexivity).
          destruct (keys_found (bags_of c ov) j1 j2 eq_refl HBC eq_refl L1 L2 ltac:(rewrite EK; discriminate)) as (m & E1 & E2).
          exists 1. eexists. split; [cbn [h0 h_volume open_of ov_locked]; rewrite EK; exact E2|]. split; [lia|]. unfold context. cbn [open_of ov_bag v_keys]. rewrite EK, E1. reflexivity.
        - replace (ov_locked ov) with false by (cbn; rewrite EK; reflexivity). exists 0, (h_volume h0). split; [reflexivity|]. split; [lia|].
          unfold context. cbn [open_of ov_bag]. rewrite EK. pose proof HV as (_ & _ & _ & _ & _ & _ & _ & _ & _ & _ & HU & _). unfold unlocked in HU. rewrite EK in HU. rewrite HU. reflexivity. }
      destruct EU as (r1 & v1 & EU & NR & EC). exists v1. split; [|exact EC]. cbn [h0 h_volume] in EU. rewrite EU. rewrite (proj2 (Z.eqb_neq _ _) NR).
      unfold bindM, retM. destruct (omap_lookup (within (ov_size ov) img) (ov_omap ov) (vs_root (ov_super ov)) (vs_xid (ov_super ov))) as [[od|]| | |]; cbn [bind] in TF; try discriminate.
      assert (ET : od_address od = vn_top n) by congruence. rewrite ET. reflexivity. }
    destruct G as (v1 & G1 & G2). set (h1 := mk_h (P := P) (Q := Q) v1 (Some (vn_top n)) (q, []) (p, [])) in *.
    assert (HX' : forall k1 k2, exists e, unit_cipher 512 e (xts k1 k2)) by (intros k1 k2; exists (xenc k1 k2); apply HX).
    assert (DU : during P Q img ov ctx (vn_top n) v1 h1).
    { split; [reflexivity|]. split; [reflexivity|]. split; [intros x y []|]. intros x y []. }
    destruct (lookup_path_ok P Q evn evb Hevn Hevb xts HX' unkeyed img ov BI v1 ctx (vn_top n) G2 u str h1 DU) as (DU' & EP).
    change (tree_of img ov ctx (vn_top n)) with tree in EP. rewrite HR in EP.
    cbn [vrun vstep Volume.step bind fresh h_volume h_root h_blocks h_nodes v_locked v_user v_recovery v_keys].
    fold h0. unfold answer_entry, by_path. unfold bindM at 1. rewrite G1.
    destruct (inode_by_path (handle P Q) _ _ _ (volume_folds ov) 2 str h1) as (r2, h2). cbn [fst snd] in *. subst r2. cbn [bind]. exists h2. split; [reflexivity|].
    destruct DU' as (-> & _). exact G2.
  Qed.
End Whole.
