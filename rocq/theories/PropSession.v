(* C71, C72: an open volume and its lookups. *)
From Coq Require Import Lia.
From Verif Require Import Base BaseLemmas BTree BTreeSpec BTreeProofs Walk WalkProofs TreeSpec Omap OmapProofs OmapSpec PropOmap Records RecordsSpec FsTree FsSpec FsProofs PropFs PropFile PropEntry Name FsName FsNameProofs
  Crypt CryptSpec CryptProofs KeyBag KeyBagSpec Volume VolumeSpec PropVolume Sha256 Aes Container DataRead VolumeSuper Session SessionSpec SessionProofs.

Lemma open_locked dec img size bag b ov : volume_open dec img size bag b = Ok ov -> ov_bag ov <> None -> ov_locked ov = true.
Proof.
  unfold volume_open. intros H. apply bind_ok in H. destruct H as (s & _ & H). apply bind_ok in H. destruct H as (u1 & _ & H). apply bind_ok in H. destruct H as (o & _ & H).
  apply bind_ok in H. destruct H as (u2 & _ & H). apply bind_ok in H. destruct H as ((k, l) & E & H). apply bind_ok in H. destruct H as (sn & _ & H).
  apply bind_ok in H. destruct H as (u3 & _ & H). injection H as <-. cbn [ov_bag ov_locked]. unfold volume_keys in E.
  destruct bag as [bag|]; [|injection E as <- <-; congruence]. destruct (negb (Z.land (vs_flags s) 1 =? 0)); [injection E as <- <-; congruence|].
  apply bind_ok in E. destruct E as ([(k0, n)|] & _ & E); [|injection E as <- <-; congruence].
  apply bind_ok in E. destruct E as (u4 & _ & E). apply bind_ok in E. destruct E as (l0 & _ & E). injection E as <- <-. reflexivity.
Qed.

(* ---- C71 ---- *)
(* What holds: [unkeyed = None] says that libcaes refuses to decrypt before keys were set. After
   any calls, a lookup answers what the stored tree gives under the keys of the volume, and
   nothing else: on a volume that is still locked it is an error. *)
Theorem C71_like_fresh_partial : forall P Q evn evb, (forall (p : P) l b, incl (snd (evn p l b)) l) -> (forall (q : Q) l b, incl (snd (evb q l b)) l) ->
  forall aes sha hmac xts, (forall k1 k2, exists enc, unit_cipher 512 enc (xts k1 k2)) ->
  forall dec img c b ov unkeyed, bytes_image img -> volume_open dec img (c_size c) (c_bag c) b = Ok ov -> unkeyed = None \/ ov_bag ov = None ->
  forall p q cs l h, vrun P Q evn evb aes sha hmac xts unkeyed img ov (bags_of c ov) (fresh P Q ov p q) cs = Ok (l, h) ->
  forall d a h', lookup_call d -> vstep P Q evn evb aes sha hmac xts unkeyed img ov (bags_of c ov) h d = Ok (a, h') ->
  (ov_bag ov = None -> a = stored_answer img ov None d) /\
  (v_locked (h_volume h') = true -> ov_bag ov <> None -> a = AError) /\
  (v_locked (h_volume h') = false -> ov_bag ov <> None -> exists k1 k2, v_keys (h_volume h') = Some (k1, k2) /\ a = stored_answer img ov (Some (xts k1 k2)) d).
Proof.
  intros P Q evn evb H1 H2 aes sha hmac xts HX dec img c b ov unkeyed HB HO HU p q cs l h HR d a h' HL HS.
  pose proof (open_locked _ _ _ _ _ _ HO) as HK.
  assert (S0 : sound P Q xts img ov (fresh P Q ov p q)) by (apply (sound_fresh P Q xts unkeyed img ov (bags_of c ov)); [reflexivity|exact HK|exact HU]).
  assert (S1 : sound P Q xts img ov h) by (eapply (run_sound P Q evn evb H1 H2 aes sha hmac xts HX unkeyed img ov (bags_of c ov)); [exact HB|reflexivity|exact HK|exact HU|exact S0|exact HR]).
  destruct (lookup_sound P Q evn evb H1 H2 aes sha hmac xts HX unkeyed img ov (bags_of c ov) HB eq_refl HK HU h d S1 HL a h' HS) as ((K & _) & A).
  unfold answers, context, keys_ok in *. destruct (ov_bag ov) as [bag|].
  - split; [discriminate|]. destruct (v_locked (h_volume h')); [rewrite K in A; split; [intros; exact A|discriminate]|]. split; [discriminate|].
    intros _ _. destruct K as [K|K]; [discriminate|]. destruct (v_keys (h_volume h')) as [(k1, k2)|]; [|congruence]. eauto.
  - split; [intros; exact A|]. split; intros; congruence.
Qed.
Print Assumptions C71_like_fresh_partial.

(* An encrypted volume: the file system tree of PropEntry, each byte changed by the first byte
   of the key. *)
Definition sx_node : list Z := node_bytes (fx_node true true fz_recs).
Definition sx_cipher (k1 k2 t d : list Z) : list Z := map (fun x => Z.lxor x (w8 (hd 0 k1))) d.
Definition sx_map : device := fun b => if b =? 30 then Some (node_bytes (ex_node true true [(ex_key 80 1, ex_val 20)])) else None.
Definition ss_img : image := fun b => if b =? 20 then Some (sx_cipher [15] [] [] sx_node) else sx_map b.
Definition ss_super : vsuper := {| vs_xid := 4; vs_compatible := 0; vs_read_only := 0; vs_incompatible := 0; vs_omap := 29; vs_root := 80; vs_extents := 0; vs_snapshots := 0;
  vs_next := 30; vs_id := repeat 7 16; vs_flags := 0; vs_name := zeros 256 |}.
Definition ss_ov : open_volume := {| ov_size := 409600; ov_super := ss_super; ov_omap := 30; ov_bag := Some [entry_pw]; ov_locked := true; ov_snapshots := [] |}.
(* caches that keep everything *)
Definition keep {A} (u : unit) (l : list (Z * A)) (b : Z) : unit * list (Z * A) := (u, l).
Definition ss_run (unkeyed : option (list Z -> list Z -> list Z)) (cs : list vcall) :=
  vrun unit unit keep keep aes_dec sha256 hmac_sha256 sx_cipher unkeyed ss_img ss_ov (sample_bags [entry_pw]) (fresh unit unit ss_ov tt tt) cs.
(* the answers: identifiers of file entries *)
Definition ss_show (a : vanswer) : Z + option Z := match a with AInt r => inl r | AEntry (Some (i, _, _)) => inr (Some i) | AEntry None => inr None | AError => inl (-1) end.
Definition ss_answers (r : res (list vanswer * handle unit unit)) : list (Z + option Z) := match r with Ok (l, _) => map ss_show l | _ => [] end.
Definition ss_path : vcall := VPath false [47; 97; 98] (zeros 32) (zeros 32).
Definition ss_password : vcall := VState (SetUser (Some [112; 119])).
Definition ss_unlock : vcall := VState (Unlock (zeros 32) (zeros 32)).
Lemma sx_cipher_ok k1 k2 : exists enc, unit_cipher 512 enc (sx_cipher k1 k2).
Proof.
  exists (sx_cipher k1 k2). intros m s B L. unfold sx_cipher.
  assert (W : 0 <= w8 (hd 0 k1) < 256) by (unfold w8; apply Z.mod_pos_bound; lia). generalize dependent (w8 (hd 0 k1)). intros k W.
  assert (X : forall x, is_byte x -> is_byte (Z.lxor x k)).
  { intros x Hx. unfold is_byte in *. split; [apply Z.lxor_nonneg; lia|]. destruct (Z.eq_dec (Z.lxor x k) 0) as [->|N]; [lia|].
    assert (0 <= Z.lxor x k) by (apply Z.lxor_nonneg; lia). change 256 with (2 ^ 8). apply Z.log2_lt_pow2; [lia|].
    eapply Z.le_lt_trans; [apply Z.log2_lxor; lia|]. apply Z.max_lub_lt.
    - destruct (Z.eq_dec x 0) as [->|]; [cbn; lia|]. apply Z.log2_lt_pow2; lia.
    - destruct (Z.eq_dec k 0) as [->|]; [cbn; lia|]. apply Z.log2_lt_pow2; lia. }
  assert (Y : forall s, bytes s -> bytes (map (fun x => Z.lxor x k) s)) by (intros s0 B0; unfold bytes in *; rewrite Forall_map; eapply Forall_impl; [|exact B0]; exact X).
  assert (LL : len (map (fun x => Z.lxor x k) s) = 512) by (unfold len in *; rewrite map_length; exact L).
  split; [split; [apply Y, B|exact LL]|]. split; [split; [apply Y, B|exact LL]|]. rewrite map_map. rewrite <- (map_id s) at 2. apply map_ext. intros x.
  rewrite Z.lxor_assoc, Z.lxor_nilpotent, Z.lxor_0_r. reflexivity.
Qed.
(* Full statement is false when libcaes gives some output before keys were set: the blocks it
   gave stay in the cache. *)
Theorem C71_early_use_refuted : exists xts f img ov bg p before,
  (forall k1 k2, exists enc, unit_cipher 512 enc (xts k1 k2)) /\ (exists enc, unit_cipher 512 enc f) /\ v_locked (h_volume (fresh unit unit ov tt tt)) = true /\
  ss_answers (vrun unit unit keep keep aes_dec sha256 hmac_sha256 xts (Some f) img ov bg (fresh unit unit ov tt tt) [ss_password; ss_unlock; p]) = [inl 1; inl 1; inr (Some 16)] /\
  ss_answers (vrun unit unit keep keep aes_dec sha256 hmac_sha256 xts (Some f) img ov bg (fresh unit unit ov tt tt) (before :: [ss_password; ss_unlock; p])) = [inl (-1); inl 1; inl 1; inl (-1)].
Proof.
  exists sx_cipher, (sx_cipher [] []), ss_img, ss_ov, (sample_bags [entry_pw]), ss_path, ss_path.
  split; [exact sx_cipher_ok|]. split; [apply sx_cipher_ok|]. split; [reflexivity|]. split; vm_compute; reflexivity.
Qed.
Print Assumptions C71_early_use_refuted.
(* With a libcaes that refuses: errors while it is locked, then the entries. *)
Example C71_example : ss_answers (ss_run None [ss_path; VState (SetUser (Some [113])); ss_unlock; ss_path; ss_password; ss_unlock; ss_path; VId 18 [] []; VPath false [47; 120] [] []]) =
  [inl (-1); inl 1; inl 0; inl (-1); inl 1; inl 1; inr (Some 16); inr (Some 18); inr None].
Proof. vm_compute. reflexivity. Qed.

(* ---- C72 ---- *)
(* What holds: before the first lookup, a lookup does what unlock and then the lookup do. *)
Theorem C72_lookup_unlocks_partial : forall P Q evn evb aes sha hmac xts unkeyed img ov bg (p : P) (q : Q) cs l h,
  vrun P Q evn evb aes sha hmac xts unkeyed img ov bg (fresh P Q ov p q) (map VState cs) = Ok (l, h) ->
  forall d j1 j2 r a h', (exists id, d = VId id j1 j2) \/ (exists u s, d = VPath u s j1 j2) ->
  vrun P Q evn evb aes sha hmac xts unkeyed img ov bg h [VState (Unlock j1 j2); d] = Ok ([AInt r; a], h') -> r <> -1 ->
  vstep P Q evn evb aes sha hmac xts unkeyed img ov bg h d = Ok (a, h').
Proof.
  intros P Q evn evb aes sha hmac xts unkeyed img ov bg p q cs l h HR d j1 j2 r a h' HD HA HN.
  assert (HF : h_root h = None).
  { assert (G : forall cs h0 l h, h_root h0 = None -> vrun P Q evn evb aes sha hmac xts unkeyed img ov bg h0 (map VState cs) = Ok (l, h) -> h_root h = None).
    { clear. induction cs as [|c cs IH]; intros h0 l h E H; cbn [map vrun] in H; [injection H as <- <-; exact E|].
      apply bind_ok in H. destruct H as ((x, h1) & H1 & H). apply bind_ok in H. destruct H as ((y, h2) & H2 & H). injection H as <- <-.
      cbn [vstep] in H1. apply bind_ok in H1. destruct H1 as ((r, v) & _ & H1). injection H1 as <- <-. refine (IH _ _ _ _ H2). exact E. }
    refine (G cs _ _ _ _ HR). reflexivity. }
  cbn [vrun] in HA. apply bind_ok in HA. destruct HA as ((x, h1) & HA1 & HA). apply bind_ok in HA. destruct HA as ((y, h2) & HA2 & HA). injection HA as -> -> ->.
  apply bind_ok in HA2. destruct HA2 as ((a2, h3) & HA2 & E2). injection E2 as -> ->.
  cbn [vstep Volume.step] in HA1. apply bind_ok in HA1. destruct HA1 as ((r1, v1) & HU & HA1). injection HA1 as -> <-.
  assert (G : forall A (m : M (handle P Q) A), bindM (get_file_system P Q aes sha hmac img ov bg j1 j2) (fun _ => m) h =
    bindM (get_file_system P Q aes sha hmac img ov bg j1 j2) (fun _ => m) (mk_h v1 (h_root h) (h_blocks h) (h_nodes h))).
  { intros A m. unfold bindM, get_file_system. cbn [h_root h_volume h_blocks h_nodes]. rewrite HF.
    destruct (v_locked (h_volume h)) eqn:EL.
    - rewrite HU. destruct (v_locked v1) eqn:EL1.
      + assert (EV : v1 = h_volume h).
        { clear - HU EL EL1. unfold unlock in HU. rewrite EL in HU. cbn [negb] in HU. destruct (b_volume bg); [|injection HU as <- <-; discriminate].
          destruct (get_volume_key _ _ _ _ _ _) as [[key|]| | |]; try discriminate; try (injection HU as <- <-; reflexivity).
          destruct (get_master_key _ _ _ _ _ _) as [[m|]| | |]; try discriminate; try (injection HU as <- <-; reflexivity).
          destruct (rd m 0 16); cbn [bind] in HU; try discriminate. destruct (rd m 16 16); cbn [bind] in HU; try discriminate. injection HU as <- <-. discriminate. }
        rewrite EV, HU, <- EV. reflexivity.
      + rewrite (proj2 (Z.eqb_neq _ _) HN). reflexivity.
    - unfold unlock in HU. rewrite EL in HU. cbn [negb] in HU. injection HU as <- <-. rewrite EL. reflexivity. }
  destruct HD as [(id & ->)|(u & s & ->)]; cbn [vstep] in *; unfold answer_entry, by_id, by_path in *; rewrite G; exact HA2.
Qed.
Print Assumptions C72_lookup_unlocks_partial.
(* Full statement is false: once a lookup was tried with no or with the wrong password, the
   lookups do not unlock the volume any more, whatever passwords are set. *)
Theorem C72_second_password_refuted : exists xts img ov bg p,
  (forall k1 k2, exists enc, unit_cipher 512 enc (xts k1 k2)) /\ v_locked (h_volume (fresh unit unit ov tt tt)) = true /\
  ss_answers (vrun unit unit keep keep aes_dec sha256 hmac_sha256 xts None img ov bg (fresh unit unit ov tt tt) [ss_password; p]) = [inl 1; inr (Some 16)] /\
  ss_answers (vrun unit unit keep keep aes_dec sha256 hmac_sha256 xts None img ov bg (fresh unit unit ov tt tt) [p; ss_password; p]) = [inl (-1); inl 1; inl (-1)].
Proof.
  exists sx_cipher, ss_img, ss_ov, (sample_bags [entry_pw]), ss_path. split; [exact sx_cipher_ok|]. split; [reflexivity|]. split; vm_compute; reflexivity.
Qed.
Print Assumptions C72_second_password_refuted.
Definition no_unlock (c : vcall) : Prop := match c with VState (Unlock _ _) => False | _ => True end.
Section Stuck.
  Variables (P Q : Type) (evn : P -> list (Z * bnode) -> Z -> P * list (Z * bnode)) (evb : Q -> list (Z * list Z) -> Z -> Q * list (Z * list Z)).
  Variables (aes : list Z -> list Z -> list Z) (sha : list Z -> list Z) (hmac : list Z -> list Z -> list Z) (xts : list Z -> list Z -> list Z -> list Z -> list Z).
  Variables (img : image) (ov : open_volume) (bg : bags).
  Hypothesis HBG : ov_bag ov <> None.
  Definition stuck (h : handle P Q) : Prop := (exists rb, h_root h = Some rb) /\ v_keys (h_volume h) = None /\ snd (h_blocks h) = [] /\ snd (h_nodes h) = [].
  Lemma stuck_root h : stuck h -> get_root P Q evn evb xts None img ov h = (Fail, h).
  Proof.
    intros ((rb & E1) & E2 & E3 & E4). unfold get_root. rewrite E1. destruct (int_max <? rb); [reflexivity|]. unfold cache_find. rewrite E4. cbn [find].
    unfold bindM, get_block. rewrite E3. cbn [find]. unfold read_block_of. rewrite E2. destruct (ov_bag ov); [destruct (negb _); reflexivity|congruence].
  Qed.
  Lemma stuck_lookup h id u str : stuck h ->
    bindM (walk (get_root P Q evn evb xts None img ov) (get_sub P Q evn evb xts None img ov) (fs_id_walker id 3)) (fun e =>
      retM (let! i := inode_finish e in Ok (match i with Some i => Some (i, @None dentry) | None => None end))) h = (Fail, h) /\
    inode_by_path (handle P Q) (get_root P Q evn evb xts None img ov) (get_sub P Q evn evb xts None img ov) (if u : bool then utf16_next else utf8_next) (volume_folds ov) 2 str h = (Fail, h).
  Proof. intros H. apply stuck_root in H. split; [unfold bindM, walk|unfold inode_by_path]; unfold bindM; rewrite H; reflexivity. Qed.
  Lemma stuck_step h c a h' : stuck h -> no_unlock c -> vstep P Q evn evb aes sha hmac xts None img ov bg h c = Ok (a, h') ->
    stuck h' /\ forall x, a <> AEntry x.
  Proof.
    intros S N E. pose proof S as ((rb & E1) & E2 & E3 & E4).
    assert (F : forall j1 j2, get_file_system P Q aes sha hmac img ov bg j1 j2 h = (Ok tt, h)) by (intros; unfold get_file_system; rewrite E1; reflexivity).
    destruct c as [[q|q|j1 j2]|id j1 j2|u str j1 j2]; cbn [vstep Volume.step bind] in E; [| |contradiction| |].
    - injection E as <- <-. split; [|discriminate]. split; [exists rb; exact E1|]. repeat split; assumption.
    - injection E as <- <-. split; [|discriminate]. split; [exists rb; exact E1|]. repeat split; assumption.
    - unfold answer_entry, by_id in E. unfold bindM at 1 in E. rewrite F, (proj1 (stuck_lookup h id true [] S)) in E. injection E as <- <-. split; [exact S|discriminate].
    - unfold answer_entry, by_path in E. unfold bindM at 1 in E. rewrite F, (proj2 (stuck_lookup h 0 u str S)) in E. injection E as <- <-. split; [exact S|discriminate].
  Qed.
  Lemma stuck_run : forall cs h l h', stuck h -> Forall no_unlock cs -> vrun P Q evn evb aes sha hmac xts None img ov bg h cs = Ok (l, h') ->
    forall x, ~ In (AEntry x) l.
  Proof.
    induction cs as [|c cs IH]; intros h l h' S N E x; cbn [vrun] in E; [injection E as <- <-; intros []|].
    apply bind_ok in E. destruct E as ((a, h1) & E1 & E). apply bind_ok in E. destruct E as ((l2, h2) & E2 & E). injection E as <- <-.
    destruct (stuck_step h c a h1 S (Forall_inv N) E1) as (S1 & A). intros [X|X]; [exact (A x X)|exact (IH _ _ _ S1 (Forall_inv_tail N) E2 x X)].
  Qed.
End Stuck.
(* After a lookup for which no password fits, no lookup finds anything until unlock is called. *)
Theorem C72_no_second_try : forall P Q evn evb aes sha hmac xts dec img c b ov, volume_open dec img (c_size c) (c_bag c) b = Ok ov -> ov_bag ov <> None ->
  (exists t, volume_fs img None ov = Ok t) ->
  forall p q d j1 j2 v cs l h, (exists id, d = VId id j1 j2) \/ (exists u s, d = VPath u s j1 j2) ->
  unlock aes sha hmac (bags_of c ov) (h_volume (fresh P Q ov p q)) j1 j2 = Ok (0, v) -> Forall no_unlock cs ->
  vrun P Q evn evb aes sha hmac xts None img ov (bags_of c ov) (fresh P Q ov p q) (d :: cs) = Ok (l, h) -> forall x, ~ In (AEntry x) l.
Proof.
  intros P Q evn evb aes sha hmac xts dec img c b ov HO HBG (t & HT) p q d j1 j2 v cs l h HD HU HC HR x.
  pose proof (open_locked _ _ _ _ _ _ HO HBG) as HK. set (bg := bags_of c ov) in *.
  assert (EV : v = {| v_locked := true; v_user := None; v_recovery := None; v_keys := None |}).
  { cbn [fresh h_volume] in HU. rewrite HK in HU. unfold unlock in HU. cbn [negb v_locked v_user v_recovery] in HU. change (b_volume bg) with (ov_bag ov) in HU.
    destruct (ov_bag ov) as [bag|]; [|congruence]. destruct (get_volume_key _ _ _ _ _ _) as [[key|]| | |]; try discriminate; try (injection HU as <-; reflexivity).
    destruct (get_master_key _ _ _ _ _ _) as [[m|]| | |]; try discriminate. destruct (rd m 0 16); cbn [bind] in HU; try discriminate. destruct (rd m 16 16); cbn [bind] in HU; discriminate. }
  unfold volume_fs in HT. cbn [vrun] in HR. apply bind_ok in HR. destruct HR as ((a, h1) & E1 & E). apply bind_ok in E. destruct E as ((l2, h2) & E2 & E). injection E as <- <-.
  assert (F : exists rb, get_file_system P Q aes sha hmac img ov bg j1 j2 (fresh P Q ov p q) = (Ok tt, mk_h v (Some rb) (q, []) (p, []))).
  { unfold get_file_system. cbn [fresh h_root h_volume v_locked h_blocks h_nodes] in *. rewrite HK. rewrite HK in HU. rewrite HU. cbn [Z.eqb]. unfold bindM, retM.
    destruct (omap_lookup (within (ov_size ov) img) (ov_omap ov) (vs_root (ov_super ov)) (vs_xid (ov_super ov))) as [[o|]| | |]; try discriminate. exists (od_address o). reflexivity. }
  destruct F as (rb & F).
  assert (S : stuck P Q (mk_h v (Some rb) (q, []) (p, []))) by (split; [exists rb; reflexivity|]; rewrite EV; repeat split).
  assert (S1 : a = AError /\ stuck P Q h1).
  { destruct HD as [(id & ->)|(u & s & ->)]; cbn [vstep] in E1; unfold answer_entry, by_id, by_path in E1; unfold bindM at 1 in E1; rewrite F in E1.
    - rewrite (proj1 (stuck_lookup P Q evn evb xts img ov HBG _ id true [] S)) in E1. injection E1 as <- <-. auto.
    - rewrite (proj2 (stuck_lookup P Q evn evb xts img ov HBG _ 0 u s S)) in E1. injection E1 as <- <-. auto. }
  destruct S1 as (-> & S1). intros [X|X]; [discriminate|]. exact (stuck_run P Q evn evb aes sha hmac xts img ov bg HBG cs h1 l2 h2 S1 HC E2 x X).
Qed.
Print Assumptions C72_no_second_try.
Example C72_example : ss_answers (ss_run None [ss_password; ss_path]) = [inl 1; inr (Some 16)] /\ ss_answers (ss_run None [ss_password; ss_unlock; ss_path]) = [inl 1; inl 1; inr (Some 16)].
Proof. split; vm_compute; reflexivity. Qed.
