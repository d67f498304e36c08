(* Using an open volume on any device: unlocking and lookups end within their buffers. *)
From Verif Require Import Base BaseLemmas BTree BTreeProofs Walk WalkProofs Omap OmapProofs Records RecordsProofs FsTree FsProofs Name NameProofs FsName FsNameProofs
  CryptSpec Crypt KeyBag Volume Container ContainerProofs VolumeSuper DataRead DataSplit Session SessionSpec SessionProofs Snapshot FileEntry EntryName SafeSource SafeUse.
Ltac Zify.zify_post_hook ::= Z.div_mod_to_equations.

Lemma wr_fine l off s : 0 <= off -> off + len s <= len l -> fine (wr l off s).
Proof. intros H1 H2. unfold wr. replace ((0 <=? off) && (off + len s <=? len l)) with true by lia. exact I. Qed.
Lemma slice_short {A} (l : list A) off n : 0 <= n -> len (slice l off n) <= n.
Proof. intros H. unfold len, slice. rewrite firstn_length. lia. Qed.
Lemma unwrap_step_fine dec n round i buf : 0 <= i -> 8 * (i + 1) <= len buf ->
  fine (unwrap_step dec n round i buf) /\ forall b, unwrap_step dec n round i buf = Ok b -> len b = len buf.
Proof.
  intros Hi HL. unfold unwrap_step. rewrite !rd_in by lia. cbn [bind]. cbv zeta. set (b := dec _). pose proof (slice_short b 0 8 ltac:(lia)). pose proof (slice_short b 8 8 ltac:(lia)).
  pose proof (wr_fine buf 0 (slice b 0 8) ltac:(lia) ltac:(lia)) as F. destruct (wr buf 0 (slice b 0 8)) as [b1| | |] eqn:E1; cbn [bind]; try contradiction; [|split; [exact I|discriminate]].
  apply wr_len in E1. split; [apply wr_fine; lia|]. intros b2 E2. apply wr_len in E2. lia.
Qed.
Lemma unwrap_blocks_fine dec n round : forall i buf, 8 * (Z.of_nat i + 1) <= len buf ->
  fine (unwrap_blocks dec n round i buf) /\ forall b, unwrap_blocks dec n round i buf = Ok b -> len b = len buf.
Proof.
  induction i as [|i IH]; intros buf HL; cbn [unwrap_blocks]; [split; [exact I|]; intros b E; apply Ok_eq in E; subst; reflexivity|].
  destruct (unwrap_step_fine dec n round (Z.of_nat (S i)) buf ltac:(lia) ltac:(lia)) as (F & L). destruct (unwrap_step dec n round (Z.of_nat (S i)) buf) as [b1| | |]; cbn [bind]; try contradiction; [|split; [exact I|discriminate]].
  specialize (L b1 eq_refl). destruct (IH b1 ltac:(lia)) as (F2 & L2). split; [exact F2|]. intros b E. rewrite (L2 b E). exact L.
Qed.
Lemma unwrap_rounds_fine dec n : 1 <= n -> forall r buf, 8 * n <= len buf -> fine (unwrap_rounds dec n r buf) /\ forall b, unwrap_rounds dec n r buf = Ok b -> len b = len buf.
Proof.
  intros Hn. induction r as [|r IH]; intros buf HL; cbn [unwrap_rounds]; [split; [exact I|]; intros b E; apply Ok_eq in E; subst; reflexivity|].
  destruct (unwrap_blocks_fine dec n (Z.of_nat r) (Z.to_nat (n - 1)) buf ltac:(lia)) as (F & L). destruct (unwrap_blocks dec n (Z.of_nat r) (Z.to_nat (n - 1)) buf) as [b1| | |]; cbn [bind]; try contradiction; [|split; [exact I|discriminate]].
  specialize (L b1 eq_refl). destruct (IH b1 ltac:(lia)) as (F2 & L2). split; [exact F2|]. intros b E. rewrite (L2 b E). exact L.
Qed.
Lemma key_unwrap_fine dec bits w : fine (key_unwrap dec bits w) /\ forall u, key_unwrap dec bits w = Ok u -> len u = len w.
Proof.
  unfold key_unwrap. destruct (_ || _); cbn [check bind]; [|split; [exact I|discriminate]]. destruct (8 <? len w) eqn:C1; cbn [check bind]; [|split; [exact I|discriminate]].
  destruct (len w mod 8 =? 0) eqn:C2; cbn [check bind]; [|split; [exact I|discriminate]]. apply unwrap_rounds_fine; lia.
Qed.

(* the parts of a packed key *)
Definition kek_sized (k : kek) : Prop := len (k_wrapped k) = 40 /\ len (k_id k) = 16.
Lemma kek_value_sized data off tag vs k k' : kek_sized k -> kek_value data off tag vs k = Ok k' -> kek_sized k'.
Proof.
  intros (H1 & H2) H. unfold kek_value in H.
  repeat match type of H with context [if ?b then _ else _] => destruct b end;
    try (apply bind_ok in H; destruct H as (u & _ & H); apply bind_ok in H; destruct H as (x & E & H)); apply Ok_eq in H; subst k'; try (split; assumption).
  - apply rd_ok in E. destruct E as (? & ? & ? & ->). split; cbn [k_wrapped k_id]; [exact H1|rewrite len_slice; lia].
  - apply rd_ok in E. destruct E as (? & ? & ? & ->). split; cbn [k_wrapped k_id]; [rewrite len_slice; lia|exact H2].
Qed.
Lemma kek_inner_sized : forall fuel data base osize off k k', kek_sized k -> kek_inner fuel data base osize off k = Ok k' -> kek_sized k'.
Proof.
  induction fuel as [|fuel IH]; intros data base osize off k k' G H; cbn [kek_inner] in H; destruct (negb (off <? osize)); try (apply Ok_eq in H; subst k'; exact G); try discriminate.
  apply bind_ok in H. destruct H as (tag & _ & H). apply bind_ok in H. destruct H as ((vs, next) & _ & H). cbv zeta in H. destruct (_ && _); [apply Ok_eq in H; subst k'; exact G|].
  apply bind_ok in H. destruct H as (u & _ & H). apply bind_ok in H. destruct H as (k1 & E & H). eapply IH; [|exact H]. eapply kek_value_sized; [exact G|exact E].
Qed.
Lemma kek_read_sized data k : kek_read data = Ok k -> kek_sized k.
Proof.
  unfold kek_read, kek_read_mem. intros H. apply bind_ok in H. destruct H as (u & _ & H). apply bind_ok in H. destruct H as (tag & _ & H). apply bind_ok in H. destruct H as ((vs, off) & _ & H).
  apply bind_ok in H. destruct H as (u1 & _ & H). apply bind_ok in H. destruct H as (u2 & _ & H). apply bind_ok in H. destruct H as ((h, [(base, osize)|]) & _ & H); [|discriminate].
  apply bind_ok in H. destruct H as (t2 & _ & H). apply bind_ok in H. destruct H as ((vs2, next) & _ & H). apply bind_ok in H. destruct H as (u3 & _ & H). apply bind_ok in H. destruct H as (u4 & _ & H).
  eapply kek_inner_sized; [|exact H]. split; reflexivity.
Qed.
Lemma pbkdf2_fine hmac p salt it size : size = 16 \/ size = 32 -> fine (pbkdf2 hmac p salt it size).
Proof. intros H. unfold pbkdf2. apply fine_bind; [apply fine_check|]. intros u _. cbv zeta. destruct H as [->| ->]; cbn; exact I. Qed.

Section Unlock.
  Variable aes : list Z -> list Z -> list Z.
  Variable sha : list Z -> list Z.
  Variable hmac : list Z -> list Z -> list Z.
  Lemma with_password_fine k p out : kek_sized k -> len out = 32 ->
    fine (unlock_with_password aes hmac k p out) /\ forall x, unlock_with_password aes hmac k p out = Ok (Some x) -> len x = 32.
  Proof.
    intros (H1 & H2) HO. unfold unlock_with_password.
    assert (G : forall ds ks, (ds = 40 /\ ks = 32) \/ (ds = 24 /\ ks = 16) ->
      let r := (let! used := pbkdf2 hmac p (k_salt k) (w32 (k_iterations k)) ks in
        let! w := rd (k_wrapped k) 0 ds in let! u := key_unwrap (aes used) (ks * 8) w in let! head := rd u 0 8 in
        if negb (list_eqb head kek_iv) then Ok None else let! x := rd u 8 ks in let! out := wr out 0 x in Ok (Some out)) in fine r /\ forall x, r = Ok (Some x) -> len x = 32).
    { intros ds ks HD. cbv zeta. pose proof (pbkdf2_fine hmac p (k_salt k) (w32 (k_iterations k)) ks ltac:(lia)) as F.
      destruct (pbkdf2 hmac p (k_salt k) (w32 (k_iterations k)) ks) as [used| | |]; cbn [bind]; try contradiction; [|split; [exact I|discriminate]].
      rewrite rd_in by lia. cbn [bind]. set (w := slice (k_wrapped k) 0 ds). assert (LW : len w = ds) by (unfold w; rewrite len_slice; lia).
      destruct (key_unwrap_fine (aes used) (ks * 8) w) as (F1 & L1). destruct (key_unwrap (aes used) (ks * 8) w) as [u| | |]; cbn [bind]; try contradiction; [|split; [exact I|discriminate]].
      specialize (L1 u eq_refl). rewrite rd_in by lia. cbn [bind]. destruct (negb _); [split; [exact I|discriminate]|]. rewrite rd_in by lia. cbn [bind].
      assert (LX : len (slice u 8 ks) = ks) by (rewrite len_slice; lia).
      pose proof (wr_fine out 0 (slice u 8 ks) ltac:(lia) ltac:(lia)) as F2. destruct (wr out 0 (slice u 8 ks)) as [o| | |] eqn:E; cbn [bind]; try contradiction; [|split; [exact I|discriminate]].
      apply wr_len in E. split; [exact I|]. intros x EX. apply Ok_eq in EX. injection EX as <-. lia. }
    destruct (_ || _); cbn [bind]; [apply G; lia|]. destruct (k_method k =? 2); cbn [bind]; [apply G; lia|split; [exact I|discriminate]].
  Qed.
  Lemma with_key_fine k key out : kek_sized k -> len key = 32 -> len out = 32 ->
    fine (unlock_with_key aes sha k key out) /\ forall x, unlock_with_key aes sha k key out = Ok (Some x) -> len x = 32.
  Proof.
    intros (H1 & H2) HK HO. unfold unlock_with_key.
    assert (G : forall ds ks, (ds = 40 /\ ks = 32) \/ (ds = 24 /\ ks = 16) ->
      let r := (let! w := rd (k_wrapped k) 0 ds in let! used := rd key 0 ks in let! u := key_unwrap (aes used) (ks * 8) w in let! head := rd u 0 8 in
        if negb (list_eqb head kek_iv) then Ok None else let! x := rd u 8 ks in let! out := wr out 0 x in
        if k_method k =? 2 then let! out := wr out 16 (k_id k) in let! h := rd out 0 32 in let! out := wr out 16 (slice (sha h) 0 16) in Ok (Some out) else Ok (Some out)) in
      fine r /\ forall x, r = Ok (Some x) -> len x = 32).
    { intros ds ks HD. cbv zeta. rewrite !rd_in by lia. cbn [bind]. set (w := slice (k_wrapped k) 0 ds). assert (LW : len w = ds) by (unfold w; rewrite len_slice; lia).
      set (used := slice key 0 ks). destruct (key_unwrap_fine (aes used) (ks * 8) w) as (F1 & L1). destruct (key_unwrap (aes used) (ks * 8) w) as [u| | |]; cbn [bind]; try contradiction; [|split; [exact I|discriminate]].
      specialize (L1 u eq_refl). rewrite rd_in by lia. cbn [bind]. destruct (negb _); [split; [exact I|discriminate]|]. rewrite rd_in by lia. cbn [bind].
      assert (LX : len (slice u 8 ks) = ks) by (rewrite len_slice; lia).
      pose proof (wr_fine out 0 (slice u 8 ks) ltac:(lia) ltac:(lia)) as F2. destruct (wr out 0 (slice u 8 ks)) as [o| | |] eqn:E; cbn [bind]; try contradiction; [|split; [exact I|discriminate]].
      apply wr_len in E. destruct (k_method k =? 2); [|split; [exact I|]; intros x EX; apply Ok_eq in EX; injection EX as <-; lia].
      pose proof (wr_fine o 16 (k_id k) ltac:(lia) ltac:(lia)) as F3. destruct (wr o 16 (k_id k)) as [o2| | |] eqn:E2; cbn [bind]; try contradiction; [|split; [exact I|discriminate]].
      apply wr_len in E2. rewrite rd_in by lia. cbn [bind]. set (y := slice (sha _) 0 16). pose proof (slice_short (sha (slice o2 0 32)) 0 16 ltac:(lia)) as LY. fold y in LY.
      pose proof (wr_fine o2 16 y ltac:(lia) ltac:(lia)) as F4. destruct (wr o2 16 y) as [o3| | |] eqn:E3; cbn [bind]; try contradiction; [|split; [exact I|discriminate]].
      apply wr_len in E3. split; [exact I|]. intros x EX. apply Ok_eq in EX. injection EX as <-. lia. }
    destruct (k_method k =? 0); cbn [bind]; [apply G; lia|]. destruct (k_method k =? 2); cbn [bind]; [apply G; lia|split; [exact I|discriminate]].
  Qed.

  (* Packed keys whose sizes do not reach past their ends (C41). *)
  Definition key_inside (e : bag_entry) : Prop := fine (kek_read (be_data e)).
  Lemma volume_key_fine l user recovery out : Forall key_inside l -> len out = 32 ->
    fine (get_volume_key aes hmac l user recovery out) /\ forall x, get_volume_key aes hmac l user recovery out = Ok (Some x) -> len x = 32.
  Proof.
    intros HF HO. induction HF as [|e l He HF IH]; cbn [get_volume_key]; [split; [exact I|discriminate]|]. destruct (negb _); [exact IH|].
    unfold key_inside in He. destruct (kek_read (be_data e)) as [k| | |] eqn:EK; cbn [bind]; try contradiction; [|split; [exact I|discriminate]]. apply kek_read_sized in EK.
    assert (T : forall p, fine (try_password aes hmac k p out) /\ forall x, try_password aes hmac k p out = Ok (Some x) -> len x = 32).
    { intros [p|]; cbn [try_password]; [apply with_password_fine; assumption|split; [exact I|discriminate]]. }
    destruct (T user) as (F1 & L1). destruct (try_password aes hmac k user out) as [[x|]| | |]; cbn [bind]; try contradiction.
    - split; [exact I|]. intros y E. apply Ok_eq in E. injection E as <-. apply L1. reflexivity.
    - destruct (T recovery) as (F2 & L2). destruct (try_password aes hmac k recovery out) as [[x|]| | |]; cbn [bind]; try contradiction.
      + split; [exact I|]. intros y E. apply Ok_eq in E. injection E as <-. apply L2. reflexivity.
      + exact IH.
      + split; [exact I|discriminate].
    - split; [exact I|discriminate].
  Qed.
  Lemma master_key_fine l id key out : Forall key_inside l -> len key = 32 -> len out = 32 ->
    fine (get_master_key aes sha l id key out) /\ forall x, get_master_key aes sha l id key out = Ok (Some x) -> len x = 32.
  Proof.
    intros HF HK HO. induction HF as [|e l He HF IH]; cbn [get_master_key]; [split; [exact I|discriminate]|]. destruct (_ || _); [exact IH|].
    unfold key_inside in He. destruct (kek_read (be_data e)) as [k| | |] eqn:EK; cbn [bind]; try contradiction; [|split; [exact I|discriminate]]. apply kek_read_sized in EK.
    destruct (with_key_fine k key out EK HK HO) as (F & L). destruct (unlock_with_key aes sha k key out) as [[x|]| | |]; cbn [bind]; try contradiction.
    - split; [exact I|]. intros y E. apply Ok_eq in E. injection E as <-. apply L. reflexivity.
    - exact IH.
    - split; [exact I|discriminate].
  Qed.
  Definition keys_inside (b : bags) : Prop := (forall l, b_volume b = Some l -> Forall key_inside l) /\ Forall key_inside (b_container b).
  Theorem unlock_total b v j1 j2 : keys_inside b -> len j1 = 32 -> len j2 = 32 -> exists r v', unlock aes sha hmac b v j1 j2 = Ok (r, v').
  Proof.
    intros (K1 & K2) L1 L2. unfold unlock. destruct (negb _); [eauto|]. destruct (b_volume b) as [l|]; [|eauto].
    destruct (volume_key_fine l (v_user v) (v_recovery v) j1 (K1 l eq_refl) L1) as (F & L). destruct (get_volume_key aes hmac l (v_user v) (v_recovery v) j1) as [[key|]| | |]; try contradiction; eauto.
    destruct (master_key_fine (b_container b) (b_id b) key j2 K2 (L key eq_refl) L2) as (F2 & L3). destruct (get_master_key aes sha (b_container b) (b_id b) key j2) as [[m|]| | |]; try contradiction; eauto.
    specialize (L3 m eq_refl). rewrite !rd_in by lia. cbn [bind]. eauto.
  Qed.
End Unlock.

Section Session.
  Variables (P Q : Type).
  Variable evn : P -> list (Z * bnode) -> Z -> P * list (Z * bnode).
  Variable evb : Q -> list (Z * list Z) -> Z -> Q * list (Z * list Z).
  Hypothesis Hevn : forall p l b, incl (snd (evn p l b)) l.
  Hypothesis Hevb : forall q l b, incl (snd (evb q l b)) l.
  Variable aes : list Z -> list Z -> list Z.
  Variable sha : list Z -> list Z.
  Variable hmac : list Z -> list Z -> list Z.
  Variable xts : list Z -> list Z -> list Z -> list Z -> list Z.
  Hypothesis HX : forall k1 k2, exists enc, unit_cipher 512 enc (xts k1 k2).
  Variable unkeyed : option (list Z -> list Z -> list Z).
  Variables (img : image) (ov : open_volume) (bg : bags).
  Hypothesis HB : bytes_image img.
  Hypothesis HBG : b_volume bg = ov_bag ov.
  Hypothesis HLK : ov_bag ov <> None -> ov_locked ov = true.
  Hypothesis HU : unkeyed = None \/ ov_bag ov = None.
  Hypothesis HK : keys_inside bg.
  Notation vstep := (vstep P Q evn evb aes sha hmac xts unkeyed img ov bg).
  Notation vrun := (vrun P Q evn evb aes sha hmac xts unkeyed img ov bg).
  Notation sound := (sound P Q xts img ov).
  Definition stack_ok (c : vcall) : Prop :=
    match c with
    | VState (Unlock j1 j2) | VId _ j1 j2 | VPath _ _ j1 j2 => len j1 = 32 /\ len j2 = 32
    | VState _ => True
    end.
  Lemma file_system_fine j1 j2 h : len j1 = 32 -> len j2 = 32 -> fine (fst (get_file_system P Q aes sha hmac img ov bg j1 j2 h)).
  Proof.
    intros L1 L2. unfold get_file_system. destruct (h_root h); [exact I|].
    assert (X : exists r v, (if v_locked (h_volume h) then unlock aes sha hmac bg (h_volume h) j1 j2 else Ok (0, h_volume h)) = Ok (r, v)).
    { destruct (v_locked (h_volume h)); [apply unlock_total; assumption|eauto]. }
    destruct X as (r & v & ->). cbv zeta. destruct (r =? -1); [exact I|]. unfold bindM, retM.
    pose proof (omap_lookup_fine (within (ov_size ov) img) (within_bytes _ _ HB) (ov_omap ov) (vs_root (ov_super ov)) (vs_xid (ov_super ov))) as F.
    destruct (omap_lookup (within (ov_size ov) img) (ov_omap ov) (vs_root (ov_super ov)) (vs_xid (ov_super ov))) as [[d|]| | |]; try contradiction; exact I.
  Qed.
  Lemma vstep_total h c : sound h -> stack_ok c -> exists a h', vstep h c = Ok (a, h') /\ sound h'.
  Proof.
    intros S HS.
    assert (T : exists a h', vstep h c = Ok (a, h')).
    { assert (G : forall (m : M (handle P Q) (option (Z * inode * option dentry))) (pr : fs -> res (option (Z * inode * option dentry))) j1 j2, len j1 = 32 -> len j2 = 32 ->
        (forall v ctx rb, SessionSpec.context xts ov (v_keys v) = Some ctx -> gagrees (handle P Q) (during P Q img ov ctx rb v) m (pr (tree_of img ov ctx rb))) ->
        (forall h, get_root P Q evn evb xts unkeyed img ov h = (Fail, h) -> m h = (Fail, h)) ->
        (forall t, bytes_image (fs_img t) -> bytes_image (fs_omap t) -> fine (pr t)) ->
        exists a h', answer_entry P Q (bindM (get_file_system P Q aes sha hmac img ov bg j1 j2) (fun _ => m)) h = Ok (a, h')).
      { intros m pr j1 j2 L1 L2 Hm Hr Hp. unfold answer_entry, bindM. pose proof (file_system_fine j1 j2 h L1 L2) as F.
        destruct (get_file_system P Q aes sha hmac img ov bg j1 j2 h) as (r, h1) eqn:EF. cbn [fst] in F.
        assert (N : r <> Oob /\ r <> Fuel) by (destruct r; try contradiction; split; discriminate). destruct N as (N1 & N2).
        destruct (file_system_ok P Q aes sha hmac xts unkeyed img ov bg HBG HLK HU j1 j2 h S r h1 EF N1 N2) as (S1 & [(-> & rb & ER & EV)|(-> & _)]); [|eauto].
        destruct (SessionSpec.context xts ov (v_keys (h_volume h1))) as [ctx|] eqn:EC.
        - destruct (Hm (h_volume h1) ctx rb EC h1 (sound_during P Q xts img ov ctx rb h1 S1 EC ER)) as (D & EM). destruct (m h1) as (r, h2). cbn [fst snd] in *. subst r.
          assert (FP : fine (pr (tree_of img ov ctx rb))).
          { apply Hp; [apply (tree_bytes xts HX img ov HB (h_volume h1) ctx rb EC)|apply within_bytes, HB]. }
          destruct (pr (tree_of img ov ctx rb)); try contradiction; eauto.
        - pose proof S1 as (_ & T1). unfold tree_ok in T1. rewrite ER, EC in T1. destruct T1 as (_ & T1 & T2).
          rewrite (Hr h1 (no_keys_root P Q evn evb xts unkeyed img ov bg HBG HLK HU h1 rb ER EC T1 T2)). eauto. }
      destruct c as [c|id j1 j2|u str j1 j2]; cbn [Session.vstep].
      - destruct c as [p|p|j1 j2]; cbn [Volume.step bind]; [eauto|eauto|]. destruct HS as (L1 & L2). destruct (unlock_total aes sha hmac bg (h_volume h) j1 j2 HK L1 L2) as (r & v' & ->). cbn [bind]. eauto.
      - destruct HS as (L1 & L2). apply (G _ (fun t => let! r := fs_inode t id in Ok (match r with Some i => Some (i, None) | None => None end)) j1 j2 L1 L2).
        + intros v ctx rb HC. unfold fs_inode.
          replace (let! r := let! r := fs_walk (tree_of img ov ctx rb) (fs_id_walker id 3) in inode_finish r in Ok match r with Some i => Some (i, None) | None => None end)
            with (let! e := fs_walk (tree_of img ov ctx rb) (fs_id_walker id 3) in let! i := inode_finish e in Ok (match i with Some i => Some (i, @None dentry) | None => None end))
            by (destruct (fs_walk (tree_of img ov ctx rb) (fs_id_walker id 3)); reflexivity).
          apply gagrees_bind; [eapply lookup_id_ok; eassumption|]. intros e _. apply gagrees_ret.
        + intros h0 H0. unfold bindM, walk. unfold bindM. rewrite H0. reflexivity.
        + intros t B1 B2. apply fine_bind; [apply fs_inode_fine; assumption|intros; exact I].
      - destruct HS as (L1 & L2). apply (G _ (fun t => fs_by_path t (if u then utf16_next else utf8_next) (volume_folds ov) 2 str) j1 j2 L1 L2).
        + intros v ctx rb HC. eapply lookup_path_ok; eassumption.
        + intros h0 H0. unfold inode_by_path, bindM. rewrite H0. reflexivity.
        + intros t B1 B2. apply fs_by_path_fine; try assumption. destruct u; [exact utf16_fine|exact utf8_fine]. }
    destruct T as (a & h' & E). exists a, h'. split; [exact E|].
    eapply (run_sound P Q evn evb Hevn Hevb aes sha hmac xts HX unkeyed img ov bg HB HBG HLK HU [c] h); [exact S|]. cbn [Session.vrun]. rewrite E. cbn [bind]. reflexivity.
  Qed.
  Theorem vrun_total : forall cs h, sound h -> Forall stack_ok cs -> exists l h', vrun h cs = Ok (l, h') /\ length l = length cs /\ sound h'.
  Proof.
    induction cs as [|c cs IH]; intros h G HS; cbn [Session.vrun]; [exists [], h; auto|]. apply Forall_cons_iff in HS. destruct HS as (H1 & H2).
    destruct (vstep_total h c G H1) as (a & h1 & -> & G1). cbn [bind]. destruct (IH h1 G1 H2) as (l & h2 & -> & L & G2). cbn [bind]. eexists. eexists. split; [reflexivity|]. split; [cbn; lia|exact G2].
  Qed.
End Session.
