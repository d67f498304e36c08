(* Proofs about an open volume: lookups through its caches give what the blocks give. *)
From Verif Require Import Base BaseLemmas BTree BTreeProofs Walk WalkProofs Omap OmapProofs Records FsTree FsProofs Name FsName FsNameProofs CryptSpec Crypt CryptProofs KeyBag Volume Container ContainerProofs DataRead DataSplit PropData VolumeSuper Session SessionSpec.
Ltac Zify.zify_post_hook ::= Z.div_mod_to_equations.

(* ---- any way to retrieve nodes ---- *)
Section Generic.
  Variables (S : Type) (Inv : S -> Prop) (t : fs).
  Hypothesis HF : bytes_image (fs_img t).
  Hypothesis HO : bytes_image (fs_omap t).
  Variables (root_c : M S (option bnode)) (get_c : Z -> M S bnode).
  Definition gagrees {A} (m : M S A) (r : res A) : Prop := forall s, Inv s -> Inv (snd (m s)) /\ fst (m s) = r.
  Hypothesis Hroot : gagrees root_c (fs_root t).
  Hypothesis Hget : forall rn, fs_root t = Ok (Some rn) -> forall b s, Inv s -> Inv (snd (get_c b s)) /\
    (fst (get_c b s) = fs_sub t b \/ (fst (get_c b s) = Ok rn /\ fs_sub t b = Fail)).

  Lemma gagrees_ret {A} (r : res A) : gagrees (retM r) r.
  Proof. intros s HS. split; [exact HS|reflexivity]. Qed.
  Lemma gagrees_bind {A B} (m : M S A) r (f : A -> M S B) g :
    gagrees m r -> (forall a, r = Ok a -> gagrees (f a) (g a)) -> gagrees (bindM m f) (bind r g).
  Proof.
    intros Hm Hf s HS. destruct (Hm s HS) as (C & E). unfold bindM. destruct (m s) as [r' s']. cbn [fst snd] in *. subst r'.
    destruct r as [a| | |]; cbn [bind]; try (split; [exact C|reflexivity]). apply Hf; auto.
  Qed.
  Lemma gagrees_walk {A} (w : walker A) : fine_walker w -> wk_lim w <= 257 -> gagrees (walk root_c get_c w) (fs_walk t w).
  Proof.
    intros HW HL s HS. unfold fs_walk.
    apply (walk_agree_gen S A root_c get_c (fs_root t) (fs_sub t) Inv w); auto.
    - apply fs_root_fine. exact HF.
    - apply fs_sub_fine; assumption.
    - intros n Hn. apply HW. exact (fs_root_entries t HF _ Hn).
    - intros b n Hn. apply HW. exact (fs_sub_entries t HF b n Hn).
  Qed.
  Lemma gagrees_visit {A} (w : walker A) n : fine_walker w -> wk_lim w <= 257 -> fs_root t = Ok (Some n) ->
    gagrees (visit get_c w walk_fuel 0 n) (fst (visit (pure (fs_sub t)) w walk_fuel 0 n tt)).
  Proof.
    intros HW HL HR s HS.
    assert (HE : fine (wk_leaf w n) /\ Forall fine (wk_plan w n)) by (apply HW; exact (fs_root_entries t HF _ HR)).
    change (fst (visit (pure (fs_sub t)) w walk_fuel 0 n tt)) with (U A (fs_sub t) w walk_fuel 0 n).
    apply (visit_agree S A root_c get_c (fs_root t) (fs_sub t) Inv w) with (rn := n); auto; try (unfold walk_fuel; lia).
    - apply fs_sub_fine; assumption.
    - intros m Hm. apply HW. exact (fs_root_entries t HF _ Hm).
    - intros b m Hm. apply HW. exact (fs_sub_entries t HF b m Hm).
  Qed.
  Variable next : list Z -> res (Z * list Z).
  Hypothesis HN : fine_decoder next.
  Variable fold : bool.
  Lemma gagrees_find n id str : fs_root t = Ok (Some n) ->
    gagrees (find_record _ get_c next fold n id str) (fst (find_record unit (pure (fs_sub t)) next fold n id str tt)).
  Proof.
    intros HR. unfold find_record. unfold bindM at 2. cbn [retM].
    intros s HS. unfold bindM. cbn [retM]. destruct (name_hash next fold str) as [h| | |]; try (split; [exact HS|reflexivity]).
    apply gagrees_visit; [|cbn; lia|exact HR|exact HS].
    apply name_walker_fine; intros k; apply record_compare_fine, HN.
  Qed.
  Lemma gagrees_path_loop n : fs_root t = Ok (Some n) -> forall fuel id rec str,
    gagrees (path_loop _ get_c next fold n fuel id rec str)
      (fst (path_loop unit (pure (fs_sub t)) next fold n fuel id rec str tt)).
  Proof.
    intros HR. induction fuel as [|fuel IH]; intros id rec str; (destruct str as [|y str]; [apply gagrees_ret|]); [apply gagrees_ret|].
    cbn [path_loop]. rewrite bind_fst. apply gagrees_bind; [apply gagrees_ret|]. intros [s r] _. cbn [fst snd].
    destruct s as [|z s]; [apply gagrees_ret|]. rewrite bind_fst. apply gagrees_bind; [apply gagrees_find, HR|].
    intros [d|] _; [apply IH|apply gagrees_ret].
  Qed.
  Theorem gagrees_path id str : gagrees (inode_by_path S root_c get_c next fold id str) (fs_by_path t next fold id str).
  Proof.
    unfold fs_by_path, inode_by_path. rewrite bind_fst. apply gagrees_bind; [apply Hroot|].
    intros [n|] HR; [|apply gagrees_ret]. cbn [retM fst] in HR. cbv zeta. rewrite bind_fst. apply gagrees_bind.
    - destruct (_ || _); [apply gagrees_ret|]. apply gagrees_path_loop, HR.
    - intros [[i d]|] _; [|apply gagrees_ret]. rewrite bind_fst. apply gagrees_bind; [apply (gagrees_walk (fs_id_walker i 3)); [apply fs_id_walker_fine|cbn; unfold max_depth; lia]|].
      intros [e|] _; apply gagrees_ret.
  Qed.
End Generic.

(* ---- blocks ---- *)
Lemma data_block_read_fine img ctx off i : bytes_image img -> match ctx with None => True | Some xts => exists enc, unit_cipher 512 enc xts end ->
  fine (data_block_read img ctx off i) /\ forall d, data_block_read img ctx off i = Ok d -> bytes d.
Proof.
  intros HB HC. unfold data_block_read. pose proof (read_bytes_fine img off 4096 ltac:(lia)) as F.
  destruct (read_bytes img off 4096) as [d| | |] eqn:E; cbn [bind]; try contradiction; [|split; [exact I|discriminate]].
  pose proof (read_bytes_bytes _ _ _ _ HB E) as B. assert (L : len d = 4096) by (apply (read_bytes_len img off 4096) in E; [exact E|lia]).
  destruct ctx as [xts|]; [|split; [exact I|intros d' H; injection H as <-; exact B]]. destruct HC as (enc & HC).
  assert (X : exists sectors, d = concat sectors /\ Forall (fun s => bytes s /\ len s = 512) sectors).
  { clear E F. revert d B L. assert (G : forall n d, bytes d -> len d = 512 * Z.of_nat n -> exists sectors, d = concat sectors /\ Forall (fun s => bytes s /\ len s = 512) sectors).
    { induction n as [|n IH]; intros d B L; [exists []; split; [destruct d; [reflexivity|rewrite len_cons in L; pose proof (len_nonneg d); lia]|constructor]|].
      destruct (IH (skipn 512 d)) as (ss & ES & FS).
      - rewrite <- (firstn_skipn 512 d) in B. apply bytes_app in B. tauto.
      - unfold len in *. rewrite skipn_length. lia.
      - exists (firstn 512 d :: ss). cbn [concat]. rewrite <- ES, firstn_skipn. split; [reflexivity|]. constructor; [|exact FS]. split.
        + rewrite <- (firstn_skipn 512 d) in B. apply bytes_app in B. tauto.
        + unfold len in *. rewrite firstn_length. lia. }
    intros d B L. apply (G 8%nat); [exact B|lia]. }
  destruct X as (ss & -> & FS). rewrite (crypt_ok xts 512); [|lia| |exact FS|rewrite zeros_len by lia; lia].
  2:{ intros n s Bs Ls. rewrite tweak_data_unit. apply (HC n s Bs Ls). }
  split; [exact I|]. intros d' H. injection H as <-. rewrite skipn_all2 by (unfold len in L; pose proof (zeros_len 4096 ltac:(lia)) as Z4; unfold len in Z4; lia). rewrite app_nil_r.
  clear L B E F. generalize (w64 (i * 4096) / 512). induction FS as [|s ss (B & L) FS IH]; intros n; cbn [enc_sectors concat]; [constructor|].
  apply bytes_app. split; [|apply IH]. rewrite tweak_data_unit. apply (HC n s B L).
Qed.
Lemma fs_image_bytes img ctx : bytes_image img -> match ctx with None => True | Some xts => exists enc, unit_cipher 512 enc xts end -> bytes_image (fs_image img ctx).
Proof.
  intros HB HC b d. unfold fs_image. pose proof (data_block_read_fine img ctx (b * 4096) b HB HC) as (_ & H).
  destruct (data_block_read img ctx (b * 4096) b); intros E; try discriminate. injection E as <-. apply H. reflexivity.
Qed.

(* ---- the handle ---- *)
Section Handle.
  Variables (P Q : Type).
  Variable evn : P -> list (Z * bnode) -> Z -> P * list (Z * bnode).
  Variable evb : Q -> list (Z * list Z) -> Z -> Q * list (Z * list Z).
  Hypothesis Hevn : forall p l b, incl (snd (evn p l b)) l.
  Hypothesis Hevb : forall q l b, incl (snd (evb q l b)) l.
  Variable aes : list Z -> list Z -> list Z.
  Variable sha : list Z -> list Z.
  Variable hmac : list Z -> list Z -> list Z.
  Variable xts : list Z -> list Z -> list Z -> list Z -> list Z.
  Hypothesis HX : forall k1 k2, exists enc, unit_cipher 512 enc (xts k1 k2).
  Variable unkeyed : option (list Z -> list Z -> list Z).
  Variables (img : image) (ov : open_volume) (bg : bags).
  Hypothesis HB : bytes_image img.
  Notation handle := (handle P Q).

  Notation context := (SessionSpec.context xts ov).
  Lemma context_cipher keys ctx : context keys = Some ctx -> match ctx with None => True | Some x => exists enc, unit_cipher 512 enc x end.
  Proof. unfold SessionSpec.context. destruct (ov_bag ov); [destruct keys as [(k1, k2)|]|]; intros E; try discriminate; injection E as <-; [apply HX|exact I]. Qed.
  Notation map_image := (within (ov_size ov) img).
  Definition node_image ctx := within (ov_size ov) (fs_image img ctx).
  Lemma context_read keys ctx b : context keys = Some ctx ->
    read_block_of xts unkeyed img ov keys b = match node_image ctx b with Some d => Ok d | None => Fail end.
  Proof.
    intros HC. pose proof (data_block_read_fine img ctx (b * 4096) b HB (context_cipher _ _ HC)) as (F & _).
    unfold node_image, within. destruct (b <? ov_size ov / 4096) eqn:EL; [|unfold read_block_of; rewrite EL; reflexivity].
    assert (E : read_block_of xts unkeyed img ov keys b = data_block_read img ctx (b * 4096) b).
    { unfold SessionSpec.context in HC. unfold read_block_of. rewrite EL. cbn [negb]. destruct (ov_bag ov); [destruct keys as [(k1, k2)|]|]; try discriminate; injection HC as <-; reflexivity. }
    rewrite E. unfold fs_image. destruct (data_block_read img ctx (b * 4096) b); try contradiction; reflexivity.
  Qed.

  Definition tree_of (ctx : option (list Z -> list Z -> list Z)) (rb : Z) : fs := mk_fs (node_image ctx) rb map_image (ov_omap ov) (vs_xid (ov_super ov)).
  Definition blocks_ok ctx (l : list (Z * list Z)) : Prop := forall b d, In (b, d) l -> node_image ctx b = Some d.
  Definition nodes_ok ctx rb (c : cache P) : Prop := consistent (fs_load_root (node_image ctx) rb) (fs_load_sub (node_image ctx)) rb P c.
  Definition during ctx rb v (h : handle) : Prop :=
    h_volume h = v /\ h_root h = Some rb /\ blocks_ok ctx (snd (h_blocks h)) /\ nodes_ok ctx rb (h_nodes h).

  Section Lookup.
    Variables (v : volume) (ctx : option (list Z -> list Z -> list Z)) (rb : Z).
    Hypothesis HC : context (v_keys v) = Some ctx.
    Notation inv := (during ctx rb v).
    Lemma get_block_ok b h : inv h -> inv (snd (get_block P Q evb xts unkeyed img ov b h)) /\
      fst (get_block P Q evb xts unkeyed img ov b h) = match node_image ctx b with Some d => Ok d | None => Fail end.
    Proof.
      intros H. pose proof H as (H1 & H2 & H3 & H4). unfold get_block. destruct (find _ (snd (h_blocks h))) as [(b', d)|] eqn:E.
      - apply find_some in E. destruct E as (E1 & E2). cbn in E2. apply Z.eqb_eq in E2. subst b'. cbn [fst snd]. rewrite (H3 _ _ E1). auto.
      - rewrite H1, (context_read _ _ b HC). destruct (node_image ctx b) as [d|] eqn:EF; [|cbn; auto].
        pose proof (Hevb (fst (h_blocks h)) (snd (h_blocks h)) b) as HI. destruct (evb (fst (h_blocks h)) (snd (h_blocks h)) b) as (q, l).
        cbn [fst snd] in *. split; [|reflexivity]. split; [reflexivity|]. split; [exact H2|]. split; [|exact H4]. cbn [h_blocks snd].
        intros b' d' [X|X]; [injection X as <- <-; exact EF|apply H3, HI, X].
    Qed.
    Lemma put_node_ok b n h : inv h -> (if b =? rb then fs_load_root (node_image ctx) rb = Ok (Some n) else fs_load_sub (node_image ctx) b = Ok n) ->
      inv (put_node P Q evn b n h).
    Proof.
      intros (H1 & H2 & H3 & H4) HN. unfold put_node. split; [exact H1|]. split; [exact H2|]. split; [exact H3|]. cbn [h_nodes].
      apply set_consistent; [exact Hevn|exact H4|exact HN].
    Qed.
    Lemma load_root_of d b : node_image ctx b = Some d -> fs_load_root (fun _ => Some d) b = fs_load_root (node_image ctx) b.
    Proof. intros E. unfold fs_load_root, read_block. rewrite E. reflexivity. Qed.
    Lemma load_sub_of d b : node_image ctx b = Some d -> fs_load_sub (fun _ => Some d) b = fs_load_sub (node_image ctx) b.
    Proof. intros E. unfold fs_load_sub, read_block. rewrite E. reflexivity. Qed.

    Lemma get_root_ok : gagrees handle inv (get_root P Q evn evb xts unkeyed img ov) (fs_root (tree_of ctx rb)).
    Proof.
      intros h H. pose proof H as (H1 & H2 & H3 & H4). unfold get_root, fs_root. rewrite H2. change (fs_rb (tree_of ctx rb)) with rb. change (fs_img (tree_of ctx rb)) with (node_image ctx).
      destruct (int_max <? rb); [cbn; auto|]. destruct (cache_find P (h_nodes h) rb) as [n|] eqn:EF.
      - pose proof (find_consistent _ _ _ P _ _ _ H4 EF) as HM. rewrite Z.eqb_refl in HM. rewrite HM. cbn. auto.
      - unfold bindM. destruct (get_block_ok rb h H) as (I1 & E1). destruct (get_block P Q evb xts unkeyed img ov rb h) as (r, h1). cbn [fst snd] in *. subst r.
        destruct (node_image ctx rb) as [d|] eqn:ED.
        + rewrite (load_root_of d rb ED). destruct (fs_load_root (node_image ctx) rb) as [[n|]| | |] eqn:EL; cbn [fst snd]; auto.
          split; [|reflexivity]. apply put_node_ok; [exact I1|]. rewrite Z.eqb_refl. exact EL.
        + cbn [fst snd]. split; [exact I1|]. unfold fs_load_root, read_block. rewrite ED. reflexivity.
    Qed.
    Lemma get_sub_ok rn : fs_root (tree_of ctx rb) = Ok (Some rn) -> forall o h, inv h -> inv (snd (get_sub P Q evn evb xts unkeyed img ov o h)) /\
      (fst (get_sub P Q evn evb xts unkeyed img ov o h) = fs_sub (tree_of ctx rb) o \/
       (fst (get_sub P Q evn evb xts unkeyed img ov o h) = Ok rn /\ fs_sub (tree_of ctx rb) o = Fail)).
    Proof.
      intros HR o h H. pose proof H as (H1 & H2 & H3 & H4). unfold get_sub, fs_sub. change (fs_omap (tree_of ctx rb)) with map_image. change (fs_orb (tree_of ctx rb)) with (ov_omap ov).
      change (fs_txn (tree_of ctx rb)) with (vs_xid (ov_super ov)). change (fs_img (tree_of ctx rb)) with (node_image ctx).
      cbv beta delta [bindM retM]. cbv zeta. destruct (omap_lookup map_image (ov_omap ov) o (vs_xid (ov_super ov))) as [[d|]| | |]; cbn [bind fst snd retM]; auto.
      unfold fs_root in HR. change (fs_rb (tree_of ctx rb)) with rb in HR. change (fs_img (tree_of ctx rb)) with (node_image ctx) in HR.
      destruct (int_max <? rb); [discriminate|].
      set (b := od_address d). destruct (int_max <? b); [cbn; auto|]. destruct (cache_find P (h_nodes h) b) as [n|] eqn:EF.
      - pose proof (find_consistent _ _ _ P _ _ _ H4 EF) as HM. cbn [fst snd]. split; [exact H|]. destruct (b =? rb) eqn:EB; [|left; symmetry; exact HM].
        apply Z.eqb_eq in EB. right. rewrite HM in HR. injection HR as ->. split; [reflexivity|]. rewrite EB. exact (fs_disjoint _ _ _ HM).
      - destruct (get_block_ok b h H) as (I1 & E1). destruct (get_block P Q evb xts unkeyed img ov b h) as (r, h1). cbn [fst snd] in *. subst r.
        destruct (node_image ctx b) as [x|] eqn:ED.
        + rewrite (load_sub_of x b ED). destruct (fs_load_sub (node_image ctx) b) as [n| | |] eqn:EL; cbn [fst snd]; auto.
          split; [|left; reflexivity]. apply put_node_ok; [exact I1|]. replace (b =? rb) with false; [exact EL|].
          symmetry. apply Z.eqb_neq. intros EB. rewrite EB in EL. rewrite (fs_disjoint _ _ _ HR) in EL. discriminate.
        + cbn [fst snd]. split; [exact I1|]. left. unfold fs_load_sub, read_block. rewrite ED. reflexivity.
    Qed.
    Lemma tree_bytes : bytes_image (fs_img (tree_of ctx rb)).
    Proof. apply within_bytes, fs_image_bytes; [exact HB|eapply context_cipher; exact HC]. Qed.
    Lemma lookup_path_ok u str : gagrees handle inv (inode_by_path handle (get_root P Q evn evb xts unkeyed img ov) (get_sub P Q evn evb xts unkeyed img ov) (if u : bool then utf16_next else utf8_next) (volume_folds ov) 2 str)
      (fs_by_path (tree_of ctx rb) (if u then utf16_next else utf8_next) (volume_folds ov) 2 str).
    Proof.
      apply gagrees_path; [apply tree_bytes|apply within_bytes, HB|apply get_root_ok|apply get_sub_ok|destruct u; [exact utf16_fine|exact utf8_fine]].
    Qed.
    Lemma lookup_id_ok id : gagrees handle inv (walk (get_root P Q evn evb xts unkeyed img ov) (get_sub P Q evn evb xts unkeyed img ov) (fs_id_walker id 3)) (fs_walk (tree_of ctx rb) (fs_id_walker id 3)).
    Proof.
      apply gagrees_walk; [apply tree_bytes|apply within_bytes, HB|apply get_root_ok|apply get_sub_ok|apply fs_id_walker_fine|cbn; unfold max_depth; lia].
    Qed.
  End Lookup.
  (* ---- any sequence of calls ---- *)
  Hypothesis HBG : b_volume bg = ov_bag ov.
  Hypothesis HLK : ov_bag ov <> None -> ov_locked ov = true.
  Hypothesis HU : unkeyed = None \/ ov_bag ov = None.
  Notation vstep := (vstep P Q evn evb aes sha hmac xts unkeyed img ov bg).
  Notation vrun := (vrun P Q evn evb aes sha hmac xts unkeyed img ov bg).
  Notation get_file_system := (get_file_system P Q aes sha hmac img ov bg).

  Definition keys_ok (v : volume) : Prop := if v_locked v then v_keys v = None else ov_bag ov = None \/ v_keys v <> None.
  Definition tree_ok (v : volume) (h : handle) : Prop :=
    match h_root h with
    | None => snd (h_blocks h) = [] /\ snd (h_nodes h) = []
    | Some rb =>
      (exists d, omap_lookup map_image (ov_omap ov) (vs_root (ov_super ov)) (vs_xid (ov_super ov)) = Ok (Some d) /\ od_address d = rb) /\
      match context (v_keys v) with
      | Some ctx => blocks_ok ctx (snd (h_blocks h)) /\ nodes_ok ctx rb (h_nodes h)
      | None => snd (h_blocks h) = [] /\ snd (h_nodes h) = []
      end
    end.
  Definition sound (h : handle) : Prop := keys_ok (h_volume h) /\ tree_ok (h_volume h) h.

  Lemma empty_blocks ctx (l : list (Z * list Z)) : l = [] -> blocks_ok ctx l.
  Proof. intros -> b d []. Qed.
  Lemma empty_nodes ctx rb (c : cache P) : snd c = [] -> nodes_ok ctx rb c.
  Proof. intros E b n. rewrite E. intros []. Qed.
  Lemma sound_fresh p q : sound (fresh P Q ov p q).
  Proof.
    split; [|split; reflexivity]. unfold keys_ok. cbn. destruct (ov_locked ov) eqn:E; [reflexivity|]. left.
    destruct (ov_bag ov); [|reflexivity]. discriminate (HLK ltac:(discriminate)).
  Qed.
  Lemma unlock_keys v j1 j2 r v' : keys_ok v -> unlock aes sha hmac bg v j1 j2 = Ok (r, v') ->
    keys_ok v' /\ (v_keys v = None \/ v_keys v' = v_keys v) /\ (r = -1 -> v' = v /\ v_locked v = true /\ ov_bag ov <> None).
  Proof.
    intros K E. unfold unlock in E. rewrite HBG in E. destruct (v_locked v) eqn:EL; cbn [negb] in E; [|injection E as <- <-; split; [exact K|]; split; [right; reflexivity|discriminate]].
    assert (N : v_keys v = None) by (unfold keys_ok in K; rewrite EL in K; exact K).
    destruct (ov_bag ov) as [l|] eqn:EB.
    2:{ injection E as <- <-. split; [unfold keys_ok; cbn; left; exact EB|]. split; [left; exact N|discriminate]. }
    destruct (get_volume_key aes hmac l (v_user v) (v_recovery v) j1) as [[key|]| | |]; try discriminate;
      try (injection E as <- <-; split; [exact K|]; split; [left; exact N|first [discriminate|intros _; split; [reflexivity|split; [reflexivity|discriminate]]]]).
    destruct (get_master_key aes sha (b_container bg) (b_id bg) key j2) as [[m|]| | |]; try discriminate;
      try (injection E as <- <-; split; [exact K|]; split; [left; exact N|intros _; split; [reflexivity|split; [reflexivity|discriminate]]]).
    destruct (rd m 0 16) as [k1| | |]; cbn [bind] in E; try discriminate. destruct (rd m 16 16) as [k2| | |]; cbn [bind] in E; try discriminate.
    injection E as <- <-. split; [unfold keys_ok; cbn; right; discriminate|]. split; [left; exact N|discriminate].
  Qed.
  Lemma tree_ok_keys v v' h : v_keys v = None \/ v_keys v' = v_keys v -> tree_ok v h -> tree_ok v' h.
  Proof.
    unfold tree_ok. intros K H. destruct (h_root h) as [rb|]; [|exact H]. destruct H as (HD & H). split; [exact HD|].
    destruct K as [K| ->]; [|exact H]. rewrite K in H. unfold SessionSpec.context in *. destruct (ov_bag ov); [|exact H].
    destruct H as (H1 & H2). destruct (v_keys v') as [(k1, k2)|]; [|split; assumption]. split; [apply empty_blocks, H1|apply empty_nodes, H2].
  Qed.
  Lemma sound_state h c r v' : sound h -> Volume.step aes sha hmac bg (h_volume h) c = Ok (r, v') ->
    sound (mk_h v' (h_root h) (h_blocks h) (h_nodes h)).
  Proof.
    intros (K & T) E. destruct c as [p|p|j1 j2]; cbn [Volume.step] in E.
    - injection E as <- <-. split; [exact K|exact T].
    - injection E as <- <-. split; [exact K|exact T].
    - destruct (unlock_keys _ _ _ _ _ K E) as (K' & KK & _). split; [exact K'|]. exact (tree_ok_keys _ _ _ KK T).
  Qed.

  (* the file system is determined, or its root cannot be found *)
  Lemma file_system_ok j1 j2 h : sound h -> forall r h', get_file_system j1 j2 h = (r, h') -> r <> Oob -> r <> Fuel ->
    sound h' /\ ((r = Ok tt /\ exists rb, h_root h' = Some rb /\ forall ctx, volume_fs img ctx ov = Ok (tree_of ctx rb)) \/
                 (r = Fail /\ ((v_locked (h_volume h') = true /\ ov_bag ov <> None) \/ forall ctx, exists e, volume_fs img ctx ov = e /\ match e with Ok _ => False | _ => True end))).
  Proof.
    intros S r h' E N1 N2. pose proof S as (K & T). unfold Session.get_file_system in E.
    destruct (h_root h) as [rb|] eqn:ER.
    - injection E as <- <-. split; [exact S|]. left. split; [reflexivity|]. exists rb. split; [exact ER|].
      unfold tree_ok in T. rewrite ER in T. destruct T as ((d & HD & <-) & _). intros ctx. unfold volume_fs. rewrite HD. reflexivity.
    - set (u := if v_locked (h_volume h) then _ else _) in E.
      assert (U : forall r v', u = Ok (r, v') -> keys_ok v' /\ (v_keys (h_volume h) = None \/ v_keys v' = v_keys (h_volume h)) /\ (r = -1 -> v_locked v' = true /\ ov_bag ov <> None)).
      { intros r0 v' HE. unfold u in HE. destruct (v_locked (h_volume h)) eqn:EL.
        - destruct (unlock_keys _ _ _ _ _ K HE) as (U1 & U2 & U3). split; [exact U1|]. split; [exact U2|]. intros X. destruct (U3 X) as (-> & ? & ?). auto.
        - injection HE as <- <-. split; [exact K|]. split; [right; reflexivity|discriminate]. }
      assert (EU : u = Fail -> False).
      { unfold u. destruct (v_locked (h_volume h)) eqn:EL; [|discriminate]. unfold unlock. rewrite HBG, EL. cbn [negb]. destruct (ov_bag ov); [|discriminate].
        destruct (get_volume_key _ _ _ _ _ _) as [[key|]| | |]; try discriminate. destruct (get_master_key _ _ _ _ _ _) as [[m|]| | |] eqn:EM; try discriminate.
        unfold rd. do 2 (destruct (_ && _); cbn [bind]; try discriminate). }
      destruct u as [(r0, v')| | |]; [|exfalso; exact (EU eq_refl)|injection E as <- <-; congruence..].
      destruct (U _ _ eq_refl) as (U1 & U2 & U3). unfold tree_ok in T. rewrite ER in T.
      destruct (r0 =? -1) eqn:E0.
      + injection E as <- <-. split; [split; [exact U1|exact T]|]. right. split; [reflexivity|]. left. apply U3. apply Z.eqb_eq. exact E0.
      + unfold bindM, retM in E. unfold volume_fs.
        assert (SN : sound (mk_h v' None (h_blocks h) (h_nodes h))) by (split; [exact U1|exact T]).
        destruct (omap_lookup map_image (ov_omap ov) (vs_root (ov_super ov)) (vs_xid (ov_super ov))) as [[d|]| | |] eqn:ED; injection E as <- <-; try congruence.
        * split.
          -- split; [exact U1|]. unfold tree_ok. cbn [h_root h_blocks h_nodes]. split; [exists d; auto|]. destruct T as (T1 & T2).
             cbn [h_volume]. destruct (context (v_keys v')); [split; [apply empty_blocks, T1|apply empty_nodes, T2]|split; assumption].
          -- left. split; [reflexivity|]. exists (od_address d). split; [reflexivity|]. intros ctx. reflexivity.
        * split; [exact SN|]. right. split; [reflexivity|]. right. intros ctx. exists Fail. split; [reflexivity|exact I].
        * split; [exact SN|]. right. split; [reflexivity|]. right. intros ctx. exists Fail. split; [reflexivity|exact I].
  Qed.

  (* without keys nothing can be read *)
  Lemma no_keys_root h rb : h_root h = Some rb -> context (v_keys (h_volume h)) = None -> snd (h_blocks h) = [] -> snd (h_nodes h) = [] ->
    get_root P Q evn evb xts unkeyed img ov h = (Fail, h).
  Proof.
    intros E1 E2 E3 E4. unfold get_root. rewrite E1. destruct (int_max <? rb); [reflexivity|]. unfold cache_find. rewrite E4. cbn [find].
    unfold bindM, get_block. rewrite E3. cbn [find]. unfold read_block_of. unfold SessionSpec.context in E2.
    destruct HU as [HU'|HU']; [|rewrite HU' in E2; discriminate]. rewrite HU'. destruct (ov_bag ov); [|discriminate]. destruct (v_keys (h_volume h)) as [(k1, k2)|]; [discriminate|]. destruct (negb _); reflexivity.
  Qed.

  Lemma during_sound ctx rb v h h' : sound h -> context (v_keys v) = Some ctx -> h_root h = Some rb -> h_volume h = v -> during ctx rb v h' -> sound h'.
  Proof.
    intros (K & T) HC ER EV (D1 & D2 & D3 & D4). split; [rewrite D1, <- EV; exact K|]. unfold tree_ok in *. rewrite D2. rewrite ER in T. destruct T as (T1 & _).
    split; [exact T1|]. rewrite D1, HC. split; assumption.
  Qed.
  Lemma sound_during ctx rb h : sound h -> context (v_keys (h_volume h)) = Some ctx -> h_root h = Some rb -> during ctx rb (h_volume h) h.
  Proof.
    intros (K & T) HC ER. unfold tree_ok in T. rewrite ER, HC in T. destruct T as (_ & T1 & T2). repeat split; assumption.
  Qed.

  Definition answers (h' : handle) (c : vcall) (a : vanswer) : Prop :=
    match context (v_keys (h_volume h')) with
    | Some ctx => a = stored_answer img ov ctx c
    | None => a = AError
    end.
  Lemma locked_context v : keys_ok v -> v_locked v = true -> ov_bag ov <> None -> context (v_keys v) = None.
  Proof. intros K L B. unfold keys_ok in K. rewrite L in K. rewrite K. unfold SessionSpec.context. destruct (ov_bag ov); [reflexivity|congruence]. Qed.

  Theorem lookup_sound h c : sound h -> lookup_call c -> forall a h', vstep h c = Ok (a, h') -> sound h' /\ answers h' c a.
  Proof.
    intros S LC a h' E.
    assert (G : forall (m : M handle (option (Z * inode * option dentry))) (pr : fs -> res (option (Z * inode * option dentry))) j1 j2,
      (forall v ctx rb, context (v_keys v) = Some ctx -> gagrees handle (during ctx rb v) m (pr (tree_of ctx rb))) ->
      (forall h, get_root P Q evn evb xts unkeyed img ov h = (Fail, h) -> m h = (Fail, h)) ->
      answer_entry P Q (bindM (get_file_system j1 j2) (fun _ => m)) h = Ok (a, h') ->
      sound h' /\ match context (v_keys (h_volume h')) with
                  | Some ctx => a = entry_of (let! t := volume_fs img ctx ov in pr t)
                  | None => a = AError
                  end).
    { clear c LC E. intros m pr j1 j2 Hm Hr E. unfold answer_entry, bindM in E.
      destruct (get_file_system j1 j2 h) as (r, h1) eqn:EF.
      assert (N : r <> Oob /\ r <> Fuel) by (destruct r; split; congruence). destruct N as (N1 & N2).
      destruct (file_system_ok j1 j2 h S r h1 EF N1 N2) as (S1 & [(-> & rb & ER & EV)|(-> & H)]).
      - destruct (context (v_keys (h_volume h1))) as [ctx|] eqn:EC.
        + destruct (Hm (h_volume h1) ctx rb EC h1 (sound_during _ _ _ S1 EC ER)) as (D & EM).
          destruct (m h1) as (r, h2). cbn [fst snd] in *. subst r.
          pose proof (during_sound _ _ _ _ _ S1 EC ER eq_refl D) as S2. pose proof D as (D1 & _).
          destruct (pr (tree_of ctx rb)) eqn:EP; try discriminate; injection E as <- <-; (split; [exact S2|]); rewrite D1, EC, EV; cbn [bind]; rewrite EP; reflexivity.
        + pose proof S1 as (_ & T1). unfold tree_ok in T1. rewrite ER, EC in T1. destruct T1 as (_ & T1 & T2).
          rewrite (Hr h1 (no_keys_root _ _ ER EC T1 T2)) in E. injection E as <- <-. split; [exact S1|]. rewrite EC. reflexivity.
      - injection E as <- <-. split; [exact S1|]. destruct H as [(L & B)|H].
        + rewrite (locked_context _ (proj1 S1) L B). reflexivity.
        + destruct (context (v_keys (h_volume h1))) as [ctx|]; [|reflexivity]. destruct (H ctx) as (e & -> & He). destruct e; [contradiction|reflexivity..]. }
    unfold answers, stored_answer. destruct c as [c|id j1 j2|u str j1 j2]; [contradiction| |]; cbn [Session.vstep] in E.
    - eapply (G _ (fun t => let! r := fs_inode t id in Ok (match r with Some i => Some (i, None) | None => None end)) j1 j2); [| |exact E].
      + intros v ctx rb HC. unfold fs_inode.
        replace (let! r := let! r := fs_walk (tree_of ctx rb) (fs_id_walker id 3) in inode_finish r in Ok match r with Some i => Some (i, None) | None => None end)
          with (let! e := fs_walk (tree_of ctx rb) (fs_id_walker id 3) in let! i := inode_finish e in Ok (match i with Some i => Some (i, @None dentry) | None => None end))
          by (destruct (fs_walk (tree_of ctx rb) (fs_id_walker id 3)); reflexivity).
        apply gagrees_bind; [apply lookup_id_ok; exact HC|]. intros e _. apply gagrees_ret.
      + intros h0 H0. unfold bindM, walk. unfold bindM. rewrite H0. reflexivity.
    - eapply (G _ (fun t => fs_by_path t (if u then utf16_next else utf8_next) (volume_folds ov) 2 str) j1 j2); [| |exact E].
      + intros v ctx rb HC. apply lookup_path_ok. exact HC.
      + intros h0 H0. unfold inode_by_path, bindM. rewrite H0. reflexivity.
  Qed.
  Theorem run_sound : forall cs h l h', sound h -> vrun h cs = Ok (l, h') -> sound h'.
  Proof.
    induction cs as [|c cs IH]; intros h l h' S E; cbn [Session.vrun] in E; [injection E as <- <-; exact S|].
    destruct (vstep h c) as [(a, h1)| | |] eqn:E1; cbn [bind] in E; try discriminate.
    destruct (vrun h1 cs) as [(l2, h2)| | |] eqn:E2; cbn [bind] in E; try discriminate. injection E as <- <-.
    apply (IH h1 l2 h2); [|exact E2]. destruct c as [c|id j1 j2|u str j1 j2].
    - cbn [Session.vstep] in E1. destruct (Volume.step aes sha hmac bg (h_volume h) c) as [(r, v')| | |] eqn:ES; cbn [bind] in E1; try discriminate.
      injection E1 as <- <-. exact (sound_state _ _ _ _ S ES).
    - exact (proj1 (lookup_sound h (VId id j1 j2) S I a h1 E1)).
    - exact (proj1 (lookup_sound h (VPath u str j1 j2) S I a h1 E1)).
  Qed.
End Handle.
