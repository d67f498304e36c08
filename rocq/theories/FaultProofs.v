(* Unreadable blocks: everything that is read is as it is without them, or an error. *)
From Verif Require Import Base BaseLemmas BTree Walk WalkProofs Omap OmapProofs TreeSpec OmapSpec Records FsTree FsName Crypt DataRead DataProofs Compressed CompressedSpec CompressedTop
  KeyBag Volume Container Snapshot VolumeSuper FileEntry FileSpec FileProofs FileTop Session SessionSpec SessionProofs FaultSpec Faults.
Ltac Zify.zify_post_hook ::= Z.div_mod_to_equations.

Section Due.
  Variable faulty : bool.
  Notation due := (due faulty).
  Notation worse := (worse faulty).
  Lemma due_refl {A} (r : res A) : due r r.
  Proof. left. reflexivity. Qed.
  Lemma due_bind {A B} (r' r : res A) (k' k : A -> res B) : due r' r -> (forall a, r = Ok a -> due (k' a) (k a)) -> due (bind r' k') (bind r k).
  Proof.
    intros [->|(F & ->)] H; [|right; auto]. destruct r as [a| | |]; cbn [bind]; try (left; reflexivity). apply H. reflexivity.
  Qed.
  Lemma due_if {A} (c : bool) (a' a b' b : res A) : due a' a -> due b' b -> due (if c then a' else b') (if c then a else b).
  Proof. destruct c; auto. Qed.
  Ltac due_auto := repeat first [ apply due_refl | assumption | apply due_bind; [|intros ? _] | match goal with
    | |- FaultSpec.due _ (let '(_, _) := ?p in _) _ => destruct p
    | |- FaultSpec.due _ (match ?x with Some _ => _ | None => _ end) _ => destruct x
    | |- FaultSpec.due _ (if ?c then _ else _) _ => destruct c
    end ].

  (* ---- traversals ---- *)
  Definition dueM {S A} (m' m : M S A) : Prop := forall s, m' s = m s \/ (faulty = true /\ fst (m' s) = Fail).
  Lemma dueM_bind {S A B} (m' m : M S A) (k' k : A -> M S B) : dueM m' m -> (forall a, dueM (k' a) (k a)) -> dueM (bindM m' k') (bindM m k).
  Proof.
    intros H K s. unfold bindM. destruct (H s) as [->|(F & E)].
    - destruct (m s) as [[a| | |] s']; [apply K|left; reflexivity..].
    - destruct (m' s) as [r s']. cbn [fst] in E. subst r. right. auto.
  Qed.
  Lemma dueM_refl {S A} (m : M S A) : dueM m m.
  Proof. intros s. left. reflexivity. Qed.
  Lemma dueM_ret {S A} (r' r : res A) : due r' r -> dueM (S := S) (retM r') (retM r).
  Proof. intros [->|(F & ->)] s; [left|right]; auto. Qed.
  Lemma dueM_fst {S A} (m' m : M S A) s : dueM m' m -> due (fst (m' s)) (fst (m s)).
  Proof. intros H. destruct (H s) as [->|(F & ->)]; [left; reflexivity|right; auto]. Qed.
  Section Visit.
    Variables (S A : Type) (get' get : Z -> M S bnode) (w : walker A).
    Hypothesis HG : forall b, dueM (get' b) (get b).
    Lemma visit_due : forall fuel d n, dueM (visit get' w fuel d n) (visit get w fuel d n).
    Proof.
      induction fuel as [|fuel IH]; intros d n; cbn [visit]; [apply dueM_refl|]. destruct (is_leaf n); [apply dueM_refl|].
      destruct (max_depth <? d); [apply dueM_refl|]. generalize (wk_start w). induction (wk_plan w n) as [|r l IHl]; intros acc; cbn [visit_children]; [apply dueM_refl|].
      apply dueM_bind; [apply dueM_refl|]. intros b. apply dueM_bind; [|intros a; apply IHl]. apply dueM_bind; [apply HG|]. intros m. apply IH.
    Qed.
    Lemma walk_due root' root : dueM root' root -> dueM (Walk.walk root' get' w) (Walk.walk root get w).
    Proof. intros HR. apply dueM_bind; [exact HR|]. intros [n|]; [apply visit_due|apply dueM_refl]. Qed.
  End Visit.

  Lemma block_due img' img b : worse img' img -> due (read_block img' b) (read_block img b).
  Proof. intros H. unfold read_block. destruct (H b) as [->|(F & ->)]; [left; reflexivity|right; auto]. Qed.
  Ltac blk := first [ apply block_due; assumption | apply due_refl ].

  Lemma omap_due img' img rb oid x : worse img' img -> due (omap_lookup img' rb oid x) (omap_lookup img rb oid x).
  Proof.
    intros H. unfold omap_lookup. apply due_bind; [|intros; apply due_refl]. unfold plain_walk. apply dueM_fst, walk_due.
    - intros b. apply dueM_ret. destruct (int_max <? b); [apply due_refl|]. unfold omap_load_sub. apply due_bind; [blk|intros; apply due_refl].
    - apply dueM_ret. destruct (int_max <? rb); [apply due_refl|]. unfold omap_load_root. apply due_bind; [blk|intros; apply due_refl].
  Qed.
  Notation fs_worse := (fs_worse faulty).
  Lemma sub_due t' t oid : fs_worse t' t -> due (fs_sub t' oid) (fs_sub t oid).
  Proof.
    intros (H1 & H2 & _ & H3 & H4). unfold fs_sub. rewrite H3, H4. apply due_bind; [apply omap_due; exact H2|]. intros [d|] _; [|apply due_refl].
    destruct (int_max <? od_address d); [apply due_refl|]. unfold fs_load_sub. apply due_bind; [blk|intros; apply due_refl].
  Qed.
  Lemma root_due t' t : fs_worse t' t -> due (fs_root t') (fs_root t).
  Proof.
    intros (H1 & H2 & H3 & _). unfold fs_root. rewrite H3. destruct (int_max <? fs_rb t); [apply due_refl|]. unfold fs_load_root. apply due_bind; [blk|intros; apply due_refl].
  Qed.
  Lemma fs_walk_due t' t A (w : walker A) : fs_worse t' t -> due (fs_walk t' w) (fs_walk t w).
  Proof.
    intros H. unfold fs_walk. apply dueM_fst, walk_due; [intros b|]; apply dueM_ret; [apply sub_due|apply root_due]; exact H.
  Qed.
  Lemma snap_due t' t : fs_worse t' t -> due (get_snapshots t') (get_snapshots t).
  Proof.
    intros (H1 & H2 & H3 & H4 & H5). unfold get_snapshots. apply dueM_fst, walk_due; [intros b|]; apply dueM_ret.
    - unfold snap_sub. rewrite H4, H5. apply due_bind; [apply omap_due; exact H2|]. intros [d|] _; [|apply due_refl].
      destruct (int_max <? od_address d); [apply due_refl|]. unfold snap_load_sub. apply due_bind; [blk|intros; apply due_refl].
    - unfold snap_root. rewrite H3. destruct (int_max <? fs_rb t); [apply due_refl|]. unfold snap_load_root. apply due_bind; [blk|intros; apply due_refl].
  Qed.
  Section Path.
    Variables (t' t : fs) (next : list Z -> res (Z * list Z)) (fold : bool).
    Hypothesis H : fs_worse t' t.
    Lemma get_due b : dueM (pure (fs_sub t') b) (pure (fs_sub t) b).
    Proof. apply dueM_ret, sub_due, H. Qed.
    Lemma find_due n id str : dueM (find_record unit (pure (fs_sub t')) next fold n id str) (find_record unit (pure (fs_sub t)) next fold n id str).
    Proof. apply dueM_bind; [apply dueM_refl|]. intros h. apply visit_due, get_due. Qed.
    Lemma entry_due id : dueM (FsName.entry_of unit (retM (fs_root t')) (pure (fs_sub t')) id) (FsName.entry_of unit (retM (fs_root t)) (pure (fs_sub t)) id).
    Proof. apply walk_due; [exact get_due|]. apply dueM_ret, root_due, H. Qed.
    Lemma path_due : forall fuel n id rec str, dueM (path_loop unit (pure (fs_sub t')) next fold n fuel id rec str) (path_loop unit (pure (fs_sub t)) next fold n fuel id rec str).
    Proof.
      induction fuel as [|fuel IH]; intros n id rec str; destruct str as [|x str]; cbn [path_loop]; [apply dueM_refl|apply dueM_refl|apply dueM_refl|].
      apply dueM_bind; [apply dueM_refl|]. intros (s & r). cbn [fst snd]. destruct s; [apply dueM_refl|].
      apply dueM_bind; [apply find_due|]. intros [d|]; [apply IH|apply dueM_refl].
    Qed.
    Lemma by_path_due id str : due (fs_by_path t' next fold id str) (fs_by_path t next fold id str).
    Proof.
      unfold fs_by_path, inode_by_path. apply dueM_fst. apply dueM_bind; [apply dueM_ret, root_due, H|]. intros [n|]; [|apply dueM_refl].
      apply dueM_bind; [destruct ((len str =? 0) || (len str =? 1)); [apply dueM_refl|apply path_due]|]. intros [(i & d)|]; [|apply dueM_refl].
      apply dueM_bind; [apply entry_due|]. intros e. apply dueM_refl.
    Qed.
    Lemma by_name_due id str : due (fs_by_name t' next fold id str) (fs_by_name t next fold id str).
    Proof.
      unfold fs_by_name, inode_by_name. apply dueM_fst. apply dueM_bind; [apply dueM_ret, root_due, H|]. intros [n|]; [|apply dueM_refl].
      apply dueM_bind; [apply find_due|]. intros [d|]; [|apply dueM_refl]. apply dueM_bind; [apply entry_due|]. intros e. apply dueM_refl.
    Qed.
    Lemma inode_due id : due (fs_inode t' id) (fs_inode t id).
    Proof. unfold fs_inode. apply due_bind; [apply fs_walk_due, H|]. intros; apply due_refl. Qed.
  End Path.

  (* ---- container and volume ---- *)
  Lemma read_at_due img' img b n : worse img' img -> due (read_at img' b n) (read_at img b n).
  Proof. intros H. unfold read_at. apply due_bind; [apply due_refl|]. intros x _. apply due_bind; [blk|]. intros; apply due_refl. Qed.
  Lemma superblock_due img' img b : worse img' img -> due (superblock_at img' b) (superblock_at img b).
  Proof. intros H. apply due_bind; [apply read_at_due, H|]. intros; apply due_refl. Qed.
  Lemma rounds_due {A B} (f' f : A -> res (A + B)) : (forall s, due (f' s) (f s)) -> forall n s, due (rounds n f' s) (rounds n f s).
  Proof.
    intros H. induction n as [|n IH]; intros s; cbn [rounds]; [apply H|]. apply due_bind; [apply IH|]. intros [s'|b] _; [apply IH|apply due_refl].
  Qed.
  Lemma scan_due img' img s : worse img' img -> due (scan_area img' s) (scan_area img s).
  Proof.
    intros H. unfold scan_area. apply due_bind; [|intros; apply due_refl]. apply rounds_due. intros x. unfold scan_step. apply due_if; [|apply due_refl]. cbv zeta.
    apply due_bind; [unfold object_at; apply due_bind; [apply read_at_due, H|intros; apply due_refl]|]. intros (xid & ty) _.
    apply due_if; [apply due_refl|]. apply due_if; [|apply due_refl]. apply due_bind; [apply superblock_due, H|]. intros; apply due_refl.
  Qed.
  Lemma read_blocks_due img' img : worse img' img -> forall n b, due (read_blocks img' b n) (read_blocks img b n).
  Proof.
    intros H. induction n as [|n IH]; intros b; cbn [read_blocks]; [apply due_refl|]. apply due_bind; [apply read_at_due, H|]. intros d _.
    apply due_bind; [apply IH|]. intros; apply due_refl.
  Qed.
  Lemma open_due xts img' img : worse img' img -> due (open xts img') (open xts img).
  Proof.
    intros H. unfold open. apply due_bind; [apply superblock_due, H|]. intros s _. apply due_bind; [apply due_refl|]. intros _ _.
    apply due_bind; [apply scan_due, H|]. intros r _. apply due_bind; [apply due_refl|]. intros _ _.
    apply due_bind; [unfold map_at; apply due_bind; [apply read_at_due, H|intros; apply due_refl]|]. intros m _. cbv zeta.
    apply due_bind; [apply due_refl|]. intros _ _. apply due_bind; [unfold omap_at; apply due_bind; [apply read_at_due, H|intros; apply due_refl]|]. intros root _.
    apply due_bind; [apply due_refl|]. intros _ _. apply due_bind; [|intros; apply due_refl]. apply due_if; [|apply due_refl].
    apply due_bind; [|intros; apply due_refl]. unfold container_bag_at. cbv zeta. apply due_bind; [apply due_refl|]. intros _ _. apply due_bind; [apply due_refl|]. intros x _.
    apply due_bind; [apply read_blocks_due, H|]. intros; apply due_refl.
  Qed.
  Lemma within_worse n img' img : worse img' img -> worse (within n img') (within n img).
  Proof. intros H b. unfold within. destruct (_ <? _); [apply H|left; reflexivity]. Qed.
  Lemma by_index_due img' img c i : worse img' img -> due (volume_by_index img' c i) (volume_by_index img c i).
  Proof.
    intros H. unfold volume_by_index. apply due_bind; [apply due_refl|]. intros _ _. apply due_bind; [apply due_refl|]. intros o _.
    apply due_bind; [apply omap_due, within_worse, H|]. intros; apply due_refl.
  Qed.
  Lemma vsuper_due img' img b sn : worse img' img -> due (vsuper_at img' b sn) (vsuper_at img b sn).
  Proof. intros H. unfold vsuper_at. apply due_bind; [apply read_at_due, H|]. intros; apply due_refl. Qed.
  Lemma same_worse img' img rb o orb x : worse img' img -> fs_worse (mk_fs img' rb img' orb x) (mk_fs img rb img orb x) \/ o = 0.
  Proof. intros H. left. split; [exact H|]. split; [exact H|]. auto. Qed.
  Lemma volume_open_due xts img' img size bag b : worse img' img -> due (volume_open xts img' size bag b) (volume_open xts img size bag b).
  Proof.
    intros H. unfold volume_open. apply due_bind; [apply vsuper_due, H|]. intros s _. apply due_bind; [apply due_refl|]. intros _ _.
    apply due_bind; [unfold omap_at; apply due_bind; [apply read_at_due, H|intros; apply due_refl]|]. intros o _. apply due_bind; [apply due_refl|]. intros _ _.
    apply due_bind.
    - unfold volume_keys. destruct bag as [bag|]; [|apply due_refl]. apply due_if; [apply due_refl|]. cbv zeta. apply due_bind; [apply due_refl|]. intros [(k & n)|] _; [|apply due_refl].
      apply due_bind; [apply due_refl|]. intros _ _. apply due_bind; [|intros; apply due_refl]. unfold volume_bag_at. cbv zeta. apply due_bind; [apply due_refl|]. intros _ _.
      apply due_bind; [apply due_refl|]. intros x _. apply due_bind; [apply read_blocks_due, H|]. intros; apply due_refl.
    - intros (k & locked) _. apply due_bind; [|intros; apply due_refl]. apply due_if; [apply due_refl|]. apply snap_due. split; [apply within_worse, H|]. split; [apply within_worse, H|]. auto.
  Qed.

  (* ---- data ---- *)
  Lemma bytes_due img' img off n : worse img' img -> due (read_bytes img' off n) (read_bytes img off n).
  Proof.
    intros H. unfold read_bytes. cbv zeta. apply due_bind; [blk|]. intros d _. apply due_bind; [apply due_refl|]. intros _ _. apply due_bind; [apply due_refl|]. intros x _.
    apply due_if; [apply due_refl|]. apply due_bind; [apply due_refl|]. intros _ _. apply due_bind; [blk|]. intros; apply due_refl.
  Qed.
  Lemma data_block_due img' img ctx off eid : worse img' img -> due (data_block_read img' ctx off eid) (data_block_read img ctx off eid).
  Proof. intros H. unfold data_block_read. apply due_bind; [apply bytes_due, H|]. intros; apply due_refl. Qed.
  Lemma fs_image_worse img' img ctx : worse img' img -> worse (fs_image img' ctx) (fs_image img ctx).
  Proof. intros H b. unfold fs_image. destruct (data_block_due img' img ctx (b * 4096) b H) as [->|(F & ->)]; [left; reflexivity|right; auto]. Qed.
  Lemma volume_fs_due img' img ctx ov : worse img' img ->
    volume_fs img' ctx ov = Fail /\ faulty = true \/ match volume_fs img' ctx ov, volume_fs img ctx ov with
      | Ok t', Ok t => fs_worse t' t
      | r', r => is_ok r' = false /\ is_ok r = false /\ (forall t, r' = Ok t <-> r = Ok t) /\ (r' = Fail <-> r = Fail) /\ (r' = Oob <-> r = Oob)
      end.
  Proof.
    intros H. unfold volume_fs. cbv zeta. destruct (omap_due (within (ov_size ov) img') (within (ov_size ov) img) (ov_omap ov) (vs_root (ov_super ov)) (vs_xid (ov_super ov)) (within_worse _ _ _ H)) as [->|(F & ->)]; [|left; auto].
    right. destruct (omap_lookup (within (ov_size ov) img) _ _ _) as [[d|]| | |]; cbn [bind is_ok].
    1: { split; [apply within_worse, fs_image_worse, H|]. split; [apply within_worse, H|]. auto. }
    all: split; [reflexivity|]; split; [reflexivity|]; split; [intros; tauto|]; split; tauto.
  Qed.
  Lemma handle_due img' img ctx exts segs cur n : worse img' img -> due (handle_read img' ctx exts segs cur n) (handle_read img ctx exts segs cur n).
  Proof.
    intros H. unfold handle_read. apply due_bind; [apply due_refl|]. intros _ _. apply due_if; [apply due_refl|].
    generalize (Z.to_nat (n / 4096 + 2)) as fuel. intros fuel. revert cur n. induction fuel as [|fuel IH]; intros cur n; cbn [DataRead.read_loop]; (apply due_if; [apply due_refl|]); [apply due_refl|].
    apply due_bind; [apply due_refl|]. intros _ _. apply due_bind.
    - unfold read_data_block. destruct (find_segment segs (cur / 4096 * 4096)) as [(s & so)|]; [|apply due_refl]. apply due_if; [apply due_refl|]. cbv zeta.
      apply due_bind; [apply due_refl|]. intros _ _. apply due_bind; [apply due_refl|]. intros e _. apply data_block_due, H.
    - intros blk _. apply due_bind; [apply due_refl|]. intros _ _. cbv zeta. apply due_bind; [apply due_refl|]. intros d _. apply due_if; [apply due_refl|].
      apply due_bind; [apply IH|]. intros; apply due_refl.
  Qed.

  (* What is there at a call. *)
  Definition now_worse (N' N : now) : Prop :=
    (forall id, due (nw_attrs N' id) (nw_attrs N id)) /\ (forall id, due (nw_extents N' id) (nw_extents N id)) /\ worse (nw_img N') (nw_img N).
  Lemma now_of_worse t' t dev' dev : fs_worse t' t -> worse dev' dev -> now_worse (now_of t' dev') (now_of t dev).
  Proof. intros H1 H2. split; [|split]; [intros id; apply fs_walk_due, H1..|exact H2]. Qed.
  Lemma read_now_due ctx N' N d off n : now_worse N' N -> due (read_now ctx N' d off n) (read_now ctx N d off n).
  Proof.
    intros (_ & _ & H). unfold read_now, stream_now. destruct d as [v|l size sparse]; [apply due_refl|]. unfold stream_of_extents.
    destruct (segments sparse 0 0 l) as [segs| | |]; cbn [bind]; try apply due_refl. unfold DataRead.stream_read. cbn [st_size st_read].
    apply due_bind; [apply due_refl|]. intros _ _. apply due_if; [apply due_refl|]. apply handle_due, H.
  Qed.
  Lemma attr_source_due N' N a : now_worse N' N -> due (attr_source N' a) (attr_source N a).
  Proof.
    intros (_ & H & _). unfold attr_source. apply due_if; [|apply due_refl]. destruct (at_data a); try apply due_refl.
    apply due_bind; [apply H|]. intros; apply due_refl.
  Qed.
  Lemma read_all_due ctx N' N o off n : now_worse N' N -> due (read_all_now ctx N' o off n) (read_all_now ctx N o off n).
  Proof. intros H. unfold read_all_now. destruct o; [|apply due_refl]. apply due_bind; [apply read_now_due, H|]. intros; apply due_refl. Qed.

  (* ---- compressed data ---- *)
  Section Packed.
    Variables (src' src : source).
    Hypothesis HS : src_size src' = src_size src.
    Hypothesis HR : forall o n, due (src_read src' o n) (src_read src o n).
    Lemma into_due buf pos off n : due (read_into src' buf pos off n) (read_into src buf pos off n).
    Proof. unfold read_into. apply due_bind; [apply HR|]. intros; apply due_refl. Qed.
    Lemma offsets_due method : due (get_block_offsets method src') (get_block_offsets method src).
    Proof.
      unfold get_block_offsets. cbv zeta. rewrite HS. apply due_bind; [apply into_due|]. intros buf _. apply due_bind; [apply due_refl|]. intros sig _. apply due_bind.
      - apply due_if; [apply due_refl|]. apply due_if; [|apply due_refl]. apply due_bind; [apply due_refl|]. intros d _. apply due_bind; [apply due_refl|]. intros _ _.
        apply due_bind; [apply into_due|]. intros; apply due_refl.
      - intros (((((b & n) & first) & pos) & dsize) & add) _. apply due_bind; [apply due_refl|]. intros _ _. apply due_bind.
        + apply due_if; [apply due_refl|]. apply due_bind; [apply into_due|]. intros; apply due_refl.
        + intros ((acc & prev) & b2) _. apply due_bind; [apply due_refl|]. intros _ _. apply due_bind; [|intros; apply due_refl].
          apply due_if; [|apply due_refl]. apply due_bind; [apply due_refl|]. intros _ _. apply due_bind; [apply into_due|]. intros; apply due_refl.
    Qed.
    Variables (dec : list Z -> Z -> res (list Z)) (junk : list Z -> list Z -> list Z) (method usize : Z).
    Lemma load_due h offs i : load_block dec junk src' usize h offs i = load_block dec junk src usize h offs i \/
      (faulty = true /\ load_block dec junk src' usize h offs i = (Fail, h)).
    Proof.
      unfold load_block. assert (E : due (block_data src' offs i) (block_data src offs i)).
      { unfold block_data. apply due_bind; [apply due_refl|]. intros o _. apply due_bind; [apply due_refl|]. intros e _. cbv zeta. apply due_bind; [apply HR|]. intros; apply due_refl. }
      destruct E as [->|(F & ->)]; [left; reflexivity|]. destruct (ch_idx h =? i); [left; reflexivity|right; auto].
    Qed.
    (* A read that fails for want of a block has loaded what a shorter read loads. *)
    Lemma loop_due : forall fuel h offs i doff n acc,
      Compressed.read_loop dec junk src' usize fuel h offs i doff n acc = Compressed.read_loop dec junk src usize fuel h offs i doff n acc \/
      (faulty = true /\ exists n' h' acc', Compressed.read_loop dec junk src' usize fuel h offs i doff n acc = (Fail, h') /\ 0 <= n' <= n /\
        forall fuel2, (Z.to_nat n' <= fuel2)%nat -> Compressed.read_loop dec junk src usize fuel2 h offs i doff n' acc = (Ok acc', h')).
    Proof.
      induction fuel as [|fuel IH]; intros h offs i doff n acc; cbn [Compressed.read_loop]; [left; reflexivity|].
      destruct (0 <? n) eqn:Cn; [|left; reflexivity]. destruct (len offs - 1 <=? i) eqn:Ci; [left; reflexivity|].
      destruct (load_due h offs i) as [->|(F & ->)].
      - destruct (load_block dec junk src usize h offs i) as ([[]| | |] & h1) eqn:EL; try (left; reflexivity).
        destruct (ch_size h1 <=? doff) eqn:Cs; [left; reflexivity|]. set (rs := Z.min (ch_size h1 - doff) n).
        destruct (rd (ch_seg h1) doff rs) as [d| | |] eqn:ER; try (left; reflexivity).
        destruct (IH h1 offs (w32 (i + 1)) 0 (n - rs) (acc ++ d)) as [->|(F & n' & h' & acc' & E1 & E2 & E3)]; [left; reflexivity|].
        right. split; [exact F|]. exists (rs + n'), h', acc'. split; [exact E1|]. split; [unfold rs in *; lia|]. intros fuel2 HF2.
        destruct fuel2 as [|fuel2]; [unfold rs in *; lia|]. cbn [Compressed.read_loop]. replace (0 <? rs + n') with true by (unfold rs in *; lia). rewrite Ci, EL, Cs.
        replace (Z.min (ch_size h1 - doff) (rs + n')) with rs by (unfold rs in *; lia). rewrite ER. replace (rs + n' - rs) with n' by lia.
        apply E3. unfold rs in *. lia.
      - right. split; [exact F|]. exists 0, h, acc. split; [reflexivity|]. split; [lia|]. intros fuel2 _. destruct fuel2; reflexivity.
    Qed.
    (* The same but for the current offset, which every read sets. *)
    Definition same (h h0 : chandle) : Prop := exists o, h = ch_seek h0 o.
    Lemma same_read h h0 off n : same h h0 -> fst (file_read dec junk method src usize h off n) = fst (file_read dec junk method src usize h0 off n) /\
      same (snd (file_read dec junk method src usize h off n)) (snd (file_read dec junk method src usize h0 off n)).
    Proof.
      intros (o & ->). unfold file_read. destruct (usize <=? off); [split; [reflexivity|exists o; reflexivity]|].
      split; [reflexivity|]. change (ch_seek (ch_seek h0 o) off) with (ch_seek h0 off).
      set (h2 := snd (ch_read dec junk method src usize (ch_seek h0 off) (Z.min n (usize - off)))). exists (ch_cur h2). destruct h2; reflexivity.
    Qed.
    Lemma file_read_due h off n : file_read dec junk method src' usize h off n = file_read dec junk method src usize h off n \/
      (faulty = true /\ exists h', file_read dec junk method src' usize h off n = (Fail, h') /\
        (same h' h \/ exists n', same h' (snd (file_read dec junk method src usize h off n')))).
    Proof.
      unfold file_read. destruct (usize <=? off) eqn:Cu; [left; reflexivity|]. set (m := Z.min n (usize - off)). unfold ch_read at 1 2 3.
      assert (E : due (match ch_offs (ch_seek h off) with Some o => Ok o | None => get_block_offsets method src' end)
                      (match ch_offs (ch_seek h off) with Some o => Ok o | None => get_block_offsets method src end)).
      { destruct (ch_offs (ch_seek h off)); [apply due_refl|apply offsets_due]. }
      destruct E as [->|(F & ->)]; [|right; split; [exact F|]; eexists; split; [reflexivity|]; left; exists off; reflexivity].
      destruct (match ch_offs (ch_seek h off) with Some o => Ok o | None => get_block_offsets method src end) as [offs| | |] eqn:EO; try (left; reflexivity).
      cbv zeta. set (h1 := mk_ch (Some offs) (ch_cur (ch_seek h off)) (ch_idx (ch_seek h off)) (ch_seg (ch_seek h off)) (ch_size (ch_seek h off))).
      destruct (usize <=? ch_cur h1) eqn:Cc; [left; reflexivity|]. destruct (method =? METHOD_UNKNOWN5) eqn:C5; [left; reflexivity|].
      destruct (loop_due (Z.to_nat m) h1 offs (w32 (ch_cur h1 / BLOCK)) (ch_cur h1 mod BLOCK) m []) as [->|(F & n' & h' & acc' & E1 & E2 & E3)]; [left; reflexivity|].
      rewrite E1. right. split; [exact F|]. exists h'. split; [reflexivity|]. right. exists n'. replace (Z.min n' (usize - off)) with n' by lia.
      unfold ch_read. rewrite EO. cbv zeta. fold h1. rewrite Cc, C5, (E3 (Z.to_nat n') (le_n _)). cbn [snd].
      exists (ch_cur h'). destruct h'; reflexivity.
    Qed.
  End Packed.

  (* ---- from the device to the bytes ---- *)
  Lemma dueM_on {S A B} (r' r : res A) (k' k : A -> M S B) : due r' r -> (forall a, dueM (k' a) (k a)) -> dueM (onM r' k') (onM r k).
  Proof. intros [->|(F & ->)] K s; [destruct r; [apply K|left; reflexivity..]|right; auto]. Qed.
  Section Read.
    Variables (lzvn : list Z -> Z -> res (list Z)) (junk : list Z -> list Z -> list Z) (ctx : option (list Z -> list Z -> list Z)) (id : Z) (i : inode) (N' N : now).
    Hypothesis HN : now_worse N' N.
    Lemma lget_attrs_due : dueM (lget_attrs id N') (lget_attrs id N).
    Proof.
      intros s. unfold lget_attrs. destruct (l_attrs s); [left; reflexivity|]. revert s. apply dueM_on; [|intros a; apply dueM_refl].
      apply due_bind; [apply HN|]. intros; apply due_refl.
    Qed.
    Lemma lneed_size_due : dueM (lneed_size ctx id i N') (lneed_size ctx id i N).
    Proof.
      intros s. unfold lneed_size. destruct (l_size s =? unset); [|left; reflexivity]. revert s. apply dueM_bind; [|intros a; apply dueM_refl].
      intros s. unfold lget_data_size. destruct (l_header s); [left; reflexivity|]. revert s. apply dueM_bind; [apply lget_attrs_due|]. intros a.
      destruct (fa_comp a) as [x|]; [|apply dueM_refl]. apply dueM_on; [|intros h; apply dueM_refl]. apply due_bind; [apply attr_source_due, HN|]. intros d _.
      apply due_bind; [apply read_all_due, HN|]. intros; apply due_refl.
    Qed.
    Lemma lneed_stream_due : dueM (lneed_stream ctx id i N') (lneed_stream ctx id i N).
    Proof.
      intros s. unfold lneed_stream. destruct (l_body s); [left; reflexivity|]. revert s. apply dueM_bind; [apply lneed_size_due|]. intros size s.
      destruct (l_header s) as [(m & z)|].
      - generalize (l_attrs s) as la. intros la. revert s. apply dueM_on; [|intros b; apply dueM_refl]. apply due_bind; [apply due_refl|]. intros method _. apply due_bind; [apply due_refl|]. intros a _.
        apply due_bind; [apply attr_source_due, HN|]. intros; apply due_refl.
      - revert s. apply dueM_bind; [|intros l; apply dueM_refl]. intros s. unfold lget_extents. destruct (l_extents s); [left; reflexivity|]. revert s.
        apply dueM_on; [apply HN|]. intros l. apply dueM_refl.
    Qed.
    Lemma lread_due off n : dueM (lread lzvn junk ctx id i N' off n) (lread lzvn junk ctx id i N off n).
    Proof.
      apply dueM_bind; [apply lneed_stream_due|]. intros b s. cbv zeta. set (o := match off with Some o => o | None => l_cur s end). destruct (o <? 0); [left; reflexivity|].
      assert (E : lbody_read lzvn junk ctx N' b o n = lbody_read lzvn junk ctx N b o n \/ (faulty = true /\ fst (lbody_read lzvn junk ctx N' b o n) = Fail)).
      { destruct b as [d|method d usize h]; cbn [lbody_read].
        - destruct (read_now_due ctx N' N d o n HN) as [->|(F & ->)]; auto.
        - destruct ((0 <=? o) && (0 <=? n) && (n <=? 2 ^ 63 - 1)); [|left; reflexivity].
          destruct (file_read_due (mk_src (size_of d) (read_now ctx N' d)) (mk_src (size_of d) (read_now ctx N d)) eq_refl (fun a b => read_now_due ctx N' N d a b HN) (decompress_data lzvn method) junk method usize h o n)
            as [->|(F & h' & -> & _)]; [left; reflexivity|right; auto]. }
      destruct E as [->|(F & E)]; [left; reflexivity|]. destruct (lbody_read lzvn junk ctx N' b o n) as (r & b'). cbn [fst] in E. subst r. right. auto.
    Qed.
  End Read.
  Lemma fetch_due aes sha hmac xts lzvn junk dev' dev index user recovery j1 j2 path off n : worse dev' dev ->
    due (fetch aes sha hmac xts lzvn junk dev' index user recovery j1 j2 path off n) (fetch aes sha hmac xts lzvn junk dev index user recovery j1 j2 path off n).
  Proof.
    intros H. unfold fetch. apply due_bind; [apply open_due, H|]. intros c _. apply due_bind; [apply by_index_due, H|]. intros od _. apply due_bind; [apply volume_open_due, H|]. intros ov _.
    cbv zeta. apply due_bind; [apply due_refl|]. intros (r & v) _. apply due_bind; [apply due_refl|]. intros ctx _. unfold volume_fs. cbv zeta.
    destruct (omap_due (within (ov_size ov) dev') (within (ov_size ov) dev) (ov_omap ov) (vs_root (ov_super ov)) (vs_xid (ov_super ov)) (within_worse _ _ _ H)) as [->|(F & ->)]; [|right; auto].
    destruct (omap_lookup (within (ov_size ov) dev) (ov_omap ov) (vs_root (ov_super ov)) (vs_xid (ov_super ov))) as [[d|]| | |]; cbn [bind]; try (left; reflexivity).
    set (t' := mk_fs (within (ov_size ov) (fs_image dev' ctx)) _ _ _ _). set (t := mk_fs (within (ov_size ov) (fs_image dev ctx)) _ _ _ _).
    assert (T : fs_worse t' t) by (split; [apply within_worse, fs_image_worse, H|]; split; [apply within_worse, H|auto]).
    apply due_bind; [apply by_path_due, T|]. intros [((id & i) & x)|] _; [|apply due_refl]. apply due_bind; [|intros; apply due_refl].
    apply dueM_fst, lread_due, now_of_worse; assumption.
  Qed.
End Due.

(* ---- lookups on an open volume ---- *)
Section Steps.
  Variables (faulty : bool) (S : Type) (Inv : S -> Prop).
  (* the same and the invariant, or an error and the invariant *)
  Definition stepM {A} (m' m : M S A) : Prop :=
    forall s, Inv s -> m' s = m s /\ Inv (snd (m s)) \/ (faulty = true /\ fst (m' s) = Fail /\ Inv (snd (m' s))).
  Lemma stepM_ret {A} (r' r : res A) : due faulty r' r -> stepM (retM r') (retM r).
  Proof. intros [->|(F & ->)] s I; [left|right]; auto. Qed.
  Lemma stepM_bind {A B} (m' m : M S A) (k' k : A -> M S B) : stepM m' m -> (forall a s, Inv s -> fst (m s) = Ok a -> stepM (k' a) (k a)) -> stepM (bindM m' k') (bindM m k).
  Proof.
    intros H K s I. unfold bindM. specialize (K) . destruct (H s I) as [(-> & I1)|(F & E & I1)].
    - pose proof (fun a => K a s I) as K1. destruct (m s) as [[a| | |] s1]; cbn [fst snd] in *; [apply (K1 a eq_refl), I1|left; auto..].
    - right. destruct (m' s) as [r s1]. cbn [fst snd] in *. subst r. auto.
  Qed.
  Lemma stepM_visit A (get' get : Z -> M S bnode) (w : walker A) : (forall b, stepM (get' b) (get b)) -> forall fuel d n, stepM (visit get' w fuel d n) (visit get w fuel d n).
  Proof.
    intros HG. induction fuel as [|fuel IH]; intros d n; cbn [visit]; [apply stepM_ret, due_refl|]. destruct (is_leaf n); [destruct (_ <? _); apply stepM_ret, due_refl|].
    destruct (max_depth <? d); [apply stepM_ret, due_refl|]. generalize (wk_start w). induction (wk_plan w n) as [|r l IHl]; intros acc; cbn [visit_children]; [apply stepM_ret, due_refl|].
    apply stepM_bind; [apply stepM_ret, due_refl|]. intros b _ _ _. apply stepM_bind; [|intros a _ _ _; apply IHl]. apply stepM_bind; [apply HG|]. intros m _ _ _. apply IH.
  Qed.
  Section Path.
    Variables (root' root : M S (option bnode)) (get' get : Z -> M S bnode) (next : list Z -> res (Z * list Z)) (fold : bool).
    Hypothesis HR : stepM root' root.
    Hypothesis HG : forall n s, Inv s -> fst (root s) = Ok (Some n) -> forall b, stepM (get' b) (get b).
    Lemma stepM_walk A (w : walker A) : stepM (Walk.walk root' get' w) (Walk.walk root get w).
    Proof. apply stepM_bind; [exact HR|]. intros [n|] s I E; [apply stepM_visit, (HG n s I E)|apply stepM_ret, due_refl]. Qed.
    Lemma stepM_loop : (forall b, stepM (get' b) (get b)) -> forall fuel n id rec str,
      stepM (path_loop S get' next fold n fuel id rec str) (path_loop S get next fold n fuel id rec str).
    Proof.
      intros G. induction fuel as [|fuel IH]; intros n id rec str; destruct str as [|x str]; cbn [path_loop]; [apply stepM_ret, due_refl|apply stepM_ret, due_refl|apply stepM_ret, due_refl|].
      apply stepM_bind; [apply stepM_ret, due_refl|]. intros (s & r) _ _ _. cbn [fst snd]. destruct s; [apply stepM_ret, due_refl|].
      apply stepM_bind; [|intros [d|] _ _ _; [apply IH|apply stepM_ret, due_refl]]. unfold find_record. apply stepM_bind; [apply stepM_ret, due_refl|]. intros h _ _ _. apply stepM_visit, G.
    Qed.
    Lemma stepM_path id str : stepM (inode_by_path S root' get' next fold id str) (inode_by_path S root get next fold id str).
    Proof.
      unfold inode_by_path. apply stepM_bind; [exact HR|]. intros [n|] s I E; [|apply stepM_ret, due_refl]. pose proof (HG n s I E) as G.
      apply stepM_bind; [destruct ((len str =? 0) || (len str =? 1)); [apply stepM_ret, due_refl|apply stepM_loop, G]|]. intros [(i & d)|] _ _ _; [|apply stepM_ret, due_refl].
      apply stepM_bind; [apply stepM_walk|]. intros [e|] _ _ _; apply stepM_ret, due_refl.
    Qed.
  End Path.
End Steps.
Section Volume.
  Variables (P Q : Type).
  Variable evn : P -> list (Z * bnode) -> Z -> P * list (Z * bnode).
  Variable evb : Q -> list (Z * list Z) -> Z -> Q * list (Z * list Z).
  Hypothesis Hevn : forall p l b, incl (snd (evn p l b)) l.
  Hypothesis Hevb : forall q l b, incl (snd (evb q l b)) l.
  Variable aes : list Z -> list Z -> list Z.
  Variable sha : list Z -> list Z.
  Variable hmac : list Z -> list Z -> list Z.
  Variable xts : list Z -> list Z -> list Z -> list Z -> list Z.
  Hypothesis HX : forall k1 k2, exists enc, CryptSpec.unit_cipher 512 enc (xts k1 k2).
  Variable unkeyed : option (list Z -> list Z -> list Z).
  Variables (img : image) (ov : open_volume) (bg : bags).
  Hypothesis HB : bytes_image img.
  Hypothesis HBG : b_volume bg = ov_bag ov.
  Hypothesis HLK : ov_bag ov <> None -> ov_locked ov = true.
  Hypothesis HU : unkeyed = None \/ ov_bag ov = None.
  Notation sound := (sound P Q xts img ov).
  Notation during := (during P Q img ov).
  Section Now.
    Variables (faulty : bool) (img' : image).
    Hypothesis HW : worse faulty img' img.
    Lemma block_of_due keys b : due faulty (read_block_of xts unkeyed img' ov keys b) (read_block_of xts unkeyed img ov keys b).
    Proof.
      unfold read_block_of. destruct (negb _); [apply due_refl|]. destruct (ov_bag ov); [destruct keys as [(k1 & k2)|]; [|destruct unkeyed]|]; try apply due_refl; apply data_block_due, HW.
    Qed.
    Lemma get_block_step b h : get_block P Q evb xts unkeyed img' ov b h = get_block P Q evb xts unkeyed img ov b h \/
      (faulty = true /\ get_block P Q evb xts unkeyed img' ov b h = (Fail, h)).
    Proof.
      unfold get_block. destruct (find _ (snd (h_blocks h))); [left; reflexivity|].
      destruct (block_of_due (v_keys (h_volume h)) b) as [->|(F & ->)]; [left; reflexivity|right; auto].
    Qed.
    Section Lookup.
      Variables (v : volume) (ctx : option (list Z -> list Z -> list Z)) (rb : Z).
      Hypothesis HC : context xts ov (v_keys v) = Some ctx.
      Notation inv := (during ctx rb v).
      Notation root_of := (get_root P Q evn evb xts unkeyed).
      Notation sub_of := (get_sub P Q evn evb xts unkeyed).
      Lemma get_root_step : stepM faulty _ inv (root_of img' ov) (root_of img ov).
      Proof.
        intros h I. destruct (get_root_ok P Q evn evb Hevn Hevb xts HX unkeyed img ov HB v ctx rb HC h I) as (I1 & _).
        assert (E : root_of img' ov h = root_of img ov h \/ (faulty = true /\ root_of img' ov h = (Fail, h))).
        { unfold get_root. destruct (h_root h); [|left; reflexivity]. destruct (_ <? _); [left; reflexivity|]. destruct (cache_find P (h_nodes h) z); [left; reflexivity|].
          unfold bindM. destruct (get_block_step z h) as [->|(F & ->)]; [left; reflexivity|right; auto]. }
        destruct E as [E|(F & E)]; [left; auto|right; rewrite E; auto].
      Qed.
      Lemma get_sub_step n h0 : inv h0 -> fst (root_of img ov h0) = Ok (Some n) -> forall b, stepM faulty _ inv (sub_of img' ov b) (sub_of img ov b).
      Proof.
        intros I0 E0 b h I. destruct (get_root_ok P Q evn evb Hevn Hevb xts HX unkeyed img ov HB v ctx rb HC h0 I0) as (_ & R0). rewrite R0 in E0.
        destruct (get_sub_ok P Q evn evb Hevn Hevb xts HX unkeyed img ov HB v ctx rb HC n E0 b h I) as (I1 & _).
        assert (E : sub_of img' ov b h = sub_of img ov b h \/ (faulty = true /\ sub_of img' ov b h = (Fail, h))).
        { unfold get_sub. destruct (omap_due faulty (within (ov_size ov) img') (within (ov_size ov) img) (ov_omap ov) b (vs_xid (ov_super ov)) (within_worse _ _ _ _ HW)) as [->|(F & ->)]; [|right; auto].
          destruct (omap_lookup (within (ov_size ov) img) (ov_omap ov) b (vs_xid (ov_super ov))) as [[d|]| | |]; [|left; reflexivity..]. cbv beta delta [bindM retM]. cbv zeta. cbv iota.
          destruct (int_max <? od_address d); [left; reflexivity|]. destruct (cache_find P (h_nodes h) (od_address d)); [left; reflexivity|].
          destruct (get_block_step (od_address d) h) as [->|(F & ->)]; [left; reflexivity|right; auto]. }
        destruct E as [E|(F & E)]; [left; auto|right; rewrite E; auto].
      Qed.
    End Lookup.
    Lemma file_system_step j1 j2 h : sound h -> get_file_system P Q aes sha hmac img' ov bg j1 j2 h = get_file_system P Q aes sha hmac img ov bg j1 j2 h \/
      (faulty = true /\ exists h', get_file_system P Q aes sha hmac img' ov bg j1 j2 h = (Fail, h') /\ sound h').
    Proof.
      intros SD. pose proof SD as (K & T). unfold get_file_system. destruct (h_root h) as [rb|] eqn:ER; [left; reflexivity|].
      set (u := if v_locked (h_volume h) then _ else _).
      assert (U : forall r v', u = Ok (r, v') -> keys_ok ov v').
      { intros r0 v' HE. unfold u in HE. destruct (v_locked (h_volume h)) eqn:EL; [|injection HE as <- <-; exact K].
        exact (proj1 (unlock_keys aes sha hmac unkeyed ov bg HBG HLK HU _ _ _ _ _ K HE)). }
      destruct u as [(r & v')| | |]; [|left; reflexivity..]. specialize (U r v' eq_refl). destruct (r =? -1); [left; reflexivity|].
      destruct (omap_due faulty (within (ov_size ov) img') (within (ov_size ov) img) (ov_omap ov) (vs_root (ov_super ov)) (vs_xid (ov_super ov)) (within_worse _ _ _ _ HW)) as [->|(F & ->)]; [left; reflexivity|].
      right. split; [exact F|]. eexists. split; [reflexivity|]. split; [exact U|]. unfold tree_ok in *. rewrite ER in T. exact T.
    Qed.
    Theorem vstep_due h c : sound h -> forall a h', vstep P Q evn evb aes sha hmac xts unkeyed img' ov bg h c = Ok (a, h') ->
      vstep P Q evn evb aes sha hmac xts unkeyed img ov bg h c = Ok (a, h') \/ (faulty = true /\ a = AError /\ sound h' /\ lookup_call c).
    Proof.
      intros SD a h' E. destruct c as [c|id j1 j2|u str j1 j2]; [left; exact E| |]; cbn [vstep] in *.
      all: unfold by_id, by_path in *.
      all: match type of E with answer_entry _ _ (bindM _ (fun _ => ?k')) _ = _ => set (m' := k') in E end.
      all: match goal with |- answer_entry _ _ (bindM _ (fun _ => ?k)) _ = _ \/ _ => set (m := k) end.
      all: assert (HS : forall v ctx rb, context xts ov (v_keys v) = Some ctx -> stepM faulty _ (during ctx rb v) m' m).
      1: { intros v ctx rb HC. apply stepM_bind; [apply stepM_walk; [apply get_root_step, HC|intros n s; apply (get_sub_step v ctx rb HC n s)]|]. intros e _ _ _. apply stepM_ret, due_refl. }
      2: { intros v ctx rb HC. apply stepM_path; [apply get_root_step, HC|intros n s; apply (get_sub_step v ctx rb HC n s)]. }
      all: assert (HF : forall h, get_root P Q evn evb xts unkeyed img' ov h = (Fail, h) -> m' h = (Fail, h)) by (intros h0 H0; unfold m', inode_by_path, Walk.walk, bindM; rewrite H0; reflexivity).
      all: assert (HF2 : forall h, get_root P Q evn evb xts unkeyed img ov h = (Fail, h) -> m h = (Fail, h)) by (intros h0 H0; unfold m, inode_by_path, Walk.walk, bindM; rewrite H0; reflexivity).
      all: clearbody m m'; unfold answer_entry, bindM in *.
      all: destruct (file_system_step j1 j2 h SD) as [EF|(F & h1 & EF & S1)]; rewrite EF in E; [|injection E as <- <-; right; split; [exact F|]; split; [reflexivity|]; split; [exact S1|exact Logic.I]].
      all: destruct (get_file_system P Q aes sha hmac img ov bg j1 j2 h) as (r & h1) eqn:EG; destruct r as [[]| | |]; try discriminate; try (left; exact E).
      all: destruct (file_system_ok P Q aes sha hmac xts unkeyed img ov bg HBG HLK HU j1 j2 h SD _ h1 EG ltac:(discriminate) ltac:(discriminate)) as (S1 & [(_ & rb & ER & EV)|(X & _)]); [|discriminate].
      all: destruct (context xts ov (v_keys (h_volume h1))) as [ctx|] eqn:EC.
      1, 3: pose proof (sound_during P Q xts img ov ctx rb h1 S1 EC ER) as D; destruct (HS _ ctx rb EC h1 D) as [(EM & _)|(F & EM & D2)];
        [left; rewrite EM in E; exact E|right; destruct (m' h1) as (r & h2); cbn [fst snd] in *; subst r; injection E as <- <-;
          split; [exact F|]; split; [reflexivity|]; split; [exact (during_sound P Q xts img ov ctx rb _ h1 h2 S1 EC ER eq_refl D2)|exact Logic.I]].
      all: pose proof S1 as (_ & T1); unfold tree_ok in T1; rewrite ER, EC in T1; destruct T1 as (_ & T1 & T2);
        rewrite (HF h1 (no_keys_root P Q evn evb xts unkeyed img' ov bg HBG HLK HU h1 rb ER EC T1 T2)) in E; left;
        rewrite (HF2 h1 (no_keys_root P Q evn evb xts unkeyed img ov bg HBG HLK HU h1 rb ER EC T1 T2)); exact E.
    Qed.
  End Now.
  Lemma vcalls_sound : forall (cs : list (bool * image * vcall)) h l h', sound h -> Forall (fun c => worse (fst (fst c)) (snd (fst c)) img) cs ->
    vcalls P Q evn evb aes sha hmac xts unkeyed ov bg h (map (fun c => (snd (fst c), snd c)) cs) = Ok (l, h') -> sound h'.
  Proof.
    induction cs as [|((fy & img') & c) cs IH]; intros h l h' SD HF E; cbn [map vcalls fst snd] in E; [injection E as <- <-; exact SD|].
    destruct (vstep P Q evn evb aes sha hmac xts unkeyed img' ov bg h c) as [(a, h1)| | |] eqn:E1; cbn [bind] in E; try discriminate.
    match type of E with bind ?r _ = _ => destruct r as [(l2, h2)| | |] eqn:E2 end; cbn [bind] in E; try discriminate. injection E as <- <-.
    apply (IH h1 l2 h2); [|exact (Forall_inv_tail HF)|exact E2].
    destruct (vstep_due fy img' (Forall_inv HF) h c SD a h1 E1) as [E3|(_ & _ & S1 & _)]; [|exact S1].
    eapply (run_sound P Q evn evb Hevn Hevb aes sha hmac xts HX unkeyed img ov bg HB HBG HLK HU [c] h [a] h1 SD). cbn [vrun]. rewrite E3. reflexivity.
  Qed.
End Volume.

(* ---- an open entry ---- *)
Section Entry.
  Variables (lzvn : list Z -> Z -> res (list Z)) (junk : list Z -> list Z -> list Z).
  Variables (t : fs) (dev : image) (ctx : option (list Z -> list Z -> list Z)) (id : Z) (i : inode) (rec : option dentry).
  Variables (A : fattrs) (hdr : option (Z * Z)) (exts : list extent) (data : list Z) (link : option (list Z)).
  Let e := mk_fe t dev ctx id i rec.
  Let N0 := now_of t dev.
  Hypothesis FF : file_facts lzvn junk e A hdr exts data link.

  Lemma size_now d s : stream_now ctx N0 d = Ok s -> size_of d = st_size s.
  Proof.
    destruct d as [v|l z sp]; cbn [stream_now size_of]; [intros [= <-]; reflexivity|]. unfold stream_of_extents.
    destruct (segments sp 0 0 l); cbn [bind]; try discriminate. intros [= <-]. reflexivity.
  Qed.
  Lemma made_stream l z sp : match stream_of_extents dev ctx l z sp with
    | Ok s => made (Extents l z sp) = Ok (Extents l z sp) /\ stream_now ctx N0 (Extents l z sp) = Ok s
    | Fail => made (Extents l z sp) = Fail
    | Oob => made (Extents l z sp) = Oob
    | Fuel => made (Extents l z sp) = Fuel
    end.
  Proof. unfold made, stream_now, stream_of_extents. cbn [nw_img N0 now_of]. destruct (segments sp 0 0 l); cbn [bind]; auto. Qed.
  Lemma source_stream x : match attr_stream e x with
    | Ok (Some s) => exists d, attr_source N0 x = Ok (Some d) /\ stream_now ctx N0 d = Ok s
    | Ok None => attr_source N0 x = Ok None
    | Fail => attr_source N0 x = Fail
    | Oob => attr_source N0 x = Oob
    | Fuel => attr_source N0 x = Fuel
    end.
  Proof.
    unfold attr_stream, attr_source. change (fe_tree e) with t. change (fe_img e) with dev. change (fe_ctx e) with ctx. change (nw_extents N0) with (fs_extents t).
    destruct (Z.testbit (at_flags x) 0).
    - destruct (at_data x) as [sid z|v|]; [|reflexivity..]. destruct (fs_extents t sid) as [l| | |]; cbn [bind]; [|reflexivity..].
      pose proof (made_stream l z false) as M. destruct (stream_of_extents dev ctx l z false) as [s| | |]; cbn [bind]; [|rewrite M; reflexivity..].
      destruct M as (M1 & M2). rewrite M1. cbn [bind]. eauto.
    - destruct (Z.testbit (at_flags x) 1); [|reflexivity]. eexists. split; reflexivity.
  Qed.
  Lemma read_all_eq x o n : (let! s := attr_source N0 x in read_all_now ctx N0 s o n) = (let! s := attr_stream e x in read_all s o n).
  Proof.
    pose proof (source_stream x) as H. destruct (attr_stream e x) as [[s|]| | |]; cbn [bind]; [|rewrite H; reflexivity..].
    destruct H as (d & -> & H). cbn [bind]. unfold read_all_now, read_now, read_all. rewrite H. reflexivity.
  Qed.

  Definition lbody_ok (b : lbody) : Prop :=
    match b with
    | LPlain d => exists s, stream_now ctx N0 d = Ok s /\ agrees s data
    | LPacked method d usize h => usize = len data /\ reads_packed lzvn junk data method (mk_src (size_of d) (read_now ctx N0 d)) /\
        exists ops h0, Forall (fun op => 0 <= fst op) ops /\ same h h0 /\
          h0 = snd (file_reads (decompress_data lzvn method) junk method (mk_src (size_of d) (read_now ctx N0 d)) (len data) ch_init ops)
    end.
  Lemma lbody_size_ok b : lbody_ok b -> lbody_size b = len data.
  Proof. destruct b as [d|m d u h]; cbn; [|tauto]. intros (s & H & G & _). rewrite (size_now _ _ H). exact G. Qed.
  Section Now.
    Variables (faulty : bool) (N : now).
    Hypothesis HN : now_worse faulty N N0.
    Lemma lbody_read_ok b o n : lbody_ok b -> 0 <= o -> exists b', lbody_ok b' /\
      (lbody_read lzvn junk ctx N b o n = (Compressed.stream_read data o n, b') \/ (faulty = true /\ lbody_read lzvn junk ctx N b o n = (Fail, b'))).
    Proof.
      intros Hb Ho. destruct b as [d|method d usize h]; cbn [lbody_read].
      - exists (LPlain d). split; [exact Hb|]. destruct Hb as (s & H & _ & R). destruct (read_now_due faulty ctx N N0 d o n HN) as [->|(F & ->)]; [left|right; auto].
        unfold read_now. rewrite H. cbn [bind]. rewrite R. reflexivity.
      - unfold Compressed.stream_read. destruct ((0 <=? o) && (0 <=? n) && (n <=? 2 ^ 63 - 1)); [|eexists; split; [exact Hb|left; reflexivity]].
        destruct Hb as (-> & R & ops & h0 & F & SH & E0). set (src := mk_src (size_of d) (read_now ctx N0 d)) in *. set (src' := mk_src (size_of d) (read_now ctx N d)).
        set (dec := decompress_data lzvn method) in *.
        assert (X : forall n, exists h', file_read dec junk method src (len data) h o n = (read_slice data (o, n), h') /\
          same h' (snd (file_reads dec junk method src (len data) ch_init (ops ++ [(o, n)])))).
        { intros k. destruct (next_read dec junk method src (len data) data R ops o k F Ho) as (h1 & E1 & E2). rewrite <- E0 in E1.
          destruct (same_read src dec junk method (len data) h h0 o k SH) as (X1 & X2). rewrite E1 in X1, X2. cbn [fst snd] in X1, X2.
          destruct (file_read dec junk method src (len data) h o k) as (r & h'). cbn [fst snd] in *. subst r. exists h'. rewrite <- E2. auto. }
        assert (FO : forall k, Forall (fun op : Z * Z => 0 <= fst op) (ops ++ [(o, k)])).
        { intros k. apply Forall_app. split; [exact F|]. constructor; [exact Ho|constructor]. }
        destruct (file_read_due faulty src' src eq_refl (fun a b => read_now_due faulty ctx N N0 d a b HN) dec junk method (len data) h o n) as [->|(FA & h' & -> & D)].
        + destruct (X n) as (h' & -> & S1). exists (LPacked method d (len data) h'). split; [|left; reflexivity]. split; [reflexivity|]. split; [exact R|]. eauto 8.
        + exists (LPacked method d (len data) h'). split; [|right; auto]. split; [reflexivity|]. split; [exact R|]. destruct D as [D|(n' & D)].
          * exists ops, h0. split; [exact F|]. split; [|exact E0]. destruct D as (o1 & ->), SH as (o2 & ->). exists o1. destruct h0; reflexivity.
          * destruct (X n') as (h2 & E2 & S2). rewrite E2 in D. cbn [snd] in D. exists (ops ++ [(o, n')]). eexists. split; [apply FO|]. split; [|reflexivity].
            destruct D as (o1 & ->), S2 as (o2 & ->). exists o1. reflexivity.
    Qed.

    Record linv (st : lstate) (pos : Z) : Prop := mk_linv {
      li_attrs : l_attrs st = None \/ l_attrs st = Some A;
      li_size : l_header st = None /\ l_size st = unset \/ l_header st = hdr /\ l_size st = len data /\ l_attrs st = Some A;
      li_extents : l_extents st = None \/ l_extents st = Some exts;
      li_body : l_body st = None /\ pos = 0 \/ exists b, l_body st = Some b /\ lbody_ok b;
      li_cur : l_cur st = pos; li_pos : 0 <= pos;
      li_link : l_link st = None \/ exists w, l_link st = Some w /\ link = Some w }.
    Ltac linv_auto I := destruct I; constructor; cbn [lset_attrs lset_size lset_extents lset_body lset_link l_attrs l_header l_size l_extents l_body l_cur l_link]; auto.

    (* m gives a from st, with P after it; or fails *)
    Definition gives {B} (m : M lstate B) (st : lstate) (pos : Z) (P : B -> lstate -> Prop) : Prop :=
      exists st', linv st' pos /\ ((exists a, m st = (Ok a, st') /\ P a st') \/ (faulty = true /\ m st = (Fail, st'))).
    Lemma gives_bind {B C} (m : M lstate B) (k : B -> M lstate C) st pos P Q : gives m st pos P ->
      (forall a st', linv st' pos -> P a st' -> gives (k a) st' pos Q) -> gives (bindM m k) st pos Q.
    Proof.
      intros (st' & I & [(a & E & H)|(F & E)]) K.
      - destruct (K a st' I H) as (st2 & I2 & D). exists st2. split; [exact I2|]. unfold bindM. rewrite E. exact D.
      - exists st'. split; [exact I|]. right. split; [exact F|]. unfold bindM. rewrite E. reflexivity.
    Qed.
    Lemma gives_on {B C} (r' r : res B) (k : B -> M lstate C) a st pos P : linv st pos -> due faulty r' r -> r = Ok a -> gives (k a) st pos P -> gives (onM r' k) st pos P.
    Proof.
      intros I [->|(F & ->)] -> H; [exact H|]. exists st. split; [exact I|]. right. auto.
    Qed.
    Lemma gives_ok {B} (m : M lstate B) st pos (P : B -> lstate -> Prop) a st' : linv st' pos -> m st = (Ok a, st') -> P a st' -> gives m st pos P.
    Proof. intros I E H. exists st'. split; [exact I|]. left. eauto. Qed.

    Lemma lget_attrs_ok st pos : linv st pos -> gives (lget_attrs id N) st pos (fun a st' => a = A /\ l_attrs st' = Some A /\
      l_header st' = l_header st /\ l_size st' = l_size st /\ l_link st' = l_link st).
    Proof.
      intros I. unfold gives, lget_attrs. destruct (li_attrs st pos I) as [E|E]; rewrite E; [|eapply gives_ok; [exact I|rewrite ?E; reflexivity|auto]].
      eapply (gives_on (let! l := nw_attrs N id in classify l (mk_fa l None None None)) (let! l := fs_attrs t id in classify l (mk_fa l None None None)) (fun a st => (Ok a, lset_attrs st a)) A); [exact I| |exact (ff_attrs _ _ _ _ _ _ _ _ FF)|].
      - apply due_bind; [apply HN|]. intros; apply due_refl.
      - eapply gives_ok; [|reflexivity|cbn; auto]. linv_auto I. destruct li_size0 as [?|(? & ? & ?)]; auto.
    Qed.
    Lemma lneed_size_ok st pos : linv st pos -> gives (lneed_size ctx id i N) st pos (fun a st' => a = len data /\
      l_header st' = hdr /\ l_size st' = len data /\ l_attrs st' = Some A).
    Proof.
      intros I. unfold gives, lneed_size. destruct (li_size st pos I) as [(E1 & E2)|(E1 & E2 & E3)]; rewrite E2.
      - rewrite Z.eqb_refl. apply (gives_bind _ _ _ _ (fun _ st' => l_header st' = hdr /\ l_size st' = len data /\ l_attrs st' = Some A)).
        + unfold gives, lget_data_size. rewrite E1. eapply gives_bind; [apply lget_attrs_ok, I|]. cbv beta. intros a st1 I1 (-> & A1 & _).
          pose proof (ff_header _ _ _ _ _ _ _ _ FF) as HH. pose proof (ff_size _ _ _ _ _ _ _ _ FF) as HZ. change (fe_inode e) with i in HZ. destruct (fa_comp A) as [x|].
          * eapply (gives_on _ (let! s := attr_source N0 x in let! d := read_all_now ctx N0 s 0 16 in read_compressed_header d) _ hdr); [exact I1| | |].
            -- apply due_bind; [apply attr_source_due, HN|]. intros s _. apply due_bind; [apply read_all_due, HN|]. intros; apply due_refl.
            -- rewrite <- HH. pose proof (read_all_eq x 0 16) as RE. clear - RE.
               assert (AS : forall B C D (r : res B) (f : B -> res C) (g : C -> res D), (let! x := r in let! y := f x in g y) = (let! y := (let! x := r in f x) in g y)) by (intros B C D [b| | |] f g; reflexivity).
               rewrite !AS, RE. reflexivity.
            -- apply (gives_ok _ _ _ _ tt (lset_size st1 hdr (len data))); [|rewrite <- HZ; clear; destruct hdr as [(m & z)|]; reflexivity|cbn; auto]. linv_auto I1.
          * apply (gives_ok _ _ _ _ tt (lset_size st1 hdr (len data))); [|rewrite <- HZ, HH; reflexivity|cbn; auto]. linv_auto I1.
        + cbv beta. intros _ st1 I1 (H1 & H2 & H3). eapply gives_ok; [exact I1|reflexivity|auto].
      - pose proof (len_nonneg data). pose proof (ff_len _ _ _ _ _ _ _ _ FF). unfold unset. replace (len data =? 2 ^ 64 - 1) with false by lia.
        eapply gives_ok; [exact I|reflexivity|auto].
    Qed.
    Lemma lget_extents_ok st pos : linv st pos -> gives (lget_extents i N) st pos (fun a st' => a = exts).
    Proof.
      intros I. unfold gives, lget_extents. destruct (li_extents st pos I) as [E|E]; rewrite E; [|eapply gives_ok; [exact I|rewrite ?E; reflexivity|auto]].
      eapply (gives_on (nw_extents N (in_stream i)) (fs_extents t (in_stream i)) (fun l st => (Ok l, lset_extents st l)) exts); [exact I|apply HN|exact (ff_extents _ _ _ _ _ _ _ _ FF)|].
      eapply gives_ok; [|reflexivity|cbn; auto]. linv_auto I.
    Qed.
    Lemma lset_body_inv st pos b o : linv st pos -> lbody_ok b -> 0 <= o -> linv (lset_body st b o) o.
    Proof. intros I Hb Ho. linv_auto I. right. eauto. Qed.
    Lemma lneed_stream_ok st pos : linv st pos -> gives (lneed_stream ctx id i N) st pos (fun b st' => lbody_ok b).
    Proof.
      intros I. unfold gives, lneed_stream. destruct (li_body st pos I) as [(E & ->)|(b & E & Hb)]; rewrite E; [|eapply gives_ok; [exact I|rewrite ?E; reflexivity|exact Hb]].
      unfold lget_stream. eapply gives_bind; [apply lneed_size_ok, I|]. cbv beta. intros a st1 I1 (-> & H1 & H2 & H3).
      pose proof (ff_body _ _ _ _ _ _ _ _ FF) as HB. pose proof (ff_size _ _ _ _ _ _ _ _ FF) as HZ. change (fe_inode e) with i in HB, HZ.
      pose proof (lget_extents_ok st1 0 I1) as GX. pose proof (ff_len _ _ _ _ _ _ _ _ FF) as HL. unfold gives. rewrite H1. destruct hdr as [(m & z)|].
      - destruct HB as (method & x & s & M1 & M2 & M3 & M4). pose proof (source_stream x) as SS. rewrite M3 in SS. destruct SS as (d & S1 & S2).
        eapply (gives_on _ (let! method := method_of m in
             let! a := match l_attrs st1 with
                       | None => Fail
                       | Some a => match (if (m =? 4) || (m =? 8) then fa_fork a else fa_comp a) with Some x => Ok x | None => Fail end
                       end in
             let! s := attr_source N0 a in
             match s with
             | None => Fail
             | Some d => let! _ := check (len data <? 2 ^ 63) in Ok (LPacked method d (len data) ch_init)
             end) _ (LPacked method d (len data) ch_init)); [exact I1| | |].
        + apply due_bind; [apply due_refl|]. intros mm _. apply due_bind; [apply due_refl|]. intros aa _. apply due_bind; [apply attr_source_due, HN|]. intros; apply due_refl.
        + rewrite M1, H3. cbn [bind]. rewrite M2. cbn [bind]. rewrite S1. cbn [bind]. replace (len data <? 2 ^ 63) with true by lia. reflexivity.
        + assert (Hb : lbody_ok (LPacked method d (len data) ch_init)).
          { split; [reflexivity|]. split.
            - intros ops Hops. rewrite (file_reads_ext _ (mk_src (st_size s) (DataRead.stream_read s))); [apply M4, Hops| |]; cbn [src_size src_read]; [apply size_now, S2|].
              intros o n. unfold read_now. rewrite S2. reflexivity.
            - exists [], ch_init. split; [constructor|]. split; [exists 0; reflexivity|reflexivity]. }
          eapply gives_ok; [apply (lset_body_inv st1 0); [exact I1|exact Hb|lia]|reflexivity|exact Hb].
      - destruct HB as (s & S1 & S2). eapply gives_bind; [exact GX|]. cbv beta. intros l st2 I2 ->.
        pose proof (made_stream exts (len data) (Z.testbit (in_flags i) 9)) as MS. change (fe_img e) with dev in S1. change (fe_ctx e) with ctx in S1. rewrite S1 in MS. destruct MS as (MS1 & MS2).
        eapply gives_on; [exact I2|apply due_refl|rewrite HZ; exact MS1|]. assert (Hb : lbody_ok (LPlain (Extents exts (len data) (Z.testbit (in_flags i) 9)))) by (exists s; auto).
        eapply gives_ok; [apply (lset_body_inv st2 0); [exact I2|exact Hb|lia]|reflexivity|exact Hb].
    Qed.

    Let F := mk_file data exts (len (fa_all A)) link.
    (* the answer of a call, and the position after it *)
    Definition may (c : fcall) (pos : Z) (r : res (fanswer * lstate)) : Prop :=
      exists st', r = Ok (fst (file_step F pos c), st') /\ linv st' (snd (file_step F pos c)) \/
        faulty = true /\ r = Ok (RError, st') /\ exists pos', linv st' pos' /\ (pos' = pos \/ exists n, c = CReadAt pos' n).
    Lemma answer_may {B} (f : B -> fanswer) (m : M lstate B) st pos P c : gives m st pos P ->
      (forall a st', P a st' -> file_step F pos c = (f a, pos)) -> may c pos (lanswer f m st).
    Proof.
      intros (st' & I & [(a & E & H)|(FA & E)]) K; exists st'; unfold lanswer; rewrite E.
      - left. rewrite (K a st' H). cbn [fst snd]. auto.
      - right. split; [exact FA|]. split; [reflexivity|]. exists pos. auto.
    Qed.
    Lemma lcall_ok c st pos : linv st pos -> may c pos (lcall lzvn junk ctx id i N c st).
    Proof.
      intros I. pose proof (li_pos _ _ I) as P0.
      assert (FAIL : forall B (m : M lstate B) f st1, faulty = true -> m st = (Fail, st1) -> linv st1 pos -> may c pos (lanswer f m st)).
      { intros B m f st1 FA E I1. exists st1. right. unfold lanswer. rewrite E. split; [exact FA|]. split; [reflexivity|]. exists pos. auto. }
      assert (READ : forall off o n, o = match off with Some x => x | None => pos end -> (c = CRead n /\ off = None \/ c = CReadAt o n /\ off = Some o) ->
        may c pos (lanswer RBytes (lread lzvn junk ctx id i N off n) st)).
      { intros off o n EO EC. destruct (lneed_stream_ok st pos I) as (st1 & I1 & [(b & G & Hb)|(FA & G)]); [|apply (FAIL _ _ RBytes st1 FA); [unfold lread, bindM; rewrite G; reflexivity|exact I1]].
        assert (FS : file_step F pos c = if (0 <=? o) && (0 <=? n) && (n <=? 2 ^ 63 - 1)
          then let d := slice data o (Z.min n (len data - o)) in (RBytes d, o + len d) else (RError, if 0 <=? o then o else pos)).
        { destruct EC as [(-> & ->)|(-> & ->)]; cbn [file_step]; rewrite ?EO; reflexivity. }
        unfold may. rewrite FS. unfold lanswer, lread. rewrite (bindM_ok _ _ _ _ _ G). rewrite (li_cur _ _ I1), <- EO. destruct (o <? 0) eqn:CO.
        - exists st1. left. replace (0 <=? o) with false by lia. cbn [andb fst snd]. auto.
        - destruct (lbody_read_ok b o n Hb ltac:(lia)) as (b' & Hb' & [->|(FA & ->)]).
          + unfold Compressed.stream_read. replace (0 <=? o) with true by lia. destruct (true && (0 <=? n) && (n <=? 2 ^ 63 - 1)); cbn [check bind fst snd].
            * eexists. left. split; [reflexivity|]. eapply lset_body_inv; eauto. pose proof (len_nonneg (slice data o (Z.min n (len data - o)))). lia.
            * eexists. left. split; [reflexivity|]. eapply lset_body_inv; eauto. lia.
          + eexists. right. split; [exact FA|]. split; [reflexivity|]. exists o. split; [eapply lset_body_inv; eauto; lia|].
            destruct EC as [(-> & ->)|(-> & ->)]; [left; exact EO|right; exists n; reflexivity]. }
      destruct c as [|n|o n|o w| | |j| |]; cbn [lcall].
      - eapply answer_may; [apply lneed_size_ok, I|]. intros a st' (-> & _). reflexivity.
      - apply (READ None pos n); auto.
      - apply (READ (Some o) o n); auto.
      - destruct (lneed_stream_ok st pos I) as (st1 & I1 & [(b & G & Hb)|(FA & G)]); [|apply (FAIL _ _ RPos st1 FA); [unfold lseek, bindM; rewrite G; reflexivity|exact I1]].
        unfold may, lanswer, lseek. rewrite (bindM_ok _ _ _ _ _ G). rewrite (li_cur _ _ I1), (lbody_size_ok b Hb). unfold file_step. cbn [fl_data F].
        destruct (if w =? 0 then Some 0 else if w =? 1 then Some pos else if w =? 2 then Some (len data) else None) as [x|]; [|exists st1; left; cbn [fst snd]; auto].
        destruct (x + o <? 0) eqn:C; cbn [fst snd]; [exists st1; left; auto|]. eexists. left. split; [reflexivity|]. eapply lset_body_inv; eauto. lia.
      - destruct (lneed_stream_ok st pos I) as (st1 & I1 & [(b & G & Hb)|(FA & G)]); [|apply (FAIL _ _ RPos st1 FA); [unfold loffset, bindM; rewrite G; reflexivity|exact I1]].
        exists st1. left. unfold lanswer, loffset. rewrite (bindM_ok _ _ _ _ _ G), (li_cur _ _ I1). cbn [file_step fst snd]. auto.
      - eapply answer_may; [eapply gives_bind; [apply lget_extents_ok, I|]|]; cbv beta.
        + intros l st1 I1 ->. eapply (gives_ok _ _ _ (fun a _ => a = len exts)); [exact I1|reflexivity|reflexivity].
        + intros a st1 ->. reflexivity.
      - destruct (lget_extents_ok st pos I) as (st1 & I1 & [(l & G & ->)|(FA & G)]); [|apply (FAIL _ _ (fun p => RExtent (fst p) (snd p)) st1 FA); [unfold lextent, bindM; rewrite G; reflexivity|exact I1]].
        exists st1. left. unfold lanswer, lextent. rewrite (bindM_ok _ _ _ _ _ G). cbn [file_step retM fst snd fl_extents F]. split; [|exact I1].
        pose proof (ff_blocks _ _ _ _ _ _ _ _ FF) as HXB. destruct (nth_error exts (Z.to_nat j)) as [x|] eqn:NE.
        + pose proof (nth_error_In _ _ NE) as IN. assert (LT : (Z.to_nat j < length exts)%nat) by (apply nth_error_Some; rewrite NE; discriminate).
          rewrite Forall_forall in HXB. pose proof (HXB x IN) as Hx. destruct (0 <=? j) eqn:CJ; cbn [andb].
          * assert (GE : getb exts j = Ok x).
            { unfold getb, len. replace ((0 <=? j) && (j <? Z.of_nat (length exts))) with true by lia. rewrite NE. reflexivity. }
            unfold len. replace (j <? Z.of_nat (length exts)) with true by lia. rewrite GE. cbn [bind fst snd retM]. unfold w64. rewrite Z.mod_small by lia. reflexivity.
          * reflexivity.
        + apply nth_error_None in NE. unfold len. replace ((0 <=? j) && (j <? Z.of_nat (length exts))) with false by lia. reflexivity.
      - eapply answer_may; [eapply gives_bind; [apply lget_attrs_ok, I|]|]; cbv beta.
        + intros l st1 I1 (-> & _). eapply (gives_ok _ _ _ (fun a _ => a = len (fa_all A))); [exact I1|reflexivity|reflexivity].
        + intros a st1 ->. reflexivity.
      - eapply (answer_may _ _ _ _ (fun a _ => a = link)); [|intros a st1 ->; reflexivity]. unfold gives, llink.
        destruct (li_link st pos I) as [E|(w & E & EL)]; rewrite E; [|eapply gives_ok; [exact I|reflexivity|symmetry; exact EL]].
        eapply gives_bind; [apply lget_attrs_ok, I|]. cbv beta. intros a st1 I1 (-> & _). pose proof (ff_link _ _ _ _ _ _ _ _ FF) as HK. destruct (fa_link A) as [x|].
        + destruct HK as (w & s & EL & Z1 & Z2 & Z3 & Z4).
          eapply (gives_on _ (let! _ := check (negb ((attr_size x =? 0) || (134217728 <? attr_size x))) in
               let! s := attr_source N0 x in read_all_now ctx N0 s 0 (attr_size x)) _ w); [exact I1| | |].
          * apply due_bind; [apply due_refl|]. intros _ _. apply due_bind; [apply attr_source_due, HN|]. intros s0 _. apply read_all_due, HN.
          * rewrite read_all_eq, Z1, Z3. replace (negb ((len w =? 0) || (134217728 <? len w))) with true by lia. cbn [check bind].
            rewrite (read_all_ok s w 0 (len w) Z4) by lia. rewrite slice_all by lia. reflexivity.
          * eapply gives_ok; [|reflexivity|symmetry; exact EL]. linv_auto I1. right. eauto.
        + eapply gives_ok; [exact I1|reflexivity|symmetry; exact HK].
    Qed.
  End Now.
  Lemma linv_init : linv l_init 0.
  Proof. constructor; cbn; auto. lia. Qed.
  Lemma lcalls_ok : forall (cs : list (bool * now * fcall)) st pos, linv st pos -> Forall (fun c => now_worse (fst (fst c)) (snd (fst c)) N0) cs ->
    exists l st' pos', lcalls lzvn junk ctx id i (map (fun c => (snd (fst c), snd c)) cs) st = Ok (l, st') /\
      history (mk_file data exts (len (fa_all A)) link) pos (map (fun c => (fst (fst c), snd c)) cs) l /\ linv st' pos'.
  Proof.
    induction cs as [|((fy & N) & c) cs IH]; intros st pos I HF; cbn [map lcalls fst snd]; [exists [], st, pos; split; [reflexivity|split; [constructor|exact I]]|].
    destruct (lcall_ok fy N (Forall_inv HF) c st pos I) as (st1 & [(E & I1)|(FA & E & pos1 & I1 & D)]); rewrite E; cbn [bind].
    - destruct (IH st1 _ I1 (Forall_inv_tail HF)) as (l & st2 & pos2 & E2 & H2 & I2). rewrite E2. cbn [bind]. eexists _, st2, pos2. split; [reflexivity|]. split; [|exact I2].
      eapply h_answer; [apply surjective_pairing|exact H2].
    - destruct (IH st1 _ I1 (Forall_inv_tail HF)) as (l & st2 & pos2 & E2 & H2 & I2). rewrite E2. cbn [bind]. eexists _, st2, pos2. split; [reflexivity|]. split; [|exact I2].
      subst fy. eapply h_error; [exact D|exact (li_pos _ _ I1)|exact H2].
  Qed.
End Entry.
