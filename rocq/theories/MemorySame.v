(* The functions of Memory.v give what those of FsName.v and FileEntry.v give. *)
From Verif Require Import Base BaseLemmas BTree BTreeProofs Walk Omap OmapProofs Records FsTree Name FsName FsNameProofs Crypt DataRead Compressed.
From Verif Require Import FileEntry Snapshot VolumeSuper ExtAttr Memory SafeUse.
From Coq Require Import Lia.

Lemma free_ok b h : fst (free b h) = Ok tt.
Proof. unfold free. destruct (take_out b (h_live h)); reflexivity. Qed.
Lemma frees_ok : forall l h, fst (frees l h) = Ok tt.
Proof.
  induction l as [|b l IH]; intros h; [reflexivity|]. cbn [frees]. unfold bindM. pose proof (free_ok b h) as E. destruct (free b h) as [r h']. cbn [fst] in E. subst r. apply IH.
Qed.

(* ---- names and paths ---- *)
Definition mapr {A B} (f : A -> B) (r : res A) : res B := match r with Ok a => Ok (f a) | Fail => Fail | Oob => Oob | Fuel => Fuel end.
Definition sim {A B} (f : A -> B) (m : M heap A) (r : res B) : Prop := forall h, mapr f (fst (m h)) = r.
Lemma sim_ret {A B} (f : A -> B) (r : res A) r' : mapr f r = r' -> sim f (retM r) r'.
Proof. intros E h. exact E. Qed.
Lemma sim_bind {A B C D} (f : A -> B) (g : C -> D) (m : M heap A) r (k : A -> M heap C) k' :
  sim f m r -> (forall a, sim g (k a) (k' (f a))) -> sim g (bindM m k) (bind r k').
Proof.
  intros H1 H2 h. specialize (H1 h). unfold bindM. destruct (m h) as [[a| | |] h1]; cbn [fst mapr] in *; subst r; cbn [bind]; auto. apply H2.
Qed.
Lemma sim_on {A C D} (g : C -> D) (r : res A) (k : A -> M heap C) k' : (forall a, sim g (k a) (k' a)) -> sim g (onM r k) (bind r k').
Proof. intros H h. unfold onM, bindM, retM. destruct r; cbn; auto. apply H. Qed.
Lemma sim_try {A C D} (g : C -> D) (r : res A) clean (k : A -> M heap C) k' : (forall a, sim g (k a) (k' a)) -> sim g (bindM (orelse (retM r) clean) k) (bind r k').
Proof. intros H h. unfold bindM, orelse, retM. destruct r; cbn; auto. apply H. Qed.
Lemma sim_alloc {C D} (g : C -> D) k (f : block -> M heap C) r : (forall b, sim g (f b) r) -> sim g (bindM (alloc k) f) r.
Proof. intros H h. unfold bindM, alloc. apply H. Qed.
Lemma sim_free {C D} (g : C -> D) b (f : unit -> M heap C) r : sim g (f tt) r -> sim g (bindM (free b) f) r.
Proof. intros H h. unfold bindM. pose proof (free_ok b h) as E. destruct (free b h) as [x h']. cbn [fst] in E. subst x. apply H. Qed.
Lemma sim_frees {C D} (g : C -> D) l (f : unit -> M heap C) r : sim g (f tt) r -> sim g (bindM (frees l) f) r.
Proof. intros H h. unfold bindM. pose proof (frees_ok l h) as E. destruct (frees l h) as [x h']. cbn [fst] in E. subst x. apply H. Qed.

Definition plain_rec (r : option (block * dentry)) : option dentry := option_map snd r.
Lemma name_leaf_sim cmp look : forall es, sim plain_rec (name_leaf_m cmp look es) (name_leaf cmp look es).
Proof.
  induction es as [|e es IH]; cbn [name_leaf_m name_leaf]; [apply sim_ret; reflexivity|]. apply sim_on. intros k. destruct (k =? look); [|exact IH].
  apply sim_alloc. intros b h. unfold bindM, orelse, retM.
  destruct (dir_key (fst e)) as [p| | |]; cbn [bind]; try reflexivity. destruct (cmp p) as [c| | |]; cbn [bind]; try reflexivity.
  destruct c; try (pose proof (free_ok b h) as E; destruct (free b h) as [x h']; cbn [fst] in E; subst x; apply IH).
  destruct (dir_value (snd e)) as [[i a]| | |]; reflexivity.
Qed.
Lemma name_branch_sim cmp id : forall es prev, sim (fun x => x) (name_branch_m cmp id prev es) (name_branch cmp id prev es).
Proof.
  induction es as [|e es IH]; intros prev; cbn [name_branch_m name_branch]; [apply sim_ret; reflexivity|]. apply sim_on. intros k.
  destruct (_ || _); [apply sim_ret; reflexivity|]. destruct (_ && _); [|apply IH]. apply sim_alloc. intros b.
  assert (X : forall (r : res comparison) , (let! p := dir_key (fst e) in let! c := cmp p in match c with Lt => Ok prev | _ => name_branch cmp id (Some e) es end) =
    (let! c := (let! p := dir_key (fst e) in cmp p) in match c with Lt => Ok prev | _ => name_branch cmp id (Some e) es end)).
  { intros _. destruct (dir_key (fst e)); reflexivity. }
  rewrite (X Fail). apply sim_try. intros c. apply sim_free. destruct c; try apply IH. apply sim_ret. reflexivity.
Qed.
Lemma find_sim t leaf branch id : forall fuel depth n,
  sim plain_rec (find_m t leaf branch id fuel depth n) (fst (visit (pure (fs_sub t)) (name_walker leaf branch id) fuel depth n tt)).
Proof.
  induction fuel as [|fuel IH]; intros depth n; cbn [find_m visit]; [apply sim_ret; reflexivity|]. cbn [name_walker wk_lim wk_leaf wk_plan wk_start wk_join].
  destruct (is_leaf n); [destruct (257 <? depth); [apply sim_ret; reflexivity|apply name_leaf_sim]|]. destruct (max_depth <? depth); [apply sim_ret; reflexivity|].
  cbn [visit_children]. rewrite bind_fst. cbn [retM fst].
  assert (X : forall (A B C : Type) (r : res A) (f : A -> res B) (g : B -> res C), bind (bind r f) g = bind r (fun a => bind (f a) g)) by (intros A B C r f g; destruct r; reflexivity).
  rewrite X. apply (sim_bind (fun x => x)); [apply name_branch_sim|]. intros e. apply sim_on. intros c. rewrite bind_fst. unfold pure at 1. rewrite bind_fst. cbn [retM fst]. rewrite X.
  apply sim_on. intros m h. rewrite (IH (depth + 1) m h). destruct (fst (visit _ _ fuel (depth + 1) m tt)); reflexivity.
Qed.
Definition plain_loop (r : option (Z * option (block * dentry))) : option (Z * option dentry) := option_map (fun p => (fst p, plain_rec (snd p))) r.
Lemma path_loop_sim t next fold n : forall fuel id rec str,
  sim plain_loop (path_loop_m t next fold n fuel id rec str) (fst (path_loop unit (pure (fs_sub t)) next fold n fuel id (plain_rec rec) str tt)).
Proof.
  induction fuel as [|fuel IH]; intros id rec str; (destruct str as [|c str]; [apply sim_ret; reflexivity|]); cbn [path_loop_m path_loop]; [apply sim_ret; reflexivity|].
  remember (c :: str) as l. clear Heql. rewrite bind_fst. cbn [retM fst]. apply sim_try. intros [s r]. cbn [fst snd]. destruct s as [|x s]; [apply sim_ret; reflexivity|].
  rewrite bind_fst. unfold find_record. rewrite bind_fst. cbn [retM fst].
  assert (X : forall (A B C : Type) (r : res A) (f : A -> res B) (g : B -> res C), bind (bind r f) g = bind r (fun a => bind (f a) g)) by (intros A B C r0 f g; destruct r0; reflexivity).
  rewrite X. apply sim_try. intros hash. apply sim_frees. eapply (sim_bind plain_rec); [apply find_sim|]. intros [[b d]|]; [|apply sim_ret; reflexivity].
  apply (IH (de_inode d) (Some (b, d)) r).
Qed.
Definition plain_found (r : option (block * (Z * inode) * option (block * dentry))) : option (Z * inode * option dentry) :=
  option_map (fun p => (snd (fst p), plain_rec (snd p))) r.
Lemma inode_by_path_sim t next fold id str : sim plain_found (inode_by_path_m t next fold id str) (fs_by_path t next fold id str).
Proof.
  unfold inode_by_path_m, fs_by_path, inode_by_path. rewrite bind_fst. cbn [retM fst]. apply sim_on. intros [n|]; [|apply sim_ret; reflexivity].
  rewrite bind_fst. apply (sim_bind plain_loop).
  - destruct (_ || _); [apply sim_ret; reflexivity|]. apply (path_loop_sim t next fold n (length str) id None).
  - intros [[i d]|]; [|apply sim_ret; reflexivity]. cbn [plain_loop option_map fst snd]. rewrite bind_fst. unfold entry_of. fold (fs_walk t (fs_id_walker i 3)).
    intros h. unfold bindM, orelse, retM. destruct (fs_walk t (fs_id_walker i 3)) as [[e|]| | |]; cbn [bind fst alloc]; try reflexivity.
    destruct (read_inode e); reflexivity.
Qed.
Definition plain_entry (r : option (fentry * list block)) : option fentry := option_map fst r.
Definition entry_at (t : fs) (img : image) (ctx : option (list Z -> list Z -> list Z)) (r : option (Z * inode * option dentry)) : option fentry :=
  option_map (fun p => mk_fe t img ctx (fst (fst p)) (snd (fst p)) (snd p)) r.
Lemma by_path_sim t img ctx next fold id str :
  sim plain_entry (by_path_m t img ctx next fold id str) (let! r := fs_by_path t next fold id str in Ok (entry_at t img ctx r)).
Proof.
  unfold by_path_m. apply (sim_bind plain_found); [apply inode_by_path_sim|]. intros [[[b [i v]] d]|]; [|apply sim_ret; reflexivity].
  intros h. unfold bindM, alloc, retM. cbn. destruct d as [[b' d]|]; reflexivity.
Qed.

(* ---- file entries ---- *)
Definition er {A} (p : res A * mst) : res A * fstate := (fst p, m_st (snd p)).
Definition ref {A} (m : M mst A) (n : M fstate A) : Prop := forall s, er (m s) = n (m_st s).
Lemma ref_bind {A B} (m : M mst A) n (f : A -> M mst B) g : ref m n -> (forall a, ref (f a) (g a)) -> ref (bindM m f) (bindM n g).
Proof.
  intros H1 H2 s. specialize (H1 s). unfold bindM. destruct (m s) as [[a| | |] s1]; cbn [er fst snd] in H1; rewrite <- H1; auto. apply H2.
Qed.
Lemma ref_ret {A} (r : res A) : ref (retM r) (retM r).
Proof. intros s. reflexivity. Qed.
Lemma clear_er get set s : er (clearfield get set s) = (Ok tt, m_st s).
Proof. unfold clearfield, bindM, onheap. pose proof (frees_ok (get (m_own s)) (m_heap s)) as E. destruct (frees (get (m_own s)) (m_heap s)) as [r h]. cbn [fst] in E. subst r. reflexivity. Qed.
Lemma frees_er l s : er (onheap (frees l) s) = (Ok tt, m_st s).
Proof. unfold onheap. pose proof (frees_ok l (m_heap s)) as E. destruct (frees l (m_heap s)) as [r h]. cbn [fst] in E. subst r. reflexivity. Qed.
(* a part that changes no value of the entry *)
Definition quiet {A} (m : M mst A) : Prop := forall s, exists a, er (m s) = (Ok a, m_st s).
Lemma quiet_new k set : quiet (newfield k set).
Proof. intros s. eexists. reflexivity. Qed.
Lemma quiet_clear get set : quiet (clearfield get set).
Proof. intros s. exists tt. apply clear_er. Qed.
Lemma quiet_frees l : quiet (onheap (frees l)).
Proof. intros s. exists tt. apply frees_er. Qed.
Lemma quiet_alloc k : quiet (onheap (alloc k)).
Proof. intros s. eexists. reflexivity. Qed.
Lemma quiet_bind {A} (m : M mst A) (k : A -> M mst unit) : quiet m -> (forall a, quiet (k a)) -> quiet (bindM m k).
Proof. intros H1 H2 s. destruct (H1 s) as (a & E). unfold bindM. destruct (m s) as [r s1]. unfold er in E. cbn [fst snd] in E. injection E as -> E. destruct (H2 a s1) as (b & E2). exists b. rewrite E2, E. reflexivity. Qed.
Lemma ref_quiet {A B} (m : M mst A) (f : A -> M mst B) n : quiet m -> (forall a, ref (f a) n) -> ref (bindM m f) n.
Proof.
  intros H1 H2 s. destruct (H1 s) as (a & E). unfold bindM. destruct (m s) as [r s1]. unfold er in E. cbn [fst snd] in E. injection E as -> E. rewrite <- E. apply H2.
Qed.
Lemma ref_try {A B} (r : res A) (c : M mst unit) (f : A -> M mst B) g : quiet c -> (forall a, ref (f a) (g a)) -> ref (bindM (orelse (retM r) c) f) (onM r g).
Proof.
  intros HC H s. unfold bindM, orelse, retM, onM, bindM, retM. destruct r as [a| | |]; try reflexivity; [apply H|].
  destruct (HC s) as (x & E). unfold er in E |- *. cbn [fst snd] in *. injection E as _ ->. reflexivity.
Qed.
Lemma ref_on {A B} (r : res A) (f : A -> M mst B) g : (forall a, ref (f a) (g a)) -> ref (onM r f) (onM r g).
Proof. intros H s. unfold onM, bindM, retM. destruct r; try reflexivity. apply H. Qed.
Lemma ref_set f (A : Type) (a : A) : ref (bindM (setst f) (fun _ => retM (Ok a))) (fun st => (Ok a, f st)).
Proof. intros s. reflexivity. Qed.
Lemma ref_set1 f : ref (setst f) (fun st => (Ok tt, f st)).
Proof. intros s. reflexivity. Qed.
Lemma ref_getst {B} (f : fstate -> M mst B) n : (forall s, er (f (m_st s) s) = n (m_st s)) -> ref (bindM getst f) n.
Proof. intros H s. unfold bindM, getst. apply H. Qed.
Lemma onM_assoc {S A B C} (r : res A) (f : A -> res B) (g : B -> M S C) s : onM (let! a := r in f a) g s = onM r (fun a => onM (f a) g) s.
Proof. unfold onM, bindM, retM. destruct r; reflexivity. Qed.

Section Entry.
  Variable e : fentry.
  Hypothesis HS : forall x, fine (attr_stream e x).

  Lemma attrs_ref : ref (get_attrs_m e) (get_attrs e).
  Proof.
    apply ref_getst. intros s. unfold get_attrs. destruct (f_attrs (m_st s)); [reflexivity|].
    apply (ref_quiet (newfield KAttrs own_attrs) _ (onM (let! l := fs_attrs (fe_tree e) (fe_id e) in classify l (mk_fa l None None None)) (fun a st => (Ok a, set_attrs st a)))); [apply quiet_new|].
    intros b. apply ref_try; [apply quiet_clear|]. intros a. apply ref_set.
  Qed.
  Lemma extents_ref : ref (get_extents_m e) (get_extents e).
  Proof.
    apply ref_getst. intros s. unfold get_extents. destruct (f_extents (m_st s)); [reflexivity|].
    apply (ref_quiet (newfield KExtents own_ext) _ (onM (fs_extents (fe_tree e) (in_stream (fe_inode e))) (fun a st => (Ok a, set_extents st a)))); [apply quiet_new|].
    intros b. apply ref_try; [apply quiet_clear|]. intros a. apply ref_set.
  Qed.
  Lemma dir_ref : ref (get_dir_m e) (get_dir e).
  Proof.
    apply ref_getst. intros s. unfold get_dir. destruct (f_dir (m_st s)); [reflexivity|].
    apply (ref_quiet (newfield KDir own_dir) _ (onM (fs_dir (fe_tree e) (fe_id e)) (fun a st => (Ok a, set_dir st a)))); [apply quiet_new|].
    intros b. apply ref_try; [apply quiet_clear|]. intros a. apply ref_set.
  Qed.
  (* the stream of an attribute *)
  Lemma stream_ref {B} x (f : option (block * stream) -> M mst B) g :
    (forall o, ref (f o) (g (option_map snd o))) -> ref (bindM (onheap (stream_m e x)) f) (onM (attr_stream e x) g).
  Proof.
    intros H s. unfold bindM at 1, onheap, stream_m, onM, bindM, retM. destruct (attr_stream e x) as [[d|]| | |]; try reflexivity.
    - cbn [alloc]. apply (H (Some ((KStream, h_next (m_heap s)), d)) (mk_mst (mk_heap (h_next (m_heap s) + 1) ((KStream, h_next (m_heap s)) :: h_live (m_heap s)) (h_bad (m_heap s))) (m_own s) (m_st s))).
    - apply (H None (mk_mst (m_heap s) (m_own s) (m_st s))).
  Qed.
  Lemma ref_ext {A} (m : M mst A) n n' : (forall st, n st = n' st) -> ref m n -> ref m n'.
  Proof. intros E H s. rewrite <- E. apply H. Qed.

  Lemma data_size_ref : ref (get_data_size_m e) (get_data_size e).
  Proof.
    apply ref_getst. intros s. unfold get_data_size. destruct (f_header (m_st s)); [reflexivity|]. apply ref_bind; [apply attrs_ref|]. intros a.
    destruct (fa_comp a) as [x|]; [|apply ref_set1].
    eapply ref_ext; [intros st; symmetry; apply onM_assoc|]. apply stream_ref. intros o. eapply ref_ext; [intros st; symmetry; apply onM_assoc|].
    apply (ref_bind (retM (read_all (option_map snd o) 0 16)) (retM (read_all (option_map snd o) 0 16))); [apply ref_ret|]. intros d.
    apply ref_quiet; [apply quiet_frees|]. intros u. apply ref_quiet; [apply quiet_new|]. intros b. apply ref_try; [apply quiet_clear|]. intros [[m z]|].
    - apply ref_set1.
    - apply ref_quiet; [apply quiet_clear|]. intros v. apply ref_set1.
  Qed.
  Lemma need_size_ref : ref (need_size_m e) (need_size e).
  Proof.
    apply ref_getst. intros s. unfold need_size. destruct (_ =? _); [|reflexivity].
    apply (ref_bind (get_data_size_m e) (get_data_size e) _ (fun _ st => (Ok (f_size st), st))); [apply data_size_ref|]. intros u. intros s1. reflexivity.
  Qed.
  Lemma data_stream_ref : ref (get_data_stream_m e) (get_data_stream e).
  Proof.
    unfold get_data_stream_m, get_data_stream. apply ref_bind; [apply need_size_ref|]. intros size. apply ref_getst. intros s.
    destruct (f_header (m_st s)) as [[m z]|].
    - set (ra := match f_attrs (m_st s) with None => Fail | Some a => match (if (m =? 4) || (m =? 8) then fa_fork a else fa_comp a) with Some x => Ok x | None => Fail end end).
      assert (FA : fine ra) by (unfold ra; destruct (f_attrs (m_st s)) as [a|]; [|exact I]; destruct (if (m =? 4) || (m =? 8) then fa_fork a else fa_comp a); exact I).
      unfold onM, bindM, retM.
      destruct (method_of m) as [method| | |] eqn:EM.
      + assert (SW : switch_method m = true).
        { unfold switch_method. unfold method_of in EM. destruct ((m =? 3) || (m =? 4)) eqn:E1; [reflexivity|]. destruct (m =? 5) eqn:E2; [rewrite ?Bool.orb_true_r; reflexivity|].
          destruct ((m =? 7) || (m =? 8)) eqn:E3; [|discriminate]. apply Bool.orb_true_iff in E3. destruct E3 as [-> | ->]; rewrite ?Bool.orb_true_r; reflexivity. }
        rewrite SW. cbn [check bind]. destruct ra as [x| | |]; cbn [bind]; try reflexivity.
        unfold onheap, stream_m, onM, bindM, retM. destruct (attr_stream e x) as [[d|]| | |]; cbn [bind alloc]; try reflexivity.
        cbn [m_st m_heap m_own]. destruct (check (size <? 2 ^ 63)); reflexivity.
      + cbn [bind]. destruct (check (switch_method m)) as [[]| | |] eqn:EC; try reflexivity; try (unfold check in EC; destruct (switch_method m); discriminate).
        destruct ra as [x| | |]; try reflexivity; try contradiction. pose proof (HS x) as FS.
        unfold onheap, stream_m, onM, bindM, retM. destruct (attr_stream e x) as [[d|]| | |]; cbn [alloc]; try reflexivity; contradiction.
      + unfold method_of in EM. repeat (match type of EM with (if ?c then _ else _) = _ => destruct c end; try discriminate).
      + unfold method_of in EM. repeat (match type of EM with (if ?c then _ else _) = _ => destruct c end; try discriminate).
    - apply (ref_bind (get_extents_m e) (get_extents e) _ (fun l => onM (stream_of_extents (fe_img e) (fe_ctx e) l (in_size (fe_inode e)) (Z.testbit (in_flags (fe_inode e)) 9)) (fun s st => (Ok tt, set_body st (Plain s) 0)))); [apply extents_ref|].
      intros l. apply ref_on. intros d. apply ref_quiet; [apply quiet_new|]. intros b. apply ref_set1.
  Qed.
  Lemma need_stream_ref : ref (need_stream_m e) (need_stream e).
  Proof.
    apply ref_getst. intros s. unfold need_stream. destruct (f_body (m_st s)); [reflexivity|].
    apply (ref_bind (get_data_stream_m e) (get_data_stream e) _ (fun _ st => (match f_body st with Some b => Ok b | None => Fail end, st))); [apply data_stream_ref|].
    intros u s1. reflexivity.
  Qed.
  Lemma link_ref : ref (entry_link_m e) (entry_link e).
  Proof.
    apply ref_getst. intros s. unfold entry_link. destruct (f_link (m_st s)); [reflexivity|]. apply ref_bind; [apply attrs_ref|]. intros a.
    destruct (fa_link a) as [x|]; [|apply ref_ret]. eapply ref_ext; [intros st; symmetry; apply onM_assoc|]. apply ref_on. intros u.
    eapply ref_ext; [intros st; symmetry; apply onM_assoc|]. apply ref_quiet; [apply quiet_new|]. intros b.
    assert (X : forall f, ref (bindM (orelse (onheap (stream_m e x)) (clearfield o_link own_link)) f) (onM (attr_stream e x) (fun s => onM (read_all s 0 (attr_size x)) (fun v st => (Ok (Some v), set_link st v)))) <-> 
                          ref (bindM (onheap (stream_m e x)) f) (onM (attr_stream e x) (fun s => onM (read_all s 0 (attr_size x)) (fun v st => (Ok (Some v), set_link st v))))).
    { intros f. assert (Y : forall s1, er (bindM (orelse (onheap (stream_m e x)) (clearfield o_link own_link)) f s1) = er (bindM (onheap (stream_m e x)) f s1)).
      { intros s1. unfold bindM, orelse. assert (ST : m_st (snd (onheap (stream_m e x) s1)) = m_st s1) by (unfold onheap; destruct (stream_m e x (m_heap s1)); reflexivity).
        destruct (onheap (stream_m e x) s1) as [[o| | |] s2]; try reflexivity. unfold er. cbn [fst snd] in *.
        pose proof (clear_er o_link own_link s2) as C. unfold er in C. injection C as _ C. rewrite C. reflexivity. }
      split; intros H s1; [rewrite <- Y|rewrite Y]; apply H. }
    apply X. apply stream_ref. intros o. apply ref_try; [apply quiet_bind; [apply quiet_frees|intros; apply quiet_clear]|]. intros v.
    apply ref_quiet; [apply quiet_frees|]. intros w. apply ref_set.
  Qed.

  Lemma onst_ref {A B} (m : M mst A) (n : M fstate A) (k : M fstate B) :
    ref m n -> (forall st, bindM n (fun _ => k) st = k st) -> ref (bindM m (fun _ => onst k)) k.
  Proof.
    intros H1 H2 s. rewrite <- H2. apply (ref_bind m n (fun _ => onst k) (fun _ => k) H1). intros _ s1. unfold onst. destruct (k (m_st s1)); reflexivity.
  Qed.
  Lemma need_twice st : match need_stream e st with (Ok b, st') => need_stream e st' = (Ok b, st') | _ => True end.
  Proof.
    unfold need_stream at 1. destruct (f_body st) as [b|] eqn:E; [unfold need_stream; rewrite E; reflexivity|]. unfold bindM. destruct (get_data_stream e st) as [[u| | |] st1]; auto.
    destruct (f_body st1) as [b|] eqn:E1; [|exact I]. unfold need_stream. rewrite E1. reflexivity.
  Qed.
  Lemma twice {B} (k : body -> M fstate B) st : bindM (need_stream e) (fun _ => bindM (need_stream e) k) st = bindM (need_stream e) k st.
  Proof. unfold bindM. pose proof (need_twice st) as H. destruct (need_stream e st) as [[b| | |] st1]; try reflexivity. rewrite H. reflexivity. Qed.
  Lemma extents_twice {B} (k : list extent -> M fstate B) st : bindM (get_extents e) (fun _ => bindM (get_extents e) k) st = bindM (get_extents e) k st.
  Proof.
    unfold bindM. assert (X : match get_extents e st with (Ok l, st1) => get_extents e st1 = (Ok l, st1) | _ => True end).
    { unfold get_extents at 1. destruct (f_extents st) as [l|] eqn:E; [unfold get_extents; rewrite E; reflexivity|]. unfold onM, bindM, retM. destruct (fs_extents (fe_tree e) (in_stream (fe_inode e))); auto. }
    destruct (get_extents e st) as [[l| | |] st1]; try reflexivity. rewrite X. reflexivity.
  Qed.
  Lemma answer_ref {A} (f : A -> fanswer) m n s : ref m n ->
    match answer_of f n (m_st s) with Ok (a, st) => exists s', answer_m f m s = Ok (a, s') /\ m_st s' = st | Fail => answer_m f m s = Fail | Oob => answer_m f m s = Oob | Fuel => answer_m f m s = Fuel end.
  Proof.
    intros H. specialize (H s). unfold answer_of, answer_m. rewrite <- H. unfold er. destruct (m s) as [[a| | |] s']; cbn [fst snd]; eauto.
  Qed.
  Lemma call_ref lzvn junk c s :
    match entry_call lzvn junk e c (m_st s) with
    | Ok (a, st) => exists s', entry_call_m lzvn junk e c s = Ok (a, s') /\ m_st s' = st
    | Fail => entry_call_m lzvn junk e c s = Fail
    | Oob => entry_call_m lzvn junk e c s = Oob
    | Fuel => entry_call_m lzvn junk e c s = Fuel
    end.
  Proof.
    destruct c; cbn [entry_call entry_call_m]; apply answer_ref.
    - apply need_size_ref.
    - apply (onst_ref _ (need_stream e)); [apply need_stream_ref|apply twice].
    - apply (onst_ref _ (need_stream e)); [apply need_stream_ref|apply twice].
    - apply (onst_ref _ (need_stream e)); [apply need_stream_ref|apply twice].
    - apply (onst_ref _ (need_stream e)); [apply need_stream_ref|apply twice].
    - apply ref_bind; [apply extents_ref|]. intros l. apply ref_ret.
    - apply (onst_ref _ (get_extents e)); [apply extents_ref|apply extents_twice].
    - apply ref_bind; [apply attrs_ref|]. intros l. apply ref_ret.
    - apply link_ref.
  Qed.
  Lemma sub_ref i s : mapr fst (fst (entry_sub_m e i s)) = fst (entry_sub e i (m_st s)) /\ m_st (snd (entry_sub_m e i s)) = snd (entry_sub e i (m_st s)).
  Proof.
    unfold entry_sub_m, entry_sub, bindM. pose proof (dir_ref s) as H. unfold er in H. destruct (get_dir_m e s) as [[l| | |] s1]; cbn [fst snd] in H; rewrite <- H; auto.
    unfold onM, bindM, retM. match goal with |- context [match ?x with Ok _ => _ | _ => _ end] => destruct x as [x0| | |] end; auto.
  Qed.
End Entry.
