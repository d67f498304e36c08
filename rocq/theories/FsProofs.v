(* File system tree traversals: safety, termination, independence of the caches. *)
From Verif Require Import Base BaseLemmas At BTree BTreeSpec BTreeProofs Walk WalkProofs Omap OmapProofs Records RecordsProofs FsTree.
Ltac Zify.zify_post_hook ::= Z.div_mod_to_equations.

Definition entry_bytes (e : bentry) : Prop := bytes (fst e) /\ bytes (snd e).

Section Fine.
  Variable img : image.
  Hypothesis HI : bytes_image img.

  Lemma fs_load_root_fine b : fine (fs_load_root img b).
  Proof.
    unfold fs_load_root. apply fine_bind; [apply read_block_fine|]. intros d Hd.
    apply fine_bind; [apply node_fine; eapply read_block_bytes; eauto|]. intros n Hn.
    destruct (bn_type n =? 0); [exact I|].
    fine_step; [fine_step|]. fine_step; [fine_step|]. fine_step; [fine_step|].
    apply check_ok in H1. apply andb_prop in H1. destruct H1 as (H1 & _).
    destruct (bn_footer n) eqn:E; [|exfalso; eapply node_footer; eauto].
    repeat fine_step.
  Qed.
  Lemma fs_load_sub_fine b : fine (fs_load_sub img b).
  Proof.
    unfold fs_load_sub. apply fine_bind; [apply read_block_fine|]. intros d Hd.
    apply fine_bind; [apply node_fine; eapply read_block_bytes; eauto|]. intros n Hn. repeat fine_step.
  Qed.
  Lemma fs_load_root_ok b n : fs_load_root img b = Ok (Some n) ->
    exists d, img b = Some d /\ read_node d = Ok n /\ (bn_type n = 2 \/ bn_type n = 0x10000002).
  Proof.
    unfold fs_load_root, read_block. intros H. apply bind_ok in H. destruct H as (d & Hd & H).
    apply bind_ok in H. destruct H as (m & Hm & H). destruct (bn_type m =? 0); [discriminate|].
    apply bind_ok in H. destruct H as ([] & C1 & H).
    apply check_ok in C1.
    apply bind_ok in H. destruct H as (? & _ & H). apply bind_ok in H. destruct H as (? & _ & H).
    destruct (bn_footer m); [|discriminate].
    apply bind_ok in H. destruct H as (? & _ & H). apply bind_ok in H. destruct H as (? & _ & H). apply bind_ok in H. destruct H as (? & _ & H).
    injection H as <-. exists d. destruct (img b); [|discriminate]. injection Hd as <-. repeat split; auto. lia.
  Qed.
  Lemma fs_load_sub_ok b n : fs_load_sub img b = Ok n ->
    exists d, img b = Some d /\ read_node d = Ok n.
  Proof.
    unfold fs_load_sub, read_block. intros H. apply bind_ok in H. destruct H as (d & Hd & H).
    apply bind_ok in H. destruct H as (m & Hm & H). apply bind_ok in H. destruct H as ([] & C1 & H).
    apply bind_ok in H. destruct H as (? & _ & H). apply bind_ok in H. destruct H as (? & _ & H).
    injection H as <-. exists d. destruct (img b); [|discriminate]. injection Hd as <-. auto.
  Qed.
  Lemma fs_disjoint b n : fs_load_root img b = Ok (Some n) -> fs_load_sub img b = Fail.
  Proof.
    intros H. apply fs_load_root_ok in H. destruct H as (d & H1 & H2 & H3).
    unfold fs_load_sub, read_block. rewrite H1. cbn [bind]. rewrite H2. cbn [bind].
    destruct H3 as [-> | ->]; reflexivity.
  Qed.
End Fine.

Lemma fs_child_fine e : fine (fs_child e).
Proof.
  unfold fs_child. destruct e as [e|]; [|exact I]. fine_step; [fine_step|]. apply check_ok in H.
  apply fine_rd_le; lia.
Qed.
Lemma fs_word_fine e : fine (fs_word e).
Proof. unfold fs_word. fine_step; [fine_step|]. apply check_ok in H. apply fine_rd_le; lia. Qed.

Lemma fs_leaf_find_fine look es : fine (fs_leaf_find look es).
Proof.
  induction es as [|e es IH]; cbn [fs_leaf_find]; [exact I|]. fine_step; [apply fs_word_fine|].
  destruct (_ =? _); [exact I|auto].
Qed.
Lemma fs_branch_find_fine id ty es : forall p, fine (fs_branch_find id ty p es).
Proof.
  induction es as [|e es IH]; intros p; cbn [fs_branch_find]; [exact I|]. fine_step; [apply fs_word_fine|].
  destruct (_ <=? _); [exact I|auto].
Qed.

(* what traversals need: nothing but the leaf and plan functions being fine on nodes of bytes *)
Definition fine_walker {A} (w : walker A) : Prop :=
  forall n, Forall entry_bytes (bn_entries n) -> fine (wk_leaf w n) /\ Forall fine (wk_plan w n).

Lemma fs_id_walker_fine id ty : fine_walker (fs_id_walker id ty).
Proof.
  intros n _. cbn. split; [apply fs_leaf_find_fine|]. constructor; [|constructor].
  fine_step; [apply fs_branch_find_fine|apply fs_child_fine].
Qed.
Lemma enum_leaf_fine {A} (parse : bentry -> res A) look id es :
  (forall e, entry_bytes e -> fine (parse e)) -> Forall entry_bytes es -> fine (enum_leaf parse look id es).
Proof.
  intros HP. induction 1 as [|e es H H1 IH]; cbn [enum_leaf]; [exact I|]. fine_step; [apply fs_word_fine|].
  destruct (_ <? _); [exact I|]. destruct (_ =? _); [|auto]. fine_step; [auto|]. fine_step; [auto|exact I].
Qed.
Lemma enum_plan_fine more ty id es : (forall e, fine (more e)) -> forall p, Forall fine (enum_plan more ty id p es).
Proof.
  intros HM. induction es as [|e es IH]; intros p; cbn [enum_plan].
  - constructor; [apply fs_child_fine|constructor].
  - pose proof (fs_word_fine e) as F. destruct (fs_word e) as [k| | |]; cbn in F; try contradiction; [|repeat constructor].
    destruct (_ || _); [constructor; [apply fs_child_fine|constructor]|].
    destruct (_ && _); [|auto]. pose proof (HM e) as F'. destruct (more e) as [m| | |]; cbn in F'; try contradiction; [|repeat constructor].
    destruct p as [p|]; [|auto]. destruct m; [|auto]. constructor; [apply fs_child_fine|auto].
Qed.
Lemma enum_walker_fine {A} (parse : bentry -> res A) more ty id :
  (forall e, entry_bytes e -> fine (parse e)) -> (forall e, fine (more e)) -> fine_walker (enum_walker parse more ty id).
Proof. intros HP HM n HN. cbn. split; [apply enum_leaf_fine; auto|apply enum_plan_fine; auto]. Qed.

Lemma read_inode_fine e : entry_bytes e -> fine (read_inode e).
Proof.
  intros (H1 & H2). unfold read_inode. fine_step; [apply inode_key_safe|]. fine_step; [apply inode_value_safe; auto|exact I].
Qed.
Lemma read_dentry_fine e : entry_bytes e -> fine (read_dentry e).
Proof.
  intros (H1 & H2). unfold read_dentry. fine_step; [apply dir_key_safe; auto|]. destruct x.
  fine_step; [apply dir_value_safe; auto|]. destruct x. exact I.
Qed.
Lemma read_attr_fine e : entry_bytes e -> fine (read_attr e).
Proof.
  intros (H1 & H2). unfold read_attr. fine_step; [apply attr_key_safe; auto|].
  fine_step; [apply attr_value_safe; auto|]. destruct x0. exact I.
Qed.
Lemma read_extent_fine e : entry_bytes e -> fine (read_extent e).
Proof.
  intros (H1 & H2). unfold read_extent. fine_step; [apply extent_key_safe|].
  fine_step; [apply extent_value_safe|]. destruct x0 as [[? ?] ?]. exact I.
Qed.
Lemma not_first_fine e : fine (not_first e).
Proof. unfold not_first. fine_step; [fine_step|]. apply check_ok in H. fine_step; [apply fine_rd_le; lia|exact I]. Qed.
Lemma dir_walker_fine id : fine_walker (dir_walker id).
Proof. apply enum_walker_fine; [apply read_dentry_fine|intros; exact I]. Qed.
Lemma attr_walker_fine id : fine_walker (attr_walker id).
Proof. apply enum_walker_fine; [apply read_attr_fine|intros; exact I]. Qed.
Lemma extent_walker_fine id : fine_walker (extent_walker id).
Proof. apply enum_walker_fine; [apply read_extent_fine|apply not_first_fine]. Qed.

Section Walks.
  Variable t : fs.
  Hypothesis HF : bytes_image (fs_img t).
  Hypothesis HO : bytes_image (fs_omap t).

  Lemma fs_root_fine : fine (fs_root t).
  Proof. unfold fs_root. destruct (_ <? _); [exact I|apply fs_load_root_fine; auto]. Qed.
  Lemma fs_sub_fine o : fine (fs_sub t o).
  Proof.
    unfold fs_sub. fine_step; [apply omap_lookup_fine; auto|]. destruct x as [d|]; [|exact I].
    destruct (_ <? _); [exact I|apply fs_load_sub_fine; auto].
  Qed.
  Lemma fs_root_entries n : fs_root t = Ok (Some n) -> Forall entry_bytes (bn_entries n).
  Proof.
    unfold fs_root. destruct (_ <? _); [discriminate|]. intros H. apply fs_load_root_ok in H.
    destruct H as (d & H1 & H2 & _). eapply node_entries_bytes; [|eauto]. eapply HF; eauto.
  Qed.
  Lemma fs_sub_entries o n : fs_sub t o = Ok n -> Forall entry_bytes (bn_entries n).
  Proof.
    unfold fs_sub. intros H. apply bind_ok in H. destruct H as ([d|] & _ & H); [|discriminate].
    destruct (_ <? _); [discriminate|]. apply fs_load_sub_ok in H.
    destruct H as (dd & H1 & H2). eapply node_entries_bytes; [|eauto]. eapply HF; eauto.
  Qed.

  Theorem fs_walk_fine {A} (w : walker A) : fine_walker w -> fine (fs_walk t w).
  Proof.
    intros HW. unfold fs_walk. apply walk_pure_fine; [apply fs_root_fine|apply fs_sub_fine| |];
      intros; apply HW; [apply fs_root_entries|eapply fs_sub_entries]; eauto.
  Qed.
  Lemma fs_leaf_find_in look es e : fs_leaf_find look es = Ok (Some e) -> In e es.
  Proof.
    induction es as [|x es IH]; cbn [fs_leaf_find]; [discriminate|]. intros H. apply bind_ok in H. destruct H as (k & _ & H).
    destruct (_ =? _); [injection H as ->; left; auto|right; auto].
  Qed.
  Lemma fs_id_bytes id ty e : fs_walk t (fs_id_walker id ty) = Ok (Some e) -> entry_bytes e.
  Proof.
    intros H. unfold fs_walk in H.
    apply (walk_all _ (fs_sub t) (fs_id_walker id ty) (fun n => Forall entry_bytes (bn_entries n))
      (fun a => match a with Some e => entry_bytes e | None => True end)) in H; auto.
    - exact fs_sub_entries.
    - intros n [x|] HG HL; [|exact I]. cbn in HL. apply fs_leaf_find_in in HL. rewrite Forall_forall in HG. auto.
    - cbn. auto.
    - apply fs_root_entries.
  Qed.
  Lemma inode_finish_fine r : (forall e, r = Some e -> entry_bytes e) -> fine (inode_finish r).
  Proof. intros H. destruct r as [e|]; [|exact I]. cbn. fine_step; [apply read_inode_fine; auto|exact I]. Qed.
  Lemma fs_inode_fine id : fine (fs_inode t id).
  Proof.
    unfold fs_inode. fine_step; [apply fs_walk_fine, fs_id_walker_fine|]. apply inode_finish_fine. intros e ->.
    eapply fs_id_bytes; eauto.
  Qed.

  Section History.
    Variables (P Q : Type).
    Variables (evp : P -> list (Z * bnode) -> Z -> P * list (Z * bnode)).
    Variables (evq : Q -> list (Z * bnode) -> Z -> Q * list (Z * bnode)).
    Hypothesis Hevp : forall p l b, incl (snd (evp p l b)) l.
    Hypothesis Hevq : forall p l b, incl (snd (evq p l b)) l.

    Definition fs_inv (s : caches P Q) : Prop :=
      consistent (fs_load_root (fs_img t) (fs_rb t)) (fs_load_sub (fs_img t)) (fs_rb t) P (fst s) /\
      consistent (omap_load_root (fs_omap t) (fs_orb t)) (omap_load_sub (fs_omap t)) (fs_orb t) Q (snd s).

    Theorem fs_walk_agree {A} (w : walker A) s : fine_walker w -> fs_inv s ->
      fs_inv (snd (fs_walk_cached P Q evp evq t w s)) /\
      fst (fs_walk_cached P Q evp evq t w s) = fs_walk t w.
    Proof.
      intros HW HS. unfold fs_walk_cached, fs_walk.
      apply (walk_agree_gen (caches P Q) A (fs_root_cached P Q evp t) (fs_sub_cached P Q evp evq t) (fs_root t) (fs_sub t) fs_inv w); auto.
      - apply fs_root_fine.
      - apply fs_sub_fine.
      - intros [cf co] (C1 & C2). cbn [fst snd] in *. unfold fs_root_cached. cbn [fst snd].
        destruct (cached_root_agree (fs_load_root (fs_img t) (fs_rb t)) (fs_load_sub (fs_img t)) (fs_rb t) P evp Hevp (fun n => fs_disjoint (fs_img t) (fs_rb t) n) (fs_load_root_fine _ HF _) cf C1) as (C1' & E).
        destruct (cached_root _ _ _ _ cf) as [r cf']. cbn [fst snd] in *. split; [split; auto|]. exact E.
      - intros rn HR o [cf co] (C1 & C2). cbn [fst snd] in *. unfold fs_sub_cached. cbn [fst snd].
        destruct (omap_cached_agree (fs_omap t) HO (fs_orb t) Q evq Hevq o (fs_txn t) co C2) as (C2' & E).
        destruct (omap_lookup_cached _ _ _ _ _ co) as [r co']. cbn [fst snd] in *. unfold fs_sub. rewrite <- E.
        destruct r as [[d|]| | |]; cbn [bind fst snd]; try (split; [split; auto|auto]; fail).
        destruct (cached_sub_agree (fs_load_root (fs_img t) (fs_rb t)) (fs_load_sub (fs_img t)) (fs_rb t) P evp Hevp
          (fun n => fs_disjoint (fs_img t) (fs_rb t) n) (fs_load_sub_fine _ HF) rn HR (od_address d) cf C1) as (C1' & E1).
        destruct (cached_sub _ _ _ _ cf) as [r cf']. cbn [fst snd] in *. split; [split; auto|]. exact E1.
      - intros. apply HW. apply fs_root_entries; auto.
      - intros. apply HW. eapply fs_sub_entries; eauto.
    Qed.
  End History.
End Walks.

(* ---- sessions: any sequence of queries through one handle ---- *)

Inductive query := QInode (id : Z) | QDir (id : Z) | QAttrs (id : Z) | QExtents (id : Z).
Inductive answer := AInode (i : option (Z * inode)) | ADir (l : list dentry) | AAttrs (l : list attr) | AExtents (l : list extent).
Definition ask (t : fs) (q : query) : res answer :=
  match q with
  | QInode id => let! r := fs_inode t id in Ok (AInode r)
  | QDir id => let! r := fs_dir t id in Ok (ADir r)
  | QAttrs id => let! r := fs_attrs t id in Ok (AAttrs r)
  | QExtents id => let! r := fs_extents t id in Ok (AExtents r)
  end.
Section Session.
  Variables (P Q : Type).
  Variables (evp : P -> list (Z * bnode) -> Z -> P * list (Z * bnode)).
  Variables (evq : Q -> list (Z * bnode) -> Z -> Q * list (Z * bnode)).
  Definition ask_cached (t : fs) (q : query) : M (caches P Q) answer :=
    match q with
    | QInode id => bindM (fs_walk_cached P Q evp evq t (fs_id_walker id 3))
        (fun r => retM (let! r := inode_finish r in Ok (AInode r)))
    | QDir id => bindM (fs_walk_cached P Q evp evq t (dir_walker id)) (fun r => retM (Ok (ADir r)))
    | QAttrs id => bindM (fs_walk_cached P Q evp evq t (attr_walker id)) (fun r => retM (Ok (AAttrs r)))
    | QExtents id => bindM (fs_walk_cached P Q evp evq t (extent_walker id)) (fun r => retM (Ok (AExtents r)))
    end.
  Fixpoint fs_session (t : fs) (qs : list query) (s : caches P Q) : list (res answer) :=
    match qs with
    | [] => []
    | q :: qs => let (r, s) := ask_cached t q s in r :: fs_session t qs s
    end.

  Hypothesis Hevp : forall p l b, incl (snd (evp p l b)) l.
  Hypothesis Hevq : forall p l b, incl (snd (evq p l b)) l.
  Variable t : fs.
  Hypothesis HF : bytes_image (fs_img t).
  Hypothesis HO : bytes_image (fs_omap t).

  Lemma bind_agree {A} (w : walker A) (f : A -> res answer) s : fine_walker w -> fs_inv t P Q s ->
    fs_inv t P Q (snd (bindM (fs_walk_cached P Q evp evq t w) (fun r => retM (f r)) s)) /\
    fst (bindM (fs_walk_cached P Q evp evq t w) (fun r => retM (f r)) s) = bind (fs_walk t w) f.
  Proof.
    intros HW HS. destruct (fs_walk_agree t HF HO P Q evp evq Hevp Hevq w s HW HS) as (C & E). unfold bindM.
    destruct (fs_walk_cached P Q evp evq t w s) as [r s']. cbn [fst snd] in *. rewrite <- E. destruct r; cbn; auto.
  Qed.
  Lemma ask_agree q s : fs_inv t P Q s -> fs_inv t P Q (snd (ask_cached t q s)) /\ fst (ask_cached t q s) = ask t q.
  Proof.
    intros HS. destruct q as [id|id|id|id]; cbn [ask_cached ask].
    - destruct (bind_agree (fs_id_walker id 3) (fun r => let! r := inode_finish r in Ok (AInode r)) s (fs_id_walker_fine id 3) HS) as (H1 & H2).
      split; [exact H1|]. rewrite H2. unfold fs_inode. destruct (fs_walk t (fs_id_walker id 3)); reflexivity.
    - apply (bind_agree (dir_walker id) (fun r => Ok (ADir r)) s (dir_walker_fine id) HS).
    - apply (bind_agree (attr_walker id) (fun r => Ok (AAttrs r)) s (attr_walker_fine id) HS).
    - apply (bind_agree (extent_walker id) (fun r => Ok (AExtents r)) s (extent_walker_fine id) HS).
  Qed.
  Theorem fs_session_pure p q qs : fs_session t qs ((p, []), (q, [])) = map (ask t) qs.
  Proof.
    assert (HC : fs_inv t P Q ((p, []), (q, []))) by (split; intros b n []). revert HC. generalize ((p, @nil (Z * bnode)), (q, @nil (Z * bnode))) as c.
    induction qs as [|x qs IH]; intros c HC; [reflexivity|]. cbn [fs_session map].
    destruct (ask_agree x c HC) as (HC' & E). destruct (ask_cached t x c) as [r c'].
    cbn [fst snd] in *. subst r. f_equal. apply IH; auto.
  Qed.
  Lemma ask_fine x : fine (ask t x).
  Proof.
    destruct x; cbn [ask]; (fine_step; [|exact I]).
    - apply fs_inode_fine; auto.
    - apply fs_walk_fine; auto. apply dir_walker_fine.
    - apply fs_walk_fine; auto. apply attr_walker_fine.
    - apply fs_walk_fine; auto. apply extent_walker_fine.
  Qed.
End Session.
