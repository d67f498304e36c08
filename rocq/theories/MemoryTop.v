(* Proofs about the blocks of whole programs. *)
From Verif Require Import Base BaseLemmas NameSpec BTree Walk Omap Records FsTree Name FsName Crypt DataRead Compressed.
From Verif Require Import FileEntry Snapshot VolumeSuper ExtAttr Memory MemorySpec MemoryProofs MemoryEntry PropName PropFsName NameProofs.
From Coq Require Import Lia Permutation.

(* ---- paths without empty components ---- *)
Section Clean.
  Variables (next : list Z -> res (Z * list Z)) (enc : Z -> list Z).
  Hypothesis Hnext : forall c r, scalar c -> next (enc c ++ r) = Ok (c, r).
  Hypothesis Hne : forall c, enc c <> [].
  Hypothesis Hsep : enc 47 = [47].
  Hypothesis Hother : forall c, scalar c -> c <> 47 -> hd 0 (enc c) <> 47.
  Notation encs s := (concat (map enc s)).
  Lemma first_slash : forall p, (exists a b, p = a ++ 47 :: b /\ ~ In 47 a) \/ ~ In 47 p.
  Proof.
    induction p as [|c p IH]; [right; intros []|]. destruct (Z.eq_dec c 47) as [->|N]; [left; exists [], p; split; [reflexivity|intros []]|].
    destruct IH as [(a & b & -> & NI)|NI].
    - left. exists (c :: a), b. split; [reflexivity|]. intros [X|X]; [congruence|auto].
    - right. intros [X|X]; [congruence|auto].
  Qed.
  Lemma clean_encs : forall n p, (length p <= n)%nat -> file_name p -> (forall a b, p <> a ++ 47 :: 47 :: b) -> hd 0 p <> 47 -> clean next (encs p).
  Proof.
    induction n as [|n IH]; intros p HL HF HN HH.
    { destruct p; [constructor|cbn in HL; lia]. }
    destruct p as [|c p]; [constructor|]. destruct (first_slash (c :: p)) as [(a & b & E & NI)|NI].
    - rewrite E in *. assert (HA : a <> []) by (intros ->; cbn in HH; congruence).
      assert (FA : file_name a) by (apply Forall_app in HF; apply HF). assert (FB : file_name b) by (apply Forall_app in HF; destruct HF as [_ HF]; apply Forall_inv_tail in HF; exact HF).
      eapply clean_more with (s := encs a) (r := encs b).
      + apply (segment_first next enc Hnext Hne Hsep Hother a b); auto. rewrite (encs_app enc), (encs_cons enc), Hsep, !app_length. cbn [length]. lia.
      + intros X. apply HA. exact (encs_nil enc Hne _ X).
      + apply IH; auto.
        * rewrite app_length in HL. cbn [length] in HL. destruct a; [congruence|cbn [length] in HL; lia].
        * intros a' b' ->. apply (HN (a ++ 47 :: a') b'). rewrite <- app_assoc. reflexivity.
        * destruct b as [|x b]; [cbn; lia|]. cbn. intros ->. apply (HN a b). reflexivity.
    - eapply clean_more with (s := encs (c :: p)) (r := []).
      + apply (segment_last' next enc Hnext Hne Hother (c :: p)); auto. discriminate.
      + intros X. apply (encs_nil enc Hne) in X. discriminate.
      + constructor.
  Qed.
  Lemma clean_tail p : file_name p -> (forall a b, p <> a ++ 47 :: 47 :: b) -> clean next (tail_of (encs p)).
  Proof.
    intros HF HN. destruct p as [|c p]; [constructor|]. destruct (Z.eq_dec c 47) as [->|N].
    - rewrite (encs_cons enc), Hsep. cbn [app tail_of]. apply (clean_encs (length p)); auto.
      + apply Forall_inv_tail in HF. exact HF.
      + intros a b ->. apply (HN (47 :: a) b). reflexivity.
      + destruct p as [|x p]; [cbn; lia|]. cbn. intros ->. apply (HN [] p). reflexivity.
    - assert (T : tail_of (encs (c :: p)) = encs (c :: p)).
      { rewrite (encs_cons enc). pose proof (Hother c ltac:(apply Forall_inv in HF; apply HF) N) as H1. pose proof (Hne c) as H2.
        destruct (enc c) as [|x l]; [congruence|]. cbn [hd app] in *. unfold tail_of. destruct x as [|q|q]; try reflexivity; repeat (destruct q as [q|q|]; try reflexivity); congruence. }
      rewrite T. apply (clean_encs (length (c :: p))); auto.
  Qed.
End Clean.

Lemma plain_clean u str : plain_path u str -> clean (next_of u) (tail_of str).
Proof.
  intros (p & HF & HN & ->). destruct u.
  - apply (clean_tail utf16_next utf16_char utf16_char_next utf16_char_nonempty eq_refl utf16_sep p HF HN).
  - apply (clean_tail utf8_next utf8_char utf8_char_next utf8_char_nonempty eq_refl utf8_sep p HF HN).
Qed.

(* ---- attributes ---- *)
Lemma classify_comp : forall l a0 a, classify l a0 = Ok a -> fa_comp a = fa_comp a0 \/ exists x, In x l /\ una_equal utf8_next decmpfs_key (at_name x) = Ok true.
Proof.
  induction l as [|x l IH]; intros a0 a H; cbn [classify] in H; [injection H as <-; auto|].
  apply bind_ok in H. destruct H as (c & EC & H). destruct c; [right; exists x; split; [left; reflexivity|exact EC]|].
  apply bind_ok in H. destruct H as (f & _ & H). destruct f.
  - destruct (IH _ _ H) as [E|(y & Y1 & Y2)]; [left; exact E|right; exists y; split; [right; exact Y1|exact Y2]].
  - apply bind_ok in H. destruct H as (sy & _ & H). destruct sy; (destruct (IH _ _ H) as [E|(y & Y1 & Y2)]; [left; exact E|right; exists y; split; [right; exact Y1|exact Y2]]).
Qed.
Lemma inode_range e i v : read_inode e = Ok (i, v) -> 0 <= i < 2 ^ 60.
Proof.
  unfold read_inode, inode_key. intros H. apply bind_ok in H. destruct H as (k & EK & H). apply bind_ok in H. destruct H as (y & _ & H). injection H as <- _.
  apply bind_ok in EK. destruct EK as (_ & _ & EK). apply bind_ok in EK. destruct EK as (w & _ & EK). injection EK as <-.
  change 1152921504606846975 with (Z.ones 60). rewrite Z.land_ones by lia. apply Z.mod_pos_bound. lia.
Qed.
Lemma fs_inode_range t id i v : fs_inode t id = Ok (Some (i, v)) -> 0 <= i < 2 ^ 60.
Proof.
  unfold fs_inode, inode_finish. intros H. apply bind_ok in H. destruct H as ([e|] & _ & H); [|discriminate]. apply bind_ok in H. destruct H as ([j y] & E & H). injection H as <- <-.
  eapply inode_range; exact E.
Qed.
Lemma orelse_run {S A} (m : M S A) c s a s' : orelse m c s = (Ok a, s') -> m s = (Ok a, s').
Proof. unfold orelse. destruct (m s) as [[x| | |] s1]; intros H; congruence. Qed.
Lemma by_path_range t next fold id str h b i w d h' : inode_by_path_m t next fold id str h = (Ok (Some (b, (i, w), d)), h') -> 0 <= i < 2 ^ 60.
Proof.
  unfold inode_by_path_m. intros H. apply onM_run in H. destruct H as ([n|] & _ & H); [|discriminate]. apply bindM_run in H. destruct H as ([[j d0]|] & h1 & _ & H); [|discriminate].
  apply bindM_run in H. destruct H as (e & h2 & _ & H). apply bindM_run in H. destruct H as (b1 & h3 & _ & H). apply bindM_run in H. destruct H as (y & h4 & E & H).
  injection H as _ -> _ _. apply orelse_run in E. injection E as E _. eapply inode_range; exact E.
Qed.
Definition entry_in (t : fs) (e : fentry) : Prop := fe_tree e = t /\ 0 <= fe_id e < 2 ^ 60.
Lemma no_compressed_entry t e : no_compressed t -> entry_in t e -> uncompressed e.
Proof.
  intros H (ET & EI) l a HA HC. rewrite ET in HA. destruct (classify_comp _ _ _ HC) as [E|(x & X1 & X2)]; [exact E|]. exfalso. exact (H _ _ _ EI HA X1 X2).
Qed.

(* ---- programs ---- *)
Lemma put_cnt b o : forall l k x, nth_error l k = Some x ->
  cnt b (flat_map owned_by (put_obj k o l)) + cnt b (owned_by x) = cnt b (flat_map owned_by l) + cnt b (owned_by o).
Proof.
  induction l as [|y l IH]; intros [|k] x H; cbn [nth_error] in H; try discriminate; cbn [put_obj flat_map]; rewrite !cnt_app.
  - injection H as ->. lia.
  - specialize (IH k x H). lia.
Qed.
Lemma put_Forall (P : obj -> Prop) o : forall l k, P o -> Forall P l -> Forall P (put_obj k o l).
Proof. induction l as [|y l IH]; intros [|k] HO H; cbn [put_obj]; inversion H; subst; constructor; auto. Qed.
Lemma nth_Forall (P : obj -> Prop) : forall l k x, Forall P l -> nth_error l k = Some x -> P x.
Proof. intros l k x H E. eapply Forall_forall; [exact H|]. eapply nth_error_In; exact E. Qed.
Lemma flat_map_new f x : forall l : list obj, @flat_map obj block f (l ++ [x]) = flat_map f l ++ f x.
Proof. intros l. rewrite flat_map_app. cbn. rewrite app_nil_r. reflexivity. Qed.

(* the data stream of an extended attribute object stays *)
Lemma x_answer_keeps {A} (f : A -> xanswer) (m : M xstate A) st r st' : x_stream (snd (m st)) <> None -> x_answer f m st = Ok (r, st') -> x_stream st' <> None.
Proof. unfold x_answer. destruct (m st) as [[a| | |] s1]; cbn [snd]; intros H E; try discriminate; injection E as _ <-; exact H. Qed.
Lemma x_call_keeps e a c st r st' : x_stream st <> None -> x_call e a c st = Ok (r, st') -> x_stream st' <> None.
Proof.
  intros H. assert (NE : x_need e a st = (Ok tt, st)) by (unfold x_need; destruct (x_stream st); [reflexivity|congruence]).
  destruct c; cbn [x_call]; apply x_answer_keeps; try exact H; unfold x_read, x_seek, x_offset, x_count, x_extent, bindM; rewrite NE; cbn [snd]; try exact H.
  - destruct (x_stream st) as [d|] eqn:E; [|congruence]. destruct (_ <? 0); [cbn [snd]; congruence|]. destruct (DataRead.stream_read _ _ _); cbn [snd x_stream]; congruence.
  - destruct (x_stream st) as [d|] eqn:E; [|congruence]. destruct (_ <? 0); [cbn [snd]; congruence|]. destruct (DataRead.stream_read _ _ _); cbn [snd x_stream]; congruence.
  - destruct (x_stream st) as [d|] eqn:E; [|congruence].
    match goal with |- context [match ?x with Some _ => _ | None => _ end] => destruct x as [x0|] end; [|cbn [snd]; congruence]. destruct (_ <? 0); cbn [snd x_stream]; congruence.
Qed.

Section Program.
  Variable lzvn : list Z -> Z -> res (list Z).
  Variable junk : list Z -> list Z -> list Z.
  Variables (t : fs) (img : image) (ctx : option (list Z -> list Z -> list Z)) (fold : bool) (v : open_volume).

  Definition obj_ok (o : obj) : Prop :=
    match o with
    | OEntry e o st => entry_in t e /\ einv e o st
    | OAttr e _ _ s x => entry_in t e /\ (x_stream x = None -> s = [])
    | OSnap _ _ | OFreed => True
    end.
  (* the objects own what is live, but for what is lost and what was there *)
  Definition pinv (cs : list pcall) (base : list block) (p : prog) : Prop :=
    Forall obj_ok (p_objs p) /\ exists lost, Forall (lost_for t cs) lost /\ holds (p_heap p) (flat_map owned_by (p_objs p) ++ lost ++ base).

  Lemma start_ok l e : entry_in t e -> obj_ok (OEntry e (start_owns l) f_init).
  Proof. intros E. split; [exact E|]. split; [repeat split; auto|]. split; [intros a H; discriminate|intros H; cbn in H; congruence]. Qed.
  Lemma owned_start l : owned (start_owns l) = l.
  Proof. unfold owned, start_owns. cbn. apply app_nil_r. Qed.
  Lemma lost_stream_for cs e : entry_in t e -> forall b, lost_stream e b -> lost_for t cs b.
  Proof. intros ET b [K N]. unfold lost_for. rewrite K. intros C. apply N. eapply no_compressed_entry; [exact C|exact ET]. Qed.
  Lemma lost_record_for cs c u str : In c cs -> asks_path c u str -> forall b, lost_record (~ clean (next_of u) (tail_of str)) b -> lost_for t cs b.
  Proof. intros HI HA b [K N]. unfold lost_for. rewrite K. exists c, u, str. split; [exact HI|]. split; [exact HA|]. intros P. apply N. apply plain_clean. exact P. Qed.

  Lemma new_entry_inv (L : block -> Prop) cs base p m a p' : pinv cs base p -> tr L [] m new_post -> (forall b, L b -> lost_for t cs b) ->
    (forall h e l h', m h = (Ok (Some (e, l)), h') -> entry_in t e) -> new_entry p m = Ok (a, p') -> pinv cs base p'.
  Proof.
    intros (OK & lost & X & H) T W TR. unfold new_entry. specialize (T _ _ H). destruct (m (p_heap p)) as [[[[e l]|]| | |] h] eqn:E; intros EQ; try discriminate; injection EQ as _ <-;
      cbn [ends new_post] in T; destruct T as (lost' & X' & Y'); unfold pinv; cbn [p_objs p_heap].
    - split; [apply Forall_app; split; [exact OK|constructor; [apply start_ok; eapply TR; exact E|constructor]]|].
      exists (lost' ++ lost). split; [apply Forall_app; split; [eapply Forall_impl; [|exact X']; exact W|exact X]|]. rewrite flat_map_new. cbn [owned_by]. rewrite owned_start.
      eapply holds_same; [|exact Y']. count.
    - split; [exact OK|]. exists (lost' ++ lost). split; [apply Forall_app; split; [eapply Forall_impl; [|exact X']; exact W|exact X]|]. eapply holds_same; [|exact Y']. count.
    - split; [exact OK|]. exists (lost' ++ lost). split; [apply Forall_app; split; [eapply Forall_impl; [|exact X']; exact W|exact X]|]. eapply holds_same; [|exact Y']. count.
  Qed.
  Lemma by_path_tree t' img' ctx' next fold' id str h e l h' : by_path_m t' img' ctx' next fold' id str h = (Ok (Some (e, l)), h') -> entry_in t' e.
  Proof.
    unfold by_path_m. intros H. apply bindM_run in H. destruct H as ([[[b [i w]] d]|] & h1 & EI & H); [|discriminate]. apply bindM_run in H. destruct H as (c & h2 & _ & H).
    injection H as <- _ _. split; [reflexivity|]. cbn [fe_id]. eapply by_path_range; exact EI.
  Qed.
  Lemma by_id_tree id h e l h' : by_id_m t img ctx id h = (Ok (Some (e, l)), h') -> entry_in t e.
  Proof.
    unfold by_id_m. intros H. apply onM_run in H. destruct H as ([[i w]|] & EI & H); [|discriminate]. apply bindM_run in H. destruct H as (b & h1 & _ & H).
    apply bindM_run in H. destruct H as (c & h2 & _ & H). injection H as <- _ _. split; [reflexivity|]. cbn [fe_id]. eapply fs_inode_range; exact EI.
  Qed.
  Lemma parent_tree e0 h e l h' : parent_m e0 h = (Ok (Some (e, l)), h') -> entry_in (fe_tree e0) e.
  Proof.
    unfold parent_m. intros H. apply onM_run in H. destruct H as ([x|] & E & H); [|discriminate]. apply bindM_run in H. destruct H as (b & h1 & _ & H).
    apply bindM_run in H. destruct H as (c & h2 & _ & H). injection H as <- _ _. unfold entry_parent in E. destruct (2 <? fe_id e0); [|discriminate].
    apply bind_ok in E. destruct E as ([[id w]|] & EI & E); [|discriminate]. injection E as <-. split; [reflexivity|]. cbn [fe_id]. eapply fs_inode_range; exact EI.
  Qed.

  Lemma sub_in e0 i s x l s' : entry_sub_m e0 i s = (Ok (x, l), s') -> entry_in (fe_tree e0) x.
  Proof.
    unfold entry_sub_m. intros H. apply bindM_run in H. destruct H as (d & s1 & _ & H). apply onM_run in H. destruct H as (y & EY & H).
    apply bindM_run in H. destruct H as (b1 & s2 & _ & H). apply bindM_run in H. destruct H as (b2 & s3 & _ & H). apply bindM_run in H. destruct H as (b3 & s4 & _ & H).
    injection H as <- _ _. destruct (_ && _); [|discriminate]. apply bind_ok in EY. destruct EY as (q & _ & EY). apply bind_ok in EY. destruct EY as ([[id w]|] & EI & EY); [|discriminate].
    injection EY as <-. split; [reflexivity|]. cbn [fe_id]. eapply fs_inode_range; exact EI.
  Qed.

  (* a call on entry k that gives back its blocks, and those of a new object *)
  Lemma entry_inv cs base p k e o st (s : mst) extra lost0 new : Forall obj_ok (p_objs p) -> nth_error (p_objs p) k = Some (OEntry e o st) ->
    Forall (lost_for t cs) lost0 -> einv e (m_own s) (m_st s) -> entry_in t e ->
    holds (m_heap s) (owned (m_own s) ++ extra ++ lost0 ++ base) ->
    (forall b, cnt b extra + cnt b (owned o) = cnt b (flat_map owned_by (p_objs p)) + cnt b (flat_map owned_by new)) -> Forall obj_ok new ->
    pinv cs base (mk_prog (m_heap s) (put_obj k (OEntry e (m_own s) (m_st s)) (p_objs p) ++ new)).
  Proof.
    intros OK N X I ET H E FN. split; cbn [p_objs p_heap].
    - apply Forall_app. split; [|exact FN]. apply put_Forall; [split; assumption|exact OK].
    - exists lost0. split; [exact X|]. eapply holds_same; [|exact H]. intros b. specialize (E b). pose proof (put_cnt b (OEntry e (m_own s) (m_st s)) _ _ _ N) as C. cbn [owned_by] in C.
      rewrite flat_map_app, !cnt_app. lia.
  Qed.
  (* the blocks of the entry in front *)
  Lemma front p k x lost base : nth_error (p_objs p) k = Some x -> holds (p_heap p) (flat_map owned_by (p_objs p) ++ lost ++ base) ->
    holds (p_heap p) (owned_by x ++ flat_map owned_by (put_obj k OFreed (p_objs p)) ++ lost ++ base).
  Proof.
    intros N H. eapply holds_same; [|exact H]. intros b. pose proof (put_cnt b OFreed _ _ _ N) as C. cbn [owned_by cnt] in C. rewrite !cnt_app. lia.
  Qed.

  Lemma new_attr_inv cs base p k e o st m a p' : pinv cs base p -> nth_error (p_objs p) k = Some (OEntry e o st) -> new_attr p k e o st m = Ok (a, p') -> pinv cs base p'.
  Proof.
    intros (OK & lost & X & H) N. destruct (nth_Forall _ _ _ _ OK N) as [ET I]. pose proof (front _ _ _ _ _ N H) as HF. cbn [owned_by] in HF. unfold new_attr.
    pose proof (attr_makes e m (mk_mst (p_heap p) o st) _ I HF) as R.
    destruct (bindM (get_attrs_m e) _ (mk_mst (p_heap p) o st)) as [[[[x b]|]| | |] s]; intros E; try discriminate; injection E as _ <-; destruct R as (I' & l' & X' & H'); cbn [attr_blocks] in *.
    - eapply (entry_inv cs base p k e o st s ([b] ++ flat_map owned_by (put_obj k OFreed (p_objs p))) (l' ++ lost)); eauto.
      + apply Forall_app. split; [eapply Forall_impl; [apply (lost_stream_for cs e ET)|exact X']|exact X].
      + eapply holds_same; [|exact H']. count.
      + intros z. pose proof (put_cnt z OFreed _ _ _ N) as C. cbn [owned_by cnt flat_map app] in *. lia.
      + constructor; [|constructor]. split; [exact ET|reflexivity].
    - rewrite <- (app_nil_r (put_obj _ _ _)). eapply (entry_inv cs base p k e o st s (flat_map owned_by (put_obj k OFreed (p_objs p))) (l' ++ lost) []); eauto.
      + apply Forall_app. split; [eapply Forall_impl; [apply (lost_stream_for cs e ET)|exact X']|exact X].
      + eapply holds_same; [|exact H']. count.
      + intros b. pose proof (put_cnt b OFreed _ _ _ N) as C. cbn [owned_by cnt flat_map] in *. lia.
    - rewrite <- (app_nil_r (put_obj _ _ _)). eapply (entry_inv cs base p k e o st s (flat_map owned_by (put_obj k OFreed (p_objs p))) (l' ++ lost) []); eauto.
      + apply Forall_app. split; [eapply Forall_impl; [apply (lost_stream_for cs e ET)|exact X']|exact X].
      + eapply holds_same; [|exact H']. count.
      + intros b. pose proof (put_cnt b OFreed _ _ _ N) as C. cbn [owned_by cnt flat_map] in *. lia.
  Qed.

  Lemma pstep_inv cs base p c a p' : In c cs -> pinv cs base p -> pstep lzvn junk t img ctx fold v p c = Ok (a, p') -> pinv cs base p'.
  Proof.
    intros HI INV. pose proof INV as (OK & lost & X & H). destruct c as [id|u str|k c|k i|k u str|k|k i|k u str|k c|i|k]; cbn [pstep].
    - intros E. eapply new_entry_inv; [exact INV|apply by_id_tr|intros b []|intros; eapply by_id_tree; eassumption|exact E].
    - intros E. eapply new_entry_inv; [exact INV|apply by_path_tr| |intros; eapply by_path_tree; eassumption|exact E].
      apply (lost_record_for cs (PByPath u str) u str HI). left; reflexivity.
    - destruct (nth_error (p_objs p) k) as [[e o st|e at_ b s x|l b| ]|] eqn:N; try (intros E; injection E as _ <-; exact INV).
      intros E. apply bind_ok in E. destruct E as ([r s] & EC & E). injection E as _ <-.
      destruct (nth_Forall _ _ _ _ OK N) as [ET I]. pose proof (front _ _ _ _ _ N H) as HF. cbn [owned_by] in HF.
      destruct (call_good e lzvn junk c (mk_mst (p_heap p) o st) _ r s I HF EC) as (I' & l' & X' & H').
      rewrite <- (app_nil_r (put_obj _ _ _)). eapply (entry_inv cs base p k e o st s (flat_map owned_by (put_obj k OFreed (p_objs p))) (l' ++ lost) []); eauto.
      + apply Forall_app. split; [eapply Forall_impl; [apply (lost_stream_for cs e ET)|exact X']|exact X].
      + eapply holds_same; [|exact H']. count.
      + intros b. pose proof (put_cnt b OFreed _ _ _ N) as C. cbn [owned_by cnt flat_map] in *. lia.
    - destruct (nth_error (p_objs p) k) as [[e o st|e at_ b s x|l b| ]|] eqn:N; try (intros E; injection E as _ <-; exact INV).
      destruct (nth_Forall _ _ _ _ OK N) as [ET I]. pose proof (front _ _ _ _ _ N H) as HF. cbn [owned_by] in HF.
      pose proof (sub_makes e i (mk_mst (p_heap p) o st) _ I HF) as R. pose proof (sub_in e i (mk_mst (p_heap p) o st)) as TR.
      destruct (entry_sub_m e i (mk_mst (p_heap p) o st)) as [[[x l]| | |] s]; intros E; try discriminate; injection E as _ <-; destruct R as (I' & l' & X' & H').
      + eapply (entry_inv cs base p k e o st s (l ++ flat_map owned_by (put_obj k OFreed (p_objs p))) (l' ++ lost)); eauto.
        * apply Forall_app. split; [eapply Forall_impl; [apply (lost_stream_for cs e ET)|exact X']|exact X].
        * eapply holds_same; [|exact H']. cbn [snd]. count.
        * intros b. pose proof (put_cnt b OFreed _ _ _ N) as C. cbn [owned_by cnt flat_map] in *. rewrite owned_start, app_nil_r, cnt_app. lia.
        * constructor; [|constructor]. apply start_ok. destruct ET as [<- _]. exact (TR _ _ _ eq_refl).
      + rewrite <- (app_nil_r (put_obj _ _ _)). eapply (entry_inv cs base p k e o st s (flat_map owned_by (put_obj k OFreed (p_objs p))) (l' ++ lost) []); eauto.
        * apply Forall_app. split; [eapply Forall_impl; [apply (lost_stream_for cs e ET)|exact X']|exact X].
        * eapply holds_same; [|exact H']. count.
        * intros b. pose proof (put_cnt b OFreed _ _ _ N) as C. cbn [owned_by cnt flat_map] in *. lia.
    - destruct (nth_error (p_objs p) k) as [[e o st|e at_ b s x|l b| ]|] eqn:N; try (intros E; injection E as _ <-; exact INV).
      destruct (nth_Forall _ _ _ _ OK N) as [ET I]. intros E. eapply new_entry_inv; [exact INV|apply by_path_tr| | |exact E].
      + apply (lost_record_for cs (PSubByName k u str) u str HI). right; exists k; reflexivity.
      + intros h e' l h' E'. apply by_path_tree in E'. destruct ET as [<- _]. exact E'.
    - destruct (nth_error (p_objs p) k) as [[e o st|e at_ b s x|l b| ]|] eqn:N; try (intros E; injection E as _ <-; exact INV).
      destruct (nth_Forall _ _ _ _ OK N) as [ET I]. intros E. eapply new_entry_inv; [exact INV|apply parent_tr|intros b []| |exact E].
      intros h e' l h' E'. apply parent_tree in E'. destruct ET as [<- _]. exact E'.
    - destruct (nth_error (p_objs p) k) as [[e o st|e at_ b s x|l b| ]|] eqn:N; try (intros E; injection E as _ <-; exact INV).
      intros E. eapply new_attr_inv; [exact INV|exact N|exact E].
    - destruct (nth_error (p_objs p) k) as [[e o st|e at_ b s x|l b| ]|] eqn:N; try (intros E; injection E as _ <-; exact INV).
      intros E. eapply new_attr_inv; [exact INV|exact N|exact E].
    - destruct (nth_error (p_objs p) k) as [[e o st|e at_ b s x|l b| ]|] eqn:N; try (intros E; injection E as _ <-; exact INV).
      destruct (nth_Forall _ _ _ _ OK N) as [ET I]. intros E. apply bind_ok in E. destruct E as ([r x'] & EC & E).
      pose proof (front _ _ _ _ _ N H) as HF. cbn [owned_by] in HF.
      assert (G : exists l h, x_owned x x' s (p_heap p) = (Ok l, h) /\ (x_stream x' = None -> l = [] \/ x_stream x <> None) /\ holds h ((l ++ b) ++ flat_map owned_by (put_obj k OFreed (p_objs p)) ++ lost ++ base)).
      { unfold x_owned. destruct (x_stream x) as [d|] eqn:EX.
        - exists s, (p_heap p). split; [reflexivity|]. split; [intros _; right; discriminate|exact HF].
        - rewrite (I eq_refl) in *. destruct (x_stream x') as [d'|].
          + destruct (alloc_holds KStream _ _ HF) as (n & h & EA & _ & HA). unfold bindM. rewrite EA. exists [n], h. split; [reflexivity|]. split; [discriminate|exact HA].
          + exists [], (p_heap p). split; [reflexivity|]. split; [auto|exact HF]. }
      destruct G as (l & h & EX & NS & HH). rewrite EX in E. injection E as _ <-.
      split; cbn [p_objs p_heap].
      + apply put_Forall; [|exact OK]. split; [exact ET|]. intros NX. destruct (NS NX) as [L|L]; [exact L|]. exfalso. exact (x_call_keeps _ _ _ _ _ _ L EC NX).
      + exists lost. split; [exact X|]. eapply holds_same; [|exact HH]. intros z. pose proof (put_cnt z OFreed _ _ _ N) as C1. pose proof (put_cnt z (OAttr e at_ b l x') _ _ _ N) as C2.
        cbn [owned_by cnt] in C1, C2. rewrite !cnt_app in *. lia.
    - pose proof (snap_tr img v i _ _ H) as R. destruct (snap_m img v i (p_heap p)) as [[[l b]| | |] h]; intros E; try discriminate; injection E as _ <-; cbn [ends fst] in R;
        destruct R as (l' & X' & H'); unfold pinv; cbn [p_objs p_heap].
      + split; [apply Forall_app; split; [exact OK|constructor; [exact Logic.I|constructor]]|]. exists (l' ++ lost). split.
        * apply Forall_app. split; [|exact X]. eapply Forall_impl; [|exact X']. intros y K. unfold lost_super in K. unfold lost_for. rewrite K. exists i. exact HI.
        * rewrite flat_map_new. cbn [owned_by]. eapply holds_same; [|exact H']. count.
      + split; [exact OK|]. exists (l' ++ lost). split.
        * apply Forall_app. split; [|exact X]. eapply Forall_impl; [|exact X']. intros y K. unfold lost_super in K. unfold lost_for. rewrite K. exists i. exact HI.
        * eapply holds_same; [|exact H']. count.
    - destruct (nth_error (p_objs p) k) as [o|] eqn:N; intros E; injection E as _ <-; [|exact INV].
      pose proof (front _ _ _ _ _ N H) as HF. split; cbn [p_objs p_heap]; [apply put_Forall; [exact Logic.I|exact OK]|]. exists lost. split; [exact X|].
      destruct o as [e o st|e at_ b s x|l b| ]; cbn [free_obj owned_by] in *;
        (destruct (frees_holds _ _ _ HF) as (h & E & H'); rewrite E; exact H') || exact HF.
  Qed.
  Lemma psteps_inv all base : forall cs p l p', incl cs all -> pinv all base p -> psteps lzvn junk t img ctx fold v p cs = Ok (l, p') -> pinv all base p'.
  Proof.
    induction cs as [|c cs IH]; intros p l p' HI INV E; cbn [psteps] in E; [injection E as _ <-; exact INV|].
    apply bind_ok in E. destruct E as ([a p1] & E1 & E). apply bind_ok in E. destruct E as ([l2 p2] & E2 & E). injection E as _ <-.
    eapply IH; [|eapply pstep_inv; [|exact INV|exact E1]|exact E2]; [intros x Hx; apply HI; right; exact Hx|apply HI; left; reflexivity].
  Qed.
End Program.

Lemma block_dec (a b : block) : {a = b} + {a <> b}.
Proof. destruct (block_eqb a b) eqn:E; [left; apply block_eqb_eq; exact E|right; intros X; apply block_eqb_eq in X; congruence]. Qed.
Lemma cnt_occ b l : Z.of_nat (count_occ block_dec l b) = cnt b l.
Proof.
  induction l as [|x l IH]; [reflexivity|]. cbn [count_occ cnt]. destruct (block_dec x b) as [->|N].
  - replace (block_eqb b b) with true by (symmetry; apply block_eqb_eq; reflexivity). lia.
  - destruct (block_eqb x b) eqn:E; [apply block_eqb_eq in E; congruence|]. lia.
Qed.
Lemma holds_perm h l : holds h l -> h_bad h = false /\ Permutation (h_live h) l.
Proof. intros [A B]. split; [exact A|]. apply (Permutation_count_occ block_dec). intros b. specialize (B b). rewrite <- !cnt_occ in B. lia. Qed.

