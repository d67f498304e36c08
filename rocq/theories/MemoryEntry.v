(* Proofs about the blocks of an open file entry: what its fields point to is what it has
   allocated, except for the streams of compressed data. *)
From Verif Require Import Base BaseLemmas BTree Walk Omap Records FsTree Name FsName Crypt DataRead Compressed.
From Verif Require Import FileEntry Snapshot VolumeSuper ExtAttr Memory MemoryProofs.
From Coq Require Import Lia.

(* ---- the fields ---- *)
Record lens (get : owns -> list block) (set : owns -> list block -> owns) : Prop := mk_lens {
  lens_cnt : forall o l b, cnt b (owned (set o l)) + cnt b (get o) = cnt b (owned o) + cnt b l;
  lens_get : forall o l, get (set o l) = l;
  lens_set : forall o l l', set (set o l) l' = set o l' }.
Ltac lens_tac := apply mk_lens; intros [? ? ? ? ? ? ?]; intros; cbv [own_attrs own_header own_ext own_body own_link own_dir owned]; cbn [o_base o_attrs o_header o_ext o_body o_link o_dir]; rewrite ?cnt_app; (lia || reflexivity).
Lemma lens_attrs : lens o_attrs own_attrs. Proof. lens_tac. Qed.
Lemma lens_header : lens o_header own_header. Proof. lens_tac. Qed.
Lemma lens_ext : lens o_ext own_ext. Proof. lens_tac. Qed.
Lemma lens_body : lens o_body own_body. Proof. lens_tac. Qed.
Lemma lens_link : lens o_link own_link. Proof. lens_tac. Qed.
Lemma lens_dir : lens o_dir own_dir. Proof. lens_tac. Qed.

Lemma newfield_run get set k s F : lens get set -> get (m_own s) = [] -> holds (m_heap s) (owned (m_own s) ++ F) ->
  exists b h, newfield k set s = (Ok b, mk_mst h (set (m_own s) [b]) (m_st s)) /\ fst b = k /\ holds h (owned (set (m_own s) [b]) ++ F).
Proof.
  intros HL HG H. destruct (alloc_holds k _ _ H) as (b & h & E & K & H'). exists b, h. split; [|split; [exact K|]].
  - unfold newfield, bindM, onheap. rewrite E. reflexivity.
  - eapply holds_same; [|exact H']. intros x. pose proof (lens_cnt _ _ HL (m_own s) [b] x) as C. rewrite HG in C. cbn [cnt] in *. rewrite !cnt_app. lia.
Qed.
Lemma clearfield_run get set s F : lens get set -> holds (m_heap s) (owned (m_own s) ++ F) ->
  exists h, clearfield get set s = (Ok tt, mk_mst h (set (m_own s) []) (m_st s)) /\ holds h (owned (set (m_own s) []) ++ F).
Proof.
  intros HL H. assert (H1 : holds (m_heap s) (get (m_own s) ++ owned (set (m_own s) []) ++ F)).
  { eapply holds_same; [|exact H]. intros x. pose proof (lens_cnt _ _ HL (m_own s) [] x) as C. cbn [cnt] in C. rewrite !cnt_app. lia. }
  destruct (frees_holds _ _ _ H1) as (h & E & H2). exists h. split; [|exact H2]. unfold clearfield, bindM, onheap. rewrite E. reflexivity.
Qed.

Definition fill {A} (k : kind) (get : owns -> list block) (set : owns -> list block -> owns) (r : res A) (put : fstate -> A -> fstate) : M mst A :=
  bindM (newfield k set) (fun _ =>
  bindM (orelse (retM r) (clearfield get set)) (fun a =>
  bindM (setst (fun st => put st a)) (fun _ => retM (Ok a)))).
Lemma fill_run {A} k get set (r : res A) put s F : lens get set -> get (m_own s) = [] -> (forall o, get o = [] -> set o [] = o) -> holds (m_heap s) (owned (m_own s) ++ F) ->
  match fill k get set r put s with
  | (Ok a, s') => r = Ok a /\ m_st s' = put (m_st s) a /\ (exists b, fst b = k /\ m_own s' = set (m_own s) [b]) /\ holds (m_heap s') (owned (m_own s') ++ F)
  | (Fail, s') => r = Fail /\ m_st s' = m_st s /\ m_own s' = m_own s /\ holds (m_heap s') (owned (m_own s') ++ F)
  | _ => True
  end.
Proof.
  intros HL HG HS H. destruct (newfield_run get set k s F HL HG H) as (b & h & E & K & H1). unfold fill, bindM. rewrite E.
  unfold orelse, retM. destruct r as [a| | |]; auto.
  - cbn. split; [reflexivity|]. split; [reflexivity|]. split; [exists b; auto|exact H1].
  - destruct (clearfield_run get set (mk_mst h (set (m_own s) [b]) (m_st s)) F HL H1) as (h2 & E2 & H2). cbn [m_own m_heap m_st] in *. rewrite E2. cbn [snd m_st m_own m_heap].
    rewrite (lens_set _ _ HL), HS in * by exact HG. auto.
Qed.

Section Entry.
  Variable e : fentry.

  (* The file has no compressed data. *)
  Definition uncompressed : Prop := forall l a, fs_attrs (fe_tree e) (fe_id e) = Ok l -> classify l (mk_fa l None None None) = Ok a -> fa_comp a = None.
  Definition lost_stream (b : block) : Prop := fst b = KStream /\ ~ uncompressed.

  Definition coupled (o : owns) (st : fstate) : Prop :=
    (f_attrs st = None -> o_attrs o = []) /\ (f_header st = None -> o_header o = []) /\ (f_extents st = None -> o_ext o = []) /\
    (f_body st = None -> o_body o = []) /\ (f_link st = None -> o_link o = []) /\ (f_dir st = None -> o_dir o = []).
  Definition known (st : fstate) : Prop :=
    (forall a, f_attrs st = Some a -> exists l, fs_attrs (fe_tree e) (fe_id e) = Ok l /\ classify l (mk_fa l None None None) = Ok a) /\
    (f_header st <> None -> ~ uncompressed).
  Definition einv (o : owns) (st : fstate) : Prop := coupled o st /\ known st.

  Definition after {A} (F : list block) (p : res A * mst) : Prop :=
    match p with
    | (Ok _, s) | (Fail, s) => einv (m_own s) (m_st s) /\ exists lost, Forall lost_stream lost /\ holds (m_heap s) (owned (m_own s) ++ lost ++ F)
    | _ => True
    end.
  Definition good {A} (m : M mst A) : Prop :=
    forall s F, einv (m_own s) (m_st s) -> holds (m_heap s) (owned (m_own s) ++ F) -> after F (m s).

  Lemma good_ret {A} (r : res A) : good (retM r).
  Proof. intros s F I H. unfold after, retM. destruct r; auto; (split; [exact I|exists []; split; [constructor|exact H]]). Qed.
  Lemma good_bind {A B} (m : M mst A) (f : A -> M mst B) : good m -> (forall a, good (f a)) -> good (bindM m f).
  Proof.
    intros H1 H2 s F I H. specialize (H1 s F I H). unfold bindM. destruct (m s) as [[a| | |] s1]; cbn [after] in *; auto.
    destruct H1 as (I1 & lost & X & Y). specialize (H2 a s1 (lost ++ F) I1 Y). destruct (f a s1) as [[b| | |] s2]; cbn [after] in *; auto;
      destruct H2 as (I2 & lost' & X' & Y'); (split; [exact I2|]); exists (lost' ++ lost); (split; [apply Forall_app; auto|]); rewrite <- app_assoc; exact Y'.
  Qed.
  (* calls that leave the blocks alone *)
  Lemma good_getst {B} (f : fstate -> M mst B) : (forall st, good (f st)) -> good (bindM getst f).
  Proof. intros H s F I HH. unfold bindM, getst. apply H; assumption. Qed.

  Lemma get_attrs_run s F : einv (m_own s) (m_st s) -> holds (m_heap s) (owned (m_own s) ++ F) ->
    match get_attrs_m e s with
    | (Ok a, s') => einv (m_own s') (m_st s') /\ f_attrs (m_st s') = Some a /\ f_header (m_st s') = f_header (m_st s) /\ f_link (m_st s') = f_link (m_st s) /\ holds (m_heap s') (owned (m_own s') ++ F)
    | (Fail, s') => einv (m_own s') (m_st s') /\ holds (m_heap s') (owned (m_own s') ++ F)
    | _ => True
    end.
  Proof.
    intros I H. unfold get_attrs_m, bindM at 1, getst. destruct (f_attrs (m_st s)) as [a|] eqn:EA.
    - cbn [retM]. auto.
    - destruct I as [(C1 & C2 & C3 & C4 & C5 & C6) [K1 K2]].
      pose proof (fill_run KAttrs o_attrs own_attrs (let! l := fs_attrs (fe_tree e) (fe_id e) in classify l (mk_fa l None None None)) set_attrs s F lens_attrs (C1 EA)) as R.
      specialize (R ltac:(intros [? ? ? ? ? ? ?] E; cbn in E; subst; reflexivity) H).
      match goal with |- context [match ?x with _ => _ end] => change x with (fill KAttrs o_attrs own_attrs (let! l := fs_attrs (fe_tree e) (fe_id e) in classify l (mk_fa l None None None)) set_attrs s) end.
      destruct (fill _ _ _ _ _ s) as [[a| | |] s']; auto.
      + destruct R as (ER & ES & (b & KB & EO) & HH). rewrite ES, EO in *. cbn [set_attrs f_attrs f_header f_link]. split; [|auto]. split.
        * repeat split; cbn [set_attrs own_attrs f_attrs f_header f_extents f_body f_link f_dir o_attrs o_header o_ext o_body o_link o_dir]; auto. discriminate.
        * split; [|exact K2]. cbn [set_attrs f_attrs]. intros a' E. injection E as <-. apply bind_ok in ER. exact ER.
      + destruct R as (ER & ES & EO & HH). rewrite ES, EO in *. split; [|exact HH]. split; [repeat split; auto|split; [exact K1|exact K2]].
  Qed.
  Lemma good_attrs : good (get_attrs_m e).
  Proof.
    intros s F I H. pose proof (get_attrs_run s F I H) as R. destruct (get_attrs_m e s) as [[a| | |] s']; cbn [after]; auto.
    - destruct R as (I' & _ & _ & _ & H'). split; [exact I'|]. exists []. split; [constructor|exact H'].
    - destruct R as (I' & H'). split; [exact I'|]. exists []. split; [constructor|exact H'].
  Qed.
  Lemma good_extents : good (get_extents_m e).
  Proof.
    intros s F I H. unfold get_extents_m, bindM at 1, getst. destruct (f_extents (m_st s)) as [a|] eqn:EA; [apply (good_ret (Ok a) s F I H)|].
    destruct I as [(C1 & C2 & C3 & C4 & C5 & C6) [K1 K2]].
    pose proof (fill_run KExtents o_ext own_ext (fs_extents (fe_tree e) (in_stream (fe_inode e))) set_extents s F lens_ext (C3 EA)) as R.
    specialize (R ltac:(intros [? ? ? ? ? ? ?] E; cbn in E; subst; reflexivity) H).
    match goal with |- after _ ?x => change x with (fill KExtents o_ext own_ext (fs_extents (fe_tree e) (in_stream (fe_inode e))) set_extents s) end.
    destruct (fill _ _ _ _ _ s) as [[a| | |] s']; cbn [after]; auto; [destruct R as (_ & ES & (b & _ & EO) & HH)|destruct R as (_ & ES & EO & HH)];
      rewrite ES, EO in *; (split; [|exists []; split; [constructor|exact HH]]).
    - split; [|split; [exact K1|exact K2]]. repeat split; cbn [set_extents own_ext f_attrs f_header f_extents f_body f_link f_dir o_attrs o_header o_ext o_body o_link o_dir]; auto. discriminate.
    - split; [repeat split; auto|split; [exact K1|exact K2]].
  Qed.
  Lemma good_dir : good (get_dir_m e).
  Proof.
    intros s F I H. unfold get_dir_m, bindM at 1, getst. destruct (f_dir (m_st s)) as [a|] eqn:EA; [apply (good_ret (Ok a) s F I H)|].
    destruct I as [(C1 & C2 & C3 & C4 & C5 & C6) [K1 K2]].
    pose proof (fill_run KDir o_dir own_dir (fs_dir (fe_tree e) (fe_id e)) set_dir s F lens_dir (C6 EA)) as R.
    specialize (R ltac:(intros [? ? ? ? ? ? ?] E; cbn in E; subst; reflexivity) H).
    match goal with |- after _ ?x => change x with (fill KDir o_dir own_dir (fs_dir (fe_tree e) (fe_id e)) set_dir s) end.
    destruct (fill _ _ _ _ _ s) as [[a| | |] s']; cbn [after]; auto; [destruct R as (_ & ES & (b & _ & EO) & HH)|destruct R as (_ & ES & EO & HH)];
      rewrite ES, EO in *; (split; [|exists []; split; [constructor|exact HH]]).
    - split; [|split; [exact K1|exact K2]]. repeat split; cbn [set_dir own_dir f_attrs f_header f_extents f_body f_link f_dir o_attrs o_header o_ext o_body o_link o_dir]; auto. discriminate.
    - split; [repeat split; auto|split; [exact K1|exact K2]].
  Qed.

  Lemma stream_run x s G : holds (m_heap s) G ->
    match onheap (stream_m e x) s with
    | (Ok None, s') => s' = s
    | (Ok (Some (b, _)), s') => fst b = KStream /\ m_own s' = m_own s /\ m_st s' = m_st s /\ holds (m_heap s') (b :: G)
    | (Fail, s') => s' = s
    | _ => True
    end.
  Proof.
    intros H. unfold onheap, stream_m, onM, bindM, retM. destruct (attr_stream e x) as [[d|]| | |]; auto.
    - destruct (alloc_holds KStream _ _ H) as (b & h & E & K & H'). rewrite E. cbn. auto.
    - destruct s; reflexivity.
    - destruct s; reflexivity.
  Qed.

  Lemma good_data_size : good (get_data_size_m e).
  Proof.
    intros s F I H. unfold get_data_size_m, bindM at 1, getst. destruct (f_header (m_st s)) as [hd|] eqn:EH; [apply (good_ret Fail s F I H)|].
    unfold bindM at 1. pose proof (get_attrs_run s F I H) as R. destruct (get_attrs_m e s) as [[a| | |] s1]; cbn [after]; auto.
    2:{ destruct R as (I1 & H1). split; [exact I1|]. exists []. split; [constructor|exact H1]. }
    destruct R as (I1 & EA & EH1 & _ & H1). rewrite EH in EH1.
    destruct (fa_comp a) as [x|] eqn:EC.
    2:{ cbn [setst after m_own m_st m_heap]. split; [|exists []; split; [constructor|exact H1]]. destruct I1 as [(C1 & C2 & C3 & C4 & C5 & C6) [K1 K2]].
        split; [repeat split; auto|]. split; [exact K1|]. cbn [set_size f_header]. congruence. }
    assert (NU : ~ uncompressed).
    { intros U. destruct I1 as [_ [K1 _]]. destruct (K1 _ EA) as (l & A1 & A2). specialize (U l a A1 A2). congruence. }
    unfold bindM at 1. pose proof (stream_run x s1 _ H1) as R. destruct (onheap (stream_m e x) s1) as [[o| | |] s2]; cbn [after]; auto.
    2:{ subst s2. split; [exact I1|]. exists []. split; [constructor|exact H1]. }
    assert (X : exists h2, s2 = mk_mst h2 (m_own s1) (m_st s1) /\ holds h2 (owned (m_own s1) ++ opt_blocks o ++ F) /\ Forall lost_stream (opt_blocks o)).
    { destruct o as [[b d]|].
      - destruct R as (K & EO & ES & HH). exists (m_heap s2). split; [destruct s2; cbn in *; subst; reflexivity|]. split; [|constructor; [split; [exact K|exact NU]|constructor]].
        eapply holds_same; [|exact HH]. cbn [opt_blocks fst]. count.
      - subst s2. exists (m_heap s1). split; [destruct s1; reflexivity|]. split; [exact H1|constructor]. }
    destruct X as (h2 & -> & H2 & LO). clear R.
    unfold bindM at 1. unfold retM at 1. destruct (read_all (option_map snd o) 0 16) as [d| | |]; cbn [after]; auto.
    2:{ cbn [m_own m_st m_heap]. split; [exact I1|]. exists (opt_blocks o). split; [exact LO|exact H2]. }
    assert (H2' : holds h2 (opt_blocks o ++ owned (m_own s1) ++ F)) by (eapply holds_same; [|exact H2]; count).
    destruct (frees_holds _ _ _ H2') as (h3 & E3 & H3). unfold bindM at 1, onheap. cbn [m_heap m_own m_st]. rewrite E3.
    unfold bindM at 1. destruct (newfield_run o_header own_header KHeader (mk_mst h3 (m_own s1) (m_st s1)) F lens_header) as (b & h4 & E4 & _ & H4).
    { cbn [m_own]. apply I1. exact EH1. }
    { exact H3. }
    cbn [m_own m_st] in E4, H4. rewrite E4. unfold bindM at 1, orelse, retM.
    assert (SAME : own_header (own_header (m_own s1) [b]) [] = m_own s1).
    { destruct I1 as [(_ & C2 & _) _]. specialize (C2 EH1). destruct (m_own s1). cbn in *. subst. reflexivity. }
    destruct (clearfield_run o_header own_header (mk_mst h4 (own_header (m_own s1) [b]) (m_st s1)) F lens_header H4) as (h5 & E5 & H5).
    cbn [m_own m_st] in E5, H5. rewrite SAME in E5, H5.
    destruct (read_compressed_header d) as [[[m z]|]| | |]; cbn [after]; auto.
    - cbn [setst m_heap m_own m_st after]. split; [|exists []; split; [constructor|exact H4]]. destruct I1 as [(C1 & C2 & C3 & C4 & C5 & C6) [K1 K2]].
      split; [|split; [exact K1|intros _; exact NU]]. repeat split; auto. cbn [set_size f_header]. discriminate.
    - unfold bindM. rewrite E5. cbn [setst m_heap m_own m_st after]. split; [|exists []; split; [constructor|exact H5]].
      destruct I1 as [(C1 & C2 & C3 & C4 & C5 & C6) [K1 K2]]. split; [repeat split; auto|split; [exact K1|cbn [set_size f_header]; congruence]].
    - rewrite E5. cbn [snd after m_own m_st m_heap]. split; [exact I1|]. exists []. split; [constructor|exact H5].
  Qed.
  Lemma good_need_size : good (need_size_m e).
  Proof. unfold need_size_m. apply good_getst. intros st. destruct (_ =? _); [|apply good_ret]. apply good_bind; [apply good_data_size|]. intros u. apply good_getst. intros. apply good_ret. Qed.

  Lemma body_run s F b : einv (m_own s) (m_st s) -> f_body (m_st s) = None -> holds (m_heap s) (owned (m_own s) ++ F) ->
    after F (bindM (newfield KStream own_body) (fun _ => setst (fun st => set_body st b 0)) s).
  Proof.
    intros I EB H. destruct I as [(C1 & C2 & C3 & C4 & C5 & C6) [K1 K2]].
    destruct (newfield_run o_body own_body KStream s F lens_body (C4 EB) H) as (x & h & E & _ & H'). unfold bindM. rewrite E.
    cbn [setst after m_own m_st m_heap]. split; [|exists []; split; [constructor|exact H']]. split; [|split; [exact K1|exact K2]].
    repeat split; auto. cbn [set_body f_body]. discriminate.
  Qed.

  (* what leaves the data stream of the entry alone *)
  Definition still {A} (m : M mst A) : Prop := forall s, f_body (m_st (snd (m s))) = f_body (m_st s).
  Lemma still_ret {A} (r : res A) : still (retM r).
  Proof. intros s. reflexivity. Qed.
  Lemma still_bind {A B} (m : M mst A) (f : A -> M mst B) : still m -> (forall a, still (f a)) -> still (bindM m f).
  Proof. intros H1 H2 s. unfold bindM. specialize (H1 s). destruct (m s) as [[a| | |] s1]; cbn [snd] in *; auto. rewrite H2. exact H1. Qed.
  Lemma still_heap {A} (m : M heap A) : still (onheap m).
  Proof. intros s. unfold onheap. destruct (m (m_heap s)). reflexivity. Qed.
  Lemma still_own f : still (setown f).
  Proof. intros s. reflexivity. Qed.
  Lemma still_get : still getst.
  Proof. intros s. reflexivity. Qed.
  Lemma still_st f : (forall st, f_body (f st) = f_body st) -> still (setst f).
  Proof. intros H s. apply H. Qed.
  Lemma still_new k set : still (newfield k set).
  Proof. unfold newfield. apply still_bind; [apply still_heap|]. intros b. apply still_bind; [apply still_own|]. intros; apply still_ret. Qed.
  Lemma still_clear get set : still (clearfield get set).
  Proof. intros s. unfold clearfield. apply (still_bind (onheap (frees (get (m_own s)))) (fun _ => setown (fun o => set o []))); [apply still_heap|]. intros; apply still_own. Qed.
  Lemma still_orelse {A} (m : M mst A) c : still m -> still c -> still (orelse m c).
  Proof. intros H1 H2 s. unfold orelse. specialize (H1 s). destruct (m s) as [[a| | |] s1]; cbn [snd] in *; auto. rewrite H2. exact H1. Qed.
  Ltac still_tac := repeat first
    [ apply still_ret | apply still_heap | apply still_own | apply still_get | apply still_new | apply still_clear
    | (apply still_st; reflexivity) | apply still_orelse | (apply still_bind; [|intros]) ].
  Lemma still_attrs : still (get_attrs_m e).
  Proof. unfold get_attrs_m. apply still_bind; [apply still_get|]. intros st. destruct (f_attrs st); still_tac. Qed.
  Lemma still_extents : still (get_extents_m e).
  Proof. unfold get_extents_m. apply still_bind; [apply still_get|]. intros st. destruct (f_extents st); still_tac. Qed.
  Lemma still_size : still (need_size_m e).
  Proof.
    unfold need_size_m. apply still_bind; [apply still_get|]. intros st. destruct (_ =? _); [|apply still_ret]. apply still_bind; [|intros; still_tac].
    unfold get_data_size_m. apply still_bind; [apply still_get|]. intros st'. destruct (f_header st'); [apply still_ret|]. apply still_bind; [apply still_attrs|].
    intros a. destruct (fa_comp a); still_tac.
    match goal with |- still (match ?h with _ => _ end) => destruct h as [[? ?]|] end; still_tac.
  Qed.

  Lemma after_more {B} F lost (p : res B * mst) : Forall (lost_stream) lost -> after (lost ++ F) p -> after F p.
  Proof.
    intros X. destruct p as [[a| | |] s']; cbn [after]; auto; intros (I & lost' & X' & Y'); (split; [exact I|]); exists (lost' ++ lost);
      (split; [apply Forall_app; auto|]); rewrite <- app_assoc; exact Y'.
  Qed.
  Lemma data_stream_run s F : einv (m_own s) (m_st s) -> f_body (m_st s) = None -> holds (m_heap s) (owned (m_own s) ++ F) -> after F (get_data_stream_m e s).
  Proof.
    intros I EB H. unfold get_data_stream_m, bindM at 1. pose proof (good_need_size s F I H) as R. pose proof (still_size s) as ST.
    destruct (need_size_m e s) as [[size| | |] s1]; cbn [after snd] in *; auto. rewrite EB in ST.
    destruct R as (I1 & lost & X & H1). apply (after_more F lost _ X). clear X.
    unfold bindM at 1, getst. destruct (f_header (m_st s1)) as [[m z]|] eqn:EH.
    - assert (NU : ~ uncompressed) by (apply I1; congruence).
      unfold onM, bindM at 1, retM at 1. destruct (check (switch_method m)) as [u| | |]; cbn [after]; auto.
      2:{ split; [exact I1|]. exists []. split; [constructor|exact H1]. }
      unfold bindM at 1, retM at 1. match goal with |- context [match ?x with Ok _ => _ | _ => _ end] => destruct x as [x0| | |] end; cbn [after]; auto.
      2:{ split; [exact I1|]. exists []. split; [constructor|exact H1]. }
      unfold bindM at 1. pose proof (stream_run x0 s1 _ H1) as R. destruct (onheap (stream_m e x0) s1) as [[[[b d]|]| | |] s2]; cbn [after]; auto.
      + destruct R as (K & EO & ES & HH).
        assert (H2 : holds (m_heap s2) (owned (m_own s2) ++ [b] ++ lost ++ F)) by (rewrite EO; eapply holds_same; [|exact HH]; count).
        assert (LB : Forall lost_stream [b]) by (constructor; [split; assumption|constructor]).
        apply (after_more (lost ++ F) [b] _ LB).
        assert (I2 : einv (m_own s2) (m_st s2)) by (rewrite EO, ES; exact I1).
        unfold bindM at 1, retM at 1. match goal with |- context [match ?x with Ok _ => _ | _ => _ end] => destruct x as [method| | |] end; cbn [after]; auto.
        * apply body_run; [exact I2|rewrite ES; exact ST|exact H2].
        * split; [exact I2|]. exists []. split; [constructor|exact H2].
      + subst s2. split; [exact I1|]. exists []. split; [constructor|exact H1].
      + subst s2. split; [exact I1|]. exists []. split; [constructor|exact H1].
    - unfold bindM at 1. pose proof (good_extents s1 _ I1 H1) as R. pose proof (still_extents s1) as ST2.
      destruct (get_extents_m e s1) as [[l| | |] s2]; cbn [after snd] in *; auto. rewrite ST in ST2.
      destruct R as (I2 & lost2 & X2 & H2). apply (after_more (lost ++ F) lost2 _ X2).
      unfold onM, bindM at 1, retM at 1. match goal with |- context [match ?x with Ok _ => _ | _ => _ end] => destruct x as [d| | |] end; cbn [after]; auto.
      + apply body_run; assumption.
      + split; [exact I2|]. exists []. split; [constructor|exact H2].
  Qed.
  Lemma good_stream : good (need_stream_m e).
  Proof.
    intros s F I H. unfold need_stream_m, bindM at 1, getst. destruct (f_body (m_st s)) as [b|] eqn:EB; [apply (good_ret (Ok b) s F I H)|].
    pose proof (data_stream_run s F I EB H) as R. unfold bindM at 1. destruct (get_data_stream_m e s) as [[u| | |] s1]; cbn [after] in *; auto.
    destruct R as (I1 & lost & X & H1). apply (after_more F lost _ X). apply (good_getst (fun st => retM (match f_body st with Some b => Ok b | None => Fail end))); [intros; apply good_ret|exact I1|exact H1].
  Qed.

  Lemma good_link : good (entry_link_m e).
  Proof.
    intros s F I H. unfold entry_link_m, bindM at 1, getst. destruct (f_link (m_st s)) as [v|] eqn:EL; [apply (good_ret (Ok (Some v)) s F I H)|].
    unfold bindM at 1. pose proof (get_attrs_run s F I H) as R. destruct (get_attrs_m e s) as [[a| | |] s1]; cbn [after]; auto.
    2:{ destruct R as (I1 & H1). split; [exact I1|]. exists []. split; [constructor|exact H1]. }
    destruct R as (I1 & EA & _ & EL1 & H1). rewrite EL in EL1.
    destruct (fa_link a) as [x|]; [|apply (good_ret (Ok None) s1 F I1 H1)].
    unfold onM, bindM at 1, retM at 1. destruct (check _) as [u| | |]; cbn [after]; auto.
    2:{ split; [exact I1|]. exists []. split; [constructor|exact H1]. }
    unfold bindM at 1. destruct (newfield_run o_link own_link KLink s1 F lens_link) as (b & h2 & E2 & _ & H2); [apply I1; exact EL1|exact H1|]. rewrite E2.
    assert (SAME : own_link (own_link (m_own s1) [b]) [] = m_own s1).
    { destruct I1 as [(_ & _ & _ & _ & C5 & _) _]. specialize (C5 EL1). destruct (m_own s1). cbn in *. subst. reflexivity. }
    unfold bindM at 1, orelse. set (s2 := mk_mst h2 (own_link (m_own s1) [b]) (m_st s1)) in *.
    pose proof (stream_run x s2 _ H2) as R. destruct (onheap (stream_m e x) s2) as [[o| | |] s3]; cbn [after]; auto.
    2:{ subst s3. destruct (clearfield_run o_link own_link s2 F lens_link H2) as (h3 & E3 & H3). rewrite E3. cbn [snd s2 m_own m_st m_heap] in *. rewrite SAME in *.
        cbn [after m_own m_st m_heap]. split; [exact I1|]. exists []. split; [constructor|exact H3]. }
    assert (X : exists h3, s3 = mk_mst h3 (m_own s2) (m_st s2) /\ holds h3 (opt_blocks o ++ owned (m_own s2) ++ F)).
    { destruct o as [[c d]|].
      - destruct R as (_ & EO & ES & HH). exists (m_heap s3). split; [destruct s3; cbn in *; subst; reflexivity|exact HH].
      - subst s3. exists (m_heap s2). split; [reflexivity|exact H2]. }
    destruct X as (h3 & -> & H3). clear R. destruct (frees_holds _ _ _ H3) as (h4 & E4 & H4).
    unfold bindM at 1, retM at 1. destruct (read_all (option_map snd o) 0 (attr_size x)) as [v| | |]; cbn [after]; auto.
    - unfold bindM at 1, onheap. cbn [m_heap m_own m_st]. rewrite E4. cbn [bindM setst retM after m_own m_st m_heap s2].
      split; [|exists []; split; [constructor|exact H4]]. destruct I1 as [(C1 & C2 & C3 & C4 & C5 & C6) [K1 K2]].
      split; [|split; [exact K1|exact K2]]. repeat split; auto. cbn [set_link f_link]. discriminate.
    - destruct (clearfield_run o_link own_link (mk_mst h4 (m_own s2) (m_st s2)) F lens_link H4) as (h5 & E5 & H5).
      match goal with |- context [snd ?x] => assert (EX : x = (Ok tt, mk_mst h5 (own_link (m_own s2) []) (m_st s2))) end.
      { unfold bindM, onheap. cbn [m_heap m_own m_st]. rewrite E4. exact E5. }
      rewrite EX. cbn [snd s2 m_own m_st m_heap] in *. rewrite SAME in *. split; [exact I1|]. exists []. split; [constructor|exact H5].
  Qed.

  Lemma need_stream_some s b s' : need_stream_m e s = (Ok b, s') -> f_body (m_st s') = Some b.
  Proof.
    unfold need_stream_m, bindM at 1, getst. destruct (f_body (m_st s)) as [b0|] eqn:EB.
    - intros H. injection H as <- <-. exact EB.
    - intros H. apply bindM_run in H. destruct H as (u & s1 & _ & H). unfold bindM in H. destruct (f_body (m_st s1)) as [b1|] eqn:E1; [|discriminate].
      injection H as <- <-. exact E1.
  Qed.
  Lemma get_extents_some s l s' : get_extents_m e s = (Ok l, s') -> f_extents (m_st s') = Some l.
  Proof.
    unfold get_extents_m, bindM at 1, getst. destruct (f_extents (m_st s)) as [b0|] eqn:EB.
    - intros H. injection H as <- <-. exact EB.
    - intros H. apply bindM_run in H. destruct H as (u & s1 & _ & H). apply bindM_run in H. destruct H as (l' & s2 & _ & H). cbn [bindM setst retM] in H.
      unfold bindM, setst, retM in H. injection H as <- <-. reflexivity.
  Qed.
  Lemma good_onst {A B} (m : M mst A) (n : M fstate B) :
    good m -> (forall s a s', m s = (Ok a, s') -> forall o, einv o (m_st s') -> einv o (snd (n (m_st s')))) -> good (bindM m (fun _ => onst n)).
  Proof.
    intros H1 H2 s F I H. specialize (H1 s F I H). unfold bindM. destruct (m s) as [[a| | |] s1] eqn:E; cbn [after] in *; auto.
    destruct H1 as (I1 & lost & X & Y). specialize (H2 _ _ _ E _ I1). unfold onst. destruct (n (m_st s1)) as [r st]. cbn [snd] in H2.
    destruct r; cbn [after m_own m_st m_heap]; auto; (split; [exact H2|exists lost; auto]).
  Qed.
  Lemma einv_body o st b c : f_body st <> None -> einv o st -> einv o (set_body st b c).
  Proof.
    intros N [(C1 & C2 & C3 & C4 & C5 & C6) [K1 K2]]. split; [|split; [exact K1|exact K2]]. repeat split; auto. cbn [set_body f_body]. discriminate.
  Qed.
  Lemma need_some st b : f_body st = Some b -> need_stream e st = (Ok b, st).
  Proof. intros E. unfold need_stream. rewrite E. reflexivity. Qed.
  Lemma good_read lzvn junk off n : good (entry_read_m lzvn junk e off n).
  Proof.
    apply good_onst; [apply good_stream|]. intros s b s' E o I. apply need_stream_some in E. unfold entry_read, bindM. rewrite (need_some _ _ E).
    destruct (_ <? 0); [exact I|]. destruct (body_read lzvn junk b _ n) as [r b']. destruct r; cbn [snd]; auto; apply einv_body; congruence.
  Qed.
  Lemma good_seek off w : good (entry_seek_m e off w).
  Proof.
    apply good_onst; [apply good_stream|]. intros s b s' E o I. apply need_stream_some in E. unfold entry_seek, bindM. rewrite (need_some _ _ E).
    match goal with |- context [match ?x with Some _ => _ | None => _ end] => destruct x as [x0|] end; [|exact I].
    destruct (_ <? 0); [exact I|]. cbn [snd]. apply einv_body; congruence.
  Qed.
  Lemma good_offset : good (entry_offset_m e).
  Proof.
    apply good_onst; [apply good_stream|]. intros s b s' E o I. apply need_stream_some in E. unfold entry_offset, bindM. rewrite (need_some _ _ E). exact I.
  Qed.
  Lemma good_extent i : good (bindM (get_extents_m e) (fun _ => onst (entry_extent e i))).
  Proof.
    apply good_onst; [apply good_extents|]. intros s l s' E o I. apply get_extents_some in E. unfold entry_extent, bindM, get_extents. rewrite E. exact I.
  Qed.
  Lemma answer_good {A} (f : A -> fanswer) (m : M mst A) s F a s' : good m -> einv (m_own s) (m_st s) -> holds (m_heap s) (owned (m_own s) ++ F) ->
    answer_m f m s = Ok (a, s') -> einv (m_own s') (m_st s') /\ exists lost, Forall lost_stream lost /\ holds (m_heap s') (owned (m_own s') ++ lost ++ F).
  Proof.
    intros G I H. specialize (G s F I H). unfold answer_m. destruct (m s) as [[x| | |] s1]; intros E; try discriminate; injection E as _ <-; exact G.
  Qed.
  Lemma call_good lzvn junk c s F a s' : einv (m_own s) (m_st s) -> holds (m_heap s) (owned (m_own s) ++ F) ->
    entry_call_m lzvn junk e c s = Ok (a, s') -> einv (m_own s') (m_st s') /\ exists lost, Forall lost_stream lost /\ holds (m_heap s') (owned (m_own s') ++ lost ++ F).
  Proof.
    destruct c; cbn [entry_call_m]; apply answer_good.
    - apply good_need_size.
    - apply good_read.
    - apply good_read.
    - apply good_seek.
    - apply good_offset.
    - apply good_bind; [apply good_extents|]. intros; apply good_ret.
    - apply good_extent.
    - apply good_bind; [apply good_attrs|]. intros; apply good_ret.
    - apply good_link.
  Qed.

  (* a new object made after a part that keeps the blocks of the entry *)
  Definition makes {A} (blocks : A -> list block) (m : M mst A) : Prop := forall s F, einv (m_own s) (m_st s) -> holds (m_heap s) (owned (m_own s) ++ F) ->
    match m s with
    | (Ok a, s') => einv (m_own s') (m_st s') /\ exists lost, Forall lost_stream lost /\ holds (m_heap s') (owned (m_own s') ++ blocks a ++ lost ++ F)
    | (Fail, s') => einv (m_own s') (m_st s') /\ exists lost, Forall lost_stream lost /\ holds (m_heap s') (owned (m_own s') ++ lost ++ F)
    | _ => True
    end.
  Lemma makes_bind {A B} (m : M mst A) (f : A -> M mst B) blocks : good m -> (forall a, makes blocks (f a)) -> makes blocks (bindM m f).
  Proof.
    intros H1 H2 s F I H. specialize (H1 s F I H). unfold bindM. destruct (m s) as [[a| | |] s1]; cbn [after] in *; auto.
    destruct H1 as (I1 & lost & X & Y). specialize (H2 a s1 (lost ++ F) I1 Y). destruct (f a s1) as [[b| | |] s2]; auto;
      destruct H2 as (I2 & lost' & X' & Y'); (split; [exact I2|]); exists (lost' ++ lost); (split; [apply Forall_app; auto|]); rewrite <- app_assoc; exact Y'.
  Qed.
  Lemma makes_alloc {A} k (f : block -> M mst A) blocks extra :
    (forall b s F, einv (m_own s) (m_st s) -> holds (m_heap s) (owned (m_own s) ++ (b :: extra) ++ F) ->
      match f b s with (Ok a, s') => m_own s' = m_own s /\ m_st s' = m_st s /\ holds (m_heap s') (owned (m_own s') ++ blocks a ++ F) | _ => False end) ->
    forall s F, einv (m_own s) (m_st s) -> holds (m_heap s) (owned (m_own s) ++ extra ++ F) ->
      match bindM (onheap (alloc k)) f s with (Ok a, s') => m_own s' = m_own s /\ m_st s' = m_st s /\ holds (m_heap s') (owned (m_own s') ++ blocks a ++ F) | _ => False end.
  Proof.
    intros HF s F I H. destruct (alloc_holds k _ _ H) as (b & h & E & _ & H'). unfold bindM, onheap. rewrite E.
    specialize (HF b (mk_mst h (m_own s) (m_st s)) F I). cbn [m_own m_st m_heap] in HF. apply HF. eapply holds_same; [|exact H']. count.
  Qed.
  Lemma makes_of {A} (m : M mst A) blocks :
    (forall s F, einv (m_own s) (m_st s) -> holds (m_heap s) (owned (m_own s) ++ [] ++ F) ->
      match m s with (Ok a, s') => m_own s' = m_own s /\ m_st s' = m_st s /\ holds (m_heap s') (owned (m_own s') ++ blocks a ++ F) | _ => False end) -> makes blocks m.
  Proof.
    intros HM s F I H. specialize (HM s F I H). destruct (m s) as [[a| | |] s']; auto; [|contradiction]. destruct HM as (EO & ES & HH). rewrite EO, ES in *.
    split; [exact I|]. exists []. split; [constructor|exact HH].
  Qed.
  Lemma makes_ret {A} (r : res A) blocks : (forall a, r = Ok a -> blocks a = []) -> makes blocks (retM r).
  Proof.
    intros E s F I H. unfold retM. destruct r; auto; (split; [exact I|]); exists []; (split; [constructor|]); [rewrite (E a eq_refl)|]; exact H.
  Qed.
  Lemma sub_makes i : makes snd (entry_sub_m e i).
  Proof.
    unfold entry_sub_m. apply makes_bind; [apply good_dir|]. intros l. apply (makes_bind (retM _)); [apply good_ret|]. intros x. apply makes_of.
    apply makes_alloc. intros a. apply makes_alloc. intros b. apply makes_alloc. intros c s F I H. cbn. split; [reflexivity|]. split; [reflexivity|].
    eapply holds_same; [|exact H]. count.
  Qed.
  Definition attr_blocks (r : option (attr * block)) : list block := match r with Some (_, b) => [b] | None => [] end.
  Lemma attr_makes (m : fattrs -> res (option attr)) :
    makes attr_blocks (bindM (get_attrs_m e) (fun a => onM (m a) (fun x =>
      match x with None => retM (Ok None) | Some x => bindM (onheap (alloc KAttr)) (fun b => retM (Ok (Some (x, b)))) end))).
  Proof.
    apply makes_bind; [apply good_attrs|]. intros a. apply (makes_bind (retM _)); [apply good_ret|]. intros [x|].
    - apply makes_of. apply makes_alloc. intros b s F I H. cbn. split; [reflexivity|]. split; [reflexivity|]. eapply holds_same; [|exact H]. count.
    - apply makes_ret. intros a' E. injection E as <-. reflexivity.
  Qed.
End Entry.
