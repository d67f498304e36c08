(* Using what is found on any device: the streams of attributes and files are safe sources, and
   calls on file entries end within their buffers. *)
From Verif Require Import Base BaseLemmas BTree BTreeProofs Walk WalkProofs Omap OmapProofs Records RecordsProofs FsTree FsProofs Name NameProofs FsName FsNameProofs
  CryptSpec Crypt DataRead DataSplit PropData Compressed SessionProofs Snapshot FileEntry EntryName SafeSource.
Ltac Zify.zify_post_hook ::= Z.div_mod_to_equations.

Definition ciphered (ctx : option (list Z -> list Z -> list Z)) : Prop := match ctx with None => True | Some xts => exists enc, unit_cipher 512 enc xts end.
Definition of_stream (s : stream) : source := mk_src (st_size s) (DataRead.stream_read s).

Lemma data_stream_safe v : bytes v -> safe_source (of_stream (stream_of_data v)).
Proof.
  intros B off n. unfold of_stream. cbn [src_read src_size]. unfold DataRead.stream_read, stream_of_data. cbn [st_size st_read]. pose proof (len_nonneg v).
  destruct ((0 <=? off) && (0 <=? n) && (n <=? 2 ^ 63 - 1)) eqn:C; cbn [check bind]; [|split; [exact I|discriminate]].
  destruct (len v <=? off) eqn:C2; [split; [exact I|]; intros d E; apply Ok_eq in E; subst d; split; [constructor|]; change (len (@nil Z)) with 0; lia|].
  unfold buffer_read. destruct ((0 <=? off) && (Z.min n (len v - off) <=? 2 ^ 63 - 1)) eqn:C3; cbn [check bind]; [|split; [exact I|discriminate]].
  rewrite C2. rewrite rd_in by lia. split; [exact I|]. intros d E. apply Ok_eq in E. subst d. split; [apply bytes_slice, B|]. rewrite len_slice by lia. lia.
Qed.

Lemma extents_stream_safe img ctx l size sparse s : bytes_image img -> ciphered ctx -> stream_of_extents img ctx l size sparse = Ok s -> safe_source (of_stream s).
Proof.
  intros HB HC H off n. unfold stream_of_extents in H. apply bind_ok in H. destruct H as (segs & E & H). apply Ok_eq in H. subst s. apply segments_index in E.
  unfold of_stream. cbn [src_read src_size]. unfold DataRead.stream_read. cbn [st_size st_read].
  destruct ((0 <=? off) && (0 <=? n) && (n <=? 2 ^ 63 - 1)) eqn:C; cbn [check bind]; [|split; [exact I|discriminate]].
  destruct (size <=? off) eqn:C2; [split; [exact I|]; intros d ED; apply Ok_eq in ED; subst d; split; [constructor|]; change (len (@nil Z)) with 0; lia|].
  set (m := Z.min n (size - off)). assert (Hm : 0 <= m <= n /\ m <= size - off) by lia. clearbody m.
  unfold handle_read. destruct ((0 <=? off) && (m <=? 2 ^ 63 - 1)) eqn:C3; cbn [check bind]; [|split; [exact I|discriminate]].
  destruct (vector_size segs <=? off); [split; [exact I|]; intros d ED; apply Ok_eq in ED; subst d; split; [constructor|]; change (len (@nil Z)) with 0; lia|].
  assert (BK : forall i, fine (read_data_block img ctx l segs i) /\ forall d, read_data_block img ctx l segs i = Ok d -> bytes d).
  { intros i. unfold read_data_block. destruct (find_segment segs (i * 4096)) as [(sg, so)|] eqn:F; [|split; [exact I|discriminate]].
    destruct (sg_sparse sg); [split; [exact I|]; intros d ED; apply Ok_eq in ED; subst d; apply zeros_bytes|]. cbv zeta.
    destruct (_ <? 2 ^ 63); cbn [check bind]; [|split; [exact I|discriminate]]. apply find_in in F. rewrite Forall_forall in E. specialize (E sg F).
    destruct (getb_in l (sg_index sg)) as (x & EG & _); [lia|]. rewrite EG. cbn [bind]. apply data_block_read_fine; assumption. }
  assert (G : forall f cur k, enough f cur k -> fine (DataRead.read_loop img ctx l segs f cur k) /\ forall d, DataRead.read_loop img ctx l segs f cur k = Ok d -> bytes d /\ len d <= Z.max 0 k).
  { induction f as [|f IH]; intros cur k Hf; unfold enough in Hf;
      (destruct (Z.le_gt_cases k 0) as [M|M]; [rewrite loop_stop by lia; split; [exact I|]; intros d ED; apply Ok_eq in ED; subst d; split; [constructor|change (len (@nil Z)) with 0; lia]|]); [lia|].
    rewrite loop_round by lia. unfold round. destruct (_ <=? int_max); cbn [check bind]; [|split; [exact I|discriminate]].
    destruct (BK (cur / 4096)) as (F & B). destruct (read_data_block img ctx l segs (cur / 4096)) as [b| | |] eqn:EB; cbn [bind]; try contradiction; [|split; [exact I|discriminate]].
    specialize (B b eq_refl). apply data_block_len in EB. cbv zeta. set (r := Z.min (4096 - cur mod 4096) k). assert (Hr : 0 <= r <= k /\ cur mod 4096 + r <= 4096) by lia.
    assert (LS : len (slice b (cur mod 4096) r) = r) by (rewrite len_slice; lia). assert (BS : bytes (slice b (cur mod 4096) r)) by (apply bytes_slice, B).
    destruct (vector_size segs <=? cur + r); [split; [exact I|]; intros d ED; apply Ok_eq in ED; subst d; split; [exact BS|lia]|].
    destruct (IH (cur + r) (k - r)) as (FR & BR); [unfold enough; lia|]. destruct (DataRead.read_loop img ctx l segs f (cur + r) (k - r)) as [rest| | |]; cbn [bind]; try contradiction; [|split; [exact I|discriminate]].
    specialize (BR rest eq_refl). split; [exact I|]. intros d ED. apply Ok_eq in ED. subst d. rewrite len_app. split; [apply bytes_app; split; [exact BS|apply BR]|lia]. }
  destruct (G (Z.to_nat (m / 4096 + 2)) off m) as (F & B); [unfold enough; lia|]. split; [exact F|]. intros d ED. specialize (B d ED). split; [apply B|]. lia.
Qed.

(* ---- names ---- *)
Lemma una_loop_fine next : fine_decoder next -> forall fuel str name, (length name <= fuel)%nat -> fine (una_loop next fuel str name).
Proof.
  intros HN. induction fuel as [|fuel IH]; intros str name H; cbn [una_loop]; destruct str as [|a str]; destruct name as [|b name]; try exact I; [cbn in H; lia|].
  apply fine_bind; [apply HN|]. intros (c, s) _. apply fine_bind; [apply utf8_fine|]. intros (d, r) E. destruct (c =? d); [|exact I]. apply IH.
  apply utf8_decoder in E. destruct E as (E & _). cbn [length] in *. lia.
Qed.
Lemma strip_short l : (length (strip l) <= length l)%nat.
Proof.
  unfold strip. destruct (rev l) as [|x r] eqn:E; [lia|]. assert (L : length l = S (length r)) by (rewrite <- (rev_length l), E; reflexivity).
  destruct x; try lia. rewrite rev_length. lia.
Qed.
Lemma drop_bom_short l : (length (drop_bom l) <= length l)%nat.
Proof. destruct l as [|a [|b [|c r]]]; cbn [drop_bom]; try lia. destruct (_ && _); cbn [length]; lia. Qed.
Lemma una_equal_fine next str name : fine_decoder next -> fine (una_equal next str name).
Proof. intros HN. apply una_loop_fine; [exact HN|]. pose proof (strip_short name). pose proof (drop_bom_short (strip name)). lia. Qed.

(* ---- attributes ---- *)
Definition good_attr (a : attr) : Prop := match at_data a with AInline v => bytes v | _ => True end.
Lemma read_attr_good e a : entry_bytes e -> read_attr e = Ok a -> good_attr a.
Proof.
  intros (B1 & B2) H. unfold read_attr in H. apply bind_ok in H. destruct H as (name & _ & H). apply bind_ok in H. destruct H as ((flags, d) & E & H). apply Ok_eq in H. subst a.
  unfold good_attr. cbn [at_data]. unfold attr_value in E. apply bind_ok in E. destruct E as (u & _ & E). apply bind_ok in E. destruct E as (fl & _ & E). apply bind_ok in E. destruct E as (ds & _ & E).
  apply bind_ok in E. destruct E as (u1 & _ & E). destruct (negb (Z.land fl 1 =? 0)).
  - apply bind_ok in E. destruct E as (u2 & _ & E). apply bind_ok in E. destruct E as (i & _ & E). apply bind_ok in E. destruct E as (us & _ & E). apply Ok_eq in E. injection E as <- <-. exact I.
  - destruct (_ && _); [|apply Ok_eq in E; injection E as <- <-; exact I]. apply bind_ok in E. destruct E as (v & EV & E). apply Ok_eq in E. injection E as <- <-.
    apply rd_ok in EV. destruct EV as (_ & _ & _ & ->). apply bytes_slice, B2.
Qed.
Lemma enum_leaf_all {A} (R : A -> Prop) parse look id es l : (forall e a, entry_bytes e -> parse e = Ok a -> R a) -> Forall entry_bytes es -> enum_leaf parse look id es = Ok l -> Forall R l.
Proof.
  intros HP HE. revert l. induction HE as [|e es He HE IH]; intros l; cbn [enum_leaf]; [intros H; apply Ok_eq in H; subst; constructor|]. intros H.
  apply bind_ok in H. destruct H as (k & _ & H). destruct (id <? word_id k); [apply Ok_eq in H; subst; constructor|]. destruct (k =? look); [|apply IH, H].
  apply bind_ok in H. destruct H as (a & E & H). apply bind_ok in H. destruct H as (r & E2 & H). apply Ok_eq in H. subst l. constructor; [eapply HP; eassumption|apply IH, E2].
Qed.

Section Tree.
  Variable t : fs.
  Hypothesis HF : bytes_image (fs_img t).
  Hypothesis HO : bytes_image (fs_omap t).
  Lemma fs_attrs_good id l : fs_attrs t id = Ok l -> Forall good_attr l.
  Proof.
    intros H. unfold fs_attrs, fs_walk in H.
    apply (walk_all _ (fs_sub t) (attr_walker id) (fun n => Forall entry_bytes (bn_entries n)) (Forall good_attr)) in H; auto.
    - exact (fs_sub_entries t HF).
    - intros n a HG HL. change (enum_leaf read_attr (lookup_word 4 id) id (bn_entries n) = Ok a) in HL. eapply enum_leaf_all; [apply read_attr_good|exact HG|exact HL].
    - constructor.
    - intros a b HA HB. apply Forall_app. auto.
    - apply fs_root_entries, HF.
  Qed.
  Lemma fs_attrs_fine id : fine (fs_attrs t id).
  Proof. apply fs_walk_fine; auto. apply attr_walker_fine. Qed.
  Lemma fs_extents_fine id : fine (fs_extents t id).
  Proof. apply fs_walk_fine; auto. apply extent_walker_fine. Qed.
  Lemma fs_dir_fine id : fine (fs_dir t id).
  Proof. apply fs_walk_fine; auto. apply dir_walker_fine. Qed.
End Tree.

(* ---- an open entry ---- *)
Section Entry.
  Variable lzvn : list Z -> Z -> res (list Z).
  Variable junk : list Z -> list Z -> list Z.
  Hypothesis HL : forall d, bytes d -> lzvn d 65536 = Fail \/ exists out, lzvn d 65536 = Ok out /\ len out <= 65536.
  Hypothesis HJ : forall d s, len (junk d s) = len s.
  Variable e : fentry.
  Hypothesis HF : bytes_image (fs_img (fe_tree e)).
  Hypothesis HO : bytes_image (fs_omap (fe_tree e)).
  Hypothesis HB : bytes_image (fe_img e).
  Hypothesis HC : ciphered (fe_ctx e).
  (* the tables of the compressed data fit *)
  Definition tables_fit : Prop := forall l x s, fs_attrs (fe_tree e) (fe_id e) = Ok l -> In x l -> attr_stream e x = Ok (Some s) -> table_fits (of_stream s).
  Hypothesis HT : tables_fit.

  Lemma attr_stream_fine x : fine (attr_stream e x).
  Proof.
    unfold attr_stream. destruct (Z.testbit (at_flags x) 0).
    - destruct (at_data x) as [sid size| |]; try exact I. apply fine_bind; [apply fs_extents_fine; assumption|]. intros l _. apply fine_bind; [|intros; exact I].
      apply fine_bind; [apply segments_fine|intros; exact I].
    - destruct (Z.testbit (at_flags x) 1); exact I.
  Qed.
  Lemma attr_stream_safe x s : good_attr x -> attr_stream e x = Ok (Some s) -> safe_source (of_stream s).
  Proof.
    intros G H. unfold attr_stream in H. destruct (Z.testbit (at_flags x) 0).
    - destruct (at_data x) as [sid size| |]; try discriminate. apply bind_ok in H. destruct H as (l & _ & H). apply bind_ok in H. destruct H as (s' & E & H). apply Ok_eq in H. injection H as ->.
      eapply extents_stream_safe; [exact HB|exact HC|exact E].
    - destruct (Z.testbit (at_flags x) 1); [|discriminate]. apply Ok_eq in H. injection H as <-. apply data_stream_safe. unfold good_attr in G. destruct (at_data x); auto; constructor.
  Qed.
  Lemma read_all_fine o off n : (forall s, o = Some s -> safe_source (of_stream s)) -> fine (read_all o off n).
  Proof.
    intros H. destruct o as [s|]; [|exact I]. cbn [read_all]. apply fine_bind; [apply (H s eq_refl off n)|]. intros d _. apply fine_bind; [apply fine_check|]. intros; exact I.
  Qed.
  Lemma header_fine d : fine (read_compressed_header d).
  Proof.
    unfold read_compressed_header. apply fine_bind; [apply fine_check|]. intros u C. apply check_ok in C. apply fine_bind; [apply fine_rd; lia|]. intros sig _.
    destruct (negb _); [exact I|]. apply fine_bind; [apply rd_le_fine; lia|]. intros m _. apply fine_bind; [apply rd_le_fine; lia|]. intros; exact I.
  Qed.

  Definition among (l : list attr) (o : option attr) : Prop := match o with None => True | Some x => In x l end.
  Definition attrs_ok (a : fattrs) : Prop := exists l, fs_attrs (fe_tree e) (fe_id e) = Ok l /\ among l (fa_comp a) /\ among l (fa_fork a) /\ among l (fa_link a) /\ fa_all a = l.
  Definition body_ok (b : body) : Prop :=
    match b with
    | Plain s => safe_source (of_stream s)
    | Packed method src usize h => safe_source src /\ In method [METHOD_DEFLATE; METHOD_LZVN; METHOD_UNKNOWN5] /\ table_fits src /\ source_safe src h
    end.
  Definition st_ok (st : fstate) : Prop :=
    match f_attrs st with None => True | Some a => attrs_ok a end /\ match f_body st with None => True | Some b => body_ok b end.
  Definition safeM {A} (R : A -> Prop) (m : M fstate A) : Prop := forall st, st_ok st -> fine (fst (m st)) /\ st_ok (snd (m st)) /\ forall a, fst (m st) = Ok a -> R a.
  Lemma safe_bind {A B} (R : A -> Prop) (T : B -> Prop) (m : M fstate A) k : safeM R m -> (forall a, R a -> safeM T (k a)) -> safeM T (bindM m k).
  Proof.
    intros Hm Hk st G. destruct (Hm st G) as (F & G1 & P). unfold bindM. destruct (m st) as (r, st1). cbn [fst snd] in *.
    destruct r as [a| | |]; try contradiction; [|cbn [fst snd]; split; [exact I|]; split; [exact G1|discriminate]]. apply (Hk a (P a eq_refl) st1 G1).
  Qed.
  Lemma safe_ret {A} (R : A -> Prop) r : fine r -> (forall a, r = Ok a -> R a) -> safeM R (retM r).
  Proof. intros F P st G. cbn. auto. Qed.
  Lemma safe_on {A B} (T : B -> Prop) (r : res A) k : fine r -> (forall a, r = Ok a -> safeM T (k a)) -> safeM T (onM r k).
  Proof. intros F Hk. apply (safe_bind (fun a => r = Ok a)); [apply safe_ret; auto|exact Hk]. Qed.
  Definition any {A} (_ : A) : Prop := True.

  Lemma classify_ok l : forall xs a, (forall x, In x xs -> In x l) -> among l (fa_comp a) -> among l (fa_fork a) -> among l (fa_link a) ->
    fine (classify xs a) /\ forall b, classify xs a = Ok b -> among l (fa_comp b) /\ among l (fa_fork b) /\ among l (fa_link b).
  Proof.
    induction xs as [|x xs IH]; intros a HI H1 H2 H3; cbn [classify]; [split; [exact I|]; intros b E; apply Ok_eq in E; subst b; auto|].
    assert (HX : In x l) by (apply HI; left; reflexivity). assert (HI2 : forall y, In y xs -> In y l) by (intros; apply HI; right; assumption).
    pose proof (una_equal_fine utf8_next decmpfs_key (at_name x) utf8_fine) as F1. destruct (una_equal utf8_next decmpfs_key (at_name x)) as [[]| | |]; cbn [bind]; try contradiction; [apply IH; auto| |split; [exact I|discriminate]].
    pose proof (una_equal_fine utf8_next fork_key (at_name x) utf8_fine) as F2. destruct (una_equal utf8_next fork_key (at_name x)) as [[]| | |]; cbn [bind]; try contradiction; [apply IH; auto| |split; [exact I|discriminate]].
    pose proof (una_equal_fine utf8_next symlink_key (at_name x) utf8_fine) as F3. destruct (una_equal utf8_next symlink_key (at_name x)) as [[]| | |]; cbn [bind]; try contradiction; [apply IH; auto|apply IH; auto|split; [exact I|discriminate]].
  Qed.
  Lemma classify_all : forall l a b, classify l a = Ok b -> fa_all b = fa_all a.
  Proof.
    induction l as [|x l IH]; intros a b H; cbn [classify] in H; [apply Ok_eq in H; subst; reflexivity|]. apply bind_ok in H. destruct H as (c & _ & H).
    destruct c; [apply IH in H; exact H|]. apply bind_ok in H. destruct H as (c & _ & H). destruct c; [apply IH in H; exact H|].
    apply bind_ok in H. destruct H as (c & _ & H). destruct c; apply IH in H; exact H.
  Qed.
  Lemma get_attrs_safe : safeM attrs_ok (get_attrs e).
  Proof.
    intros st G. unfold get_attrs. destruct (f_attrs st) as [a|] eqn:EA.
    - cbn [fst snd]. split; [exact I|]. split; [exact G|]. intros b E. apply Ok_eq in E. subst b. destruct G as (G & _). rewrite EA in G. exact G.
    - revert st EA G. intros st _ G. apply (safe_on attrs_ok (let! l := fs_attrs (fe_tree e) (fe_id e) in classify l (mk_fa l None None None))); [| |exact G].
      + apply fine_bind; [apply fs_attrs_fine; assumption|]. intros l _. apply (classify_ok l); cbn; auto.
      + intros a E st1 (G1 & G2). apply bind_ok in E. destruct E as (l & EL & E).
        assert (K : attrs_ok a).
        { exists l. split; [exact EL|]. destruct (classify_ok l l (mk_fa l None None None)) as (_ & K); cbn; auto. destruct (K a E) as (K1 & K2 & K3).
          repeat (split; [assumption|]). apply (classify_all _ _ _ E). }
        cbn [fst snd]. split; [exact I|]. split; [split; [exact K|exact G2]|]. intros b E2. apply Ok_eq in E2. subst b. exact K.
  Qed.
  Lemma good_among l x : fs_attrs (fe_tree e) (fe_id e) = Ok l -> In x l -> good_attr x.
  Proof. intros E HI. apply fs_attrs_good in E; [|assumption]. rewrite Forall_forall in E. auto. Qed.
  Lemma get_data_size_safe : safeM any (get_data_size e).
  Proof.
    intros st G. unfold get_data_size. destruct (f_header st); [cbn [fst snd]; split; [exact I|]; split; [exact G|discriminate]|].
    revert st G. apply (safe_bind attrs_ok); [apply get_attrs_safe|]. intros a (l & EL & A1 & _). destruct (fa_comp a) as [x|].
    - apply safe_on.
      + apply fine_bind; [apply attr_stream_fine|]. intros s ES. apply fine_bind; [|intros; apply header_fine]. apply read_all_fine. intros s' ->.
        eapply attr_stream_safe; [eapply good_among; [exact EL|exact A1]|exact ES].
      + intros [[m z]|] _ st G; cbn; (split; [exact I|]); (split; [exact G|]); intros; exact I.
    - intros st G. cbn. split; [exact I|]. split; [exact G|]. intros; exact I.
  Qed.
  Lemma need_size_safe : safeM any (need_size e).
  Proof.
    intros st G. unfold need_size. destruct (f_size st =? unset); [|cbn; repeat split; auto; apply G].
    revert st G. apply (safe_bind any); [apply get_data_size_safe|]. intros u _ st G. cbn. repeat split; auto; apply G.
  Qed.
  Lemma get_extents_safe : safeM any (get_extents e).
  Proof.
    intros st G. unfold get_extents. destruct (f_extents st); [cbn; repeat split; auto; apply G|].
    revert st G. apply safe_on; [apply fs_extents_fine; assumption|]. intros l _ st G. cbn. repeat split; auto; apply G.
  Qed.
  Lemma method_of_in m m' : method_of m = Ok m' -> In m' [METHOD_DEFLATE; METHOD_LZVN; METHOD_UNKNOWN5].
  Proof. unfold method_of. repeat match goal with |- context [if ?b then _ else _] => destruct b end; intros H; try discriminate; apply Ok_eq in H; subst m'; cbn; auto. Qed.
  Lemma get_data_stream_safe : safeM any (get_data_stream e).
  Proof.
    apply (safe_bind any); [apply need_size_safe|]. intros size _ st G. destruct (f_header st) as [(m, z)|].
    - destruct (f_attrs st) as [a|] eqn:EA.
      2:{ unfold onM, bindM, retM. unfold method_of. repeat match goal with |- context [if ?b then _ else _] => destruct b end; cbn; repeat split; auto; apply G. }
      assert (HA : attrs_ok a) by (destruct G as (G & _); rewrite EA in G; exact G). destruct HA as (l & EL & A1 & A2 & _).
      assert (AX : among l (if (m =? 4) || (m =? 8) then fa_fork a else fa_comp a)) by (destruct (_ || _); assumption).
      revert st EA G. intros st _ G. revert st G. apply safe_on.
      + apply fine_bind; [unfold method_of; repeat match goal with |- context [if ?b then _ else _] => destruct b end; exact I|]. intros method _.
        destruct (if (m =? 4) || (m =? 8) then fa_fork a else fa_comp a) as [x|]; cbn [bind]; [|exact I]. apply fine_bind; [apply attr_stream_fine|]. intros [s|] _; [|exact I].
        apply fine_bind; [apply fine_check|]. intros; exact I.
      + intros b E st G. apply bind_ok in E. destruct E as (method & EM & E). apply method_of_in in EM.
        destruct (if (m =? 4) || (m =? 8) then fa_fork a else fa_comp a) as [x|]; cbn [bind] in E; [|discriminate]. apply bind_ok in E. destruct E as ([s|] & ES & E); [|discriminate].
        apply bind_ok in E. destruct E as (u & _ & E). apply Ok_eq in E. subst b. cbn [fst snd]. split; [exact I|]. split; [|intros; exact I].
        split; [apply G|]. cbn [set_body f_body body_ok]. split; [eapply attr_stream_safe; [eapply good_among; [exact EL|exact AX]|exact ES]|]. split; [exact EM|].
        split; [eapply HT; [exact EL|exact AX|exact ES]|apply source_init_safe].
    - revert st G. apply (safe_bind any); [apply get_extents_safe|]. intros l _. apply safe_on; [apply fine_bind; [apply segments_fine|intros; exact I]|].
      intros s ES st G. cbn [fst snd]. split; [exact I|]. split; [|intros; exact I]. split; [apply G|]. cbn [set_body f_body body_ok].
      eapply extents_stream_safe; [exact HB|exact HC|exact ES].
  Qed.
  Lemma need_stream_safe : safeM body_ok (need_stream e).
  Proof.
    intros st G. unfold need_stream. destruct (f_body st) as [b|] eqn:EB.
    - cbn [fst snd]. split; [exact I|]. split; [exact G|]. intros b' E. apply Ok_eq in E. subst b'. destruct G as (_ & G). rewrite EB in G. exact G.
    - revert st EB G. intros st _ G. revert st G. apply (safe_bind any); [apply get_data_stream_safe|]. intros u _ st G. cbn [fst snd]. pose proof (proj2 G) as GB.
      destruct (f_body st) as [b|]; (split; [exact I|]); (split; [exact G|]); [|discriminate]. intros b' E. apply Ok_eq in E. subst b'. exact GB.
  Qed.
  Lemma set_body_ok st b c : st_ok st -> body_ok b -> st_ok (set_body st b c).
  Proof. intros (G1 & G2) HB2. split; [exact G1|exact HB2]. Qed.
  Lemma body_read_safe b off n : body_ok b -> fine (fst (body_read lzvn junk b off n)) /\ body_ok (snd (body_read lzvn junk b off n)).
  Proof.
    intros G. destruct b as [s|method src usize h]; cbn [body_read].
    - cbn [fst snd]. split; [apply (G off n)|exact G].
    - destruct ((0 <=? off) && (0 <=? n) && (n <=? 2 ^ 63 - 1)) eqn:C; [|cbn [fst snd]; split; [exact I|exact G]].
      destruct G as (G1 & G2 & G3 & G4). destruct (source_read_safe (decompress_data lzvn method) junk method src usize HJ (decompress_safe lzvn method HL) G1 G2 (fun _ => G3) h off n G4 ltac:(lia)) as (A & B).
      destruct (file_read _ _ _ _ _ _ _ _) as (r, h'). cbn [fst snd] in *. split; [exact A|]. split; [exact G1|]. auto.
  Qed.
  Lemma entry_read_safe off n : safeM any (entry_read lzvn junk e off n).
  Proof.
    apply (safe_bind body_ok); [apply need_stream_safe|]. intros b HB2 st G. cbv zeta. set (o := match off with Some o => o | None => f_cur st end).
    destruct (o <? 0); [cbn [fst snd]; split; [exact I|]; split; [exact G|discriminate]|]. destruct (body_read_safe b o n HB2) as (F & B2).
    destruct (body_read lzvn junk b o n) as (r, b'). cbn [fst snd] in *.
    destruct r as [d| | |]; try contradiction; cbn [fst snd]; (split; [exact I|]); (split; [apply set_body_ok; assumption|]); intros; [exact I|discriminate].
  Qed.
  Lemma entry_seek_safe off w : safeM any (entry_seek e off w).
  Proof.
    apply (safe_bind body_ok); [apply need_stream_safe|]. intros b HB2 st G. cbv zeta.
    destruct (if w =? 0 then _ else _) as [x|]; [|cbn [fst snd]; split; [exact I|]; split; [exact G|discriminate]].
    destruct (x + off <? 0); cbn [fst snd]; (split; [exact I|]); (split; [|intros; exact I]); [exact G|apply set_body_ok; assumption].
  Qed.
  Lemma entry_link_safe : safeM any (entry_link e).
  Proof.
    intros st G. unfold entry_link. destruct (f_link st); [cbn; repeat split; auto; apply G|].
    revert st G. apply (safe_bind attrs_ok); [apply get_attrs_safe|]. intros a (l & EL & _ & _ & A3 & _). destruct (fa_link a) as [x|]; [|apply safe_ret; [exact I|intros; exact I]].
    apply safe_on.
    - apply fine_bind; [apply fine_check|]. intros u _. apply fine_bind; [apply attr_stream_fine|]. intros s ES. apply read_all_fine. intros s' ->.
      eapply attr_stream_safe; [eapply good_among; [exact EL|exact A3]|exact ES].
    - intros v _ st G. cbn. repeat split; auto; apply G.
  Qed.
  Lemma get_dir_safe : safeM any (get_dir e).
  Proof.
    intros st G. unfold get_dir. destruct (f_dir st); [cbn; repeat split; auto; apply G|].
    revert st G. apply safe_on; [apply fs_dir_fine; assumption|]. intros l _ st G. cbn. repeat split; auto; apply G.
  Qed.
  Lemma index_fine {A} (l : list A) i : fine (if (0 <=? i) && (i <? len l) then getb l i else Fail).
  Proof. destruct ((0 <=? i) && (i <? len l)) eqn:C; [|exact I]. apply fine_getb. lia. Qed.
  Lemma attr_by_name_fine next str : fine_decoder next -> forall l, fine (attr_by_name next str l).
  Proof. intros HN. induction l as [|x l IH]; cbn [attr_by_name]; [exact I|]. apply fine_bind; [apply una_equal_fine, HN|]. intros [] _; [exact I|exact IH]. Qed.

  Lemma call_safe c st : st_ok st -> exists a st', entry_call lzvn junk e c st = Ok (a, st') /\ st_ok st'.
  Proof.
    intros G.
    assert (K : forall A (R : A -> Prop) f (m : M fstate A), safeM R m -> exists a st', answer_of f m st = Ok (a, st') /\ st_ok st').
    { intros A R f m Hm. destruct (Hm st G) as (F & G1 & _). unfold answer_of. destruct (m st) as (r, st1). cbn [fst snd] in *. destruct r; try contradiction; eexists; eexists; (split; [reflexivity|exact G1]). }
    destruct c as [|n|off n|off w| | |i| |]; cbn [entry_call]; eapply K.
    - apply need_size_safe.
    - apply entry_read_safe.
    - apply entry_read_safe.
    - apply entry_seek_safe.
    - apply (safe_bind body_ok); [apply need_stream_safe|]. intros b _ st1 G1. cbn [fst snd]. split; [exact I|]. split; [exact G1|]. intros; exact I.
    - apply (safe_bind any); [apply get_extents_safe|]. intros l _. apply (safe_ret any); [exact I|intros; exact I].
    - apply (safe_bind any); [apply get_extents_safe|]. intros l _. apply (safe_ret any); [|intros; exact I].
      destruct ((0 <=? i) && (i <? len l)) eqn:C; [|exact I]. apply fine_bind; [apply fine_getb; lia|]. intros; exact I.
    - apply (safe_bind attrs_ok); [apply get_attrs_safe|]. intros a _. apply (safe_ret any); [exact I|intros; exact I].
    - apply entry_link_safe.
  Qed.
  Theorem calls_safe : forall cs st, st_ok st -> exists l st', entry_calls lzvn junk e cs st = Ok (l, st') /\ length l = length cs.
  Proof.
    induction cs as [|c cs IH]; intros st G; cbn [entry_calls]; [exists [], st; auto|]. destruct (call_safe c st G) as (a & st1 & -> & G1). cbn [bind].
    destruct (IH st1 G1) as (l & st2 & -> & L). cbn [bind]. eexists. eexists. split; [reflexivity|]. cbn. lia.
  Qed.
End Entry.
