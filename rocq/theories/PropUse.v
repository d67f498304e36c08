(* C106: using whatever is on the device. *)
From Coq Require Import Lia.
From Verif Require Import Base BaseLemmas BTree BTreeProofs Walk WalkProofs Omap OmapProofs TreeSpec OmapSpec Records RecordsSpec RecordsProofs FsTree FsSpec FsProofs Name NameSpec NameProofs FsName FsNameProofs
  CryptSpec Crypt KeyBag Volume Container ContainerProofs VolumeSuper DataRead DataSplit PropData Compressed Session SessionSpec SessionProofs PropSession Snapshot SnapProofs FileEntry EntryName ExtAttr Use
  SafeSource SafeUse SafeSession
  BTreeSpec FsLookup PropFs PropOmap DataSpec DataProofs CompressedSpec CompressedTop PropCompressed FileSpec FileProofs FileTop PropFile PropAttr PropVolume Aes Sha256 PropToolInfo.
Ltac Zify.zify_post_hook ::= Z.div_mod_to_equations.

Lemma text_fine mem : fine (stream_text mem (len mem)).
Proof.
  destruct (Z_lt_ge_dec (len mem) 3) as [C|C]; [|apply stream_text_fine; lia]. unfold stream_text. replace (len mem <? 3) with true by lia. cbn [bind].
  apply stream_points_fine; lia.
Qed.
Lemma returns_fine {A} (r : res A) : fine r -> returns r = Ok tt.
Proof. destruct r; cbn; intros H; try contradiction; reflexivity. Qed.

Section Reached.
  Variables (img : image) (ov : open_volume) (ctx : option (list Z -> list Z -> list Z)) (t : fs).
  Lemma reached_same e : reached img ov ctx t e -> fe_tree e = t /\ fe_img e = img /\ fe_ctx e = ctx.
  Proof.
    induction 1 as [c id v rec _|e i st x st' _ IH H|e u str x _ IH H|e x _ IH H].
    - repeat split.
    - unfold entry_sub, bindM, retM in H. destruct (get_dir e st) as ([l| | |], st1); try discriminate. injection H as H _. destruct ((0 <=? i) && (i <? len l)); [|discriminate].
      apply bind_ok in H. destruct H as (d & _ & H). apply bind_ok in H. destruct H as ([(id, v)|] & _ & H); [|discriminate]. apply Ok_eq in H. subst x. exact IH.
    - unfold entry_sub_by_name in H. apply bind_ok in H. destruct H as ([((id, v), d)|] & _ & H); [|discriminate]. apply Ok_eq in H. injection H as <-. exact IH.
    - unfold entry_parent in H. destruct (2 <? fe_id e); [|discriminate]. apply bind_ok in H. destruct H as ([(id, v)|] & _ & H); [|discriminate]. apply Ok_eq in H. injection H as <-. exact IH.
  Qed.
End Reached.

Section Use.
  Variable lzvn : list Z -> Z -> res (list Z).
  Variable junk : list Z -> list Z -> list Z.
  Hypothesis HL : forall d, bytes d -> lzvn d 65536 = Fail \/ exists out, lzvn d 65536 = Ok out /\ len out <= 65536.
  Hypothesis HJ : forall d s, len (junk d s) = len s.
  Variable e : fentry.
  Hypothesis HF : bytes_image (fs_img (fe_tree e)).
  Hypothesis HO : bytes_image (fs_omap (fe_tree e)).
  Hypothesis HB : bytes_image (fe_img e).
  Hypothesis HC : ciphered (fe_ctx e).

  (* attributes *)
  Section Attr.
    Variable a : attr.
    Hypothesis HA : good_attr a.
    Definition xok (st : xstate) : Prop := match x_stream st with Some s => safe_source (of_stream s) | None => True end.
    Definition xsafe {A} (m : M xstate A) : Prop := forall st, xok st -> fine (fst (m st)) /\ xok (snd (m st)).
    Lemma x_need_safe : xsafe (x_need e a).
    Proof.
      intros st G. unfold x_need. destruct (x_stream st) eqn:ES; [cbn; split; [exact I|exact G]|]. unfold x_data_stream. destruct (Z.testbit (at_flags a) 0).
      - destruct (at_data a) as [sid size| |]; try (cbn; split; [exact I|exact G]).
        assert (F : fine (match x_extents st with Some l => Ok l | None => fs_extents (fe_tree e) sid end)) by (destruct (x_extents st); [exact I|apply fs_extents_fine; assumption]).
        destruct (match x_extents st with Some l => Ok l | None => fs_extents (fe_tree e) sid end) as [l| | |]; try contradiction; [|cbn; split; [exact I|exact G]].
        assert (F2 : fine (stream_of_extents (fe_img e) (fe_ctx e) l size false)) by (apply fine_bind; [apply segments_fine|intros; exact I]).
        destruct (stream_of_extents (fe_img e) (fe_ctx e) l size false) as [s| | |] eqn:E; try contradiction; cbn; (split; [exact I|]); [|exact I].
        eapply extents_stream_safe; [exact HB|exact HC|exact E].
      - destruct (Z.testbit (at_flags a) 1); cbn; (split; [exact I|]); [|exact G]. unfold xok. cbn [x_stream]. apply data_stream_safe. unfold good_attr in HA. destruct (at_data a); auto; constructor.
    Qed.
    Lemma x_bind {A B} (m : M xstate A) (k : A -> M xstate B) : xsafe m -> (forall a, xsafe (k a)) -> xsafe (bindM m k).
    Proof. intros Hm Hk st G. destruct (Hm st G) as (F & G1). unfold bindM. destruct (m st) as (r, st1). cbn [fst snd] in *. destruct r; try contradiction; [apply Hk, G1|split; [exact I|exact G1]]. Qed.
    Lemma x_call_safe c st : xok st -> exists r st', x_call e a c st = Ok (r, st') /\ xok st'.
    Proof.
      intros G.
      assert (K : forall A f (m : M xstate A), xsafe m -> exists r st', x_answer f m st = Ok (r, st') /\ xok st').
      { intros A f m Hm. destruct (Hm st G) as (F & G1). unfold x_answer. destruct (m st) as (r, st1). cbn [fst snd] in *. destruct r; try contradiction; eauto. }
      assert (R : forall A (r : res A), fine r -> xsafe (retM r)) by (intros A r F st1 G1; cbn; auto).
      assert (U : forall u, fine (x_units a u)) by (intros u; apply fine_bind; [apply text_fine|intros; exact I]).
      assert (RD : forall o n, xsafe (x_read e a o n)).
      { intros o n. apply x_bind; [apply x_need_safe|]. intros _ st1 G1. unfold xok in G1. destruct (x_stream st1) as [s|] eqn:ES; [|cbn; unfold xok; rewrite ES; split; exact I].
        cbv zeta. destruct (_ <? 0); [cbn; unfold xok; rewrite ES; split; [exact I|exact G1]|].
        destruct (G1 (match o with Some o => o | None => x_cur st1 end) n) as (F & _). unfold of_stream in F. cbn [src_read] in F.
        destruct (DataRead.stream_read s _ n); try contradiction; cbn; split; try exact I; exact G1. }
      destruct c as [|u|u n| |n|o n|o w| | |k]; cbn [x_call]; apply K.
      - apply R. exact I.
      - apply R. apply fine_bind; [apply U|intros; exact I].
      - apply R. apply fine_bind; [apply U|]. intros s _. apply fine_bind; [apply fine_check|intros; exact I].
      - apply R. exact I.
      - apply RD.
      - apply RD.
      - apply x_bind; [apply x_need_safe|]. intros _ st1 G1. unfold xok in G1. destruct (x_stream st1) as [s|] eqn:ES.
        + cbv zeta. destruct (if w =? 0 then _ else _) as [b|]; [|cbn; unfold xok; rewrite ES; split; [exact I|exact G1]]. destruct (b + o <? 0); cbn; unfold xok; cbn [x_stream]; rewrite ?ES; (split; [exact I|exact G1]).
        + destruct (o <? 0); cbn; unfold xok; rewrite ES; split; exact I.
      - apply x_bind; [apply x_need_safe|]. intros _ st1 G1. cbn. split; [exact I|exact G1].
      - apply x_bind; [apply x_need_safe|]. intros _ st1 G1. cbn. split; [exact I|exact G1].
      - apply x_bind; [apply x_need_safe|]. intros _ st1 G1. cbn [fst snd]. split; [|exact G1]. destruct (x_extents st1) as [l|]; [|exact I].
        destruct ((0 <=? k) && (k <? len l)) eqn:C; [|exact I]. apply fine_bind; [apply fine_getb; lia|intros; exact I].
    Qed.
    Lemma x_calls_safe : forall cs st, xok st -> exists l st', x_calls e a cs st = Ok (l, st').
    Proof.
      induction cs as [|c cs IH]; intros st G; cbn [x_calls]; [eauto|]. destruct (x_call_safe c st G) as (r & st1 & -> & G1). cbn [bind]. destruct (IH st1 G1) as (l & st2 & ->). cbn [bind]. eauto.
    Qed.
  End Attr.

  Hypothesis HT : tables_fit e.
  Lemma use_attr_safe (m : M fstate (option attr)) cs st : safeM e (fun o => match o with Some a => good_attr a | None => True end) m -> st_ok e st ->
    exists st', use_attr e m cs st = Ok st' /\ st_ok e st'.
  Proof.
    intros Hm G. destruct (Hm st G) as (F & G1 & P). unfold use_attr. destruct (m st) as (r, st1). cbn [fst snd] in *.
    destruct r as [[a|]| | |]; try contradiction; try (exists st1; split; [reflexivity|exact G1]).
    destruct (x_calls_safe a (P _ eq_refl) cs x_init I) as (l & st2 & ->). cbn [bind]. eauto.
  Qed.
  Lemma use_call_safe fold c st : st_ok e st -> exists st', use_call lzvn junk fold e c st = Ok st' /\ st_ok e st'.
  Proof.
    intros G.
    assert (D : forall u : bool, fine_decoder (if u then utf16_next else utf8_next)) by (intros []; [exact utf16_fine|exact utf8_fine]).
    assert (T : fine (entry_text e)) by (unfold entry_text; destruct (fe_rec e); [apply text_fine|]; destruct (in_name (fe_inode e)); [apply text_fine|exact I]).
    assert (GA : forall a, attrs_ok e a -> Forall good_attr (fa_all a)).
    { intros a (l & EL & _ & _ & _ & ->). apply Forall_forall. intros x HI. eapply good_among; eassumption. }
    destruct c as [c|c|u|u n|u str| |i cs|u str cs]; cbn [use_call].
    - destruct (call_safe lzvn junk HL HJ e HF HO HB HC HT c st G) as (a & st1 & -> & G1). cbn [bind]. eauto.
    - assert (DS : forall i, safeM e any (entry_sub e i)).
      { intros i. apply (safe_bind e any); [apply get_dir_safe; assumption|]. intros l _. apply (safe_ret e any); [|intros; exact I].
        destruct ((0 <=? i) && (i <? len l)) eqn:C; [|exact I]. apply fine_bind; [apply fine_getb; lia|]. intros d _. apply fine_bind; [apply fs_inode_fine; assumption|]. intros [(id, v)|] _; exact I. }
      assert (DC : safeM e any (entry_subs e)).
      { apply (safe_bind e any); [apply get_dir_safe; assumption|]. intros l _. apply (safe_ret e any); [exact I|intros; exact I]. }
      destruct c as [|i]; cbn [dir_call].
      + destruct (DC st G) as (F & G1 & _). destruct (entry_subs e st) as (r, st1). cbn [fst snd] in *. destruct r; try contradiction; cbn [bind]; eauto.
      + destruct (DS i st G) as (F & G1 & _). destruct (entry_sub e i st) as (r, st1). cbn [fst snd] in *. destruct r; try contradiction; cbn [bind]; eauto.
    - rewrite returns_fine; [cbn [bind]; eauto|]. apply fine_bind; [exact T|intros; exact I].
    - rewrite returns_fine; [cbn [bind]; eauto|]. apply fine_bind; [exact T|]. intros s _. apply fine_bind; [apply fine_check|intros; exact I].
    - rewrite returns_fine; [cbn [bind]; eauto|]. apply fine_bind; [apply fs_by_path_fine; auto|]. intros [((id, v), d)|] _; exact I.
    - rewrite returns_fine; [cbn [bind]; eauto|]. unfold entry_parent. destruct (2 <? fe_id e); [|exact I]. apply fine_bind; [apply fs_inode_fine; assumption|]. intros [(id, v)|] _; exact I.
    - apply use_attr_safe; [|exact G]. apply (safe_bind e good_attr).
      + apply (safe_bind e (attrs_ok e)); [apply get_attrs_safe; assumption|]. intros a K. apply safe_ret.
        * apply index_fine.
        * intros x E. destruct ((0 <=? i) && (i <? len (fa_all a))); [|discriminate]. specialize (GA a K). rewrite Forall_forall in GA. apply GA.
          unfold getb in E. destruct (_ && _); [|discriminate]. destruct (nth_error (fa_all a) (Z.to_nat i)) eqn:N; [|discriminate]. apply Ok_eq in E. subst x. eapply nth_error_In, N.
      + intros a Ga. apply safe_ret; [exact I|]. intros o E. apply Ok_eq in E. subst o. exact Ga.
    - apply use_attr_safe; [|exact G]. apply (safe_bind e (attrs_ok e)); [apply get_attrs_safe; assumption|]. intros a K. apply safe_ret; [apply attr_by_name_fine, D|].
      intros o E. specialize (GA a K). clear K. induction (fa_all a) as [|x l IH]; cbn [attr_by_name] in E; [apply Ok_eq in E; subst o; exact I|].
      apply Forall_cons_iff in GA. destruct GA as (G0 & GA). apply bind_ok in E. destruct E as (b & _ & E). destruct b; [apply Ok_eq in E; subst o; exact G0|apply IH; assumption].
  Qed.
  Lemma use_calls_safe fold : forall cs st, st_ok e st -> exists st', use_calls lzvn junk fold e cs st = Ok st'.
  Proof.
    induction cs as [|c cs IH]; intros st G; cbn [use_calls]; [eauto|]. destruct (use_call_safe fold c st G) as (st1 & -> & G1). cbn [bind]. apply IH, G1.
  Qed.
End Use.

(* ---- C106 ---- *)
(* What holds for all devices: if no packed key claims to be larger than it is (C41), all calls
   on an open volume return, in all orders and with all passwords. *)
Theorem C106_volume_calls_partial : forall P Q evn evb, (forall (p : P) l b, incl (snd (evn p l b)) l) -> (forall (q : Q) l b, incl (snd (evb q l b)) l) ->
  forall aes sha hmac xts, (forall k1 k2, exists enc, unit_cipher 512 enc (xts k1 k2)) ->
  forall dec img c b ov unkeyed, bytes_image img -> volume_open dec img (c_size c) (c_bag c) b = Ok ov -> unkeyed = None \/ ov_bag ov = None ->
  keys_inside (bags_of c ov) ->
  forall p q cs, Forall stack_ok cs -> exists l h,
  vrun P Q evn evb aes sha hmac xts unkeyed img ov (bags_of c ov) (fresh P Q ov p q) cs = Ok (l, h) /\ length l = length cs.
Proof.
  intros P Q evn evb H1 H2 aes sha hmac xts HX dec img c b ov unkeyed HB HO HU HK p q cs HS. pose proof (open_locked _ _ _ _ _ _ HO) as HLK.
  destruct (vrun_total P Q evn evb H1 H2 aes sha hmac xts HX unkeyed img ov (bags_of c ov) HB eq_refl HLK HU HK cs (fresh P Q ov p q)) as (l & h & E & L & _); [|exact HS|eauto].
  apply (sound_fresh P Q xts unkeyed img ov (bags_of c ov)); [reflexivity|exact HLK|exact HU].
Qed.
Print Assumptions C106_volume_calls_partial.

(* What holds for all devices: if no table of compressed data is too large (C13), all calls on
   the entries that can be reached from a volume return, in all orders, and so do all calls on
   their attributes. *)
Theorem C106_entry_calls_partial : forall lzvn junk,
  (forall d, bytes d -> lzvn d 65536 = Fail \/ exists out, lzvn d 65536 = Ok out /\ len out <= 65536) -> (forall d s, len (junk d s) = len s) ->
  forall img ov ctx t e cs, bytes_image img -> ctx = None \/ (exists enc dec, unit_cipher 512 enc dec /\ ctx = Some dec) ->
  volume_fs img ctx ov = Ok t -> reached img ov ctx t e -> tables_fit e ->
  exists st, use_calls lzvn junk (volume_folds ov) e cs f_init = Ok st.
Proof.
  intros lzvn junk HL HJ img ov ctx t e cs HB HC HV HR HT. apply reached_same in HR. destruct HR as (E1 & E2 & E3).
  assert (C : ciphered ctx) by (destruct HC as [->|(enc & dec & H & ->)]; cbn; eauto).
  unfold volume_fs in HV. apply bind_ok in HV. destruct HV as ([d|] & _ & HV); [|discriminate]. apply Ok_eq in HV.
  apply use_calls_safe; try assumption.
  - rewrite E1, <- HV. cbn [fs_img]. apply within_bytes, fs_image_bytes; [exact HB|]. exact C.
  - rewrite E1, <- HV. cbn [fs_omap]. apply within_bytes, HB.
  - rewrite E2. exact HB.
  - rewrite E3. exact C.
  - split; exact I.
Qed.
Print Assumptions C106_entry_calls_partial.

(* ---- full statement is false ---- *)
(* A key bag with a packed key of two bytes, the second saying that its size follows: unlocking
   reads after its end. *)
Definition bad_key : bag_entry := {| be_id := repeat 7 16; be_type := 3; be_data := [0x30; 0x81] |}.
Definition bad_ov : open_volume := {| ov_size := 409600; ov_super := ss_super; ov_omap := 30; ov_bag := Some [bad_key]; ov_locked := true; ov_snapshots := [] |}.
Theorem C106_volume_calls_refuted : exists img ov bg c, bytes_image img /\ b_volume bg = ov_bag ov /\ stack_ok c /\
  vrun unit unit keep keep aes_dec sha256 hmac_sha256 sx_cipher None img ov bg (fresh unit unit ov tt tt) [c] = Oob.
Proof.
  exists (fun _ => None), bad_ov, (sample_bags [bad_key]), ss_unlock. split; [intros b d H; discriminate|]. split; [reflexivity|]. split; [split; reflexivity|]. vm_compute. reflexivity.
Qed.
Print Assumptions C106_volume_calls_refuted.

(* A volume with file 16, whose resource fork of 65552 bytes in 17 blocks claims to have 8160
   compressed blocks: the table is written after the end of the buffer. *)
Definition fb_head : record := fy_attr 16 decmpfs_name (inline_data 4 100 []).
Definition fb_fork : record := (attr_key_bytes 16 (fork_name ++ [0]), attr_stream_bytes 17 65552 69632 0 0 0).
Definition fb_extent : record := (extent_key_bytes 17 0, extent_value_bytes 0 69632 900 0).
Definition fb_recs : list record := [fy_inode 2 0; fy_inode 16 0; fb_fork; fb_head; fb_extent].
Definition fb_content (o : Z) : Z := if o =? 2 then 1 else if o =? 260 then 0xe0 else if o =? 261 then 0x1f else 0.
Definition fb_node : list Z := node_bytes (fx_node true true fb_recs).
Definition fb_dev : device := fun b =>
  if b =? 20 then Some fb_node
  else if (900 <=? b) && (b <? 917) then Some (window fb_content ((b - 900) * 4096) 4096)
  else sx_map b.
Definition fb_ov : open_volume := {| ov_size := 4096000; ov_super := ss_super; ov_omap := 30; ov_bag := None; ov_locked := false; ov_snapshots := [] |}.
Definition fb_fs : fs := mk_fs (within 4096000 (fs_image fb_dev None)) 20 (within 4096000 fb_dev) 30 4.
Definition fb_entry : fentry := mk_fe fb_fs fb_dev None 16 (fy_value (fy_inode 16 0)) None.
Definition fb_exts : list extent := [mk_ex 0 69632 900 0].
Lemma fb_stream : exists s, stream_of_extents fb_dev None fb_exts 65552 false = Ok s /\ FileProofs.agrees s (window fb_content 0 65552).
Proof.
  assert (BO : forall e k d, In e fb_exts -> 0 <= k < ex_size e / 4096 -> plain_block fb_dev e k d -> data_block_read fb_dev None (ex_block e * 4096 + k * 4096) (w64 (ex_crypto e + k)) = Ok d).
  { intros e k d [<-|[]] Hk Hb. apply (faithful_plain fb_dev); auto; cbn [ex_block ex_crypto ex_size] in *; lia. }
  assert (HC : contiguous 0 fb_exts) by (cbn [contiguous fb_exts ex_off ex_size]; repeat split; lia).
  assert (R : Forall in_range fb_exts) by (repeat constructor; cbn [ex_block ex_size]; lia).
  assert (L2 : total fb_exts < 2 ^ 43) by (cbn; lia).
  assert (HD : content_of (plain_block fb_dev) false fb_exts fb_content).
  { intros e k [<-|[]] Hk. cbn [ex_size ex_block ex_off andb] in *. unfold plain_block. cbn [ex_block]. split; [|unfold len; rewrite map_length, seq_length; lia].
    unfold fb_dev. replace (900 + k =? 20) with false by lia. replace ((900 <=? 900 + k) && (900 + k <? 917)) with true by lia. f_equal. unfold window. replace ((900 + k - 900) * 4096) with (0 + 4096 * k) by lia. reflexivity. }
  destruct (stream_read_ok fb_dev None (plain_block fb_dev) false fb_exts fb_content BO HC R L2 HD 65552 0 0 ltac:(cbn; lia) ltac:(lia) ltac:(lia)) as (s & E & ES & _).
  exists s. split; [exact E|]. split; [rewrite window_len by lia; exact ES|]. intros off n. unfold Compressed.stream_read. rewrite window_len by lia. destruct ((0 <=? off) && (0 <=? n) && (n <=? 2 ^ 63 - 1)) eqn:C.
  - destruct (stream_read_ok fb_dev None (plain_block fb_dev) false fb_exts fb_content BO HC R L2 HD 65552 off n ltac:(cbn; lia) ltac:(lia) ltac:(lia)) as (s' & E' & _ & RD).
    rewrite E in E'. injection E' as <-. rewrite RD. cbn [check bind]. f_equal. destruct (Z_le_gt_dec 65552 off).
    + rewrite window_nil by lia. unfold slice. replace (Z.to_nat (Z.min n (65552 - off))) with 0%nat by lia. reflexivity.
    + rewrite window_slice by lia. f_equal.
  - unfold DataRead.stream_read. rewrite C. reflexivity.
Qed.
Definition fb_attr_head : attr := mk_at (decmpfs_name ++ [0]) 2 (AInline (inline_data 4 100 [])).
Definition fb_attr_fork : attr := mk_at (fork_name ++ [0]) 1 (AStream 17 65552).
(* Reading a file whose resource fork has such a table, for any entry. *)
Lemma read_overflow lzvn junk e x y l s : get_attrs e f_init = (Ok (mk_fa l (Some x) (Some y) None), set_attrs f_init (mk_fa l (Some x) (Some y) None)) ->
  (let! s := attr_stream e x in let! d := read_all s 0 16 in read_compressed_header d) = Ok (Some (4, 100)) ->
  attr_stream e y = Ok (Some s) -> get_block_offsets METHOD_DEFLATE (mk_src (st_size s) (DataRead.stream_read s)) = Oob ->
  fst (entry_read lzvn junk e None 1 f_init) = Oob.
Proof.
  intros EA EH EF EO. unfold entry_read, bindM at 1. unfold need_stream. change (f_body f_init) with (@None body). cbv iota. unfold bindM at 1. unfold get_data_stream, bindM at 1. unfold need_size.
  change (f_size f_init =? unset) with true. cbv iota. unfold bindM at 1. unfold get_data_size. change (f_header f_init) with (@None (Z * Z)). cbv iota. rewrite (bindM_ok _ _ _ _ _ EA). cbn [fa_comp].
  rewrite (onM_ok _ _ _ _ EH). cbv beta iota. cbn [set_size f_header set_attrs f_attrs f_size fa_fork]. change ((4 =? 4) || (4 =? 8)) with true. cbv iota.
  unfold onM, bindM, retM. change (method_of 4) with (Ok METHOD_DEFLATE). cbn [bind]. rewrite EF. cbn [bind check]. change (100 <? 2 ^ 63) with true. cbn [check bind].
  cbn [set_body f_body f_cur]. change (0 <? 0) with false. cbv zeta iota. unfold body_read. change ((0 <=? 0) && (0 <=? 1) && (1 <=? 2 ^ 63 - 1)) with true. cbv iota.
  unfold file_read. change (100 <=? 0) with false. cbv iota. unfold ch_read. change (ch_offs (ch_seek ch_init 0)) with (@None (list Z)). cbv iota. rewrite EO. reflexivity.
Qed.
Lemma fb_read : fst (entry_read no_lzvn no_junk fb_entry None 1 f_init) = Oob.
Proof.
  destruct fb_stream as (s & ES & ES1 & ES2).
  assert (EA : get_attrs fb_entry f_init = (Ok (mk_fa [fb_attr_fork; fb_attr_head] (Some fb_attr_head) (Some fb_attr_fork) None), set_attrs f_init (mk_fa [fb_attr_fork; fb_attr_head] (Some fb_attr_head) (Some fb_attr_fork) None)))
    by (vm_compute; reflexivity).
  assert (EH : (let! s := attr_stream fb_entry fb_attr_head in let! d := read_all s 0 16 in read_compressed_header d) = Ok (Some (4, 100))) by (vm_compute; reflexivity).
  assert (EX : fs_extents fb_fs 17 = Ok fb_exts) by (vm_compute; reflexivity).
  assert (EF : attr_stream fb_entry fb_attr_fork = Ok (Some s)).
  { unfold attr_stream. change (Z.testbit (at_flags fb_attr_fork) 0) with true. change (at_data fb_attr_fork) with (AStream 17 65552). cbv iota. change (fe_tree fb_entry) with fb_fs. rewrite EX. cbn [bind].
    change (fe_img fb_entry) with fb_dev. change (fe_ctx fb_entry) with (@None (list Z -> list Z -> list Z)). rewrite ES. reflexivity. }
  assert (EO : get_block_offsets METHOD_DEFLATE (mk_src (st_size s) (DataRead.stream_read s)) = Oob).
  { rewrite (offsets_ext _ (mem (window fb_content 0 65552))); [|exact ES1|exact ES2].
    apply deflate_overflow.
    - unfold bytes, window. apply Forall_map, Forall_forall. intros j _. unfold fb_content, is_byte. repeat destruct (_ =? _); lia.
    - rewrite window_slice by lia. reflexivity.
    - rewrite window_slice by lia. vm_compute. discriminate.
    - rewrite window_slice by lia. vm_compute. split; discriminate.
    - rewrite window_len by lia. lia. }
  exact (read_overflow _ _ _ _ _ _ _ EA EH EF EO).
Qed.
Theorem C106_entry_calls_refuted : exists img ov t e n, bytes_image img /\ volume_fs img None ov = Ok t /\ reached img ov None t e /\
  use_calls no_lzvn no_junk (volume_folds ov) e [UFile (CRead n)] f_init = Oob.
Proof.
  exists fb_dev, fb_ov, fb_fs, fb_entry, 1. split; [|split; [|split]].
  - intros b d H. unfold fb_dev in H. destruct (b =? 20); [injection H as <-; apply (all_bytes fb_node); vm_compute; reflexivity|].
    destruct (_ && _); [injection H as <-; unfold bytes, window; apply Forall_map, Forall_forall; intros j _; unfold fb_content, is_byte; repeat destruct (_ =? _); lia|].
    unfold sx_map in H. destruct (b =? 30); [|discriminate]. injection H as <-. apply (all_bytes (node_bytes _)). vm_compute. reflexivity.
  - unfold volume_fs. cbv zeta.
    assert (E : omap_lookup (within (ov_size fb_ov) fb_dev) (ov_omap fb_ov) (vs_root (ov_super fb_ov)) (vs_xid (ov_super fb_ov)) = Ok (Some (mk_od 80 1 0 4096 20))) by (vm_compute; reflexivity).
    rewrite E. reflexivity.
  - assert (E : stored_answer fb_dev fb_ov None (VId 16 [] []) = Session.AEntry (Some (16, fy_value (fy_inode 16 0), None))) by (vm_compute; reflexivity).
    exact (r_lookup _ _ _ _ _ _ _ _ E).
  - pose proof fb_read as F. cbn [use_calls use_call entry_call]. unfold answer_of. destruct (entry_read no_lzvn no_junk fb_entry None 1 f_init) as (r, st). cbn [fst] in F. subst r. reflexivity.
Qed.
Print Assumptions C106_entry_calls_refuted.

(* The same volume without the blocks of the resource fork: reading is an error, and all calls
   return. *)
Definition fc_dev : device := fun b => if b =? 20 then Some fb_node else sx_map b.
Definition fc_fs : fs := mk_fs (within 4096000 (fs_image fc_dev None)) 20 (within 4096000 fc_dev) 30 4.
Definition fc_entry : fentry := mk_fe fc_fs fc_dev None 16 (fy_value (fy_inode 16 0)) None.
Lemma fc_bytes : bytes_image fc_dev.
Proof.
  intros b d H. unfold fc_dev in H. destruct (b =? 20); [injection H as <-; apply (all_bytes fb_node); vm_compute; reflexivity|].
  unfold sx_map in H. destruct (b =? 30); [|discriminate]. injection H as <-. apply (all_bytes (node_bytes _)). vm_compute. reflexivity.
Qed.
Lemma fc_fits : tables_fit fc_entry.
Proof.
  intros l x s EL HI ES. assert (E : fs_attrs (fe_tree fc_entry) (fe_id fc_entry) = Ok [fb_attr_fork; fb_attr_head]) by (vm_compute; reflexivity).
  rewrite E in EL. apply Ok_eq in EL. subst l. destruct HI as [<-|[<-|[]]].
  - right. intros d H. exfalso. assert (R : (let! o := attr_stream fc_entry fb_attr_fork in match o with Some s => DataRead.stream_read s 4 268 | None => Fail end) = Fail) by (vm_compute; reflexivity).
    rewrite ES in R. cbn [bind] in R. unfold of_stream in H. cbn [src_read] in H. rewrite R in H. discriminate.
  - left. assert (R : (let! o := attr_stream fc_entry fb_attr_head in Ok (match o with Some s => st_size s | None => 0 end)) = Ok 16) by (vm_compute; reflexivity).
    rewrite ES in R. cbn [bind] in R. apply Ok_eq in R. unfold of_stream. cbn [src_size]. lia.
Qed.
Example C106_instance : forall cs, exists st, use_calls no_lzvn no_junk (volume_folds fb_ov) fc_entry cs f_init = Ok st.
Proof.
  intros cs. apply (C106_entry_calls_partial no_lzvn no_junk) with (img := fc_dev) (ctx := None) (t := fc_fs).
  - intros d _. left. reflexivity.
  - intros d x. reflexivity.
  - exact fc_bytes.
  - left. reflexivity.
  - unfold volume_fs. cbv zeta.
    assert (E : omap_lookup (within (ov_size fb_ov) fc_dev) (ov_omap fb_ov) (vs_root (ov_super fb_ov)) (vs_xid (ov_super fb_ov)) = Ok (Some (mk_od 80 1 0 4096 20))) by (vm_compute; reflexivity).
    rewrite E. reflexivity.
  - assert (E : stored_answer fc_dev fb_ov None (VId 16 [] []) = Session.AEntry (Some (16, fy_value (fy_inode 16 0), None))) by (vm_compute; reflexivity).
    exact (r_lookup _ _ _ _ _ _ _ _ E).
  - exact fc_fits.
Qed.
Example C106_example : PropFile.answers (entry_calls no_lzvn no_junk fc_entry [CSize; CRead 1; CAttrs; CSeek 5 0; CReadAt 7 1; COffset; CExtents; CLink] f_init) =
  Some [RSize 100; RError; RCount 2; RPos 5; RError; RPos 7; RCount 0; RLink None].
Proof. vm_compute. reflexivity. Qed.
