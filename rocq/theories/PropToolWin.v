(* C97 to C100: a volume that is mounted on Windows. *)
From Verif Require Import Base BaseLemmas Name NameSpec NameProofs PropName BTreeSpec BTreeProofs Walk Omap TreeSpec OmapSpec OmapTop PropOmap RecordsSpec Records RecordsProofs FsTree FsSpec FsProofs FsTop FsLookup PropFs
  FsNameSpec FsName FsNameProofs FsNameTop PropFsName Snapshot FileEntry FileSpec FileProofs FileTop PropFile EntryName EntrySpec PropEntry KeyBag EndSpec EndProofs ToolPath ToolPathSpec ToolPathProofs ToolMount ToolMountProofs ToolExample PropToolPath
  CryptSpec DataSpec Compressed CompressedSpec CompressedTop PropCompressed ToolInfo ToolInfoSpec ToolLine ToolHier PropToolInfo ToolFuse ToolFuseSpec PropFuse ToolWin ToolWinSpec ToolWinProofs.
Ltac Zify.zify_post_hook ::= Z.div_mod_to_equations.

(* ---- C97: names ---- *)
(* A name is shown as characters that Windows allows; a path of shown names is read back as the path
   of the names. *)
Theorem C97_windows_names_partial : forall bad names, names <> [] -> Forall (fun s => file_name s /\ s <> [] /\ wfits (utf16 s)) names ->
  exists texts, Forall2 (fun s t => win_from (utf16 s) = Ok (utf16 t, 10 * len (utf16 s) + 1) /\ t <> [] /\ Forall (fun c => scalar c /\ shown c /\ windows_char c) t) names texts /\
    (2 * len (utf16 (windows_path texts)) < 2 ^ 63 - 3 -> win_to bad (utf16 (windows_path texts)) = Ok (utf16 (path_of names))).
Proof.
  intros bad names N H. exists (map wtexts names). split.
  - clear N. induction H as [|s l (H1 & H2 & H3) H4 IH]; cbn [map]; constructor; [|exact IH]. split; [apply win_from_ok; assumption|].
    split; [apply wtexts_nonempty, H2|apply wtexts_chars, H1].
  - rewrite utf16_path, map_map. intros L. apply win_to_path; [|exact N|exact L]. eapply Forall_impl; [|exact H]. cbn. tauto.
Qed.
Print Assumptions C97_windows_names_partial.
Lemma utf16_inj : forall s s', Forall scalar s -> Forall scalar s' -> utf16 s = utf16 s' -> s = s'.
Proof.
  assert (NE : forall c s, utf16_char c ++ utf16 s <> []) by (intros c s E; apply app_eq_nil in E; destruct E as (E & _); exact (utf16_char_nonempty c E)).
  induction s as [|c s IH]; intros [|d s'] H H' E; rewrite ?utf16_cons in E; [reflexivity|symmetry in E; exfalso; exact (NE _ _ E)|exfalso; exact (NE _ _ E)|].
  pose proof (utf16_char_next c (utf16 s) (Forall_inv H)) as X. rewrite E in X. rewrite (utf16_char_next d (utf16 s') (Forall_inv H')) in X.
  assert (d = c) as -> by congruence. f_equal. apply IH; [exact (Forall_inv_tail H)|exact (Forall_inv_tail H')|congruence].
Qed.
(* Different names are shown differently. *)
Theorem C97_windows_names_differ : forall s s' t n n', file_name s -> file_name s' -> s <> [] -> s' <> [] -> wfits (utf16 s) -> wfits (utf16 s') ->
  win_from (utf16 s) = Ok (t, n) -> win_from (utf16 s') = Ok (t, n') -> s = s'.
Proof.
  intros s s' t n n' F F' N N' B B' E E'.
  assert (X : forall z n, file_name z -> z <> [] -> wfits (utf16 z) -> win_from (utf16 z) = Ok (t, n) -> wpath (92 :: t) (47 :: z) /\ len t <= 10 * len (utf16 z)).
  { intros z k Z1 Z2 Z3 Z4. rewrite win_from_ok in Z4 by assumption. assert (t = utf16 (wtexts z)) as -> by congruence. split; [constructor; apply wpath_name, Z1|apply wtexts_len, scalars, Z1]. }
  destruct (X s n F N B E) as (T & L). destruct (X s' n' F' N' B' E') as (T' & L').
  assert (LT : 2 * len (92 :: t) < 2 ^ 63 - 3) by (rewrite len_cons; unfold wfits in *; lia).
  pose proof (win_to_ok (fun _ => None) t s T LT) as A. pose proof (win_to_ok (fun _ => None) t s' T' LT) as C. rewrite A in C.
  assert (U : 47 :: s = 47 :: s') by (apply utf16_inj; [constructor; [unfold scalar; lia|apply scalars, F]|constructor; [unfold scalar; lia|apply scalars, F']|congruence]). congruence.
Qed.
Print Assumptions C97_windows_names_differ.
Theorem C97_windows_strings_total : forall bad l, fine (win_from l) /\ fine (win_to bad l).
Proof. exact win_strings_fine. Qed.
Print Assumptions C97_windows_strings_total.
(* The digits of an escape sequence can be capital letters as well. *)
Definition capital (c : Z) : Z := if (97 <=? c) && (c <=? 102) then c - 32 else c.
Theorem C97_capital_digits : forall c r,
  (c <> 0 -> 0 <= c < 256 -> win_x c = true -> win_unescape (120 :: map capital (hex 2 c) ++ r) = Ok (c, r)) /\
  (scalar c -> is_unprintable c = true -> win_unescape (85 :: map capital (hex 8 c) ++ r) = Ok (c, r)).
Proof.
  intros c r. assert (X : forall l v, win_hex (map capital l) v = win_hex l v).
  { induction l as [|d l IH]; intros v; [reflexivity|]. cbn [map win_hex]. cbv zeta. destruct ((97 <=? d) && (d <=? 102)) eqn:D.
    - replace (capital d) with (d - 32) by (unfold capital; rewrite D; reflexivity). replace ((48 <=? d - 32) && (d - 32 <=? 57)) with false by lia. replace ((65 <=? d - 32) && (d - 32 <=? 70)) with true by lia.
      replace ((48 <=? d) && (d <=? 57)) with false by lia. replace ((65 <=? d) && (d <=? 70)) with false by lia. rewrite IH. f_equal. lia.
    - replace (capital d) with d by (unfold capital; rewrite D; reflexivity). rewrite D, !IH. reflexivity. }
  assert (F : forall n l, length l = n -> firstn n (map capital l ++ r) = map capital l /\ skipn n (map capital l ++ r) = r /\ firstn n (l ++ r) = l /\ skipn n (l ++ r) = r /\ len (map capital l ++ r) = len (l ++ r)).
  { intros n l <-. rewrite !firstn_app_l, !skipn_app_l by (try apply map_length; reflexivity).
    split; [reflexivity|]. split; [reflexivity|]. split; [reflexivity|]. split; [reflexivity|]. rewrite !len_app. unfold len. rewrite map_length. reflexivity. }
  split.
  - intros H1 H2 H3. rewrite <- (win_unescape_x c r H1 H2 H3). destruct (F 2%nat (hex 2 c) (hex_length _ _)) as (F1 & F2 & F3 & F4 & F5). unfold win_unescape. rewrite F1, F2, F3, F4, F5, X. reflexivity.
  - intros H1 H2. rewrite <- (win_unescape_u c r H1 H2). destruct (F 8%nat (hex 8 c) (hex_length _ _)) as (F1 & F2 & F3 & F4 & F5). unfold win_unescape. rewrite F1, F2, F3, F4, F5, X. reflexivity.
Qed.
Print Assumptions C97_capital_digits.
(* a colon, a circumflex, a backslash, an end of line, U+1f600 and a letter *)
Example C97_example : let s := [58; 94; 92; 10; 0x1f600; 97] in
  win_from (utf16 s) = Ok ([94; 120; 51; 97] ++ [94; 94] ++ [94; 120; 53; 99] ++ [94; 120; 48; 97] ++ [0xd83d; 0xde00] ++ [97], 71) /\
  (let! (t, _) := win_from (utf16 s) in win_to (fun _ => None) (92 :: t)) = Ok (47 :: utf16 s) /\
  win_to (fun _ => None) [92; 94; 88; 51; 65] = Ok [47; 58] /\ win_to (fun _ => None) [92; 94; 120; 52; 49] = Fail.
Proof. vm_compute. auto. Qed.
(* The full statement is false: a name that is a device of Windows or ends in a period is shown as it
   is. *)
Theorem C97_windows_names_refuted : exists s s' t t' n n', file_name s /\ file_name s' /\ win_from (utf16 s) = Ok (utf16 t, n) /\ win_from (utf16 s') = Ok (utf16 t', n') /\
  device_name (map upper t) /\ last t' 0 = 46 /\ ~ windows_name t /\ ~ windows_name t'.
Proof.
  exists [97; 117; 120], [97; 46], [97; 117; 120], [97; 46], 31, 21. split; [apply (fy_ascii [97; 117; 120] eq_refl)|]. split; [apply (fy_ascii [97; 46] eq_refl)|].
  split; [vm_compute; reflexivity|]. split; [vm_compute; reflexivity|]. assert (D : device_name (map upper [97; 117; 120])) by (vm_compute; auto). split; [exact D|]. split; [reflexivity|].
  split; [intros (_ & _ & X & _); exact (X D)|]. intros (_ & _ & _ & _ & X). apply X. reflexivity.
Qed.
Print Assumptions C97_windows_names_refuted.

(* ---- C98: opening and reading ---- *)
Lemma win_filename_text e s : entry_text e = Ok s -> file_name s -> s <> [] -> wfits (utf16 s) -> win_filename e = Ok (utf16 (wtexts s), 10 * len (utf16 s) + 1).
Proof.
  intros ET F N B. unfold win_filename, entry_name_size, entry_name. rewrite ET. cbn [bind]. pose proof (len_nonneg (utf16 s)). unfold wfits in B. unfold ssize_max.
  replace (negb (len (utf16 s) + 1 =? 0) && (len (utf16 s) + 1 <=? 2 ^ 63 - 1)) with true by lia. cbn [check bind]. replace (len (utf16 s) + 1 <=? len (utf16 s) + 1) with true by lia. cbn [check bind].
  rewrite Z.add_simpl_r. rewrite slice_app_l by lia. rewrite slice_0_all. apply win_from_ok; assumption.
Qed.
(* A listed entry is opened by the path of the names that are listed for it and for the directories
   above it. *)
Theorem C98_windows_open_partial : forall (tie : list Z -> list Z -> Prop) h t recs dev ctx hashed fold bad v dirs id e r d s w,
  (forall a b c, tie a b -> tie b c -> tie a c) -> fs_tree tie h t recs -> directories tie hashed fold recs -> inode_is recs 2 (Some v) ->
  leads hashed fold recs 2 None dirs id e -> named hashed fold id recs r d s -> inode_is recs (de_inode d) (Some w) ->
  Forall (fun s => s <> [] /\ ~ In 47 s) (dirs ++ [s]) -> Forall file_name dirs -> hd 0 s <> 0xfeff -> Forall (fun s => wfits (utf16 s)) (dirs ++ [s]) ->
  exists texts text, Forall2 (fun s t => exists n, win_from (utf16 s) = Ok (t, n)) dirs texts /\
    (exists n, win_filename (mk_fe t dev ctx (de_inode d) w (Some d)) = Ok (text, n)) /\
    (2 * len (windows_path (texts ++ [text])) < 2 ^ 63 - 3 -> win_open bad t fold (windows_path (texts ++ [text])) = Ok (Some (de_inode d, w, Some d))).
Proof.
  intros tie h t recs dev ctx hashed fold bad v dirs id e r d s w H1 H2 H3 H4 H5 H6 H7 H8 H9 H10 H11.
  pose proof H6 as (_ & _ & _ & FS & SP & _).
  assert (PL : Forall plain (dirs ++ [s])).
  { assert (FN : Forall file_name (dirs ++ [s])) by (apply Forall_app; split; [exact H9|constructor; [exact FS|constructor]]).
    clear - H8 FN. induction FN as [|a l A1 A2 IH]; constructor; [pose proof (Forall_inv H8) as X; cbn beta in X; split; [exact A1|exact X]|exact (IH (Forall_inv_tail H8))]. }
  assert (NE : s <> []) by (apply Forall_app in H8; destruct H8 as (_ & H8); exact (proj1 (Forall_inv H8))).
  assert (FB : wfits (utf16 s)) by (apply Forall_app in H11; destruct H11 as (_ & H11); exact (Forall_inv H11)).
  set (f := fun s => utf16 (wtexts s)).
  exists (map f dirs), (f s). split; [|split].
  - apply Forall_app in H11. destruct H11 as (H11 & _). apply Forall_app in H8. destruct H8 as (H8 & _). clear - H8 H9 H11. induction H9 as [|a l A1 A2 IH]; constructor.
    + pose proof (Forall_inv H8) as X. pose proof (Forall_inv H11) as Y. cbn beta in X, Y. eexists. apply win_from_ok; [exact A1|tauto|exact Y].
    + exact (IH (Forall_inv_tail H8) (Forall_inv_tail H11)).
  - eexists. apply win_filename_text; [|assumption..]. cbn [entry_text fe_rec]. apply name_text; assumption.
  - assert (EP : map f dirs ++ [f s] = map f (dirs ++ [s])) by (rewrite map_app; reflexivity). intros L. rewrite EP in *.
    assert (FN : Forall file_name (dirs ++ [s])) by (eapply Forall_impl; [|exact PL]; unfold plain; tauto).
    assert (MT : win_to bad (windows_path (map f (dirs ++ [s]))) = Ok (utf16 (path_of (dirs ++ [s])))) by (exact (win_to_path bad (dirs ++ [s]) FN ltac:(destruct dirs; discriminate) L)).
    assert (PF : fs_by_path t utf16_next fold 2 (utf16 (path_of (dirs ++ [s]))) = Ok (Some (de_inode d, w, Some d))).
    { apply (path_found tie h t recs hashed fold 2 v (path_of (dirs ++ [s])) (de_inode d) (Some d) w true); try assumption.
      - apply path_file_name, FN.
      - apply path_long; [exact PL|destruct dirs; discriminate].
      - rewrite components_path by exact PL. eapply leads_snoc; eassumption. }
    assert (EQ : windows_path (map f (dirs ++ [s])) = windows_path (map f dirs) ++ 92 :: f s) by (rewrite <- EP, windows_path_app; change (windows_path [f s]) with (92 :: f s ++ []); rewrite app_nil_r; reflexivity).
    rewrite EQ in L, MT |- *.
    apply (win_open_path bad t fold (windows_path (map f dirs)) (f s) (Some (de_inode d, w, Some d)) (utf16 (path_of (dirs ++ [s])))); try assumption.
    + unfold f. intros X. pose proof (utf16_len_pos (wtexts s) (wtexts_nonempty s NE)) as Y. rewrite X in Y. change (len (@nil Z)) with 0 in Y. lia.
    + pose proof (wtexts_chars s FS) as SH. apply utf16_no; [lia|eapply Forall_impl; [|exact SH]; cbn; tauto|]. intros X. rewrite Forall_forall in SH. apply SH in X. destruct X as (_ & _ & _ & X). cbn [In] in X. tauto.
    + lia.
    + rewrite c_string_utf16; [exact PF|apply path_file_name, FN].
Qed.
Print Assumptions C98_windows_open_partial.
Lemma win_with_ok {A} bad t dev ctx fold p id i d (k : fentry -> res (A + wcode)) : win_open bad t fold p = Ok (Some (id, i, d)) -> win_with bad t dev ctx fold p k = k (mk_fe t dev ctx id i d).
Proof. intros E. unfold win_with. rewrite E. reflexivity. Qed.
(* The bytes of a file that is opened without write access and as an existing file (FILE_OPEN or
   FILE_OPEN_IF). *)
Theorem C98_windows_read_partial : forall (tie : list Z -> list Z -> Prop) h t recs dev ctx block lzvn junk bad fold p id i d r l f access disposition reads,
  (forall a b c, tie a b -> tie b c -> tie a c) -> fs_tree tie h t recs -> 0 <= id < 2 ^ 60 -> In r recs -> has 3 id r = true ->
  volume_data dev ctx block -> (forall d s, len (junk d s) = len s) -> is_file lzvn block recs id i l f ->
  win_open bad t fold p = Ok (Some (id, i, d)) -> Z.testbit access 30 = false -> In disposition [1; 3] -> Forall (fun q => 0 <= fst q < 2 ^ 31 /\ 0 <= snd q) reads ->
  win_file lzvn junk bad t dev ctx fold access disposition p reads = Ok (inl (map (fun q => inl (slice (fl_data f) (snd q) (Z.min (fst q) (len (fl_data f) - snd q)))) reads)).
Proof.
  intros tie h t recs dev ctx block lzvn junk bad fold p id i d r l f access disposition reads H1 H2 H3 H4 H5 H6 H7 H8 HO HA HD HR.
  destruct (file_entry_follows tie h t recs dev ctx block lzvn junk id i d r l f H1 H2 H3 H4 H5 H6 H7 H8) as (I & HI).
  assert (C : win_create bad t dev ctx fold access disposition p = Ok (inl (mk_fe t dev ctx id i d))).
  { unfold win_create. assert (LA : Z.land access 1073741824 = 0).
    { apply Z.bits_inj'. intros n N. rewrite Z.land_spec, Z.bits_0. change 1073741824 with (2 ^ 30). rewrite Z.pow2_bits_eqb by lia. destruct (30 =? n) eqn:E; [replace n with 30 by lia; rewrite HA; reflexivity|apply andb_false_r]. }
    rewrite LA. change (negb (0 =? 0)) with false. cbv iota. replace (disposition =? 2) with false by (cbn [In] in HD; lia). replace (negb (disposition =? 1) && negb (disposition =? 3)) with false by (cbn [In] in HD; lia).
    exact (win_with_ok bad t dev ctx fold p id i d (fun e => Ok (inl e)) HO). }
  unfold win_file. rewrite C. cbn [bind].
  assert (X : forall st pos, I st pos -> win_reads lzvn junk (mk_fe t dev ctx id i d) reads st = Ok (map (fun q => inl (slice (fl_data f) (snd q) (Z.min (fst q) (len (fl_data f) - snd q)))) reads)); [|rewrite (X f_init 0 (proj1 HI)); reflexivity].
  destruct HI as (_ & HS & _). clear - HS HR. induction reads as [|(n & off) reads IH]; intros st pos HI; cbn [win_reads map]; [reflexivity|].
  pose proof (Forall_inv HR) as (R1 & R2). cbn [fst snd] in R1, R2. unfold win_read. replace (2 ^ 31 - 1 <? n) with false by lia.
  destruct (HS (CReadAt off n) st pos HI) as (st' & G & I'). rewrite G. cbn [bind file_step] in *. replace ((0 <=? off) && (0 <=? n) && (n <=? 2 ^ 63 - 1)) with true in * by lia. cbn [fst snd] in *.
  rewrite (IH (Forall_inv_tail HR) st' _ I'). reflexivity.
Qed.
Print Assumptions C98_windows_read_partial.
(* Nothing is opened for writing, nothing is created or overwritten, whatever the path. *)
Theorem C98_windows_read_only : forall bad t dev ctx fold access disposition p,
  Z.testbit access 30 = true \/ ~ In disposition [1; 3] -> exists x, win_create bad t dev ctx fold access disposition p = Ok (inr x) /\ In x [WRITE_PROTECTED; EXISTS; ACCESS_DENIED].
Proof.
  intros bad t dev ctx fold access disposition p H. unfold win_create. destruct (Z.land access 1073741824 =? 0) eqn:LA; cbn [negb]; [|eexists; split; [reflexivity|cbn [In]; auto]].
  destruct H as [H|H].
  - exfalso. assert (X : Z.testbit (Z.land access 1073741824) 30 = true) by (rewrite Z.land_spec, H; reflexivity). replace (Z.land access 1073741824) with 0 in X by lia. discriminate.
  - destruct (disposition =? 2) eqn:D2; [eexists; split; [reflexivity|cbn [In]; auto]|]. replace (negb (disposition =? 1) && negb (disposition =? 3)) with true by (cbn [In] in H; lia). eexists. split; [reflexivity|cbn [In]; auto].
Qed.
Print Assumptions C98_windows_read_only.
Definition wgot {A} (r : res (A + wcode)) : option A := match r with Ok (inl a) => Some a | _ => None end.
Example C98_example : wgot (win_file no_lzvn no_junk (fun _ => None) fi fz_dev None true 0x80000000 1 [92; 97; 92; 98] [(9, 0); (1, 1); (4, 7)]) = Some [inl [97; 98]; inl [98]; inl []] /\
  win_file no_lzvn no_junk (fun _ => None) fi fz_dev None true 0x80000000 1 [92; 97; 92; 99] [] = Ok (inr NOT_FOUND) /\
  win_file no_lzvn no_junk (fun _ => None) fi fz_dev None true 0x40000000 1 [92; 97; 92; 98] [] = Ok (inr WRITE_PROTECTED).
Proof. vm_compute. auto. Qed.
(* The full statement is false: the entry "a/b" of the root is listed as "a^x2fb", which opens the
   entry "b" of the directory "a"; *)
Theorem C98_windows_open_refuted : exists (tie : list Z -> list Z -> Prop) h t recs dev hashed fold r d s w text n e,
  (forall a b c, tie a b -> tie b c -> tie a c) /\ fs_tree tie h t recs /\ directories tie hashed fold recs /\
  named hashed fold 2 recs r d s /\ inode_is recs (de_inode d) (Some w) /\ s <> [] /\ hd 0 s <> 0xfeff /\ wfits (utf16 s) /\
  win_filename (mk_fe t dev None (de_inode d) w (Some d)) = Ok (text, n) /\ win_open (fun _ => None) t fold (92 :: text) = Ok (Some e) /\ fst (fst e) <> de_inode d.
Proof.
  exists fx_tie, 0%nat, fm, fm_recs, fz_dev, false, true, (fz_child 2 [97; 47; 98] 16), (fz_rec [97; 47; 98] 16), [97; 47; 98], (fy_value (fy_inode 16 0)),
    [97; 94; 120; 50; 102; 98], 31, (17, fy_value (fy_inode 17 0), Some (fz_rec [98] 17)).
  split; [unfold fx_tie; intros; lia|]. split; [exact fm_tree|]. split; [exact (links_directories _ _ fm_links_ok)|].
  split; [apply (link_named _ _ fm_links_ok (mk_link 2 [97; 47; 98] 16)); cbn; tauto|].
  split; [cbn [fz_rec de_inode]; apply fm_inode; [unfold fm_recs; cbn [In]; tauto|vm_compute; reflexivity|lia|vm_compute; reflexivity]|].
  split; [discriminate|]. split; [discriminate|]. split; [vm_compute; reflexivity|]. split; [vm_compute; reflexivity|]. split; [vm_compute; reflexivity|]. discriminate.
Qed.
Print Assumptions C98_windows_open_refuted.
(* and with Dokan before version 800 a file that exists is not found when it is to be opened or else
   created (OPEN_ALWAYS). *)
Theorem C98_open_always_refuted : exists (tie : list Z -> list Z -> Prop) h t recs dev fold p e,
  fs_tree tie h t recs /\ wgot (win_create_old (fun _ => None) t dev None fold 0x80000000 3 p) = Some e /\ win_create_old (fun _ => None) t dev None fold 0x80000000 4 p = Ok (inr NOT_FOUND).
Proof.
  exists fx_tie, 0%nat, fi, fi_recs, fz_dev, true, [92; 97; 92; 98]. eexists. split; [exact fi_tree|]. split; [vm_compute; reflexivity|reflexivity].
Qed.
Print Assumptions C98_open_always_refuted.
(* What these versions answer: an existing file is opened as with the others (FILE_OPEN), a file is
   not made (CREATE_NEW, CREATE_ALWAYS), emptied (TRUNCATE_EXISTING) or opened for writing. *)
Theorem C98_old_versions : forall bad t dev ctx fold access p,
  (Z.land access 0x40000000 = 0 ->
    win_create_old bad t dev ctx fold access 1 p = Ok (inr EXISTS) /\ win_create_old bad t dev ctx fold access 2 p = Ok (inr ALREADY_EXISTS) /\
    win_create_old bad t dev ctx fold access 3 p = win_create bad t dev ctx fold access 1 p /\ win_create_old bad t dev ctx fold access 5 p = Ok (inr NOT_FOUND)) /\
  (forall d, d < 1 \/ 5 < d -> exists x, win_create_old bad t dev ctx fold access d p = Ok (inr x) /\ (x = BAD_ARGUMENTS \/ x = WRITE_PROTECTED)) /\
  (Z.land access 0x40000000 <> 0 -> forall d, win_create_old bad t dev ctx fold access d p = Ok (inr WRITE_PROTECTED)).
Proof.
  intros bad t dev ctx fold access p. unfold win_create_old, win_create. split; [intros ->; auto|]. split.
  - intros d D. destruct (Z.land access 0x40000000 =? 0); cbn [negb]; [|eauto].
    replace (d =? 1) with false by lia. replace (d =? 2) with false by lia. replace ((d =? 4) || (d =? 5)) with false by lia. replace (d =? 3) with false by lia. cbn [negb]. eauto.
  - intros N d. rewrite (proj2 (Z.eqb_neq _ _) N). reflexivity.
Qed.
Print Assumptions C98_old_versions.

(* A separator at the end of a path is meant to be ignored; an entry is not opened with it, neither
   here nor on other systems. *)
Theorem C98_separator_refuted : exists (tie : list Z -> list Z -> Prop) h t recs fold p q e, fs_tree tie h t recs /\
  win_open (fun _ => None) t fold p = Ok (Some e) /\ win_open (fun _ => None) t fold (p ++ [92]) = Fail /\
  (exists text, mount_open (fun _ => None) t fold q = Ok (Some (text, e))) /\ mount_open (fun _ => None) t fold (q ++ [47]) = Fail.
Proof.
  exists fx_tie, 0%nat, fi, fi_recs, true, [92; 97], [47; 97]. eexists. split; [exact fi_tree|]. split; [vm_compute; reflexivity|]. split; [vm_compute; reflexivity|]. split; [eexists; vm_compute; reflexivity|vm_compute; reflexivity].
Qed.
Print Assumptions C98_separator_refuted.

(* ---- C99: size, kind and times ---- *)
(* The conditions: the times are after 1970, the kind is that of a directory or has no bit in common
   with it, which leaves out block devices and sockets. *)
Definition wshowable (f : file) (i : inode) : Prop :=
  len (fl_data f) < 2 ^ 63 /\ Forall (fun x => 0 < x < 2 ^ 63) [in_access i; in_created i; in_mtime i] /\ (Z.land (in_mode i) 0xf000 = 0x4000 \/ Z.land (in_mode i) 0x4000 = 0).
Lemma low_half x : Z.land x 0xffffffff = x mod 2 ^ 32.
Proof. change 0xffffffff with (Z.ones 32). apply Z.land_ones. lia. Qed.
Lemma filetime_ok x : 0 < x < 2 ^ 63 -> filetime_of x (halves (win_time (s64 x))).
Proof.
  intros H. exists x. split; [lia|]. split; [rewrite Z.mod_small by lia; reflexivity|]. unfold s64. replace (x <? 2 ^ 63) with true by lia. unfold win_time. replace (x =? 0) with false by lia.
  rewrite Z.quot_div_nonneg by lia. unfold w64. rewrite Z.mod_small by lia. set (y := x / 100 + 116444736000000000). assert (Y : 0 <= y < 2 ^ 64) by (unfold y; lia).
  unfold halves. cbn [fst snd]. rewrite low_half. unfold w32. assert (Q : 0 <= y / 2 ^ 32 < 2 ^ 32) by (clearbody y; lia). rewrite (Z.mod_small (y / 2 ^ 32)) by exact Q.
  split; [exact Q|]. split; [apply Z.mod_pos_bound; lia|]. replace (x / 100 + 134774 * 86400 * 10000000) with y by (unfold y; lia). clearbody y. clear Q. lia.
Qed.
Lemma win_info_ok lzvn junk e A f I st pos old : follows lzvn junk e A f I -> I st pos -> wshowable f (fe_inode e) -> old = (0, 0) \/ fl_data f <> [] ->
  exists w st', win_entry_info old e st = (Ok w, st') /\ I st' pos /\ windows_info f (fe_inode e) w.
Proof.
  intros HF HI (LS & HT & HM) HO. destruct (size_of lzvn junk e A f I st pos HF HI) as (st' & G & I'). unfold win_entry_info. rewrite (bindM_ok _ _ _ _ _ G). unfold retM.
  eexists _, st'. split; [reflexivity|]. split; [exact I'|]. set (m := in_mode (fe_inode e)) in *.
  assert (MM : mount_mode m = m).
  { unfold mount_mode. assert (E : Z.land m 0xf000 =? 0xe000 = false); [|rewrite E; reflexivity]. apply Z.eqb_neq. intros E. destruct HM as [HM|HM]; [rewrite HM in E; discriminate|].
    pose proof (land_part m 0x4000 0xf000 eq_refl) as Q. rewrite E in Q. rewrite HM in Q. discriminate. }
  rewrite MM. unfold windows_info, win_info. cbn [wi_low wi_high wi_attr wi_created wi_accessed wi_written]. fold m. pose proof (len_nonneg (fl_data f)) as LN. set (n := len (fl_data f)) in *.
  assert (SZ : 0 <= (if 0 <? n then Z.land n 0xffffffff else snd old) < 2 ^ 32 /\ (if 0 <? n then w32 (n / 2 ^ 32) else fst old) * 2 ^ 32 + (if 0 <? n then Z.land n 0xffffffff else snd old) = n).
  { destruct (0 <? n) eqn:C.
    - rewrite low_half. unfold w32. rewrite (Z.mod_small (n / 2 ^ 32)) by (clearbody n; lia). split; [apply Z.mod_pos_bound; lia|]. clearbody n. lia.
    - assert (n = 0) as E by lia. destruct HO as [->|HO]; [cbn [fst snd]; lia|]. exfalso. destruct (fl_data f); [contradiction|]. unfold n in E. rewrite len_cons in E. pose proof (len_nonneg l). lia. }
  split; [apply SZ|]. split; [apply SZ|]. split.
  - destruct HM as [HM|HM].
    + rewrite HM. pose proof (land_part m 0x4000 0xf000 eq_refl) as Q. rewrite HM in Q. change (Z.land 0x4000 0x4000) with 0x4000 in Q. rewrite <- Q. reflexivity.
    + rewrite HM. destruct (Z.land m 0xf000 =? 0x4000) eqn:E; [|reflexivity]. apply Z.eqb_eq in E. pose proof (land_part m 0x4000 0xf000 eq_refl) as Q. rewrite E, HM in Q. discriminate.
  - pose proof (Forall_inv HT) as T1. pose proof (Forall_inv (Forall_inv_tail HT)) as T2. pose proof (Forall_inv (Forall_inv_tail (Forall_inv_tail HT))) as T3. cbn beta in T1, T2, T3.
    split; [apply filetime_ok, T2|]. split; [apply filetime_ok, T1|apply filetime_ok, T3].
Qed.
Theorem C99_windows_information_partial : forall (tie : list Z -> list Z -> Prop) h t recs dev ctx block lzvn bad fold p id i d r l f old,
  (forall a b c, tie a b -> tie b c -> tie a c) -> fs_tree tie h t recs -> 0 <= id < 2 ^ 60 -> In r recs -> has 3 id r = true ->
  volume_data dev ctx block -> is_file lzvn block recs id i l f -> win_open bad t fold p = Ok (Some (id, i, d)) -> wshowable f i -> old = (0, 0) \/ fl_data f <> [] ->
  exists w, win_information bad t dev ctx fold old p = Ok (inl w) /\ windows_info f i w.
Proof.
  intros tie h t recs dev ctx block lzvn bad fold p id i d r l f old H1 H2 H3 H4 H5 H6 H8 HO HS HZ.
  destruct (file_entry_follows tie h t recs dev ctx block lzvn (fun _ s => s) id i d r l f H1 H2 H3 H4 H5 H6 ltac:(reflexivity) H8) as (I & HI).
  destruct (win_info_ok _ _ _ _ _ _ f_init 0 old HI (proj1 HI) HS HZ) as (w & st & G & _ & P). exists w. split; [|exact P].
  unfold win_information. rewrite (win_with_ok bad t dev ctx fold p id i d _ HO). rewrite G. reflexivity.
Qed.
Print Assumptions C99_windows_information_partial.
Definition fw_stored (parent id created modified mode : Z) : stored_inode := {|
  st_parent_id := parent; st_private_id := id; st_create_time := modified; st_mod_time := created; st_change_time := 13; st_access_time := 14;
  st_internal_flags := 0; st_nlink := 1; st_protection_class := 0; st_write_generation := 0; st_bsd_flags := 0;
  st_uid := 501; st_gid := 20; st_mode := mode; st_pad1 := 0; st_pad2 := 0 |}.
Definition fw_inode (id created modified mode : Z) : TreeSpec.record := (RecordsSpec.key_head 3 id, inode_value_bytes (fw_stored 2 id created modified mode) 40 true [(8, 0, le_enc 8 0 ++ zeros 32)]).
(* the library takes each of the first two times for the other (C31), hence their order here;
   a block device b, a file n with times 0 and one nanosecond before 1970, a directory d *)
Definition fw_recs : list TreeSpec.record :=
  [fi_root; fz_child 2 [98] 16; fz_child 2 [100] 18; fz_child 2 [110] 17; fw_inode 16 1700000000123456789 1600000000000000099 0x61a4; fw_inode 17 0 (2 ^ 64 - 1) 0x81a4; fw_inode 18 1700000000123456789 1600000000000000099 0x41ed].
Definition fw : fs := one_node fw_recs.
Lemma fw_tree : fs_tree fx_tie 0 fw fw_recs.
Proof. one_node_tac fw_recs. Qed.
Lemma fw_file id v : In id [16; 17; 18] -> in_stream v = id -> in_size v = 0 -> is_file no_lzvn (plain_block fz_dev) fw_recs id v [] (mk_file [] [] 0 None).
Proof.
  intros H E1 E2. apply plain_empty; [cbn [In] in H; lia|exact E1|exact E2| | |exists fi_root; split; [left; reflexivity|]; left; change (kid (fst fi_root)) with 2; cbn [In] in H; lia];
    (destruct H as [<-|[<-|[<-|[]]]]; vm_compute; reflexivity).
Qed.
(* 14 November 2023 22:13:20.1234567 and 13 September 2020 *)
Example C99_example : wgot (win_information (fun _ => None) fw fz_dev None true (0, 0) [92; 100]) =
  Some (mk_wi 0 0 16 (halves (17000000001234567 + 116444736000000000)) (halves 116444736000000000) (halves (16000000000000000 + 116444736000000000))).
Proof. vm_compute. reflexivity. Qed.
Lemma wgot_some {A} (r : res (A + wcode)) a : wgot r = Some a -> r = Ok (inl a).
Proof. destruct r as [[x|x]| | |]; cbn [wgot]; congruence. Qed.
(* The full statement is false: a block device is a directory; the time 0, the beginning of 1970, is
   shown as the beginning of 1601; a time before is rounded up; and for an empty file the size that
   the structure had before is left. *)
Theorem C99_windows_information_refuted : exists (tie : list Z -> list Z -> Prop) h t recs dev block lzvn bad fold p q id i d l f w id' i' d' l' f' w' old w2,
  (forall a b c, tie a b -> tie b c -> tie a c) /\ fs_tree tie h t recs /\ volume_data dev None block /\
  inode_is recs id (Some i) /\ is_file lzvn block recs id i l f /\ win_open bad t fold p = Ok (Some (id, i, d)) /\ win_information bad t dev None fold (0, 0) p = Ok (inl w) /\
    Z.land (in_mode i) 0xf000 = 0x6000 /\ wi_attr w = 16 /\ ~ windows_info f i w /\
  inode_is recs id' (Some i') /\ is_file lzvn block recs id' i' l' f' /\ win_open bad t fold q = Ok (Some (id', i', d')) /\ win_information bad t dev None fold (0, 0) q = Ok (inl w') /\
    in_created i' = 0 /\ wi_created w' = (0, 0) /\ ~ filetime_of (in_created i') (wi_created w') /\ ~ filetime_of (in_mtime i') (wi_written w') /\
  fl_data f' = [] /\ old <> (0, 0) /\ win_information bad t dev None fold old q = Ok (inl w2) /\ (wi_high w2, wi_low w2) = old.
Proof.
  exists fx_tie, 0%nat, fw, fw_recs, fz_dev, (plain_block fz_dev), no_lzvn, (fun _ => None), true, [92; 98], [92; 110], 16, (fy_value (fw_inode 16 1700000000123456789 1600000000000000099 0x61a4)), (Some (fz_rec [98] 16)), [], (mk_file [] [] 0 None),
    (mk_wi 0 0 16 (halves (17000000001234567 + 116444736000000000)) (halves 116444736000000000) (halves (16000000000000000 + 116444736000000000))).
  exists 17, (fy_value (fw_inode 17 0 (2 ^ 64 - 1) 0x81a4)), (Some (fz_rec [110] 17)), [], (mk_file [] [] 0 None), (mk_wi 0 0 128 (0, 0) (halves 116444736000000000) (halves 116444736000000000)), (7, 9), (mk_wi 7 9 128 (0, 0) (halves 116444736000000000) (halves 116444736000000000)).
  split; [unfold fx_tie; intros; lia|]. split; [exact fw_tree|]. split; [apply vd_plain|].
  split; [apply volume_inode; [unfold fw_recs; cbn [In]; tauto|vm_compute; reflexivity|lia|vm_compute; reflexivity]|]. split; [apply fw_file; [cbn [In]; tauto|vm_compute; reflexivity..]|].
  split; [vm_compute; reflexivity|]. split; [apply wgot_some; vm_compute; reflexivity|]. assert (EM : Z.land (in_mode (fy_value (fw_inode 16 1700000000123456789 1600000000000000099 0x61a4))) 0xf000 = 0x6000) by (vm_compute; reflexivity). split; [exact EM|]. split; [reflexivity|].
  split; [intros (_ & _ & X & _); rewrite EM in X; discriminate|].
  split; [apply volume_inode; [unfold fw_recs; cbn [In]; tauto|vm_compute; reflexivity|lia|vm_compute; reflexivity]|]. split; [apply fw_file; [cbn [In]; tauto|vm_compute; reflexivity..]|].
  split; [vm_compute; reflexivity|]. split; [apply wgot_some; vm_compute; reflexivity|]. assert (EC : in_created (fy_value (fw_inode 17 0 (2 ^ 64 - 1) 0x81a4)) = 0) by (vm_compute; reflexivity). split; [exact EC|]. split; [reflexivity|].
  split; [rewrite EC; intros (x & X1 & X2 & _ & _ & X3); cbn [wi_created fst snd] in X3; lia|].
  assert (EW : in_mtime (fy_value (fw_inode 17 0 (2 ^ 64 - 1) 0x81a4)) = 2 ^ 64 - 1) by (vm_compute; reflexivity).
  split; [rewrite EW; intros (x & X1 & X2 & _ & _ & X3); cbn [wi_written] in X3; assert (HV : fst (halves 116444736000000000) * 2 ^ 32 + snd (halves 116444736000000000) = 116444736000000000) by (vm_compute; reflexivity); rewrite HV in X3; clear HV; lia|].
  split; [reflexivity|]. split; [discriminate|]. split; [apply wgot_some; vm_compute; reflexivity|reflexivity].
Qed.
Print Assumptions C99_windows_information_refuted.

(* ---- C100: directories ---- *)
Definition wshown_object (lzvn : list Z -> Z -> res (list Z)) (block : extent -> Z -> list Z -> Prop) (recs : list TreeSpec.record) (id : Z) (v : inode) (f : file) : Prop :=
  0 <= id < 2 ^ 60 /\ (exists r, In r recs /\ has 3 id r = true) /\ (exists l, is_file lzvn block recs id v l f) /\ wshowable f v.
Lemma info_keeps_dir old e st : f_dir (snd (win_entry_info old e st)) = f_dir st.
Proof.
  pose proof (stat_keeps_dir e st) as K. unfold entry_stat, win_entry_info, bindM in *. destruct (entry_size e st) as ([n| | |] & st'); exact K.
Qed.
Lemma shown_info (tie : list Z -> list Z -> Prop) h t recs dev ctx block lzvn id v d f :
  (forall a b c, tie a b -> tie b c -> tie a c) -> fs_tree tie h t recs -> volume_data dev ctx block -> wshown_object lzvn block recs id v f ->
  exists w st, win_entry_info (0, 0) (mk_fe t dev ctx id v d) f_init = (Ok w, st) /\ f_dir st = None /\ windows_info f v w.
Proof.
  intros H1 H2 H6 (H3 & (r & H4 & H5) & (l & H8) & HS).
  destruct (file_entry_follows tie h t recs dev ctx block lzvn (fun _ s => s) id v d r l f H1 H2 H3 H4 H5 H6 ltac:(reflexivity) H8) as (I & HI).
  destruct (win_info_ok _ _ _ _ _ _ f_init 0 (0, 0) HI (proj1 HI) HS (or_introl eq_refl)) as (s & st & G & _ & P). exists s, st. split; [exact G|]. split; [|exact P].
  pose proof (info_keeps_dir (0, 0) (mk_fe t dev ctx id v d) f_init) as K. rewrite G in K. exact K.
Qed.
(* The name, the alternate name and the information for one entry. *)
Definition wlisted (t : fs) dev ctx lzvn block (recs : list TreeSpec.record) (p : dentry * list Z) (q : list Z * list Z * winfo) : Prop :=
  (exists n, win_from (utf16 (snd p)) = Ok (fst (fst q), n)) /\ (snd (fst q) = [] \/ snd (fst q) = fst (fst q)) /\
  exists v f, inode_is recs (de_inode (fst p)) (Some v) /\ wshown_object lzvn block recs (de_inode (fst p)) v f /\ windows_info f v (snd q) /\
  fst (win_entry_info (0, 0) (mk_fe t dev ctx (de_inode (fst p)) v (Some (fst p))) f_init) = Ok (snd q).
Section Fill.
  Variable tie : list Z -> list Z -> Prop.
  Variables (h : nat) (t : fs) (recs : list TreeSpec.record) (dev : Omap.image) (ctx : option (list Z -> list Z -> list Z)) (block : extent -> Z -> list Z -> Prop) (lzvn : list Z -> Z -> res (list Z)).
  Variables (id : Z) (i : inode) (d : option dentry) (r : TreeSpec.record) (l : list (dentry * list Z)).
  Hypothesis tie_trans : forall a b c, tie a b -> tie b c -> tie a c.
  Hypothesis HT : fs_tree tie h t recs.
  Hypothesis Hid : 0 <= id < 2 ^ 60.
  Hypothesis HI : In r recs.
  Hypothesis HH : has 3 id r = true.
  Hypothesis HD : volume_data dev ctx block.
  Hypothesis HL : entries recs id l.
  Hypothesis HV : forall p, In p l -> snd p <> [] /\ len (utf16 (snd p)) <= 25 /\ exists v f, inode_is recs (de_inode (fst p)) (Some v) /\ wshown_object lzvn block recs (de_inode (fst p)) v f.
  Variable longest : Z.
  Hypothesis Hlongest : 260 <= longest.
  Lemma win_list_ok : forall rest pre st, l = pre ++ rest -> f_dir st = None \/ f_dir st = Some (map fst l) ->
    exists m, win_list longest (length rest) (mk_fe t dev ctx id i d) (len pre) st = Ok m /\ Forall2 (wlisted t dev ctx lzvn block recs) rest m.
  Proof.
    induction rest as [|(de & s) rest IH]; intros pre st E HS; cbn [win_list length]; [exists []; split; [reflexivity|constructor]|].
    assert (Ip : In (de, s) l) by (rewrite E; apply in_or_app; right; left; reflexivity).
    destruct (HV _ Ip) as (NE & FB & v & f & IV & SO). cbn [fst snd] in *. destruct (entries_name recs id l HL _ Ip) as (FN & SP & BM). cbn [fst snd] in *.
    assert (DL : fs_dir t id = Ok (map fst l)) by exact (dir_listed tie h t recs id r l tie_trans HT Hid HI HH HL).
    assert (GB : getb (map fst l) (len pre) = Ok de).
    { unfold getb. rewrite len_map. rewrite E, len_app, len_cons. pose proof (len_nonneg rest). pose proof (len_nonneg pre). replace (_ && _) with true by lia.
      rewrite map_app, nth_error_app2 by (rewrite map_length; unfold len; lia). rewrite map_length. unfold len. rewrite Nat2Z.id, Nat.sub_diag. reflexivity. }
    destruct (sub_call (mk_fe t dev ctx id i d) (map fst l) st (len pre) de (de_inode de, v)) as (st' & S1 & S2).
    - destruct HS as [N|S]; [left; split; [exact N|exact DL]|right; exact S].
    - rewrite len_map, E, len_app, len_cons. pose proof (len_nonneg rest). pose proof (len_nonneg pre). lia.
    - exact GB.
    - cbn [fe_tree]. exact (inode_found tie h t recs _ (Some v) tie_trans HT IV).
    - rewrite S1. cbn [bind fe_tree fe_img fe_ctx fst snd]. assert (WF : wfits (utf16 s)) by (unfold wfits; lia). pose proof (len_nonneg (utf16 s)) as LN.
      rewrite (win_filename_text (mk_fe t dev ctx (de_inode de) v (Some de)) s); [|unfold entry_text; cbn [fe_rec]; apply name_text; assumption|assumption..]. cbn [bind].
      destruct (shown_info tie h t recs dev ctx block lzvn (de_inode de) v (Some de) f tie_trans HT HD SO) as (sb & st2 & G & _ & P). rewrite G. cbn [bind fst].
      unfold win_fill. replace (10 * len (utf16 s) + 1 <=? longest) with true by lia. cbn [check bind]. replace (260 <? 10 * len (utf16 s) + 1) with false by lia. cbn [bind].
      destruct (IH (pre ++ [(de, s)]) st' ltac:(rewrite <- app_assoc; exact E) (or_intror S2)) as (m & M1 & M2). rewrite len_app in M1. change (len [(de, s)]) with 1 in M1. rewrite M1. cbn [bind].
      eexists. split; [reflexivity|]. constructor; [|exact M2]. cbn [fst snd]. split; [eexists; apply win_from_ok; assumption|]. split; [cbn [fst snd]; destruct (_ <=? _); tauto|]. exists v, f. cbn [fst snd]. split; [exact IV|]. split; [exact SO|]. split; [exact P|]. rewrite G. reflexivity.
  Qed.
End Fill.
Definition wnamed_object (v : inode) : Prop :=
  exists n s, in_name v = Some n /\ file_name s /\ spells s n /\ hd 0 s <> 0xfeff /\ s <> [] /\ wfits (utf16 s).
(* A directory whose names have at most 25 units each is listed: the directory, its parent and all
   entries in the order of their records. *)
Theorem C100_windows_listing_partial : forall (tie : list Z -> list Z -> Prop) h t recs dev ctx block lzvn bad fold longest p id i d f r l,
  (forall a b c, tie a b -> tie b c -> tie a c) -> fs_tree tie h t recs -> volume_data dev ctx block -> 260 <= longest ->
  win_open bad t fold p = Ok (Some (id, i, d)) -> In r recs -> has 3 id r = true -> wshown_object lzvn block recs id i f -> entries recs id l ->
  (forall p, In p l -> snd p <> [] /\ len (utf16 (snd p)) <= 25 /\ exists v f, inode_is recs (de_inode (fst p)) (Some v) /\ wshown_object lzvn block recs (de_inode (fst p)) v f) ->
  (2 < id -> exists v g, inode_is recs (in_parent i) (Some v) /\ wnamed_object v /\ wshown_object lzvn block recs (in_parent i) v g) ->
  exists w u m, win_find bad t dev ctx fold longest p = Ok (inl (([46], [46], w) :: ([46; 46], [46; 46], u) :: m)) /\
    windows_info f i w /\ win_information bad t dev ctx fold (0, 0) p = Ok (inl w) /\
    (2 < id -> exists v g, inode_is recs (in_parent i) (Some v) /\ wshown_object lzvn block recs (in_parent i) v g /\ windows_info g v u) /\
    Forall2 (wlisted t dev ctx lzvn block recs) l m.
Proof.
  intros tie h t recs dev ctx block lzvn bad fold longest p id i d f r l H1 H2 HD H3 HO HI HH SO HL HV HP. pose proof SO as (Hid & _).
  destruct (shown_info tie h t recs dev ctx block lzvn id i d f H1 H2 HD SO) as (s & st & G & D0 & P).
  assert (HU : exists u, (let! q := entry_parent (mk_fe t dev ctx id i d) in match q with None => Ok (win_info (0, 0) 0 0 0 0 0) | Some x => let! _ := win_filename x in fst (win_entry_info (0, 0) x f_init) end) = Ok u /\
    (2 < id -> exists v g, inode_is recs (in_parent i) (Some v) /\ wshown_object lzvn block recs (in_parent i) v g /\ windows_info g v u)).
  { destruct (id <=? 2) eqn:C.
    - unfold entry_parent. cbn [fe_id]. replace (2 <? id) with false by lia. cbn [bind]. eexists. split; [reflexivity|]. lia.
    - destruct (HP ltac:(lia)) as (v & g & IV & (n & sn & N1 & N2 & N3 & N4 & N5 & N6) & SV). rewrite (C70_parent_partial tie h t recs dev ctx id i d v H1 H2 IV). rewrite C. cbn [bind].
      rewrite (win_filename_text (mk_fe t dev ctx (in_parent i) v None) sn); [|unfold entry_text; cbn [fe_rec fe_inode]; rewrite N1; apply name_text; assumption|assumption..].
      cbn [bind]. destruct (shown_info tie h t recs dev ctx block lzvn (in_parent i) v None g H1 H2 HD SV) as (u & st2 & GU & _ & PU). rewrite GU.
      exists u. split; [reflexivity|]. intros _. eauto 6. }
  destruct HU as (u & HU1 & HU2).
  destruct (get_dir_ok tie h t recs dev ctx id i d r l H1 H2 Hid HI HH HL st (or_introl D0)) as (st1 & GD & D1).
  destruct (win_list_ok tie h t recs dev ctx block lzvn id i d r l H1 H2 Hid HI HH HD HL HV longest H3 l [] st1 eq_refl (or_intror D1)) as (m & M1 & M2). change (len (@nil (dentry * list Z))) with 0 in M1.
  exists s, u, m. split; [|split; [exact P|split; [|split; [exact HU2|exact M2]]]].
  - unfold win_find. rewrite (win_with_ok bad t dev ctx fold p id i d _ HO). rewrite G. cbn [bind]. unfold win_fill at 1 2. replace (2 <=? longest) with true by lia. replace (3 <=? longest) with true by lia.
    change (260 <? 2) with false. change (260 <? 3) with false. change (2 <=? 14) with true. change (3 <=? 14) with true. cbn [check bind].
    destruct (entry_parent (mk_fe t dev ctx id i d)) as [q| | |]; cbn [bind] in *; try discriminate.
    destruct (match q with None => _ | Some x => _ end) as [u'| | |]; cbn [bind] in *; try discriminate. assert (u' = u) as -> by congruence.
    unfold entry_subs. rewrite (bindM_ok _ _ _ _ _ GD). unfold retM. cbn [bind]. rewrite len_map. unfold len. rewrite Nat2Z.id. rewrite M1. reflexivity.
  - unfold win_information. rewrite (win_with_ok bad t dev ctx fold p id i d _ HO). rewrite G. reflexivity.
Qed.
Print Assumptions C100_windows_listing_partial.
(* The information for the path of a listed name is what is listed with it. *)
Theorem C100_windows_listed_partial : forall (tie : list Z -> list Z -> Prop) h t recs dev ctx block lzvn hashed fold bad v dirs id e r d s q,
  (forall a b c, tie a b -> tie b c -> tie a c) -> fs_tree tie h t recs -> directories tie hashed fold recs -> inode_is recs 2 (Some v) ->
  leads hashed fold recs 2 None dirs id e -> named hashed fold id recs r d s ->
  Forall (fun s => s <> [] /\ ~ In 47 s) (dirs ++ [s]) -> Forall file_name dirs -> hd 0 s <> 0xfeff -> Forall (fun s => wfits (utf16 s)) (dirs ++ [s]) ->
  wlisted t dev ctx lzvn block recs (d, s) q ->
  exists texts, Forall2 (fun s t => exists n, win_from (utf16 s) = Ok (t, n)) dirs texts /\
    (2 * len (windows_path (texts ++ [fst (fst q)])) < 2 ^ 63 - 3 -> win_information bad t dev ctx fold (0, 0) (windows_path (texts ++ [fst (fst q)])) = Ok (inl (snd q))).
Proof.
  intros tie h t recs dev ctx block lzvn hashed fold bad v dirs id e r d s q H1 H2 H3 H4 H5 H6 H8 H9 H10 H11 ((n & Q1) & _ & w & f & Q2 & Q3 & Q4 & Q5). cbn [fst snd] in *.
  destruct (C98_windows_open_partial tie h t recs dev ctx hashed fold bad v dirs id e r d s w H1 H2 H3 H4 H5 H6 Q2 H8 H9 H10 H11) as (texts & text & T1 & (n' & T2) & T3). exists texts. split; [exact T1|]. intros L.
  pose proof H6 as (_ & _ & _ & FS & SP & _). apply Forall_app in H8, H11. destruct H8 as (_ & N). destruct H11 as (_ & B).
  pose proof (proj1 (Forall_inv N)) as NS. pose proof (Forall_inv B) as BS. cbn beta in NS, BS.
  rewrite (win_filename_text (mk_fe t dev ctx (de_inode d) w (Some d)) s) in T2; [|unfold entry_text; cbn [fe_rec]; apply name_text; assumption|assumption..].
  rewrite win_from_ok in Q1 by assumption. assert (text = fst (fst q)) as -> by congruence. unfold win_information. rewrite (win_with_ok _ _ _ _ _ _ _ _ _ _ (T3 L)). rewrite Q5. reflexivity.
Qed.
Print Assumptions C100_windows_listed_partial.
Example C100_example : option_map (map fst) (wgot (win_find (fun _ => None) fi fz_dev None true 260 [92])) =
  Some [([46], [46]); ([46; 46], [46; 46]); ([97], [97]); ([99; 94; 120; 48; 97; 94; 120; 55; 99; 94; 120; 53; 99], [])].
Proof. vm_compute. reflexivity. Qed.
Lemma fi_wshowable f id : len (fl_data f) <= 2 -> In id [16; 17] -> wshowable f (fy_value (fy_inode id 0)).
Proof.
  intros H2 H3. split; [lia|]. destruct H3 as [<-|[<-|[]]]; (split; [|right; vm_compute; auto]); repeat (apply Forall_cons; [vm_compute; split; reflexivity|]); apply Forall_nil.
Qed.
Example C100_instance : exists w u m, win_find (fun _ => None) fi fz_dev None true 260 [92; 97] = Ok (inl (([46], [46], w) :: ([46; 46], [46; 46], u) :: m)) /\ Forall2 (wlisted fi fz_dev None no_lzvn (plain_block fz_dev) fi_recs) [(fz_rec [98] 17, [98])] m.
Proof.
  assert (NB : forall id, 2 < id -> not_below 8 id fi_recs) by (intros id L; exists fi_root; split; [left; reflexivity|]; left; vm_compute; exact L).
  assert (V17 : inode_is fi_recs 17 (Some (fy_value (fy_inode 17 0)))) by (apply volume_inode; [unfold fi_recs; cbn [In]; tauto|vm_compute; reflexivity|lia|vm_compute; reflexivity]).
  assert (V2 : inode_is fi_recs 2 (Some (fy_value fi_root))) by (apply volume_inode; [unfold fi_recs; cbn [In]; tauto|vm_compute; reflexivity|lia|vm_compute; reflexivity]).
  assert (E : filter (has 9 16) fi_recs = [fz_child 16 [98] 17]) by (vm_compute; reflexivity).
  destruct (C100_windows_listing_partial fx_tie 0 fi fi_recs fz_dev None (plain_block fz_dev) no_lzvn (fun _ => None) true 260 [92; 97] 16 (fy_value (fy_inode 16 0)) (Some (fz_rec [97] 16)) (mk_file [] [] 0 None) (fy_inode 16 0) [(fz_rec [98] 17, [98])]) as (s & u & m & M1 & _ & _ & _ & M2).
  - unfold fx_tie. intros. lia.
  - exact fi_tree.
  - apply vd_plain.
  - lia.
  - vm_compute. reflexivity.
  - unfold fi_recs. cbn [In]. tauto.
  - vm_compute. reflexivity.
  - split; [lia|]. split; [exists (fy_inode 16 0); split; [unfold fi_recs; cbn [In]; tauto|vm_compute; reflexivity]|]. split; [|apply fi_wshowable; [vm_compute; discriminate|cbn [In]; tauto]].
    exists []. apply plain_empty; [lia|vm_compute; reflexivity..|]. apply NB. lia.
  - unfold entries. rewrite E. constructor; [|constructor]. cbn [fst snd]. split; [apply fz_dir_rec; [vm_compute; split; discriminate|lia]|]. destruct (fy_ascii [98] eq_refl) as (Y1 & Y2 & Y3). split; [exact Y1|]. split; [right; reflexivity|exact Y3].
  - intros q [<-|[]]. cbn [fst snd fz_rec de_inode]. split; [discriminate|]. split; [vm_compute; discriminate|]. eexists _, _. split; [exact V17|].
    split; [lia|]. split; [exists (fy_inode 17 0); split; [unfold fi_recs; cbn [In]; tauto|vm_compute; reflexivity]|]. split; [eexists; exact C77_instance|]. apply fi_wshowable; [vm_compute; discriminate|cbn [In]; tauto].
  - intros _. assert (EP : in_parent (fy_value (fy_inode 16 0)) = 2) by (vm_compute; reflexivity). rewrite EP. exists (fy_value fi_root), (mk_file [] [] 0 None). split; [exact V2|]. split.
    + exists [114; 111; 111; 116; 0], [114; 111; 111; 116]. split; [vm_compute; reflexivity|]. destruct (fy_ascii [114; 111; 111; 116] eq_refl) as (Y1 & Y2 & Y3). split; [exact Y1|]. split; [exact Y2|]. split; [exact Y3|]. split; [discriminate|vm_compute; reflexivity].
    + split; [lia|]. split; [exists fi_root; split; [left; reflexivity|vm_compute; reflexivity]|]. split.
      * exists []. apply plain_empty; [lia|vm_compute; reflexivity..|]. exists fi_root. split; [left; reflexivity|]. right. vm_compute. split; [reflexivity|discriminate].
      * split; [vm_compute; reflexivity|]. split; [|right; vm_compute; auto]. repeat (apply Forall_cons; [vm_compute; split; reflexivity|]); apply Forall_nil.
  - exists s, u, m. split; [exact M1|exact M2].
Qed.
(* The full statement is false: a name of 26 letters makes the whole directory fail, and with long
   paths it makes the program write beyond the end of the name in the structure. *)
Definition fv_name : list Z := map Z.of_nat (seq 97 26).
Definition fv_recs : list TreeSpec.record := [fi_root; fz_child 2 fv_name 16; fy_inode 16 0].
Definition fv : fs := one_node fv_recs.
Lemma fv_tree : fs_tree fx_tie 0 fv fv_recs.
Proof. one_node_tac fv_recs. Qed.
Theorem C100_windows_listing_refuted : exists (tie : list Z -> list Z -> Prop) h t recs dev bad fold p id i d r l e,
  (forall a b c, tie a b -> tie b c -> tie a c) /\ fs_tree tie h t recs /\ win_open bad t fold p = Ok (Some (id, i, d)) /\ In r recs /\ has 3 id r = true /\
  entries recs id l /\ l = [e] /\ windows_name (snd e) /\ len (snd e) = 26 /\ (exists v, inode_is recs (de_inode (fst e)) (Some v)) /\
  win_find bad t dev None fold 260 p = Ok (inr FAILURE) /\ win_find bad t dev None fold 32768 p = Oob.
Proof.
  exists fx_tie, 0%nat, fv, fv_recs, fz_dev, (fun _ => None), true, [92], 2, (fy_value fi_root), None, fi_root, [(fz_rec fv_name 16, fv_name)], (fz_rec fv_name 16, fv_name).
  split; [unfold fx_tie; intros; lia|]. split; [exact fv_tree|]. split; [vm_compute; reflexivity|]. split; [left; reflexivity|]. split; [vm_compute; reflexivity|].
  split.
  { unfold entries. assert (E : filter (has 9 2) fv_recs = [fz_child 2 fv_name 16]) by (vm_compute; reflexivity). rewrite E. constructor; [|constructor]. cbn [fst snd].
    split; [apply fz_dir_rec; [vm_compute; split; discriminate|lia]|]. destruct (fy_ascii fv_name eq_refl) as (Y1 & Y2 & Y3). split; [exact Y1|]. split; [right; reflexivity|exact Y3]. }
  split; [reflexivity|]. split.
  { cbn [snd]. split; [discriminate|]. split; [|split; [vm_compute; intuition discriminate|split; vm_compute; discriminate]].
    assert (X : forallb (fun c => (32 <=? c) && forallb (fun x => negb (x =? c)) [60; 62; 58; 34; 47; 92; 124; 63; 42]) fv_name = true) by (vm_compute; reflexivity). rewrite forallb_forall in X.
    apply Forall_forall. intros c Hc. specialize (X c Hc). cbn [forallb] in X. unfold windows_char. cbn [In]. lia. }
  split; [vm_compute; reflexivity|]. split; [eexists; cbn [fst fz_rec de_inode]; apply (volume_inode fv_recs 16 (fy_inode 16 0)); [unfold fv_recs; cbn [In]; tauto|vm_compute; reflexivity|lia|vm_compute; reflexivity]|].
  split; vm_compute; reflexivity.
Qed.
Print Assumptions C100_windows_listing_refuted.
