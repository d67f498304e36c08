(* C74 to C76: the names and paths of fsapfsmount and fsapfsinfo. *)
From Verif Require Import Base BaseLemmas Name NameSpec NameProofs PropName BTreeSpec BTreeProofs Walk Omap TreeSpec OmapSpec OmapTop PropOmap RecordsSpec Records RecordsProofs FsTree FsSpec FsProofs FsTop FsLookup PropFs
  FsNameSpec FsName FsNameProofs FsNameTop PropFsName Snapshot FileEntry FileSpec FileProofs FileTop PropFile EntryName EntrySpec PropEntry KeyBag EndSpec EndProofs ToolPath ToolPathSpec ToolPathProofs ToolMount ToolMountProofs ToolExample.
Ltac Zify.zify_post_hook ::= Z.div_mod_to_equations.

(* C74. A name is shown as a text that can be shown, without the separator; a path of shown
   names is read back as the path of the names. So different names are shown differently. *)
Theorem C74_mount_names : forall bad names, names <> [] -> Forall (fun s => file_name s /\ s <> [] /\ fits (utf8 s)) names ->
  exists texts, Forall2 (fun s t => mount_from (utf8 s) = Ok (utf8 t) /\ t <> [] /\ Forall (fun c => scalar c /\ shown c /\ c <> 47) t) names texts /\
    (len (utf8 (path_of texts)) < 2 ^ 63 - 1 -> mount_to bad (utf8 (path_of texts)) = Ok (utf8 (path_of names))).
Proof.
  intros bad names N H. exists (map name_chars names). split.
  - clear N. induction H as [|s l (H1 & H2 & H3) H4 IH]; cbn [map]; constructor; [|exact IH]. split; [apply mount_from_chars; assumption|].
    split; [apply name_chars_nonempty, H2|apply name_chars_shown, H1].
  - rewrite utf8_path, map_map. intros L. apply mount_to_path; [|exact N|exact L]. eapply Forall_impl; [|exact H]. cbn. tauto.
Qed.
Print Assumptions C74_mount_names.
Theorem C74_mount_names_differ : forall s s' t, file_name s -> file_name s' -> s <> [] -> s' <> [] -> fits (utf8 s) -> fits (utf8 s') ->
  mount_from (utf8 s) = Ok t -> mount_from (utf8 s') = Ok t -> s = s'.
Proof.
  intros s s' t F F' N N' B B' E E'.
  assert (X : forall z, file_name z -> z <> [] -> fits (utf8 z) -> mount_from (utf8 z) = Ok t -> mount_text (47 :: t) (47 :: z) /\ len t <= 10 * len (utf8 z)).
  { intros z Z1 Z2 Z3 Z4. rewrite mount_from_ok in Z4 by assumption. assert (t = escs mount_x (fun c => c =? 92) z) as -> by congruence. split; [constructor; apply mount_text_name, Z1|apply escs_len]. }
  destruct (X s F N B E) as (T & L). destruct (X s' F' N' B' E') as (T' & L').
  assert (LT : len (47 :: t) < 2 ^ 63 - 1) by (rewrite len_cons; unfold fits in B; lia).
  pose proof (mount_to_ok (fun _ => None) t s T LT) as A. pose proof (mount_to_ok (fun _ => None) t s' T' LT) as C. rewrite A in C.
  assert (S : forall z, file_name z -> Forall scalar (47 :: z) /\ Forall (fun c => c <> 0) (47 :: z)).
  { intros z FZ. split; (constructor; [unfold scalar; lia|]); eapply Forall_impl; try exact FZ; cbn; tauto. }
  assert (U : 47 :: s = 47 :: s') by (apply utf8_inj; try apply S; try assumption; congruence). congruence.
Qed.
Print Assumptions C74_mount_names_differ.
(* No text makes the functions write outside of their strings or run on. *)
Theorem C74_path_strings_total : forall bad sep l, fine (path_from l) /\ fine (bodyfile_from l) /\ fine (mount_from l) /\ fine (path_to bad sep l) /\ fine (mount_to bad l).
Proof. exact path_strings_fine. Qed.
Print Assumptions C74_path_strings_total.
(* a name of a separator, a backslash, an end of line, U+2028, e with acute and a letter *)
Example C74_example : let s := [47; 92; 10; 0x2028; 0xe9; 97] in
  mount_from (utf8 s) = Ok ([92; 120; 50; 102] ++ [92; 92] ++ [92; 120; 48; 97] ++ [92; 85; 48; 48; 48; 48; 50; 48; 50; 56] ++ [0xc3; 0xa9] ++ [97]) /\
  (let! t := mount_from (utf8 s) in mount_to (fun _ => None) (47 :: t)) = Ok (47 :: utf8 s) /\
  mount_to (fun _ => None) [47; 92; 120; 52; 49] = Fail.
Proof. vm_compute. auto. Qed.

(* C75. A listed entry is opened by the path of the names that are listed for it and for the
   directories above it, and with the name under which it is listed. *)
Theorem C75_mount_open_partial : forall (tie : list Z -> list Z -> Prop) h t recs dev ctx hashed fold bad v dirs id e r d s w,
  (forall a b c, tie a b -> tie b c -> tie a c) -> fs_tree tie h t recs -> directories tie hashed fold recs -> inode_is recs 2 (Some v) ->
  leads hashed fold recs 2 None dirs id e -> named hashed fold id recs r d s -> inode_is recs (de_inode d) (Some w) ->
  Forall (fun s => s <> [] /\ ~ In 47 s) (dirs ++ [s]) -> Forall file_name dirs -> hd 0 s <> 0xfeff -> Forall (fun s => fits (utf8 s)) (dirs ++ [s]) ->
  exists texts text, Forall2 (fun s t => mount_from (utf8 s) = Ok t) dirs texts /\
    mount_filename (mk_fe t dev ctx (de_inode d) w (Some d)) = Ok text /\
    (len (path_of (texts ++ [text])) < 2 ^ 63 - 1 -> mount_open bad t fold (path_of (texts ++ [text])) = Ok (Some (text, (de_inode d, w, Some d)))).
Proof.
  intros tie h t recs dev ctx hashed fold bad v dirs id e r d s w H1 H2 H3 H4 H5 H6 H7 H8 H9 H10 H11.
  pose proof H6 as (_ & _ & _ & FS & SP & _).
  assert (PL : Forall plain (dirs ++ [s])).
  { assert (FN : Forall file_name (dirs ++ [s])) by (apply Forall_app; split; [exact H9|constructor; [exact FS|constructor]]).
    clear - H8 FN. induction FN as [|a l A1 A2 IH]; constructor; [pose proof (Forall_inv H8) as X; cbn beta in X; split; [exact A1|exact X]|exact (IH (Forall_inv_tail H8))]. }
  assert (NE : s <> []) by (apply Forall_app in H8; destruct H8 as (_ & H8); exact (proj1 (Forall_inv H8))).
  assert (FB : fits (utf8 s)) by (apply Forall_app in H11; destruct H11 as (_ & H11); exact (Forall_inv H11)).
  set (f := fun s => utf8 (name_chars s)).
  exists (map f dirs), (f s). split; [|split].
  - apply Forall_app in H11. destruct H11 as (H11 & _). apply Forall_app in H8. destruct H8 as (H8 & _). clear - H8 H9 H11. induction H9 as [|a l A1 A2 IH]; constructor.
    + pose proof (Forall_inv H8) as X. pose proof (Forall_inv H11) as Y. cbn beta in X, Y. apply mount_from_chars; [exact A1|tauto|exact Y].
    + exact (IH (Forall_inv_tail H8) (Forall_inv_tail H11)).
  - assert (ET : entry_text (mk_fe t dev ctx (de_inode d) w (Some d)) = Ok s) by (cbn [entry_text fe_rec]; apply name_text; assumption).
    unfold mount_filename, entry_name_size, entry_name. rewrite ET. cbn [bind]. pose proof (len_nonneg (utf8 s)). unfold fits in FB. unfold ssize_max.
    replace (negb (len (utf8 s) + 1 =? 0) && (len (utf8 s) + 1 <=? 2 ^ 63 - 1)) with true by lia. cbn [check bind]. rewrite Z.leb_refl. cbn [check bind].
    replace (len (utf8 s) + 1 - 1) with (len (utf8 s)) by lia. unfold slice. change (Z.to_nat 0) with O. cbn [skipn]. rewrite firstn_app_l by (unfold len; lia). apply mount_from_chars; assumption.
  - assert (EP : map f dirs ++ [f s] = map f (dirs ++ [s])) by (rewrite map_app; reflexivity). intros L. rewrite EP in *.
    assert (FN : Forall file_name (dirs ++ [s])) by (eapply Forall_impl; [|exact PL]; unfold plain; tauto).
    assert (MT : mount_to bad (path_of (map f (dirs ++ [s]))) = Ok (utf8 (path_of (dirs ++ [s])))) by (exact (mount_to_path bad (dirs ++ [s]) FN ltac:(destruct dirs; discriminate) L)).
    assert (PF : fs_by_path t utf8_next fold 2 (utf8 (path_of (dirs ++ [s]))) = Ok (Some (de_inode d, w, Some d))).
    { apply (path_found tie h t recs hashed fold 2 v (path_of (dirs ++ [s])) (de_inode d) (Some d) w false); try assumption.
      - apply path_file_name, FN.
      - apply path_long; [exact PL|destruct dirs; discriminate].
      - rewrite components_path by exact PL. eapply leads_snoc; eassumption. }
    assert (EQ : path_of (map f (dirs ++ [s])) = path_of (map f dirs) ++ 47 :: f s) by (rewrite <- EP, path_of_app; change (path_of [f s]) with (47 :: f s ++ []); rewrite app_nil_r; reflexivity).
    rewrite EQ in L, MT |- *.
    rewrite (mount_open_path bad t fold (path_of (map f dirs)) (f s) (Some (de_inode d, w, Some d)) (utf8 (path_of (dirs ++ [s])))); try assumption; try reflexivity.
    + unfold f. intros X. assert (Y : name_chars s = []). { destruct (name_chars s) as [|c l]; [reflexivity|]. rewrite utf8_cons in X. pose proof (utf8_char_len c). destruct (utf8_char c); [unfold len in *; cbn in *; lia|discriminate]. } exact (name_chars_nonempty s NE Y).
    + pose proof (name_chars_shown s FS) as SH. apply utf8_no; [lia|eapply Forall_impl; [|exact SH]; cbn; tauto|]. intros X. rewrite Forall_forall in SH. apply SH in X. tauto.
    + rewrite c_string_utf8; [exact PF|apply path_file_name, FN].
Qed.
Print Assumptions C75_mount_open_partial.

(* ---- a volume: "a/b" (file 16), the directory "a" (18) with "b" (file 17), and a name of "c",
   an end of line, "|" and a backslash (file 19) ---- *)
Definition fm_recs : list TreeSpec.record :=
  [fy_inode 2 0; fz_child 2 [97] 18; fz_child 2 [97; 47; 98] 16; fz_child 2 [99; 10; 124; 92] 19; fy_inode 16 0; fy_inode 17 0; fy_inode 18 0; fz_child 18 [98] 17; fy_inode 19 0].
Definition fm : fs := one_node fm_recs.
Definition fm_links : list link := [mk_link 2 [97] 18; mk_link 2 [97; 47; 98] 16; mk_link 2 [99; 10; 124; 92] 19; mk_link 18 [98] 17].
Lemma fm_tree : fs_tree fx_tie 0 fm fm_recs.
Proof. one_node_tac fm_recs. Qed.
Lemma fm_links_ok : links_ok fm_recs fm_links = true.
Proof. vm_compute. reflexivity. Qed.
Lemma fm_inode id : In (fy_inode id 0) fm_recs -> has 3 id (fy_inode id 0) = true -> 0 <= id < 2 ^ 60 -> is_ok (inode_value (snd (fy_inode id 0))) = true ->
  inode_is fm_recs id (Some (fy_value (fy_inode id 0))).
Proof.
  intros H1 H2 H3 H4. split; [exact H3|]. exists (fy_inode id 0). split; [exact H1|]. split; [exact H2|]. unfold fy_value.
  destruct (inode_value (snd (fy_inode id 0))); [reflexivity|discriminate..].
Qed.
Definition fm_show (r : res (option (list Z * (Z * inode * option dentry)))) : option (list Z * Z) := match r with Ok (Some (n, (id, _, _))) => Some (n, id) | _ => None end.

(* The conditions of C75 hold for the file "b" of directory "a" and for the last file of the root. *)
Example C75_instance : leads false true fm_recs 2 None [[97]] 18 (Some (fz_rec [97] 18)) /\ named false true 18 fm_recs (fz_child 18 [98] 17) (fz_rec [98] 17) [98] /\
  inode_is fm_recs 17 (Some (fy_value (fy_inode 17 0))).
Proof.
  split; [exact (link_leads _ _ fm_links_ok None (mk_link 2 [97] 18) (or_introl eq_refl))|]. split; [apply (link_named _ _ fm_links_ok (mk_link 18 [98] 17)); cbn; tauto|].
  apply fm_inode; [unfold fm_recs; cbn [In]; tauto|vm_compute; reflexivity|lia|vm_compute; reflexivity].
Qed.
Example C75_example : fm_show (mount_open (fun _ => None) fm true [47; 97; 47; 98]) = Some ([98], 17) /\
  fm_show (mount_open (fun _ => None) fm true [47; 99; 92; 120; 48; 97; 124; 92; 92]) = Some ([99; 92; 120; 48; 97; 124; 92; 92], 19) /\
  fm_show (mount_open (fun _ => None) fm true [47]) = Some ([], 2).
Proof. vm_compute. auto. Qed.

(* The full statement is false: the entry "a/b" of the root is listed as "a\x2fb", which opens
   the entry "b" of the directory "a". *)
Theorem C75_mount_open_refuted : exists (tie : list Z -> list Z -> Prop) h t recs dev hashed fold v r d s w text e,
  (forall a b c, tie a b -> tie b c -> tie a c) /\ fs_tree tie h t recs /\ directories tie hashed fold recs /\ inode_is recs 2 (Some v) /\
  named hashed fold 2 recs r d s /\ inode_is recs (de_inode d) (Some w) /\ s <> [] /\ hd 0 s <> 0xfeff /\ fits (utf8 s) /\
  mount_filename (mk_fe t dev None (de_inode d) w (Some d)) = Ok text /\
  forall bad, mount_open bad t fold (47 :: text) = Ok (Some (text, e)) /\ fst (fst e) <> de_inode d.
Proof.
  exists fx_tie, 0%nat, fm, fm_recs, fz_dev, false, true, (fy_value (fy_inode 2 0)), (fz_child 2 [97; 47; 98] 16), (fz_rec [97; 47; 98] 16), [97; 47; 98], (fy_value (fy_inode 16 0)),
    [97; 92; 120; 50; 102; 98], (17, fy_value (fy_inode 17 0), Some (fz_rec [98] 17)).
  split; [unfold fx_tie; intros; lia|]. split; [exact fm_tree|]. split; [exact (links_directories _ _ fm_links_ok)|].
  split; [apply fm_inode; [left; reflexivity|vm_compute; reflexivity|lia|vm_compute; reflexivity]|].
  split; [apply (link_named _ _ fm_links_ok (mk_link 2 [97; 47; 98] 16)); cbn; tauto|].
  split; [cbn [fz_rec de_inode]; apply fm_inode; [unfold fm_recs; cbn [In]; tauto|vm_compute; reflexivity|lia|vm_compute; reflexivity]|].
  split; [discriminate|]. split; [discriminate|]. split; [vm_compute; reflexivity|]. split; [vm_compute; reflexivity|]. intros bad. cbn [fst fz_rec de_inode]. split; [|discriminate].
  apply (mount_open_path bad fm true [] [97; 92; 120; 50; 102; 98] (Some (17, fy_value (fy_inode 17 0), Some (fz_rec [98] 17))) [47; 97; 47; 98]); [discriminate|cbn; lia|vm_compute; reflexivity| |].
  - exact (mount_to_ok bad [97; 92; 120; 50; 102; 98] [97; 47; 98] (mt_sep _ _ (mount_text_name [97; 47; 98] (proj1 (fy_ascii [97; 47; 98] eq_refl)))) eq_refl).
  - vm_compute. reflexivity.
Qed.
Print Assumptions C75_mount_open_refuted.
(* Nor is a separator at the end of a path ignored, which the code means to do. *)
Theorem C75_trailing_separator_refuted : exists (tie : list Z -> list Z -> Prop) h t recs fold p x,
  fs_tree tie h t recs /\ mount_open (fun _ => None) t fold p = Ok (Some x) /\ fst (fst (snd x)) <> 2 /\ mount_open (fun _ => None) t fold (p ++ [47]) = Fail.
Proof.
  exists fx_tie, 0%nat, fm, fm_recs, true, [47; 97], ([97], (18, fy_value (fy_inode 18 0), Some (fz_rec [97] 18))). split; [exact fm_tree|].
  split; [vm_compute; reflexivity|]. split; [discriminate|]. vm_compute. reflexivity.
Qed.
Print Assumptions C75_trailing_separator_refuted.
