(* C76 to C79: what fsapfsinfo prints and reads. *)
From Verif Require Import Base BaseLemmas Name NameSpec NameProofs PropName BTreeSpec BTreeProofs Walk Omap TreeSpec OmapSpec OmapTop PropOmap RecordsSpec Records RecordsProofs FsTree FsSpec FsProofs FsTop FsLookup PropFs
  FsNameSpec FsName FsNameProofs FsNameTop PropFsName Snapshot FileEntry FileSpec FileProofs FileTop PropFile EntryName EntrySpec PropEntry KeyBag EndSpec EndProofs ToolPath ToolPathSpec ToolPathProofs ToolMount ToolMountProofs ToolExample PropToolPath
  CryptSpec DataSpec Compressed CompressedSpec CompressedTop PropCompressed ToolInfo ToolInfoSpec ToolLine ToolHier.
Ltac Zify.zify_post_hook ::= Z.div_mod_to_equations.

Lemma joined_path ms : ms <> [] -> path_of ms = 47 :: joined ms.
Proof.
  induction ms as [|s ms IH]; intros N; [congruence|]. rewrite path_of_cons. destruct ms as [|s' ms]; [cbn [joined]; change (path_of []) with (@nil Z); rewrite app_nil_r; reflexivity|].
  rewrite IH by discriminate. reflexivity.
Qed.
Lemma below_leads hashed fold recs id d ms i e : below hashed fold recs id d ms i e -> Forall (fun s => s <> []) ms -> leads hashed fold recs id d ms i e.
Proof.
  induction 1 as [|id d r c s names i e' H1 H2 IH]; intros F; [apply leads_here|]. eapply leads_down; [exact H1|exact (Forall_inv F)|reflexivity|reflexivity|]. apply IH, (Forall_inv_tail F).
Qed.
Lemma below_file_names hashed fold recs id d ms i e : below hashed fold recs id d ms i e -> Forall file_name ms.
Proof. induction 1 as [|id d r c s names i e' H1 H2 IH]; constructor; [|exact IH]. apply H1. Qed.

(* C76. The path that is printed for an entry, after the identifier of the volume, is the option
   that selects this entry. *)
Theorem C76_printed_path_opens_partial : forall (tie : list Z -> list Z -> Prop) h t recs hashed fold bad v ms i d w,
  (forall a b c, tie a b -> tie b c -> tie a c) -> fs_tree tie h t recs -> directories tie hashed fold recs -> inode_is recs 2 (Some v) ->
  below hashed fold recs 2 None ms i d -> inode_is recs i (Some w) -> ms <> [] -> Forall (fun s => s <> [] /\ ~ In 47 s) ms -> fits (utf8 (47 :: joined ms)) ->
  exists txt, path_from (utf8 (joined ms)) = Ok (utf8 txt) /\ spelled [92] txt (joined ms) /\ info_open bad t fold (47 :: utf8 txt) = Ok (Some (i, w, d)).
Proof.
  intros tie h t recs hashed fold bad v ms i d w H1 H2 H3 H4 H5 H6 H7 H8 H9.
  pose proof (below_file_names _ _ _ _ _ _ _ _ H5) as FN.
  assert (PL : Forall plain ms). { clear - FN H8. induction FN as [|s l F1 F2 IH]; constructor; [pose proof (Forall_inv H8) as X; cbn beta in X; split; [exact F1|exact X]|exact (IH (Forall_inv_tail H8))]. }
  pose proof (joined_path ms H7) as JP. pose proof (path_file_name ms FN) as PN. rewrite JP in PN. pose proof (Forall_inv_tail PN) as JN.
  assert (JS : Forall scalar (joined ms)) by (eapply Forall_impl; [|exact JN]; cbn; tauto).
  assert (NE : joined ms <> []).
  { destruct ms as [|s [|s' ms]]; [congruence| |]; cbn [joined].
    - exact (proj1 (Forall_inv H8)).
    - destruct s; discriminate. }
  assert (QE : forall c, path_e c = true <-> In c [92]) by (intros c; unfold path_e; cbn [In]; lia).
  destruct (escs_spelled [92] path_e (joined ms) JS QE ltac:(cbn [In]; lia)) as (txt & E & S). exists txt. split; [|split; [exact S|]].
  - rewrite <- E. apply path_from_ok; [exact JS|exact NE|]. unfold fits in *. rewrite utf8_cons, len_app in H9. pose proof (utf8_char_len 47). lia.
  - unfold info_open. replace (47 :: utf8 txt) with (escs is_control path_e (47 :: joined ms)) by (unfold escs in *; cbn [map concat]; rewrite E; reflexivity).
    rewrite path_to_ok; [|exact PN|discriminate|exact H9]. cbn [bind]. rewrite c_string_utf8 by exact PN. rewrite <- JP.
    apply (path_found tie h t recs hashed fold 2 v (path_of ms) i d w false); try assumption.
    + rewrite JP. exact PN.
    + apply path_long; assumption.
    + rewrite components_path by exact PL. apply below_leads; [exact H5|]. eapply Forall_impl; [|exact H8]. cbn; tauto.
Qed.
Print Assumptions C76_printed_path_opens_partial.
(* "b" of directory "a", and the file whose name has an end of line, "|" and a backslash *)
Example C76_instance : below false true fm_recs 2 None [[97]; [98]] 17 (Some (fz_rec [98] 17)) /\ below false true fm_recs 2 None [[99; 10; 124; 92]] 19 (Some (fz_rec [99; 10; 124; 92] 19)).
Proof.
  split; (eapply below_down; [first [apply (link_named _ _ fm_links_ok (mk_link 2 [97] 18)); cbn; tauto|apply (link_named _ _ fm_links_ok (mk_link 2 [99; 10; 124; 92] 19)); cbn; tauto]|]); [|apply below_here].
  eapply below_down; [apply (link_named _ _ fm_links_ok (mk_link 18 [98] 17)); cbn; tauto|]. apply below_here.
Qed.
Example C76_example : path_from [99; 10; 124; 92] = Ok [99; 92; 120; 48; 97; 124; 92; 92] /\
  match info_open (fun _ => None) fm true [47; 99; 92; 120; 48; 97; 124; 92; 92] with Ok (Some (i, _, _)) => i | _ => 0 end = 19 /\
  info_open (fun _ => None) fm true [47; 99; 92; 120; 48; 97] = Ok None.
Proof. vm_compute. auto. Qed.
(* The full statement is false: the entry "a/b" of the root and the entry "b" of the directory "a"
   are printed alike, and the path opens the second. *)
Theorem C76_printed_path_opens_refuted : exists (tie : list Z -> list Z -> Prop) h t recs hashed fold ms i d ms' i' d' txt x,
  (forall a b c, tie a b -> tie b c -> tie a c) /\ fs_tree tie h t recs /\ directories tie hashed fold recs /\
  below hashed fold recs 2 None ms i d /\ below hashed fold recs 2 None ms' i' d' /\ i <> i' /\
  path_from (utf8 (joined ms)) = Ok txt /\ path_from (utf8 (joined ms')) = Ok txt /\
  info_open (fun _ => None) t fold (47 :: txt) = Ok (Some (i', x, d')).
Proof.
  exists fx_tie, 0%nat, fm, fm_recs, false, true, [[97; 47; 98]], 16, (Some (fz_rec [97; 47; 98] 16)), [[97]; [98]], 17, (Some (fz_rec [98] 17)), [97; 47; 98], (fy_value (fy_inode 17 0)).
  split; [unfold fx_tie; intros; lia|]. split; [exact fm_tree|]. split; [exact (links_directories _ _ fm_links_ok)|].
  split; [eapply below_down; [apply (link_named _ _ fm_links_ok (mk_link 2 [97; 47; 98] 16)); cbn; tauto|apply below_here]|]. split; [exact (proj1 C76_instance)|]. split; [lia|].
  split; [vm_compute; reflexivity|]. split; [vm_compute; reflexivity|]. vm_compute. reflexivity.
Qed.
Print Assumptions C76_printed_path_opens_refuted.

(* ---- C77: a line of a bodyfile ---- *)
Lemma inode_ranges data i : bytes data -> inode_value data = Ok i -> 0 <= in_mode i < 65536 /\ 0 <= in_owner i < 2 ^ 32 /\ 0 <= in_group i < 2 ^ 32.
Proof.
  intros B. unfold inode_value. destruct (check (92 <=? len data)) eqn:C; cbn [bind]; try discriminate.
  assert (R : forall n off v, rd_le n data off = Ok v -> 0 <= v < 256 ^ n).
  { intros n off v E. apply rd_le_ok in E. destruct E as (E1 & E2 & E3 & ->). pose proof (le_val_range (slice data off n) (bytes_slice data off n B)) as X. rewrite len_slice in X by lia. exact X. }
  do 11 match goal with |- bind (rd_le ?n data ?o) _ = _ -> _ => destruct (rd_le n data o) eqn:?; cbn [bind]; try discriminate end.
  destruct (xf_parse inode_step false 92 data (None, 0, 0)) as [((name, size), d)| | |]; cbn [bind]; try discriminate. intros E.
  assert (E' : Ok i = Ok i) by reflexivity. injection E as <-. cbn [in_mode in_owner in_group].
  repeat match goal with H : rd_le _ data _ = Ok _ |- _ => apply R in H end. change (256 ^ 2) with 65536 in *. change (256 ^ 4) with (2 ^ 32) in *. lia.
Qed.

(* The line of a file has eleven fields that say what the inode and the data say; the path is
   escaped so that it ends the field and the line nowhere, and determines the names. *)
Theorem C77_bodyfile_line_partial : forall (tie : list Z -> list Z -> Prop) h t recs dev ctx block lzvn junk md5 id r i d l f calc pre s,
  (forall a b c, tie a b -> tie b c -> tie a c) -> fs_tree tie h t recs -> 0 <= id < 2 ^ 60 -> In r recs -> has 3 id r = true -> bytes (snd r) -> inode_value (snd r) = Ok i ->
  volume_data dev ctx block -> (forall d s, len (junk d s) = len s) -> is_file lzvn block recs id i l f -> fl_link f = None -> len (fl_data f) < 2 ^ 64 ->
  (forall data, bytes (md5 data) /\ len (md5 data) = 16) ->
  Forall (fun t => 0 <= t < 2 ^ 63) [in_access i; in_mtime i; in_changed i; in_created i] ->
  Forall scalar pre -> pre <> [] -> fits (utf8 pre) -> (id <> 2 -> Forall scalar s /\ s <> [] /\ fits (utf8 s)) ->
  exists line st, body_line lzvn junk md5 calc (mk_fe t dev ctx id i d) (utf8 pre) (utf8 s) f_init = Ok (line, st) /\
    body_says md5 calc (pre ++ if id =? 2 then [] else s) id i (fl_data f) line.
Proof.
  intros tie h t recs dev ctx block lzvn junk md5 id r i d l f calc pre s H1 H2 H3 H4 H5 HB HI H6 H7 H8 H9 HZ H10 H11 H12 H13 H14 H15.
  destruct (file_entry_follows tie h t recs dev ctx block lzvn junk id i d r l f H1 H2 H3 H4 H5 H6 H7 H8) as (I & HF). destruct (inode_ranges _ _ HB HI) as (R1 & R2 & R3). destruct (H10 (fl_data f)) as (M1 & M2).
  destruct (body_line_says lzvn junk md5 (mk_fe t dev ctx id i d) _ f I HF calc pre s f_init 0 (proj1 HF) M1 M2 H9 H3 R1 R2 R3 HZ H11 H12 H13 H14 H15) as (line & st & E & _ & S). eauto.
Qed.
Print Assumptions C77_bodyfile_line_partial.
(* Different paths are written differently. *)
Theorem C77_paths_differ : forall md5 md5' calc calc' path path' id id' i i' data data' line,
  body_says md5 calc path id i data line -> body_says md5' calc' path' id' i' data' line -> Forall scalar path -> Forall scalar path' -> path = path'.
Proof.
  intros md5 md5' calc calc' path path' id id' i i' data data' line (_ & d & p & n & m & u & g & z & a & b & c & e & F & _ & S & _) (_ & d' & p' & n' & m' & u' & g' & z' & a' & b' & c' & e' & F' & _ & S' & _) P P'.
  rewrite F in F'. assert (E : utf8 p = utf8 p') by congruence.
  assert (X : forall t s, spelled [92; 124] t s -> Forall scalar s -> Forall scalar t /\ Forall (fun c => c <> 0) t).
  { intros t s H. induction H as [|x t s C1 C2 H IH|x t s C1 H IH|k t s L1 L2 H IH|k t s L1 L2 H IH]; intros SC; [split; constructor| | | |]; destruct (IH (Forall_inv_tail SC)) as (I1 & I2).
    - pose proof (Forall_inv SC) as X. split; constructor; try assumption. intros ->. unfold shown in C1. lia.
    - pose proof (Forall_inv SC) as X. cbn [In] in C1. split; (constructor; [unfold scalar; lia|]); constructor; try assumption. lia.
    - assert (K : Forall scalar k /\ Forall (fun c => c <> 0) k) by (split; eapply Forall_impl; try exact L2; unfold hexdigit, scalar; intros; lia).
      split; (constructor; [unfold scalar; lia|]); (constructor; [unfold scalar; lia|]); apply Forall_app; split; tauto.
    - assert (K : Forall scalar k /\ Forall (fun c => c <> 0) k) by (split; eapply Forall_impl; try exact L2; unfold hexdigit, scalar; intros; lia).
      split; (constructor; [unfold scalar; lia|]); (constructor; [unfold scalar; lia|]); apply Forall_app; split; tauto. }
  destruct (X p path S P) as (A1 & A2). destruct (X p' path' S' P') as (B1 & B2). assert (p = p') as <- by (apply utf8_inj; assumption).
  eapply spelled_inj; [| | |exact S|exact S']; cbn [In]; lia.
Qed.
Print Assumptions C77_paths_differ.

(* ---- C78: the entries of a volume ---- *)
Lemma entry_path_facts pre root ms n : file_name pre -> pre <> [] -> (length ms <= n)%nat -> Forall file_name ms -> Forall (fun s => s <> []) ms -> Forall (fun s => len (utf8 s) <= 1023) ms ->
  10 * (len (utf8 pre) + 1024 * (Z.of_nat n + 1)) < 2 ^ 63 - 1 ->
  Forall scalar (entry_path pre ms) /\ entry_path pre ms <> [] /\ fits (utf8 (entry_path pre ms)) /\ (ms <> [] -> Forall scalar (own_name root ms) /\ own_name root ms <> [] /\ fits (utf8 (own_name root ms))).
Proof.
  intros P1 P2 L F N S B. unfold entry_path. pose proof (len_nonneg (utf8 pre)).
  assert (A1 : file_name (above (removelast ms))) by (apply above_names, removelast_forall, F).
  assert (A2 : len (utf8 (above (removelast ms))) <= 1024 * Z.of_nat (length (removelast ms))) by (apply above_size, removelast_forall, S).
  assert (A3 : (length (removelast ms) <= length ms)%nat) by (clear; induction ms as [|m [|m' ms] IH]; cbn in *; lia).
  split; [apply Forall_app; split; (eapply Forall_impl; [|eassumption]; cbn; tauto)|]. split; [destruct pre; [congruence|discriminate]|]. split; [unfold fits; rewrite utf8_app, len_app; lia|].
  intros NE. unfold own_name. assert (I : In (last ms root) ms) by (rewrite (app_removelast_last root NE) at 2; apply in_or_app; right; left; reflexivity).
  rewrite Forall_forall in F, N, S. specialize (F _ I). specialize (N _ I). specialize (S _ I). cbn beta in S. split; [eapply Forall_impl; [|exact F]; cbn; tauto|]. split; [exact N|]. unfold fits. lia.
Qed.
Lemma below_nonempty hashed fold recs id d ms i e : (forall id r d s, named hashed fold id recs r d s -> s <> [] /\ hd 0 s <> 0xfeff) -> below hashed fold recs id d ms i e -> Forall (fun s => s <> []) ms.
Proof. intros HN. induction 1 as [|id d r c s names i e' H1 H2 IH]; constructor; [exact (proj1 (HN _ _ _ _ H1))|exact IH]. Qed.

Section Lines.
  Variables (tie : list Z -> list Z -> Prop) (h : nat) (t : fs) (recs : list TreeSpec.record) (dev : image) (ctx : option (list Z -> list Z -> list Z)) (hashed fold : bool) (pre root nm : list Z) (v : inode) (n : nat).
  Hypothesis tie_trans : forall a b c, tie a b -> tie b c -> tie a c.
  Hypothesis HT : fs_tree tie h t recs.
  Hypothesis HD : directories tie hashed fold recs.
  Hypothesis HN : forall id r d s, named hashed fold id recs r d s -> s <> [] /\ hd 0 s <> 0xfeff.
  Hypothesis HV : inode_is recs 2 (Some v).
  Hypothesis HM : in_name v = Some nm.
  Hypothesis HRN : file_name root /\ spells root nm /\ hd 0 root <> 0xfeff.
  Hypothesis HP : file_name pre.
  Hypothesis HP0 : pre <> [].
  Hypothesis HF : forall ms i d, below hashed fold recs 2 None ms i d -> (length ms <= n)%nat.
  Hypothesis HB : 10 * (len (utf8 pre) + 1024 * (Z.of_nat n + 1)) < 2 ^ 63 - 1.
  Lemma lines_listed line (good : list (list Z) -> list Z -> Prop) :
    (forall ms i d w l, below hashed fold recs 2 None ms i d -> inode_is recs i (Some w) -> (i = 2 <-> ms = []) ->
       exists out st, line (mk_fe t dev ctx i w d) (utf8 (entry_path pre ms)) (utf8 (own_name root ms)) (set_dir f_init l) = Ok (out, st) /\ f_dir st = Some l /\ good ms out) ->
    exists L outs, volume_lines line (S n) t dev ctx (utf8 pre) = Ok outs /\ NoDup L /\ (forall ms, In ms L <-> exists i d, below hashed fold recs 2 None ms i d) /\ Forall2 good L outs.
  Proof.
    intros HL. pose proof (below_root hashed fold recs 2 n HF) as HR.
    assert (HRoot : forall w, inode_is recs 2 (Some w) -> entry_text (mk_fe t dev ctx 2 w None) = Ok root).
    { intros w W. pose proof (inode_found tie h t recs 2 (Some v) tie_trans HT HV) as E1. pose proof (inode_found tie h t recs 2 (Some w) tie_trans HT W) as E2. assert (w = v) as -> by congruence.
      unfold entry_text. cbn [fe_rec fe_inode]. rewrite HM. apply name_text; apply HRN. }
    destruct (hier_ok tie h t recs dev ctx hashed fold line pre root good tie_trans HT HD HN HP HR) with (n := n) (ms := @nil (list Z)) (i := 2) (d := @None dentry) (v := v) as (L & outs & E & L1 & L2 & L3); try assumption.
    - intros ms i d w l B W. apply (HL ms i d w l B W). split; [exact (HR ms i d B)|]. intros ->. inversion B; reflexivity.
    - apply below_here.
    - exists L, outs. split; [|split; [exact L1|split; [exact L2|exact L3]]]. unfold volume_lines. rewrite (inode_found tie h t recs 2 (Some v) tie_trans HT HV). cbn [bind].
      unfold entry_path in E. cbn [removelast above map concat] in E. rewrite app_nil_r in E. exact E.
  Qed.
  Lemma lines_facts ms i d : below hashed fold recs 2 None ms i d -> Forall scalar (entry_path pre ms) /\ entry_path pre ms <> [] /\ fits (utf8 (entry_path pre ms)) /\
    (ms <> [] -> Forall scalar (own_name root ms) /\ own_name root ms <> [] /\ fits (utf8 (own_name root ms))).
  Proof. intros B. apply (entry_path_facts pre root ms n HP HP0 (HF _ _ _ B)); [eapply below_file_names|eapply below_nonempty|eapply below_size|exact HB]; eauto. Qed.
End Lines.

(* The lines are those of the entries that are reached from the root directory, each once per chain
   of names, and every line spells the chain. *)
Theorem C78_hierarchy_partial : forall (tie : list Z -> list Z -> Prop) h t recs dev ctx hashed fold pre root nm v n,
  (forall a b c, tie a b -> tie b c -> tie a c) -> fs_tree tie h t recs -> directories tie hashed fold recs -> (forall id r d s, named hashed fold id recs r d s -> s <> [] /\ hd 0 s <> 0xfeff) ->
  inode_is recs 2 (Some v) -> in_name v = Some nm -> file_name root /\ spells root nm /\ hd 0 root <> 0xfeff -> file_name pre -> pre <> [] ->
  (forall ms i d, below hashed fold recs 2 None ms i d -> (length ms <= n)%nat) -> 10 * (len (utf8 pre) + 1024 * (Z.of_nat n + 1)) < 2 ^ 63 - 1 ->
  exists L outs, volume_lines path_line (S n) t dev ctx (utf8 pre) = Ok outs /\ NoDup L /\ (forall ms, In ms L <-> exists i d, below hashed fold recs 2 None ms i d) /\
    Forall2 (fun ms out => exists txt, out = utf8 txt /\ spelled [92] txt (pre ++ joined ms)) L outs.
Proof.
  intros tie h t recs dev ctx hashed fold pre root nm v n H1 H2 H3 H4 H5 H6 H7 H8 H9 H10 H11.
  apply (lines_listed tie h t recs dev ctx hashed fold pre root nm v n H1 H2 H3 H4 H5 H6 H7 H8 H10). intros ms i d w l B W HI.
  destruct (lines_facts recs hashed fold pre root n H4 H8 H9 H10 H11 ms i d B) as (P1 & P2 & P3 & P4).
  assert (QE : forall c, path_e c = true <-> In c [92]) by (intros c; unfold path_e; cbn [In]; lia). unfold path_line. cbn [fe_id].
  rewrite (path_from_ok _ P1 P2 P3). cbn [bind]. assert (SC : Forall scalar (path_text i (entry_path pre ms) (own_name root ms))).
  { apply Forall_app. split; [exact P1|]. destruct (i =? 2) eqn:C; [constructor|]. apply P4. intros E. apply HI in E. lia. }
  destruct (escs_spelled [92] path_e _ SC QE ltac:(cbn [In]; lia)) as (txt & E & S). rewrite (path_text_joined pre root ms i HI) in S.
  assert (N : (if i =? 2 then Ok [] else path_from (utf8 (own_name root ms))) = Ok (escs is_control path_e (if i =? 2 then [] else own_name root ms))).
  { destruct (i =? 2) eqn:C; [reflexivity|]. assert (NE : ms <> []) by (intros X; apply HI in X; lia). destruct (P4 NE) as (Q1 & Q2 & Q3). exact (path_from_ok _ Q1 Q2 Q3). }
  rewrite N. cbn [bind]. eexists _, _. split; [reflexivity|]. split; [reflexivity|]. exists txt. split; [|exact S]. rewrite <- E. unfold path_text, escs. rewrite map_app, concat_app. reflexivity.
Qed.
Print Assumptions C78_hierarchy_partial.
(* The same of a bodyfile *)
Theorem C78_bodyfile_partial : forall (tie : list Z -> list Z -> Prop) h t recs dev ctx block lzvn junk md5 calc hashed fold pre root nm v n,
  (forall a b c, tie a b -> tie b c -> tie a c) -> fs_tree tie h t recs -> directories tie hashed fold recs -> (forall id r d s, named hashed fold id recs r d s -> s <> [] /\ hd 0 s <> 0xfeff) ->
  inode_is recs 2 (Some v) -> in_name v = Some nm -> file_name root /\ spells root nm /\ hd 0 root <> 0xfeff -> file_name pre -> pre <> [] ->
  (forall ms i d, below hashed fold recs 2 None ms i d -> (length ms <= n)%nat) -> 10 * (len (utf8 pre) + 1024 * (Z.of_nat n + 1)) < 2 ^ 63 - 1 ->
  volume_data dev ctx block -> (forall d s, len (junk d s) = len s) -> (forall data, bytes (md5 data) /\ len (md5 data) = 16) -> Forall (fun r => bytes (snd r)) recs ->
  (forall ms i d w, below hashed fold recs 2 None ms i d -> inode_is recs i (Some w) -> Forall (fun t => 0 <= t < 2 ^ 63) [in_access w; in_mtime w; in_changed w; in_created w] /\
     exists l f, is_file lzvn block recs i w l f /\ fl_link f = None /\ len (fl_data f) < 2 ^ 64) ->
  exists L outs, volume_lines (body_line lzvn junk md5 calc) (S n) t dev ctx (utf8 pre) = Ok outs /\ NoDup L /\ (forall ms, In ms L <-> exists i d, below hashed fold recs 2 None ms i d) /\
    Forall2 (fun ms line => exists i d w l f, below hashed fold recs 2 None ms i d /\ inode_is recs i (Some w) /\ is_file lzvn block recs i w l f /\ body_says md5 calc (pre ++ joined ms) i w (fl_data f) line) L outs.
Proof.
  intros tie h t recs dev ctx block lzvn junk md5 calc hashed fold pre root nm v n H1 H2 H3 H4 H5 H6 H7 H8 H9 H10 H11 V1 V2 V3 V4 V5.
  apply (lines_listed tie h t recs dev ctx hashed fold pre root nm v n H1 H2 H3 H4 H5 H6 H7 H8 H10). intros ms i d w l0 B W HI.
  destruct (lines_facts recs hashed fold pre root n H4 H8 H9 H10 H11 ms i d B) as (P1 & P2 & P3 & P4). destruct (V5 ms i d w B W) as (T & l & f & F1 & F2 & F3).
  pose proof W as (Hid & r & R1 & R2 & R3). destruct (file_entry_follows tie h t recs dev ctx block lzvn junk i w d r l f H1 H2 Hid R1 R2 V1 V2 F1) as (I & HF). rewrite Forall_forall in V4. destruct (inode_ranges _ _ (V4 r R1) R3) as (M1 & M2 & M3).
  destruct (V3 (fl_data f)) as (M4 & M5).
  destruct (body_line_says lzvn junk md5 (mk_fe t dev ctx i w d) _ f I HF calc (entry_path pre ms) (own_name root ms) (set_dir f_init l0) 0 (proj1 (proj2 (proj2 HF)) _ _ l0 (proj1 HF)) M4 M5 F2 Hid M1 M2 M3 F3 T P1 P2 P3) as (line & st & E & D & S).
  { intros NE. apply P4. intros X. apply HI in X. exact (NE X). }
  exists line, st. split; [exact E|]. split; [exact D|]. exists i, d, w, l, f. split; [exact B|]. split; [exact W|]. split; [exact F1|]. cbn [fe_id fe_inode] in S. rewrite (path_text_joined pre root ms i HI) in S. exact S.
Qed.
Print Assumptions C78_bodyfile_partial.

(* ---- volumes for examples: the root directory has the name "root"; the directory "a" (16) with
   the file "b" (17) whose data is in its attribute, and a file (19) whose name has an end of line,
   "|" and a backslash ---- *)
Definition fi_root : TreeSpec.record := (RecordsSpec.key_head 3 2, inode_value_bytes (fy_stored 2) 48 true [(4, 0, [114; 111; 111; 116; 0]); (8, 0, le_enc 8 0 ++ zeros 32)]).
Definition fi_recs : list TreeSpec.record :=
  [fi_root; fz_child 2 [97] 16; fz_child 2 [99; 10; 124; 92] 19; fy_inode 16 0; fz_child 16 [98] 17; fy_inode 17 0; fy_attr 17 decmpfs_name fy_raw; fy_inode 19 0].
Definition fi : fs := one_node fi_recs.
Definition fi_links : list link := [mk_link 2 [97] 16; mk_link 2 [99; 10; 124; 92] 19; mk_link 16 [98] 17].
Definition fi_pre : list Z := [47; 118; 47].
Definition fi_md5 (d : list Z) : list Z := repeat (match d with [] => 0xd4 | _ => 0x18 end) 16.
Lemma fi_tree : fs_tree fx_tie 0 fi fi_recs.
Proof. one_node_tac fi_recs. Qed.
Lemma fi_links_ok : links_ok fi_recs fi_links = true.
Proof. vm_compute. reflexivity. Qed.
Lemma volume_inode recs id r : In r recs -> has 3 id r = true -> 0 <= id < 2 ^ 60 -> is_ok (inode_value (snd r)) = true -> inode_is recs id (Some (fy_value r)).
Proof.
  intros H1 H2 H3 H4. split; [exact H3|]. exists r. split; [exact H1|]. split; [exact H2|]. unfold fy_value. destruct (inode_value (snd r)); [reflexivity|discriminate..].
Qed.
Lemma all_bytes d : forallb (fun x => (0 <=? x) && (x <? 256)) d = true -> bytes d.
Proof. intros H. apply Forall_forall. intros x Hx. rewrite forallb_forall in H. specialize (H x Hx). unfold is_byte. lia. Qed.
Lemma plain_empty recs id i : 0 <= id < 2 ^ 60 -> in_stream i = id -> in_size i = 0 -> filter (has 4 id) recs = [] -> filter (has 8 id) recs = [] -> not_below 8 id recs ->
  is_file no_lzvn (plain_block fz_dev) recs id i [] (mk_file [] [] 0 None).
Proof.
  intros Hid H1 H2 H3 H4 H5. assert (X : extents_of recs id []) by (split; [exact Hid|split; [exact H5|rewrite H4; constructor]]).
  split; [split; [rewrite H3; constructor|constructor]|]. rewrite H1. split; [|split; [exact X|split; [constructor|split; reflexivity]]]. left. cbn [fl_data]. split; [left; reflexivity|]. split; [exact H2|].
  exists [], (fun _ => 0). rewrite H1. split; [exact X|]. split; [reflexivity|]. split; [unfold total, len; cbn; lia|]. split; [constructor|]. split; [intros e k []|reflexivity].
Qed.
Example C77_instance : is_file no_lzvn (plain_block fz_dev) fi_recs 17 (fy_value (fy_inode 17 0)) [(mk_at (decmpfs_name ++ [0]) 2 (AInline fy_raw), decmpfs_name)] (mk_file [97; 98] [] 1 None).
Proof.
  split; [|split; [|split; [|split; [constructor|split; [reflexivity|reflexivity]]]]].
  - split; [|repeat constructor; intros []].
    assert (E : filter (has 4 17) fi_recs = [fy_attr 17 decmpfs_name fy_raw]) by (vm_compute; reflexivity).
    rewrite E. constructor; [|constructor]. cbn [fst snd]. split; [apply fy_attr_rec; [split; [|reflexivity]; vm_compute; discriminate|reflexivity]|]. apply (fy_ascii decmpfs_name). reflexivity.
  - right. apply (pf_inline _ _ _ _ (mk_at (decmpfs_name ++ [0]) 2 (AInline fy_raw)) 3 [0xff; 97; 98] [97; 98]).
    + reflexivity.
    + reflexivity.
    + repeat constructor; unfold is_byte; lia.
    + vm_compute. discriminate.
    + vm_compute. split; discriminate.
    + left. split; [reflexivity|]. left. reflexivity.
  - split; [vm_compute; split; [discriminate|reflexivity]|]. split.
    + exists fi_root. split; [left; reflexivity|]. left. vm_compute. reflexivity.
    + assert (E : filter (has 8 (in_stream (fy_value (fy_inode 17 0)))) fi_recs = []) by (vm_compute; reflexivity). rewrite E. constructor.
Qed.
(* 1818...|/v/b|17|-rw-r--r--|501|20|2|0.000000014|0.000000011|0.000000013|0.000000012 *)
Example C77_example : match body_line no_lzvn no_junk fi_md5 true (mk_fe fi fz_dev None 17 (fy_value (fy_inode 17 0)) None) fi_pre [98] f_init with Ok (line, _) => line | _ => [] end =
  concat (repeat [49; 56] 16) ++ [124; 47; 118; 47; 98; 124; 49; 55; 124; 45; 114; 119; 45; 114; 45; 45; 114; 45; 45; 124; 53; 48; 49; 124; 50; 48; 124; 50] ++
  [124; 48; 46; 48; 48; 48; 48; 48; 48; 48; 49; 52; 124; 48; 46; 48; 48; 48; 48; 48; 48; 48; 49; 49; 124; 48; 46; 48; 48; 48; 48; 48; 48; 48; 49; 51; 124; 48; 46; 48; 48; 48; 48; 48; 48; 48; 49; 50].
Proof. vm_compute. reflexivity. Qed.

(* The full statement is false: the target of a symbolic link is printed as it is. The link "l" has
   the target "t", an end of line and "0|/v/f": the text has a second line, with eleven fields,
   about "/v/f", which does not exist. *)
Definition fk_target : list Z := [116; 10; 48; 124; 47; 118; 47; 102].
Definition fk_recs : list TreeSpec.record := [fi_root; fz_child 2 [108] 18; fy_inode 18 0; fy_attr 18 symlink_name (fk_target ++ [0])].
Definition fk : fs := one_node fk_recs.
Definition fk_links : list link := [mk_link 2 [108] 18].
Lemma fk_tree : fs_tree fx_tie 0 fk fk_recs.
Proof. one_node_tac fk_recs. Qed.
Lemma fk_links_ok : links_ok fk_recs fk_links = true.
Proof. vm_compute. reflexivity. Qed.
Lemma fk_file : is_file no_lzvn (plain_block fz_dev) fk_recs 18 (fy_value (fy_inode 18 0)) [(mk_at (symlink_name ++ [0]) 2 (AInline (fk_target ++ [0])), symlink_name)] (mk_file [] [] 1 (Some (fk_target ++ [0]))).
Proof.
  assert (X : extents_of fk_recs 18 []).
  { split; [lia|]. split; [exists fi_root; split; [left; reflexivity|]; left; vm_compute; reflexivity|]. assert (E : filter (has 8 18) fk_recs = []) by (vm_compute; reflexivity). rewrite E. constructor. }
  assert (ES : in_stream (fy_value (fy_inode 18 0)) = 18) by (vm_compute; reflexivity).
  split; [|rewrite ES; split; [|split; [exact X|split; [constructor|split; [|reflexivity]]]]].
  - split; [|repeat constructor; intros []]. assert (E : filter (has 4 18) fk_recs = [fy_attr 18 symlink_name (fk_target ++ [0])]) by (vm_compute; reflexivity).
    rewrite E. constructor; [|constructor]. cbn [fst snd]. split; [apply fy_attr_rec; [split; [|reflexivity]; vm_compute; discriminate|reflexivity]|]. apply (fy_ascii symlink_name). reflexivity.
  - left. cbn [fl_data]. split; [left; reflexivity|]. split; [vm_compute; reflexivity|]. exists [], (fun _ => 0). rewrite ES. split; [exact X|]. split; [reflexivity|]. split; [unfold total, len; cbn; lia|]. split; [constructor|]. split; [intros e k []|reflexivity].
  - exists (fk_target ++ [0]). split; [reflexivity|]. split; [reflexivity|]. vm_compute. split; discriminate.
Qed.
Theorem C77_bodyfile_line_refuted : exists (tie : list Z -> list Z -> Prop) h t recs dev block lzvn junk md5 hashed fold id d i l f pre name line st a b path rest,
  (forall a b c, tie a b -> tie b c -> tie a c) /\ fs_tree tie h t recs /\ directories tie hashed fold recs /\ below hashed fold recs 2 None [name] id d /\ inode_is recs id (Some i) /\
  volume_data dev None block /\ is_file lzvn block recs id i l f /\
  body_line lzvn junk md5 false (mk_fe t dev None id i d) (utf8 pre) (utf8 name) f_init = Ok (line, st) /\
  lines line = [a; b] /\ fields false b = [48] :: utf8 path :: rest /\ len rest = 9 /\
  forall ms i d, below hashed fold recs 2 None ms i d -> pre ++ joined ms <> path.
Proof.
  set (i := fy_value (fy_inode 18 0)). set (d := fz_rec [108] 18).
  assert (X : exists line st, body_line no_lzvn no_junk fi_md5 false (mk_fe fk fz_dev None 18 i (Some d)) (utf8 fi_pre) (utf8 [108]) f_init = Ok (line, st) /\
    exists a b rest, lines line = [a; b] /\ fields false b = [48] :: utf8 [47; 118; 47; 102] :: rest /\ len rest = 9).
  { eexists _, _. split; [vm_compute; reflexivity|]. eexists _, _, _. split; [vm_compute; reflexivity|]. split; [vm_compute; reflexivity|]. vm_compute. reflexivity. }
  destruct X as (line & st & X1 & a & b & rest & X2 & X3 & X4).
  exists fx_tie, 0%nat, fk, fk_recs, fz_dev, (plain_block fz_dev), no_lzvn, no_junk, fi_md5, false, true, 18, (Some d), i. eexists _, _. exists fi_pre, [108], line, st, a, b, [47; 118; 47; 102], rest.
  split; [unfold fx_tie; intros; lia|]. split; [exact fk_tree|]. split; [exact (links_directories _ _ fk_links_ok)|].
  split; [eapply below_down; [apply (link_named _ _ fk_links_ok (mk_link 2 [108] 18)); left; reflexivity|apply below_here]|].
  split; [apply volume_inode; [unfold fk_recs; cbn [In]; tauto|vm_compute; reflexivity|lia|vm_compute; reflexivity]|]. split; [apply vd_plain|]. split; [exact fk_file|]. split; [exact X1|]. split; [exact X2|]. split; [exact X3|]. split; [exact X4|].
  intros ms j e B. destruct ms as [|m ms]; [discriminate|]. inversion B as [|? ? r c s names ? ? N B2]; subst. destruct (named_link _ _ fk_links_ok _ _ _ _ N) as (k & [<-|[]] & _ & _ & -> & ->).
  cbn [lk_name lk_to fz_rec de_inode] in *. destruct ms as [|m ms]; cbn; discriminate.
Qed.
Print Assumptions C77_bodyfile_line_refuted.
(* Times before 1970 are printed as no number: 5 nanoseconds before as 0.-00000005. *)
Theorem C77_time_refuted : time_text (2 ^ 64 - 5) = [48; 46; 45; 48; 48; 48; 48; 48; 48; 48; 53] /\ forall t, ~ moment (time_text (2 ^ 64 - 5)) t.
Proof.
  assert (E : time_text (2 ^ 64 - 5) = [48; 46; 45; 48; 48; 48; 48; 48; 48; 48; 53]) by (vm_compute; reflexivity). split; [exact E|]. rewrite E. clear E. intros t (a & b & s & n & E & (_ & A & _) & (_ & B & _) & _).
  assert (I : In 45 (a ++ 46 :: b)) by (rewrite <- E; cbn [In]; tauto). rewrite Forall_forall in A, B. apply in_app_iff in I. destruct I as [I|[I|I]]; [specialize (A _ I)|discriminate|specialize (B _ I)]; unfold digit in *; lia.
Qed.
Print Assumptions C77_time_refuted.

Example C78_instance : in_name (fy_value fi_root) = Some [114; 111; 111; 116; 0] /\ inode_is fi_recs 2 (Some (fy_value fi_root)) /\
  (forall ms i d, below false true fi_recs 2 None ms i d -> (length ms <= 2)%nat) /\ 10 * (len (utf8 fi_pre) + 1024 * (Z.of_nat 2 + 1)) < 2 ^ 63 - 1 /\
  Forall (fun r => bytes (snd r)) fi_recs /\
  (forall ms i d w, below false true fi_recs 2 None ms i d -> inode_is fi_recs i (Some w) -> Forall (fun t => 0 <= t < 2 ^ 63) [in_access w; in_mtime w; in_changed w; in_created w] /\
     exists l f, is_file no_lzvn (plain_block fz_dev) fi_recs i w l f /\ fl_link f = None /\ len (fl_data f) < 2 ^ 64).
Proof.
  split; [vm_compute; reflexivity|]. split; [apply volume_inode; [left; reflexivity|vm_compute; reflexivity|lia|vm_compute; reflexivity]|].
  split; [intros ms i d B; apply (link_depth _ _ fi_links_ok 2 2 None ms i d); [vm_compute; reflexivity|exact B]|]. split; [vm_compute; reflexivity|].
  split; [unfold fi_recs; repeat (apply Forall_cons; [apply all_bytes; vm_compute; reflexivity|]); apply Forall_nil|].
  assert (F : forall i w, inode_is fi_recs i (Some w) -> In i [2; 16; 17; 19] -> w = fy_value (if i =? 2 then fi_root else fy_inode i 0)).
  { intros i w W I. pose proof (inode_found fx_tie 0 fi fi_recs i (Some w) ltac:(unfold fx_tie; intros; lia) fi_tree W) as E1. cbn [In] in I.
    assert (V : inode_is fi_recs i (Some (fy_value (if i =? 2 then fi_root else fy_inode i 0)))).
    { destruct I as [<-|[<-|[<-|[<-|[]]]]]; cbn [Z.eqb Pos.eqb]; (apply volume_inode; [unfold fi_recs; cbn [In]; tauto|vm_compute; reflexivity|lia|vm_compute; reflexivity]). }
    pose proof (inode_found fx_tie 0 fi fi_recs i _ ltac:(unfold fx_tie; intros; lia) fi_tree V) as E2. congruence. }
  assert (O : forall ms i d, below false true fi_recs 2 None ms i d -> In i [2; 16; 17; 19]).
  { assert (O : forall id0 d0 ms i d, below false true fi_recs id0 d0 ms i d -> In id0 [2; 16; 17; 19] -> In i [2; 16; 17; 19]).
    { induction 1 as [|id0 d0 r c s names i d N B IH]; intros I; [exact I|]. apply IH. destruct (named_link _ _ fi_links_ok _ _ _ _ N) as (k & K1 & _ & _ & -> & _). cbn [fz_rec de_inode].
      destruct K1 as [<-|[<-|[<-|[]]]]; cbn [lk_to In]; tauto. }
    intros ms i d B. apply (O _ _ _ _ _ B). left. reflexivity. }
  intros ms i d w B W. specialize (F i w W (O ms i d B)). pose proof (O ms i d B) as I. cbn [In] in I. subst w.
  assert (NB : forall j, 2 < j -> not_below 8 j fi_recs) by (intros j J; exists fi_root; split; [left; reflexivity|left; change (kid (fst fi_root)) with 2; exact J]).
  destruct I as [<-|[<-|[<-|[<-|[]]]]]; cbn [Z.eqb Pos.eqb]; (split; [repeat (apply Forall_cons || apply Forall_nil); (split; [vm_compute; discriminate|vm_compute; reflexivity])|]).
  - exists [], (mk_file [] [] 0 None). split; [apply plain_empty; [lia|vm_compute; reflexivity..|]|split; reflexivity]. exists fi_root. split; [left; reflexivity|]. right. vm_compute. split; [reflexivity|discriminate].
  - exists [], (mk_file [] [] 0 None). split; [apply plain_empty; [lia|vm_compute; reflexivity..|]|split; reflexivity]. apply NB. lia.
  - eexists _, _. split; [exact C77_instance|]. split; reflexivity.
  - exists [], (mk_file [] [] 0 None). split; [apply plain_empty; [lia|vm_compute; reflexivity..|]|split; reflexivity]. apply NB. lia.
Qed.
Example C78_applies : exists L outs, volume_lines (body_line no_lzvn no_junk fi_md5 true) 3 fi fz_dev None (utf8 fi_pre) = Ok outs /\ NoDup L /\ (forall ms, In ms L <-> exists i d, below false true fi_recs 2 None ms i d) /\
  Forall2 (fun ms line => exists i d w l f, below false true fi_recs 2 None ms i d /\ inode_is fi_recs i (Some w) /\ is_file no_lzvn (plain_block fz_dev) fi_recs i w l f /\ body_says fi_md5 true (fi_pre ++ joined ms) i w (fl_data f) line) L outs.
Proof.
  destruct C78_instance as (I1 & I2 & I3 & I4 & I5 & I6).
  apply (C78_bodyfile_partial fx_tie 0 fi fi_recs fz_dev None (plain_block fz_dev) no_lzvn no_junk fi_md5 true false true fi_pre [114; 111; 111; 116] [114; 111; 111; 116; 0] (fy_value fi_root) 2 ltac:(unfold fx_tie; intros; lia) fi_tree (links_directories _ _ fi_links_ok)); try exact I2; try exact I1; try exact I3; try exact I4; try exact I5; try exact I6.
  - intros id r d s N. destruct (named_link _ _ fi_links_ok _ _ _ _ N) as (k & K1 & _ & _ & _ & ->). split; apply (link_facts _ _ fi_links_ok k K1).
  - apply fy_ascii. reflexivity.
  - apply (fy_ascii fi_pre). reflexivity.
  - discriminate.
  - apply vd_plain.
  - reflexivity.
  - intros d. split; [|reflexivity]. unfold fi_md5. destruct d; apply all_bytes; reflexivity.
Qed.
(* /v/, /v/a, /v/a/b and /v/c\x0a|\\ *)
Example C78_example : volume_lines path_line 3 fi fz_dev None fi_pre =
  Ok [[47; 118; 47]; [47; 118; 47; 97]; [47; 118; 47; 97; 47; 98]; [47; 118; 47; 99; 92; 120; 48; 97; 124; 92; 92]].
Proof. vm_compute. reflexivity. Qed.
(* The full statement is false: a directory that has itself as an entry is listed without end. *)
Definition fc_recs : list TreeSpec.record := [fi_root; fz_child 2 [100] 2].
Definition fc : fs := one_node fc_recs.
Definition fc_links : list link := [mk_link 2 [100] 2].
Lemma fc_tree : fs_tree fx_tie 0 fc fc_recs.
Proof. one_node_tac fc_recs. Qed.
Lemma fc_links_ok : links_ok fc_recs fc_links = true.
Proof. vm_compute. reflexivity. Qed.
Lemma fc_endless n d : d = None \/ d = Some (fz_rec [100] 2) -> hierarchy path_line n (mk_fe fc fz_dev None 2 (fy_value fi_root) d) fi_pre = Fuel.
Proof.
  revert d. induction n as [|n IH]; intros d D; [reflexivity|]. set (e := mk_fe fc fz_dev None 2 (fy_value fi_root) d).
  assert (X : exists st size name st', entry_subs e f_init = (Ok 1, st) /\ entry_name_size utf8 e = Ok size /\ entry_name utf8 e size = Ok name /\ entry_sub e 0 st = (Ok (mk_fe fc fz_dev None 2 (fy_value fi_root) (Some (fz_rec [100] 2))), st')).
  { destruct D as [-> | ->]; subst e; eexists _, _, _, _; (split; [vm_compute; reflexivity|]); (split; [vm_compute; reflexivity|]); (split; [vm_compute; reflexivity|]); vm_compute; reflexivity. }
  destruct X as (st & size & name & st' & X1 & X2 & X3 & X4). cbn [hierarchy]. rewrite X1. cbn [bind]. rewrite X2. cbn [bind]. rewrite X3. cbn [bind].
  assert (PL : forall n s, path_line e (c_string fi_pre) n s = Ok (fi_pre, s)) by (intros n0 s0; reflexivity). rewrite PL. cbn [bind].
  assert (SB : c_string fi_pre ++ (if fe_id e =? 2 then [] else slice name 0 (size - 1) ++ [47]) = fi_pre) by reflexivity. rewrite SB. change (Z.to_nat 1) with 1%nat. cbv beta iota fix. rewrite X4. cbn beta iota delta [bind]. rewrite IH by (right; reflexivity). reflexivity.
Qed.
Theorem C78_hierarchy_refuted : exists (tie : list Z -> list Z -> Prop) h t recs dev hashed fold pre v,
  (forall a b c, tie a b -> tie b c -> tie a c) /\ fs_tree tie h t recs /\ directories tie hashed fold recs /\ inode_is recs 2 (Some v) /\ forall n, volume_lines path_line n t dev None (utf8 pre) = Fuel.
Proof.
  exists fx_tie, 0%nat, fc, fc_recs, fz_dev, false, true, fi_pre, (fy_value fi_root). assert (V : inode_is fc_recs 2 (Some (fy_value fi_root))) by (apply volume_inode; [left; reflexivity|vm_compute; reflexivity|lia|vm_compute; reflexivity]).
  split; [unfold fx_tie; intros; lia|]. split; [exact fc_tree|]. split; [exact (links_directories _ _ fc_links_ok)|]. split; [exact V|].
  intros n. unfold volume_lines. rewrite (inode_found fx_tie 0 fc fc_recs 2 _ ltac:(unfold fx_tie; intros; lia) fc_tree V). cbn [bind]. apply fc_endless. left. reflexivity.
Qed.
Print Assumptions C78_hierarchy_refuted.
(* A root directory whose inode has no name: nothing is listed. *)
Theorem C78_root_name_refuted : exists (tie : list Z -> list Z -> Prop) h t recs dev hashed fold pre v,
  (forall a b c, tie a b -> tie b c -> tie a c) /\ fs_tree tie h t recs /\ directories tie hashed fold recs /\ inode_is recs 2 (Some v) /\ (exists ms i d, ms <> [] /\ below hashed fold recs 2 None ms i d) /\ volume_lines path_line 3 t dev None (utf8 pre) = Fail.
Proof.
  exists fx_tie, 0%nat, fm, fm_recs, fz_dev, false, true, fi_pre, (fy_value (fy_inode 2 0)).
  split; [unfold fx_tie; intros; lia|]. split; [exact fm_tree|]. split; [exact (links_directories _ _ fm_links_ok)|]. split; [apply fm_inode; [left; reflexivity|vm_compute; reflexivity|lia|vm_compute; reflexivity]|].
  split; [eexists _, _, _; split; [|exact (proj1 C76_instance)]; discriminate|]. vm_compute. reflexivity.
Qed.
Print Assumptions C78_root_name_refuted.

(* ---- C79: numbers in options ---- *)
Lemma option_loop_ok max : forall l i v, Forall digit l -> i + len l <= max + 1 -> 0 <= v -> fold_left (fun a c => 10 * a + (if c <=? 57 then c - 48 else c - 87)) l v < 2 ^ 64 ->
  option_loop max i l v = Ok (fold_left (fun a c => 10 * a + (if c <=? 57 then c - 48 else c - 87)) l v).
Proof.
  induction l as [|c l IH]; intros i v D L V B; [reflexivity|]. cbn [option_loop fold_left] in *. pose proof (Forall_inv D) as C. unfold digit in C. rewrite len_cons in L. pose proof (len_nonneg l).
  assert (G : forall l a, Forall digit l -> 0 <= a -> a <= fold_left (fun a c => 10 * a + (if c <=? 57 then c - 48 else c - 87)) l a).
  { clear. induction l as [|c l IH]; intros a D A; cbn [fold_left]; [lia|]. pose proof (Forall_inv D) as C. unfold digit in C. specialize (IH (10 * a + (if c <=? 57 then c - 48 else c - 87)) (Forall_inv_tail D)). destruct (c <=? 57) eqn:E; lia. }
  unfold check. replace (i <=? max) with true by lia. cbn [bind]. replace ((48 <=? c) && (c <=? 57)) with true by lia. cbn [bind].
  specialize (G l (10 * v + (if c <=? 57 then c - 48 else c - 87)) (Forall_inv_tail D)). assert (E : (if c <=? 57 then c - 48 else c - 87) = c - 48) by (destruct (c <=? 57) eqn:E; lia). rewrite E in *.
  unfold w64. replace (((v * 10) mod 2 ^ 64 + (c - 48)) mod 2 ^ 64) with (10 * v + (c - 48)) by (rewrite (Z.mod_small (v * 10)) by lia; rewrite Z.mod_small by lia; lia). apply IH; [exact (Forall_inv_tail D)|lia..].
Qed.
Theorem C79_option_number_partial : forall l v, decimal l v -> v < 2 ^ 64 -> len l <= 21 -> option_value l = Ok v /\ option_value (43 :: l) = Ok v.
Proof.
  intros l v (NE & D & <-) B L. unfold numeral in *. split; [|unfold option_value; cbn [Z.eqb Pos.eqb]; apply option_loop_ok; try assumption; lia].
  destruct l as [|c r]; [congruence|]. unfold option_value. pose proof (Forall_inv D) as C. unfold digit in C. replace (c =? 45) with false by lia. replace (c =? 43) with false by lia. apply option_loop_ok; try assumption; lia.
Qed.
Print Assumptions C79_option_number_partial.
(* What is accepted is a sign or none and digits. *)
Lemma option_loop_digits max : forall l i v x, option_loop max i l v = Ok x -> Forall digit l.
Proof.
  induction l as [|c l IH]; intros i v x E; [constructor|]. cbn [option_loop] in E. unfold check in E. destruct (i <=? max); cbn [bind] in E; try discriminate.
  destruct ((48 <=? c) && (c <=? 57)) eqn:C; cbn [bind] in E; try discriminate. constructor; [unfold digit; lia|eapply IH; exact E].
Qed.
Theorem C79_option_rejects : forall l v, option_value l = Ok v -> exists s d, l = s ++ d /\ (s = [] \/ s = [43] \/ s = [45]) /\ Forall digit d.
Proof.
  intros [|c r] v E; [exists [], []; split; [reflexivity|split; [left; reflexivity|constructor]]|]. unfold option_value in E. destruct (c =? 45) eqn:C1.
  - destruct (option_loop 21 1 r 0) as [x| | |] eqn:X; try discriminate. exists [45], r. split; [cbn; f_equal; lia|]. split; [auto|]. eapply option_loop_digits; exact X.
  - destruct (c =? 43) eqn:C2; [exists [43], r; split; [cbn; f_equal; lia|]; split; [auto|]; eapply option_loop_digits; exact E|]. exists [], (c :: r). split; [reflexivity|]. split; [auto|]. eapply option_loop_digits; exact E.
Qed.
Print Assumptions C79_option_rejects.
(* "18446744073709551615", "+34", "12a" *)
Example C79_example : option_value [49; 56; 52; 52; 54; 55; 52; 52; 48; 55; 51; 55; 48; 57; 53; 53; 49; 54; 49; 53] = Ok (2 ^ 64 - 1) /\ option_value [43; 51; 52] = Ok 34 /\ option_value [49; 50; 97] = Fail.
Proof. vm_compute. auto. Qed.
(* The full statement is false: "18446744073709551618", the number 2^64 + 2, is accepted as 2, the
   object of the root directory; a sign without digits and the empty text are accepted as 0. *)
Theorem C79_option_number_refuted : exists l v, decimal l v /\ v = 2 ^ 64 + 2 /\ option_value l = Ok 2 /\ option_value [] = Ok 0 /\ option_value [45] = Ok 0 /\ option_value [43] = Ok 0.
Proof.
  exists [49; 56; 52; 52; 54; 55; 52; 52; 48; 55; 51; 55; 48; 57; 53; 53; 49; 54; 49; 56], (2 ^ 64 + 2).
  split; [split; [discriminate|split; [repeat (constructor; [unfold digit; lia|]); constructor|vm_compute; reflexivity]]|]. vm_compute. auto.
Qed.
Print Assumptions C79_option_number_refuted.
