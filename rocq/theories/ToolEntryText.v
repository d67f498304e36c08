(* The text about a file entry states what the entry is. *)
From Coq Require Import String.
From Verif Require Import Base BaseLemmas Name NameSpec NameProofs PropName BTreeSpec BTreeProofs Walk Omap TreeSpec OmapSpec OmapTop PropOmap RecordsSpec Records RecordsProofs FsTree FsSpec FsProofs FsTop FsLookup PropFs
  FsNameSpec FsName FsNameProofs FsNameTop PropFsName Snapshot SnapSpec FileEntry FileSpec FileProofs FileTop PropFile EntryName EntrySpec PropEntry KeyBag EndSpec EndProofs ToolPath ToolPathSpec ToolPathProofs ToolMount ToolMountProofs ToolExample PropToolPath
  CryptSpec DataSpec Compressed CompressedSpec CompressedTop PropCompressed ToolInfo ToolInfoSpec ToolLine ToolHier PropToolInfo ToolFuse ToolFuseSpec PropFuse ToolText ToolTextSpec ToolTextProofs.
Open Scope list_scope.
Ltac Zify.zify_post_hook ::= Z.div_mod_to_equations.

Lemma links_range data i : bytes data -> inode_value data = Ok i -> 0 <= in_links i < 2 ^ 32.
Proof.
  intros B. unfold inode_value. destruct (check (92 <=? len data)) eqn:C; cbn [bind]; try discriminate.
  assert (R : forall n off v, rd_le n data off = Ok v -> 0 <= v < 256 ^ n).
  { intros n off v E. apply rd_le_ok in E. destruct E as (E1 & E2 & E3 & ->). pose proof (le_val_range (slice data off n) (bytes_slice data off n B)) as X. rewrite len_slice in X by lia. exact X. }
  do 11 match goal with |- bind (rd_le ?n data ?o) _ = _ -> _ => destruct (rd_le n data o) eqn:?; cbn [bind]; try discriminate end.
  destruct (xf_parse inode_step false 92 data (None, 0, 0)) as [((name, size), d)| | |]; cbn [bind]; try discriminate. intros E.
  injection E as <-. cbn [in_links]. repeat match goal with H : rd_le _ data _ = Ok _ |- _ => apply R in H end. change (256 ^ 4) with (2 ^ 32) in *. assumption.
Qed.

(* ---- devices ---- *)
Definition is_device (i : inode) : bool := (in_mode i / 4096 =? 2) || (in_mode i / 4096 =? 6).
Lemma land_low d n : 0 <= n -> Z.land d (2 ^ n - 1) = d mod 2 ^ n.
Proof. intros N. rewrite <- Z.land_ones, Z.ones_equiv by exact N. reflexivity. Qed.
Lemma land_shifted d a n : 0 <= a -> 0 <= n -> Z.land d (Z.shiftl (2 ^ n - 1) a) = Z.shiftl ((d / 2 ^ a) mod 2 ^ n) a.
Proof.
  intros A N. rewrite <- Z.shiftr_div_pow2, <- land_low by assumption. apply Z.bits_inj'. intros k K. rewrite Z.land_spec.
  rewrite !Z.shiftl_spec by exact K. destruct (Z_lt_le_dec k a); [rewrite !(Z.testbit_neg_r _ (k - a)) by lia; apply andb_false_r|].
  rewrite Z.land_spec, Z.shiftr_spec by lia. replace (k - a + a) with k by lia. reflexivity.
Qed.
Lemma device_ok' i : 0 <= in_mode i < 65536 -> (is_device i = true -> 0 <= in_device i < 2 ^ 32 /\ minor (in_device i) < 256) ->
  inode_device_number i = if is_device i then Some (major (in_device i), minor (in_device i)) else None.
Proof.
  intros M H. unfold inode_device_number, is_device in *. assert (E : Z.land (in_mode i) 61440 = in_mode i / 4096 * 4096).
  { change 61440 with (Z.shiftl (2 ^ 4 - 1) 12). rewrite land_shifted by lia. rewrite Z.shiftl_mul_pow2 by lia. change (2 ^ 12) with 4096. change (2 ^ 4) with 16. f_equal. apply Z.mod_small. lia. }
  rewrite E. replace ((in_mode i / 4096 * 4096 =? 8192) || (in_mode i / 4096 * 4096 =? 24576)) with ((in_mode i / 4096 =? 2) || (in_mode i / 4096 =? 6)) by (f_equal; lia).
  destruct ((in_mode i / 4096 =? 2) || (in_mode i / 4096 =? 6)); [|reflexivity]. destruct (H eq_refl) as (D & S). set (d := in_device i) in *. unfold minor, major in *.
  change 4294901760 with (Z.shiftl (2 ^ 16 - 1) 16). change 16776960 with (Z.shiftl (2 ^ 16 - 1) 8). change 255 with (2 ^ 8 - 1). rewrite !land_shifted, !land_low, !Z.shiftl_mul_pow2, !Z.shiftr_div_pow2 by lia.
  change (2 ^ 32) with 4294967296 in *. change (2 ^ 24) with 16777216 in *. change (2 ^ 16) with 65536. change (2 ^ 8) with 256.
  destruct (_ =? 0) eqn:C; [f_equal; f_equal; lia|]. replace (d / 256 mod 65536 * 256 =? 0) with true by lia. f_equal. f_equal; lia.
Qed.

Section Attrs.
  Variable when : Z -> list Z.
  Variables (e : fentry) (A : fattrs) (l : list (attr * list Z)).
  Hypothesis HA : fa_all A = map fst l.
  Hypothesis HN : Forall (fun p => attr_text (fst p) = Ok (snd p) /\ file_name (snd p) /\ ~ In 10 (snd p)) l.
  Hypothesis HL : len l < 2 ^ 31.
  Lemma attrs_ok : forall rest pre st, l = pre ++ rest -> get_attrs e st = (Ok A, st) ->
    exists t items, attrs_text e (List.length rest) (len pre) st = Ok t /\ attribute_items (len pre + 1) (map snd rest) items /\ states when t items.
  Proof.
    induction rest as [|(a & s) rest IH]; intros pre st E G; cbn [attrs_text List.length].
    - exists [], []. split; [reflexivity|]. split; [reflexivity|apply states_nil].
    - unfold entry_attr. rewrite (bindM_ok _ _ _ _ _ G). unfold retM. rewrite HA. rewrite len_map. pose proof (len_nonneg pre) as LP.
      assert (LL : len pre < len l) by (rewrite E, len_app, len_cons; pose proof (len_nonneg rest); lia). replace ((0 <=? len pre) && (len pre <? len l)) with true by lia.
      assert (GB : getb (map fst l) (len pre) = Ok a).
      { unfold getb. rewrite len_map. replace ((0 <=? len pre) && (len pre <? len l)) with true by lia. rewrite E, map_app. rewrite nth_error_app2 by (rewrite map_length; unfold len; lia). rewrite map_length. unfold len. rewrite Nat2Z.id, Nat.sub_diag. reflexivity. }
      rewrite GB. cbn [bind]. assert (NT : attr_text a = Ok s /\ file_name s /\ ~ In 10 s).
      { rewrite Forall_forall in HN. apply (HN (a, s)). rewrite E. apply in_or_app. right. left. reflexivity. }
      destruct NT as (NT & FN & N10). unfold attr_text in NT. rewrite NT. cbn [bind].
      destruct (IH (pre ++ [(a, s)]) st ltac:(rewrite <- app_assoc; exact E) G) as (t & items & T1 & T2 & T3). rewrite len_app in T1, T2. change (len [(a, s)]) with 1 in T1, T2.
      rewrite T1. cbn [bind]. pose proof (dec_ok (len pre + 1) ltac:(lia)) as D. eexists. exists ((chars "Attribute: " ++ dec (len pre + 1), VText s) :: items). split; [reflexivity|]. split.
      + cbn [map snd attribute_items]. exists (chars "Attribute: " ++ dec (len pre + 1)), items. split; [exists (dec (len pre + 1)); rewrite app_nil_r; auto|]. split; [reflexivity|exact T2].
      + rewrite (app_assoc (chars "Attribute: ")). apply line_then; [cbn [means]; apply c_string_utf8, FN| |rewrite c_string_utf8 by exact FN; apply text_in; assumption|exact T3].
        apply not_in_app; [apply clean_ok; reflexivity|exact (decimal_in _ _ D)].
  Qed.
End Attrs.

Lemma spelled_line when name : file_name name -> name <> [] -> fits (utf8 name) -> exists t, path_from (utf8 name) = Ok t /\ means when (VSpelled name) t /\ ~ In 10 t.
Proof.
  intros F N B. assert (S : Forall scalar name) by (eapply Forall_impl; [|exact F]; cbn; tauto). eexists. split; [apply path_from_ok; assumption|].
  assert (QE : forall c, path_e c = true <-> In c [92]) by (intros c; unfold path_e; cbn [In]; lia).
  destruct (escs_spelled [92] path_e name S QE ltac:(cbn [In]; lia)) as (t & E & P). change (escs is_control (fun c => c =? 92) name) with (escs is_control path_e name). rewrite E. split; [exists t; auto|].
  pose proof (spelled_shown [92] t name ltac:(cbn [In]; lia) P S) as X. apply utf8_in; [eapply Forall_impl; [|exact X]; cbn; tauto|].
  intros C. rewrite Forall_forall in X. destruct (X _ C). congruence.
Qed.
Section Info.
  Variable lzvn : list Z -> Z -> res (list Z).
  Variable junk : list Z -> list Z -> list Z.
  Variable date : Z -> res (list Z).
  Variable when : Z -> list Z.
  Hypothesis date_ok : forall t, date t = Ok (when t) /\ ~ In 10 (when t).

  Lemma time_then label n m stored : clean label = true ->
    exists t, time_line date (tab n ++ label ++ tab m) stored = Ok t /\ forall r items, states when r items -> states when (t ++ r) ((label, VTime (signed stored)) :: items).
  Proof.
    intros C. unfold time_line. change (s64 stored) with (signed stored). destruct (signed stored =? 0) eqn:E.
    - eexists. split; [reflexivity|]. intros r items S. change (chars ": Not set (0)") with (colon ++ chars "Not set (0)"). rewrite <- !app_assoc. apply line_then; [|apply clean_ok, C|apply clean_ok; reflexivity|exact S].
      cbn [means]. rewrite E. reflexivity.
    - destruct (date_ok (signed stored)) as (D & N). rewrite D. cbn [bind]. eexists. split; [reflexivity|]. intros r items S. rewrite <- !app_assoc. change ([90]) with (chars "Z"). rewrite (app_assoc (when _)).
      apply line_then; [|apply clean_ok, C|apply not_in_app; [exact N|apply clean_ok; reflexivity]|exact S]. cbn [means]. rewrite E. reflexivity.
  Qed.

  Definition target_shown (f : file) (target : option (list Z)) : Prop :=
    match target with None => fl_link f = None | Some s => target_is f s /\ ~ In 10 s end.
  Definition name_known (e : fentry) (name : list Z) : Prop :=
    entry_text e = Ok name /\ file_name name /\ name <> [] /\ fits (utf8 name).

  Lemma entry_info_ok (tie : list Z -> list Z -> Prop) h t recs dev ctx block id i rec r l f name target :
    (forall a b c, tie a b -> tie b c -> tie a c) -> fs_tree tie h t recs -> 0 <= id < 2 ^ 60 -> In r recs -> has 3 id r = true -> bytes (snd r) -> inode_value (snd r) = Ok i ->
    volume_data dev ctx block -> (forall d s, len (junk d s) = len s) -> is_file lzvn block recs id i l f -> len (fl_data f) < 2 ^ 64 ->
    name_known (mk_fe t dev ctx id i rec) name -> target_shown f target -> Forall (fun s => ~ In 10 s) (map snd l) -> len l < 2 ^ 31 ->
    (is_device i = true -> 0 <= in_device i < 2 ^ 32 /\ minor (in_device i) < 256) ->
    exists txt items, entry_info lzvn junk date (mk_fe t dev ctx id i rec) = Ok txt /\
      entry_items id name (len (fl_data f)) i (match rec with Some d => Some (de_added d) | None => None end) target (map snd l) items /\ states when txt items.
  Proof.
    intros H1 H2 H3 H4 H5 HB HI H6 H7 H8 HZ (N1 & N2 & N3 & N4) HT HA HL HD.
    destruct (file_entry_follows tie h t recs dev ctx block lzvn junk id i rec r l f H1 H2 H3 H4 H5 H6 H7 H8) as (I & I0 & HS & _ & HG). destruct (inode_ranges _ _ HB HI) as (R1 & R2 & R3). pose proof (links_range _ _ HB HI) as R4.
    set (e := mk_fe t dev ctx id i rec) in *. unfold entry_info.
    unfold entry_name_size, entry_name. rewrite N1. cbn [bind]. replace (len (utf8 name) + 1 <=? len (utf8 name) + 1) with true by lia. cbn [check bind].
    destruct (HS CLink f_init 0 I0) as (st1 & G1 & I1). cbn [file_step fst snd] in G1, I1. rewrite G1. cbn [bind].
    destruct (HS CSize st1 0 I1) as (st2 & G2 & I2). cbn [file_step fst snd] in G2, I2.
    assert (TX : match fl_link f with None => Ok None | Some v => let! s := stream_text v (len v) in Ok (Some (c_string (utf8 s))) end = Ok (match target with None => None | Some s => Some (utf8 s) end)).
    { destruct target as [s|]; cbn [target_shown] in HT; [|rewrite HT; reflexivity]. destruct HT as ((T1 & T2 & T3) & _). rewrite T3. rewrite (name_text s (utf8 s ++ [0]) T1 (or_intror eq_refl) T2). cbn [bind]. rewrite c_string_utf8 by exact T1. reflexivity. }
    rewrite TX. cbn [bind]. rewrite G2. cbn [bind]. rewrite Z.add_simpl_r. rewrite slice_app_l by (pose proof (len_nonneg (utf8 name)); lia). rewrite slice_0_all.
    destruct (spelled_line when name N2 N3 N4) as (n & E & M & N10). rewrite E. cbn [bind]. clear E TX.
    change (fe_inode e) with i. change (fe_rec e) with rec. change (fe_id e) with id.
    destruct (time_then (chars "Creation time") 1 2 (in_created i) eq_refl) as (t1 & T1 & U1). rewrite T1. cbn [bind].
    destruct (time_then (chars "Modification time") 1 1 (in_mtime i) eq_refl) as (t2 & T2 & U2). rewrite T2. cbn [bind].
    destruct (time_then (chars "Inode change time") 1 1 (in_changed i) eq_refl) as (t3 & T3 & U3). rewrite T3. cbn [bind].
    destruct (time_then (chars "Access time") 1 2 (in_access i) eq_refl) as (t4 & T4 & U4). rewrite T4. cbn [bind].
    assert (T5 : exists t5, match rec with None => Ok [] | Some d => time_line date (tab 1 ++ chars "Added time" ++ tab 2) (de_added d) end = Ok t5 /\
      forall r items, states when r items -> states when (t5 ++ r) (match (match rec with Some d => Some (de_added d) | None => None end) with Some t => [(chars "Added time", VTime (signed t))] | None => [] end ++ items)).
    { destruct rec as [d|]; [|exists []; split; [reflexivity|intros r0 items S; exact S]]. destruct (time_then (chars "Added time") 1 2 (de_added d) eq_refl) as (t5 & T5 & U5). exists t5. split; [exact T5|exact U5]. }
    destruct T5 as (t5 & T5 & U5). rewrite T5. cbn [bind].
    destruct (HG st2 0 I2) as (st3 & G3). unfold entry_attrs. rewrite (bindM_ok _ _ _ _ _ G3). unfold retM. cbn [bind fa_all]. rewrite len_map.
    assert (HN : Forall (fun p => attr_text (fst p) = Ok (snd p) /\ file_name (snd p) /\ ~ In 10 (snd p)) l).
    { destruct H8 as ((F & _) & _). clear - F HA. revert HA. induction F as [|x q rs l (_ & Q1 & Q2 & Q3) F IH]; intros HA; [constructor|]. inversion HA; subst. constructor; [|auto]. split; [apply name_text; assumption|auto]. }
    destruct (attrs_ok when e (mk_fa (map fst l) (attr_named decmpfs_name l) (attr_named fork_name l) (attr_named symlink_name l)) l eq_refl HN HL l [] st3 eq_refl (attrs_again _ _ _ _ G3)) as (ta & ia & A1 & A2 & A3).
    replace (Z.to_nat (len l)) with (List.length l) by (unfold len; rewrite Nat2Z.id; reflexivity). change (len (@nil (attr * list Z))) with 0 in A1, A2. rewrite A1. cbn [bind].
    rewrite (device_ok' i R1 HD). eexists. eexists. split; [reflexivity|]. split; [exists ia; split; [exact A2|reflexivity]|]. cbn [app].
    destruct (dec_means when id ltac:(lia)) as (D1 & D1'). pose proof (len_nonneg (fl_data f)). destruct (dec_means when (len (fl_data f)) ltac:(lia)) as (D2 & D2').
    destruct (dec_means when (in_links i) ltac:(lia)) as (D3 & D3'). destruct (dec_means when (in_owner i) ltac:(lia)) as (D4 & D4'). destruct (dec_means when (in_group i) ltac:(lia)) as (D5 & D5').
    apply line_then; [exact D1|apply clean_ok; reflexivity|exact D1'|]. apply line_then; [exact M|apply clean_ok; reflexivity|exact N10|]. apply line_then; [exact D2|apply clean_ok; reflexivity|exact D2'|].
    apply U1, U2, U3, U4, U5.
    apply line_then; [exact D3|apply clean_ok; reflexivity|exact D3'|]. apply line_then; [exact D4|apply clean_ok; reflexivity|exact D4'|]. apply line_then; [exact D5|apply clean_ok; reflexivity|exact D5'|].
    destruct (mode_ok when (in_mode i) R1) as (M1 & M2).
    match goal with |- states _ (?a ++ ?b ++ ?c ++ ?d ++ mode_text ?m ++ ?x ++ ?y ++ ?z ++ nl ++ ?q) _ =>
      replace (a ++ b ++ c ++ d ++ mode_text m ++ x ++ y ++ z ++ nl ++ q) with (a ++ b ++ c ++ d ++ (mode_text m ++ x ++ y ++ z) ++ nl ++ q) by (rewrite <- !app_assoc; reflexivity) end.
    apply line_then; [exact M1|apply clean_ok; reflexivity|exact M2|]. clear M1 M2.
    apply states_app; [|apply states_app].
    - change ((in_mode i / 4096 =? 2) || (in_mode i / 4096 =? 6)) with (is_device i). destruct (is_device i) eqn:DV; [|apply states_nil].
      destruct (HD eq_refl) as (V1 & V2). destruct (dec_means when (major (in_device i)) ltac:(unfold major; lia)) as (J1 & J1'). destruct (dec_means when (minor (in_device i)) ltac:(unfold minor in *; lia)) as (J2 & J2').
      match goal with |- states _ (?a ++ ?b ++ ?c ++ ?d ++ ?x ++ ?y :: ?z ++ nl) _ => replace (a ++ b ++ c ++ d ++ x ++ y :: z ++ nl) with (a ++ b ++ c ++ d ++ (x ++ [y] ++ z) ++ nl ++ []) by (rewrite <- !app_assoc, app_nil_r; reflexivity) end.
      apply line_then; [|apply clean_ok; reflexivity|apply not_in_app; [exact J1'|apply not_in_app; [apply clean_ok; reflexivity|exact J2']]|apply states_nil]. eexists _, _. split; [reflexivity|]. split; [exact J1|exact J2].
    - destruct target as [s|]; [|apply states_nil]. destruct HT as ((F1 & _) & N10'). rewrite <- (app_nil_r nl). apply line_then; [reflexivity|apply clean_ok; reflexivity|apply text_in; assumption|apply states_nil].
    - destruct l as [|q l]; [apply states_nil|]. pose proof (len_nonneg l). replace (0 <? len (q :: l)) with true by (rewrite len_cons; lia). cbn [map].
      change (chars "Extended attributes:") with (chars "Extended attributes" ++ chars ":"). rewrite <- (app_assoc (chars "Extended attributes")). apply head_then; [apply clean_ok; reflexivity|exact A3].
  Qed.
End Info.
