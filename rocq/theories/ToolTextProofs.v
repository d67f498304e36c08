(* The texts of fsapfsinfo state what the library says. *)
From Coq Require Import String.
From Verif Require Import Base BaseLemmas NameSpec Name NameProofs PropName Walk Omap OmapTop TreeSpec OmapSpec RecordsSpec Records RecordsProofs FsTree FsSpec FsNameSpec FsNameProofs CryptSpec Snapshot SnapSpec SnapProofs VolumeSuper Checksummed Container ContainerSpec ContainerProofs VSuperSpec VSuperProofs DataRead FileEntry FileSpec FileTop
  EntryName ToolPath ToolPathSpec ToolPathProofs ToolMountProofs ToolInfo ToolInfoSpec ToolLine ToolText ToolTextSpec.
Open Scope list_scope.
Ltac Zify.zify_post_hook ::= Z.div_mod_to_equations.

(* ---- lines ---- *)
Lemma lines_some l : exists f fs, lines l = f :: fs.
Proof. induction l as [|c l (f & fs & E)]; [exists [], []; reflexivity|]. cbn [lines]. destruct (c =? 10); [eauto|]. rewrite E. eauto. Qed.
Lemma lines_app t2 : forall t1 ls, lines t1 = ls ++ [[]] -> lines (t1 ++ t2) = ls ++ lines t2.
Proof.
  induction t1 as [|c l IH]; intros ls E; cbn [lines app] in *.
  - destruct ls as [|a [|b ls]]; try discriminate. reflexivity.
  - destruct (c =? 10).
    + destruct ls as [|a ls]; cbn [app] in E.
      * destruct (lines_some l) as (f & fs & F). rewrite F in E. discriminate.
      * injection E as <- E. rewrite (IH ls E). reflexivity.
    + destruct (lines_some l) as (f & fs & F). rewrite F in E. destruct ls as [|a ls]; cbn [app] in E; [discriminate|]. injection E as <- E.
      rewrite (IH (f :: ls)); [reflexivity|]. rewrite F, E. reflexivity.
Qed.
Lemma lines_line a : ~ In 10 a -> lines (a ++ [10]) = [a; []].
Proof.
  induction a as [|c a IH]; intros N; [reflexivity|]. cbn [app lines]. rewrite IH by (intros C; apply N; right; exact C). replace (c =? 10) with false; [reflexivity|].
  assert (c <> 10) by (intros ->; apply N; left; reflexivity). lia.
Qed.
Lemma not_in_app {A} (x : A) a b : ~ In x a -> ~ In x b -> ~ In x (a ++ b).
Proof. intros H1 H2 H. apply in_app_or in H. tauto. Qed.
Lemma tab_in n : ~ In 10 (tab n).
Proof. unfold tab. intros H. apply repeat_spec in H. lia. Qed.
Lemma tab_tabs n : tabs (tab n).
Proof. apply Forall_forall. intros x H. exact (repeat_spec _ _ _ H). Qed.
Lemma not_in_forall (P : Z -> Prop) l : Forall P l -> ~ P 10 -> ~ In 10 l.
Proof. intros F N H. rewrite Forall_forall in F. exact (N (F _ H)). Qed.
Lemma decimal_in l v : decimal l v -> ~ In 10 l.
Proof. intros (_ & H & _). apply (not_in_forall digit); [exact H|unfold digit; lia]. Qed.
Definition clean (l : list Z) : bool := forallb (fun c => negb (c =? 10)) l.
Lemma clean_ok l : clean l = true -> ~ In 10 l.
Proof. unfold clean. rewrite forallb_forall. intros H C. specialize (H _ C). lia. Qed.
Lemma utf8_in s : Forall (fun c => 0 <= c) s -> ~ In 10 s -> ~ In 10 (utf8 s).
Proof.
  intros F N H. unfold utf8 in H. apply in_concat in H. destruct H as (x & X & B). apply in_map_iff in X. destruct X as (c & <- & C). rewrite Forall_forall in F.
  destruct (utf8_high c 10 B (F _ C)); [subst; contradiction|lia].
Qed.

Section Lines.
  Variable date : Z -> list Z.
  Notation states := (states date).
  Lemma states_nil : states [] [].
  Proof. exists []. split; [reflexivity|constructor]. Qed.
  Lemma states_app t1 i1 t2 i2 : states t1 i1 -> states t2 i2 -> states (t1 ++ t2) (i1 ++ i2).
  Proof.
    intros (l1 & E1 & F1) (l2 & E2 & F2). exists (l1 ++ l2). split; [rewrite (lines_app t2 t1 l1 E1), E2, app_assoc; reflexivity|]. apply Forall2_app; assumption.
  Qed.
  Lemma states_one p l : item date p l -> ~ In 10 l -> states (l ++ [10]) [p].
  Proof. intros I N. exists [l]. split; [apply lines_line, N|]. constructor; [exact I|constructor]. Qed.
  Lemma plain_item label v txt n m : means date v txt -> item date (label, v) (tab n ++ label ++ tab m ++ colon ++ txt).
  Proof.
    intros M. exists (tab n). split; [apply tab_tabs|]. cbn [fst snd]. assert (X : exists b l, tabs b /\ tab n ++ label ++ tab m ++ colon ++ txt = tab n ++ label ++ b ++ chars ": " ++ l /\ means date v l).
    { exists (tab m), txt. split; [apply tab_tabs|]. split; [reflexivity|exact M]. }
    destruct v; try exact X; destruct M.
  Qed.
  Lemma line_then label v txt n m r items : means date v txt -> ~ In 10 label -> ~ In 10 txt -> states r items ->
    states (tab n ++ label ++ tab m ++ colon ++ txt ++ nl ++ r) ((label, v) :: items).
  Proof.
    intros M N1 N2 S. replace (tab n ++ label ++ tab m ++ colon ++ txt ++ nl ++ r) with (((tab n ++ label ++ tab m ++ colon ++ txt) ++ [10]) ++ r) by (rewrite <- !app_assoc; reflexivity).
    apply (states_app _ [(label, v)]); [|exact S]. apply states_one; [apply plain_item, M|].
    repeat apply not_in_app; try assumption; try apply tab_in. apply clean_ok. reflexivity.
  Qed.
  Lemma label_then label n r items : ~ In 10 label -> states r items -> states (tab n ++ label ++ nl ++ r) ((label, VLabel) :: items).
  Proof.
    intros N S. replace (tab n ++ label ++ nl ++ r) with (((tab n ++ label) ++ [10]) ++ r) by (rewrite <- !app_assoc; reflexivity).
    apply (states_app _ [(label, VLabel)]); [|exact S]. apply states_one; [|apply not_in_app; [apply tab_in|exact N]]. exists (tab n). split; [apply tab_tabs|reflexivity].
  Qed.
  Lemma head_then label n r items : ~ In 10 label -> states r items -> states (tab n ++ label ++ chars ":" ++ nl ++ r) ((label, VHead) :: items).
  Proof.
    intros N S. replace (tab n ++ label ++ chars ":" ++ nl ++ r) with (((tab n ++ label ++ chars ":") ++ [10]) ++ r) by (rewrite <- !app_assoc; reflexivity).
    apply (states_app _ [(label, VHead)]); [|exact S]. apply states_one; [|apply not_in_app; [apply tab_in|apply not_in_app; [exact N|apply clean_ok; reflexivity]]]. exists (tab n). split; [apply tab_tabs|reflexivity].
  Qed.
  Lemma blank_then r items : states r items -> states (nl ++ r) (blank :: items).
  Proof. intros S. exact (label_then [] 0 r items (fun H => H) S). Qed.

  (* ---- values ---- *)
  Lemma hex_wide_ok v : 0 <= v < 2 ^ 64 -> means date (VHex v) (chars "0x" ++ hex_wide v) /\ ~ In 10 (chars "0x" ++ hex_wide v).
  Proof.
    intros H. unfold hex_wide. set (k := Z.max 8 (if v =? 0 then 1 else Z.log2 v / 4 + 1)). assert (K : 8 <= k) by (unfold k; lia).
    assert (B : 0 <= v < 16 ^ Z.of_nat (Z.to_nat k)).
    { rewrite Z2Nat.id by lia. split; [lia|]. destruct (v =? 0) eqn:C; [assert (v = 0) as -> by lia; apply Z.pow_pos_nonneg; lia|].
      pose proof (Z.log2_spec v ltac:(lia)) as (_ & L). pose proof (Z.log2_nonneg v). change 16 with (2 ^ 4). rewrite <- Z.pow_mul_r by lia.
      eapply Z.lt_le_trans; [exact L|]. apply Z.pow_le_mono_r; [lia|]. unfold k. lia. }
    destruct (hex_numeral _ v B) as (H1 & H2). split.
    - exists (hex (Z.to_nat k) v). split; [reflexivity|]. split; [exact H1|]. split; [rewrite hex_len; lia|exact H2].
    - apply not_in_app; [apply clean_ok; reflexivity|]. apply (not_in_forall hexdigit); [exact H1|unfold hexdigit; lia].
  Qed.
  Lemma pairs_len d : len (hex_pairs d) = 2 * len d.
  Proof. unfold hex_pairs. induction d as [|b d IH]; [reflexivity|]. cbn [map concat]. rewrite len_app, IH, !len_cons. change (len (@nil Z)) with 0. lia. Qed.
  Lemma pairs_app a b : hex_pairs (a ++ b) = hex_pairs a ++ hex_pairs b.
  Proof. unfold hex_pairs. rewrite map_app. apply concat_app. Qed.
  Lemma pairs_in d : bytes d -> ~ In 10 (hex_pairs d).
  Proof. intros B. destruct (digest_ok d B) as (H & _). apply (not_in_forall hexdigit); [exact H|unfold hexdigit; lia]. Qed.
  Lemma uuid_ok d : bytes d -> len d = 16 -> means date (VUuid d) (uuid_text d) /\ ~ In 10 (uuid_text d).
  Proof.
    intros B L. assert (X : forall o n, bytes (slice d o n)) by (intros; apply bytes_slice, B). split.
    - exists (hex_pairs (slice d 0 4)), (hex_pairs (slice d 4 2)), (hex_pairs (slice d 6 2)), (hex_pairs (slice d 8 2)), (hex_pairs (slice d 10 6)).
      split; [reflexivity|]. rewrite !pairs_len, !len_slice by lia. repeat split.
      all: rewrite <- !pairs_app.
      all: replace (slice d 0 4 ++ slice d 4 2 ++ slice d 6 2 ++ slice d 8 2 ++ slice d 10 6) with d; [apply (digest_ok d B)|].
      all: unfold slice; change (Z.to_nat 0) with 0%nat; change (Z.to_nat 4) with 4%nat; change (Z.to_nat 2) with 2%nat; change (Z.to_nat 6) with 6%nat; change (Z.to_nat 8) with 8%nat; change (Z.to_nat 10) with 10%nat.
      all: assert (L' : List.length d = 16%nat) by (unfold len in L; lia); clear - L'; do 16 (destruct d as [|? d]; [discriminate|]); destruct d; [reflexivity|discriminate].
    - unfold uuid_text. repeat apply not_in_app; try (apply pairs_in, X); apply clean_ok; reflexivity.
  Qed.
  Lemma dec_means v : 0 <= v < 2 ^ 64 -> means date (VDec v) (dec v) /\ ~ In 10 (dec v).
  Proof. intros H. pose proof (dec_ok v H) as D. split; [exact D|exact (decimal_in _ _ D)]. Qed.
  Lemma oct_ok n : forall v, 0 <= v < 8 ^ Z.of_nat n -> Forall (fun c => 48 <= c <= 55) (oct n v) /\ numeral 8 (oct n v) = v.
  Proof.
    induction n as [|n IH]; intros v H; [split; [constructor|cbn in H; change (numeral 8 (oct 0 v)) with 0; lia]|].
    rewrite Nat2Z.inj_succ, Z.pow_succ_r in H by lia. cbn [oct]. destruct (IH (v / 8) ltac:(lia)) as (I1 & I2).
    split; [apply Forall_app; split; [exact I1|constructor; [lia|constructor]]|]. rewrite numeral_snoc, I2. replace (48 + v mod 8 <=? 57) with true by lia. lia.
  Qed.
  Lemma mode_ok m : 0 <= m < 65536 -> means date (VMode m) (mode_text m ++ chars " (" ++ oct_wide m ++ chars ")") /\ ~ In 10 (mode_text m ++ chars " (" ++ oct_wide m ++ chars ")").
  Proof.
    intros H. destruct (oct_ok 7 m ltac:(change (8 ^ Z.of_nat 7) with 2097152; lia)) as (O1 & O2). split.
    - exists (mode_text m), (oct_wide m). split; [reflexivity|]. split; [apply mode_text_ok, H|]. split; assumption.
    - apply not_in_app; [apply mode_line|]. apply not_in_app; [apply clean_ok; reflexivity|]. apply not_in_app; [|apply clean_ok; reflexivity]. apply (not_in_forall _ _ O1). lia.
  Qed.

  (* ---- flags ---- *)
  Lemma flag_then v k (name : string) r items : clean (chars name) = true -> states r items ->
    states (flag_line v k name ++ r) (map (fun p => (chars "(" ++ snd p ++ chars ")", VLabel)) (filter (fun p => Z.testbit v (fst p)) [(k, chars name)]) ++ items).
  Proof.
    intros C S. unfold flag_line. cbn [filter fst]. destruct (Z.testbit v k); [|exact S]. cbn [map snd].
    replace ((tab 2 ++ [40] ++ chars name ++ [41] ++ nl) ++ r) with (tab 2 ++ (chars "(" ++ chars name ++ chars ")") ++ nl ++ r) by (rewrite <- !app_assoc; reflexivity).
    apply label_then; [|exact S]. apply not_in_app; [apply clean_ok; reflexivity|]. apply not_in_app; [apply clean_ok, C|apply clean_ok; reflexivity].
  Qed.
  Lemma flags_cons v k l t : named_flags ((k, l) :: t) v = map (fun p => (chars "(" ++ snd p ++ chars ")", VLabel)) (filter (fun p => Z.testbit v (fst p)) [(k, l)]) ++ named_flags t v.
  Proof. unfold named_flags. cbn [filter fst]. destruct (Z.testbit v k); reflexivity. Qed.
  Lemma compatible_then v r items : states r items -> states (compatible_text v ++ r) (named_flags compatible_flags v ++ blank :: items).
  Proof.
    intros S. unfold compatible_text, compatible_flags. rewrite <- !app_assoc. rewrite !flags_cons, <- !app_assoc.
    do 5 (apply flag_then; [reflexivity|]). exact (blank_then r items S).
  Qed.
  Lemma incompatible_then v r items : states r items -> states (incompatible_text v ++ r) (named_flags incompatible_flags v ++ blank :: items).
  Proof.
    intros S. unfold incompatible_text, incompatible_flags. rewrite <- !app_assoc. rewrite !flags_cons, <- !app_assoc.
    do 6 (apply flag_then; [reflexivity|]). exact (blank_then r items S).
  Qed.
End Lines.

(* ---- volumes ---- *)
Lemma Forall2_len {A B} (R : A -> B -> Prop) a b : Forall2 R a b -> len a = len b.
Proof. induction 1 as [|x y a b _ _ IH]; [reflexivity|]. rewrite !len_cons, IH. reflexivity. Qed.
Definition printable (cs : list Z) : Prop := text cs /\ no_mark cs.
Lemma text_plain cs : text cs -> c_string (utf8 cs) = utf8 cs.
Proof. exact (c_string_utf8 cs). Qed.
Lemma text_in cs : text cs -> ~ In 10 cs -> ~ In 10 (utf8 cs).
Proof. intros T N. apply utf8_in; [|exact N]. eapply Forall_impl; [|exact T]. unfold scalar. cbn. lia. Qed.
Lemma stored_text l cs n rest : printable cs -> 3 <= n -> l = utf8 cs ++ rest -> len (utf8 cs) <= n -> (len (utf8 cs) < n -> exists r, rest = 0 :: r) -> stream_text l n = Ok cs.
Proof.
  intros (T & M) N3 -> L R. rewrite stream_text_ok; [|exact T|exact N3|].
  - unfold unmark, no_mark in *. destruct cs as [|c cs]; [reflexivity|]. rewrite (proj2 (Z.eqb_neq _ _) M). reflexivity.
  - destruct (Z.eq_dec (len (utf8 cs)) n); [right; assumption|left]. split; [lia|]. apply R. lia.
Qed.
(* A snapshot that can be opened, and its name *)
Definition snapshot_known (img : image) (s : snap) (cs : list Z) : Prop :=
  printable cs /\ len (utf8 cs) < 256 /\ (exists rest, sn_name s = utf8 cs ++ 0 :: rest) /\ exists d, vsuper_in img true (sn_block s) d.
(* A volume of which the superblock is d: its name and those of its snapshots *)
Definition volume_known (img : image) (v : open_volume) (d name : list Z) (names : list (list Z)) : Prop :=
  vsuper_block false d /\ ov_super v = vcontents d /\ printable name /\
  (exists rest, slice d 704 256 = utf8 name ++ rest /\ (rest = [] \/ exists r, rest = 0 :: r)) /\
  Forall2 (snapshot_known img) (ov_snapshots v) names /\ len names < 2 ^ 31.
Definition facts_of (d name : list Z) (locked : bool) (names : list (list Z)) : volume_facts :=
  mk_vf (slice d 240 16) name (num d 40 8) (num d 56 8) (num d 48 8) locked names.

Fixpoint snapshots_string (i : Z) (names : list (list Z)) : list Z :=
  match names with
  | [] => []
  | s :: names => tab 1 ++ chars "Snapshot: " ++ dec (i + 1) ++ chars " information:" ++ nl ++ tab 2 ++ chars "Name" ++ tab 3 ++ colon ++ utf8 s ++ nl ++ snapshots_string (i + 1) names
  end.
Definition volume_string (n : Z) (f : volume_facts) : list Z :=
  nl ++ chars "Volume: " ++ dec (n + 1) ++ chars " information:" ++ nl ++
  tab 1 ++ chars "Identifier" ++ tab 3 ++ colon ++ uuid_text (vf_id f) ++ nl ++
  tab 1 ++ chars "Name" ++ tab 4 ++ colon ++ utf8 (vf_name f) ++ nl ++
  tab 1 ++ chars "Compatible features" ++ tab 2 ++ colon ++ chars "0x" ++ hex_wide (vf_compatible f) ++ nl ++ compatible_text (vf_compatible f) ++
  tab 1 ++ chars "Incompatible features" ++ tab 2 ++ colon ++ chars "0x" ++ hex_wide (vf_incompatible f) ++ nl ++ incompatible_text (vf_incompatible f) ++
  tab 1 ++ chars "Read-only compatible features" ++ tab 1 ++ colon ++ chars "0x" ++ hex_wide (vf_read_only f) ++ nl ++ nl ++
  (if vf_locked f then tab 1 ++ chars "Is locked" ++ nl else []) ++
  tab 1 ++ chars "Number of snapshots" ++ tab 2 ++ colon ++ dec (len (vf_snapshots f)) ++ nl ++ snapshots_string 0 (vf_snapshots f).

Lemma snapshots_text_is img v : forall k i s names, i = len s -> ov_snapshots v = s ++ k -> Forall2 (snapshot_known img) k names ->
  snapshots_text img v (List.length k) i = Ok (snapshots_string i names).
Proof.
  induction k as [|a k IH]; intros i s names -> E F; inversion F as [|? cs ? names' (P & L & (rest & R) & d & V) F']; subst; [reflexivity|].
  pose proof (len_nonneg s). pose proof (len_nonneg k).
  cbn [List.length snapshots_text snapshots_string]. unfold snapshot_open. rewrite E. rewrite len_app, len_cons.
  replace ((0 <=? len s) && (len s <? len s + (1 + len k))) with true by lia. cbn [check bind].
  assert (G : getb (s ++ a :: k) (len s) = Ok a).
  { unfold getb. replace ((0 <=? len s) && (len s <? len (s ++ a :: k))) with true by (rewrite len_app, len_cons; lia).
    unfold len. rewrite Nat2Z.id, nth_error_app2, Nat.sub_diag by lia. reflexivity. }
  rewrite G. cbn [bind]. rewrite (vsuper_at_in _ _ _ _ V). cbn [bind].
  assert (N : snap_name a = Ok cs) by (apply (stored_text _ cs 256 (0 :: rest)); [exact P|lia|exact R|lia|eauto]). rewrite N. cbn [bind].
  rewrite (IH (len s + 1) (s ++ [a]) names').
  - cbn [bind]. rewrite (text_plain cs) by apply P. reflexivity.
  - rewrite len_app, len_cons. change (len (@nil snap)) with 0. lia.
  - rewrite E, <- app_assoc. reflexivity.
  - exact F'.
Qed.
Lemma volume_text_is img n v d name names locked : volume_known img v d name names -> volume_text img n v locked = Ok (volume_string n (facts_of d name locked names)).
Proof.
  intros (V & E & P & (rest & S & R) & F & _). unfold volume_text. rewrite E.
  assert (L : len (utf8 name) + len rest = 256) by (rewrite <- len_app, <- S, len_slice by (destruct V; lia); reflexivity).
  pose proof (len_nonneg rest). assert (N : volume_name (vcontents d) = Ok name).
  { unfold volume_name. change (vs_name (vcontents d)) with (slice d 704 256). apply (stored_text _ name 256 rest); [exact P|lia|exact S|lia|].
    intros X. destruct R as [->|R]; [change (len (@nil Z)) with 0 in L; lia|exact R]. }
  rewrite N. cbn [bind]. replace (Z.to_nat (len (ov_snapshots v))) with (List.length (ov_snapshots v)) by (unfold len; rewrite Nat2Z.id; reflexivity).
  rewrite (snapshots_text_is img v (ov_snapshots v) 0 [] names eq_refl eq_refl F). cbn [bind]. rewrite (text_plain name) by apply P.
  replace (len (ov_snapshots v)) with (len names) by (symmetry; exact (Forall2_len _ _ _ F)). reflexivity.
Qed.

Section Volumes.
  Variable date : Z -> list Z.
  Lemma snapshots_state : forall names i, 0 <= i -> i + len names < 2 ^ 31 -> Forall (fun cs => text cs /\ ~ In 10 cs) names ->
    exists r, snapshot_items (i + 1) names r /\ states date (snapshots_string i names) r.
  Proof.
    induction names as [|s names IH]; intros i I L F; [exists []; split; [reflexivity|apply states_nil]|].
    inversion F as [|? ? (T & N) F']; subst. rewrite len_cons in L. pose proof (len_nonneg names). destruct (IH (i + 1) ltac:(lia) ltac:(lia) F') as (r & R1 & R2).
    pose proof (dec_ok (i + 1) ltac:(lia)) as D. exists ((chars "Snapshot: " ++ dec (i + 1) ++ chars " information", VHead) :: (chars "Name", VText s) :: r). split.
    - cbn [snapshot_items]. exists (chars "Snapshot: " ++ dec (i + 1) ++ chars " information"), r. split; [exists (dec (i + 1)); auto|]. split; [reflexivity|exact R1].
    - cbn [snapshots_string]. change (chars " information:") with (chars " information" ++ chars ":").
      replace (tab 1 ++ chars "Snapshot: " ++ dec (i + 1) ++ (chars " information" ++ chars ":") ++ nl ++ tab 2 ++ chars "Name" ++ tab 3 ++ colon ++ utf8 s ++ nl ++ snapshots_string (i + 1) names)
        with (tab 1 ++ (chars "Snapshot: " ++ dec (i + 1) ++ chars " information") ++ chars ":" ++ nl ++ tab 2 ++ chars "Name" ++ tab 3 ++ colon ++ utf8 s ++ nl ++ snapshots_string (i + 1) names) by (rewrite <- !app_assoc; reflexivity).
      apply head_then; [apply not_in_app; [apply clean_ok; reflexivity|apply not_in_app; [exact (decimal_in _ _ D)|apply clean_ok; reflexivity]]|].
      apply line_then; [reflexivity|apply clean_ok; reflexivity|apply text_in; assumption|exact R2].
  Qed.
  Lemma hex_then label v n m r items : 0 <= v < 2 ^ 64 -> clean label = true -> states date r items ->
    states date (tab n ++ label ++ tab m ++ colon ++ chars "0x" ++ hex_wide v ++ nl ++ r) ((label, VHex v) :: items).
  Proof.
    intros H C S. destruct (hex_wide_ok date v H) as (M & N). rewrite (app_assoc (chars "0x")). apply line_then; [exact M|apply clean_ok, C|exact N|exact S].
  Qed.
  Lemma volume_states n f : 0 <= n < 2 ^ 31 -> bytes (vf_id f) -> len (vf_id f) = 16 -> text (vf_name f) -> ~ In 10 (vf_name f) ->
    0 <= vf_compatible f < 2 ^ 64 -> 0 <= vf_incompatible f < 2 ^ 64 -> 0 <= vf_read_only f < 2 ^ 64 -> len (vf_snapshots f) < 2 ^ 31 ->
    Forall (fun cs => text cs /\ ~ In 10 cs) (vf_snapshots f) ->
    exists l, volume_items (n + 1) f l /\ states date (volume_string n f) l.
  Proof.
    intros Hn B L T N C1 C2 C3 LS F. destruct (snapshots_state (vf_snapshots f) 0 ltac:(lia) ltac:(lia) F) as (r & R1 & R2). pose proof (dec_ok (n + 1) ltac:(lia)) as D.
    destruct (uuid_ok date (vf_id f) B L) as (U1 & U2). pose proof (len_nonneg (vf_snapshots f)). destruct (dec_means date (len (vf_snapshots f)) ltac:(lia)) as (D1 & D2).
    eexists. split.
    - exists (chars "Volume: " ++ dec (n + 1) ++ chars " information"), r. split; [exists (dec (n + 1)); auto|]. split; [exact R1|reflexivity].
    - unfold volume_string. cbn [app]. change (chars " information:") with (chars " information" ++ chars ":").
      match goal with |- states _ (nl ++ chars "Volume: " ++ dec ?k ++ (?a ++ ?b) ++ nl ++ ?r) _ =>
        replace (nl ++ chars "Volume: " ++ dec k ++ (a ++ b) ++ nl ++ r) with (nl ++ tab 0 ++ (chars "Volume: " ++ dec k ++ a) ++ b ++ nl ++ r) by (rewrite <- !app_assoc; reflexivity) end.
      apply blank_then. apply head_then; [apply not_in_app; [apply clean_ok; reflexivity|apply not_in_app; [exact (decimal_in _ _ D)|apply clean_ok; reflexivity]]|].
      apply line_then; [exact U1|apply clean_ok; reflexivity|exact U2|].
      apply line_then; [reflexivity|apply clean_ok; reflexivity|apply text_in; assumption|].
      apply hex_then; [assumption|reflexivity|]. apply compatible_then.
      apply hex_then; [assumption|reflexivity|]. apply incompatible_then.
      apply hex_then; [assumption|reflexivity|]. apply blank_then.
      apply states_app; [|apply line_then; [exact D1|apply clean_ok; reflexivity|exact D2|exact R2]].
      destruct (vf_locked f); [|apply states_nil]. rewrite <- (app_nil_r (tab 1 ++ _)). rewrite <- !app_assoc. apply label_then; [apply clean_ok; reflexivity|apply states_nil].
  Qed.
  Lemma known_states img n v d name names locked : volume_known img v d name names -> 0 <= n < 2 ^ 31 -> Forall (fun cs => ~ In 10 cs) (name :: names) ->
    exists t l, volume_text img n v locked = Ok t /\ volume_items (n + 1) (facts_of d name locked names) l /\ states date t l.
  Proof.
    intros K Hn F. rewrite (volume_text_is img n v d name names locked K). destruct K as ((L & B & _) & _ & (T & _) & _ & FS & LN). inversion F as [|? ? F1 F2]; subst.
    assert (R : forall o, 0 <= o -> o + 8 <= 4096 -> 0 <= num d o 8 < 2 ^ 64) by (intros o H1 H2; exact (num_range d o 8 B H1 ltac:(lia) ltac:(lia))).
    destruct (volume_states n (facts_of d name locked names)) as (l & L1 & L2); cbn [facts_of vf_id vf_name vf_compatible vf_incompatible vf_read_only vf_snapshots];
      [exact Hn|apply bytes_slice, B|rewrite len_slice by lia; reflexivity|exact T|exact F1|apply R; lia|apply R; lia|apply R; lia|exact LN| |eauto].
    clear - FS F2. revert F2. induction FS as [|s cs ss names ((T & _) & _) _ IH]; intros F; [constructor|]. inversion F; subst. constructor; auto.
  Qed.

  (* ---- the container ---- *)
  Definition known (img : image) (v : res (open_volume * bool)) (f : volume_facts) : Prop :=
    exists w d name names locked, v = Ok (w, locked) /\ volume_known img w d name names /\ Forall (fun cs => ~ In 10 cs) (name :: names) /\ f = facts_of d name locked names.
  Lemma volumes_state img : forall vols fs i, Forall2 (known img) vols fs -> 0 <= i -> i + len vols < 2 ^ 31 ->
    exists t l, volumes_text img i vols = Ok t /\ volumes_items (i + 1) fs l /\ states date t l.
  Proof.
    intros vols fs i F. revert i. induction F as [|v f vols fs (w & d & name & names & locked & -> & K & N & ->) F IH]; intros i I L.
    - exists [], []. split; [reflexivity|]. split; [reflexivity|apply states_nil].
    - rewrite len_cons in L. pose proof (len_nonneg vols). destruct (known_states img i w d name names locked K ltac:(lia) N) as (t & l & E & V & S).
      destruct (IH (i + 1) ltac:(lia) ltac:(lia)) as (t' & l' & E' & V' & S'). exists (t ++ t'), (l ++ l'). cbn [volumes_text bind]. rewrite E. cbn [bind]. rewrite E'. cbn [bind].
      split; [reflexivity|]. split; [exists l, l'; auto|apply states_app; assumption].
  Qed.
  Lemma container_states img id locked vols fs : bytes id -> len id = 16 -> len vols < 2 ^ 31 -> Forall2 (known img) vols fs ->
    exists t l, container_text img id locked vols = Ok t /\ container_items id locked fs l /\ states date t l.
  Proof.
    intros B L LV F. destruct (volumes_state img vols fs 0 F ltac:(lia) ltac:(lia)) as (t & l & E & V & S). destruct (uuid_ok date id B L) as (U1 & U2).
    pose proof (len_nonneg vols). destruct (dec_means date (len vols) ltac:(lia)) as (D1 & D2). unfold container_text. rewrite E. cbn [bind]. eexists. eexists. split; [reflexivity|]. split; [exists l; split; [exact V|reflexivity]|].
    replace (len fs) with (len vols) by (exact (Forall2_len _ _ _ F)). cbn [app].
    apply (head_then date (chars "Apple File System (APFS) information") 0); [apply clean_ok; reflexivity|]. apply blank_then.
    apply (head_then date (chars "Container information") 0); [apply clean_ok; reflexivity|].
    apply line_then; [exact U1|apply clean_ok; reflexivity|exact U2|]. apply line_then; [exact D1|apply clean_ok; reflexivity|exact D2|].
    apply states_app; [|apply states_app; [exact S|rewrite <- (app_nil_r nl); apply blank_then, states_nil]].
    destruct locked; [|apply states_nil]. rewrite <- (app_nil_r (tab 1 ++ _)). rewrite <- !app_assoc. apply label_then; [apply clean_ok; reflexivity|apply states_nil].
  Qed.
End Volumes.
