(* Proofs about the names and paths of the mounted volume on Windows. *)
From Verif Require Import Base BaseLemmas Name NameSpec NameProofs PropName TreeSpec BTreeProofs Walk Records FsTree FsSpec FsNameSpec FsName FsNameProofs FsNameTop PropFsName Snapshot FileEntry EntryName EntrySpec PropEntry EndSpec EndProofs
  ToolPath ToolPathSpec ToolPathProofs ToolMount ToolMountProofs ToolWin ToolWinSpec.
Ltac Zify.zify_post_hook ::= Z.div_mod_to_equations.

(* ---- hexadecimal ---- *)
Lemma win_hex_app : forall a b v, win_hex (a ++ b) v = let! v := win_hex a v in win_hex b v.
Proof.
  induction a as [|c a IH]; intros b v; cbn [win_hex app bind]; [reflexivity|]. cbv zeta.
  destruct (_ && _); [apply IH|]. destruct (_ && _); [apply IH|]. destruct (_ && _); [apply IH|reflexivity].
Qed.
Lemma win_hex_hex : forall l v r, hex_value l v = Ok r -> win_hex l v = Ok r.
Proof.
  induction l as [|c l IH]; intros v r; cbn [hex_value win_hex]; [auto|]. cbv zeta. destruct ((48 <=? c) && (c <=? 57)); [apply IH|].
  destruct ((97 <=? c) && (c <=? 102)) eqn:E; [|discriminate]. replace ((65 <=? c) && (c <=? 70)) with false by lia. apply IH.
Qed.

(* ---- escaping ---- *)
Definition wtext (c : Z) : list Z :=
  if win_x c then [94; 120] ++ hex 2 c
  else if is_unprintable c then [94; 85] ++ hex 8 c
  else if c =? 94 then [94; 94]
  else [c].
Definition wtexts (s : list Z) : list Z := concat (map wtext s).
Lemma utf16_app a b : utf16 (a ++ b) = utf16 a ++ utf16 b.
Proof. unfold utf16. rewrite map_app, concat_app. reflexivity. Qed.
Lemma utf16_cons c s : utf16 (c :: s) = utf16_char c ++ utf16 s.
Proof. reflexivity. Qed.
Lemma utf16_one c : utf16 [c] = utf16_char c.
Proof. unfold utf16. cbn [map concat]. apply app_nil_r. Qed.
Lemma utf16_small s : Forall (fun c => c < 65536) s -> utf16 s = s.
Proof. induction 1 as [|c s H1 H2 IH]; [reflexivity|]. rewrite utf16_cons, IH. unfold utf16_char. replace (c <? 65536) with true by lia. reflexivity. Qed.
Lemma utf16_char_len c : 1 <= len (utf16_char c) <= 2.
Proof. unfold utf16_char. destruct (_ <? _); unfold len; cbn; lia. Qed.
Lemma hex_small n v : 0 <= v -> Forall (fun c => c < 65536) (hex n v).
Proof. intros H. eapply Forall_impl; [|apply hex_shown; exact H]. cbn. lia. Qed.
Lemma utf16_wtext c : scalar c -> utf16 (wtext c) =
  if win_x c then [94; 120] ++ hex 2 c else if is_unprintable c then [94; 85] ++ hex 8 c else if c =? 94 then [94; 94] else utf16_char c.
Proof.
  intros S. assert (C0 : 0 <= c) by (unfold scalar in S; lia). unfold wtext.
  destruct (win_x c); [apply utf16_small, Forall_app; split; [repeat constructor; lia|apply hex_small, C0]|].
  destruct (is_unprintable c); [apply utf16_small, Forall_app; split; [repeat constructor; lia|apply hex_small, C0]|].
  destruct (c =? 94); [reflexivity|apply utf16_one].
Qed.
Lemma wtext_len c : scalar c -> len (utf16_char c) <= len (utf16 (wtext c)) <= 10.
Proof.
  intros S. rewrite utf16_wtext by exact S. pose proof (utf16_char_len c).
  destruct (win_x c); [rewrite len_app, hex_len; change (len [94; 120]) with 2; lia|].
  destruct (is_unprintable c); [rewrite len_app, hex_len; change (len [94; 85]) with 2; lia|].
  destruct (c =? 94) eqn:E; [|lia]. change (len [94; 94]) with 2. lia.
Qed.
Lemma put_unit_ok bad size out c : scalar c -> len out + len (utf16_char c) <= size -> put_unit bad size out c = Ok (out ++ utf16_char c).
Proof.
  intros S B. unfold put_unit. replace (((0 <=? c) && (c <? 55296)) || ((57343 <? c) && (c <=? 1114111))) with true by (unfold scalar in S; lia).
  replace (_ <=? _) with true by lia. reflexivity.
Qed.
Lemma win_escape_ok size out c : scalar c -> len out + 10 < size -> win_escape size out c = Ok (out ++ utf16 (wtext c)).
Proof.
  intros S B. rewrite utf16_wtext by exact S. unfold win_escape, put_text. pose proof (utf16_char_len c) as L.
  destruct (win_x c). { rewrite len_app, hex_len. change (len [94; 120]) with 2. replace (_ <? _) with true by lia. reflexivity. }
  destruct (is_unprintable c). { rewrite len_app, hex_len. change (len [94; 85]) with 2. replace (_ <? _) with true by lia. reflexivity. }
  destruct (c =? 94) eqn:E. { unfold put_two. replace (_ <=? _) with true by lia. replace c with 94 by lia. reflexivity. }
  apply put_unit_ok; [exact S|lia].
Qed.
Lemma wtexts_cons c s : utf16 (wtexts (c :: s)) = utf16 (wtext c) ++ utf16 (wtexts s).
Proof. unfold wtexts. cbn [map concat]. apply utf16_app. Qed.
Lemma win_escape_loop_ok size : forall s fuel out, file_name s -> len out + 10 * len (utf16 s) < size -> (length (utf16 s) <= fuel)%nat ->
  win_escape_loop size fuel (utf16 s) out = Ok (out ++ utf16 (wtexts s)).
Proof.
  induction s as [|c s IH]; intros fuel out S B F.
  - unfold wtexts. cbn [map concat utf16]. rewrite app_nil_r. destruct fuel; reflexivity.
  - rewrite utf16_cons in *. pose proof (utf16_char_len c) as L. pose proof (Forall_inv S) as (S1 & S2). pose proof (wtext_len c S1) as L'. rewrite len_app in B. rewrite app_length in F.
    pose proof (len_nonneg (utf16 s)). destruct (utf16_char c ++ utf16 s) as [|b r] eqn:E. { apply app_eq_nil in E. destruct E as (E & _). rewrite E in L. unfold len in L. cbn in L. lia. }
    destruct fuel as [|fuel]; [unfold len in L; lia|]. cbn [win_escape_loop]. rewrite <- E. rewrite utf16_char_next by exact S1. cbn [bind].
    replace (c =? 0) with false by lia. rewrite win_escape_ok by (try exact S1; lia). cbn [bind].
    rewrite IH; [|exact (Forall_inv_tail S)|rewrite len_app; lia|unfold len in *; lia]. rewrite wtexts_cons, app_assoc. reflexivity.
Qed.
Lemma wtexts_len s : Forall scalar s -> len (utf16 s) <= len (utf16 (wtexts s)) <= 10 * len (utf16 s).
Proof.
  induction 1 as [|c s H1 H2 IH]; [unfold wtexts, utf16, len; cbn; lia|]. rewrite wtexts_cons, utf16_cons, !len_app. pose proof (utf16_char_len c). pose proof (wtext_len c H1). lia.
Qed.
Definition wfits (l : list Z) : Prop := 20 * len l < 2 ^ 63 - 1.
Lemma scalars s : file_name s -> Forall scalar s.
Proof. intros F. eapply Forall_impl; [|exact F]. cbn. tauto. Qed.
Lemma utf16_len_pos s : s <> [] -> 1 <= len (utf16 s).
Proof. destruct s as [|c s]; [congruence|]. rewrite utf16_cons, len_app. pose proof (utf16_char_len c). pose proof (len_nonneg (utf16 s)). lia. Qed.
Lemma win_from_ok s : file_name s -> s <> [] -> wfits (utf16 s) -> win_from (utf16 s) = Ok (utf16 (wtexts s), 10 * len (utf16 s) + 1).
Proof.
  intros F N B. pose proof (utf16_len_pos s N) as P. pose proof (wtexts_len s (scalars s F)) as L. unfold win_from, wfits, ssize_max in *.
  replace (negb (len (utf16 s) =? 0) && (len (utf16 s) <=? 2 ^ 63 - 1 - 1)) with true by lia. cbn [check bind].
  replace (len (utf16 s) <=? (2 ^ 63 - 1 - 1) / 20) with true by lia. cbn [check bind].
  rewrite win_escape_loop_ok; [|exact F|change (len []) with 0; lia|lia]. cbn [bind app]. replace (_ <? _) with true by lia. cbn [check bind]. do 2 f_equal. lia.
Qed.
Lemma wtext_chars c : scalar c -> c <> 0 -> Forall (fun d => scalar d /\ shown d /\ windows_char d) (wtext c).
Proof.
  intros S N. assert (C0 : 0 <= c) by (unfold scalar in S; lia). unfold wtext.
  assert (A : forall d, In d [94; 120; 85] \/ 48 <= d <= 57 \/ 97 <= d <= 102 -> scalar d /\ shown d /\ windows_char d).
  { intros d D. unfold scalar, shown, windows_char. cbn [In] in *. repeat split; lia. }
  assert (H : forall n, Forall (fun d => scalar d /\ shown d /\ windows_char d) (hex n c)).
  { intros n. eapply Forall_impl; [|apply hex_shown; exact C0]. cbn beta. intros d D. apply A. auto. }
  destruct (win_x c) eqn:XC. { apply Forall_app. split; [|apply H]. constructor; [apply A; cbn; auto|]. constructor; [apply A; cbn; auto|constructor]. }
  destruct (is_unprintable c) eqn:UC. { apply Forall_app. split; [|apply H]. constructor; [apply A; cbn; auto|]. constructor; [apply A; cbn; auto|constructor]. }
  destruct (c =? 94). { constructor; [apply A; cbn; auto|]. constructor; [apply A; cbn; auto|constructor]. }
  constructor; [|constructor]. split; [exact S|]. unfold win_x, is_control, reserved in XC. cbn [existsb] in XC. unfold is_unprintable in UC. unfold shown, windows_char. cbn [In]. repeat split; lia.
Qed.
Lemma wtexts_chars s : file_name s -> Forall (fun d => scalar d /\ shown d /\ windows_char d) (wtexts s).
Proof. induction 1 as [|c s (H1 & H2) H3 IH]; [constructor|]. unfold wtexts. cbn [map concat]. apply Forall_app. split; [apply wtext_chars; assumption|exact IH]. Qed.
Lemma wtexts_nonempty s : s <> [] -> wtexts s <> [].
Proof.
  destruct s as [|c s]; [congruence|]. intros _ E. unfold wtexts in E. cbn [map concat] in E. apply app_eq_nil in E. destruct E as (E & _). unfold wtext in E.
  destruct (win_x c); [discriminate|]. destruct (is_unprintable c); [discriminate|]. destruct (c =? 94); discriminate.
Qed.

(* ---- reading it back ---- *)
Lemma unit_next c r : 0 <= c < 0xd800 -> utf16_next (c :: r) = Ok (c, r).
Proof. intros C. unfold utf16_next. replace ((c <? 55296) || (57343 <? c)) with true by lia. reflexivity. Qed.
Lemma win_unescape_x c r : c <> 0 -> 0 <= c < 256 -> win_x c = true -> win_unescape (120 :: hex 2 c ++ r) = Ok (c, r).
Proof.
  intros N C X. unfold win_unescape. change (120 =? 94) with false. change ((120 =? 88) || (120 =? 120)) with true. cbn iota.
  rewrite len_app, hex_len. pose proof (len_nonneg r). replace (2 <=? Z.of_nat 2 + len r) with true by lia. cbn [check bind].
  rewrite firstn_app_l, skipn_app_l by apply hex_length. rewrite (win_hex_hex _ _ c) by (apply hex_value_hex; [lia|change (16 ^ Z.of_nat 2) with 256; lia]). cbn [bind].
  replace (((1 <=? c) && (c <=? 31)) || (c =? 92) || reserved c || ((127 <=? c) && (c <=? 159))) with true; [reflexivity|].
  unfold win_x, is_control in X. destruct (reserved c); [rewrite !orb_true_r; reflexivity|]. lia.
Qed.
Lemma win_unescape_u c r : scalar c -> is_unprintable c = true -> win_unescape (85 :: hex 8 c ++ r) = Ok (c, r).
Proof.
  intros C X. unfold win_unescape. change (85 =? 94) with false. change ((85 =? 88) || (85 =? 120)) with false. change ((85 =? 85) || (85 =? 117)) with true. cbn iota.
  rewrite len_app, hex_len. pose proof (len_nonneg r). replace (8 <=? Z.of_nat 8 + len r) with true by lia. cbn [check bind].
  rewrite firstn_app_l, skipn_app_l by apply hex_length. rewrite (win_hex_hex _ _ c) by (apply hex_value_hex; [lia|change (16 ^ Z.of_nat 8) with 4294967296; unfold scalar in C; lia]). cbn [bind].
  rewrite X. reflexivity.
Qed.
Definition win_next (l : list Z) : res (Z * list Z) :=
  let! (c, l) := utf16_next l in if c =? 92 then Ok (47, l) else if c =? 94 then win_unescape l else Ok (c, l).
Lemma win_x_small c : scalar c -> win_x c = true -> 0 <= c < 256.
Proof. intros S X. unfold scalar in S. unfold win_x, is_control, reserved in X. cbn [existsb] in X. lia. Qed.
Lemma win_next_text c r : scalar c -> c <> 0 -> win_next (utf16 (wtext c) ++ r) = Ok (c, r).
Proof.
  intros S N. rewrite utf16_wtext by exact S. unfold win_next. destruct (win_x c) eqn:X.
  { rewrite <- app_assoc. cbn [app]. rewrite unit_next by lia. cbn [bind]. change (94 =? 92) with false. change (94 =? 94) with true. cbv iota. apply win_unescape_x; [exact N|apply win_x_small; assumption|exact X]. }
  destruct (is_unprintable c) eqn:U.
  { rewrite <- app_assoc. cbn [app]. rewrite unit_next by lia. cbn [bind]. change (94 =? 92) with false. change (94 =? 94) with true. cbv iota. apply win_unescape_u; assumption. }
  destruct (c =? 94) eqn:E. { replace c with 94 by lia. reflexivity. }
  rewrite utf16_char_next by exact S. cbn [bind]. replace (c =? 92) with false by (unfold win_x in X; lia). rewrite E. reflexivity.
Qed.
Lemma win_to_step bad size fuel b l out : win_to_loop bad size (S fuel) (b :: l) out =
  let! (c, r) := win_next (b :: l) in let! out := put_unit bad size out c in win_to_loop bad size fuel r out.
Proof. cbn [win_to_loop]. unfold win_next. destruct (utf16_next (b :: l)) as [(c, r)| | |]; cbn [bind]; reflexivity. Qed.
(* a path of texts, each after a separator *)
Inductive wpath : list Z -> list Z -> Prop :=
| wp_nil : wpath [] []
| wp_sep t s : wpath t s -> wpath (92 :: t) (47 :: s)
| wp_char c t s : scalar c -> c <> 0 -> wpath t s -> wpath (utf16 (wtext c) ++ t) (c :: s).
Lemma wpath_next t s : wpath t s -> t <> [] -> exists c t' s', s = c :: s' /\ wpath t' s' /\ scalar c /\ win_next t = Ok (c, t') /\ (length t' < length t)%nat /\ len (utf16_char c) <= len t - len t'.
Proof.
  intros H NE. destruct H as [|t s H|c t s H1 H2 H]; [congruence| |].
  - exists 47, t, s. split; [reflexivity|]. split; [exact H|]. split; [unfold scalar; lia|]. split; [reflexivity|]. split; [cbn [length]; lia|]. rewrite len_cons. change (len (utf16_char 47)) with 1. lia.
  - exists c, t, s. split; [reflexivity|]. split; [exact H|]. split; [exact H1|]. split; [apply win_next_text; assumption|]. pose proof (wtext_len c H1). pose proof (utf16_char_len c).
    split; [rewrite app_length; unfold len in *; lia|rewrite len_app; lia].
Qed.
Lemma wpath_nil s : wpath [] s -> s = [].
Proof.
  intros H. inversion H as [| |c t s' H1 H2 H3 E]; [reflexivity|]. apply app_eq_nil in E. destruct E as (E & _). pose proof (wtext_len c H1) as L. pose proof (utf16_char_len c). rewrite E in L. change (len []) with 0 in L. lia.
Qed.
Lemma win_to_loop_ok bad size : forall fuel t s out, wpath t s -> (length t <= fuel)%nat -> len out + len t <= size ->
  win_to_loop bad size fuel t out = Ok (out ++ utf16 s) /\ len (out ++ utf16 s) <= len out + len t.
Proof.
  induction fuel as [|fuel IH]; intros t s out H F B; (destruct t as [|b t]; [apply wpath_nil in H; subst s; cbn [win_to_loop utf16 map concat]; rewrite app_nil_r; split; [reflexivity|change (len []) with 0; lia]|]).
  - cbn [length] in F. lia.
  - destruct (wpath_next (b :: t) s H ltac:(discriminate)) as (c & t' & s' & E1 & E2 & E3 & E4 & E5 & E6).
    rewrite win_to_step, E4. cbn [bind]. pose proof (len_nonneg t'). rewrite put_unit_ok by (try exact E3; lia). cbn [bind]. rewrite E1, utf16_cons.
    destruct (IH t' s' (out ++ utf16_char c) E2 ltac:(cbn [length] in *; lia)) as (I1 & I2); [rewrite len_app; lia|].
    rewrite I1, <- app_assoc. split; [reflexivity|]. rewrite <- app_assoc in I2. rewrite !len_app in *. lia.
Qed.
Lemma wpath_app t s t' s' : wpath t s -> wpath t' s' -> wpath (t ++ t') (s ++ s').
Proof. intros H H'. induction H; [exact H'|constructor; assumption|]. rewrite <- app_assoc. cbn [app]. constructor; assumption. Qed.
Lemma wpath_name s : file_name s -> wpath (utf16 (wtexts s)) s.
Proof. induction 1 as [|c s (H1 & H2) H3 IH]; [constructor|]. rewrite wtexts_cons. constructor; assumption. Qed.
Lemma win_to_ok bad t s : wpath (92 :: t) (47 :: s) -> 2 * len (92 :: t) < 2 ^ 63 - 3 -> win_to bad (92 :: t) = Ok (utf16 (47 :: s)).
Proof.
  intros H L. unfold win_to, ssize_max. pose proof (len_nonneg t). rewrite len_cons in *.
  replace (negb (1 + len t =? 0) && (1 + len t <=? 2 ^ 63 - 1 - 1)) with true by lia. cbn [check bind].
  replace (getb (92 :: t) 0) with (Ok 92) by (unfold getb; rewrite len_cons; replace ((0 <=? 0) && (0 <? 1 + len t)) with true by lia; reflexivity).
  cbn [bind]. change (92 =? 92) with true. cbn [check bind]. replace (1 + len t + 1 <=? (2 ^ 63 - 1) / 2) with true by lia. cbn [check bind].
  destruct (win_to_loop_ok bad (1 + len t + 1) (length (92 :: t)) (92 :: t) (47 :: s) [] H (le_n _)) as (E & B); [change (len []) with 0; rewrite len_cons; lia|].
  rewrite E. cbn [bind app] in *. change (len []) with 0 in B. rewrite len_cons in B. replace (_ <? _) with true by lia. reflexivity.
Qed.
Lemma windows_path_cons s l : windows_path (s :: l) = 92 :: s ++ windows_path l.
Proof. reflexivity. Qed.
Lemma windows_path_app a b : windows_path (a ++ b) = windows_path a ++ windows_path b.
Proof. unfold windows_path. rewrite map_app, concat_app. reflexivity. Qed.
Lemma utf16_path l : utf16 (windows_path l) = windows_path (map utf16 l).
Proof. induction l as [|s l IH]; [reflexivity|]. cbn [map]. rewrite !windows_path_cons, utf16_cons, utf16_app, IH. reflexivity. Qed.
Lemma wpath_path l : Forall file_name l -> wpath (windows_path (map (fun s => utf16 (wtexts s)) l)) (path_of l).
Proof.
  induction 1 as [|s l H1 H2 IH]; [constructor|]. cbn [map]. rewrite windows_path_cons, path_of_cons. constructor. apply wpath_app; [apply wpath_name, H1|exact IH].
Qed.
Lemma win_to_path bad l : Forall file_name l -> l <> [] -> 2 * len (windows_path (map (fun s => utf16 (wtexts s)) l)) < 2 ^ 63 - 3 ->
  win_to bad (windows_path (map (fun s => utf16 (wtexts s)) l)) = Ok (utf16 (path_of l)).
Proof.
  intros H N L. pose proof (wpath_path l H) as T. destruct l as [|s l]; [congruence|]. cbn [map] in *. rewrite windows_path_cons, path_of_cons in *. apply win_to_ok; assumption.
Qed.

(* ---- opening ---- *)
Lemma utf16_no c s : 0 <= c < 0xd800 -> Forall scalar s -> ~ In c s -> ~ In c (utf16 s).
Proof.
  intros C S. induction S as [|d s H1 H2 IH]; intros N H; [exact H|]. rewrite utf16_cons in H. apply in_app_or in H. destruct H as [H|H].
  - apply N. left. unfold scalar in H1. unfold utf16_char in H. destruct (d <? 65536) eqn:?; cbn [In] in H; lia.
  - apply IH; [|exact H]. intros X. apply N. right. exact X.
Qed.
Lemma c_string_utf16 s : file_name s -> c_string (utf16 s) = utf16 s.
Proof.
  intros F. assert (N : ~ In 0 (utf16 s)).
  { apply utf16_no; [lia|apply scalars, F|]. intros H. unfold file_name in F. rewrite Forall_forall in F. destruct (F 0 H). congruence. }
  induction (utf16 s) as [|c l IH]; [reflexivity|]. cbn [c_string]. replace (c =? 0) with false by (assert (c <> 0) by (intros ->; apply N; left; reflexivity); lia).
  f_equal. apply IH. intros X. apply N. right. exact X.
Qed.
Lemma win_last_to a b : ~ In 92 b -> forall n, (n <= length b)%nat -> win_last (a ++ 92 :: b) (length a + n) = len a.
Proof.
  intros N. assert (G : forall k, 0 <= k < len b -> exists c, getb b k = Ok c /\ c <> 92).
  { intros k K. unfold getb. replace (_ && _) with true by lia. destruct (nth_error b (Z.to_nat k)) as [c|] eqn:E; [|apply nth_error_None in E; unfold len in K; lia].
    exists c. split; [reflexivity|]. intros ->. apply N. eapply nth_error_In. exact E. }
  induction n as [|n IH]; intros L.
  - rewrite Nat.add_0_r. destruct (length a) as [|m] eqn:EA; [destruct a; [reflexivity|discriminate]|]. cbn [win_last].
    assert (E : getb ((a ++ 92 :: b) ++ [0]) (Z.of_nat (S m)) = Ok 92).
    { unfold getb. rewrite !len_app, len_cons. pose proof (len_nonneg b). assert (len a = Z.of_nat (S m)) by (unfold len; lia). change (len [0]) with 1.
      replace (_ && _) with true by lia. rewrite Nat2Z.id, <- app_assoc, nth_error_app2 by lia. rewrite EA, Nat.sub_diag. reflexivity. }
    rewrite E. unfold len. lia.
  - replace (length a + S n)%nat with (S (length a + n)) by lia. cbn [win_last].
    assert (E : exists c, getb ((a ++ 92 :: b) ++ [0]) (Z.of_nat (S (length a + n))) = Ok c /\ c <> 92).
    { destruct (G (Z.of_nat n) ltac:(unfold len; lia)) as (c & E & C). exists c. split; [|exact C].
      unfold getb in *. rewrite !len_app, len_cons. pose proof (len_nonneg b). change (len [0]) with 1. destruct (_ && _) eqn:B in E; [|discriminate].
      replace (_ && _) with true by (unfold len in *; lia). rewrite Nat2Z.id in *. rewrite <- app_assoc, nth_error_app2 by lia.
      replace (S (length a + n) - length a)%nat with (S n) by lia. cbn [nth_error app]. rewrite nth_error_app1 by (unfold len in B; lia). exact E. }
    destruct E as (c & -> & C). rewrite IH by lia. destruct c as [|q|q]; try reflexivity. repeat (destruct q as [q|q|]; try reflexivity). congruence.
Qed.
Lemma win_open_path bad t fold a b r q : b <> [] -> ~ In 92 b -> len (a ++ 92 :: b) < 2 ^ 63 - 1 ->
  win_to bad (a ++ 92 :: b) = Ok q -> fs_by_path t utf16_next fold 2 (c_string q) = Ok r ->
  win_open bad t fold (a ++ 92 :: b) = Ok r.
Proof.
  intros NB N L M R. unfold win_open. pose proof (len_nonneg a). assert (LB : 1 <= len b) by (destruct b; [congruence|rewrite len_cons; pose proof (len_nonneg b); lia]).
  rewrite len_app, len_cons in *. replace (negb (len a + (1 + len b) =? 0)) with true by lia. cbn [check bind].
  assert (E : exists c, getb (a ++ 92 :: b) (len a + (1 + len b) - 1) = Ok c /\ c <> 92).
  { destruct (exists_last NB) as (b' & c & ->). exists c. split; [|intros ->; apply N, in_or_app; right; left; reflexivity].
    unfold getb. rewrite ?len_app, ?len_cons, ?len_app in *. change (len [c]) with 1 in *. change (len (@nil Z)) with 0 in *. change (1 + 0) with 1 in *. pose proof (len_nonneg b').
    replace (_ && _) with true by lia. replace (Z.to_nat (len a + (1 + (len b' + 1)) - 1)) with (length a + S (length b'))%nat by (unfold len; lia).
    rewrite nth_error_app2 by lia. replace (length a + S (length b') - length a)%nat with (S (length b')) by lia. cbn [nth_error]. rewrite nth_error_app2 by lia. rewrite Nat.sub_diag. reflexivity. }
  destruct E as (c & -> & C). replace ((2 <=? len a + (1 + len b)) && (c =? 92)) with false by lia.
  replace (slice (a ++ 92 :: b) 0 (len a + (1 + len b))) with (a ++ 92 :: b).
  2: { unfold slice. change (Z.to_nat 0) with O. cbn [skipn]. symmetry. apply firstn_all2. rewrite app_length. cbn [length]. unfold len. lia. }
  rewrite M. cbn [bind]. rewrite R. cbn [bind]. destruct r as [x|]; [|reflexivity].
  replace (Z.to_nat (len a + (1 + len b))) with (length a + S (length b))%nat by (unfold len; lia).
  assert (LS : win_last (a ++ 92 :: b) (length a + S (length b)) = len a).
  { replace (length a + S (length b))%nat with (S (length a + length b)) by lia. cbn [win_last].
    assert (E : getb ((a ++ 92 :: b) ++ [0]) (Z.of_nat (S (length a + length b))) = Ok 0).
    { unfold getb. rewrite !len_app, len_cons. change (len [0]) with 1. replace (_ && _) with true by (unfold len; lia). rewrite Nat2Z.id.
      replace (S (length a + length b)) with (length (a ++ 92 :: b)) by (rewrite app_length; cbn [length]; lia). rewrite nth_error_app2 by lia. rewrite Nat.sub_diag. reflexivity. }
    rewrite E. apply win_last_to; [exact N|lia]. }
  rewrite LS. unfold w64. rewrite Z.mod_small by lia. unfold ssize_max. replace (_ <=? _) with true by lia. reflexivity.
Qed.

(* ---- no access outside of the strings, for any input ---- *)
Lemma put_unit_fine bad size out c : fine (put_unit bad size out c).
Proof. unfold put_unit. match goal with |- context [match ?x with Some _ => _ | None => _ end] => destruct x end; [|exact I]. apply fine_bind; [apply fine_check|]. intros; exact I. Qed.
Lemma next_unit l : fine (utf16_next l) /\ forall c r, utf16_next l = Ok (c, r) -> (length r < length l)%nat.
Proof. split; [exact (proj2 utf16_fine l)|]. intros c r E. exact (proj1 (utf16_decoder l c r E)). Qed.
Lemma win_escape_fine size out c : len out + 10 < size -> fine (win_escape size out c) /\ forall out', win_escape size out c = Ok out' -> len out' <= len out + 10.
Proof.
  intros B. unfold win_escape, put_text. destruct (win_x c).
  { rewrite len_app, hex_len. change (len [94; 120]) with 2. replace (_ <? _) with true by lia. split; [exact I|]. intros o E0. assert (o = out ++ ([94; 120] ++ hex 2 c)) as -> by congruence. rewrite !len_app, hex_len. change (len [94; 120]) with 2. lia. }
  destruct (is_unprintable c).
  { rewrite len_app, hex_len. change (len [94; 85]) with 2. replace (_ <? _) with true by lia. split; [exact I|]. intros o E0. assert (o = out ++ ([94; 85] ++ hex 8 c)) as -> by congruence. rewrite !len_app, hex_len. change (len [94; 85]) with 2. lia. }
  destruct (c =? 94).
  { unfold put_two. replace (_ <=? _) with true by lia. split; [exact I|]. intros o [= <-]. rewrite len_app. change (len [94; c]) with 2. lia. }
  split; [apply put_unit_fine|]. intros o. unfold put_unit. destruct (_ || _); [|discriminate]. destruct (_ <=? _); [|discriminate]. intros [= <-].
  rewrite len_app. pose proof (utf16_char_len c). lia.
Qed.
Lemma win_escape_loop_fine size : forall fuel l out, (length l <= fuel)%nat -> len out + 10 * len l < size -> fine (win_escape_loop size fuel l out).
Proof.
  induction fuel as [|fuel IH]; intros l out F B; (destruct l as [|b l]; [exact I|]); [cbn in F; lia|]. cbn [win_escape_loop].
  destruct (next_unit (b :: l)) as (N1 & N2). destruct (utf16_next (b :: l)) as [(c, r)| | |]; cbn [bind]; try exact I; try contradiction.
  specialize (N2 c r eq_refl). pose proof (len_nonneg r). assert (len r + 1 <= len (b :: l)) by (unfold len in *; lia). destruct (c =? 0); [exact I|].
  destruct (win_escape_fine size out c) as (F1 & F2); [lia|]. destruct (win_escape size out c) as [o| | |]; cbn [bind]; try contradiction; [|exact I].
  specialize (F2 o eq_refl). apply IH; [cbn [length] in *; lia|lia].
Qed.
Lemma win_unescape_fine l : fine (win_unescape l) /\ forall c r, win_unescape l = Ok (c, r) -> (length r < length l)%nat.
Proof.
  assert (HV : forall l v, fine (win_hex l v)). { induction l0 as [|c l0 IH]; intros v; cbn [win_hex]; [exact I|]. cbv zeta. destruct (_ && _); [apply IH|]. destruct (_ && _); [apply IH|]. destruct (_ && _); [apply IH|exact I]. }
  destruct l as [|c l]; [split; [exact I|discriminate]|]. unfold win_unescape. destruct (c =? 94). { split; [exact I|]. intros d r [= _ <-]. cbn. lia. }
  destruct ((c =? 88) || (c =? 120)).
  { split.
    - apply fine_bind; [apply fine_check|]. intros _ _. apply fine_bind; [apply HV|]. intros v _. apply fine_bind; [apply fine_check|]. intros; exact I.
    - intros d r E. destruct (check (2 <=? len l)); try discriminate. cbn [bind] in E. destruct (win_hex _ _) as [v| | |]; try discriminate. cbn [bind] in E.
      destruct (check (_ || _)); try discriminate. cbn [bind] in E. assert (r = skipn 2 l) as -> by congruence. rewrite skipn_length. cbn [length]. lia. }
  destruct ((c =? 85) || (c =? 117)); [|split; [exact I|discriminate]]. split.
  - apply fine_bind; [apply fine_check|]. intros _ _. apply fine_bind; [apply HV|]. intros v _. apply fine_bind; [apply fine_check|]. intros; exact I.
  - intros d r E. destruct (check (8 <=? len l)); try discriminate. cbn [bind] in E. destruct (win_hex _ _) as [v| | |]; try discriminate. cbn [bind] in E.
    destruct (check (is_unprintable v)); try discriminate. cbn [bind] in E. assert (r = skipn 8 l) as -> by congruence. rewrite skipn_length. cbn [length]. lia.
Qed.
Lemma win_to_loop_fine bad size : forall fuel l out, (length l <= fuel)%nat -> fine (win_to_loop bad size fuel l out).
Proof.
  induction fuel as [|fuel IH]; intros l out F; (destruct l as [|b l]; [exact I|]); [cbn in F; lia|]. rewrite win_to_step. unfold win_next.
  destruct (next_unit (b :: l)) as (N1 & N2). destruct (utf16_next (b :: l)) as [(c, r)| | |]; cbn [bind]; try exact I; try contradiction.
  specialize (N2 c r eq_refl). cbn [length] in *. destruct (win_unescape_fine r) as (U1 & U2).
  assert (X : fine (if c =? 92 then Ok (47, r) else if c =? 94 then win_unescape r else Ok (c, r)) /\
    forall c' r', (if c =? 92 then Ok (47, r) else if c =? 94 then win_unescape r else Ok (c, r)) = Ok (c', r') -> (length r' <= length r)%nat).
  { destruct (c =? 92). { split; [exact I|]. intros c' r' [= _ <-]. lia. }
    destruct (c =? 94). - split; [exact U1|]. intros c' r' Er. specialize (U2 c' r' Er). lia. - split; [exact I|]. intros c' r' [= _ <-]. lia. }
  destruct X as (X1 & X2). destruct (if c =? 92 then _ else _) as [(d, r')| | |]; cbn [bind]; try exact I; try contradiction.
  specialize (X2 d r' eq_refl). apply fine_bind; [apply put_unit_fine|]. intros o _. apply IH. lia.
Qed.
Lemma win_strings_fine bad l : fine (win_from l) /\ fine (win_to bad l).
Proof.
  split.
  - unfold win_from. apply fine_bind; [apply fine_check|]. intros _ _. apply fine_bind; [apply fine_check|]. intros _ _. apply fine_bind; [apply win_escape_loop_fine; [lia|change (len (@nil Z)) with 0; lia]|].
    intros o _. apply fine_bind; [apply fine_check|]. intros; exact I.
  - unfold win_to. destruct (negb (len l =? 0) && _) eqn:C; cbn [check bind]; [|exact I]. pose proof (len_nonneg l).
    assert (G : fine (getb l 0)). { unfold getb. replace ((0 <=? 0) && (0 <? len l)) with true by lia. destruct l; [unfold len in C; cbn in C; discriminate|exact I]. }
    apply fine_bind; [exact G|]. intros c _. apply fine_bind; [apply fine_check|]. intros _ _. apply fine_bind; [apply fine_check|]. intros _ _. apply fine_bind; [apply win_to_loop_fine; lia|]. intros o _. apply fine_bind; [apply fine_check|]. intros; exact I.
Qed.
