From Verif Require Import Base BaseLemmas BTreeProofs NameSpec Name NameProofs PropName FsNameProofs ToolPath ToolPathSpec.
Ltac Zify.zify_post_hook ::= Z.div_mod_to_equations.

(* ---- hexadecimal ---- *)
Lemma hex_len n : forall v, len (hex n v) = Z.of_nat n.
Proof. induction n as [|n IH]; intros v; cbn [hex]; [reflexivity|]. rewrite len_app, IH. change (len [hex_digit (v mod 16)]) with 1. lia. Qed.

Lemma hex_value_app : forall a b v, hex_value (a ++ b) v = let! v := hex_value a v in hex_value b v.
Proof.
  induction a as [|c a IH]; intros b v; cbn [hex_value app bind]; [reflexivity|]. cbv zeta.
  destruct (_ && _); [apply IH|]. destruct (_ && _); [apply IH|reflexivity].
Qed.

Lemma hex_digit_value d v : 0 <= d < 16 -> 0 <= v -> v * 16 < 2 ^ 32 -> hex_value [hex_digit d] v = Ok (v * 16 + d).
Proof.
  intros D V B. cbn [hex_value]. cbv zeta. unfold w32. rewrite Z.mod_small by lia. unfold hex_digit. destruct (d <=? 9) eqn:E.
  - replace ((48 <=? 48 + d) && (48 + d <=? 57)) with true by lia. f_equal. lia.
  - replace ((48 <=? 87 + d) && (87 + d <=? 57)) with false by lia. replace ((97 <=? 87 + d) && (87 + d <=? 102)) with true by lia. f_equal. lia.
Qed.

Lemma hex_value_hex n : forall v, (n <= 8)%nat -> 0 <= v < 16 ^ Z.of_nat n -> hex_value (hex n v) 0 = Ok v.
Proof.
  induction n as [|n IH]; intros v N V.
  - cbn [hex hex_value]. f_equal. change (16 ^ Z.of_nat 0) with 1 in V. lia.
  - cbn [hex]. rewrite hex_value_app. replace (Z.of_nat (S n)) with (Z.succ (Z.of_nat n)) in V by lia. rewrite Z.pow_succ_r in V by lia.
    rewrite IH by lia. cbn [bind].
    assert (16 ^ Z.of_nat n <= 16 ^ 7) by (apply Z.pow_le_mono_r; lia). change (16 ^ 7) with 268435456 in *.
    rewrite hex_digit_value by lia. f_equal. lia.
Qed.

(* ---- escaping ---- *)
Definition esc (x e : Z -> bool) (c : Z) : list Z :=
  if x c then [92; 120] ++ hex 2 c
  else if is_unprintable c then [92; 85] ++ hex 8 c
  else if e c then [92; c]
  else utf8_char c.
Definition escs x e (s : list Z) : list Z := concat (map (esc x e) s).

Lemma utf8_char_len c : 1 <= len (utf8_char c) <= 4.
Proof. unfold utf8_char. repeat match goal with |- context [if ?b then _ else _] => destruct b end; unfold len; cbn; lia. Qed.
Lemma esc_len x e c : 1 <= len (esc x e c) <= 10.
Proof.
  unfold esc. pose proof (utf8_char_len c). repeat match goal with |- context [if ?b then _ else _] => destruct b end; rewrite ?len_app, ?hex_len; try lia; unfold len; cbn; lia.
Qed.

Lemma escape_char_ok x e size out c : scalar c -> len out + 10 < size -> escape_char x e size out c = Ok (out ++ esc x e c).
Proof.
  intros S B. unfold escape_char, esc. pose proof (utf8_char_len c) as L.
  destruct (x c).
  { unfold put_text. rewrite len_app, hex_len. change (len [92; 120]) with 2. replace (_ <? _) with true by lia. reflexivity. }
  destruct (is_unprintable c).
  { unfold put_text. rewrite len_app, hex_len. change (len [92; 85]) with 2. replace (_ <? _) with true by lia. reflexivity. }
  destruct (e c).
  { unfold put_two. replace (_ <=? _) with true by lia. reflexivity. }
  unfold put_char, encode. replace (((0 <=? c) && (c <? 55296)) || ((57343 <? c) && (c <=? 1114111))) with true by (unfold scalar in S; lia).
  replace (_ <=? _) with true by lia. reflexivity.
Qed.

Lemma utf8_cons c s : utf8 (c :: s) = utf8_char c ++ utf8 s.
Proof. reflexivity. Qed.

Lemma escape_loop_ok x e stop size : forall s fuel out, Forall scalar s -> (stop = true -> Forall (fun c => c <> 0) s) ->
  len out + 10 * len (utf8 s) < size -> (length (utf8 s) <= fuel)%nat ->
  escape_loop x e stop size fuel (utf8 s) out = Ok (out ++ escs x e s).
Proof.
  induction s as [|c s IH]; intros fuel out S N B F.
  - unfold escs. cbn [map concat utf8]. rewrite app_nil_r. destruct fuel; reflexivity.
  - rewrite utf8_cons in *. pose proof (utf8_char_len c) as L. pose proof (esc_len x e c) as L'. rewrite len_app in B. rewrite app_length in F.
    pose proof (len_nonneg (utf8 s)). pose proof (Forall_inv S) as Sc. pose proof (Forall_inv_tail S) as Ss.
    destruct (utf8_char c ++ utf8 s) as [|b r] eqn:E. { apply app_eq_nil in E. destruct E as (E & _). rewrite E in L. unfold len in L. cbn in L. lia. }
    destruct fuel as [|fuel]; [unfold len in L; lia|]. cbn [escape_loop]. rewrite <- E. rewrite utf8_char_next by exact Sc. cbn [bind].
    assert (Z0 : stop && (c =? 0) = false). { destruct stop; [|reflexivity]. specialize (N eq_refl). pose proof (Forall_inv N) as N1. cbn beta in N1. cbn [andb]. lia. }
    rewrite Z0. rewrite escape_char_ok by (try exact Sc; lia). cbn [bind].
    rewrite IH; [|exact Ss|intros H0; exact (Forall_inv_tail (N H0))|rewrite len_app; lia|unfold len in *; lia].
    unfold escs. cbn [map concat]. rewrite app_assoc. reflexivity.
Qed.

Lemma escs_len x e s : len (escs x e s) <= 10 * len (utf8 s).
Proof.
  induction s as [|c s IH]; [unfold escs, utf8, len; cbn; lia|]. rewrite utf8_cons. unfold escs in *. cbn [map concat]. rewrite !len_app.
  pose proof (utf8_char_len c). pose proof (esc_len x e c). lia.
Qed.

Definition fits (l : list Z) : Prop := 10 * len l < 2 ^ 63 - 1.
Lemma escape_ok x e stop s : Forall scalar s -> (stop = true -> Forall (fun c => c <> 0) s) -> s <> [] -> fits (utf8 s) ->
  escape x e stop (utf8 s) = Ok (escs x e s) /\ len (escs x e s) < len (utf8 s) * 10 + 1.
Proof.
  intros S N NE F. pose proof (escs_len x e s) as L. split; [|lia].
  assert (P : 1 <= len (utf8 s)). { destruct s as [|c s]; [congruence|]. rewrite utf8_cons, len_app. pose proof (utf8_char_len c). pose proof (len_nonneg (utf8 s)). lia. }
  unfold escape, fits, ssize_max in *. replace (negb (len (utf8 s) =? 0) && (len (utf8 s) <=? 2 ^ 63 - 1 - 1)) with true by lia. cbn [check bind].
  replace (len (utf8 s) <=? (2 ^ 63 - 1 - 1) / 10) with true by lia. cbn [check bind].
  rewrite escape_loop_ok; [reflexivity|exact S|exact N| |lia]. change (len []) with 0. lia.
Qed.

Lemma path_from_ok s : Forall scalar s -> s <> [] -> fits (utf8 s) -> path_from (utf8 s) = Ok (escs is_control (fun c => c =? 92) s).
Proof.
  intros S NE F. unfold path_from. destruct (escape_ok is_control (fun c => c =? 92) false s S ltac:(discriminate) NE F) as (-> & L). cbn [bind].
  unfold ends_in. replace (_ <? _) with true by lia. reflexivity.
Qed.
Lemma bodyfile_from_ok s : Forall scalar s -> s <> [] -> fits (utf8 s) -> bodyfile_from (utf8 s) = Ok (escs is_control (fun c => (c =? 92) || (c =? 124)) s).
Proof.
  intros S NE F. unfold bodyfile_from. destruct (escape_ok is_control (fun c => (c =? 92) || (c =? 124)) false s S ltac:(discriminate) NE F) as (-> & L). cbn [bind].
  unfold ends_in. replace (_ <? _) with true by lia. reflexivity.
Qed.
Definition mount_x (c : Z) : bool := is_control c || (c =? 47).
Lemma mount_from_ok s : file_name s -> s <> [] -> fits (utf8 s) -> mount_from (utf8 s) = Ok (escs mount_x (fun c => c =? 92) s).
Proof.
  intros S NE F. unfold mount_from. fold mount_x.
  destruct (escape_ok mount_x (fun c => c =? 92) true s) as (E & L); [eapply Forall_impl; [|exact S]; cbn; tauto|intros _; eapply Forall_impl; [|exact S]; cbn; tauto|exact NE|exact F|].
  change (fun c => is_control c || (c =? 47)) with mount_x. rewrite E. cbn [bind]. replace (_ <? _) with true by lia. reflexivity.
Qed.

(* ---- what is written can be shown ---- *)
Lemma hex_shown n : forall v, 0 <= v -> Forall (fun c => 48 <= c <= 57 \/ 97 <= c <= 102) (hex n v).
Proof.
  induction n as [|n IH]; intros v V; cbn [hex]; [constructor|]. apply Forall_app. split; [apply IH; lia|]. constructor; [|constructor].
  unfold hex_digit. destruct (v mod 16 <=? 9) eqn:E; lia.
Qed.

Lemma utf8_ascii s : Forall (fun c => 0 <= c < 128) s -> utf8 s = s.
Proof.
  induction 1 as [|c s H1 H2 IH]; [reflexivity|]. rewrite utf8_cons, IH. unfold utf8_char. replace (c <? 128) with true by lia. reflexivity.
Qed.
Lemma utf8_app a b : utf8 (a ++ b) = utf8 a ++ utf8 b.
Proof. unfold utf8. rewrite map_app, concat_app. reflexivity. Qed.

(* The text of a character as characters *)
Definition esc_text (x e : Z -> bool) (c : Z) : list Z :=
  if x c then [92; 120] ++ hex 2 c
  else if is_unprintable c then [92; 85] ++ hex 8 c
  else if e c then [92; c]
  else [c].
Lemma esc_text_ok x e c : scalar c -> (e c = true -> c < 128) -> esc x e c = utf8 (esc_text x e c).
Proof.
  intros S E. assert (C0 : 0 <= c) by (unfold scalar in S; lia). unfold esc, esc_text.
  assert (H : forall n, Forall (fun c => 0 <= c < 128) (hex n c)) by (intros n; eapply Forall_impl; [|apply hex_shown; exact C0]; cbn; lia).
  destruct (x c). { rewrite utf8_ascii; [reflexivity|]. apply Forall_app. split; [repeat constructor; lia|apply H]. }
  destruct (is_unprintable c). { rewrite utf8_ascii; [reflexivity|]. apply Forall_app. split; [repeat constructor; lia|apply H]. }
  destruct (e c). { specialize (E eq_refl). rewrite utf8_ascii; [reflexivity|]. repeat constructor; lia. }
  rewrite utf8_cons. cbn [utf8 map concat]. rewrite app_nil_r. reflexivity.
Qed.
Lemma escs_text x e s : Forall scalar s -> (forall c, e c = true -> c < 128) -> escs x e s = utf8 (concat (map (esc_text x e) s)).
Proof.
  intros S E. induction S as [|c s H1 H2 IH]; [reflexivity|]. unfold escs in *. cbn [map concat]. rewrite utf8_app, <- IH, <- esc_text_ok; auto.
Qed.

Lemma esc_text_shown x e c : scalar c -> (forall c, is_control c = true -> x c = true) -> (e c = true -> c < 128) ->
  Forall (fun d => scalar d /\ shown d /\ (x d = true -> In d [92; 120; 85] \/ 48 <= d <= 57 \/ 97 <= d <= 102)) (esc_text x e c).
Proof.
  intros S X E. assert (C0 : 0 <= c) by (unfold scalar in S; lia). unfold esc_text.
  assert (L : forall d, In d [92; 120; 85] \/ 48 <= d <= 57 \/ 97 <= d <= 102 -> scalar d /\ shown d).
  { intros d [[<-|[<-|[<-|[]]]]|D]; unfold scalar, shown; repeat split; lia. }
  assert (H : forall n, Forall (fun d => scalar d /\ shown d /\ (x d = true -> In d [92; 120; 85] \/ 48 <= d <= 57 \/ 97 <= d <= 102)) (hex n c)).
  { intros n. eapply Forall_impl; [|apply hex_shown; exact C0]. cbn beta. intros d D. destruct (L d (or_intror D)) as (L1 & L2). split; [exact L1|]. split; [exact L2|]. intros _. right. exact D. }
  assert (A : forall d, In d [92; 120; 85] -> scalar d /\ shown d /\ (x d = true -> In d [92; 120; 85] \/ 48 <= d <= 57 \/ 97 <= d <= 102)).
  { intros d D. destruct (L d (or_introl D)) as (L1 & L2). split; [exact L1|]. split; [exact L2|]. intros _. left. exact D. }
  destruct (x c) eqn:XC. { apply Forall_app. split; [|apply H]. constructor; [apply A; cbn; auto|]. constructor; [apply A; cbn; auto|constructor]. }
  destruct (is_unprintable c) eqn:UC. { apply Forall_app. split; [|apply H]. constructor; [apply A; cbn; auto|]. constructor; [apply A; cbn; auto|constructor]. }
  assert (SC : scalar c /\ shown c /\ (x c = true -> In c [92; 120; 85] \/ 48 <= c <= 57 \/ 97 <= c <= 102)).
  { split; [exact S|]. split; [|rewrite XC; discriminate]. assert (IC : is_control c = false) by (destruct (is_control c) eqn:Y; [specialize (X c Y); congruence|reflexivity]).
    unfold is_control in IC. unfold is_unprintable in UC. unfold shown. repeat split; lia. }
  destruct (e c); [constructor; [apply A; cbn; auto|]|]; constructor; auto.
Qed.

(* ---- reading it back ---- *)
Lemma firstn_app_l {A} (a b : list A) n : length a = n -> firstn n (a ++ b) = a.
Proof. intros <-. rewrite firstn_app, Nat.sub_diag, firstn_all. cbn. apply app_nil_r. Qed.
Lemma skipn_app_l {A} (a b : list A) n : length a = n -> skipn n (a ++ b) = b.
Proof. intros <-. rewrite skipn_app, Nat.sub_diag, skipn_all. reflexivity. Qed.
Lemma hex_length n v : length (hex n v) = n.
Proof. pose proof (hex_len n v). unfold len in *. lia. Qed.

Lemma unescape_x x c r : 0 <= c < 256 -> ((1 <= c <= 0x1f) \/ x c = true \/ (0x7f <= c <= 0x9f)) -> unescape x (120 :: hex 2 c ++ r) = Ok (c, r).
Proof.
  intros C X. unfold unescape. change (120 =? 92) with false. change (120 =? 120) with true. cbn iota.
  rewrite len_app, hex_len. pose proof (len_nonneg r). replace (2 <=? Z.of_nat 2 + len r) with true by lia. cbn [check bind].
  rewrite firstn_app_l, skipn_app_l by apply hex_length. rewrite hex_value_hex by (change (16 ^ Z.of_nat 2) with 256; lia). cbn [bind].
  replace (((1 <=? c) && (c <=? 31)) || x c || ((127 <=? c) && (c <=? 159))) with true; [reflexivity|].
  destruct X as [X|[X|X]]; [replace ((1 <=? c) && (c <=? 31)) with true by lia; reflexivity|rewrite X, orb_true_r; reflexivity|].
  replace ((127 <=? c) && (c <=? 159)) with true by lia. rewrite orb_true_r. reflexivity.
Qed.
Lemma unescape_u x c r : scalar c -> is_unprintable c = true -> unescape x (85 :: hex 8 c ++ r) = Ok (c, r).
Proof.
  intros C X. unfold unescape. change (85 =? 92) with false. change (85 =? 120) with false. change (85 =? 85) with true. cbn iota.
  rewrite len_app, hex_len. pose proof (len_nonneg r). replace (8 <=? Z.of_nat 8 + len r) with true by lia. cbn [check bind].
  rewrite firstn_app_l, skipn_app_l by apply hex_length. rewrite hex_value_hex by (change (16 ^ Z.of_nat 8) with 4294967296; unfold scalar in C; lia). cbn [bind].
  rewrite X. reflexivity.
Qed.
Lemma unescape_e x r : unescape x (92 :: r) = Ok (92, r).
Proof. reflexivity. Qed.
Lemma ascii_next c r : 0 <= c < 128 -> utf8_next (c :: r) = Ok (c, r).
Proof. intros C. unfold utf8_next. replace (c <? 128) with true by lia. reflexivity. Qed.

(* One character of the text: what the readers take from it *)
Definition next_char (x : Z -> bool) (raw : Z -> bool) (l : list Z) : res (Z * list Z) :=
  let! (c, l) := utf8_next l in
  if raw c then Ok (c, l) else if c =? 92 then unescape x l else Ok (c, l).

Lemma next_char_esc x raw c r : scalar c -> c <> 0 -> raw 92 = false -> (x c = true -> c < 256) ->
  next_char x raw (esc (fun c => is_control c || x c) (fun c => c =? 92) c ++ r) = Ok (c, r).
Proof.
  intros S N R X. assert (C0 : 0 <= c) by (unfold scalar in S; lia). unfold next_char, esc.
  destruct (is_control c || x c) eqn:IX.
  { rewrite <- app_assoc. cbn [app]. rewrite ascii_next by lia. cbn [bind]. rewrite R. change (92 =? 92) with true. cbn iota.
    apply unescape_x; [destruct (is_control c) eqn:Y; [unfold is_control in Y; lia|specialize (X ltac:(destruct (x c); [reflexivity|discriminate])); lia]|].
    destruct (x c); [auto|]. rewrite orb_false_r in IX. unfold is_control in IX. lia. }
  destruct (is_unprintable c) eqn:UC.
  { rewrite <- app_assoc. cbn [app]. rewrite ascii_next by lia. cbn [bind]. rewrite R. change (92 =? 92) with true. cbn iota. apply unescape_u; assumption. }
  destruct (c =? 92) eqn:C92.
  { replace c with 92 by lia. cbn [app]. rewrite ascii_next by lia. cbn [bind]. rewrite R. reflexivity. }
  rewrite utf8_char_next by exact S. cbn [bind]. destruct (raw c); [reflexivity|]. rewrite C92. reflexivity.
Qed.

Lemma put_char_ok bad size out c : scalar c -> len out + len (utf8_char c) <= size -> put_char bad size out c = Ok (out ++ utf8_char c).
Proof.
  intros S B. unfold put_char, encode. replace (((0 <=? c) && (c <? 55296)) || ((57343 <? c) && (c <=? 1114111))) with true by (unfold scalar in S; lia).
  replace (_ <=? _) with true by lia. reflexivity.
Qed.

Lemma path_next sep l : (let! (c, l) := utf8_next l in if c =? 92 then unescape (fun _ => false) l else Ok (c, l)) = next_char (fun _ => false) (fun _ => false) l /\
  (sep = 47 -> forall c, (if c =? sep then 47 else c) = c).
Proof. split; [reflexivity|]. intros -> c. destruct (c =? 47) eqn:E; lia. Qed.
Lemma mount_next l : (let! (c, l) := utf8_next l in if c =? 47 then Ok (47, l) else if c =? 92 then unescape (fun v => v =? 47) l else Ok (c, l)) =
  next_char (fun v => v =? 47) (fun v => v =? 47) l.
Proof. unfold next_char. destruct (utf8_next l) as [(c, r)| | |]; cbn [bind]; try reflexivity. destruct (c =? 47) eqn:E; [replace c with 47 by lia|]; reflexivity. Qed.

Lemma mount_to_step bad size fuel b l out : mount_to_loop bad size (S fuel) (b :: l) out =
  let! (c, r) := next_char (fun v => v =? 47) (fun v => v =? 47) (b :: l) in let! out := put_char bad size out c in mount_to_loop bad size fuel r out.
Proof.
  rewrite <- mount_next. cbn [mount_to_loop]. destruct (utf8_next (b :: l)) as [(c, r)| | |]; cbn [bind]; try reflexivity.
Qed.
Lemma path_to_step bad size fuel b l out : path_to_loop bad 47 size (S fuel) (b :: l) out =
  let! (c, r) := next_char (fun _ => false) (fun _ => false) (b :: l) in let! out := put_char bad size out c in path_to_loop bad 47 size fuel r out.
Proof.
  unfold next_char. cbn [path_to_loop]. destruct (utf8_next (b :: l)) as [(c, r)| | |]; cbn [bind]; try reflexivity.
  destruct (if c =? 92 then _ else _) as [(d, r')| | |]; cbn [bind]; try reflexivity. destruct (path_next 47 []) as (_ & H). rewrite (H eq_refl d). reflexivity.
Qed.

(* The text of one character is followed by that of others; a separator stands for itself. *)
Inductive mount_text : list Z -> list Z -> Prop :=
| mt_nil : mount_text [] []
| mt_sep t s : mount_text t s -> mount_text (47 :: t) (47 :: s)
| mt_char c t s : scalar c -> c <> 0 -> mount_text t s -> mount_text (esc mount_x (fun c => c =? 92) c ++ t) (c :: s).
Lemma mount_text_next t s : mount_text t s -> t <> [] -> exists c t' s', s = c :: s' /\ mount_text t' s' /\ scalar c /\
  next_char (fun v => v =? 47) (fun v => v =? 47) t = Ok (c, t') /\ (length t' < length t)%nat /\ len (utf8_char c) <= len t - len t'.
Proof.
  intros H NE. destruct H as [|t s H|c t s H1 H2 H].
  - congruence.
  - exists 47, t, s. split; [reflexivity|]. split; [exact H|]. split; [unfold scalar; lia|]. split; [reflexivity|]. split; [cbn [length]; lia|].
    rewrite len_cons. change (len (utf8_char 47)) with 1. lia.
  - exists c, t, s. split; [reflexivity|]. split; [exact H|]. split; [exact H1|]. split; [|].
    + change mount_x with (fun c => is_control c || (fun v => v =? 47) c). apply next_char_esc; auto. intros E. cbn beta in E. lia.
    + pose proof (esc_len mount_x (fun c => c =? 92) c) as L. rewrite app_length. unfold len in *. rewrite app_length. split; [lia|].
      assert (X : Z.of_nat (length (utf8_char c)) <= Z.of_nat (length (esc mount_x (fun c => c =? 92) c))); [|lia].
      unfold esc. destruct (mount_x c) eqn:E1. { rewrite app_length, hex_length. pose proof (utf8_char_len c) as K. unfold len in K. cbn [length]. lia. }
      destruct (is_unprintable c). { rewrite app_length, hex_length. pose proof (utf8_char_len c) as K. unfold len in K. cbn [length]. lia. }
      destruct (c =? 92) eqn:E3; [|lia]. replace c with 92 by lia. cbn. lia.
Qed.

Lemma mount_to_loop_ok bad size : forall fuel t s out, mount_text t s -> (length t <= fuel)%nat -> len out + len t <= size ->
  mount_to_loop bad size fuel t out = Ok (out ++ utf8 s) /\ len (out ++ utf8 s) <= len out + len t.
Proof.
  induction fuel as [|fuel IH]; intros t s out H F B.
  - destruct t as [|b t]; [|cbn in F; lia]. assert (s = []) as ->. { inversion H as [| |c t s' H1 H2 H3 E]; [reflexivity|]. apply app_eq_nil in E. destruct E as (E & _). pose proof (esc_len mount_x (fun c => c =? 92) c) as L. rewrite E in L. unfold len in L. cbn in L. lia. }
    cbn [mount_to_loop utf8 map concat]. rewrite app_nil_r. split; [reflexivity|]. rewrite Z.add_comm. unfold len at 2. cbn. lia.
  - destruct t as [|b t].
    { assert (s = []) as ->. { inversion H as [| |c t s' H1 H2 H3 E]; [reflexivity|]. apply app_eq_nil in E. destruct E as (E & _). pose proof (esc_len mount_x (fun c => c =? 92) c) as L. rewrite E in L. unfold len in L. cbn in L. lia. }
      cbn [mount_to_loop utf8 map concat]. rewrite app_nil_r. split; [reflexivity|]. unfold len at 3. cbn. lia. }
    destruct (mount_text_next (b :: t) s H ltac:(discriminate)) as (c & t' & s' & E1 & E2 & E3 & E4 & E5 & E6).
    rewrite mount_to_step, E4. cbn [bind]. pose proof (len_nonneg t'). rewrite put_char_ok by (try exact E3; lia). cbn [bind]. rewrite E1, utf8_cons.
    destruct (IH t' s' (out ++ utf8_char c) E2 ltac:(cbn in *; lia)) as (I1 & I2); [rewrite len_app; lia|].
    rewrite I1, <- app_assoc. split; [reflexivity|]. rewrite <- app_assoc in I2. rewrite len_app in I2 at 1. rewrite len_app in *. rewrite !len_app in *. lia.
Qed.

Lemma mount_text_app t s t' s' : mount_text t s -> mount_text t' s' -> mount_text (t ++ t') (s ++ s').
Proof.
  intros H H'. induction H; [exact H'|constructor; assumption|]. rewrite <- app_assoc. cbn [app]. constructor; assumption.
Qed.
Lemma mount_text_name s : file_name s -> mount_text (escs mount_x (fun c => c =? 92) s) s.
Proof. induction 1 as [|c s (H1 & H2) H3 IH]; [constructor|]. unfold escs. cbn [map concat]. constructor; assumption. Qed.

Lemma mount_to_ok bad t s : mount_text (47 :: t) (47 :: s) -> len (47 :: t) < 2 ^ 63 - 1 -> mount_to bad (47 :: t) = Ok (utf8 (47 :: s)).
Proof.
  intros H L. unfold mount_to, ssize_max. pose proof (len_nonneg t). rewrite len_cons in *.
  replace (negb (1 + len t =? 0) && (1 + len t <=? 2 ^ 63 - 1 - 1)) with true by lia. cbn [check bind].
  replace (getb (47 :: t) 0) with (Ok 47) by (unfold getb; rewrite len_cons; replace ((0 <=? 0) && (0 <? 1 + len t)) with true by lia; reflexivity).
  cbn [bind]. change (47 =? 47) with true. cbn [check bind].
  destruct (mount_to_loop_ok bad (1 + len t + 1) (length (47 :: t)) (47 :: t) (47 :: s) [] H (le_n _)) as (E & B); [change (len []) with 0; rewrite len_cons; lia|].
  rewrite E. cbn [bind app] in *. change (len []) with 0 in B. rewrite len_cons in B. replace (_ <? _) with true by lia. reflexivity.
Qed.

(* ---- path_string.c ---- *)
Definition path_e (c : Z) : bool := c =? 92.
Lemma path_to_loop_ok bad size : forall s fuel out, file_name s -> (length (escs is_control path_e s) <= fuel)%nat ->
  len out + len (escs is_control path_e s) <= size ->
  path_to_loop bad 47 size fuel (escs is_control path_e s) out = Ok (out ++ utf8 s) /\ len (out ++ utf8 s) <= len out + len (escs is_control path_e s).
Proof.
  induction s as [|c s IH]; intros fuel out H F B.
  - unfold escs in *. cbn [map concat utf8] in *. rewrite app_nil_r. change (len []) with 0. split; [destruct fuel; reflexivity|lia].
  - pose proof (Forall_inv H) as (H1 & H2). pose proof (Forall_inv_tail H) as H3.
    assert (EE : escs is_control path_e (c :: s) = esc is_control path_e c ++ escs is_control path_e s) by reflexivity. rewrite EE in *. rewrite app_length in F. rewrite len_app in *.
    pose proof (esc_len is_control path_e c) as L. pose proof (len_nonneg (escs is_control path_e s)) as L2.
    assert (X : len (utf8_char c) <= len (esc is_control path_e c)).
    { pose proof (utf8_char_len c) as K. unfold esc. destruct (is_control c). { rewrite len_app, hex_len. unfold len at 2. cbn [length]. lia. }
      destruct (is_unprintable c). { rewrite len_app, hex_len. unfold len at 2. cbn [length]. lia. }
      unfold path_e. destruct (c =? 92) eqn:E3; [|lia]. replace c with 92 by lia. change (len (utf8_char 92)) with 1. change (len [92; 92]) with 2. lia. }
    assert (N : next_char (fun _ => false) (fun _ => false) (esc is_control path_e c ++ escs is_control path_e s) = Ok (c, escs is_control path_e s)).
    { replace (esc is_control path_e c) with (esc (fun c => is_control c || (fun _ => false) c) (fun c => c =? 92) c); [apply next_char_esc; auto; discriminate|].
      unfold esc, path_e. rewrite orb_false_r. reflexivity. }
    destruct (esc is_control path_e c ++ escs is_control path_e s) as [|b r] eqn:E. { apply app_eq_nil in E. destruct E as (E & _). rewrite E in L. unfold len in L. cbn in L. lia. }
    destruct fuel as [|fuel]; [unfold len in L; lia|]. rewrite path_to_step, N. cbn [bind]. rewrite put_char_ok by (try exact H1; lia). cbn [bind].
    destruct (IH fuel (out ++ utf8_char c) H3 ltac:(unfold len in *; lia)) as (I1 & I2); [rewrite len_app; lia|].
    rewrite I1, utf8_cons, <- app_assoc. split; [reflexivity|]. rewrite <- E. rewrite !len_app in *. lia.
Qed.
Lemma path_to_ok bad s : file_name s -> s <> [] -> fits (utf8 s) -> path_to bad 47 (escs is_control path_e s) = Ok (utf8 s).
Proof.
  intros H NE F. unfold path_to, ssize_max. pose proof (escs_len is_control path_e s) as L. unfold fits in F.
  assert (P : 1 <= len (escs is_control path_e s)). { destruct s as [|c s]; [congruence|]. unfold escs. cbn [map concat]. rewrite len_app. pose proof (esc_len is_control path_e c). pose proof (len_nonneg (concat (map (esc is_control path_e) s))). lia. }
  replace (negb (len (escs is_control path_e s) =? 0) && (len (escs is_control path_e s) <=? 2 ^ 63 - 1 - 1)) with true by lia. cbn [check bind].
  destruct (path_to_loop_ok bad (len (escs is_control path_e s) + 1) s (length (escs is_control path_e s)) [] H (le_n _)) as (E & B); [change (len []) with 0; lia|].
  rewrite E. cbn [bind app] in *. change (len []) with 0 in B. replace (_ <? _) with true by lia. reflexivity.
Qed.

(* ---- no access outside of the strings, for any input ---- *)
Lemma put_char_fine bad size out c : fine (put_char bad size out c).
Proof. unfold put_char. destruct (encode bad c); [|exact I]. apply fine_bind; [apply fine_check|]. intros; exact I. Qed.
Lemma next_short l c r : utf8_next l = Ok (c, r) -> (length r < length l)%nat.
Proof. intros E. exact (proj1 (utf8_decoder l c r E)). Qed.
Lemma escape_char_fine x e size out c : len out + 10 < size -> fine (escape_char x e size out c) /\ forall out', escape_char x e size out c = Ok out' -> len out' <= len out + 10.
Proof.
  intros B. unfold escape_char, put_text. destruct (x c).
  { rewrite len_app, hex_len. change (len [92; 120]) with 2. replace (_ <? _) with true by lia. split; [exact I|]. intros o E0. assert (o = out ++ ([92; 120] ++ hex 2 c)) as -> by congruence. rewrite !len_app, hex_len. change (len [92; 120]) with 2. lia. }
  destruct (is_unprintable c).
  { rewrite len_app, hex_len. change (len [92; 85]) with 2. replace (_ <? _) with true by lia. split; [exact I|]. intros o E0. assert (o = out ++ ([92; 85] ++ hex 8 c)) as -> by congruence. rewrite !len_app, hex_len. change (len [92; 85]) with 2. lia. }
  destruct (e c).
  { unfold put_two. replace (_ <=? _) with true by lia. split; [exact I|]. intros o [= <-]. rewrite len_app. change (len [92; c]) with 2. lia. }
  split; [apply put_char_fine|]. intros o. unfold put_char, encode. destruct (_ || _); [|discriminate]. destruct (_ <=? _); [|discriminate]. intros [= <-].
  rewrite len_app. pose proof (utf8_char_len c). lia.
Qed.
Lemma escape_loop_fine x e stop size : forall fuel l out, (length l <= fuel)%nat -> len out + 10 * len l < size ->
  fine (escape_loop x e stop size fuel l out) /\ forall out', escape_loop x e stop size fuel l out = Ok out' -> len out' <= len out + 10 * len l.
Proof.
  induction fuel as [|fuel IH]; intros l out F B.
  - destruct l; [|cbn in F; lia]. cbn [escape_loop]. split; [exact I|]. intros o [= <-]. change (len []) with 0. lia.
  - destruct l as [|b l]. { cbn [escape_loop]. split; [exact I|]. intros o [= <-]. change (len []) with 0. lia. }
    cbn [escape_loop]. destruct (utf8_next (b :: l)) as [(c, r)| | |] eqn:E; cbn [bind].
    + pose proof (next_short _ _ _ E) as NS. pose proof (len_nonneg r). assert (len r + 1 <= len (b :: l)) by (unfold len in *; lia).
      destruct (stop && (c =? 0)). { split; [exact I|]. intros o [= <-]. lia. }
      destruct (escape_char_fine x e size out c) as (F1 & F2); [lia|]. destruct (escape_char x e size out c) as [o| | |]; cbn [bind]; try contradiction; [|split; [exact I|discriminate]].
      specialize (F2 o eq_refl). destruct (IH r o) as (I1 & I2); [lia|lia|]. split; [exact I1|]. intros o' Eo. specialize (I2 o' Eo). lia.
    + split; [exact I|discriminate].
    + pose proof (proj2 utf8_fine (b :: l)) as X. rewrite E in X. destruct X.
    + pose proof (proj2 utf8_fine (b :: l)) as X. rewrite E in X. destruct X.
Qed.
Lemma escape_fine x e stop l : fine (escape x e stop l) /\ forall out, escape x e stop l = Ok out -> len out < len l * 10 + 1.
Proof.
  unfold escape. destruct (negb (len l =? 0) && (len l <=? ssize_max - 1)); cbn [check bind]; [|split; [exact I|discriminate]].
  destruct (len l <=? (ssize_max - 1) / 10); cbn [check bind]; [|split; [exact I|discriminate]].
  destruct (escape_loop_fine x e stop (len l * 10 + 1) (length l) l [] (le_n _)) as (F1 & F2); [change (len []) with 0; lia|]. split; [exact F1|].
  intros o E. specialize (F2 o E). change (len []) with 0 in F2. lia.
Qed.
Lemma unescape_fine x l : fine (unescape x l) /\ forall c r, unescape x l = Ok (c, r) -> (length r < length l)%nat.
Proof.
  assert (HV : forall l v, fine (hex_value l v)). { induction l0 as [|c l0 IH]; intros v; cbn [hex_value]; [exact I|]. cbv zeta. destruct (_ && _); [apply IH|]. destruct (_ && _); [apply IH|exact I]. }
  destruct l as [|c l]; [split; [exact I|discriminate]|]. unfold unescape. destruct (c =? 92). { split; [exact I|]. intros d r [= _ <-]. cbn. lia. }
  destruct (c =? 120).
  { split.
    - apply fine_bind; [apply fine_check|]. intros _ _. apply fine_bind; [apply HV|]. intros v _. apply fine_bind; [apply fine_check|]. intros; exact I.
    - intros d r E. destruct (check (2 <=? len l)); try discriminate. cbn [bind] in E. destruct (hex_value _ _) as [v| | |]; try discriminate. cbn [bind] in E.
      destruct (check (_ || _)); try discriminate. cbn [bind] in E. assert (r = skipn 2 l) as -> by congruence. rewrite skipn_length. cbn [length]. lia. }
  destruct (c =? 85); [|split; [exact I|discriminate]]. split.
  - apply fine_bind; [apply fine_check|]. intros _ _. apply fine_bind; [apply HV|]. intros v _. apply fine_bind; [apply fine_check|]. intros; exact I.
  - intros d r E. destruct (check (8 <=? len l)); try discriminate. cbn [bind] in E. destruct (hex_value _ _) as [v| | |]; try discriminate. cbn [bind] in E.
    destruct (check (is_unprintable v)); try discriminate. cbn [bind] in E. assert (r = skipn 8 l) as -> by congruence. rewrite skipn_length. cbn [length]. lia.
Qed.

Lemma fine_next l : fine (utf8_next l).
Proof. exact (proj2 utf8_fine l). Qed.
Lemma path_to_loop_fine bad sep size : forall fuel l out, (length l <= fuel)%nat -> fine (path_to_loop bad sep size fuel l out).
Proof.
  induction fuel as [|fuel IH]; intros l out F; (destruct l as [|b l]; [exact I|]); [cbn in F; lia|]. cbn [path_to_loop].
  pose proof (fine_next (b :: l)) as N. destruct (utf8_next (b :: l)) as [(c, r)| | |] eqn:E; cbn [bind]; try exact I; try contradiction.
  pose proof (next_short _ _ _ E) as NS. cbn [length] in *. destruct (unescape_fine (fun _ => false) r) as (U1 & U2).
  assert (X : fine (if c =? 92 then unescape (fun _ => false) r else Ok (c, r)) /\ forall c' r', (if c =? 92 then unescape (fun _ => false) r else Ok (c, r)) = Ok (c', r') -> (length r' <= length r)%nat).
  { destruct (c =? 92). - split; [exact U1|]. intros c' r' Er. specialize (U2 c' r' Er). lia. - split; [exact I|]. intros c' r' [= _ <-]. lia. }
  destruct X as (X1 & X2). destruct (if c =? 92 then _ else _) as [(d, r')| | |]; cbn [bind]; try exact I; try contradiction.
  specialize (X2 d r' eq_refl). cbv zeta. apply fine_bind; [apply put_char_fine|]. intros o _. apply IH. lia.
Qed.
Lemma mount_to_loop_fine bad size : forall fuel l out, (length l <= fuel)%nat -> fine (mount_to_loop bad size fuel l out).
Proof.
  induction fuel as [|fuel IH]; intros l out F; (destruct l as [|b l]; [exact I|]); [cbn in F; lia|]. cbn [mount_to_loop].
  pose proof (fine_next (b :: l)) as N. destruct (utf8_next (b :: l)) as [(c, r)| | |] eqn:E; cbn [bind]; try exact I; try contradiction.
  pose proof (next_short _ _ _ E) as NS. cbn [length] in *. destruct (unescape_fine (fun v => v =? 47) r) as (U1 & U2).
  assert (X : fine (if c =? 47 then Ok (47, r) else if c =? 92 then unescape (fun v => v =? 47) r else Ok (c, r)) /\
    forall c' r', (if c =? 47 then Ok (47, r) else if c =? 92 then unescape (fun v => v =? 47) r else Ok (c, r)) = Ok (c', r') -> (length r' <= length r)%nat).
  { destruct (c =? 47). { split; [exact I|]. intros c' r' [= _ <-]. lia. }
    destruct (c =? 92). - split; [exact U1|]. intros c' r' Er. specialize (U2 c' r' Er). lia. - split; [exact I|]. intros c' r' [= _ <-]. lia. }
  destruct X as (X1 & X2). destruct (if c =? 47 then _ else _) as [(d, r')| | |]; cbn [bind]; try exact I; try contradiction.
  specialize (X2 d r' eq_refl). apply fine_bind; [apply put_char_fine|]. intros o _. apply IH. lia.
Qed.
Lemma path_strings_fine bad sep l : fine (path_from l) /\ fine (bodyfile_from l) /\ fine (mount_from l) /\ fine (path_to bad sep l) /\ fine (mount_to bad l).
Proof.
  assert (EI : forall x e, fine (let! out := escape x e false l in ends_in (len l * 10 + 1) out)).
  { intros x e. destruct (escape_fine x e false l) as (F1 & F2). destruct (escape x e false l) as [o| | |]; try contradiction; [|exact I].
    cbn [bind]. unfold ends_in. specialize (F2 o eq_refl). replace (_ <? _) with true by lia. exact I. }
  split; [apply EI|]. split; [apply EI|]. split; [|split].
  - unfold mount_from. apply fine_bind; [apply escape_fine|]. intros o _. apply fine_bind; [apply fine_check|]. intros; exact I.
  - unfold path_to. apply fine_bind; [apply fine_check|]. intros _ _. apply fine_bind; [apply path_to_loop_fine; lia|]. intros o _. apply fine_bind; [apply fine_check|]. intros; exact I.
  - unfold mount_to. destruct (negb (len l =? 0) && _) eqn:C; cbn [check bind]; [|exact I]. pose proof (len_nonneg l).
    assert (G : fine (getb l 0)). { unfold getb. replace ((0 <=? 0) && (0 <? len l)) with true by lia. destruct l; [unfold len in C; cbn in C; discriminate|exact I]. }
    apply fine_bind; [exact G|]. intros c _. apply fine_bind; [apply fine_check|]. intros _ _. apply fine_bind; [apply mount_to_loop_fine; lia|]. intros o _. apply fine_bind; [apply fine_check|]. intros; exact I.
Qed.
