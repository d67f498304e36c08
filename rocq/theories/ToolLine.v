(* The lines of fsapfsinfo. *)
From Verif Require Import Base BaseLemmas NameSpec Name NameProofs PropName BTreeProofs Walk Omap TreeSpec OmapSpec OmapTop RecordsSpec Records FsTree FsSpec FsName FsNameSpec FsNameProofs Snapshot DataRead FileEntry FileSpec FileTop EntryName
  ToolPath ToolPathSpec ToolPathProofs ToolMountProofs ToolInfo ToolInfoSpec.
Ltac Zify.zify_post_hook ::= Z.div_mod_to_equations.

(* ---- numbers ---- *)
Lemma numeral_snoc b l c : numeral b (l ++ [c]) = b * numeral b l + (if c <=? 57 then c - 48 else c - 87).
Proof. unfold numeral. rewrite fold_left_app. reflexivity. Qed.
Lemma dec_loop_ok : forall n v acc, (0 < n)%nat -> 0 <= v < 10 ^ Z.of_nat n ->
  exists p, dec_loop n v acc = p ++ acc /\ decimal p v.
Proof.
  induction n as [|n IH]; intros v acc N H; [lia|]. cbn [dec_loop]. destruct (v <? 10) eqn:C.
  - exists [48 + v]. split; [reflexivity|]. split; [discriminate|]. split; [repeat constructor; unfold digit; lia|]. unfold numeral. cbn [fold_left]. replace (48 + v <=? 57) with true by lia. lia.
  - rewrite Nat2Z.inj_succ, Z.pow_succ_r in H by lia. destruct n as [|n]; [cbn in H; lia|].
    destruct (IH (v / 10) (48 + v mod 10 :: acc) ltac:(lia) ltac:(lia)) as (p & E & P1 & P2 & P3). exists (p ++ [48 + v mod 10]). rewrite E, <- app_assoc. split; [reflexivity|].
    split; [destruct p; discriminate|]. split; [apply Forall_app; split; [exact P2|repeat constructor; unfold digit; lia]|]. rewrite numeral_snoc, P3. replace (48 + v mod 10 <=? 57) with true by lia. lia.
Qed.
Lemma dec_ok v : 0 <= v < 2 ^ 64 -> decimal (dec v) v.
Proof. intros H. destruct (dec_loop_ok 20 v [] ltac:(lia) ltac:(change (10 ^ Z.of_nat 20) with 100000000000000000000; lia)) as (p & E & P). unfold dec. rewrite E, app_nil_r. exact P. Qed.
Lemma dec_loop_len : forall n v acc, len (dec_loop n v acc) <= len acc + Z.of_nat n.
Proof.
  induction n as [|n IH]; intros v acc; cbn [dec_loop]; [lia|]. destruct (v <? 10); [rewrite len_cons; lia|]. specialize (IH (v / 10) (48 + v mod 10 :: acc)). rewrite len_cons in IH. lia.
Qed.
Lemma dec_short : forall k n v acc, 0 <= v < 10 ^ Z.of_nat k -> (0 < k)%nat -> (k <= n)%nat -> len (dec_loop n v acc) <= len acc + Z.of_nat k.
Proof.
  induction k as [|k IH]; intros n v acc H K N; [lia|]. destruct n as [|n]; [lia|]. cbn [dec_loop]. rewrite Nat2Z.inj_succ in *.
  destruct (v <? 10) eqn:C; [rewrite len_cons; lia|]. rewrite Z.pow_succ_r in H by lia. destruct k as [|k]; [cbn in H; lia|].
  specialize (IH n (v / 10) (48 + v mod 10 :: acc) ltac:(lia) ltac:(lia) ltac:(lia)). rewrite len_cons in IH. lia.
Qed.
Lemma numeral_zeros k : forall l, numeral 10 (repeat 48 k ++ l) = numeral 10 l.
Proof. induction k as [|k IH]; intros l; [reflexivity|]. cbn [repeat app]. unfold numeral in *. cbn [fold_left]. exact (IH l). Qed.
Lemma dec_nine_ok v : 0 <= v < 1000000000 -> decimal (dec_nine v) v /\ len (dec_nine v) = 9.
Proof.
  intros H. unfold dec_nine, pad. replace (v <? 0) with false by lia. pose proof (dec_ok v ltac:(lia)) as (D1 & D2 & D3).
  assert (L : len (dec v) <= 9) by (pose proof (dec_short 9 20 v [] ltac:(change (10 ^ Z.of_nat 9) with 1000000000; lia) ltac:(lia) ltac:(lia)) as X; change (len []) with 0 in X; exact X).
  split; [split; [destruct (dec v); [congruence|destruct (repeat 48 (Z.to_nat (9 - len (z :: l)))); discriminate]|split]|].
  - apply Forall_app. split; [|exact D2]. apply Forall_forall. intros x X. apply repeat_spec in X. unfold digit. lia.
  - rewrite numeral_zeros. exact D3.
  - rewrite len_app. unfold len at 1. rewrite repeat_length. pose proof (len_nonneg (dec v)). lia.
Qed.
Lemma time_text_ok t : 0 <= t < 2 ^ 63 -> moment (time_text t) t.
Proof.
  intros H. unfold time_text, s64. replace (t <? 2 ^ 63) with true by lia. rewrite Z.quot_div_nonneg by lia.
  assert (D : 0 <= t / 1000000000 < 2 ^ 64) by lia. assert (M : 0 <= t - t / 1000000000 * 1000000000 < 1000000000) by lia.
  exists (dec_signed (t / 1000000000)), (dec_nine (t - t / 1000000000 * 1000000000)), (t / 1000000000), (t - t / 1000000000 * 1000000000).
  split; [reflexivity|]. unfold dec_signed. replace (t / 1000000000 <? 0) with false by lia. destruct (dec_nine_ok _ M) as (M1 & M2).
  split; [apply dec_ok, D|]. split; [exact M1|]. split; [exact M2|]. lia.
Qed.

(* ---- modes ---- *)
Lemma land_type m : 0 <= m < 65536 -> Z.land m 0xf000 = m / 4096 * 4096.
Proof.
  intros H. change 0xf000 with (Z.shiftl 15 12). apply Z.bits_inj'. intros k K. rewrite Z.land_spec. change 4096 with (2 ^ 12). rewrite <- Z.shiftl_mul_pow2, <- Z.shiftr_div_pow2 by lia.
  rewrite !Z.shiftl_spec by lia. destruct (k <? 12) eqn:C.
  - rewrite !(Z.testbit_neg_r _ (k - 12)) by lia. apply andb_false_r.
  - rewrite Z.shiftr_spec by lia. replace (k - 12 + 12) with k by lia. change 15 with (Z.ones 4). destruct (k - 12 <? 4) eqn:D.
    + rewrite Z.ones_spec_low by lia. apply andb_true_r.
    + rewrite Z.ones_spec_high by lia. rewrite andb_false_r. symmetry. destruct (Z.eq_dec m 0) as [->|]; [apply Z.bits_0|]. apply Z.bits_above_log2; [lia|]. apply Z.log2_lt_pow2; [lia|].
      pose proof (Z.pow_le_mono_r 2 16 k ltac:(lia) ltac:(lia)). change (2 ^ 16) with 65536 in *. lia.
Qed.
Lemma mode_text_ok m : 0 <= m < 65536 -> mode_means (mode_text m) m.
Proof.
  intros H. split; [reflexivity|]. split.
  - cbn [mode_text nth]. unfold mode_type. rewrite land_type by exact H. assert (K : 0 <= m / 4096 < 16) by lia. revert K. generalize (m / 4096). intros k K.
    assert (C : In k [0;1;2;3;4;5;6;7;8;9;10;11;12;13;14;15]) by (cbn; lia). cbn [In] in C. repeat (destruct C as [<-|C]; [reflexivity|]). destruct C.
  - intros k K. do 9 (destruct k as [|k]; [reflexivity|]). lia.
Qed.

(* ---- digests ---- *)
Lemma hex_digit_ok d : 0 <= d < 16 -> hexdigit (hex_digit d) /\ (if hex_digit d <=? 57 then hex_digit d - 48 else hex_digit d - 87) = d.
Proof. intros H. unfold hexdigit, hex_digit. destruct (d <=? 9) eqn:C; [replace (48 + d <=? 57) with true by lia|replace (87 + d <=? 57) with false by lia]; lia. Qed.
Lemma hex_numeral n : forall v, 0 <= v < 16 ^ Z.of_nat n -> Forall hexdigit (hex n v) /\ numeral 16 (hex n v) = v.
Proof.
  induction n as [|n IH]; intros v H; [split; [constructor|cbn in H; change (numeral 16 (hex 0 v)) with 0; lia]|].
  rewrite Nat2Z.inj_succ, Z.pow_succ_r in H by lia. cbn [hex]. destruct (IH (v / 16) ltac:(lia)) as (I1 & I2). destruct (hex_digit_ok (v mod 16) ltac:(lia)) as (D1 & D2).
  split; [apply Forall_app; split; [exact I1|constructor; [exact D1|constructor]]|]. rewrite numeral_snoc, I2, D2. lia.
Qed.
Lemma numeral_app b a : forall l, numeral b (l ++ a) = fold_left (fun a c => b * a + (if c <=? 57 then c - 48 else c - 87)) a (numeral b l).
Proof. intros l. unfold numeral. apply fold_left_app. Qed.
Lemma digest_ok d : bytes d -> hex_bytes (concat (map (fun b => [hex_digit (b / 16); hex_digit (b mod 16)]) d)) d.
Proof.
  intros H. assert (X : forall l, bytes l -> forall a, fold_left (fun a c => 16 * a + (if c <=? 57 then c - 48 else c - 87)) (concat (map (fun b => [hex_digit (b / 16); hex_digit (b mod 16)]) l)) a =
    be_val_acc a l).
  { induction 1 as [|b l B F IH]; intros a; [reflexivity|]. unfold is_byte in B. cbn [map concat app fold_left be_val_acc]. rewrite IH. f_equal.
    destruct (hex_digit_ok (b / 16) ltac:(lia)) as (_ & ->). destruct (hex_digit_ok (b mod 16) ltac:(lia)) as (_ & ->). lia. }
  split; [|split].
  - induction H as [|b l B F IH]; [constructor|]. unfold is_byte in B. cbn [map concat app].
    constructor; [apply hex_digit_ok; lia|]. constructor; [apply hex_digit_ok; lia|exact IH].
  - clear. induction d as [|b l IH]; [reflexivity|]. cbn [map concat app]. rewrite !len_cons, IH. lia.
  - unfold numeral. rewrite X by exact H. reflexivity.
Qed.

(* ---- fields ---- *)
Definition unit_text (u : list Z) : Prop := forall r f fs, fields false r = f :: fs -> fields false (u ++ r) = (u ++ f) :: fs.
Lemma unit_nil : unit_text [].
Proof. intros r f fs E. exact E. Qed.
Lemma unit_app u v : unit_text u -> unit_text v -> unit_text (u ++ v).
Proof. intros U V r f fs E. rewrite <- !app_assoc. apply U, V, E. Qed.
Lemma unit_char c : c <> 124 -> c <> 92 -> unit_text [c].
Proof.
  intros N M r f fs E. cbn [app fields negb andb]. replace (c =? 124) with false by lia. replace (c =? 92) with false by lia. rewrite E. reflexivity.
Qed.
Lemma unit_quoted c : unit_text [92; c].
Proof. intros r f fs E. cbn [app fields negb andb Z.eqb Pos.eqb]. rewrite E. reflexivity. Qed.
Lemma unit_plain l : Forall (fun c => c <> 124 /\ c <> 92) l -> unit_text l.
Proof. induction 1 as [|c l (H1 & H2) H3 IH]; [exact unit_nil|]. apply (unit_app [c] l); [apply unit_char; assumption|exact IH]. Qed.
Lemma unit_concat ls : Forall unit_text ls -> unit_text (concat ls).
Proof. induction 1 as [|u l H1 H2 IH]; [exact unit_nil|]. apply unit_app; assumption. Qed.
Lemma field_next u r : unit_text u -> fields false (u ++ [124] ++ r) = u :: fields false r.
Proof. intros U. rewrite (U ([124] ++ r) [] (fields false r) eq_refl), app_nil_r. reflexivity. Qed.
Lemma field_last u : unit_text u -> fields false u = [u].
Proof. intros U. pose proof (U [] [] [] eq_refl) as E. rewrite !app_nil_r in E. exact E. Qed.
Lemma digits_unit l : Forall digit l -> unit_text l.
Proof. intros H. apply unit_plain. eapply Forall_impl; [|exact H]. unfold digit. intros; lia. Qed.
Lemma decimal_unit l v : decimal l v -> unit_text l.
Proof. intros (_ & H & _). apply digits_unit, H. Qed.
Lemma moment_unit l v : moment l v -> unit_text l.
Proof.
  intros (a & b & s & n & -> & A & B & _). apply unit_app; [eapply decimal_unit; exact A|]. change (46 :: b) with ([46] ++ b). apply unit_app; [apply unit_char; lia|eapply decimal_unit; exact B].
Qed.
Lemma hex_unit l : Forall hexdigit l -> unit_text l.
Proof. intros H. apply unit_plain. eapply Forall_impl; [|exact H]. unfold hexdigit. intros; lia. Qed.
Lemma mode_unit m : unit_text (mode_text m).
Proof.
  apply unit_plain. unfold mode_text. assert (X : forall k c, c <> 124 -> c <> 92 -> mode_char m k c <> 124 /\ mode_char m k c <> 92) by (intros k c C1 C2; unfold mode_char; destruct (Z.testbit m k); lia).
  repeat (apply Forall_cons; [first [apply X; lia|unfold mode_type; repeat match goal with |- context [if ?b then _ else _] => destruct b end; lia]|]). constructor.
Qed.
Lemma utf8_high c b : In b (utf8_char c) -> 0 <= c -> b = c \/ 128 <= b.
Proof.
  unfold utf8_char. intros H C. repeat match type of H with context [if ?b then _ else _] => destruct b eqn:? end; cbn [In] in H; lia.
Qed.
Definition bar_e (c : Z) : bool := (c =? 92) || (c =? 124).
Lemma esc_unit c : scalar c -> unit_text (esc is_control bar_e c).
Proof.
  intros S. assert (C0 : 0 <= c) by (unfold scalar in S; lia). unfold esc.
  assert (H : forall n, unit_text (hex n c)) by (intros n; apply hex_unit, hex_shown, C0).
  destruct (is_control c); [change ([92; 120] ++ hex 2 c) with ([92; 120] ++ hex 2 c); apply unit_app; [apply unit_quoted|apply H]|].
  destruct (is_unprintable c); [apply unit_app; [apply unit_quoted|apply H]|].
  destruct (bar_e c) eqn:E; [apply unit_quoted|]. apply unit_plain. apply Forall_forall. intros b B. apply utf8_high in B; [|exact C0]. unfold bar_e in E. lia.
Qed.
Lemma escs_unit s : Forall scalar s -> unit_text (escs is_control bar_e s).
Proof. intros S. apply unit_concat. apply Forall_map. eapply Forall_impl; [|exact S]. exact esc_unit. Qed.

(* ---- texts spell their characters ---- *)
Lemma spelled_app q t s t' s' : spelled q t s -> spelled q t' s' -> spelled q (t ++ t') (s ++ s').
Proof. intros H H'. induction H; cbn [app]; rewrite <- ?app_assoc; try (constructor; assumption); exact H'. Qed.
Lemma esc_spelled q e c : scalar c -> (forall c, e c = true <-> In c q) -> spelled q (esc_text is_control e c) [c].
Proof.
  intros S Q. assert (C0 : 0 <= c) by (unfold scalar in S; lia). unfold esc_text. destruct (is_control c) eqn:IC.
  { assert (C : 0 <= c < 16 ^ Z.of_nat 2) by (change (16 ^ Z.of_nat 2) with 256; unfold is_control in IC; lia). destruct (hex_numeral 2 c C) as (H1 & H2).
    pose proof (sp_x q (hex 2 c) [] [] (hex_len 2 c) H1 (sp_nil q)) as X. rewrite app_nil_r, H2 in X. exact X. }
  destruct (is_unprintable c) eqn:UC.
  { assert (C : 0 <= c < 16 ^ Z.of_nat 8) by (change (16 ^ Z.of_nat 8) with 4294967296; unfold scalar in S; lia). destruct (hex_numeral 8 c C) as (H1 & H2).
    pose proof (sp_u q (hex 8 c) [] [] (hex_len 8 c) H1 (sp_nil q)) as X. rewrite app_nil_r, H2 in X. exact X. }
  destruct (e c) eqn:E; [apply sp_quote; [apply Q, E|constructor]|]. apply sp_plain; [|intros X; apply Q in X; congruence|constructor].
  unfold is_control in IC. unfold is_unprintable in UC. unfold shown. lia.
Qed.
Lemma escs_spelled q e s : Forall scalar s -> (forall c, e c = true <-> In c q) -> (forall c, In c q -> c < 128) -> exists txt, escs is_control e s = utf8 txt /\ spelled q txt s.
Proof.
  intros S Q B. exists (concat (map (esc_text is_control e) s)). split; [apply escs_text; [exact S|intros c E; apply B, Q, E]|].
  induction S as [|c s H1 H2 IH]; [constructor|]. cbn [map concat]. apply (spelled_app q _ [c] _ s); [apply esc_spelled; assumption|exact IH].
Qed.
(* A text spells one list of characters *)
Lemma firstn_of {A} (a a' b b' : list A) : length a = length a' -> a ++ b = a' ++ b' -> a = a' /\ b = b'.
Proof. revert a'. induction a as [|x a IH]; intros [|y a'] L E; try discriminate; [auto|]. cbn in *. injection E as -> E. destruct (IH a' ltac:(lia) E). subst. auto. Qed.
Lemma spelled_inj q : In 92 q -> ~ In 120 q -> ~ In 85 q -> forall t s, spelled q t s -> forall s', spelled q t s' -> s = s'.
Proof.
  intros Q X U t s H. induction H as [|c t s C1 C2 H IH|c t s C1 H IH|l t s L1 L2 H IH|l t s L1 L2 H IH]; intros s' H'.
  - inversion H'. reflexivity.
  - inversion H'; subst; try contradiction; f_equal; auto.
  - inversion H'; subst; try contradiction. f_equal. auto.
  - inversion H' as [|? ? ? A1 A2 A3| |l' t' s2 A1 A2 A3 E|]; subst; try contradiction. match goal with E : _ ++ _ = _ ++ _ |- _ => apply firstn_of in E; [destruct E; subst|unfold len in *; lia] end. f_equal. auto.
  - inversion H' as [|? ? ? A1 A2 A3| | |l' t' s2 A1 A2 A3 E]; subst; try contradiction. match goal with E : _ ++ _ = _ ++ _ |- _ => apply firstn_of in E; [destruct E; subst|unfold len in *; lia] end. f_equal. auto.
Qed.

(* ---- calls on a file do not change the list of the directory ---- *)
Definition keeps {A} (m : M fstate A) : Prop := forall st, f_dir (snd (m st)) = f_dir st.
Lemma keeps_ret {A} (r : res A) : keeps (retM r).
Proof. intros st. reflexivity. Qed.
Lemma keeps_bind {A B} (m : M fstate A) (k : A -> M fstate B) : keeps m -> (forall a, keeps (k a)) -> keeps (bindM m k).
Proof.
  intros H K st. unfold bindM. pose proof (H st) as E. destruct (m st) as (r, st'). cbn [snd] in E. destruct r; cbn [snd]; try exact E. rewrite <- E. apply K.
Qed.
Lemma keeps_on {A B} (r : res A) (k : A -> M fstate B) : (forall a, keeps (k a)) -> keeps (onM r k).
Proof. intros K. apply keeps_bind; [apply keeps_ret|exact K]. Qed.
Lemma keeps_attrs e : keeps (get_attrs e).
Proof. intros st. unfold get_attrs. destruct (f_attrs st); [reflexivity|]. apply keeps_on. intros a st'. reflexivity. Qed.
Lemma keeps_data_size e : keeps (get_data_size e).
Proof.
  intros st. unfold get_data_size. destruct (f_header st); [reflexivity|]. apply keeps_bind; [apply keeps_attrs|]. intros a. destruct (fa_comp a); [|intros st'; reflexivity].
  apply keeps_on. intros [(m, z)|] st'; reflexivity.
Qed.
Lemma keeps_need_size e : keeps (need_size e).
Proof. intros st. unfold need_size. destruct (f_size st =? unset); [|reflexivity]. apply keeps_bind; [apply keeps_data_size|]. intros a st'. reflexivity. Qed.
Lemma keeps_extents e : keeps (get_extents e).
Proof. intros st. unfold get_extents. destruct (f_extents st); [reflexivity|]. apply keeps_on. intros a st'. reflexivity. Qed.
Lemma keeps_data_stream e : keeps (get_data_stream e).
Proof.
  unfold get_data_stream. apply keeps_bind; [apply keeps_need_size|]. intros size st. destruct (f_header st) as [(m, z)|].
  - apply keeps_on. intros b st'. reflexivity.
  - apply keeps_bind; [apply keeps_extents|]. intros l. apply keeps_on. intros b st'. reflexivity.
Qed.
Lemma keeps_need_stream e : keeps (need_stream e).
Proof. intros st. unfold need_stream. destruct (f_body st); [reflexivity|]. apply keeps_bind; [apply keeps_data_stream|]. intros a st'. reflexivity. Qed.
Lemma keeps_link e : keeps (entry_link e).
Proof.
  intros st. unfold entry_link. destruct (f_link st); [reflexivity|]. apply keeps_bind; [apply keeps_attrs|]. intros a. destruct (fa_link a); [|apply keeps_ret]. apply keeps_on. intros b st'. reflexivity.
Qed.
Lemma keeps_answer {A} (f : A -> fanswer) (m : M fstate A) st a st' : keeps m -> answer_of f m st = Ok (a, st') -> f_dir st' = f_dir st.
Proof.
  intros K. unfold answer_of. pose proof (K st) as E. destruct (m st) as (r, st1). cbn [snd] in E. destruct r; try discriminate; intros X; injection X as _ <-; exact E.
Qed.
Lemma keeps_call lzvn junk e c st a st' : entry_call lzvn junk e c st = Ok (a, st') -> f_dir st' = f_dir st.
Proof.
  assert (R : forall off n, keeps (entry_read lzvn junk e off n)).
  { intros off n. apply keeps_bind; [apply keeps_need_stream|]. intros b s. cbn zeta. destruct (_ <? 0); [reflexivity|]. destruct (body_read lzvn junk b _ n) as (r, b'). destruct r; reflexivity. }
  destruct c; cbn [entry_call]; apply keeps_answer; try apply R.
  - apply keeps_need_size.
  - apply keeps_bind; [apply keeps_need_stream|]. intros b s. cbn zeta. match goal with |- context [match ?x with Some _ => _ | None => _ end] => destruct x end; [|reflexivity]. destruct (_ <? 0); reflexivity.
  - apply keeps_bind; [apply keeps_need_stream|]. intros b s. reflexivity.
  - apply keeps_bind; [apply keeps_extents|]. intros l. apply keeps_ret.
  - apply keeps_bind; [apply keeps_extents|]. intros l. apply keeps_ret.
  - apply keeps_bind; [apply keeps_attrs|]. intros l. apply keeps_ret.
  - apply keeps_link.
Qed.

(* ---- a line of a bodyfile ---- *)
Definition path_text (id : Z) (pre s : list Z) : list Z := pre ++ if id =? 2 then [] else s.
Lemma fields_chars c : forall l q, In c l -> c = 124 \/ exists u, In u (fields q l) /\ In c u.
Proof.
  induction l as [|x l IH]; intros q H; [destruct H|]. cbn [fields]. destruct (negb q && (x =? 124)) eqn:E.
  - destruct H as [->|H]; [left; lia|]. destruct (IH false H) as [C|(u & U1 & U2)]; [left; exact C|]. right. exists u. split; [right; exact U1|exact U2].
  - destruct (fields (negb q && (x =? 92)) l) as [|u us] eqn:F.
    + exfalso. clear - F. revert F. generalize (negb q && (x =? 92)). induction l as [|y l IH]; intros b F; [discriminate|]. cbn [fields] in F. destruct (negb b && (y =? 124)); [discriminate|].
      destruct (fields (negb b && (y =? 92)) l) eqn:G; [exact (IH _ G)|discriminate].
    + destruct H as [->|H]; [right; exists (c :: u); split; left; reflexivity|]. destruct (IH (negb q && (x =? 92)) H) as [C|(w & U1 & U2)]; [left; exact C|]. right. rewrite F in U1.
      destruct U1 as [->|U1]; [exists (x :: w); split; [left; reflexivity|right; exact U2]|]. exists w. split; [right; exact U1|exact U2].
Qed.
Lemma one_line l : ~ In 10 l -> lines l = [l].
Proof.
  induction l as [|c l IH]; intros N; [reflexivity|]. cbn [lines]. rewrite IH by (intros C; apply N; right; exact C). replace (c =? 10) with false; [reflexivity|].
  assert (c <> 10) by (intros ->; apply N; left; reflexivity). lia.
Qed.
Lemma spelled_shown q t s : (forall c, In c q -> 0 <= c /\ c <> 10) -> spelled q t s -> Forall scalar s -> Forall (fun c => 0 <= c /\ c <> 10) t.
Proof.
  intros Q H. induction H as [|c t s C1 C2 H IH|c t s C1 H IH|l t s L1 L2 H IH|l t s L1 L2 H IH]; intros S; [constructor| | | |].
  - constructor; [|exact (IH (Forall_inv_tail S))]. pose proof (Forall_inv S) as X. unfold scalar in X. unfold shown in C1. lia.
  - constructor; [lia|]. constructor; [apply Q, C1|exact (IH (Forall_inv_tail S))].
  - constructor; [lia|]. constructor; [lia|]. apply Forall_app. split; [|exact (IH (Forall_inv_tail S))]. eapply Forall_impl; [|exact L2]. unfold hexdigit. intros; lia.
  - constructor; [lia|]. constructor; [lia|]. apply Forall_app. split; [|exact (IH (Forall_inv_tail S))]. eapply Forall_impl; [|exact L2]. unfold hexdigit. intros; lia.
Qed.
Lemma mode_line m : ~ In 10 (mode_text m).
Proof.
  intros H. assert (F : Forall (fun c => c <> 10) (mode_text m)); [|rewrite Forall_forall in F; exact (F _ H eq_refl)]. unfold mode_text.
  assert (X : forall k c, c <> 10 -> mode_char m k c <> 10) by (intros k c N; unfold mode_char; destruct (Z.testbit m k); lia).
  repeat (apply Forall_cons; [first [apply X; lia|unfold mode_type; repeat match goal with |- context [if ?b then _ else _] => destruct b end; lia]|]). constructor.
Qed.
Definition quote_bar : list Z := [92; 124].
Definition quote_path : list Z := [92].

Section Line.
  Variables (lzvn : list Z -> Z -> res (list Z)) (junk : list Z -> list Z -> list Z) (md5 : list Z -> list Z) (e : fentry) (A : fattrs) (f : file) (I : fstate -> Z -> Prop).
  Hypothesis HF : follows lzvn junk e A f I.
  Lemma call_ok c st pos : I st pos -> exists st', entry_call lzvn junk e c st = Ok (fst (file_step f pos c), st') /\ I st' (snd (file_step f pos c)) /\ f_dir st' = f_dir st.
  Proof. intros H. destruct (proj1 (proj2 HF) c st pos H) as (st' & E & H'). exists st'. split; [exact E|]. split; [exact H'|]. eapply keeps_call. exact E. Qed.
  Lemma md5_loop_ok : forall fuel size data st, I st (len data) -> len data + size = len (fl_data f) -> data = firstn (length data) (fl_data f) -> 0 <= size -> (size + 4095) / 4096 < Z.of_nat fuel ->
    exists st', md5_loop lzvn junk e fuel size data st = Ok (fl_data f, st') /\ f_dir st' = f_dir st /\ exists pos, I st' pos.
  Proof.
    induction fuel as [|fuel IH]; intros size data st HI L P S F; [lia|]. cbn [md5_loop]. destruct (size <=? 0) eqn:C.
    - exists st. split; [|eauto]. do 2 f_equal. rewrite P. apply firstn_all2. unfold len in *. lia.
    - destruct (call_ok (CRead (Z.min 4096 size)) st (len data) HI) as (st1 & E1 & I1 & D1). rewrite E1. cbn [bind]. cbn [file_step] in *.
      pose proof (len_nonneg data). replace ((0 <=? len data) && (0 <=? Z.min 4096 size) && (Z.min 4096 size <=? 2 ^ 63 - 1)) with true in * by lia. cbn [fst snd] in *.
      replace (Z.min (Z.min 4096 size) (len (fl_data f) - len data)) with (Z.min 4096 size) in * by lia.
      set (d := slice (fl_data f) (len data) (Z.min 4096 size)) in *.
      assert (LD : len d = Z.min 4096 size) by (unfold d; apply len_slice; lia). rewrite LD, Z.eqb_refl. cbn [check bind].
      assert (PD : data ++ d = firstn (length (data ++ d)) (fl_data f)).
      { rewrite app_length. unfold d, slice. unfold len at 1. rewrite Nat2Z.id. rewrite firstn_length, skipn_length, Nat.min_l by (unfold len in *; lia).
        rewrite P at 1. rewrite <- (firstn_skipn (length data) (fl_data f)) at 3. rewrite firstn_app, firstn_length, Nat.min_l by (unfold len in *; lia).
        rewrite (firstn_all2 (n := length data + Z.to_nat (Z.min 4096 size))) by (rewrite firstn_length; lia). f_equal. f_equal. lia. }
      destruct (IH (size - Z.min 4096 size) (data ++ d) st1) as (st2 & E2 & D2 & J2); try assumption; try (rewrite ?len_app; lia).
      + rewrite len_app. exact I1.
      + exists st2. split; [exact E2|]. split; [congruence|exact J2].
  Qed.
  Lemma md5_text_ok st pos : I st pos -> bytes (md5 (fl_data f)) -> len (md5 (fl_data f)) = 16 ->
    exists t st', md5_text lzvn junk md5 e st = Ok (t, st') /\ hex_bytes t (md5 (fl_data f)) /\ f_dir st' = f_dir st /\ exists pos, I st' pos.
  Proof.
    intros H B L. unfold md5_text. destruct (call_ok CSize st pos H) as (st1 & E1 & I1 & D1). rewrite E1. cbn [bind file_step fst snd] in *.
    destruct (call_ok (CSeek 0 0) st1 pos I1) as (st2 & E2 & I2 & D2). rewrite E2. cbn [bind file_step fst snd Z.eqb Z.ltb Z.add Z.compare] in *.
    pose proof (len_nonneg (fl_data f)). destruct (md5_loop_ok (S (Z.to_nat ((len (fl_data f) + 4095) / 4096))) (len (fl_data f)) [] st2) as (st3 & E3 & D3 & J3).
    - exact I2.
    - change (len []) with 0. lia.
    - reflexivity.
    - lia.
    - rewrite Nat2Z.inj_succ, Z2Nat.id by lia. lia.
    - rewrite E3. cbn [bind]. unfold digest_text. rewrite L. cbn [Z.mul Z.add Z.leb Pos.mul Pos.add Z.compare Pos.compare Pos.compare_cont check bind].
      eexists _, st3. split; [reflexivity|]. split; [apply digest_ok, B|]. split; [congruence|exact J3].
  Qed.

  Lemma body_line_ok calc pre s st pos : I st pos -> bytes (md5 (fl_data f)) -> len (md5 (fl_data f)) = 16 -> fl_link f = None ->
    0 <= fe_id e < 2 ^ 60 -> 0 <= in_mode (fe_inode e) < 65536 -> 0 <= in_owner (fe_inode e) < 2 ^ 32 -> 0 <= in_group (fe_inode e) < 2 ^ 32 -> len (fl_data f) < 2 ^ 64 ->
    Forall (fun t => 0 <= t < 2 ^ 63) [in_access (fe_inode e); in_mtime (fe_inode e); in_changed (fe_inode e); in_created (fe_inode e)] ->
    Forall scalar pre -> pre <> [] -> fits (utf8 pre) -> (fe_id e <> 2 -> Forall scalar s /\ s <> [] /\ fits (utf8 s)) ->
    exists line st' d p, body_line lzvn junk md5 calc e (utf8 pre) (utf8 s) st = Ok (line, st') /\ f_dir st' = f_dir st /\ (exists pos, I st' pos) /\
      fields false line = [d; utf8 p; dec (fe_id e); mode_text (in_mode (fe_inode e)); dec (in_owner (fe_inode e)); dec (in_group (fe_inode e)); dec (len (fl_data f));
        time_text (in_access (fe_inode e)); time_text (in_mtime (fe_inode e)); time_text (in_changed (fe_inode e)); time_text (in_created (fe_inode e))] /\
      digest_says md5 calc (in_mode (fe_inode e)) (fl_data f) d /\ spelled quote_bar p (path_text (fe_id e) pre s) /\ Forall scalar (path_text (fe_id e) pre s).
  Proof.
    intros HI B L K Hid Hm Ho Hg Hz Ht P1 P2 P3 S0. unfold body_line.
    destruct (call_ok CLink st pos HI) as (st1 & E1 & I1 & D1). rewrite E1. cbn [bind file_step fst snd] in *. rewrite K. cbn [bind].
    destruct (call_ok CSize st1 pos I1) as (st2 & E2 & I2 & D2). rewrite E2. cbn [bind file_step fst snd] in *.
    assert (X : exists d st3, (if negb calc then Ok ([48], st2) else if Z.land (in_mode (fe_inode e)) 61440 =? 32768 then md5_text lzvn junk md5 e st2 else Ok (repeat 48 32, st2)) = Ok (d, st3) /\
      digest_says md5 calc (in_mode (fe_inode e)) (fl_data f) d /\ unit_text d /\ f_dir st3 = f_dir st2 /\ exists pos, I st3 pos).
    { unfold digest_says. destruct calc; cbn [negb]; [|exists [48], st2; repeat split; eauto; apply unit_char; lia]. rewrite land_type by exact Hm.
      replace (in_mode (fe_inode e) / 4096 * 4096 =? 32768) with (in_mode (fe_inode e) / 4096 =? 8) by lia. destruct (_ =? 8).
      - destruct (md5_text_ok st2 pos I2 B L) as (t & st3 & E3 & H3 & D3 & J3). exists t, st3. split; [exact E3|]. split; [exact H3|]. split; [apply hex_unit, H3|]. split; assumption.
      - exists (repeat 48 32), st2. repeat split; eauto. apply unit_plain. apply Forall_forall. intros c C. apply repeat_spec in C. lia. }
    destruct X as (d & st3 & E3 & DM & DU & D3 & J3). rewrite E3. cbn [bind].
    pose proof (bodyfile_from_ok pre P1 P2 P3) as BP. change (fun c => (c =? 92) || (c =? 124)) with bar_e in BP. rewrite BP. cbn [bind].
    assert (QB : forall c, bar_e c = true <-> In c quote_bar) by (intros c; unfold bar_e, quote_bar; cbn [In]; lia).
    assert (QL : forall c, In c quote_bar -> c < 128) by (intros c; unfold quote_bar; cbn [In]; lia).
    assert (N : exists n, (if fe_id e =? 2 then Ok [] else bodyfile_from (utf8 s)) = Ok n /\ n = escs is_control bar_e (if fe_id e =? 2 then [] else s)).
    { destruct (fe_id e =? 2) eqn:C; [eexists; split; reflexivity|]. destruct (S0 ltac:(lia)) as (S1 & S2 & S3). eexists. split; [apply (bodyfile_from_ok s S1 S2 S3)|reflexivity]. }
    destruct N as (n & -> & ->). cbn [bind]. assert (ST : Forall scalar (path_text (fe_id e) pre s)) by (apply Forall_app; split; [exact P1|destruct (fe_id e =? 2) eqn:C; [constructor|apply S0; lia]]).
    destruct (escs_spelled quote_bar bar_e (path_text (fe_id e) pre s) ST QB QL) as (p & EP & SP).
    eexists _, st3, d, p. split; [reflexivity|]. split; [congruence|]. split; [exact J3|]. split; [|split; [|split]; assumption].
    cbn [app]. set (N := if fe_id e =? 2 then [] else s) in *.
    assert (EQ : escs is_control bar_e pre ++ escs is_control bar_e N = utf8 p) by (rewrite <- EP; unfold path_text, escs; fold N; rewrite map_app, concat_app; reflexivity).
    assert (UP : unit_text (utf8 p)) by (rewrite <- EP; apply escs_unit, ST).
    pose proof (len_nonneg (fl_data f)). pose proof (Forall_inv Ht) as T1. apply Forall_inv_tail in Ht. pose proof (Forall_inv Ht) as T2. apply Forall_inv_tail in Ht. pose proof (Forall_inv Ht) as T3. apply Forall_inv_tail in Ht. pose proof (Forall_inv Ht) as T4. cbn beta in T1, T2, T3, T4.
    assert (U1 : unit_text (dec (fe_id e))) by (eapply decimal_unit, dec_ok; lia). assert (U2 : unit_text (dec (in_owner (fe_inode e)))) by (eapply decimal_unit, dec_ok; lia).
    assert (U3 : unit_text (dec (in_group (fe_inode e)))) by (eapply decimal_unit, dec_ok; lia). assert (U4 : unit_text (dec (len (fl_data f)))) by (eapply decimal_unit, dec_ok; lia).
    assert (FN : forall u r, unit_text u -> fields false (u ++ 124 :: r) = u :: fields false r) by (intros u r U; apply (field_next u r U)).
    rewrite FN by exact DU. f_equal. rewrite app_assoc, EQ. rewrite FN by exact UP. f_equal. rewrite FN by exact U1. f_equal. rewrite FN by apply mode_unit. f_equal.
    rewrite FN by exact U2. f_equal. rewrite FN by exact U3. f_equal. rewrite FN by exact U4. f_equal.
    rewrite FN by (eapply moment_unit, time_text_ok, T1). f_equal. rewrite FN by (eapply moment_unit, time_text_ok, T2). f_equal. rewrite FN by (eapply moment_unit, time_text_ok, T3). f_equal.
    apply field_last. eapply moment_unit, time_text_ok, T4.
  Qed.
  Lemma body_line_says calc pre s st pos : I st pos -> bytes (md5 (fl_data f)) -> len (md5 (fl_data f)) = 16 -> fl_link f = None ->
    0 <= fe_id e < 2 ^ 60 -> 0 <= in_mode (fe_inode e) < 65536 -> 0 <= in_owner (fe_inode e) < 2 ^ 32 -> 0 <= in_group (fe_inode e) < 2 ^ 32 -> len (fl_data f) < 2 ^ 64 ->
    Forall (fun t => 0 <= t < 2 ^ 63) [in_access (fe_inode e); in_mtime (fe_inode e); in_changed (fe_inode e); in_created (fe_inode e)] ->
    Forall scalar pre -> pre <> [] -> fits (utf8 pre) -> (fe_id e <> 2 -> Forall scalar s /\ s <> [] /\ fits (utf8 s)) ->
    exists line st', body_line lzvn junk md5 calc e (utf8 pre) (utf8 s) st = Ok (line, st') /\ f_dir st' = f_dir st /\
      body_says md5 calc (path_text (fe_id e) pre s) (fe_id e) (fe_inode e) (fl_data f) line.
  Proof.
    intros HI B L K Hid Hm Ho Hg Hz Ht P1 P2 P3 S0. destruct (body_line_ok calc pre s st pos HI B L K Hid Hm Ho Hg Hz Ht P1 P2 P3 S0) as (line & st' & d & p & E & D & _ & F & DS & SP & SC).
    pose proof (len_nonneg (fl_data f)). pose proof (Forall_inv Ht) as T1. apply Forall_inv_tail in Ht. pose proof (Forall_inv Ht) as T2. apply Forall_inv_tail in Ht. pose proof (Forall_inv Ht) as T3. apply Forall_inv_tail in Ht. pose proof (Forall_inv Ht) as T4. cbn beta in T1, T2, T3, T4.
    assert (D1 : decimal (dec (fe_id e)) (fe_id e)) by (apply dec_ok; lia). assert (D2 : decimal (dec (in_owner (fe_inode e))) (in_owner (fe_inode e))) by (apply dec_ok; lia).
    assert (D3 : decimal (dec (in_group (fe_inode e))) (in_group (fe_inode e))) by (apply dec_ok; lia). assert (D4 : decimal (dec (len (fl_data f))) (len (fl_data f))) by (apply dec_ok; lia).
    pose proof (time_text_ok _ T1) as M1. pose proof (time_text_ok _ T2) as M2. pose proof (time_text_ok _ T3) as M3. pose proof (time_text_ok _ T4) as M4.
    exists line, st'. split; [exact E|]. split; [exact D|]. split.
    - apply one_line. intros C. destruct (fields_chars 10 line false C) as [X|(u & U1 & U2)]; [discriminate|]. rewrite F in U1.
      assert (DD : forall l v, decimal l v -> ~ In 10 l) by (intros l v (_ & Q & _) X; rewrite Forall_forall in Q; specialize (Q _ X); unfold digit in Q; lia).
      assert (DM : forall l v, moment l v -> ~ In 10 l).
      { intros l v (a & b & x & y & -> & A1 & A2 & _) X. apply in_app_iff in X. destruct X as [X|[X|X]]; [exact (DD _ _ A1 X)|discriminate|exact (DD _ _ A2 X)]. }
      match type of U1 with In _ ?l => assert (FA : Forall (fun u => In 10 u -> False) l); [|rewrite Forall_forall in FA; exact (FA u U1 U2)] end. clear u U1 U2.
      constructor; [intros U2|constructor; [intros U2|constructor; [exact (DD _ _ D1)|constructor; [intros U2|constructor; [exact (DD _ _ D2)|constructor; [exact (DD _ _ D3)|constructor; [exact (DD _ _ D4)|
        constructor; [exact (DM _ _ M1)|constructor; [exact (DM _ _ M2)|constructor; [exact (DM _ _ M3)|constructor; [exact (DM _ _ M4)|constructor]]]]]]]]]]].
      + unfold digest_says in DS. destruct calc; [destruct (in_mode (fe_inode e) / 4096 =? 8)|].
        * destruct DS as (Q & _). rewrite Forall_forall in Q. specialize (Q _ U2). unfold hexdigit in Q. lia.
        * subst d. apply repeat_spec in U2. discriminate.
        * subst d. destruct U2 as [U2|[]]. discriminate.
      + apply (spelled_shown quote_bar p _ ltac:(unfold quote_bar; cbn [In]; lia) SP) in SC. clear - SC U2. induction SC as [|c t (C1 & C2) SC IH]; [destruct U2|]. rewrite utf8_cons in U2. apply in_app_iff in U2. destruct U2 as [U2|U2]; [|exact (IH U2)].
        apply utf8_high in U2; [|exact C1]. lia.
      + exact (mode_line _ U2).
    - eexists d, p, _, _, _, _, _, _, _, _, _. split; [exact F|]. split; [exact DS|]. split; [exact SP|]. split; [exact D1|]. split; [apply mode_text_ok, Hm|]. split; [exact D2|]. split; [exact D3|]. split; [exact D4|]. split; [exact M1|]. split; [exact M2|]. split; [exact M3|]. exact M4.
  Qed.
End Line.
