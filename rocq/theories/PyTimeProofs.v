(* The loops of pyfsapfs count days like the calendar. *)
From Verif Require Import Base BaseLemmas ToolInfo PyTime PyTimeSpec.
Ltac Zify.zify_post_hook ::= Z.div_mod_to_equations.

(* ---- days are numbered from 1 January of the year 1 ---- *)
Definition before_year (y : Z) : Z := 365 * (y - 1) + (y - 1) / 4 - (y - 1) / 100 + (y - 1) / 400.
Definition yl (y : Z) : Z := if py_leap y then 366 else 365.
Definition ml (y m : Z) : Z := if m =? 2 then (if py_leap y then 29 else 28) else if (m =? 4) || (m =? 6) || (m =? 9) || (m =? 11) then 30 else 31.
Definition before_month (y m : Z) : Z := if m <=? 1 then 0 else if m <=? 2 then 31 else 31 + (if py_leap y then 29 else 28) + (m - 3) * 30 + (if m <=? 3 then 0 else if m <=? 5 then 1 else if m <=? 7 then 2 else if m <=? 8 then 3 else if m <=? 10 then 4 else 5).
Lemma py_leap_spec y : py_leap y = true <-> leap_year y.
Proof.
  unfold py_leap, leap_year. rewrite orb_true_iff, andb_true_iff, negb_true_iff, !Z.eqb_eq, Z.eqb_neq. rewrite <- !Z.mod_divide by lia. lia.
Qed.
Lemma year_step y : before_year (y + 1) = before_year y + yl y.
Proof.
  unfold before_year, yl, py_leap. replace (y + 1 - 1) with y by lia.
  assert (A : forall k, 0 < k -> y / k = (y - 1) / k + if y mod k =? 0 then 1 else 0).
  { intros k K. destruct (y mod k =? 0) eqn:E.
    - symmetry. assert (y = k * (y / k)) by (pose proof (Z.div_mod y k); lia). assert ((y - 1) / k = y / k - 1); [|lia]. symmetry. apply (Z.div_unique _ _ _ (k - 1)); lia.
    - assert (y mod k <> 0) by lia. rewrite Z.add_0_r. apply (Z.div_unique _ _ _ (y mod k - 1)); [pose proof (Z.mod_pos_bound y k K); lia|]. pose proof (Z.div_mod y k ltac:(lia)). lia. }
  rewrite (A 4), (A 100), (A 400) by lia. destruct (y mod 4 =? 0) eqn:E4, (y mod 100 =? 0) eqn:E100, (y mod 400 =? 0) eqn:E400; cbn [andb negb orb]; lia.
Qed.
Lemma year_order y y' : y < y' -> before_year y + yl y <= before_year y'.
Proof. intros H. rewrite <- year_step. unfold before_year. lia. Qed.
Lemma yl_pos y : 365 <= yl y <= 366.
Proof. unfold yl. destruct (py_leap y); lia. Qed.
Lemma month_cases m : 1 <= m <= 12 -> m = 1 \/ m = 2 \/ m = 3 \/ m = 4 \/ m = 5 \/ m = 6 \/ m = 7 \/ m = 8 \/ m = 9 \/ m = 10 \/ m = 11 \/ m = 12.
Proof. lia. Qed.
Lemma month_step y m : 1 <= m < 12 -> before_month y (m + 1) = before_month y m + ml y m.
Proof. intros H. destruct (month_cases m ltac:(lia)) as [->|[->|[->|[->|[->|[->|[->|[->|[->|[->|[->| ->]]]]]]]]]]]; try lia; unfold before_month, ml; cbn; destruct (py_leap y); reflexivity. Qed.
Lemma month_last y : before_month y 12 + ml y 12 = yl y.
Proof. unfold before_month, ml, yl. cbn. destruct (py_leap y); reflexivity. Qed.
Lemma month_order y m m' : 1 <= m -> m < m' -> m' <= 12 -> before_month y m + ml y m <= before_month y m'.
Proof. intros H1 H2 H3. unfold before_month, ml. destruct (py_leap y); repeat match goal with |- context [if ?b then _ else _] => destruct b eqn:? end; lia. Qed.
Lemma ml_ok y m : 1 <= m <= 12 -> month_days y m = Ok (ml y m).
Proof. intros H. unfold month_days, ml. destruct (month_cases m H) as [->|[->|[->|[->|[->|[->|[->|[->|[->|[->|[->| ->]]]]]]]]]]]; reflexivity. Qed.
Lemma month_length_ml y m n : month_length y m n <-> 1 <= m <= 12 /\ n = ml y m.
Proof.
  unfold month_length, ml. pose proof (py_leap_spec y) as L. split.
  - intros (H1 & H2 & H3 & H4). split; [exact H1|]. destruct (m =? 2) eqn:E; [destruct (H2 ltac:(lia)) as [(X & ->)|(X & ->)]; [rewrite (proj2 L X); reflexivity|destruct (py_leap y); [exfalso; apply X, L; reflexivity|reflexivity]]|].
    destruct ((m =? 4) || (m =? 6) || (m =? 9) || (m =? 11)) eqn:E2; [apply H3; lia|apply H4; lia].
  - intros (H1 & ->). split; [exact H1|]. split; [|split].
    + intros ->. cbn [Z.eqb Pos.eqb]. destruct (py_leap y) eqn:E; [left; split; [apply L; reflexivity|reflexivity]|right; split; [intros X; apply L in X; congruence|reflexivity]].
    + intros H. replace (m =? 2) with false by lia. replace ((m =? 4) || (m =? 6) || (m =? 9) || (m =? 11)) with true by lia. reflexivity.
    + intros H. replace (m =? 2) with false by lia. replace ((m =? 4) || (m =? 6) || (m =? 9) || (m =? 11)) with false by lia. reflexivity.
Qed.
Lemma ml_pos y m : 28 <= ml y m <= 31.
Proof. unfold ml. destruct (m =? 2), (py_leap y), ((m =? 4) || (m =? 6) || (m =? 9) || (m =? 11)); lia. Qed.

Definition valid (x : Z * Z * Z) : Prop := let '(y, m, d) := x in 1 <= m <= 12 /\ 1 <= d <= ml y m.
Definition number (x : Z * Z * Z) : Z := let '(y, m, d) := x in before_year y + before_month y m + d.
Lemma day_in_year y m d : valid (y, m, d) -> 1 <= before_month y m + d <= yl y.
Proof.
  intros (H1 & H2). split; [unfold before_month; destruct (py_leap y); repeat match goal with |- context [if ?b then _ else _] => destruct b eqn:? end; lia|].
  rewrite <- month_last. destruct (Z.eq_dec m 12) as [->|N]; [lia|]. pose proof (month_order y m 12 ltac:(lia) ltac:(lia) ltac:(lia)). pose proof (ml_pos y 12). lia.
Qed.
Lemma number_inj a b : valid a -> valid b -> number a = number b -> a = b.
Proof.
  destruct a as ((y & m) & d), b as ((y' & m') & d'). intros V V' E. cbn [number] in E. pose proof (day_in_year _ _ _ V) as D. pose proof (day_in_year _ _ _ V') as D'.
  assert (y = y') as <-. { destruct (Z.lt_trichotomy y y') as [C|[C|C]]; [pose proof (year_order _ _ C); lia|exact C|pose proof (year_order _ _ C); lia]. }
  destruct V as (V1 & V2), V' as (V1' & V2').
  assert (m = m') as <-. { destruct (Z.lt_trichotomy m m') as [C|[C|C]]; [pose proof (month_order y m m'); lia|exact C|pose proof (month_order y m' m); lia]. }
  f_equal. lia.
Qed.
Lemma day_after_number a b : valid a -> day_after a b -> valid b /\ number b = number a + 1.
Proof.
  intros V H. destruct H as [y m d n H1 H2|y m n H1 H2|y n H1]; apply month_length_ml in H1; destruct H1 as (M & ->); cbn [number].
  - destruct V as (_ & V). split; [split; lia|lia].
  - split; [split; [lia|pose proof (ml_pos y (m + 1)); lia]|]. rewrite month_step by lia. lia.
  - split; [split; [lia|pose proof (ml_pos (y + 1) 1); lia]|]. rewrite year_step, <- month_last. change (before_month (y + 1) 1) with 0. lia.
Qed.
Lemma day_after_ex a : valid a -> exists b, day_after a b.
Proof.
  destruct a as ((y & m) & d). intros (V1 & V2). assert (M : month_length y m (ml y m)) by (apply month_length_ml; auto). destruct (d <? ml y m) eqn:C; [eexists; eapply same_month; [exact M|lia]|].
  assert (d = ml y m) as -> by lia. destruct (Z.eq_dec m 12) as [->|N]; [eexists; apply next_year; exact M|eexists; apply next_month; [exact M|lia]].
Qed.
Definition epoch_number : Z := 719163.
Lemma date_number n a : date_is n a -> valid a /\ number a = epoch_number + n.
Proof.
  induction 1 as [|n a b H1 (V & E) H2]; [split; [vm_compute; repeat split; discriminate|reflexivity]|]. destruct (day_after_number a b V H2) as (V2 & E2). split; [exact V2|lia].
Qed.
Lemma date_ex n : 0 <= n -> exists a, date_is n a.
Proof.
  intros H. pattern n. apply natlike_ind; [exists (1970, 1, 1); apply epoch| |exact H]. intros x X (a & A). destruct (date_number _ _ A) as (V & _). destruct (day_after_ex a V) as (b & B). exists b. eapply later; eauto.
Qed.
Lemma date_of n a : 0 <= n -> valid a -> number a = epoch_number + n -> date_is n a.
Proof. intros H V E. destruct (date_ex n H) as (b & B). destruct (date_number n b B) as (VB & EB). rewrite (number_inj a b V VB ltac:(lia)). exact B. Qed.

(* ---- the loops ---- *)
Definition cl (y : Z) : Z := if y mod 400 =? 0 then 36525 else 36524.
Lemma century_step y : y mod 100 = 0 -> before_year (y + 100) = before_year y + cl y.
Proof. intros H. unfold before_year, cl. destruct (y mod 400 =? 0) eqn:E; lia. Qed.
Lemma century_loop_ok : forall fuel year n, year mod 100 = 0 -> 0 < year -> 1 <= n < Z.of_nat fuel * 36524 -> year + n / 365 < 65000 ->
  exists y r, century_loop fuel year n = Ok (y, r) /\ 0 < y /\ 1 <= r <= cl y /\ before_year y + r = before_year year + n /\ y + r / 365 < 65000.
Proof.
  induction fuel as [|fuel IH]; intros year n H1 H0 H2 H3; [lia|]. cbn [century_loop]. replace (n =? 0) with false by lia. fold (cl year). destruct (n <=? cl year) eqn:C.
  - exists year, n. split; [reflexivity|]. lia.
  - assert (B : 36524 <= cl year <= 36525) by (unfold cl; destruct (year mod 400 =? 0); lia).
    assert (W : w16 (year + 100) = year + 100) by (unfold w16; rewrite Z.mod_small; [reflexivity|lia]). rewrite W. destruct (IH (year + 100) (n - cl year)) as (y & r & E & R); [lia|lia|lia|lia|].
    exists y, r. split; [exact E|]. rewrite century_step in R by exact H1. lia.
Qed.
Lemma year_loop_ok : forall fuel year n, 0 < year -> 1 <= n < Z.of_nat fuel * 365 -> year + n / 365 < 65000 ->
  exists y r, year_loop fuel year n = Ok (y, r) /\ 1 <= r <= yl y /\ before_year y + r = before_year year + n.
Proof.
  induction fuel as [|fuel IH]; intros year n H0 H2 H3; [lia|]. cbn [year_loop]. replace (n =? 0) with false by lia. fold (yl year). pose proof (yl_pos year) as B. destruct (n <=? yl year) eqn:C.
  - exists year, n. split; [reflexivity|]. lia.
  - assert (W : w16 (year + 1) = year + 1) by (unfold w16; rewrite Z.mod_small; [reflexivity|lia]). rewrite W. destruct (IH (year + 1) (n - yl year)) as (y & r & E & R); [lia|lia|lia|].
    exists y, r. split; [exact E|]. rewrite year_step in R. lia.
Qed.
Lemma month_loop_ok y : forall fuel m n, 1 <= m <= 12 -> 1 <= n -> before_month y m + n <= yl y -> 12 - m < Z.of_nat fuel ->
  exists m' d, month_loop fuel y m n = Ok (m', d) /\ valid (y, m', d) /\ before_month y m' + d = before_month y m + n.
Proof.
  induction fuel as [|fuel IH]; intros m n H1 H2 H3 H4; [lia|]. cbn [month_loop]. replace (n =? 0) with false by lia. rewrite ml_ok by exact H1. cbn [bind]. pose proof (ml_pos y m) as P. destruct (n <=? ml y m) eqn:C.
  - exists m, n. split; [reflexivity|]. split; [split; lia|lia].
  - assert (m <> 12) by (intros ->; rewrite <- month_last in H3; lia). assert (W : w8 (m + 1) = m + 1) by (unfold w8; rewrite Z.mod_small; [reflexivity|lia]). rewrite W.
    destruct (IH (m + 1) (n - ml y m)) as (m' & d & E & V & R); [lia|lia|rewrite month_step by lia; lia|lia|]. exists m', d. split; [exact E|]. split; [exact V|]. rewrite month_step in R by lia. lia.
Qed.

Lemma time_elements_ok fuel year n h mi s us : (200 <= fuel)%nat -> (year = 1970 /\ 1 <= n <= 10956 \/ year = 2000 /\ 1 <= n <= 2921940) ->
  0 <= h <= 23 -> 0 <= mi <= 59 -> 0 <= s <= 59 -> 0 <= us <= 999999 ->
  exists y m d, valid (y, m, d) /\ number (y, m, d) = before_year year + n /\ time_elements fuel year n h mi s us = Ok (mk_datetime y m d h mi s us).
Proof.
  intros F HN H1 H2 H3 H4. unfold time_elements.
  assert (C : exists y r, century_loop fuel year n = Ok (y, r) /\ 0 < y /\ 1 <= r <= 36525 /\ before_year y + r = before_year year + n /\ y + r / 365 < 65000).
  { destruct HN as [(-> & HN)|(-> & HN)].
    - exists 1970, n. destruct fuel as [|fuel]; [lia|]. cbn [century_loop]. replace (n =? 0) with false by lia. change (1970 mod 400 =? 0) with false. cbv beta iota zeta. replace (n <=? 36524) with true by lia. split; [reflexivity|]. lia.
    - destruct (century_loop_ok fuel 2000 n eq_refl ltac:(lia) ltac:(lia) ltac:(lia)) as (y & r & E & R1 & R2 & R3). exists y, r. split; [exact E|]. unfold cl in R2. destruct (y mod 400 =? 0); lia. }
  destruct C as (y1 & r1 & -> & C1 & C2 & C3 & C4). cbn [bind]. destruct (year_loop_ok fuel y1 r1 C1 ltac:(lia) C4) as (y & r & -> & Y1 & Y2). cbn [bind].
  destruct (month_loop_ok y fuel 1 r ltac:(lia) ltac:(lia) ltac:(change (before_month y 1) with 0; lia) ltac:(lia)) as (m & d & -> & V & M). cbn [bind]. change (before_month y 1) with 0 in M.
  assert (N : number (y, m, d) = before_year year + n) by (cbn [number]; lia). exists y, m, d. split; [exact V|]. split; [exact N|].
  assert (Y : 1 <= y <= 9999). { unfold before_year in *. destruct HN as [(-> & HN)|(-> & HN)]; pose proof (yl_pos y); lia. }
  destruct V as (V1 & V2). pose proof (ml_pos y m) as P. assert (W : w8 d = d) by (unfold w8; rewrite Z.mod_small; [reflexivity|lia]). rewrite W. unfold new_datetime, check.
  replace ((1 <=? y) && (y <=? 9999)) with true by lia. cbn [bind]. replace ((1 <=? m) && (m <=? 12)) with true by lia. cbn [bind]. rewrite ml_ok by exact V1. cbn [bind].
  replace ((1 <=? d) && (d <=? ml y m)) with true by lia. cbn [bind]. replace ((h <=? 23) && (mi <=? 59) && (s <=? 59) && (0 <=? us) && (us <=? 999999)) with true by lia. reflexivity.
Qed.
Lemma posix_micro_ok fuel t : (200 <= fuel)%nat -> 0 <= t -> t / 86400000000 <= 2932896 -> t / 86400000000 <> 10956 ->
  exists y m d, date_is (t / 86400000000) (y, m, d) /\
    posix_micro fuel t = Ok (mk_datetime y m d (t / 3600000000 mod 24) (t / 60000000 mod 60) (t / 1000000 mod 60) (t mod 1000000)).
Proof.
  intros F H0 H1 H2. unfold posix_micro.
  rewrite (Z.quot_div_nonneg t 1000000) by lia. rewrite (Z.rem_mod_nonneg t 1000000) by lia. set (a := t / 1000000). assert (A : 0 <= a) by (apply Z.div_pos; lia).
  rewrite (Z.quot_div_nonneg a 60), (Z.rem_mod_nonneg a 60) by lia. assert (B : a / 60 = t / 60000000) by (unfold a; rewrite Z.div_div by lia; reflexivity). rewrite B. set (b := t / 60000000) in *. assert (B0 : 0 <= b) by (apply Z.div_pos; lia).
  rewrite (Z.quot_div_nonneg b 60), (Z.rem_mod_nonneg b 60) by lia. assert (C : b / 60 = t / 3600000000) by (unfold b; rewrite Z.div_div by lia; reflexivity). rewrite C. set (c := t / 3600000000) in *. assert (C0 : 0 <= c) by (apply Z.div_pos; lia).
  rewrite (Z.quot_div_nonneg c 24), (Z.rem_mod_nonneg c 24) by lia. assert (D : c / 24 = t / 86400000000) by (unfold c; rewrite Z.div_div by lia; reflexivity). rewrite D. set (n := t / 86400000000) in *. assert (N0 : 0 <= n) by (apply Z.div_pos; lia).
  assert (M1 : 0 <= a mod 60 < 60) by (apply Z.mod_pos_bound; lia). assert (M2 : 0 <= b mod 60 < 60) by (apply Z.mod_pos_bound; lia). assert (M3 : 0 <= c mod 24 < 24) by (apply Z.mod_pos_bound; lia). assert (M4 : 0 <= t mod 1000000 < 1000000) by (apply Z.mod_pos_bound; lia).
  clearbody a b c n. set (u := t mod 1000000) in *. clearbody u.
  assert (W1 : w8 (a mod 60) = a mod 60) by (unfold w8; apply Z.mod_small; lia). assert (W2 : w8 (b mod 60) = b mod 60) by (unfold w8; apply Z.mod_small; lia). assert (W3 : w8 (c mod 24) = c mod 24) by (unfold w8; apply Z.mod_small; lia).
  assert (W4 : s32 (w32 u) = u) by (unfold s32, w32; rewrite (Z.mod_small u) by lia; replace (u <? 2 ^ 31) with true by lia; reflexivity).
  rewrite W1, W2, W3, W4. destruct (10957 <=? n + 1) eqn:E.
  - assert (W5 : w64 (n + 1 - 10957) = n + 1 - 10957) by (unfold w64; apply Z.mod_small; lia). rewrite W5.
    destruct (time_elements_ok fuel 2000 (n + 1 - 10957) (c mod 24) (b mod 60) (a mod 60) u F ltac:(right; lia) ltac:(lia) ltac:(lia) ltac:(lia) ltac:(lia)) as (y & m & d & V & NN & ->).
    exists y, m, d. split; [|reflexivity]. apply date_of; [exact N0|exact V|]. rewrite NN. change (before_year 2000) with 730119. unfold epoch_number. lia.
  - assert (W5 : w64 (n + 1) = n + 1) by (unfold w64; apply Z.mod_small; lia). rewrite W5.
    destruct (time_elements_ok fuel 1970 (n + 1) (c mod 24) (b mod 60) (a mod 60) u F ltac:(left; lia) ltac:(lia) ltac:(lia) ltac:(lia) ltac:(lia)) as (y & m & d & V & NN & ->).
    exists y, m, d. split; [|reflexivity]. apply date_of; [exact N0|exact V|]. rewrite NN. change (before_year 1970) with 719162. unfold epoch_number. lia.
Qed.
Lemma century_endless : forall fuel year n, 36525 * Z.of_nat fuel < n -> century_loop fuel year n = Fuel.
Proof.
  induction fuel as [|fuel IH]; intros year n H; [reflexivity|]. cbn [century_loop]. replace (n =? 0) with false by lia.
  destruct (year mod 400 =? 0); [replace (n <=? 36525) with false by lia|replace (n <=? 36524) with false by lia]; apply IH; lia.
Qed.
