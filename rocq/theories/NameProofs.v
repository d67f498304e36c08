From Coq Require Import Lia.
From Verif Require Import Base BaseLemmas Checksum NameTables Name NameSpec.
Ltac Zify.zify_post_hook ::= Z.div_mod_to_equations.

(* ---- encodings ---- *)

Lemma utf8_char_next : forall c r, scalar c -> utf8_next (utf8_char c ++ r) = Ok (c, r).
Proof.
  intros c r H. unfold scalar in H. unfold utf8_char.
  destruct (c <? 0x80) eqn:E1.
  - cbn [app utf8_next]. rewrite E1. reflexivity.
  - apply Z.ltb_ge in E1. destruct (c <? 0x800) eqn:E2.
    + apply Z.ltb_lt in E2. cbn [app utf8_next].
      replace (0xc0 + c / 64 <? 0x80) with false by (symmetry; apply Z.ltb_ge; lia).
      replace ((0xc2 <=? 0xc0 + c / 64) && (0xc0 + c / 64 <=? 0xdf)) with true
        by (symmetry; apply andb_true_iff; split; apply Z.leb_le; lia).
      unfold cont. replace ((0x80 <=? 0x80 + c mod 64) && (0x80 + c mod 64 <=? 0xbf)) with true
        by (symmetry; apply andb_true_iff; split; apply Z.leb_le; lia).
      do 2 f_equal. lia.
    + apply Z.ltb_ge in E2. destruct (c <? 0x10000) eqn:E3.
      * apply Z.ltb_lt in E3. cbn [app utf8_next].
        replace (0xe0 + c / 4096 <? 0x80) with false by (symmetry; apply Z.ltb_ge; lia).
        replace ((0xc2 <=? 0xe0 + c / 4096) && (0xe0 + c / 4096 <=? 0xdf)) with false
          by (symmetry; apply andb_false_iff; right; apply Z.leb_gt; lia).
        replace ((0xe0 <=? 0xe0 + c / 4096) && (0xe0 + c / 4096 <=? 0xef)) with true
          by (symmetry; apply andb_true_iff; split; apply Z.leb_le; lia).
        replace ((0xe0 + c / 4096 - 0xe0) * 4096 + (0x80 + c / 64 mod 64 - 0x80) * 64 + (0x80 + c mod 64 - 0x80)) with c by lia.
        unfold cont.
        replace ((0x80 <=? 0x80 + c / 64 mod 64) && (0x80 + c / 64 mod 64 <=? 0xbf)) with true
          by (symmetry; apply andb_true_iff; split; apply Z.leb_le; lia).
        replace ((0x80 <=? 0x80 + c mod 64) && (0x80 + c mod 64 <=? 0xbf)) with true
          by (symmetry; apply andb_true_iff; split; apply Z.leb_le; lia).
        replace (0x800 <=? c) with true by (symmetry; apply Z.leb_le; lia).
        replace ((c <? 0xd800) || (0xdfff <? c)) with true; [reflexivity|].
        symmetry; apply orb_true_iff; destruct H; [left|right]; apply Z.ltb_lt; lia.
      * apply Z.ltb_ge in E3. cbn [app utf8_next].
        replace (0xf0 + c / 262144 <? 0x80) with false by (symmetry; apply Z.ltb_ge; lia).
        replace ((0xc2 <=? 0xf0 + c / 262144) && (0xf0 + c / 262144 <=? 0xdf)) with false
          by (symmetry; apply andb_false_iff; right; apply Z.leb_gt; lia).
        replace ((0xe0 <=? 0xf0 + c / 262144) && (0xf0 + c / 262144 <=? 0xef)) with false
          by (symmetry; apply andb_false_iff; right; apply Z.leb_gt; lia).
        replace ((0xf0 <=? 0xf0 + c / 262144) && (0xf0 + c / 262144 <=? 0xf4)) with true
          by (symmetry; apply andb_true_iff; split; apply Z.leb_le; lia).
        replace ((0xf0 + c / 262144 - 0xf0) * 262144 + (0x80 + c / 4096 mod 64 - 0x80) * 4096 +
                 (0x80 + c / 64 mod 64 - 0x80) * 64 + (0x80 + c mod 64 - 0x80)) with c by lia.
        unfold cont.
        replace ((0x80 <=? 0x80 + c / 4096 mod 64) && (0x80 + c / 4096 mod 64 <=? 0xbf)) with true
          by (symmetry; apply andb_true_iff; split; apply Z.leb_le; lia).
        replace ((0x80 <=? 0x80 + c / 64 mod 64) && (0x80 + c / 64 mod 64 <=? 0xbf)) with true
          by (symmetry; apply andb_true_iff; split; apply Z.leb_le; lia).
        replace ((0x80 <=? 0x80 + c mod 64) && (0x80 + c mod 64 <=? 0xbf)) with true
          by (symmetry; apply andb_true_iff; split; apply Z.leb_le; lia).
        replace (0x10000 <=? c) with true by (symmetry; apply Z.leb_le; lia).
        replace (c <=? 0x10ffff) with true by (symmetry; apply Z.leb_le; lia).
        reflexivity.
Qed.

Lemma utf16_char_next : forall c r, scalar c -> utf16_next (utf16_char c ++ r) = Ok (c, r).
Proof.
  intros c r H. unfold scalar in H. unfold utf16_char.
  destruct (c <? 0x10000) eqn:E1.
  - cbn [app utf16_next].
    replace ((c <? 0xd800) || (0xdfff <? c)) with true; [reflexivity|].
    symmetry; apply orb_true_iff; destruct H; [left|right]; apply Z.ltb_lt; lia.
  - apply Z.ltb_ge in E1. cbn [app utf16_next]. set (d := c - 0x10000).
    assert (0 <= d < 1048576) by (subst d; lia).
    replace ((0xd800 + d / 1024 <? 0xd800) || (0xdfff <? 0xd800 + d / 1024)) with false
      by (symmetry; apply orb_false_iff; split; apply Z.ltb_ge; lia).
    replace (0xd800 + d / 1024 <? 0xdc00) with true by (symmetry; apply Z.ltb_lt; lia).
    replace ((0xdc00 <=? 0xdc00 + d mod 1024) && (0xdc00 + d mod 1024 <=? 0xdfff)) with true
      by (symmetry; apply andb_true_iff; split; apply Z.leb_le; lia).
    do 2 f_equal. subst d. lia.
Qed.

(* A decoder consumes something, and does not look behind what it consumes. *)
Definition decoder (next : list Z -> res (Z * list Z)) : Prop :=
  forall l c r, next l = Ok (c, r) ->
    (length r < length l)%nat /\ (forall x, next (l ++ x) = Ok (c, r ++ x)).

Ltac dcase H :=
  match type of H with
  | context [if ?b then _ else _] => let E := fresh "E" in destruct b eqn:E; try discriminate H
  | context [match ?l with [] => _ | _ :: _ => _ end] => destruct l; try discriminate H
  end.
Lemma utf8_decoder : decoder utf8_next.
Proof.
  intros l c r H. unfold utf8_next in H. destruct l as [|b l]; [discriminate|].
  repeat dcase H; match type of H with Ok (?p, ?q) = Ok _ => assert (c = p) by congruence; assert (r = q) by congruence end; clear H; subst c r;
    (split; [cbn [length]; lia|]; intro x; cbn [app utf8_next]; cbv zeta in *;
     repeat match goal with E : _ = _ |- _ => rewrite E; clear E end; reflexivity).
Qed.
Lemma utf16_decoder : decoder utf16_next.
Proof.
  intros l c r H. unfold utf16_next in H. destruct l as [|b l]; [discriminate|].
  repeat dcase H; match type of H with Ok (?p, ?q) = Ok _ => assert (c = p) by congruence; assert (r = q) by congruence end; clear H; subst c r;
    (split; [cbn [length]; lia|]; intro x; cbn [app utf16_next];
     repeat match goal with E : _ = _ |- _ => rewrite E; clear E end; reflexivity).
Qed.

(* ---- tables ---- *)

Definition sized {A} (ts : list (Z * Z * list A)) : bool :=
  forallb (fun e => snd (fst e) - fst (fst e) <? len (snd e)) ts.
Lemma fold_sized : sized fold_tables = true.
Proof. vm_compute. reflexivity. Qed.
Lemma nfd_sized : sized nfd_tables = true.
Proof. vm_compute. reflexivity. Qed.

Lemma tab_get_value : forall {A} (ts : list (Z * Z * list A)) d c, sized ts = true ->
  match tab_get ts c with Some r => r | None => Ok d end = Ok (table_value d ts c).
Proof.
  induction ts as [|[[lo hi] t] ts IH]; intros d c H; [reflexivity|].
  cbn [sized forallb fst snd] in H. apply andb_true_iff in H. destruct H as [H1 H2].
  cbn [tab_get table_value]. destruct ((lo <=? c) && (c <=? hi)) eqn:E; [|apply IH, H2].
  apply andb_true_iff in E. destruct E as [E1 E2]. apply Z.leb_le in E1, E2. apply Z.ltb_lt in H1.
  assert (Z.to_nat (c - lo) < length t)%nat by (unfold len in H1; lia).
  destruct (nth_error t (Z.to_nat (c - lo))) as [v|] eqn:N.
  - rewrite (nth_error_nth _ _ _ N). reflexivity.
  - apply nth_error_None in N. lia.
Qed.
Lemma case_fold_ok : forall c, case_fold c = Ok (fold_of c).
Proof. intro c. apply tab_get_value, fold_sized. Qed.
Lemma nfd_map_ok : forall c, nfd_map c = Ok (nfd_of c).
Proof. intro c. apply tab_get_value, nfd_sized. Qed.
Lemma name_map_ok : forall fold c, name_map fold c = Ok (nfd_of (folded fold c)).
Proof.
  intros [] c; unfold name_map, folded; [rewrite case_fold_ok|]; cbn [bind]; apply nfd_map_ok.
Qed.

Fixpoint number {A} (c : Z) (t : list A) : list (Z * A) :=
  match t with [] => [] | v :: t => (c, v) :: number (c + 1) t end.
Definition table_entries {A} (ts : list (Z * Z * list A)) : list (Z * A) :=
  concat (map (fun e => number (fst (fst e)) (snd e)) ts).

Lemma number_in : forall {A} (t : list A) c i v, nth_error t i = Some v -> In (c + Z.of_nat i, v) (number c t).
Proof.
  induction t as [|x t IH]; intros c i v H; [destruct i; discriminate|].
  destruct i as [|i]; cbn [nth_error number] in *.
  - left. f_equal; [lia|congruence].
  - right. replace (c + Z.of_nat (S i)) with (c + 1 + Z.of_nat i) by lia. apply IH, H.
Qed.
Lemma table_value_cases : forall {A} (ts : list (Z * Z * list A)) d c, sized ts = true ->
  table_value d ts c = d \/ In (c, table_value d ts c) (table_entries ts).
Proof.
  induction ts as [|[[lo hi] t] ts IH]; intros d c H; [left; reflexivity|].
  cbn [sized forallb fst snd] in H. apply andb_true_iff in H. destruct H as [H1 H2].
  cbn [table_value]. destruct ((lo <=? c) && (c <=? hi)) eqn:E.
  - right. apply andb_true_iff in E. destruct E as [E1 E2]. apply Z.leb_le in E1, E2. apply Z.ltb_lt in H1.
    unfold table_entries. cbn [map concat fst snd]. apply in_or_app. left.
    assert (Z.to_nat (c - lo) < length t)%nat by (unfold len in H1; lia).
    destruct (nth_error t (Z.to_nat (c - lo))) as [v|] eqn:N; [|apply nth_error_None in N; lia].
    rewrite (nth_error_nth _ _ _ N). apply (number_in t lo) in N.
    replace (lo + Z.of_nat (Z.to_nat (c - lo))) with c in N by lia. exact N.
  - destruct (IH d c H2) as [I|I]; [left; exact I|right]. unfold table_entries. cbn [map concat].
    apply in_or_app. right. exact I.
Qed.

Fixpoint zlist_eqb (a b : list Z) : bool :=
  match a, b with
  | [], [] => true
  | x :: a, y :: b => (x =? y) && zlist_eqb a b
  | _, _ => false
  end.
Lemma zlist_eqb_eq : forall a b, zlist_eqb a b = true -> a = b.
Proof.
  induction a as [|x a IH]; intros [|y b] H; try discriminate; [reflexivity|].
  cbn [zlist_eqb] in H. apply andb_true_iff in H. destruct H as [H1 H2]. apply Z.eqb_eq in H1.
  f_equal; [exact H1|apply IH, H2].
Qed.

Lemma hash_map_ok : forall fold c, hash_map fold c = Ok (hash_of fold c).
Proof.
  intros [] c; unfold hash_map, hash_of; [|apply nfd_map_ok].
  rewrite case_fold_ok. cbn [bind]. unfold special.
  destruct ((0x1f80 <=? fold_of c) && (fold_of c <=? 0x1faf)) eqn:E.
  - apply andb_true_iff in E. destruct E as [E1 E2]. apply Z.leb_le in E1, E2.
    assert (length special_1f80 = 48)%nat by reflexivity.
    destruct (nth_error special_1f80 (Z.to_nat (fold_of c - 0x1f80))) as [v|] eqn:N;
      [rewrite (nth_error_nth _ _ _ N); reflexivity|apply nth_error_None in N; lia].
  - destruct (find _ _); [reflexivity|apply nfd_map_ok].
Qed.

Lemma fold_sweep : forallb (fun e => negb (snd e =? 0) && ((snd e =? fst e) || (fold_of (snd e) =? snd e)))
  (table_entries fold_tables) = true.
Proof. vm_compute. reflexivity. Qed.
Lemma nfd_sweep : forallb (fun e => negb (zlist_eqb (snd e) [0]) && (zlist_eqb (snd e) [fst e] ||
    zlist_eqb (hash_of false (fst e)) (concat (map (hash_of false) (snd e))) &&
    zlist_eqb (hash_of true (fst e)) (concat (map (hash_of true) (snd e)))))
  (table_entries nfd_tables) = true.
Proof. vm_compute. reflexivity. Qed.

Lemma fold_idem : forall c, fold_of (fold_of c) = fold_of c.
Proof.
  intro c. destruct (table_value_cases fold_tables c c fold_sized) as [H|H].
  - unfold fold_of at 2. rewrite H. reflexivity.
  - fold (fold_of c) in H. pose proof (proj1 (forallb_forall _ _) fold_sweep _ H) as S.
    cbn [fst snd] in S. apply andb_true_iff in S. destruct S as [_ S]. apply orb_true_iff in S.
    destruct S as [S|S]; apply Z.eqb_eq in S; [rewrite S; rewrite S; reflexivity|exact S].
Qed.
Lemma fold_zero : forall c, fold_of c = 0 -> c = 0.
Proof.
  intros c Z. destruct (table_value_cases fold_tables c c fold_sized) as [H|H].
  - fold (fold_of c) in H. congruence.
  - fold (fold_of c) in H. pose proof (proj1 (forallb_forall _ _) fold_sweep _ H) as S.
    cbn [fst snd] in S. rewrite Z in S. discriminate.
Qed.
Lemma nfd_zero : forall c, nfd_of c = [0] -> c = 0.
Proof.
  intros c Z. destruct (table_value_cases nfd_tables [c] c nfd_sized) as [H|H].
  - fold (nfd_of c) in H. congruence.
  - fold (nfd_of c) in H. pose proof (proj1 (forallb_forall _ _) nfd_sweep _ H) as S.
    cbn [fst snd] in S. rewrite Z in S. discriminate.
Qed.
(* The hash of a character is that of its decomposition. *)
Lemma hash_decomposed : forall fold c, hash_of fold c = concat (map (hash_of fold) (nfd_of c)).
Proof.
  intros fold c. destruct (table_value_cases nfd_tables [c] c nfd_sized) as [H|H]; fold (nfd_of c) in H.
  - rewrite H. cbn [map concat]. rewrite app_nil_r. reflexivity.
  - pose proof (proj1 (forallb_forall _ _) nfd_sweep _ H) as S. cbn [fst snd] in S.
    apply andb_true_iff in S. destruct S as [_ S]. apply orb_true_iff in S. destruct S as [S|S].
    + apply zlist_eqb_eq in S. rewrite S. cbn [map concat]. rewrite app_nil_r. reflexivity.
    + apply andb_true_iff in S. destruct S as [S1 S2]. apply zlist_eqb_eq in S1, S2.
      destruct fold; assumption.
Qed.
Lemma hash_folded : forall fold c, hash_of fold (folded fold c) = hash_of fold c.
Proof. intros [] c; unfold hash_of, folded; [rewrite fold_idem|]; reflexivity. Qed.
Lemma same_hash : forall fold c d, nfd_of (folded fold c) = nfd_of (folded fold d) -> hash_of fold c = hash_of fold d.
Proof.
  intros fold c d H. rewrite <- (hash_folded fold c), <- (hash_folded fold d).
  rewrite (hash_decomposed fold (folded fold c)), (hash_decomposed fold (folded fold d)), H. reflexivity.
Qed.

(* ---- the comparison of two mappings ---- *)

Lemma cmp_mapping_eq : forall a b, cmp_mapping a b = Eq <-> a = b.
Proof.
  induction a as [|x a IH]; intros [|y b]; cbn [cmp_mapping]; split; try reflexivity; try discriminate.
  - destruct (x <? y) eqn:E1; [discriminate|]. destruct (y <? x) eqn:E2; [discriminate|].
    apply Z.ltb_ge in E1, E2. intro H. apply IH in H. subst. f_equal. lia.
  - intro H. injection H as -> ->. rewrite Z.ltb_irrefl. apply IH. reflexivity.
Qed.
Lemma cmp_mapping_opp : forall a b, cmp_mapping b a = CompOpp (cmp_mapping a b).
Proof.
  induction a as [|x a IH]; intros [|y b]; cbn [cmp_mapping]; try reflexivity.
  destruct (x <? y) eqn:E1, (y <? x) eqn:E2; try reflexivity.
  - apply Z.ltb_lt in E1, E2. lia.
  - apply IH.
Qed.
Lemma cmp_mapping_lt : forall a b, cmp_mapping a b = Lt <-> char_lt a b.
Proof.
  induction a as [|x a IH]; intros [|y b]; cbn [cmp_mapping]; split; try discriminate; try (intro H; inversion H; fail).
  - intros _. apply char_longer.
  - reflexivity.
  - destruct (x <? y) eqn:E1; [intros _; apply char_head, Z.ltb_lt, E1|].
    destruct (y <? x) eqn:E2; [discriminate|]. apply Z.ltb_ge in E1, E2. assert (x = y) by lia. subst y.
    intro H. apply char_tail, IH, H.
  - intro H. inversion H; subst.
    + replace (x <? y) with true by (symmetry; apply Z.ltb_lt; assumption). reflexivity.
    + rewrite Z.ltb_irrefl. apply IH. assumption.
Qed.
Lemma char_lt_trans : forall a b, char_lt a b -> forall c, char_lt b c -> char_lt a c.
Proof.
  induction 1 as [x l|x y l m H|x l m H IH]; intros c K.
  - inversion K.
  - inversion K; subst; [apply char_longer|apply char_head; lia|apply char_head; assumption].
  - inversion K; subst; [apply char_longer|apply char_head; assumption|apply char_tail, IH; assumption].
Qed.

(* ---- the loop ---- *)

Lemma cmp_loop_step : forall next fold fuel n name s str,
  cmp_loop next fold (S fuel) (n :: name) (s :: str) =
  (let! (c, name) := utf8_next (n :: name) in
   let! (d, str) := next (s :: str) in
   match cmp_mapping (nfd_of (folded fold d)) (nfd_of (folded fold c)) with
   | Eq => cmp_loop next fold fuel name str
   | r => Ok r
   end).
Proof.
  intros. cbn [cmp_loop]. destruct (utf8_next (n :: name)) as [[c name']| | |]; try reflexivity.
  cbn [bind]. destruct (next (s :: str)) as [[d str']| | |]; try reflexivity.
  cbn [bind]. rewrite !name_map_ok. reflexivity.
Qed.

Lemma cmp_loop_fuel : forall next fold f name str, (length name < f)%nat ->
  forall g, (length name < g)%nat -> cmp_loop next fold f name str = cmp_loop next fold g name str.
Proof.
  induction f as [|f IH]; intros name str Hf g Hg; [lia|]. destruct g as [|g]; [lia|].
  destruct name as [|n name]; [destruct str; reflexivity|]. destruct str as [|s str]; [reflexivity|].
  rewrite !cmp_loop_step. destruct (utf8_next (n :: name)) as [[c name']| | |] eqn:E; try reflexivity.
  cbn [bind]. destruct (next (s :: str)) as [[d str']| | |]; try reflexivity. cbn [bind].
  destruct (cmp_mapping _ _); try reflexivity.
  apply utf8_decoder in E. destruct E as [E _]. apply IH; cbn [length] in *; lia.
Qed.

Definition cmp (fold : bool) (name str : list Z) : res comparison := cmp_loop utf8_next fold (S (length name)) name str.
Lemma cmp_step : forall fold n name s str,
  cmp fold (n :: name) (s :: str) =
  (let! (c, name) := utf8_next (n :: name) in
   let! (d, str) := utf8_next (s :: str) in
   match cmp_mapping (nfd_of (folded fold d)) (nfd_of (folded fold c)) with
   | Eq => cmp fold name str
   | r => Ok r
   end).
Proof.
  intros. unfold cmp. rewrite cmp_loop_step. destruct (utf8_next (n :: name)) as [[c name']| | |] eqn:E; try reflexivity.
  cbn [bind]. destruct (utf8_next (s :: str)) as [[d str']| | |]; try reflexivity. cbn [bind].
  destruct (cmp_mapping _ _); try reflexivity.
  apply utf8_decoder in E. destruct E as [E _]. apply cmp_loop_fuel; cbn [length] in *; lia.
Qed.

(* Induction on the length of the first string. *)
Lemma len_ind : forall P : list Z -> Prop,
  (forall l, (forall r, (length r < length l)%nat -> P r) -> P l) -> forall l, P l.
Proof.
  intros P H l. apply (well_founded_ind (Wf_nat.well_founded_ltof _ (@length Z))). exact H.
Qed.

Lemma cmp_refl : forall fold l c, cmp fold l l = Ok c -> c = Eq.
Proof.
  intros fold l. induction l as [l IH] using len_ind. intros c H. destruct l as [|n l]; [unfold cmp in H; cbn in H; injection H as <-; reflexivity|].
  rewrite cmp_step in H. destruct (utf8_next (n :: l)) as [[x r]| | |] eqn:E; try discriminate.
  cbn [bind] in H. rewrite (proj2 (cmp_mapping_eq _ _) eq_refl) in H.
  eapply IH; [apply utf8_decoder in E; apply E|exact H].
Qed.
Lemma cmp_opp : forall fold a b c, cmp fold a b = Ok c -> cmp fold b a = Ok (CompOpp c).
Proof.
  intros fold a. induction a as [a IH] using len_ind. intros b c H.
  destruct a as [|x a]; [destruct b as [|y b]; unfold cmp in *; cbn in H |- *; injection H as <-; reflexivity|].
  destruct b as [|y b]; [unfold cmp in *; cbn in H |- *; injection H as <-; reflexivity|].
  rewrite cmp_step in H |- *.
  destruct (utf8_next (x :: a)) as [[m a']| | |] eqn:E; try discriminate. cbn [bind] in H |- *.
  destruct (utf8_next (y :: b)) as [[n b']| | |] eqn:F; try discriminate. cbn [bind] in H |- *.
  rewrite (cmp_mapping_opp (nfd_of (folded fold n))).
  destruct (cmp_mapping (nfd_of (folded fold n)) _); cbn [CompOpp]; try (injection H as <-; reflexivity).
  eapply IH; [apply utf8_decoder in E; apply E|exact H].
Qed.
(* [then_ x y]: the comparison of a and c when a compares to b as x and b to c as y. *)
Definition then_ (x y : comparison) : option comparison :=
  match x, y with
  | Eq, y => Some y
  | x, Eq => Some x
  | Lt, Lt => Some Lt
  | Gt, Gt => Some Gt
  | _, _ => None
  end.
Lemma cmp_mapping_then : forall a b c r,
  then_ (cmp_mapping a b) (cmp_mapping b c) = Some r -> cmp_mapping a c = r.
Proof.
  intros a b c r H. destruct (cmp_mapping a b) eqn:E, (cmp_mapping b c) eqn:F; cbn [then_] in H;
    try discriminate; assert (R : Some r = Some r) by reflexivity; rewrite <- H in R at 1;
    assert (S : r = r) by reflexivity; clear R S.
  - apply cmp_mapping_eq in E, F. subst. injection H as <-. apply cmp_mapping_eq. reflexivity.
  - apply cmp_mapping_eq in E. subst. injection H as <-. exact F.
  - apply cmp_mapping_eq in E. subst. injection H as <-. exact F.
  - apply cmp_mapping_eq in F. subst. injection H as <-. exact E.
  - injection H as <-. apply cmp_mapping_lt. apply cmp_mapping_lt in E, F. eapply char_lt_trans; eassumption.
  - apply cmp_mapping_eq in F. subst. injection H as <-. exact E.
  - injection H as <-. rewrite cmp_mapping_opp.
    assert (cmp_mapping c a = Lt); [|rewrite H; reflexivity].
    apply cmp_mapping_lt. rewrite cmp_mapping_opp in E, F.
    assert (E' : cmp_mapping b a = Lt) by (destruct (cmp_mapping b a); try discriminate; reflexivity).
    assert (F' : cmp_mapping c b = Lt) by (destruct (cmp_mapping c b); try discriminate; reflexivity).
    apply cmp_mapping_lt in E', F'. eapply char_lt_trans; eassumption.
Qed.
Lemma cmp_then : forall fold a b c x y r, cmp fold b a = Ok x -> cmp fold c b = Ok y -> then_ x y = Some r ->
  cmp fold c a = Ok r.
Proof.
  intros fold a. induction a as [a IH] using len_ind. intros b c x y r H K T.
  assert (N : forall (l : list Z) z, cmp fold l [] = Ok z -> z = match l with [] => Eq | _ => Lt end)
    by (intros [|h0 l0] z Hz; unfold cmp in Hz; cbn in Hz; injection Hz as <-; reflexivity).
  assert (M : forall (l : list Z) z, cmp fold [] l = Ok z -> z = match l with [] => Eq | _ => Gt end)
    by (intros [|h0 l0] z Hz; unfold cmp in Hz; cbn in Hz; injection Hz as <-; reflexivity).
  assert (N' : forall l : list Z, cmp fold l [] = Ok (match l with [] => Eq | _ => Lt end))
    by (intros [|? ?]; reflexivity).
  assert (M' : forall l : list Z, cmp fold [] l = Ok (match l with [] => Eq | _ => Gt end))
    by (intros [|? ?]; reflexivity).
  destruct a as [|p a]; [|destruct c as [|s c]; [|destruct b as [|q b]]].
  - apply N in H. rewrite N'. destruct b as [|q b]; subst x.
    + apply N in K. subst y. cbn in T. (clear IH; congruence).
    + destruct y; cbn in T; try discriminate; destruct c as [|s c]; try (clear IH; congruence).
      * apply M in K. discriminate.
      * apply M in K. discriminate.
  - apply M in K. rewrite M'. destruct b as [|q b]; subst y.
    + apply M in H. subst x. cbn in T. (clear IH; congruence).
    + destruct x; cbn in T; try discriminate; (clear IH; congruence).
  - apply M in H. apply N in K. subst. discriminate.
  - rewrite cmp_step in H, K |- *.
    destruct (utf8_next (q :: b)) as [[m b']| | |] eqn:E; try discriminate. cbn [bind] in H.
    destruct (utf8_next (p :: a)) as [[l a']| | |] eqn:D; try discriminate. cbn [bind] in H.
    destruct (utf8_next (s :: c)) as [[n c']| | |] eqn:F; try discriminate. cbn [bind] in K |- *.
    set (dl := nfd_of (folded fold l)) in *. set (dm := nfd_of (folded fold m)) in *. set (dn := nfd_of (folded fold n)) in *.
    destruct (cmp_mapping dl dm) eqn:C1, (cmp_mapping dm dn) eqn:C2;
      match goal with
      | C1 : _ = Eq, C2 : _ = Eq |- _ => idtac
      | _ => 
        try (injection H as <-); try (injection K as <-);
        try (cbn in T; discriminate)
      end.
    + rewrite (cmp_mapping_then dl dm dn Eq) by (rewrite C1, C2; reflexivity).
      eapply IH; [apply utf8_decoder in D; apply D|exact H|exact K|exact T].
    + rewrite (cmp_mapping_then dl dm dn Lt) by (rewrite C1, C2; reflexivity). destruct x; cbn in T; (clear IH; congruence).
    + rewrite (cmp_mapping_then dl dm dn Gt) by (rewrite C1, C2; reflexivity). destruct x; cbn in T; (clear IH; congruence).
    + rewrite (cmp_mapping_then dl dm dn Lt) by (rewrite C1, C2; reflexivity). destruct y; cbn in T; (clear IH; congruence).
    + rewrite (cmp_mapping_then dl dm dn Lt) by (rewrite C1, C2; reflexivity). cbn in T; (clear IH; congruence).
    + rewrite (cmp_mapping_then dl dm dn Gt) by (rewrite C1, C2; reflexivity). destruct y; cbn in T; (clear IH; congruence).
    + rewrite (cmp_mapping_then dl dm dn Gt) by (rewrite C1, C2; reflexivity). cbn in T; (clear IH; congruence).
Qed.

(* ---- decoding of whole strings ---- *)

Inductive decodes (next : list Z -> res (Z * list Z)) : list Z -> list Z -> Prop :=
| dec_nil : decodes next [] []
| dec_cons : forall l c r s, next l = Ok (c, r) -> l <> [] -> decodes next r s -> decodes next l (c :: s).

Lemma utf8_char_nonempty : forall c, utf8_char c <> [].
Proof. intro c. unfold utf8_char. repeat (destruct (_ <? _); [discriminate|]). discriminate. Qed.
Lemma utf16_char_nonempty : forall c, utf16_char c <> [].
Proof. intro c. unfold utf16_char. destruct (_ <? _); discriminate. Qed.
Lemma utf8_decodes : forall s, Forall scalar s -> decodes utf8_next (utf8 s) s.
Proof.
  induction 1 as [|c s Hc Hs IH]; [apply dec_nil|]. eapply dec_cons; [|unfold utf8; cbn [map concat]|exact IH].
  - apply utf8_char_next, Hc.
  - intro E. apply app_eq_nil in E. destruct E as [E _]. apply utf8_char_nonempty in E. exact E.
Qed.
Lemma utf16_decodes : forall s, Forall scalar s -> decodes utf16_next (utf16 s) s.
Proof.
  induction 1 as [|c s Hc Hs IH]; [apply dec_nil|]. eapply dec_cons; [|unfold utf16; cbn [map concat]|exact IH].
  - apply utf16_char_next, Hc.
  - intro E. apply app_eq_nil in E. destruct E as [E _]. apply utf16_char_nonempty in E. exact E.
Qed.

(* What the loop computes on a fully decoded string, and on a fully decoded name. *)
Fixpoint cmp_str (fold : bool) (fuel : nat) (name s : list Z) : res comparison :=
  match fuel with
  | O => Fuel
  | S fuel =>
    match name, s with
    | _ :: _, d :: s =>
      let! (c, name) := utf8_next name in
      match cmp_mapping (nfd_of (folded fold d)) (nfd_of (folded fold c)) with
      | Eq => cmp_str fold fuel name s
      | r => Ok r
      end
    | _, _ :: _ => Ok Gt
    | _ :: _, _ => Ok Lt
    | _, _ => Ok Eq
    end
  end.
Lemma cmp_loop_str : forall next fold fuel name str s, decodes next str s ->
  cmp_loop next fold fuel name str = cmp_str fold fuel name s.
Proof.
  induction fuel as [|fuel IH]; intros name str s H; [reflexivity|].
  destruct H as [|l c r s Hn Hl Hr]; [destruct name; reflexivity|].
  destruct l as [|x l]; [congruence|]. destruct name as [|n name]; [reflexivity|].
  rewrite cmp_loop_step. cbn [cmp_str]. destruct (utf8_next (n :: name)) as [[m name']| | |]; try reflexivity.
  cbn [bind]. rewrite Hn. cbn [bind]. destruct (cmp_mapping _ _); try reflexivity. apply IH, Hr.
Qed.

Fixpoint cmp_key (s n : list (list Z)) : comparison :=
  match s, n with
  | x :: s, y :: n => match cmp_mapping x y with Eq => cmp_key s n | r => r end
  | [], [] => Eq
  | _ :: _, [] => Gt
  | [], _ :: _ => Lt
  end.
Lemma cmp_str_key : forall fold fuel name n s, decodes utf8_next name n -> (length name < fuel)%nat ->
  cmp_str fold fuel name s = Ok (cmp_key (name_key fold s) (name_key fold n)).
Proof.
  induction fuel as [|fuel IH]; intros name n s H L; [lia|].
  destruct H as [|l c r n Hn Hl Hr]; [destruct s; reflexivity|].
  destruct l as [|x l]; [congruence|]. destruct s as [|d s]; [reflexivity|].
  cbn [cmp_str]. rewrite Hn. cbn [bind name_key map cmp_key].
  destruct (cmp_mapping _ _); try reflexivity.
  apply IH; [exact Hr|]. apply utf8_decoder in Hn. cbn [length] in *. lia.
Qed.

Lemma cmp_key_eq : forall a b, cmp_key a b = Eq <-> a = b.
Proof.
  induction a as [|x a IH]; intros [|y b]; cbn [cmp_key]; split; try reflexivity; try discriminate.
  - destruct (cmp_mapping x y) eqn:E; try discriminate. apply cmp_mapping_eq in E. intro H. apply IH in H. congruence.
  - intro H. injection H as -> ->. rewrite (proj2 (cmp_mapping_eq y y) eq_refl). apply IH. reflexivity.
Qed.
Lemma cmp_key_lt : forall a b, cmp_key a b = Lt <-> key_lt a b.
Proof.
  induction a as [|x a IH]; intros [|y b]; cbn [cmp_key]; split; try discriminate; try (intro H; inversion H; fail).
  - intros _. apply key_prefix.
  - reflexivity.
  - destruct (cmp_mapping x y) eqn:E; try discriminate; intro H.
    + apply cmp_mapping_eq in E. subst. apply key_tail, IH, H.
    + apply key_head, cmp_mapping_lt, E.
  - intro H. inversion H as [|? ? ? ? K|? ? ? K]; subst.
    + apply cmp_mapping_lt in K. rewrite K. reflexivity.
    + rewrite (proj2 (cmp_mapping_eq y y) eq_refl). apply IH, K.
Qed.
Lemma cmp_key_opp : forall a b, cmp_key b a = CompOpp (cmp_key a b).
Proof.
  induction a as [|x a IH]; intros [|y b]; cbn [cmp_key]; try reflexivity.
  rewrite (cmp_mapping_opp x). destruct (cmp_mapping x y); cbn [CompOpp]; try reflexivity. apply IH.
Qed.

(* ---- the trailing end-of-string character ---- *)

Lemma strip_snoc : forall l, strip (l ++ [0]) = l.
Proof. intro l. unfold strip. rewrite rev_app_distr. cbn [rev app]. apply rev_involutive. Qed.
Lemma strip_not : forall l c, c <> 0 -> strip (l ++ [c]) = l ++ [c].
Proof.
  intros l c H. unfold strip. rewrite rev_app_distr. cbn [rev app]. destruct c; [congruence|reflexivity|reflexivity].
Qed.
Lemma strip_cases : forall l, strip l = l \/ l = strip l ++ [0].
Proof.
  intro l. destruct (rev l) as [|x r] eqn:E.
  - left. unfold strip. rewrite E. reflexivity.
  - assert (l = rev r ++ [x]) as -> by (rewrite <- (rev_involutive l), E; reflexivity).
    destruct (Z.eq_dec x 0) as [->|N].
    + right. rewrite strip_snoc. reflexivity.
    + left. apply strip_not, N.
Qed.
Lemma concat_snoc : forall {A} (f : Z -> list A) s c, concat (map f (s ++ [c])) = concat (map f s) ++ f c.
Proof. intros. rewrite map_app, concat_app. cbn [map concat]. rewrite app_nil_r. reflexivity. Qed.
Lemma strip_enc : forall f : Z -> list Z, f 0 = [0] ->
  (forall c, scalar c -> c <> 0 -> exists h t, f c = h ++ [t] /\ t <> 0) ->
  forall s, Forall scalar s -> strip (concat (map f s)) = concat (map f (strip s)).
Proof.
  intros f Z0 Hf s H. destruct s as [|d s] using rev_ind; [reflexivity|]. clear IHs.
  rewrite concat_snoc. apply Forall_app in H. destruct H as [_ H]. apply Forall_inv in H.
  destruct (Z.eq_dec d 0) as [->|N].
  - rewrite Z0, !strip_snoc. reflexivity.
  - destruct (Hf d H N) as (h & t & E & Ht). rewrite E, app_assoc, (strip_not _ t Ht), (strip_not s d N).
    rewrite concat_snoc, E, app_assoc. reflexivity.
Qed.
Lemma strip_utf8 : forall s, Forall scalar s -> strip (utf8 s) = utf8 (strip s).
Proof.
  apply strip_enc; [reflexivity|]. intros c [H|H] N; unfold utf8_char.
  - destruct (c <? 0x80); [exists [], c; split; [reflexivity|lia]|].
    destruct (c <? 0x800); [eexists [_], _; split; [reflexivity|lia]|].
    destruct (c <? 0x10000); [eexists [_; _], _; split; [reflexivity|lia]|].
    eexists [_; _; _], _; split; [reflexivity|lia].
  - destruct (c <? 0x80); [exists [], c; split; [reflexivity|lia]|].
    destruct (c <? 0x800); [eexists [_], _; split; [reflexivity|lia]|].
    destruct (c <? 0x10000); [eexists [_; _], _; split; [reflexivity|lia]|].
    eexists [_; _; _], _; split; [reflexivity|lia].
Qed.
Lemma strip_utf16 : forall s, Forall scalar s -> strip (utf16 s) = utf16 (strip s).
Proof.
  apply strip_enc; [reflexivity|]. intros c H N; unfold utf16_char.
  destruct (c <? 0x10000); [exists [], c; split; [reflexivity|lia]|].
  eexists [_], _; split; [reflexivity|lia].
Qed.
Lemma strip_scalar : forall s, Forall scalar s -> Forall scalar (strip s).
Proof.
  intros s H. destruct (strip_cases s) as [E|E]; [rewrite E; exact H|].
  rewrite E in H. apply Forall_app in H. apply H.
Qed.

Lemma compare_utf8_cmp : forall fold a b, a <> [] -> compare_utf8 fold a b = cmp fold (strip a) (strip b).
Proof.
  intros fold a b H. unfold compare_utf8, name_compare. destruct a as [|x a]; [congruence|].
  assert (len (x :: a) =? 0 = false) as -> by (rewrite len_cons; pose proof (len_nonneg a); apply Z.eqb_neq; lia).
  reflexivity.
Qed.

(* ---- the hash ---- *)

Fixpoint hash_str (fold : bool) (s : list Z) (crc : Z) : res Z :=
  match s with
  | [] => Ok crc
  | c :: s => if c =? 0 then Ok crc else let! crc := hash_chars (hash_of fold c) crc in hash_str fold s crc
  end.
Lemma hash_loop_str : forall next fold, decoder next -> forall str s, decodes next str s ->
  forall fuel crc, (length str <= fuel)%nat -> hash_loop next fold fuel str crc = hash_str fold s crc.
Proof.
  intros next fold D str s H. induction H as [|l c r s Hn Hl Hr IH]; intros fuel crc L; [destruct fuel; reflexivity|].
  destruct l as [|x l]; [congruence|]. destruct fuel as [|fuel]; [cbn [length] in L; lia|].
  cbn [hash_loop]. rewrite Hn. cbn [bind hash_str]. destruct (c =? 0); [reflexivity|].
  rewrite hash_map_ok. cbn [bind]. destruct (hash_chars _ crc); try reflexivity. cbn [bind].
  apply IH. apply D in Hn. cbn [length] in *. lia.
Qed.
Lemma name_hash_str : forall next fold str s, decoder next -> decodes next str s ->
  name_hash next fold str = let! crc := hash_str fold s 0xffffffff in Ok (Z.land crc 0x3fffff).
Proof.
  intros next fold str s D H. unfold name_hash. rewrite (hash_loop_str next fold D str s H) by lia. reflexivity.
Qed.

Lemma decodes_snoc : forall next l s, decoder next -> next [0] = Ok (0, []) -> decodes next l s -> decodes next (l ++ [0]) (s ++ [0]).
Proof.
  intros next l s D Z0 H. induction H as [|l c r s Hn Hl Hr IH].
  - eapply dec_cons; [exact Z0|discriminate|apply dec_nil].
  - cbn [app]. eapply dec_cons; [apply D; exact Hn| |exact IH]. destruct l; discriminate.
Qed.
Lemma hash_str_snoc : forall fold s crc, hash_str fold (s ++ [0]) crc = hash_str fold s crc.
Proof.
  induction s as [|c s IH]; intro crc; [reflexivity|]. cbn [app hash_str]. destruct (c =? 0); [reflexivity|].
  destruct (hash_chars _ crc); try reflexivity. cbn [bind]. apply IH.
Qed.
Lemma name_hash_strip : forall next fold str s, decoder next -> next [0] = Ok (0, []) -> decodes next (strip str) s ->
  name_hash next fold str = let! crc := hash_str fold s 0xffffffff in Ok (Z.land crc 0x3fffff).
Proof.
  intros next fold str s D Z0 H. destruct (strip_cases str) as [E|E].
  - rewrite E in H. apply name_hash_str; assumption.
  - apply (decodes_snoc _ _ _ D Z0) in H. rewrite <- E in H. rewrite (name_hash_str _ _ _ _ D H), hash_str_snoc. reflexivity.
Qed.

Lemma cmp_eq_decodes : forall next fold fuel name str, cmp_loop next fold fuel name str = Ok Eq ->
  exists n s, decodes utf8_next name n /\ decodes next str s /\ name_key fold n = name_key fold s.
Proof.
  induction fuel as [|fuel IH]; intros name str H; [discriminate|].
  destruct name as [|x name]; destruct str as [|y str]; try discriminate.
  - exists [], []. repeat split; apply dec_nil.
  - rewrite cmp_loop_step in H. destruct (utf8_next (x :: name)) as [[c name']| | |] eqn:E; try discriminate.
    cbn [bind] in H. destruct (next (y :: str)) as [[d str']| | |] eqn:F; try discriminate. cbn [bind] in H.
    destruct (cmp_mapping _ _) eqn:C; try discriminate. apply cmp_mapping_eq in C.
    apply IH in H. destruct H as (n & s & Hn & Hs & K).
    exists (c :: n), (d :: s). split; [|split].
    + eapply dec_cons; [exact E|discriminate|exact Hn].
    + eapply dec_cons; [exact F|discriminate|exact Hs].
    + unfold name_key in *. cbn [map]. rewrite C, K. reflexivity.
Qed.
Lemma folded_zero : forall fold c, nfd_of (folded fold c) = [0] -> c = 0.
Proof. intros [] c H; apply nfd_zero in H; cbn [folded] in H; [apply fold_zero|]; exact H. Qed.
Lemma nfd_0 : forall fold, nfd_of (folded fold 0) = [0].
Proof. intros []; reflexivity. Qed.
Lemma hash_str_key : forall fold n s crc, name_key fold n = name_key fold s -> hash_str fold n crc = hash_str fold s crc.
Proof.
  induction n as [|c n IH]; intros [|d s] crc H; [reflexivity|discriminate|discriminate|].
  unfold name_key in *. cbn [map] in H.
  remember (nfd_of (folded fold c)) as x eqn:X. remember (nfd_of (folded fold d)) as y eqn:Y.
  injection H as H1 H2. subst x y.
  cbn [hash_str]. destruct (c =? 0) eqn:E.
  - apply Z.eqb_eq in E. subst c. rewrite nfd_0 in H1. symmetry in H1. apply folded_zero in H1. subst d. reflexivity.
  - destruct (d =? 0) eqn:F.
    + apply Z.eqb_eq in F. subst d. rewrite nfd_0 in H1. apply folded_zero in H1. subst c. discriminate.
    + rewrite (same_hash fold c d H1). destruct (hash_chars _ crc); try reflexivity. cbn [bind]. apply IH, H2.
Qed.
