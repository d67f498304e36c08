(* C95, C96: the volumes and the file entries that the options select. *)
From Verif Require Import Base BaseLemmas Walk Omap OmapSpec Records FsTree TreeSpec TreeProofs FsSpec FsTop FsLookup PropFs ToolInfo ToolInfoSpec PropToolInfo ToolOpt ToolOptSpec ToolMain ToolMainSpec.

(* ---- the options ---- *)
Lemma request_app a b : request_of (a ++ b) = fold_left request_step b (request_of a).
Proof. apply fold_left_app. Qed.
Lemma request_keeps b q : (forall c v, In (c, v) b -> ~ In c [opt_E; opt_F; opt_H]) -> fold_left request_step b q = q.
Proof.
  revert q. induction b as [|(c, v) b IH]; intros q N; [reflexivity|]. cbn [fold_left]. rewrite IH by (intros d w I; apply (N d w); right; exact I).
  unfold request_step. cbn [fst snd]. pose proof (N c v (or_introl eq_refl)) as X. cbn [In] in X.
  rewrite (proj2 (Z.eqb_neq c opt_E)), (proj2 (Z.eqb_neq c opt_F)), (proj2 (Z.eqb_neq c opt_H)) by (intros ->; apply X; auto). reflexivity.
Qed.
Lemma request_last o c v : last_of [opt_E; opt_F; opt_H] o (Some (c, v)) -> request_of o = request_step QContainer (c, v).
Proof.
  intros L. inversion L as [|a c' v' b I N E1 E2]; subst. rewrite request_app. cbn [fold_left]. rewrite request_keeps by exact N.
  unfold request_step. cbn [fst snd In] in *. destruct (c =? opt_E) eqn:X1; [reflexivity|]. destruct (c =? opt_F) eqn:X2; [reflexivity|]. destruct (c =? opt_H) eqn:X3; [reflexivity|].
  exfalso. destruct I as [I|[I|[I|[]]]]; subst c; rewrite Z.eqb_refl in *; discriminate.
Qed.
Lemma all_text s v : decimal s v -> s <> [97; 108; 108].
Proof. intros (_ & D & _) ->. inversion D as [|? ? X _]; subst. unfold digit in X. lia. Qed.
Lemma mode_id s v : decimal s v -> len s <= 21 -> v < 2 ^ 60 -> mode_of (QIdentifier (Some s)) = Ok (MId v).
Proof.
  intros D L B. pose proof (all_text s v D) as N. destruct (C79_option_number_partial s v D ltac:(lia) L) as (E & _).
  assert (X : mode_of (QIdentifier (Some s)) = (let! v := option_value s in let! _ := check (negb (0x0fffffffffffffff <? v)) in Ok (MId v))).
  { unfold mode_of. destruct s as [|a [|b [|c [|d s]]]]; try reflexivity.
    all: repeat (match goal with |- context [match ?x with _ => _ end] => is_var x; destruct x end; try reflexivity). all: contradiction. }
  rewrite X, E. cbn [bind]. rewrite (proj2 (Z.ltb_ge _ _)) by lia. reflexivity.
Qed.
Lemma asks_mode o m : asks o m -> mode_of (request_of o) = Ok m.
Proof.
  intros [L|v L|p L|L|s v L D N B].
  - inversion L as [l N E1 E2|]; subst. unfold request_of. rewrite request_keeps by exact N. reflexivity.
  - rewrite (request_last o _ _ L). reflexivity.
  - rewrite (request_last o _ _ L). reflexivity.
  - rewrite (request_last o _ _ L). reflexivity.
  - rewrite (request_last o _ _ L). apply mode_id; assumption.
Qed.
Lemma index_keeps (b : given) v : (forall d w, In (d, w) b -> ~ In d [opt_f]) -> fold_left (fun v o => if fst o =? opt_f then snd o else v) b v = v.
Proof.
  revert v. induction b as [|(c, w) b IH]; intros v N; [reflexivity|]. cbn [fold_left]. cbn [fst snd]. pose proof (N c w (or_introl eq_refl)) as X. cbn [In] in X.
  rewrite (proj2 (Z.eqb_neq c opt_f)) by (intros ->; apply X; auto). apply IH. intros d u I. apply (N d u). right. exact I.
Qed.
Lemma index_last o s : last_of [opt_f] o (Some (opt_f, s)) -> file_system_index o = match s with None => 0 | Some s => match set_file_system_index s with Ok v => v | _ => 0 end end.
Proof. intros L. inversion L as [|a c' v' b I N E1 E2]; subst. unfold file_system_index. rewrite fold_left_app. cbn [fold_left fst snd]. rewrite Z.eqb_refl, index_keeps by exact N. reflexivity. Qed.
Lemma index_asked o k : asks_volume o k -> file_system_index o = k.
Proof.
  intros (s & L & D & B & K). rewrite (index_last o _ L). unfold set_file_system_index. destruct (C79_option_number_partial s k D ltac:(lia) B) as (-> & _). cbn [bind].
  rewrite (proj2 (Z.eqb_neq k 0)), (proj2 (Z.ltb_ge _ _)) by lia. reflexivity.
Qed.
Lemma index_none o : asks_no_volume o -> file_system_index o = 0.
Proof. intros L. inversion L as [l N E1 E2|]; subst. unfold file_system_index. rewrite index_keeps by exact N. reflexivity. Qed.

(* ---- the volumes ---- *)
Lemma upward_nth k : forall i j, (j < k)%nat -> nth_error (upward k i) j = Some (i + Z.of_nat j).
Proof. induction k as [|k IH]; intros i j L; [lia|]. destruct j as [|j]; cbn [upward nth_error]; [f_equal; lia|]. rewrite IH by lia. f_equal. lia. Qed.
Lemma upward_len k i : len (upward k i) = Z.of_nat k.
Proof. revert i. induction k as [|k IH]; intros i; [reflexivity|]. cbn [upward]. rewrite len_cons, IH. lia. Qed.
Lemma upward_all n : 0 <= n -> all_volumes n (upward (Z.to_nat n) 0).
Proof. intros P. split; [rewrite upward_len; lia|]. intros k K. rewrite upward_nth by lia. f_equal. lia. Qed.
Lemma nth_ext_ {A} : forall a b : list A, (forall j, nth_error a j = nth_error b j) -> a = b.
Proof.
  induction a as [|x a IH]; intros [|y b] H; try reflexivity; try (specialize (H O); discriminate).
  pose proof (H O) as H0. cbn in H0. injection H0 as ->. f_equal. apply IH. intros j. exact (H (S j)).
Qed.
Lemma all_volumes_is n l : 0 <= n -> all_volumes n l -> l = upward (Z.to_nat n) 0.
Proof.
  intros P (L & A). apply nth_ext_. intros j. destruct (Nat.lt_ge_cases j (Z.to_nat n)) as [J|J].
  - specialize (A (Z.of_nat j)). rewrite Nat2Z.id in A. rewrite A by lia. rewrite upward_nth by exact J. f_equal.
  - pose proof (upward_len (Z.to_nat n) 0). unfold len in *. rewrite (proj2 (nth_error_None l j)) by lia. symmetry. apply nth_error_None. lia.
Qed.
Lemma upward_filter_one k i x : i <= x < i + Z.of_nat k -> filter (fun y => negb (negb (x + 1 =? 0) && negb (x + 1 =? y + 1))) (upward k i) = [x] \/ x + 1 = 0.
Proof.
  intros B. destruct (Z.eq_dec (x + 1) 0) as [E|E]; [right; exact E|left]. rewrite (proj2 (Z.eqb_neq _ _) E). cbn [negb andb].
  assert (HN : forall k i, x < i -> filter (fun y => negb (negb (x + 1 =? y + 1))) (upward k i) = []).
  { clear. induction k as [|k IH]; intros i L; [reflexivity|]. cbn [upward filter]. rewrite (proj2 (Z.eqb_neq _ _)) by lia. cbn [negb]. apply IH. lia. }
  revert i B. induction k as [|k IH]; intros i B; [lia|]. cbn [upward filter]. destruct (Z.eq_dec x i) as [->|N].
  - rewrite Z.eqb_refl. cbn [negb]. rewrite HN by lia. reflexivity.
  - rewrite (proj2 (Z.eqb_neq (x + 1) (i + 1))) by lia. cbn [negb]. apply IH. lia.
Qed.
Lemma upward_filter_all k i : filter (fun y => negb (negb (0 =? 0) && negb (0 =? y + 1))) (upward k i) = upward k i.
Proof. revert i. induction k as [|k IH]; intros i; [reflexivity|]. cbn [upward filter]. rewrite IH. reflexivity. Qed.
Lemma show_one show i : show_volumes show [i] = show i.
Proof. cbn [show_volumes]. destruct (show i) as (a & ok). destruct ok; [rewrite app_nil_r|]; reflexivity. Qed.
Lemma show_ok show l : Forall (fun i => snd (show i) = true) l -> show_volumes show l = (concat (map (fun i => fst (show i)) l), true).
Proof.
  induction 1 as [|i l H _ IH]; [reflexivity|]. cbn [show_volumes map concat]. rewrite IH. destruct (show i) as (a & ok). cbn [fst snd] in *. subst ok. reflexivity.
Qed.
Lemma show_stop show a i b : Forall (fun i => snd (show i) = true) a -> snd (show i) = false ->
  show_volumes show (a ++ i :: b) = (concat (map (fun i => fst (show i)) (a ++ [i])), false).
Proof.
  intros A F. induction A as [|x a H _ IH].
  - cbn [app show_volumes map concat]. destruct (show i) as (u & ok). cbn [fst snd] in *. subst ok. rewrite app_nil_r. reflexivity.
  - cbn [app show_volumes map concat]. rewrite IH. destruct (show x) as (u & ok). cbn [fst snd] in *. subst ok. reflexivity.
Qed.

(* With -f k the volume k is mounted, and shown in every mode but the one for the container. Without
   -f the only volume, or all volumes in their order; a volume that cannot be shown ends the output. *)
Theorem C95_volumes : forall show n o m, 1 <= n <= 100 -> asks o m ->
  (forall k, asks_volume o k -> k <= n -> mount_run n o = Ok (k - 1) /\ (m <> MContainer -> info_run show n o = show m (k - 1))) /\
  (asks_no_volume o -> n = 1 -> mount_run n o = Ok 0 /\ info_run show n o = show m 0) /\
  (asks_no_volume o -> m = MContainer \/ m = MHierarchy -> forall l, all_volumes n l ->
    (Forall (fun i => snd (show m i) = true) l -> info_run show n o = (concat (map (fun i => fst (show m i)) l), true)) /\
    (forall a i b, l = a ++ i :: b -> Forall (fun i => snd (show m i) = true) a -> snd (show m i) = false ->
      info_run show n o = (concat (map (fun i => fst (show m i)) (a ++ [i])), false))).
Proof.
  intros show n o m N A. unfold info_run, mount_run. rewrite (asks_mode o m A).
  assert (HO : forall k, 1 <= k <= n -> one_volume k n = Ok (k - 1)).
  { intros k K. unfold one_volume. rewrite (proj2 (Z.eqb_neq k 0)) by lia. cbn [andb]. rewrite (proj2 (Z.leb_gt _ _)), (proj2 (Z.ltb_ge _ _)) by lia. reflexivity. }
  split; [|split].
  - intros k K L. rewrite (index_asked o k K). destruct K as (_ & _ & _ & _ & K). split; [apply HO; lia|]. intros NC.
    assert (V : visited m k n = Ok [k - 1]).
    { destruct m; try contradiction; cbn [visited]; try (rewrite HO by lia; reflexivity). rewrite (proj2 (Z.ltb_ge k 0)), (proj2 (Z.ltb_ge n k)) by lia. cbn [orb negb check bind].
      pose proof (upward_filter_one (Z.to_nat n) 0 (k - 1) ltac:(lia)) as X. replace (k - 1 + 1) with k in X by lia. destruct X as [->|X]; [reflexivity|lia]. }
    rewrite V. apply show_one.
  - intros I ->. rewrite (index_none o I). split; [reflexivity|]. replace (visited m 0 1) with (@Ok (list Z) [0]) by (destruct m; reflexivity). apply show_one.
  - intros I M l AL. rewrite (index_none o I). apply all_volumes_is in AL; [|lia].
    assert (V : visited m 0 n = Ok l).
    { destruct M as [->| ->]; cbn [visited]; [rewrite AL; reflexivity|]. change (0 <? 0) with false. rewrite (proj2 (Z.ltb_ge n 0)) by lia. cbn [orb negb check bind]. rewrite upward_filter_all, AL. reflexivity. }
    rewrite V. split; [apply show_ok|]. intros a i b -> F X. apply show_stop; assumption.
Qed.
Print Assumptions C95_volumes.
(* A volume that is not there is refused, and so is none where there are several and one is needed. A
   number that cannot be one of a volume counts as none. *)
Theorem C95_range : forall show n o m, 1 <= n <= 100 -> asks o m ->
  (forall k, asks_volume o k -> n < k -> mount_run n o = Fail /\ (m <> MContainer -> info_run show n o = ([], false))) /\
  (asks_no_volume o -> n <> 1 -> mount_run n o = Fail /\ (m <> MContainer -> m <> MHierarchy -> info_run show n o = ([], false))) /\
  (forall s k, last_of [opt_f] o (Some (opt_f, Some s)) -> decimal s k -> len s <= 21 -> k = 0 \/ 100 < k < 2 ^ 64 ->
    file_system_index o = 0 /\ (n = 1 -> mount_run n o = Ok 0) /\ (n <> 1 -> mount_run n o = Fail)).
Proof.
  intros show n o m N A. unfold info_run, mount_run. rewrite (asks_mode o m A). unfold one_volume. split; [|split].
  - intros k K L. rewrite (index_asked o k K). destruct K as (_ & _ & _ & _ & K). unfold visited, one_volume. rewrite (proj2 (Z.eqb_neq k 0)) by lia. cbn [andb].
    replace ((k <=? 0) || (n <? k)) with true by lia. replace ((k <? 0) || (n <? k)) with true by lia. split; [reflexivity|]. intros NC. destruct m; try contradiction; reflexivity.
  - intros K L. rewrite (index_none o K). unfold visited, one_volume. change (0 =? 0) with true. rewrite (proj2 (Z.eqb_neq n 1)) by lia. cbn [andb]. change (0 <=? 0) with true. cbn [orb negb check bind].
    split; [reflexivity|]. intros M1 M2. destruct m; try contradiction; reflexivity.
  - intros s k K D L R. assert (E : file_system_index o = 0).
    { rewrite (index_last o _ K). unfold set_file_system_index. destruct (C79_option_number_partial s k D ltac:(lia) L) as (-> & _). cbn [bind]. replace ((k =? 0) || (100 <? k)) with true by lia. reflexivity. }
    rewrite E. change (0 =? 0) with true. cbn [andb]. split; [reflexivity|]. split; intros H; [subst n; reflexivity|]. rewrite (proj2 (Z.eqb_neq n 1)) by exact H. reflexivity.
Qed.
Print Assumptions C95_range.

(* Three volumes, each with a line that holds its index and the mode. *)
Definition xm_show (m : mode) (i : Z) : list (list Z) * bool :=
  ([[match m with MContainer => 1 | MEntries => 2 | MId _ => 3 | MPath _ => 4 | MHierarchy => 5 end; i]], negb (i =? 1)).
Example C95_example :
  info_run xm_show 3 [(102, Some [51]); (72, None)] = ([[5; 2]], true) /\
  info_run xm_show 3 [(72, None)] = ([[5; 0]; [5; 1]], false) /\
  info_run xm_show 3 [(72, None); (102, Some [50]); (69, Some [49; 54]); (102, Some [49])] = ([[3; 0]], true) /\
  info_run xm_show 3 [(69, Some [49; 54])] = ([], false) /\ mount_run 3 [(102, Some [50])] = Ok 1 /\ mount_run 3 [(102, Some [52])] = Fail.
Proof. vm_compute. auto 10. Qed.

Lemma last_f v : last_of [opt_f] [(opt_f, v)] (Some (opt_f, v)).
Proof. apply (last_some [opt_f] [] opt_f v []); [left; reflexivity|intros d w []]. Qed.
(* The index is not used when the container is shown. *)
Theorem C95_container_refuted : exists o k, asks o MContainer /\ asks_volume o k /\ 1 <= k <= 2 /\
  forall show, snd (show MContainer 0) = true -> snd (show MContainer 1) = true -> info_run show 2 o = (fst (show MContainer 0) ++ fst (show MContainer 1), true).
Proof.
  exists [(opt_f, Some [50])], 2. split; [|split; [|split; [lia|]]].
  - apply asks_container. apply last_none. intros c v [E|[]]. injection E as <- <-. vm_compute. intuition discriminate.
  - exists [50]. split; [apply last_f|]. split; [|split; [vm_compute; discriminate|lia]]. split; [discriminate|]. split; [repeat constructor; vm_compute; discriminate|reflexivity].
  - intros show A B. change (info_run show 2 [(opt_f, Some [50])]) with (show_volumes (show MContainer) [0; 1]). rewrite show_ok by (constructor; [exact A|constructor; [exact B|constructor]]).
    cbn [map concat]. rewrite app_nil_r. reflexivity.
Qed.
Print Assumptions C95_container_refuted.
(* An index that is not a number is taken as none: the program shows everything and succeeds. *)
Theorem C95_bad_index_refuted : exists o s, last_of [opt_f] o (Some (opt_f, Some s)) /\ (forall k, ~ decimal s k) /\ asks o MHierarchy /\
  forall show, snd (show MHierarchy 0) = true -> snd (show MHierarchy 1) = true -> info_run show 2 o = (fst (show MHierarchy 0) ++ fst (show MHierarchy 1), true).
Proof.
  exists [(opt_H, None); (opt_f, Some [50; 120])], [50; 120]. split; [|split; [|split]].
  - apply (last_some [opt_f] [(opt_H, None)] opt_f _ []); [left; reflexivity|intros d w []].
  - intros k (_ & D & _). inversion D as [|? ? _ D1]; subst. inversion D1 as [|? ? X _]; subst. unfold digit in X. lia.
  - apply (asks_hierarchy _ None). apply (last_some [opt_E; opt_F; opt_H] [] opt_H None [(opt_f, Some [50; 120])]); [vm_compute; auto|]. intros d w [E|[]]. injection E as <- <-. vm_compute. intuition discriminate.
  - intros show A B. change (info_run show 2 [(opt_H, None); (opt_f, Some [50; 120])]) with (show_volumes (show MHierarchy) [0; 1]). rewrite show_ok by (constructor; [exact A|constructor; [exact B|constructor]]).
    cbn [map concat]. rewrite app_nil_r. reflexivity.
Qed.
Print Assumptions C95_bad_index_refuted.
(* "all", which the help names, is refused when there are several volumes, by -E and by fsapfsmount. *)
Theorem C95_all_refuted : exists o, last_of [opt_f] o (Some (opt_f, Some [97; 108; 108])) /\ asks o (MId 2) /\ (forall show, info_run show 2 o = ([], false)) /\ mount_run 2 o = Fail.
Proof.
  exists [(opt_f, Some [97; 108; 108]); (opt_E, Some [50])]. split; [|split; [|split; [intros show; reflexivity|reflexivity]]].
  - apply (last_some [opt_f] [] opt_f _ [(opt_E, Some [50])]); [left; reflexivity|]. intros d w [E|[]]. injection E as <- <-. vm_compute. intuition discriminate.
  - apply (asks_id _ [50] 2); [|split; [discriminate|]; split; [repeat constructor; vm_compute; discriminate|reflexivity]|vm_compute; discriminate|lia].
    apply (last_some [opt_E; opt_F; opt_H] [(opt_f, Some [97; 108; 108])] opt_E _ []); [left; reflexivity|intros d w []].
Qed.
Print Assumptions C95_all_refuted.
(* A volume that cannot be read hides the ones after it. *)
Theorem C95_unreadable_refuted : exists show o x, asks o MHierarchy /\ asks_no_volume o /\ snd (show MHierarchy 1) = true /\ In x (fst (show MHierarchy 1)) /\
  ~ In x (fst (info_run show 2 o)).
Proof.
  exists (fun _ i => if i =? 0 then ([], false) else ([[47]], true)), [(opt_H, None)], [47]. split; [|split; [|split; [reflexivity|split; [left; reflexivity|vm_compute; auto]]]].
  - apply (asks_hierarchy _ None). apply (last_some _ [] opt_H None []); [vm_compute; auto|intros d w []].
  - apply last_none. intros c v [E|[]]. injection E as <- <-. vm_compute. intuition discriminate.
Qed.
Print Assumptions C95_unreadable_refuted.

(* ---- all file entries ---- *)
Lemma filter_split {A} (lt : A -> A -> Prop) (p q : A -> bool) l : ForallOrdPairs lt l ->
  (forall x y, lt x y -> q x = true -> p y = false) -> (forall x, p x = true -> q x = false) ->
  filter (fun x => p x || q x) l = filter p l ++ filter q l.
Proof.
  intros S HB HD. induction S as [|x l F S IH]; [reflexivity|]. cbn [filter]. rewrite IH. destruct (p x) eqn:P.
  - rewrite (HD x P). reflexivity.
  - cbn [orb]. destruct (q x) eqn:Q; [|reflexivity].
    assert (E : filter p l = []).
    { clear -F HB Q. induction F as [|y l H _ IH]; [reflexivity|]. cbn [filter]. rewrite (HB x y H Q). exact IH. }
    rewrite E. reflexivity.
Qed.
Lemma sorted_pairs lt l : sorted lt l -> ForallOrdPairs (fun x y : record => lt (fst x) (fst y)) l.
Proof. induction 1; constructor; assumption. Qed.
Section All.
  Variable tie : list Z -> list Z -> Prop.
  Hypothesis HTR : forall a b c, tie a b -> tie b c -> tie a c.
  Variable line : Z * inode -> list Z * bool.
  Variables (h : nat) (t : fs) (recs : list record).
  Hypothesis HT : fs_tree tie h t recs.
  Definition within (id : Z) (k : Z) (r : record) : bool := (kty (fst r) =? 3) && (id <=? kid (fst r)) && (kid (fst r) <? id + k).
  Definition printed_as (r : record) (e : Z * inode) : Prop := fst e = kid (fst r) /\ inode_value (snd r) = Ok (snd e).
  Lemma within_split id k : 0 <= k -> filter (within id (k + 1)) recs = filter (has 3 id) recs ++ filter (within (id + 1) k) recs.
  Proof.
    intros K. pose proof (sorted_pairs _ _ (fs_tree_sorted tie HTR h t recs HT)) as S1.
    rewrite <- (filter_split _ (has 3 id) (within (id + 1) k) recs S1).
    - apply filter_ext. intros r. unfold within, has. destruct (kty (fst r) =? 3) eqn:E; lia.
    - intros x y L Q. unfold fs_lt in L. unfold within, has in *. lia.
    - intros x P. unfold within, has in *. lia.
  Qed.
  Lemma one_inode id : filter (has 3 id) recs = [] \/ exists r, filter (has 3 id) recs = [r] /\ In r recs /\ has 3 id r = true.
  Proof.
    pose proof (fs_tree_sorted tie HTR h t recs HT) as HS.
    assert (HU : forall r, In r (filter (has 3 id) recs) -> In r recs /\ has 3 id r = true) by (intros r Hr; apply filter_In; exact Hr).
    assert (S1 : ForallOrdPairs (fun x y : record => fs_lt tie (fst x) (fst y)) (filter (has 3 id) recs)).
    { pose proof (sorted_pairs _ _ HS) as SP. clear HU HS HT. induction SP as [|x l F S IH]; [constructor|]. cbn [filter]. destruct (has 3 id x); [|exact IH]. constructor; [|exact IH].
      rewrite Forall_forall in *. intros y Hy. apply F. apply filter_In in Hy. apply Hy. }
    destruct (filter (has 3 id) recs) as [|r [|r' l]]; [left; reflexivity|right; exists r; destruct (HU r (or_introl eq_refl)); auto|]. exfalso.
    destruct (HU r (or_introl eq_refl)) as (_ & H1). destruct (HU r' (or_intror (or_introl eq_refl))) as (_ & H2).
    inversion S1 as [|? ? F _]; subst. inversion F as [|? ? L _]; subst. unfold fs_lt, tie_lt, has in *. assert (E3 : kty (fst r) = 3) by lia. rewrite E3 in L. change (3 =? 3) with true in L. cbv iota in L. lia.
  Qed.
  Lemma loop_is k : forall id, 0 <= id -> id + Z.of_nat k <= 2 ^ 60 ->
    (forall r, In r recs -> within id (Z.of_nat k) r = true -> exists v, inode_value (snd r) = Ok v /\ snd (line (kid (fst r), v)) = true) ->
    exists es, Forall2 printed_as (filter (within id (Z.of_nat k)) recs) es /\ entries_loop line t k id = (map (fun e => fst (line e)) es, true).
  Proof.
    induction k as [|k IH]; intros id P B HL.
    - exists []. split; [|reflexivity]. replace (filter (within id (Z.of_nat 0)) recs) with (@nil record); [constructor|]. symmetry.
      clear. induction recs as [|r l IH]; [reflexivity|]. cbn [filter]. replace (within id (Z.of_nat 0) r) with false by (unfold within; lia). exact IH.
    - replace (Z.of_nat (S k)) with (Z.of_nat k + 1) in * by lia. rewrite within_split by lia.
      destruct (IH (id + 1)) as (es & F & E); [lia|lia|intros r Hr W; apply HL; [exact Hr|unfold within in *; lia]|].
      cbn [entries_loop]. destruct (C17_inode_by_identifier_partial tie h t recs id HTR HT ltac:(lia)) as (C1 & C2).
      destruct (one_inode id) as [E0|(r & E0 & Hr & H3)]; rewrite E0.
      + rewrite C2.
        * exists es. split; [exact F|exact E].
        * intros r Hr. destruct (has 3 id r) eqn:X; [|reflexivity]. exfalso. assert (Y : In r (filter (has 3 id) recs)) by (apply filter_In; auto). rewrite E0 in Y. exact Y.
      + destruct (HL r Hr) as (v & V & LV); [unfold within, has in *; lia|]. rewrite (C1 r Hr H3), V. cbn [bind].
        assert (KID : kid (fst r) = id) by (unfold has in H3; lia). rewrite KID in LV. exists ((id, v) :: es). split.
        * cbn [app]. constructor; [split; [symmetry; exact KID|exact V]|exact F].
        * rewrite E. cbn [map]. destruct (line (id, v)) as (a & ok). cbn [fst snd] in *. subst ok. reflexivity.
  Qed.
End All.
(* -E all prints every file entry below the next identifier once, in the order of the identifiers, and
   succeeds, when each of them can be printed. *)
Theorem C96_all_entries : forall (tie : list Z -> list Z -> Prop) h t recs line next, (forall a b c, tie a b -> tie b c -> tie a c) -> fs_tree tie h t recs -> 0 <= next <= 2 ^ 60 ->
  (forall r, In r recs -> entry_record next r = true -> exists v, inode_value (snd r) = Ok v /\ snd (line (kid (fst r), v)) = true) ->
  exists es, Forall2 (fun r e => fst e = kid (fst r) /\ inode_value (snd r) = Ok (snd e)) (filter (entry_record next) recs) es /\
    file_entries line t next = (map (fun e => fst (line e)) es, true).
Proof.
  intros tie h t recs line next HTR HT N HL. assert (E : forall r, entry_record next r = within 0 (Z.of_nat (Z.to_nat next)) r).
  { intros r. unfold entry_record, within. assert (0 <= kid (fst r)) by (unfold kid; apply Z.mod_pos_bound; lia). lia. }
  destruct (loop_is tie HTR line h t recs HT (Z.to_nat next) 0) as (es & F & R); [lia|lia|intros r Hr W; apply HL; [exact Hr|rewrite E; exact W]|].
  exists es. split; [|exact R]. rewrite (filter_ext _ _ E). exact F.
Qed.
Print Assumptions C96_all_entries.
Example C96_example : file_entries (fun e => ([fst e; in_owner (snd e)], true)) fx 20 = ([[2; 501]; [16; 501]], true) /\
  file_entries (fun e => ([fst e], negb (fst e =? 2))) fx 20 = ([[2]], false).
Proof. vm_compute. auto. Qed.
(* An entry whose identifier is not below the next one that the volume notes is not shown. *)
Theorem C96_next_refuted : exists (tie : list Z -> list Z -> Prop) h t recs next r, (forall a b c, tie a b -> tie b c -> tie a c) /\ fs_tree tie h t recs /\ 0 <= next < 2 ^ 64 /\
  In r recs /\ kty (fst r) = 3 /\ forall line, (forall e, snd (line e) = true) -> exists e, fst e <> kid (fst r) /\ file_entries line t next = ([fst (line e)], true).
Proof.
  exists fx_tie, 1%nat, fx, fx_recs, 16, (fx_inode 16). split; [unfold fx_tie; intros; lia|]. split; [exact fx_tree|]. split; [lia|]. split; [cbn; auto 10|]. split; [vm_compute; reflexivity|].
  intros line L. destruct (C96_all_entries fx_tie 1%nat fx fx_recs line 16) as (es & F & R); [unfold fx_tie; intros; lia|exact fx_tree|lia| |].
  - intros r Hr ER. assert (HI : exists v, inode_value (snd r) = Ok v).
    { assert (K3 : kty (fst r) =? 3 = true) by (unfold entry_record in ER; lia). clear ER. cbn in Hr.
      repeat (destruct Hr as [<-|Hr]; [vm_compute in K3; try discriminate K3; eexists; vm_compute; reflexivity|]). contradiction. }
    destruct HI as (v & V). exists v. split; [exact V|apply L].
  - assert (EF : filter (entry_record 16) fx_recs = [fx_inode 2]) by (vm_compute; reflexivity). rewrite EF in F. inversion F as [|? e ? es' (F1 & _) F2]; subst. inversion F2; subst.
    exists e. split; [rewrite F1; vm_compute; discriminate|exact R].
Qed.
Print Assumptions C96_next_refuted.
(* An entry that cannot be printed hides the ones after it. *)
Theorem C96_unprintable_refuted : exists (tie : list Z -> list Z -> Prop) h t recs next r, (forall a b c, tie a b -> tie b c -> tie a c) /\ fs_tree tie h t recs /\
  In r recs /\ entry_record next r = true /\ exists line, snd (line (kid (fst r), match inode_value (snd r) with Ok v => v | _ => Build_inode 0 0 0 0 0 0 0 0 0 0 0 None 0 0 end)) = true /\
    ~ In (fst (line (kid (fst r), match inode_value (snd r) with Ok v => v | _ => Build_inode 0 0 0 0 0 0 0 0 0 0 0 None 0 0 end))) (fst (file_entries line t next)).
Proof.
  exists fx_tie, 1%nat, fx, fx_recs, 20, (fx_inode 16). split; [unfold fx_tie; intros; lia|]. split; [exact fx_tree|]. split; [cbn; auto 10|]. split; [vm_compute; reflexivity|].
  exists (fun e => ([fst e], negb (fst e =? 2))). split; [vm_compute; reflexivity|]. vm_compute. intuition discriminate.
Qed.
Print Assumptions C96_unprintable_refuted.
