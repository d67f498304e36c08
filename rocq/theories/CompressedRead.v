(* Proofs about reading compressed files through the block cache. *)
From Verif Require Import Base BaseLemmas Deflate Compressed CompressedSpec CompressedProofs.
Ltac Zify.zify_post_hook ::= Z.div_mod_to_equations.

Lemma cut_nth C : forall l i c, nth_error (cut C l) i = Some c ->
  exists o e, nth_error l i = Some o /\ nth_error l (S i) = Some e /\ c = slice C o (e - o).
Proof.
  induction l as [|o [|e l] IH]; intros i c H; try (destruct i; discriminate).
  destruct i as [|i].
  - exists o, e. cbn in *. repeat split; auto. congruence.
  - apply (IH i c) in H. exact H.
Qed.

Lemma cut_len C : forall l, l <> [] -> length (cut C l) = (length l - 1)%nat.
Proof.
  induction l as [|o [|e l] IH]; intros H; [congruence|reflexivity|].
  change (length (cut C (o :: e :: l))) with (S (length (cut C (e :: l)))). rewrite IH by congruence. cbn [length]. lia.
Qed.

Lemma steps_nth : forall l prev i o e, steps_ok prev l -> nth_error (prev :: l) i = Some o ->
  nth_error (prev :: l) (S i) = Some e -> o <= e <= o + 65537.
Proof.
  induction l as [|x l IH]; intros prev i o e S H1 H2.
  - destruct i as [|i]; cbn in H2; [discriminate|destruct i; discriminate].
  - destruct S as (S1 & S2). destruct i as [|i].
    + cbn in H1, H2. assert (o = prev) by congruence. assert (e = x) by congruence. lia.
    + eapply (IH x i); eauto.
Qed.
Lemma steps_nonneg : forall l prev i o, 0 <= prev -> steps_ok prev l -> nth_error (prev :: l) i = Some o -> 0 <= o.
Proof.
  induction l as [|x l IH]; intros prev i o P S H.
  - destruct i as [|i]; cbn in H; [congruence|destruct i; discriminate].
  - destruct S as (S1 & S2). destruct i as [|i]; [cbn in H; congruence|]. eapply (IH x i); eauto; lia.
Qed.

Section Read.

Variable dec : list Z -> Z -> res (list Z).
Variable junk : list Z -> list Z -> list Z.
Variable method : Z.
Variable C : list Z.
Variable usize : Z.
Variable offs : list Z.
Variable sts : list (option (list Z)).

Hypothesis junk_len : forall d s, len (junk d s) = len s.
Hypothesis not_unknown5 : method <> METHOD_UNKNOWN5.
Hypothesis table : get_block_offsets method (mem C) = Ok offs.
Hypothesis offs_ok : offsets_ok offs.
Hypothesis offs_len : 2 <= len offs <= 16385.
Hypothesis offs_end : forall o, In o offs -> o <= len C.
Hypothesis states : block_states dec usize 0 (cut C offs) sts.
Hypothesis size_ok : 65536 * (len sts - 1) < usize <= 65536 * len sts.

Lemma states_nth : forall i0 comps s, block_states dec usize i0 comps s -> forall i st, nth_error s i = Some st ->
  exists c, nth_error comps i = Some c /\ block_state dec usize (i0 + Z.of_nat i) c st.
Proof.
  induction 1 as [|i0 c st comps s B _ IH]; intros j st' H.
  - destruct j; discriminate.
  - destruct j as [|j].
    + exists c. cbn in *. assert (st' = st) as -> by congruence. rewrite Z.add_0_r. auto.
    + destruct (IH j st' H) as (c' & H1 & H2). exists c'. split; auto.
      replace (i0 + Z.of_nat (S j)) with (i0 + 1 + Z.of_nat j) by lia. auto.
Qed.

Lemma sts_le : len sts <= len offs - 1.
Proof.
  assert (length sts <= length (cut C offs))%nat.
  { clear - states. induction states; cbn; lia. }
  assert (offs <> []) by (intros E; rewrite E in offs_len; cbn in offs_len; lia).
  rewrite cut_len in H by auto. unfold len in *. lia.
Qed.

(* Reading block i delivers its compressed bytes. *)
Lemma load_data i st : 0 <= i -> nth_error sts (Z.to_nat i) = Some st ->
  exists c, block_state dec usize i c st /\
  block_data (mem C) offs i = Ok c.
Proof.
  intros Hi H. destruct (states_nth 0 _ _ states (Z.to_nat i) st H) as (c & H1 & H2).
  rewrite Z.add_0_l, Z2Nat.id in H2 by auto. exists c. split; auto.
  destruct (cut_nth _ _ _ _ H1) as (o & e & N1 & N2 & ->).
  assert (L1 : (S (Z.to_nat i) < length offs)%nat) by (apply nth_error_Some; congruence).
  assert (R : o <= e <= o + 65537 /\ 0 <= o /\ e <= len C).
  { destruct offs as [|p l] eqn:Q; [destruct offs_ok|]. destruct offs_ok as (P0 & P1).
    split; [eapply steps_nth; eauto|]. split; [eapply (steps_nonneg l p (Z.to_nat i)); eauto|].
    apply offs_end. eapply nth_error_In; eauto. }
  assert (G1 : getb offs i = Ok o).
  { unfold getb. replace ((0 <=? i) && (i <? len offs)) with true by (unfold len; lia). rewrite N1. auto. }
  assert (G2 : getb offs (i + 1) = Ok e).
  { unfold getb. replace ((0 <=? i + 1) && (i + 1 <? len offs)) with true by (unfold len; lia).
    replace (Z.to_nat (i + 1)) with (S (Z.to_nat i)) by lia. rewrite N2. auto. }
  unfold block_data. rewrite G1, G2. cbn [bind]. cbv zeta. unfold mem, src_read, stream_read, w64. rewrite Z.mod_small by lia.
  replace ((0 <=? o) && (0 <=? e - o) && (e - o <=? 2 ^ 63 - 1)) with true by lia. cbn [check bind].
  rewrite Z.min_l by lia. rewrite len_slice by lia. unfold BLOCK.
  replace (65536 + 1 <? e - o) with false by lia. cbn [bind]. rewrite Z.eqb_refl. reflexivity.
Qed.

Definition seg_ok (h : chandle) : Prop := len (ch_seg h) = 65536 /\ (ch_offs h = None \/ ch_offs h = Some offs).
Definition cached (h : chandle) (i : Z) : Prop :=
  exists b, 0 <= i /\ nth_error sts (Z.to_nat i) = Some (Some b) /\ ch_size h = len b /\
    slice (ch_seg h) 0 (len b) = b.

Lemma load_good h i b : 0 <= i -> nth_error sts (Z.to_nat i) = Some (Some b) -> seg_ok h ->
  (ch_idx h = i -> cached h i) ->
  exists h', load_block dec junk (mem C) usize h offs i = (Ok tt, h') /\ seg_ok h' /\ ch_idx h' = i /\ cached h' i /\
    ch_offs h' = ch_offs h /\ ch_cur h' = ch_cur h.
Proof.
  intros Hi H S CA. unfold load_block. destruct (ch_idx h =? i) eqn:E.
  { exists h. repeat split; auto; try apply S; try lia. apply CA. lia. }
  destruct (load_data i (Some b) Hi H) as (c & (D & L & _B) & ->). unfold BLOCK. rewrite D.
  pose proof sts_le as SL.
  assert (HI : (Z.to_nat i < length sts)%nat) by (apply nth_error_Some; congruence).
  cbv zeta. unfold w32. rewrite (Z.mod_small ((i + 1) * 65536)) by (unfold len in *; lia).
  replace (((i + 1) * 65536 <? usize) && negb (len b =? 65536)) with false by lia.
  eexists. split; [reflexivity|]. cbn [set_seg ch_idx ch_seg ch_size ch_offs ch_cur].
  destruct S as (S1 & S2). split; [|split; [auto|split; [|auto]]].
  - split; cbn [set_seg ch_seg ch_offs]; auto. rewrite len_app. unfold len in *. rewrite skipn_length. lia.
  - exists b. cbn [set_seg ch_size ch_seg]. repeat split; auto.
    rewrite slice_app_l by lia. apply slice_0_all.
Qed.

Lemma load_bad h i : 0 <= i -> nth_error sts (Z.to_nat i) = Some None -> seg_ok h -> ch_idx h <> i ->
  exists h', load_block dec junk (mem C) usize h offs i = (Fail, h') /\ seg_ok h' /\ ch_idx h' = ch_idx h /\
    ch_offs h' = ch_offs h /\ ch_cur h' = ch_cur h.
Proof.
  intros Hi H (S1 & S2) N. unfold load_block. replace (ch_idx h =? i) with false by lia.
  destruct (load_data i None Hi H) as (c & B & ->). unfold BLOCK.
  assert (HI : (Z.to_nat i < length sts)%nat) by (apply nth_error_Some; congruence).
  pose proof sts_le as SL.
  destruct B as [B|(b & B & L & U)]; rewrite B.
  - eexists. split; [reflexivity|]. repeat split; cbn [set_seg ch_seg ch_offs]; auto. rewrite junk_len; auto.
  - cbv zeta. unfold w32. rewrite (Z.mod_small ((i + 1) * 65536)) by (unfold len in *; lia).
    replace (((i + 1) * 65536 <? usize) && negb (len b =? 65536)) with true by lia.
    eexists. split; [reflexivity|]. repeat split; cbn [set_seg ch_seg ch_offs]; auto.
    rewrite len_app. unfold len in *. rewrite skipn_length. lia.
Qed.

(* ---- content ---- *)

Lemma content_block_len i st : nth_error sts i = Some st -> 65536 * (Z.of_nat i + 1) < usize ->
  len (match st with Some b => b | None => zeros 65536 end) = 65536.
Proof.
  intros H U. destruct (states_nth 0 _ _ states i st H) as (c & _ & B).
  destruct st as [b|]; [|apply zeros_len; lia]. destruct B as (_ & L & [X|X]); [auto|]. lia.
Qed.

Lemma concat_slice : forall (l : list (list Z)) i b off n, nth_error l i = Some b ->
  (forall j x, (j < i)%nat -> nth_error l j = Some x -> len x = 65536) ->
  0 <= off -> 0 <= n -> off + n <= len b -> slice (concat l) (65536 * Z.of_nat i + off) n = slice b off n.
Proof.
  induction l as [|x l IH]; intros i b off n H F H1 H2 H3; [destruct i; discriminate|].
  cbn [concat]. destruct i as [|i].
  - cbn in H. assert (x = b) as -> by congruence. rewrite Z.mul_0_r, Z.add_0_l. apply slice_app_l; lia.
  - assert (LX : len x = 65536) by (apply (F 0%nat); [lia|reflexivity]).
    rewrite slice_app_r by lia. rewrite LX.
    replace (65536 * Z.of_nat (S i) + off - 65536) with (65536 * Z.of_nat i + off) by lia.
    apply IH; auto. intros j y Hj Hy. apply (F (S j)); [lia|auto].
Qed.

Lemma content_slice i b off n : nth_error sts i = Some (Some b) -> 0 <= off -> 0 <= n -> off + n <= len b ->
  slice (content sts) (65536 * Z.of_nat i + off) n = slice b off n.
Proof.
  intros H H1 H2 H3. unfold content. apply concat_slice; auto.
  - rewrite (map_nth_error _ _ _ H). reflexivity.
  - intros j x Hj Hx. rewrite nth_error_map in Hx. destruct (nth_error sts j) as [st|] eqn:E; [|discriminate].
    cbn [option_map] in Hx. assert (HI : (i < length sts)%nat) by (apply nth_error_Some; congruence).
    assert (x = match st with Some b => b | None => zeros 65536 end) as -> by congruence.
    apply (content_block_len j); auto. unfold len in *. lia.
Qed.

Lemma loop_spec : forall m fuel h i doff n acc,
  (Z.to_nat n <= fuel)%nat -> 0 < n -> 65536 * (Z.of_nat m - 1) < doff + n <= 65536 * Z.of_nat m ->
  0 <= doff < 65536 -> 0 <= i -> 65536 * i + doff + n <= usize ->
  seg_ok h -> (ch_idx h = i -> cached h i) ->
  exists h', read_loop dec junk (mem C) usize fuel h offs i doff n acc =
      (if fst (walk sts (ch_idx h) i m) then Ok (acc ++ slice (content sts) (65536 * i + doff) n) else Fail, h') /\
    seg_ok h' /\ ch_idx h' = snd (walk sts (ch_idx h) i m) /\
    (fst (walk sts (ch_idx h) i m) = true -> cached h' (ch_idx h')) /\
    ch_offs h' = ch_offs h /\ ch_cur h' = ch_cur h.
Proof.
  induction m as [|m IH]; intros fuel h i doff n acc Hf Hn Hm Hd Hi Hu S CA; [lia|].
  destruct fuel as [|fuel]; [lia|]. cbn [read_loop walk].
  replace (0 <? n) with true by lia.
  pose proof sts_le as SL.
  assert (HI : (Z.to_nat i < length sts)%nat) by (unfold len in *; lia).
  replace (len offs - 1 <=? i) with false by (unfold len in *; lia).
  destruct (nth_error sts (Z.to_nat i)) as [[b|]|] eqn:E; [| |apply nth_error_None in E; lia].
  - destruct (load_good h i b Hi E S CA) as (h1 & -> & S1 & I1 & C1 & O1 & U1).
    pose proof C1 as (b' & _ & N' & Z1 & G1). assert (b' = b) as -> by congruence. clear N'.
    destruct (states_nth 0 _ _ states _ _ E) as (c & _ & B). rewrite Z.add_0_l, Z2Nat.id in B by auto.
    destruct B as (_ & LB & B).
    rewrite Z1. replace (len b <=? doff) with false by lia.
    set (rs := Z.min (len b - doff) n).
    rewrite rd_in; [|lia|lia|destruct S1 as (-> & _); lia].
    assert (D : slice (ch_seg h1) doff rs = slice b doff rs).
    { transitivity (slice (slice (ch_seg h1) 0 (len b)) doff rs); [|rewrite G1; auto].
      rewrite slice_slice by lia. rewrite Z.add_0_l. auto. }
    rewrite D.
    assert (CS : slice b doff rs = slice (content sts) (65536 * i + doff) rs).
    { symmetry. pose proof (content_slice (Z.to_nat i) b doff rs E ltac:(lia) ltac:(lia) ltac:(lia)) as X.
      rewrite Z2Nat.id in X by auto. auto. }
    rewrite CS. replace (w32 (i + 1)) with (i + 1) by (unfold w32; rewrite Z.mod_small; unfold len in *; lia).
    destruct (Z.eq_dec (n - rs) 0) as [Z0|Z0].
    + assert (m = 0%nat) as -> by lia. cbn [walk fst snd].
      assert (RL : read_loop dec junk (mem C) usize fuel h1 offs (i + 1) 0 (n - rs) (acc ++ slice (content sts) (65536 * i + doff) rs)
         = (Ok (acc ++ slice (content sts) (65536 * i + doff) rs), h1)).
      { rewrite Z0. destruct fuel; reflexivity. }
      rewrite RL. exists h1. replace rs with n by lia. repeat split; auto; try apply S1; try congruence.
    + destruct (IH fuel h1 (i + 1) 0 (n - rs) (acc ++ slice (content sts) (65536 * i + doff) rs)) as (h2 & R & S2 & I2 & C2 & O2 & U2);
        auto; try lia.
      rewrite R. exists h2. rewrite I1 in *. split; [|split; [auto|split; [auto|split; [auto|split; congruence]]]].
      f_equal. destruct (fst (walk sts i (i + 1) m)); auto. f_equal. rewrite <- app_assoc. f_equal.
      transitivity (slice (content sts) (65536 * i + doff) (rs + (n - rs))); [|f_equal; lia].
      rewrite slice_split by lia. f_equal. f_equal. lia.
  - assert (N : ch_idx h <> i).
    { intros Q. destruct (CA Q) as (b & _ & X & _). congruence. }
    destruct (load_bad h i Hi E S N) as (h1 & -> & S1 & I1 & O1 & U1). cbn [fst snd].
    exists h1. repeat split; auto; try apply S1; try discriminate.
Qed.

(* ---- histories ---- *)

Lemma read_spec h off n c failed ops l : 
  seg_ok h -> ch_idx h = c -> (failed = false -> c = 2 ^ 32 - 1 \/ cached h c) -> 0 <= off ->
  predict sts usize c failed ((off, n) :: ops) = Some l ->
  exists h' c' failed' x l', file_read dec junk method (mem C) usize h off n = (outcome x, h') /\ l = x :: l' /\
    seg_ok h' /\ ch_idx h' = c' /\ (failed' = false -> c' = 2 ^ 32 - 1 \/ cached h' c') /\
    predict sts usize c' failed' ops = Some l'.
Proof.
  intros S I CA Ho P. cbn [predict] in P. unfold file_read.
  destruct (usize <=? off) eqn:E.
  { replace (Z.min n (usize - off) <=? 0) with true in P by lia.
    destruct (predict sts usize c failed ops) as [l'|] eqn:P2; [|discriminate].
    exists h, c, failed, (Some []), l'. repeat split; auto; try apply S. congruence. }
  set (n' := Z.min n (usize - off)) in *. unfold ch_read. cbn [ch_seek ch_offs ch_cur].
  assert (T : (match ch_offs h with Some o => Ok o | None => get_block_offsets method (mem C) end) = Ok offs).
  { destruct S as (_ & [->| ->]); auto. }
  rewrite T. replace (usize <=? off) with false by lia.
  replace (method =? METHOD_UNKNOWN5) with false by lia.
  cbn [ch_seek ch_idx ch_seg ch_size ch_cur].
  change (ch_idx (ch_seek h off)) with (ch_idx h). change (ch_seg (ch_seek h off)) with (ch_seg h).
  change (ch_size (ch_seek h off)) with (ch_size h).
  set (h1 := mk_ch (Some offs) off (ch_idx h) (ch_seg h) (ch_size h)).
  pose proof sts_le as SL. unfold BLOCK.
  assert (W : w32 (off / 65536) = off / 65536) by (unfold w32; rewrite Z.mod_small; lia).
  rewrite W.
  assert (S1 : seg_ok h1) by (split; [apply S|right; reflexivity]).
  destruct (n' <=? 0) eqn:E2.
  { destruct (predict sts usize c failed ops) as [l'|] eqn:P2; [|discriminate].
    replace (Z.to_nat n') with O by lia. cbn [read_loop]. replace (0 <? n') with false by lia.
    eexists. exists c, failed, (Some []), l'. split; [reflexivity|]. split; [congruence|].
    repeat split; auto; try apply S. }
  destruct (failed && (c =? off / 65536)) eqn:E3; [discriminate|].
  set (m := Z.to_nat ((off + n' - 1) / 65536 - off / 65536 + 1)) in *.
  destruct (loop_spec m (Z.to_nat n') h1 (off / 65536) (off mod 65536) n' []) as (h2 & R & S2 & I2 & C2 & O2 & U2); auto; try lia.
  { intros Q. cbn [h1 ch_idx] in Q. rewrite I in Q. destruct failed; [cbn in E3; lia|].
    destruct (CA eq_refl) as [X|(b & X1 & X2 & X3 & X4)]; [lia|].
    exists b. rewrite <- Q. repeat split; auto. }
  rewrite R. cbn [app]. replace (65536 * (off / 65536) + off mod 65536) with off by lia.
  cbn [h1 ch_idx] in *. rewrite I in *.
  destruct (walk sts c (off / 65536) m) as [ok c'] eqn:W2. cbn [fst snd] in *.
  destruct (predict sts usize c' (if ok then false else true) ops) as [l'|] eqn:P2; [|discriminate].
  destruct ok.
  - eexists. exists c', false, (Some (slice (content sts) off n')), l'. split; [reflexivity|].
    split; [congruence|]. split; [apply S2|]. split; [auto|]. split; [|auto].
    intros _. right. rewrite <- I2. specialize (C2 eq_refl). exact C2.
  - exists h2, c', true, None, l'. split; [reflexivity|]. split; [congruence|]. split; [apply S2|]. split; [auto|].
    split; [discriminate|auto].
Qed.

Lemma history_from : forall ops h c failed l,
  seg_ok h -> ch_idx h = c -> (failed = false -> c = 2 ^ 32 - 1 \/ cached h c) ->
  Forall (fun op => 0 <= fst op) ops ->
  predict sts usize c failed ops = Some l ->
  fst (file_reads dec junk method (mem C) usize h ops) = map outcome l.
Proof.
  induction ops as [|[off n] ops IH]; intros h c failed l S I CA F P.
  - cbn in *. assert (l = []) as -> by congruence. reflexivity.
  - apply Forall_cons_iff in F. destruct F as (F1 & F2). cbn [fst] in F1.
    destruct (read_spec h off n c failed ops l S I CA F1 P) as (h' & c' & f' & x & l' & R & -> & S' & I' & CA' & P').
    cbn [file_reads]. rewrite R.
    specialize (IH h' c' f' l' S' I' CA' F2 P').
    destruct (file_reads dec junk method (mem C) usize h' ops) as [xs h2]. cbn [fst] in *. rewrite IH. reflexivity.
Qed.

Theorem history_spec ops l :
  Forall (fun op => 0 <= fst op) ops ->
  predict sts usize (2 ^ 32 - 1) false ops = Some l ->
  fst (file_reads dec junk method (mem C) usize ch_init ops) = map outcome l.
Proof.
  intros. eapply history_from; eauto.
  - split; [apply zeros_len; unfold BLOCK; lia|left; reflexivity].
Qed.

(* With no damaged block every history is predicted, and every read is the slice. *)
Lemma walk_all : Forall (fun st => st <> None) sts -> forall m c i, 0 <= i -> i + Z.of_nat m <= len sts ->
  fst (walk sts c i m) = true.
Proof.
  intros F. induction m as [|m IH]; intros c i Hi Hl; [reflexivity|]. cbn [walk].
  destruct (nth_error sts (Z.to_nat i)) as [[b|]|] eqn:E.
  - apply IH; lia.
  - exfalso. rewrite Forall_forall in F. apply (F None); auto. eapply nth_error_In; eauto.
  - apply nth_error_None in E. unfold len in *. lia.
Qed.

Lemma predict_all : Forall (fun st => st <> None) sts -> forall ops c, Forall (fun op => 0 <= fst op) ops ->
  predict sts usize c false ops =
    Some (map (fun '(off, n) => Some (slice (content sts) off (Z.min n (usize - off)))) ops).
Proof.
  intros F. induction ops as [|[off n] ops IH]; intros c H; [reflexivity|].
  apply Forall_cons_iff in H. destruct H as (H1 & H2). cbn [fst] in H1.
  cbn [predict map]. set (n' := Z.min n (usize - off)).
  destruct (n' <=? 0) eqn:E.
  - rewrite IH by auto. do 3 f_equal. unfold slice. replace (Z.to_nat n') with O by lia. reflexivity.
  - cbn [andb]. pose proof (walk_all F (Z.to_nat ((off + n' - 1) / 65536 - off / 65536 + 1)) c (off / 65536)) as W.
    destruct (walk _ _ _ _) as [ok c']. cbn [fst] in W. rewrite W by lia. rewrite IH by auto. reflexivity.
Qed.

End Read.
