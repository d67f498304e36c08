(* Proofs about compressed files: block table and block cache. *)
From Verif Require Import Base BaseLemmas Deflate Compressed CompressedSpec.
Ltac Zify.zify_post_hook ::= Z.div_mod_to_equations.

(* ---- the table buffer ---- *)

Definition buf_is (C : list Z) (k : Z) (buf : list Z) : Prop :=
  len buf = 65537 /\ 0 <= k <= 65537 /\ k <= len C /\
  firstn (Z.to_nat k) buf = firstn (Z.to_nat k) C.

Lemma firstn_plus {A} (q : list A) a b : firstn (a + b) q = firstn a q ++ firstn b (skipn a q).
Proof.
  revert q; induction a; intros q; simpl; auto. destruct q; simpl; [rewrite firstn_nil; auto|]. rewrite IHa; auto.
Qed.

Lemma firstn_exact {A} (a b : list A) n : n = length a -> firstn n (a ++ b) = a.
Proof. intros ->. rewrite firstn_app, Nat.sub_diag, firstn_O, app_nil_r. apply firstn_all. Qed.
Lemma skipn_exact {A} (a b : list A) n : n = length a -> skipn n (a ++ b) = b.
Proof. intros ->. rewrite skipn_app, Nat.sub_diag, skipn_all. reflexivity. Qed.

Lemma store_in buf off d : 0 <= off -> off + len d <= len buf ->
  store buf off d = Ok (firstn (Z.to_nat off) buf ++ d ++ skipn (Z.to_nat (off + len d)) buf).
Proof. intros. unfold store. replace ((0 <=? off) && (off + len d <=? len buf)) with true by lia. auto. Qed.

Lemma read_into_cases C buf p n : buf_is C p buf -> 0 <= n ->
  (p + Z.min n (len C - p) <= 65537 ->
    (p + n <= len C /\ exists buf', read_into (mem C) buf p p n = Ok buf' /\ buf_is C (p + n) buf') \/
    read_into (mem C) buf p p n = Fail) /\
  (n <= 2 ^ 63 - 1 -> 65537 < p + Z.min n (len C - p) -> read_into (mem C) buf p p n = Oob) /\
  (2 ^ 63 - 1 < n -> read_into (mem C) buf p p n = Fail) /\
  (p + n <= 65537 -> p + n <= len C -> exists buf', read_into (mem C) buf p p n = Ok buf' /\ buf_is C (p + n) buf').
Proof.
  intros (L & K & KC & E) Hn. unfold read_into, mem, src_read, stream_read.
  replace ((0 <=? p) && (0 <=? n) && (n <=? 2 ^ 63 - 1)) with (n <=? 2 ^ 63 - 1) by lia.
  assert (LS : len (slice C p (Z.min n (len C - p))) = Z.min n (len C - p)) by (apply len_slice; lia).
  assert (GOOD : p + n <= 65537 -> p + n <= len C ->
    exists buf', (let! d := (let! _ := check (n <=? 2 ^ 63 - 1) in Ok (slice C p (Z.min n (len C - p)))) in
     let! buf := store buf p d in let! _ := check (len d =? n) in Ok buf) = Ok buf' /\ buf_is C (p + n) buf').
  { intros H1 H2. replace (n <=? 2 ^ 63 - 1) with true by lia. cbn [check bind].
    rewrite store_in by lia. cbn [bind]. rewrite LS. replace (Z.min n (len C - p) =? n) with true by lia.
    cbn [check bind]. eexists. split; [reflexivity|].
    replace (Z.min n (len C - p)) with n in * by lia.
    assert (L2 : length (firstn (Z.to_nat p) buf) = Z.to_nat p) by (rewrite firstn_length; unfold len in *; lia).
    split; [|split; [lia|split; [lia|]]].
    - rewrite !len_app, LS. unfold len in *. rewrite skipn_length, L2. lia.
    - replace (Z.to_nat (p + n)) with (Z.to_nat p + Z.to_nat n)%nat by lia.
      rewrite app_assoc, firstn_exact by (rewrite app_length, L2; unfold len in LS; lia).
      rewrite E, firstn_plus. reflexivity. }
  split; [|split; [|split; auto]].
  - intros H. destruct (Z.le_gt_cases (p + n) (len C)) as [Q|Q].
    + left. split; auto. apply GOOD; lia.
    + right. destruct (n <=? 2 ^ 63 - 1); cbn [check bind]; auto.
      rewrite store_in by lia. cbn [bind]. rewrite LS. replace (Z.min n (len C - p) =? n) with false by lia. reflexivity.
  - intros H1 H2. replace (n <=? 2 ^ 63 - 1) with true by lia. cbn [check bind].
    unfold store. rewrite LS, L. replace ((0 <=? p) && (p + Z.min n (len C - p) <=? 65537)) with false by lia. reflexivity.
  - intros H. replace (n <=? 2 ^ 63 - 1) with false by lia. reflexivity.
Qed.

Lemma buf_slice C k buf off m : buf_is C k buf -> 0 <= off -> 0 <= m -> off + m <= k -> slice buf off m = slice C off m.
Proof.
  intros (L & K & KC & E) H1 H2 H3.
  pose proof (slice_slice buf 0 k off m) as S1. pose proof (slice_slice C 0 k off m) as S2.
  rewrite Z.add_0_l in S1, S2. rewrite <- S1, <- S2 by lia.
  change (slice buf 0 k) with (firstn (Z.to_nat k) buf). change (slice C 0 k) with (firstn (Z.to_nat k) C).
  rewrite E. auto.
Qed.

Lemma buf_rd C k buf off m : buf_is C k buf -> 0 <= off -> 0 <= m -> off + m <= k -> rd buf off m = Ok (slice C off m).
Proof.
  intros B H1 H2 H3. rewrite rd_in; try lia; [|destruct B; lia]. erewrite buf_slice; eauto.
Qed.
Lemma buf_rd_le C k buf off m : buf_is C k buf -> 0 <= off -> 0 <= m -> off + m <= k -> rd_le m buf off = Ok (le_val (slice C off m)).
Proof. intros. unfold rd_le. rewrite (buf_rd C k) by auto. reflexivity. Qed.
Lemma buf_rd_be C k buf off m : buf_is C k buf -> 0 <= off -> 0 <= m -> off + m <= k -> rd_be m buf off = Ok (be_val (slice C off m)).
Proof. intros. unfold rd_be. rewrite (buf_rd C k) by auto. reflexivity. Qed.

Lemma buf_init C : buf_is C 0 (zeros (BLOCK + 1)).
Proof. split; [apply zeros_len; unfold BLOCK; lia|]. pose proof (len_nonneg C). repeat split; lia. Qed.

(* ---- the table loop ---- *)

(* Consecutive offsets: non-decreasing, at most 65537 apart. *)
Fixpoint steps_ok (prev : Z) (l : list Z) : Prop :=
  match l with
  | [] => True
  | o :: r => prev <= o <= prev + 65537 /\ steps_ok o r
  end.

(* Offsets the table describes. *)
Fixpoint table_offs (k : nat) (C : list Z) (pos skip add : Z) : list Z :=
  match k with
  | O => []
  | S k => w32 (le_val (slice C pos 4) + add) :: table_offs k C (pos + 4 + skip) skip add
  end.

Lemma table_loop_spec C kb buf skip add : buf_is C kb buf -> 0 <= skip -> forall k pos prev acc,
  0 <= pos -> pos + (4 + skip) * Z.of_nat k <= kb + skip ->
  (steps_ok prev (table_offs k C pos skip add) /\
   table_loop k buf pos skip add prev acc =
     Ok (rev (table_offs k C pos skip add) ++ acc, last (table_offs k C pos skip add) prev)) \/
  (~ steps_ok prev (table_offs k C pos skip add) /\ table_loop k buf pos skip add prev acc = Fail).
Proof.
  intros B Hs. induction k as [|k IH]; intros pos prev acc Hp Hk; cbn [table_loop table_offs].
  - left. split; [exact I|reflexivity].
  - rewrite (buf_rd_le C kb buf pos 4 B) by lia. cbn [bind].
    set (o := w32 (le_val (slice C pos 4) + add)).
    change (BLOCK + 1) with 65537.
    destruct ((o <? prev) || (65537 <? o - prev)) eqn:E; cbn [negb check bind steps_ok].
    + right. split; [lia|auto].
    + destruct (IH (pos + 4 + skip) o (o :: acc)) as [(S & R)|(S & R)]; try lia.
      * left. split; [split; [lia|auto]|]. rewrite R. cbn [rev]. rewrite <- app_assoc. f_equal. f_equal.
        destruct (table_offs k C (pos + 4 + skip) skip add) as [|z l] eqn:Q; [reflexivity|].
        change (last (o :: z :: l) prev) with (last (z :: l) prev).
        clear. revert z. induction l as [|y l IHl]; intros z; [reflexivity|]. 
        change (last (z :: y :: l) o) with (last (y :: l) o). rewrite IHl. reflexivity.
      * right. split; [tauto|]. rewrite R. reflexivity.
Qed.

Lemma table_offs_len k C : forall pos skip add, length (table_offs k C pos skip add) = k.
Proof. induction k; intros; cbn; auto. Qed.

Lemma table_offs_len' k C pos skip add : len (table_offs k C pos skip add) = Z.of_nat k.
Proof. unfold len. rewrite table_offs_len. auto. Qed.

Lemma le_val4 C off : bytes C -> 0 <= off -> off + 4 <= len C -> 0 <= le_val (slice C off 4) < 2 ^ 32.
Proof.
  intros H H1 H2. pose proof (le_val_range (slice C off 4) (bytes_slice _ _ _ H)) as R.
  rewrite len_slice in R by lia. exact R.
Qed.

Definition offsets_ok (offs : list Z) : Prop :=
  match offs with
  | [] => False
  | o :: r => 0 <= o /\ steps_ok o r
  end.

Lemma last_cons {A} (l : list A) : forall o d, last (o :: l) d = last l o.
Proof.
  induction l as [|y l IH]; intros o d; [reflexivity|].
  change (last (o :: y :: l) d) with (last (y :: l) d). rewrite !IH. reflexivity.
Qed.

Lemma steps_app prev l x : steps_ok prev (l ++ [x]) <-> steps_ok prev l /\ last l prev <= x <= last l prev + 65537.
Proof.
  revert prev; induction l as [|o l IH]; intros prev; cbn [app steps_ok].
  - cbn [last]. tauto.
  - rewrite IH, last_cons. tauto.
Qed.

Definition INLINE_SIG : Z := 0x636d7066.

Lemma sig_rd C buf : buf_is C 4 buf -> rd buf 0 4 = Ok (slice C 0 4).
Proof. intros B. apply (buf_rd C 4); auto; lia. Qed.

(* The three kinds of table, when well formed. *)
Lemma inline_offsets method C : le_val (slice C 0 4) = INLINE_SIG -> 16 <= len C <= 65537 ->
  get_block_offsets method (mem C) = Ok [16; w32 (len C)].
Proof.
  intros HS HL. unfold get_block_offsets; change (src_size (mem C)) with (len C).
  destruct (read_into_cases C _ 0 4 (buf_init C) ltac:(lia)) as (_ & _ & _ & R).
  destruct R as (buf & R & B); try lia. rewrite R. cbn [bind]. rewrite (sig_rd C buf B). cbn [bind].
  rewrite HS. change (INLINE_SIG =? 0x636d7066) with true. cbv beta iota zeta.
  change (BLOCK + 1) with 65537. replace (65537 <? len C) with false by lia.
  cbn [negb check bind]. change (negb (134217728 / 4 - 1 <? 1)) with true. cbn [check bind].
  replace ((len C <? 16) || (65537 <? len C - 16)) with false by lia. cbn [negb check bind].
  destruct (method =? METHOD_UNKNOWN5); [|reflexivity].
  replace (2 ^ 63 - 1 <? len C) with false by lia. cbn [negb check bind].
  unfold read_into, mem, src_read, stream_read. unfold w64. rewrite Z.mod_small by lia.
  replace ((0 <=? 16) && (0 <=? len C - 16) && (len C - 16 <=? 2 ^ 63 - 1)) with true by lia. cbn [check bind].
  assert (LS : len (slice C 16 (Z.min (len C - 16) (len C - 16))) = len C - 16) by (rewrite len_slice; lia).
  rewrite store_in; [|lia|rewrite LS; destruct B; lia]. cbn [bind].
  rewrite LS, Z.eqb_refl. reflexivity.
Qed.

Definition deflate_body (C : list Z) : list Z :=
  w32 (le_val (slice C 264 4) + 260) :: table_offs (Z.to_nat (le_val (slice C 260 4) - 1)) C 272 4 260.
Definition lzvn_body (C : list Z) : list Z :=
  le_val (slice C 0 4) :: table_offs (Z.to_nat (le_val (slice C 0 4) / 4 - 1)) C 4 0 0.

(* Offsets accepted: the table is in order and its end is in reach. *)
Definition body_ok (C body : list Z) : Prop :=
  match body with
  | [] => False
  | o :: r => steps_ok o r /\ last r o <= len C <= last r o + 65537
  end.

Definition deflate_ok (C : list Z) : Prop :=
  let n := le_val (slice C 260 4) in
  be_val (slice C 0 4) = 0x100 /\ 1 <= n <= 8159 /\ 272 <= len C /\ 268 + 8 * (n - 1) <= len C /\
  8 < le_val (slice C 264 4) < 65537 /\ body_ok C (deflate_body C).

Lemma deflate_cases C : bytes C -> le_val (slice C 0 4) <> INLINE_SIG ->
  (get_block_offsets METHOD_DEFLATE (mem C) = Fail /\ ~ deflate_ok C) \/
  (get_block_offsets METHOD_DEFLATE (mem C) = Ok (deflate_body C ++ [w32 (len C)]) /\ deflate_ok C) \/
  (get_block_offsets METHOD_DEFLATE (mem C) = Oob /\ be_val (slice C 0 4) = 0x100 /\
     8160 <= le_val (slice C 260 4) /\ 65537 < len C).
Proof.
  intros HB HS. unfold get_block_offsets, deflate_ok, deflate_body, body_ok; change (src_size (mem C)) with (len C). set (n := le_val (slice C 260 4)).
  destruct (read_into_cases C _ 0 4 (buf_init C) ltac:(lia)) as (R & _ & _ & R').
  destruct R as [(L4 & buf & R & B)|R]; [lia| |rewrite R; cbn [bind]].
  2:{ left. split; auto. intros (_ & _ & X & _).
      destruct R' as (bb & R2 & _); try lia. congruence. }
  rewrite R. cbn [bind]. rewrite (sig_rd C buf B). cbn [bind].
  change 0x636d7066 with INLINE_SIG. replace (le_val (slice C 0 4) =? INLINE_SIG) with false by lia.
  cbv beta iota zeta. change (METHOD_DEFLATE =? METHOD_DEFLATE) with true. cbv beta iota.
  rewrite (buf_rd_be C 4 buf 0 4 B) by lia. cbn [bind].
  destruct (be_val (slice C 0 4) =? 256) eqn:E1; cbn [check bind].
  2:{ left. split; auto. lia. }
  assert (E1' : be_val (slice C 0 4) = 256) by lia. rewrite E1'. clear E1.
  change (256 + 16 - 4) with 268. change (256 + 4) with 260.
  destruct (read_into_cases C buf 4 268 B ltac:(lia)) as (R1 & _ & _ & R1').
  destruct R1 as [(L2 & buf1 & R1 & B1)|R1]; [lia| |rewrite R1; cbn [bind]].
  2:{ left. split; auto. intros (_ & _ & X & _). destruct R1' as (bb & R2 & _); try lia. congruence. }
  rewrite R1. cbn [bind]. change (4 + 268) with 272 in *.
  rewrite (buf_rd_le C 272 buf1 260 4 B1) by lia. cbn [bind]. fold n.
  pose proof (le_val4 C 260 HB ltac:(lia) ltac:(lia)) as RN. fold n in RN.
  pose proof (le_val4 C 264 HB ltac:(lia) ltac:(lia)) as RF.
  change ((2 ^ 32 - 1) / 8) with 536870911. change (134217728 / 4 - 1) with 33554431.
  destruct (536870911 <? n) eqn:E2; cbn [negb check bind].
  { left. split; auto. lia. }
  rewrite (buf_rd_le C 272 buf1 264 4 B1) by lia. cbn [bind].
  destruct (33554431 <? n) eqn:E3; cbn [negb check bind].
  { left. split; auto. lia. }
  assert (B2 : buf_is C 268 buf1).
  { destruct B1 as (X1 & X2 & X3 & X4). repeat split; try lia.
    apply (f_equal (firstn 268)) in X4. rewrite !firstn_firstn in X4. exact X4. }
  destruct (Z.eq_dec n 0) as [N0|N0].
  { rewrite N0. change (w64 (w64 (0 - 1) * 8)) with (2 ^ 64 - 8).
    destruct (read_into_cases C buf1 268 (2 ^ 64 - 8) B2 ltac:(lia)) as (_ & _ & X & _).
    rewrite X by lia. cbn [bind]. left. split; auto. lia. }
  replace (w64 (w64 (n - 1) * 8)) with (8 * (n - 1)) by (unfold w64; rewrite !Z.mod_small; lia).
  destruct (read_into_cases C buf1 268 (8 * (n - 1)) B2 ltac:(lia)) as (R2 & R2o & _ & R2').
  destruct (Z.le_gt_cases (268 + Z.min (8 * (n - 1)) (len C - 268)) 65537) as [Q|Q].
  2:{ rewrite R2o by lia. cbn [bind]. right. right. repeat split; auto; lia. }
  destruct (R2 Q) as [(L3 & buf2 & R3 & B3)|R3]; rewrite R3; cbn [bind].
  2:{ left. split; auto. intros (_ & N & X & Y & _). destruct R2' as (bb & R4 & _); try lia. congruence. }
  clear R2 R2o R2'. change (BLOCK + 1) with 65537.
  set (first := le_val (slice C 264 4)) in *.
  destruct ((first <=? 8) || (65537 <=? first)) eqn:E4; cbn [negb check bind].
  { left. split; auto. lia. }
  change (268 + 4) with 272.
  destruct (table_loop_spec C (268 + 8 * (n - 1)) buf2 4 260 B3 ltac:(lia) (Z.to_nat (n - 1)) 272 (w32 (first + 260)) [w32 (first + 260)])
    as [(S & T)|(S & T)]; try lia; rewrite T; cbn [bind].
  2:{ left. split; auto. tauto. }
  set (body := table_offs (Z.to_nat (n - 1)) C 272 4 260) in *.
  destruct ((len C <? last body (w32 (first + 260))) || (65537 <? len C - last body (w32 (first + 260)))) eqn:E5; cbn [negb check bind].
  { left. split; auto. lia. }
  change (METHOD_DEFLATE =? METHOD_UNKNOWN5) with false. cbv beta iota. cbn [bind].
  right. left. split.
  - f_equal. cbn [rev]. rewrite rev_app_distr, rev_involutive. reflexivity.
  - destruct B3. repeat split; auto; lia.
Qed.

Definition lzvn_ok (C : list Z) : Prop :=
  let first := le_val (slice C 0 4) in
  4 <= len C /\ 4 < first < 65537 /\ 4 * (first / 4) <= len C /\ body_ok C (lzvn_body C).

Lemma lzvn_cases C : bytes C -> le_val (slice C 0 4) <> INLINE_SIG ->
  (get_block_offsets METHOD_LZVN (mem C) = Fail /\ ~ lzvn_ok C) \/
  (get_block_offsets METHOD_LZVN (mem C) = Ok (lzvn_body C ++ [w32 (len C)]) /\ lzvn_ok C).
Proof.
  intros HB HS. unfold get_block_offsets, lzvn_ok, lzvn_body, body_ok; change (src_size (mem C)) with (len C). set (first := le_val (slice C 0 4)) in *.
  destruct (read_into_cases C _ 0 4 (buf_init C) ltac:(lia)) as (R & _ & _ & R').
  destruct R as [(L4 & buf & R & B)|R]; [lia| |rewrite R; cbn [bind]].
  2:{ left. split; auto. intros (X & _).
      destruct R' as (bb & R2 & _); try lia. congruence. }
  rewrite R. cbn [bind]. rewrite (sig_rd C buf B). cbn [bind]. fold first.
  change 0x636d7066 with INLINE_SIG. replace (first =? INLINE_SIG) with false by lia.
  cbv beta iota zeta. change (METHOD_LZVN =? METHOD_DEFLATE) with false.
  change (METHOD_LZVN =? METHOD_LZVN) with true. change (METHOD_LZVN =? METHOD_UNKNOWN5) with false. cbv beta iota.
  rewrite (buf_rd_le C 4 buf 0 4 B) by lia. cbn [bind]. fold first.
  change (BLOCK + 1) with 65537.
  destruct ((first <=? 4) || (65537 <=? first)) eqn:E1; cbn [negb check bind].
  { left. split; auto. lia. }
  change (134217728 / 4 - 1) with 33554431.
  replace (33554431 <? first / 4) with false by lia. cbn [negb check bind].
  replace (w64 (w64 (first / 4 - 1) * 4)) with (4 * (first / 4 - 1)) by (unfold w64; rewrite !Z.mod_small; lia).
  destruct (read_into_cases C buf 4 (4 * (first / 4 - 1)) B ltac:(lia)) as (R2 & _ & _ & R2').
  destruct R2 as [(L3 & buf2 & R3 & B3)|R3]; [lia| |]; rewrite R3; cbn [bind].
  2:{ left. split; auto. intros (X & Y & W & _). destruct R2' as (bb & R4 & _); try lia. congruence. }
  clear R2'. rewrite E1. cbn [negb check bind].
  change (4 + 0) with 4. replace (w32 (first + 0)) with first by (unfold w32; rewrite Z.mod_small; lia).
  destruct (table_loop_spec C (4 + 4 * (first / 4 - 1)) buf2 0 0 B3 ltac:(lia) (Z.to_nat (first / 4 - 1)) 4 first [first])
    as [(S & T)|(S & T)]; try lia; rewrite T; cbn [bind].
  2:{ left. split; auto. tauto. }
  set (body := table_offs (Z.to_nat (first / 4 - 1)) C 4 0 0) in *.
  destruct ((len C <? last body first) || (65537 <? len C - last body first)) eqn:E5; cbn [negb check bind].
  { left. split; auto. lia. }
  right. split.
  - f_equal. cbn [rev]. rewrite rev_app_distr, rev_involutive. reflexivity.
  - repeat split; auto; lia.
Qed.

Lemma inline_cases method C : bytes C -> le_val (slice C 0 4) = INLINE_SIG ->
  get_block_offsets method (mem C) = Fail \/
  (16 <= len C <= 65537 /\ get_block_offsets method (mem C) = Ok [16; w32 (len C)]).
Proof.
  intros HB HS. destruct (Z.le_gt_cases 16 (len C)) as [H1|H1]; [destruct (Z.le_gt_cases (len C) 65537) as [H2|H2]|].
  - right. split; [lia|]. apply inline_offsets; auto.
  - left. unfold get_block_offsets; change (src_size (mem C)) with (len C).
    destruct (read_into_cases C _ 0 4 (buf_init C) ltac:(lia)) as (_ & _ & _ & R).
    destruct R as (buf & R & B); try lia. rewrite R. cbn [bind]. rewrite (sig_rd C buf B). cbn [bind].
    rewrite HS. change (INLINE_SIG =? 0x636d7066) with true. cbv beta iota zeta.
    change (BLOCK + 1) with 65537. replace (65537 <? len C) with true by lia. reflexivity.
  - left. unfold get_block_offsets; change (src_size (mem C)) with (len C).
    destruct (read_into_cases C _ 0 4 (buf_init C) ltac:(lia)) as (R & _ & _ & _).
    destruct R as [(L & buf & R & B)|R]; [lia| |rewrite R; reflexivity]. rewrite R. cbn [bind]. rewrite (sig_rd C buf B). cbn [bind].
    rewrite HS. change (INLINE_SIG =? 0x636d7066) with true. cbv beta iota zeta.
    change (BLOCK + 1) with 65537. replace (65537 <? len C) with false by lia.
    cbn [negb check bind]. change (negb (134217728 / 4 - 1 <? 1)) with true. cbn [check bind].
    replace (len C <? 16) with true by lia. reflexivity.
Qed.

(* UNKNOWN5 data is always inline. *)
Lemma unknown5_fails C : le_val (slice C 0 4) <> INLINE_SIG -> get_block_offsets METHOD_UNKNOWN5 (mem C) = Fail.
Proof.
  intros HS. unfold get_block_offsets; change (src_size (mem C)) with (len C).
  destruct (read_into_cases C _ 0 4 (buf_init C) ltac:(lia)) as (R & _ & _ & _).
  destruct R as [(L & buf & R & B)|R]; [lia| |rewrite R; reflexivity]. rewrite R. cbn [bind]. rewrite (sig_rd C buf B). cbn [bind].
  change 0x636d7066 with INLINE_SIG. replace (le_val (slice C 0 4) =? INLINE_SIG) with false by lia.
  cbv beta iota zeta. change (METHOD_UNKNOWN5 =? METHOD_DEFLATE) with false.
  change (METHOD_UNKNOWN5 =? METHOD_LZVN) with false. cbv beta iota. cbn [bind].
  change (negb (134217728 / 4 - 1 <? 0)) with true. cbn [check bind].
  change (w64 (w64 (0 - 1) * 0)) with 0.
  assert (B0 : buf_is C 0 buf) by (destruct B as (X1 & X2 & X3 & X4); repeat split; auto; lia).
  destruct (read_into_cases C buf 0 0 B0 ltac:(lia)) as (R0 & _).
  destruct R0 as [(_ & b0 & R0 & _)|R0]; [pose proof (len_nonneg C); lia| |]; rewrite R0; reflexivity.
Qed.

(* ---- C13 ---- *)
Lemma offsets_safe method C : bytes C -> In method [METHOD_DEFLATE; METHOD_LZVN; METHOD_UNKNOWN5] ->
  (method = METHOD_DEFLATE -> le_val (slice C 260 4) < 8160 \/ len C <= 65537) ->
  get_block_offsets method (mem C) <> Oob /\ get_block_offsets method (mem C) <> Fuel.
Proof.
  intros HB HM HD. destruct (Z.eq_dec (le_val (slice C 0 4)) INLINE_SIG) as [E|E].
  - destruct (inline_cases method C HB E) as [->|(_ & ->)]; split; discriminate.
  - destruct HM as [<-|[<-|[<-|[]]]].
    + destruct (deflate_cases C HB E) as [(-> & _)|[(-> & _)|(_ & _ & X & Y)]]; [split; discriminate..|].
      destruct (HD eq_refl); lia.
    + destruct (lzvn_cases C HB E) as [(-> & _)|(-> & _)]; split; discriminate.
    + rewrite unknown5_fails by auto. split; discriminate.
Qed.

Lemma body_offsets_ok C body : bytes C -> len C < 2 ^ 32 -> body_ok C body -> (forall o r, body = o :: r -> 0 <= o) ->
  offsets_ok (body ++ [w32 (len C)]).
Proof.
  intros HB HL H H0. destruct body as [|o r]; [destruct H|]. cbn [app offsets_ok body_ok] in *.
  split; [eapply H0; reflexivity|]. destruct H as (H1 & H2). apply steps_app. split; auto.
  unfold w32. pose proof (len_nonneg C). rewrite Z.mod_small by lia. lia.
Qed.

(* Accepted tables: at most 16385 entries, in order, blocks of at most 65537 bytes. *)
Lemma offsets_bounded method C offs : bytes C -> len C < 2 ^ 32 ->
  In method [METHOD_DEFLATE; METHOD_LZVN; METHOD_UNKNOWN5] ->
  get_block_offsets method (mem C) = Ok offs -> offsets_ok offs /\ 2 <= len offs <= 16385.
Proof.
  intros HB HL HM HO. destruct (Z.eq_dec (le_val (slice C 0 4)) INLINE_SIG) as [E|E].
  - destruct (inline_cases method C HB E) as [X|(L & X)]; rewrite HO in X; [discriminate|].
    assert (offs = [16; w32 (len C)]) as -> by congruence.
    unfold w32. rewrite Z.mod_small by lia. cbn. repeat split; auto; lia.
  - destruct HM as [<-|[<-|[<-|[]]]].
    + destruct (deflate_cases C HB E) as [(X & _)|[(X & D)|(X & _)]]; rewrite HO in X; try discriminate.
      assert (offs = deflate_body C ++ [w32 (len C)]) as -> by congruence.
      destruct D as (_ & D2 & _ & _ & _ & D6). split.
      * apply body_offsets_ok; auto. intros o r Q. unfold deflate_body in Q.
        assert (o = w32 (le_val (slice C 264 4) + 260)) as -> by congruence. apply (w_range 32); lia.
      * rewrite len_app. unfold deflate_body. rewrite len_cons. change (len [w32 (len C)]) with 1.
        rewrite table_offs_len'. lia.
    + destruct (lzvn_cases C HB E) as [(X & _)|(X & D)]; rewrite HO in X; try discriminate.
      assert (offs = lzvn_body C ++ [w32 (len C)]) as -> by congruence.
      destruct D as (D1 & D2 & _ & D6). split.
      * apply body_offsets_ok; auto. intros o r Q. unfold lzvn_body in Q.
        assert (o = le_val (slice C 0 4)) as -> by congruence. lia.
      * rewrite len_app. unfold lzvn_body. rewrite len_cons. change (len [w32 (len C)]) with 1.
        rewrite table_offs_len'. lia.
    + rewrite unknown5_fails in HO by auto. discriminate.
Qed.
