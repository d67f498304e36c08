(* Reading in pieces, for any extents. *)
From Coq Require Import Lia.
From Verif Require Import Base BaseLemmas BTreeProofs Walk Omap FsTree Crypt CryptSpec CryptProofs DataRead DataSpec DataProofs.
Ltac Zify.zify_post_hook ::= Z.div_mod_to_equations.

Lemma Ok_eq {A} (a b : A) : Ok a = Ok b -> a = b.
Proof. congruence. Qed.
Lemma wr_len l off s r : wr l off s = Ok r -> len r = len l.
Proof.
  unfold wr. destruct ((0 <=? off) && (off + len s <=? len l)) eqn:C; [|discriminate]. intros H. apply Ok_eq in H. subst r.
  rewrite !len_app. unfold len in *. rewrite firstn_length, skipn_length. lia.
Qed.
Lemma crypt_loop_len xts input bps : forall fuel out off sector r, crypt_loop xts fuel input out off sector bps = Ok r -> len r = len out.
Proof.
  induction fuel as [|fuel IH]; intros out off sector r; cbn [crypt_loop].
  - destruct (off <? len input); [discriminate|]. intros H. apply Ok_eq in H. congruence.
  - destruct (off <? len input); [|intros H; apply Ok_eq in H; congruence]. intros H. apply bind_ok in H. destruct H as (u & _ & H).
    apply bind_ok in H. destruct H as (d & _ & H). apply bind_ok in H. destruct H as (o & E & H). apply wr_len in E. apply IH in H. congruence.
Qed.
Lemma read_bytes_len img off n d : 0 <= n -> read_bytes img off n = Ok d -> len d = n.
Proof.
  intros Hn H. unfold read_bytes in H. cbv zeta in H. apply bind_ok in H. destruct H as (b & _ & H). apply bind_ok in H. destruct H as (u & C & H). apply check_ok in C.
  apply bind_ok in H. destruct H as (x & E & H). destruct (len x =? n) eqn:L; [apply Ok_eq in H; subst; lia|].
  apply bind_ok in H. destruct H as (u1 & C1 & H). apply bind_ok in H. destruct H as (d2 & _ & H). apply bind_ok in H. destruct H as (u2 & C2 & H). apply check_ok in C2.
  apply bind_ok in H. destruct H as (y & E2 & H). apply Ok_eq in H. subst d. apply rd_ok in E2. destruct E2 as (H1 & H2 & H3 & E2). subst y. rewrite len_app, len_slice by lia. lia.
Qed.

Section Split.
  Variables (img : image) (ctx : option (list Z -> list Z -> list Z)) (extents : list extent) (segs : list segment).
  Notation loop := (read_loop img ctx extents segs).
  Notation vsize := (vector_size segs).

  Lemma data_block_len i b : read_data_block img ctx extents segs i = Ok b -> len b = 4096.
  Proof.
    unfold read_data_block. destruct (find_segment segs (i * 4096)) as [(s, so)|]; [|discriminate]. destruct (sg_sparse s).
    - intros H. apply Ok_eq in H. subst. apply zeros_len. lia.
    - cbv zeta. intros H. apply bind_ok in H. destruct H as (u & _ & H). apply bind_ok in H. destruct H as (e & _ & H).
      unfold data_block_read in H. apply bind_ok in H. destruct H as (d & E & H). apply read_bytes_len in E; [|lia]. destruct ctx as [xts|]; [|apply Ok_eq in H; congruence].
      unfold crypt in H. cbn [check bind] in H. apply bind_ok in H. destruct H as (u' & _ & H). apply crypt_loop_len in H. rewrite H. apply zeros_len. lia.
  Qed.
  Definition enough (fuel : nat) (cur n : Z) : Prop := 0 < n -> cur mod 4096 + n <= 4096 * Z.of_nat fuel.
  (* one round *)
  Definition round (cur n : Z) (k : Z -> Z -> res (list Z)) : res (list Z) :=
    let! _ := check (cur / 4096 <=? int_max) in
    let! blk := read_data_block img ctx extents segs (cur / 4096) in
    let r := Z.min (4096 - cur mod 4096) n in
    let d := slice blk (cur mod 4096) r in
    if vsize <=? cur + r then Ok d else let! rest := k (cur + r) (n - r) in Ok (d ++ rest).
  Lemma loop_round fuel cur n : 0 < n -> loop (S fuel) cur n = round cur n (loop fuel).
  Proof.
    intros Hn. cbn [read_loop]. replace (n <=? 0) with false by lia. unfold round. destruct (check (cur / 4096 <=? int_max)); try reflexivity. cbn [bind].
    destruct (read_data_block img ctx extents segs (cur / 4096)) as [blk| | |] eqn:E; try reflexivity. cbn [bind]. apply data_block_len in E. rewrite E.
    replace (cur mod 4096 <? 4096) with true by lia. cbn [check bind]. rewrite rd_in by lia. reflexivity.
  Qed.
  Lemma loop_stop fuel cur n : n <= 0 -> loop fuel cur n = Ok [].
  Proof. intros H. destruct fuel; cbn [read_loop]; replace (n <=? 0) with true by lia; reflexivity. Qed.
  Lemma loop_fuel : forall f f' cur n, enough f cur n -> enough f' cur n -> loop f cur n = loop f' cur n.
  Proof.
    induction f as [|f IH]; intros f' cur n H H'; unfold enough in *.
    - rewrite !loop_stop by lia. reflexivity.
    - destruct (Z.le_gt_cases n 0) as [C|C]; [rewrite !loop_stop by lia; reflexivity|]. destruct f' as [|f']; [lia|].
      rewrite !loop_round by lia. unfold round. destruct (check (cur / 4096 <=? int_max)); try reflexivity. cbn [bind].
      destruct (read_data_block img ctx extents segs (cur / 4096)) as [blk| | |]; try reflexivity. cbn [bind]. cbv zeta.
      rewrite (IH f' (cur + Z.min (4096 - cur mod 4096) n) (n - Z.min (4096 - cur mod 4096) n)) by (unfold enough; lia). reflexivity.
  Qed.
  Lemma loop_split : forall f f1 f2 cur n1 n2, 0 <= cur < vsize -> 0 <= n1 -> 0 <= n2 ->
    vsize mod 4096 = 0 \/ cur + n1 + n2 <= vsize ->
    enough f cur (n1 + n2) -> enough f1 cur n1 -> enough f2 (cur + n1) n2 ->
    loop f cur (n1 + n2) = let! a := loop f1 cur n1 in if vsize <=? cur + n1 then Ok a else let! b := loop f2 (cur + n1) n2 in Ok (a ++ b).
  Proof.
    induction f as [|f IH]; intros f1 f2 cur n1 n2 Hc H1 H2 HV E E1 E2.
    - unfold enough in E. rewrite !loop_stop by lia. cbn [bind]. destruct (vsize <=? cur + n1); [reflexivity|]. rewrite ?loop_stop by lia. reflexivity.
    - destruct (Z.eq_dec n1 0) as [Z1|N1].
      + subst n1. rewrite (loop_stop f1) by lia. cbn [bind]. replace (vsize <=? cur + 0) with false by lia. rewrite Z.add_0_r, Z.add_0_l in *.
        rewrite (loop_fuel (S f) f2 cur n2 E E2). destruct (loop f2 cur n2); reflexivity.
      + unfold enough in E, E1, E2. destruct f1 as [|f1]; [lia|]. rewrite !loop_round by lia. unfold round.
        destruct (cur / 4096 <=? int_max) eqn:CI; [|reflexivity]. cbn [check bind].
        destruct (read_data_block img ctx extents segs (cur / 4096)) as [blk| | |] eqn:EB; try reflexivity. cbn [bind]. cbv zeta. pose proof (data_block_len _ _ EB) as LB.
        destruct (Z.le_gt_cases (4096 - cur mod 4096) n1) as [C|C].
        * rewrite !Z.min_l by lia. set (r := 4096 - cur mod 4096) in *. destruct (vsize <=? cur + r) eqn:CV.
          { cbn [bind]. replace (vsize <=? cur + n1) with true by lia. reflexivity. }
          replace (n1 + n2 - r) with ((n1 - r) + n2) by lia.
          rewrite (IH f1 f2 (cur + r) (n1 - r) n2); try lia; try (unfold enough, r; lia).
          destruct (loop f1 (cur + r) (n1 - r)) as [a| | |]; try reflexivity. cbn [bind]. replace (cur + r + (n1 - r)) with (cur + n1) by lia.
          destruct (vsize <=? cur + n1); [reflexivity|]. destruct (loop f2 (cur + n1) n2) as [b| | |]; try reflexivity. cbn [bind]. rewrite app_assoc. reflexivity.
        * rewrite (Z.min_r _ n1) by lia. destruct (vsize <=? cur + n1) eqn:CV.
          { cbn [bind]. assert (n2 = 0) by lia. subst n2. rewrite Z.add_0_r, Z.min_r by lia. rewrite CV. reflexivity. }
          rewrite Z.sub_diag, (loop_stop f1) by lia. cbn [bind]. rewrite app_nil_r.
          destruct (Z.eq_dec n2 0) as [Z2|N2].
          { subst n2. rewrite (loop_stop f2) by lia. cbn [bind]. rewrite app_nil_r, Z.add_0_r, Z.min_r by lia. rewrite CV, Z.sub_diag, loop_stop by lia. cbn [bind]. rewrite app_nil_r. reflexivity. }
          destruct f2 as [|f2]; [lia|]. rewrite loop_round by lia. unfold round. replace ((cur + n1) / 4096) with (cur / 4096) by lia. rewrite CI. cbn [check bind].
          rewrite EB. cbn [bind]. cbv zeta. replace ((cur + n1) mod 4096) with (cur mod 4096 + n1) by lia.
          replace (Z.min (4096 - cur mod 4096) (n1 + n2)) with (n1 + Z.min (4096 - (cur mod 4096 + n1)) n2) by lia.
          set (r := Z.min (4096 - (cur mod 4096 + n1)) n2). assert (SL : slice blk (cur mod 4096) (n1 + r) = slice blk (cur mod 4096) n1 ++ slice blk (cur mod 4096 + n1) r).
          { apply slice_split; unfold r; lia. }
          rewrite SL. replace (cur + (n1 + r)) with (cur + n1 + r) by lia. destruct (vsize <=? cur + n1 + r); [reflexivity|].
          rewrite (loop_fuel f f2 (cur + n1 + r) (n1 + n2 - (n1 + r))) by (unfold enough, r; lia). replace (n1 + n2 - (n1 + r)) with (n2 - r) by lia.
          destruct (loop f2 (cur + n1 + r) (n2 - r)) as [b| | |]; try reflexivity. cbn [bind]. rewrite app_assoc. reflexivity.
  Qed.
  Lemma loop_len : forall f cur n d, 0 <= cur < vsize -> 0 <= n -> vsize mod 4096 = 0 \/ cur + n <= vsize -> loop f cur n = Ok d -> len d = Z.min n (vsize - cur).
  Proof.
    induction f as [|f IH]; intros cur n d Hc Hn HV.
    - cbn [read_loop]. destruct (n <=? 0) eqn:C; [|discriminate]. intros H. apply Ok_eq in H. subst. change (len (@nil Z)) with 0. lia.
    - destruct (Z.eq_dec n 0) as [->|N]; [rewrite loop_stop by lia; intros H; apply Ok_eq in H; subst; change (len (@nil Z)) with 0; lia|].
      rewrite loop_round by lia. unfold round. intros H. apply bind_ok in H. destruct H as (u & _ & H). apply bind_ok in H. destruct H as (blk & EB & H).
      cbv zeta in H. apply data_block_len in EB. destruct (vsize <=? cur + Z.min (4096 - cur mod 4096) n) eqn:CV.
      + apply Ok_eq in H. subst d. rewrite len_slice by lia. lia.
      + apply bind_ok in H. destruct H as (r & E & H). apply Ok_eq in H. subst d. apply IH in E; try lia. rewrite len_app, len_slice by lia. lia.
  Qed.
  Lemma loop_le : forall f cur n d, 0 <= n -> loop f cur n = Ok d -> len d <= n.
  Proof.
    induction f as [|f IH]; intros cur n d Hn.
    - cbn [read_loop]. destruct (n <=? 0) eqn:C; [|discriminate]. intros H. apply Ok_eq in H. subst. change (len (@nil Z)) with 0. lia.
    - destruct (Z.eq_dec n 0) as [->|N]; [rewrite loop_stop by lia; intros H; apply Ok_eq in H; subst; change (len (@nil Z)) with 0; lia|].
      rewrite loop_round by lia. unfold round. intros H. apply bind_ok in H. destruct H as (u & _ & H). apply bind_ok in H. destruct H as (blk & EB & H).
      cbv zeta in H. apply data_block_len in EB. destruct (vsize <=? cur + Z.min (4096 - cur mod 4096) n).
      + apply Ok_eq in H. subst d. rewrite len_slice by lia. lia.
      + apply bind_ok in H. destruct H as (r & E & H). apply Ok_eq in H. subst d. apply IH in E; try lia. rewrite len_app, len_slice by lia. lia.
  Qed.
End Split.

(* ---- streams ---- *)
Definition splits (s : stream) : Prop := forall off n1 n2, 0 <= off -> 0 <= n1 -> 0 <= n2 -> n1 + n2 <= 2 ^ 63 - 1 ->
  stream_read s off (n1 + n2) = let! a := stream_read s off n1 in let! b := stream_read s (off + len a) n2 in Ok (a ++ b).
Definition bounded (s : stream) : Prop := forall off n d, stream_read s off n = Ok d -> len d <= n /\ len d <= Z.max 0 (st_size s - off).

Lemma stream_check s off n : 0 <= off -> 0 <= n <= 2 ^ 63 - 1 ->
  stream_read s off n = if st_size s <=? off then Ok [] else st_read s off (Z.min n (st_size s - off)).
Proof. intros H1 H2. unfold stream_read. replace ((0 <=? off) && (0 <=? n) && (n <=? 2 ^ 63 - 1)) with true by lia. reflexivity. Qed.

Lemma extents_split img ctx l size sparse s : stream_of_extents img ctx l size sparse = Ok s -> 0 <= size < 2 ^ 63 ->
  (forall segs, segments sparse 0 0 l = Ok segs -> vector_size segs mod 4096 = 0 \/ size <= vector_size segs) -> splits s.
Proof.
  intros H Hs HV. unfold stream_of_extents in H. apply bind_ok in H. destruct H as (segs & E & H). apply Ok_eq in H. specialize (HV segs E). clear E. subst s.
  intros off n1 n2 Ho H1 H2 H3. rewrite !stream_check by lia. cbn [st_size st_read]. destruct (size <=? off) eqn:C1.
  { cbn [bind]. rewrite stream_check by (cbn; lia). cbn [st_size]. change (len (@nil Z)) with 0. rewrite Z.add_0_r, C1. reflexivity. }
  unfold handle_read. replace (0 <=? off) with true by lia. cbn [andb].
  replace (Z.min (n1 + n2) (size - off) <=? 2 ^ 63 - 1) with true by lia. replace (Z.min n1 (size - off) <=? 2 ^ 63 - 1) with true by lia. cbn [check bind].
  destruct (vector_size segs <=? off) eqn:C2.
  { cbn [bind]. rewrite stream_check by (cbn; lia). cbn [st_size st_read]. change (len (@nil Z)) with 0. rewrite Z.add_0_r, C1. unfold handle_read.
    replace ((0 <=? off) && (Z.min n2 (size - off) <=? 2 ^ 63 - 1)) with true by lia. cbn [check bind]. rewrite C2. reflexivity. }
  set (m1 := Z.min n1 (size - off)). assert (M : Z.min (n1 + n2) (size - off) = m1 + Z.min n2 (size - off - m1)) by lia. rewrite M. set (m2 := Z.min n2 (size - off - m1)).
  rewrite (loop_split img ctx l segs _ (Z.to_nat (m1 / 4096 + 2)) (Z.to_nat (m2 / 4096 + 2)) off m1 m2); try (unfold enough, m1, m2; lia).
  destruct (read_loop img ctx l segs (Z.to_nat (m1 / 4096 + 2)) off m1) as [a| | |] eqn:EA; try reflexivity. cbn [bind].
  apply loop_len in EA; try (unfold m1; lia). pose proof (len_nonneg a). rewrite stream_check by lia. cbn [st_size st_read].
  destruct (vector_size segs <=? off + m1) eqn:C3.
  - destruct (size <=? off + len a) eqn:C4; [cbn [bind]; rewrite app_nil_r; reflexivity|]. unfold handle_read.
    replace ((0 <=? off + len a) && (Z.min n2 (size - (off + len a)) <=? 2 ^ 63 - 1)) with true by lia. cbn [check bind].
    replace (vector_size segs <=? off + len a) with true by lia. cbn [bind]. rewrite app_nil_r. reflexivity.
  - assert (LA : len a = m1) by lia. rewrite LA. destruct (size <=? off + m1) eqn:C4.
    + rewrite loop_stop by (unfold m2; lia). cbn [bind]. reflexivity.
    + unfold handle_read. replace (Z.min n2 (size - (off + m1))) with m2 by (unfold m2; lia).
      replace ((0 <=? off + m1) && (m2 <=? 2 ^ 63 - 1)) with true by (unfold m1, m2; lia). cbn [check bind]. rewrite C3. reflexivity.
Qed.
Lemma extents_bounded img ctx l size sparse s : stream_of_extents img ctx l size sparse = Ok s -> bounded s.
Proof.
  intros H. unfold stream_of_extents in H. apply bind_ok in H. destruct H as (segs & E & H). apply Ok_eq in H. subst s. intros off n d H.
  unfold stream_read in H. apply bind_ok in H. destruct H as (u & C & H). apply check_ok in C. cbn [st_size st_read] in *.
  destruct (size <=? off) eqn:C1; [apply Ok_eq in H; subst; change (len (@nil Z)) with 0; lia|].
  unfold handle_read in H. apply bind_ok in H. destruct H as (u' & _ & H). destruct (vector_size segs <=? off); [apply Ok_eq in H; subst; change (len (@nil Z)) with 0; lia|].
  apply loop_le in H; lia.
Qed.
Lemma data_split data : len data < 2 ^ 63 -> splits (stream_of_data data) /\ bounded (stream_of_data data).
Proof.
  intros HL. assert (G : forall off n, 0 <= off -> 0 <= n <= 2 ^ 63 - 1 -> stream_read (stream_of_data data) off n = Ok (slice data off (Z.max 0 (Z.min n (len data - off))))).
  { intros off n Ho Hn. rewrite stream_check by lia. cbn [stream_of_data st_size st_read]. destruct (len data <=? off) eqn:C.
    - replace (Z.max 0 (Z.min n (len data - off))) with 0 by lia. reflexivity.
    - unfold buffer_read. replace ((0 <=? off) && (Z.min n (len data - off) <=? 2 ^ 63 - 1)) with true by lia. cbn [check bind]. rewrite C.
      rewrite rd_in by lia. do 2 f_equal. lia. }
  split.
  - intros off n1 n2 H1 H2 H3 H4. rewrite !G by lia. cbn [bind].
    assert (LS : len (slice data off (Z.max 0 (Z.min n1 (len data - off)))) = Z.max 0 (Z.min n1 (len data - off))).
    { destruct (Z.le_gt_cases (len data) off) as [C|C]; [|apply len_slice; lia]. replace (Z.max 0 (Z.min n1 (len data - off))) with 0 by lia. reflexivity. }
    rewrite LS, G by lia. cbn [bind]. f_equal. rewrite <- slice_split by lia. f_equal. lia.
  - intros off n d H. pose proof H as H'. unfold stream_read in H'. apply bind_ok in H'. destruct H' as (u & C & _). apply check_ok in C. rewrite G in H by lia. apply Ok_eq in H. subst d.
    destruct (Z.le_gt_cases (len data) off) as [C1|C1]; [|rewrite len_slice by lia; cbn [stream_of_data st_size]; lia].
    replace (Z.max 0 (Z.min n (len data - off))) with 0 by lia. change (len (slice data off 0)) with 0. lia.
Qed.

(* ---- calls ---- *)
Lemma reads_split s : splits s -> bounded s -> forall ns cur d, 0 <= cur -> Forall (fun n => 0 <= n) ns -> fold_right Z.add 0 ns <= 2 ^ 63 - 1 ->
  stream_read s cur (fold_right Z.add 0 ns) = Ok d ->
  exists ds, calls s cur (map Read ns) = Ok (map Bytes ds, cur + len d) /\ concat ds = d /\ Forall2 (fun n x => len x <= n) ns ds.
Proof.
  intros HS HB. induction ns as [|n ns IH]; intros cur d Hc HF HL H.
  - exists []. cbn [map calls concat]. cbn [fold_right] in H. apply HB in H. assert (d = []) by (destruct d; [reflexivity|]; rewrite len_cons in H; pose proof (len_nonneg d); lia).
    subst. change (len (@nil Z)) with 0. rewrite Z.add_0_r. split; [reflexivity|]. split; [reflexivity|constructor].
  - cbn [fold_right] in *. pose proof (Forall_inv HF) as Hn. apply Forall_inv_tail in HF.
    assert (P : 0 <= fold_right Z.add 0 ns) by (clear - HF; induction ns as [|x l IH]; cbn [fold_right]; [lia|]; pose proof (Forall_inv HF); apply Forall_inv_tail in HF; specialize (IH HF); cbn beta in *; lia).
    cbn beta in Hn. rewrite HS in H by lia. apply bind_ok in H. destruct H as (a & EA & H). apply bind_ok in H. destruct H as (b & EB & H). apply Ok_eq in H. subst d.
    pose proof (HB _ _ _ EA) as (BA & _). pose proof (len_nonneg a).
    destruct (IH (cur + len a) b ltac:(lia) HF ltac:(lia) EB) as (ds & E & <- & F2). exists (a :: ds). cbn [map calls call_step]. rewrite EA. cbn [bind]. rewrite E. cbn [bind concat map].
    split; [rewrite len_app; do 2 f_equal; lia|]. split; [reflexivity|]. constructor; assumption.
Qed.
