(* Block tables of well-formed compressed files, and whole-file reads. *)
From Verif Require Import Base BaseLemmas Checksum ChecksumSpec Deflate DeflateSpec DeflateTop
  Compressed CompressedSpec CompressedProofs CompressedRead.
Ltac Zify.zify_post_hook ::= Z.div_mod_to_equations.

Lemma offsets_from_len start comps : length (offsets_from start comps) = length comps.
Proof. revert start; induction comps; intros; cbn; auto. Qed.

(* Last block with the bytes that follow it. *)
Fixpoint with_tail (comps : list (list Z)) (tail : list Z) : list (list Z) :=
  match comps with
  | [] => []
  | [c] => [c ++ tail]
  | c :: r => c :: with_tail r tail
  end.

Lemma cut_layout : forall comps pre tail, comps <> [] ->
  cut (pre ++ concat comps ++ tail) (offsets_from (len pre) comps ++ [len (pre ++ concat comps ++ tail)]) =
  with_tail comps tail.
Proof.
  induction comps as [|c [|d comps] IH]; intros pre tail N; [congruence| |].
  - cbn [concat offsets_from app cut with_tail]. rewrite app_nil_r.
    rewrite slice_app_r, Z.sub_diag by lia. rewrite slice_all; auto. rewrite !len_app. lia.
  - specialize (IH (pre ++ c) tail ltac:(congruence)).
    replace ((pre ++ c) ++ concat (d :: comps) ++ tail) with (pre ++ concat (c :: d :: comps) ++ tail) in IH
      by (cbn [concat]; rewrite <- !app_assoc; reflexivity).
    set (C := pre ++ concat (c :: d :: comps) ++ tail) in *.
    rewrite len_app in IH.
    change (offsets_from (len pre) (c :: d :: comps)) with (len pre :: offsets_from (len pre + len c) (d :: comps)).
    change (with_tail (c :: d :: comps) tail) with (c :: with_tail (d :: comps) tail). rewrite <- IH.
    change (cut C ((len pre :: offsets_from (len pre + len c) (d :: comps)) ++ [len C]))
      with (slice C (len pre) (len pre + len c - len pre) :: cut C (offsets_from (len pre + len c) (d :: comps) ++ [len C])).
    f_equal. unfold C. cbn [concat]. rewrite <- !app_assoc. apply slice_exact; lia.
Qed.

Lemma offsets_steps : forall comps start, Forall (fun c => len c <= 65537) comps ->
  match offsets_from start comps with [] => True | o :: r => o = start /\ steps_ok o r end.
Proof.
  induction comps as [|c comps IH]; intros start F; cbn [offsets_from]; auto. split; auto.
  apply Forall_cons_iff in F. destruct F as (F1 & F2).
  specialize (IH (start + len c) F2). destruct (offsets_from (start + len c) comps) as [|o r]; [exact I|].
  destruct IH as (-> & S). pose proof (len_nonneg c). split; [lia|auto].
Qed.

Lemma offsets_last : forall comps start, comps <> [] ->
  last (offsets_from start comps) 0 + len (last comps []) = start + len (concat comps).
Proof.
  induction comps as [|c [|d comps] IH]; intros start N; [congruence| |].
  - cbn [offsets_from last concat]. rewrite app_nil_r. lia.
  - change (last (offsets_from start (c :: d :: comps)) 0) with (last (offsets_from (start + len c) (d :: comps)) 0).
    change (last (c :: d :: comps) []) with (last (d :: comps) []).
    rewrite IH by congruence. cbn [concat]. rewrite !len_app. lia.
Qed.

Lemma offsets_range : forall comps start o, In o (offsets_from start comps) -> start <= o <= start + len (concat comps).
Proof.
  induction comps as [|c comps IH]; intros start o H; [destruct H|].
  cbn [offsets_from concat] in *. rewrite len_app. pose proof (len_nonneg c). pose proof (len_nonneg (concat comps)).
  destruct H as [<-|H]; [lia|]. apply IH in H. lia.
Qed.

Lemma offsets_shift : forall comps start k, offsets_from (start + k) comps = map (fun o => o + k) (offsets_from start comps).
Proof.
  induction comps as [|c comps IH]; intros; cbn; auto. f_equal.
  rewrite <- IH. f_equal. lia.
Qed.

(* ---- DEFLATE fork ---- *)

Lemma deflate_table_offs : forall comps pre post start,
  0 <= start -> start + 260 + len (concat comps) < 2 ^ 32 ->
  table_offs (length comps) (pre ++ deflate_table start comps ++ post) (len pre) 4 260 =
  offsets_from (start + 260) comps.
Proof.
  induction comps as [|c comps IH]; intros pre post start Hs Hl; cbn [length table_offs offsets_from]; auto.
  cbn [concat] in Hl. rewrite len_app in Hl. pose proof (len_nonneg c). pose proof (len_nonneg (concat comps)).
  unfold deflate_table. cbn [offsets_from combine flat_map]. fold (deflate_table (start + len c) comps).
  f_equal.
  - rewrite <- !app_assoc. rewrite slice_exact; [|auto|rewrite le_enc_len; auto].
    rewrite le_val_enc by (change (256 ^ Z.of_nat 4) with (2 ^ 32); lia).
    unfold w32. apply Z.mod_small. lia.
  - replace (start + 260 + len c) with (start + len c + 260) by lia.
    rewrite <- (IH (pre ++ le_enc 4 start ++ le_enc 4 (len c)) post (start + len c)) by lia.
    f_equal.
    + rewrite <- !app_assoc. reflexivity.
    + rewrite !len_app, !le_enc_len. lia.
Qed.

Lemma deflate_table_len start comps : len (deflate_table start comps) = 8 * len comps.
Proof.
  revert start; induction comps as [|c comps IH]; intros; [reflexivity|].
  unfold deflate_table. cbn [offsets_from combine flat_map]. fold (deflate_table (start + len c) comps).
  rewrite !len_app, !le_enc_len, len_cons, IH. lia.
Qed.

Lemma deflate_table_bytes start comps : bytes (deflate_table start comps).
Proof.
  revert start; induction comps as [|c comps IH]; intros; [constructor|].
  unfold deflate_table. cbn [offsets_from combine flat_map]. fold (deflate_table (start + len c) comps).
  rewrite !bytes_app. repeat split; auto using le_enc_bytes.
Qed.

Lemma concat_bytes l : Forall bytes l -> bytes (concat l).
Proof. induction 1; cbn; [constructor|]. apply bytes_app; auto. Qed.

Section DeflateFork.
Variables (hdr : list Z) (dsize : Z) (comps : list (list Z)) (rmap : list Z).
Let C := deflate_fork hdr dsize comps rmap.
Hypothesis Hh : bytes hdr /\ len hdr = 252.
Hypothesis Hb : Forall bytes comps /\ bytes rmap.

Lemma fork_bytes : bytes C.
Proof.
  unfold C, deflate_fork. rewrite !bytes_app. destruct Hh, Hb.
  repeat split; auto using be_enc_bytes, le_enc_bytes, deflate_table_bytes, concat_bytes.
Qed.

Lemma fork_split : C = (be_enc 4 0x100 ++ hdr ++ be_enc 4 dsize ++ le_enc 4 (len comps)) ++
  deflate_table (4 + 8 * len comps) comps ++ concat comps ++ rmap.
Proof. unfold C, deflate_fork. rewrite <- !app_assoc. reflexivity. Qed.

Lemma fork_pre_len : len (be_enc 4 0x100 ++ hdr ++ be_enc 4 dsize ++ le_enc 4 (len comps)) = 264.
Proof. rewrite !len_app, !be_enc_len, le_enc_len. destruct Hh. lia. Qed.

Lemma fork_len : len C = 264 + 8 * len comps + len (concat comps) + len rmap.
Proof. rewrite fork_split, len_app, fork_pre_len, !len_app, deflate_table_len. lia. Qed.

Lemma fork_sig : slice C 0 4 = be_enc 4 0x100.
Proof. unfold C, deflate_fork. apply (slice_exact [] (be_enc 4 0x100)); reflexivity. Qed.

Lemma fork_count : len comps < 2 ^ 32 -> le_val (slice C 260 4) = len comps.
Proof.
  intros H.
  assert (E : C = (be_enc 4 0x100 ++ hdr ++ be_enc 4 dsize) ++ le_enc 4 (len comps) ++
     deflate_table (4 + 8 * len comps) comps ++ concat comps ++ rmap).
  { unfold C, deflate_fork. rewrite <- !app_assoc. reflexivity. }
  rewrite E, slice_exact.
  - apply le_val_enc. pose proof (len_nonneg comps). change (256 ^ Z.of_nat 4) with (2 ^ 32). lia.
  - rewrite !len_app, !be_enc_len. destruct Hh. lia.
  - rewrite le_enc_len. reflexivity.
Qed.

Hypothesis Hn : 1 <= len comps <= 8159.
Hypothesis Hc : Forall (fun c => len c <= 65537) comps.
Hypothesis Ht : len (last comps []) + len rmap <= 65537.
Hypothesis Hl : len C < 2 ^ 32.

Lemma fork_offsets : get_block_offsets METHOD_DEFLATE (mem C) =
  Ok (offsets_from (264 + 8 * len comps) comps ++ [len C]).
Proof.
  pose proof fork_len as FL. pose proof (len_nonneg (concat comps)). pose proof (len_nonneg rmap).
  assert (NS : le_val (slice C 0 4) <> INLINE_SIG) by (rewrite fork_sig; vm_compute; congruence).
  pose proof (fork_count ltac:(lia)) as FC.
  (* the whole table, first entry included *)
  pose proof (deflate_table_offs comps (be_enc 4 0x100 ++ hdr ++ be_enc 4 dsize ++ le_enc 4 (len comps))
    (concat comps ++ rmap) (4 + 8 * len comps) ltac:(lia) ltac:(lia)) as T.
  rewrite <- fork_split, fork_pre_len in T. replace (4 + 8 * len comps + 260) with (264 + 8 * len comps) in T by lia.
  assert (BD : deflate_body C = offsets_from (264 + 8 * len comps) comps).
  { rewrite <- T. unfold deflate_body. rewrite FC.
    destruct comps as [|c cs] eqn:Q; [cbn in Hn; lia|]. cbn [length table_offs]. f_equal. f_equal.
    rewrite len_cons. unfold len. lia. }
  assert (OK : deflate_ok C).
  { unfold deflate_ok. rewrite FC. split; [rewrite fork_sig; reflexivity|]. split; [lia|]. split; [lia|]. split; [lia|].
    assert (F0 : w32 (le_val (slice C 264 4) + 260) = 264 + 8 * len comps).
    { unfold deflate_body in BD. destruct comps as [|c cs] eqn:Q; [cbn in Hn; lia|]. cbn [offsets_from] in BD.
      injection BD. auto. }
    pose proof (le_val4 C 264 fork_bytes ltac:(lia) ltac:(lia)) as R.
    split; [unfold w32 in F0; lia|].
    rewrite BD. pose proof (offsets_steps comps (264 + 8 * len comps) Hc) as S.
    assert (N : comps <> []) by (intros ->; cbn in Hn; lia).
    pose proof (offsets_last comps (264 + 8 * len comps) N) as LS. pose proof (len_nonneg (last comps [])).
    destruct (offsets_from (264 + 8 * len comps) comps) as [|o r] eqn:Q.
    { destruct comps; [congruence|discriminate]. }
    destruct S as (-> & S). cbn [body_ok]. rewrite last_cons in LS. split; auto. lia. }
  destruct (deflate_cases C fork_bytes NS) as [(_ & X)|[(X & _)|(_ & _ & X & _)]].
  - tauto.
  - rewrite X, BD. unfold w32. rewrite Z.mod_small by lia. reflexivity.
  - rewrite FC in X. lia.
Qed.

Lemma fork_cut : cut C (offsets_from (264 + 8 * len comps) comps ++ [len C]) = with_tail comps rmap.
Proof.
  assert (N : comps <> []) by (intros ->; cbn in Hn; lia).
  pose proof (cut_layout comps ((be_enc 4 0x100 ++ hdr ++ be_enc 4 dsize ++ le_enc 4 (len comps)) ++
     deflate_table (4 + 8 * len comps) comps) rmap N) as X.
  rewrite <- !app_assoc in X.
  assert (E : be_enc 4 256 ++ hdr ++ be_enc 4 dsize ++ le_enc 4 (len comps) ++
     deflate_table (4 + 8 * len comps) comps ++ concat comps ++ rmap = C) by reflexivity.
  rewrite E in X. rewrite <- X. f_equal. f_equal. f_equal.
  rewrite !len_app, !be_enc_len, le_enc_len, deflate_table_len. destruct Hh. lia.
Qed.

End DeflateFork.

(* A fork of 8160 or more blocks overflows the table buffer. *)
Lemma deflate_overflow C : bytes C -> be_val (slice C 0 4) = 0x100 -> le_val (slice C 0 4) <> INLINE_SIG ->
  8160 <= le_val (slice C 260 4) <= 33554431 -> 65537 < len C -> get_block_offsets METHOD_DEFLATE (mem C) = Oob.
Proof.
  intros HB E1' HS HN HL. unfold get_block_offsets; change (src_size (mem C)) with (len C). set (n := le_val (slice C 260 4)) in *.
  destruct (read_into_cases C _ 0 4 (buf_init C) ltac:(lia)) as (_ & _ & _ & R).
  destruct R as (buf & R & B); try lia.
  rewrite R. cbn [bind]. rewrite (sig_rd C buf B). cbn [bind].
  change 0x636d7066 with INLINE_SIG. replace (le_val (slice C 0 4) =? INLINE_SIG) with false by lia.
  cbv beta iota zeta. change (METHOD_DEFLATE =? METHOD_DEFLATE) with true. cbv beta iota.
  rewrite (buf_rd_be C 4 buf 0 4 B) by lia. cbn [bind]. rewrite E1'.
  change (256 =? 256) with true. cbn [check bind].
  change (256 + 16 - 4) with 268. change (256 + 4) with 260.
  destruct (read_into_cases C buf 4 268 B ltac:(lia)) as (_ & _ & _ & R1).
  destruct R1 as (buf1 & R1 & B1); try lia.
  rewrite R1. cbn [bind]. change (4 + 268) with 272 in *.
  rewrite (buf_rd_le C 272 buf1 260 4 B1) by lia. cbn [bind]. fold n.
  change ((2 ^ 32 - 1) / 8) with 536870911. change (134217728 / 4 - 1) with 33554431.
  replace (536870911 <? n) with false by lia. cbn [negb check bind].
  rewrite (buf_rd_le C 272 buf1 264 4 B1) by lia. cbn [bind].
  replace (33554431 <? n) with false by lia. cbn [negb check bind].
  assert (B2 : buf_is C 268 buf1).
  { destruct B1 as (X1 & X2 & X3 & X4). repeat split; try lia.
    apply (f_equal (firstn 268)) in X4. rewrite !firstn_firstn in X4. exact X4. }
  replace (w64 (w64 (n - 1) * 8)) with (8 * (n - 1)) by (unfold w64; rewrite !Z.mod_small; lia).
  destruct (read_into_cases C buf1 268 (8 * (n - 1)) B2 ltac:(lia)) as (_ & R2o & _).
  rewrite R2o by lia. reflexivity.
Qed.

(* ---- LZVN fork ---- *)

Lemma lzvn_table_offs : forall comps pre post start,
  0 <= start -> start + len (concat comps) < 2 ^ 32 ->
  table_offs (length comps) (pre ++ flat_map (le_enc 4) (offsets_from start comps) ++ post) (len pre) 0 0 =
  offsets_from start comps.
Proof.
  induction comps as [|c comps IH]; intros pre post start Hs Hl; cbn [length table_offs offsets_from]; auto.
  cbn [concat] in Hl. rewrite len_app in Hl. pose proof (len_nonneg c). pose proof (len_nonneg (concat comps)).
  cbn [flat_map]. f_equal.
  - rewrite <- !app_assoc. rewrite slice_exact; [|auto|rewrite le_enc_len; auto].
    rewrite le_val_enc by (change (256 ^ Z.of_nat 4) with (2 ^ 32); lia).
    unfold w32. rewrite Z.mod_small; lia.
  - rewrite <- (IH (pre ++ le_enc 4 start) post (start + len c)) at 2 by lia.
    f_equal.
    + rewrite <- !app_assoc. reflexivity.
    + rewrite !len_app, !le_enc_len. lia.
Qed.

Lemma flat_le4_len l : len (flat_map (le_enc 4) l) = 4 * len l.
Proof. induction l as [|x l IH]; [reflexivity|]. cbn [flat_map]. rewrite len_app, le_enc_len, len_cons, IH. lia. Qed.
Lemma flat_le4_bytes l : bytes (flat_map (le_enc 4) l).
Proof. induction l as [|x l IH]; [constructor|]. cbn [flat_map]. apply bytes_app. auto using le_enc_bytes. Qed.
Lemma concat_nil_end (comps : list (list Z)) : concat (comps ++ [[]]) = concat comps.
Proof. rewrite concat_app. cbn. rewrite app_nil_r. auto. Qed.

Section LzvnFork.
Variable comps : list (list Z).
Let C := lzvn_fork comps.
Hypothesis Hb : Forall bytes comps.
Hypothesis Hn : 1 <= len comps <= 16383.
Hypothesis Hc : Forall (fun c => len c <= 65537) comps.
Hypothesis Hl : len C < 2 ^ 32.

Lemma lfork_len : len C = 4 * (len comps + 1) + len (concat comps).
Proof.
  unfold C, lzvn_fork. rewrite len_app, flat_le4_len. unfold len at 1. rewrite offsets_from_len, app_length.
  cbn [length]. unfold len. lia.
Qed.

Lemma lfork_bytes : bytes C.
Proof. unfold C, lzvn_fork. apply bytes_app. auto using flat_le4_bytes, concat_bytes. Qed.

Lemma lfork_offsets : get_block_offsets METHOD_LZVN (mem C) =
  Ok (offsets_from (4 * (len comps + 1)) (comps ++ [[]]) ++ [len C]).
Proof.
  pose proof lfork_len as FL. pose proof (len_nonneg (concat comps)).
  pose proof (lzvn_table_offs (comps ++ [[]]) [] (concat comps) (4 * (len comps + 1))) as T.
  rewrite concat_nil_end in T. specialize (T ltac:(lia) ltac:(lia)). cbn [app] in T.
  change (flat_map (le_enc 4) (offsets_from (4 * (len comps + 1)) (comps ++ [[]])) ++ concat comps) with C in T.
  change (len (@nil Z)) with 0 in T.
  assert (F1 : le_val (slice C 0 4) = 4 * (len comps + 1)).
  { unfold C, lzvn_fork. destruct comps as [|c cs] eqn:Q; [cbn in Hn; lia|]. cbn [app offsets_from flat_map].
    rewrite <- !app_assoc.
    etransitivity; [apply (f_equal le_val); apply (slice_exact [] (le_enc 4 (4 * (len (c :: cs) + 1)))); reflexivity|].
    apply le_val_enc. change (256 ^ Z.of_nat 4) with (2 ^ 32). lia. }
  assert (BD : lzvn_body C = offsets_from (4 * (len comps + 1)) (comps ++ [[]])).
  { etransitivity; [|exact T]. unfold lzvn_body. rewrite app_length. cbn [length]. rewrite Nat.add_1_r. cbn [table_offs].
    f_equal.
    - unfold w32. rewrite Z.mod_small by lia. lia.
    - f_equal. rewrite F1. unfold len. lia. }
  assert (NS : le_val (slice C 0 4) <> INLINE_SIG) by (rewrite F1; unfold INLINE_SIG; lia).
  assert (OK : lzvn_ok C).
  { unfold lzvn_ok. rewrite F1. split; [lia|]. split; [lia|]. split; [lia|]. rewrite BD.
    assert (Hc' : Forall (fun c => len c <= 65537) (comps ++ [[]])).
    { apply Forall_app. split; auto. constructor; [cbn; lia|constructor]. }
    pose proof (offsets_steps (comps ++ [[]]) (4 * (len comps + 1)) Hc') as S.
    assert (N : comps ++ [[]] <> []) by (destruct comps; discriminate).
    pose proof (offsets_last (comps ++ [[]]) (4 * (len comps + 1)) N) as LS.
    rewrite concat_nil_end, last_last in LS. change (len (@nil Z)) with 0 in LS.
    destruct (offsets_from (4 * (len comps + 1)) (comps ++ [[]])) as [|o r] eqn:Q.
    { destruct comps; discriminate. }
    destruct S as (-> & S). cbn [body_ok]. rewrite last_cons in LS. split; auto. lia. }
  destruct (lzvn_cases C lfork_bytes NS) as [(_ & X)|(X & _)].
  - tauto.
  - rewrite X, BD. unfold w32. rewrite Z.mod_small by lia. reflexivity.
Qed.

Lemma lfork_cut : cut C (offsets_from (4 * (len comps + 1)) (comps ++ [[]]) ++ [len C]) = comps ++ [[]].
Proof.
  assert (N : comps ++ [[]] <> []) by (destruct comps; discriminate).
  pose proof (cut_layout (comps ++ [[]]) (flat_map (le_enc 4) (offsets_from (4 * (len comps + 1)) (comps ++ [[]]))) [] N) as X.
  rewrite concat_nil_end, app_nil_r in X.
  change (flat_map (le_enc 4) (offsets_from (4 * (len comps + 1)) (comps ++ [[]])) ++ concat comps) with C in X.
  rewrite flat_le4_len in X. unfold len in X at 1. rewrite offsets_from_len, app_length in X. cbn [length] in X.
  replace (4 * Z.of_nat (length comps + 1)) with (4 * (len comps + 1)) in X by (unfold len; lia).
  rewrite X. clear. induction comps as [|c [|d cs] IH]; [reflexivity|reflexivity|].
  change ((c :: d :: cs) ++ [[]]) with (c :: (d :: cs) ++ [[]]).
  change (with_tail (c :: (d :: cs) ++ [[]]) []) with (c :: with_tail ((d :: cs) ++ [[]]) []). rewrite IH. reflexivity.
Qed.

End LzvnFork.

(* ---- whole files ---- *)

Lemma blocks_len bs : file_blocks bs -> 65536 * (len bs - 1) < len (concat bs) <= 65536 * len bs.
Proof.
  intros (front & b & -> & F & L). rewrite concat_app, !len_app. cbn [concat]. rewrite app_nil_r.
  assert (len (concat front) = 65536 * len front) as ->.
  { clear L. induction F; [reflexivity|]. cbn [concat]. rewrite len_app, len_cons. lia. }
  change (len [b]) with 1. lia.
Qed.

Lemma blocks_states dec : forall bs comps rest, file_blocks bs ->
  Forall2 (fun c b => dec c 65536 = Ok b) comps bs ->
  block_states dec (len (concat bs)) 0 (comps ++ rest) (map Some bs).
Proof.
  intros bs comps rest (front & b & -> & F & L) F2.
  enough (H : forall k, 0 <= k -> block_states dec (65536 * k + len (concat (front ++ [b]))) k (comps ++ rest) (map Some (front ++ [b])))
    by (specialize (H 0 ltac:(lia)); exact H).
  revert comps F2. induction F as [|x front Fx F IH]; intros comps F2 k Hk.
  - cbn [app map] in *. inversion F2 as [|c ? cs ? D F2']; subst. inversion F2'; subst. cbn [app concat].
    rewrite app_nil_r. constructor; [|constructor]. cbn [block_state]. repeat split; auto; lia.
  - cbn [app map] in *. inversion F2 as [|c ? cs ? D F2']; subst. cbn [app concat]. constructor.
    + cbn [block_state]. repeat split; auto; lia.
    + specialize (IH cs F2' (k + 1) ltac:(lia)). rewrite len_app, Fx.
      replace (65536 * k + (65536 + len (concat (front ++ [b])))) with (65536 * (k + 1) + len (concat (front ++ [b]))) by lia.
      exact IH.
Qed.

Lemma content_some bs : content (map Some bs) = concat bs.
Proof. unfold content. rewrite map_map, map_id. reflexivity. Qed.

Theorem whole_file dec junk method C offs comps rest bs ops :
  (forall d s, len (junk d s) = len s) -> method <> METHOD_UNKNOWN5 ->
  get_block_offsets method (mem C) = Ok offs -> offsets_ok offs -> 2 <= len offs <= 16385 ->
  (forall o, In o offs -> o <= len C) ->
  cut C offs = comps ++ rest -> file_blocks bs -> Forall2 (fun c b => dec c 65536 = Ok b) comps bs ->
  Forall (fun op => 0 <= fst op) ops ->
  fst (file_reads dec junk method (mem C) (len (concat bs)) ch_init ops) = map (read_slice (concat bs)) ops.
Proof.
  intros HJ HM HT HO HL HE HC HB HF Hops.
  pose proof (blocks_len bs HB) as BL.
  assert (ST : block_states dec (len (concat bs)) 0 (cut C offs) (map Some bs)) by (rewrite HC; apply blocks_states; auto).
  assert (SZ : 65536 * (len (map Some bs) - 1) < len (concat bs) <= 65536 * len (map Some bs))
    by (unfold len in *; rewrite map_length; lia).
  assert (NN : Forall (fun st : option (list Z) => st <> None) (map Some bs)).
  { apply Forall_forall. intros x Hx. apply in_map_iff in Hx. destruct Hx as (? & <- & _). discriminate. }
  pose proof (predict_all junk C (len (concat bs)) offs (map Some bs) HJ HE SZ NN ops (2 ^ 32 - 1) Hops) as P.
  rewrite (history_spec dec junk method C (len (concat bs)) offs (map Some bs) HJ HM HT HO HL HE ST SZ ops _ Hops P).
  rewrite map_map. apply map_ext. intros [off n]. cbn [outcome]. unfold read_slice. cbn [fst snd].
  rewrite content_some. reflexivity.
Qed.

Definition deflate_stored (c b : list Z) : Prop :=
  stored 0xff (zlib_stream has_distances (adler_ref 1 0)) c b.

Lemma zlib_head c b : zlib_stream has_distances (adler_ref 1 0) c b -> nth 0 c 0 <> 0xff /\ 2 <= len c.
Proof.
  intros (cmf & flg & body & bs & pad & -> & Bc & Bf & M8 & _). cbn [app nth]. unfold is_byte in *.
  rewrite !len_cons, len_app. pose proof (len_nonneg body). pose proof (len_nonneg (be_enc 4 (adler_ref 1 0 b))).
  split; lia.
Qed.

Lemma decompress_raw lzvn c cap : len c <= cap -> decompress_data lzvn METHOD_DEFLATE (0xff :: c) cap = Ok c.
Proof.
  intros H. unfold decompress_data. change (METHOD_DEFLATE =? METHOD_DEFLATE) with true. cbv beta iota.
  cbn [nth]. rewrite len_cons. pose proof (len_nonneg c). replace (1 <=? 1 + len c) with true by lia.
  change (255 =? 255) with true. cbn [andb]. replace (1 + len c - 1) with (len c) by lia.
  replace (cap <? len c) with false by lia. cbn [negb check bind].
  rewrite rd_in by (rewrite ?len_cons; lia).
  pose proof (slice_exact [0xff] c [] 1 (len c) eq_refl eq_refl) as X. rewrite app_nil_r in X. cbn [app] in X.
  rewrite X. reflexivity.
Qed.

Lemma decompress_zlib lzvn c b extra cap : zlib_stream has_distances (adler_ref 1 0) c b -> bytes extra ->
  len b <= cap -> decompress_data lzvn METHOD_DEFLATE (c ++ extra) cap = Ok b.
Proof.
  intros H Hx Hc. destruct (zlib_head c b H) as (H1 & H2).
  unfold decompress_data. change (METHOD_DEFLATE =? METHOD_DEFLATE) with true. cbv beta iota.
  assert (nth 0 (c ++ extra) 0 = nth 0 c 0) as ->.
  { apply app_nth1. unfold len in *. lia. }
  replace (nth 0 c 0 =? 255) with false by lia. rewrite andb_false_r.
  apply zlib_complete_trailing; auto.
Qed.

Lemma file_blocks_small bs : file_blocks bs -> Forall (fun b => len b <= 65536) bs.
Proof.
  intros (front & b & -> & F & L). apply Forall_app. split; [|constructor; [lia|constructor]].
  eapply Forall_impl; [|exact F]. cbn. intros; lia.
Qed.

Lemma tail_forall2 : forall (P Q : list Z -> list Z -> Prop) tail comps bs c b,
  Forall2 P (comps ++ [c]) (bs ++ [b]) -> (forall x y, P x y -> Q x y) ->
  Q (c ++ tail) b -> Forall2 Q (with_tail (comps ++ [c]) tail) (bs ++ [b]).
Proof.
  intros P Q tail. induction comps as [|x comps IH]; intros bs c b H HPQ HQ.
  - destruct bs as [|y bs].
    + cbn [app with_tail] in *. constructor; [auto|constructor].
    + cbn in H. inversion H as [|? ? ? ? H1 H2]; subst. inversion H2; destruct bs; discriminate.
  - destruct bs as [|y bs].
    { cbn in H. inversion H as [|? ? ? ? H1 H2]; subst. inversion H2; destruct comps; discriminate. }
    cbn [app] in *. inversion H as [|? ? ? ? H1 H2]; subst.
    assert (E : with_tail (x :: comps ++ [c]) tail = x :: with_tail (comps ++ [c]) tail) by (destruct comps; reflexivity).
    rewrite E. constructor; eauto.
Qed.

Lemma last_snoc {A} (l : list A) d : l <> [] -> exists front x, l = front ++ [x] /\ last l d = x.
Proof.
  intros H. destruct (exists_last H) as (front & x & ->). exists front, x. rewrite last_last. auto.
Qed.

Lemma forall2_snoc {A B} (R : A -> B -> Prop) l m a b : Forall2 R (l ++ [a]) (m ++ [b]) -> Forall2 R l m /\ R a b.
Proof.
  revert m. induction l as [|x l IH]; intros m H.
  - destruct m as [|y m].
    + inversion H; subst. split; [constructor|auto].
    + cbn in H. inversion H as [|? ? ? ? H1 H2]; subst. inversion H2; destruct m; discriminate.
  - destruct m as [|y m].
    + cbn in H. inversion H as [|? ? ? ? H1 H2]; subst. inversion H2; destruct l; discriminate.
    + cbn in H. inversion H as [|? ? ? ? H1 H2]; subst. destruct (IH m H2). split; [constructor; auto|auto].
Qed.

Theorem deflate_file lzvn junk hdr dsize comps rmap bs ops :
  (forall d s, len (junk d s) = len s) ->
  bytes hdr -> len hdr = 252 -> Forall bytes comps -> bytes rmap ->
  1 <= len comps <= 8159 -> Forall (fun c => len c <= 65537) comps ->
  len (last comps []) + len rmap <= 65537 -> len (deflate_fork hdr dsize comps rmap) < 2 ^ 32 ->
  file_blocks bs -> Forall2 deflate_stored comps bs ->
  (rmap = [] \/ zlib_stream has_distances (adler_ref 1 0) (last comps []) (last bs [])) ->
  Forall (fun op => 0 <= fst op) ops ->
  fst (file_reads (decompress_data lzvn METHOD_DEFLATE) junk METHOD_DEFLATE (mem (deflate_fork hdr dsize comps rmap))
         (len (concat bs)) ch_init ops) = map (read_slice (concat bs)) ops.
Proof.
  intros HJ Bh Lh Bc Br Hn Hc Ht Hl HB HF HR Hops.
  pose proof (fork_offsets hdr dsize comps rmap (conj Bh Lh) (conj Bc Br) Hn Hc Ht Hl) as TO.
  pose proof (fork_bytes hdr dsize comps rmap (conj Bh Lh) (conj Bc Br)) as FB.
  destruct (offsets_bounded METHOD_DEFLATE _ _ FB Hl ltac:(cbn; auto) TO) as (OK & OL).
  pose proof (file_blocks_small bs HB) as SM.
  destruct (last_snoc comps [] ltac:(intros ->; cbn in Hn; lia)) as (cf & c & EC & LC).
  destruct HB as (bf & b & EB & HB1 & HB2).
  assert (LB : last bs [] = b) by (rewrite EB; apply last_last).
  eapply (whole_file _ junk METHOD_DEFLATE _ _ (with_tail comps rmap) []); eauto.
  - unfold METHOD_DEFLATE, METHOD_UNKNOWN5. lia.
  - intros o Ho. apply in_app_or in Ho. pose proof (fork_len hdr dsize comps rmap (conj Bh Lh)). pose proof (len_nonneg rmap).
    destruct Ho as [Ho|[<-|[]]]; [|lia]. apply offsets_range in Ho. lia.
  - rewrite app_nil_r. apply (fork_cut hdr dsize comps rmap); auto.
  - exists bf, b. auto.
  - assert (HF' : Forall2 (fun c b => deflate_stored c b /\ len b <= 65536) comps bs).
    { clear - HF SM. revert SM. induction HF; intros; constructor.
      - apply Forall_cons_iff in SM. tauto.
      - apply Forall_cons_iff in SM. tauto. }
    rewrite EC, EB in *. eapply tail_forall2; [exact HF'| |].
    + intros x y ([->|Z] & L); [apply decompress_raw; auto|]. rewrite <- (app_nil_r x). apply decompress_zlib; auto; constructor.
    + rewrite LB, LC in HR. apply forall2_snoc in HF'. destruct HF' as (_ & S & L).
      destruct HR as [->|Z].
      * rewrite app_nil_r. destruct S as [->|Z]; [apply decompress_raw; auto|].
        rewrite <- (app_nil_r c). apply decompress_zlib; auto.
      * apply decompress_zlib; auto.
Qed.

(* LZVN data are delimited by the external decompressor. *)
Definition lzvn_stored (lzvn : list Z -> Z -> res (list Z)) (c b : list Z) : Prop :=
  stored 0x06 (fun c b => nth 0 c 0 <> 0x06 /\ lzvn c 65536 = Ok b) c b.

Lemma decompress_lzvn lzvn c b : len b <= 65536 -> lzvn_stored lzvn c b ->
  decompress_data lzvn METHOD_LZVN c 65536 = Ok b.
Proof.
  intros L [->|(H1 & H2)]; unfold decompress_data; change (METHOD_LZVN =? METHOD_DEFLATE) with false;
    change (METHOD_LZVN =? METHOD_LZVN) with true; cbv beta iota.
  - cbn [nth]. rewrite len_cons. pose proof (len_nonneg b). replace (1 <=? 1 + len b) with true by lia.
    change (6 =? 6) with true. cbn [andb]. replace (1 + len b - 1) with (len b) by lia.
    replace (65536 <? len b) with false by lia. cbn [negb check bind].
    rewrite rd_in by (rewrite ?len_cons; lia).
    pose proof (slice_exact [6] b [] 1 (len b) eq_refl eq_refl) as X. rewrite app_nil_r in X. cbn [app] in X.
    rewrite X. reflexivity.
  - replace (nth 0 c 0 =? 6) with false by lia. rewrite andb_false_r. auto.
Qed.

Theorem lzvn_file lzvn junk comps bs ops :
  (forall d s, len (junk d s) = len s) -> Forall bytes comps -> 1 <= len comps <= 16383 ->
  Forall (fun c => len c <= 65537) comps -> len (lzvn_fork comps) < 2 ^ 32 ->
  file_blocks bs -> Forall2 (lzvn_stored lzvn) comps bs ->
  Forall (fun op => 0 <= fst op) ops ->
  fst (file_reads (decompress_data lzvn METHOD_LZVN) junk METHOD_LZVN (mem (lzvn_fork comps))
         (len (concat bs)) ch_init ops) = map (read_slice (concat bs)) ops.
Proof.
  intros HJ Bc Hn Hc Hl HB HF Hops.
  pose proof (lfork_offsets comps Bc Hn Hc Hl) as TO.
  destruct (offsets_bounded METHOD_LZVN _ _ (lfork_bytes comps Bc) Hl ltac:(cbn; auto) TO) as (OK & OL).
  pose proof (file_blocks_small bs HB) as SM.
  eapply (whole_file _ junk METHOD_LZVN _ _ comps [[]]); eauto.
  - unfold METHOD_LZVN, METHOD_UNKNOWN5. lia.
  - intros o Ho. apply in_app_or in Ho. pose proof (lfork_len comps).
    destruct Ho as [Ho|[<-|[]]]; [|lia]. apply offsets_range in Ho. rewrite concat_nil_end in Ho. lia.
  - apply (lfork_cut comps); auto.
  - clear - HF SM. revert SM. induction HF; intros; constructor.
    + apply Forall_cons_iff in SM. apply decompress_lzvn; tauto.
    + apply Forall_cons_iff in SM. tauto.
Qed.

(* Compressed data in the attribute. *)
Lemma inline_layout m size comp : le_val (slice (inline_data m size comp) 0 4) = INLINE_SIG /\
  len (inline_data m size comp) = 16 + len comp /\ slice (inline_data m size comp) 16 (len comp) = comp.
Proof.
  unfold inline_data. split; [|split].
  - transitivity (le_val [0x66; 0x70; 0x6d; 0x63]); [|reflexivity]. f_equal.
  - rewrite !len_app, !le_enc_len. change (len [0x66; 0x70; 0x6d; 0x63]) with 4. lia.
  - pose proof (slice_exact ([0x66; 0x70; 0x6d; 0x63] ++ le_enc 4 m ++ le_enc 8 size) comp [] 16 (len comp)) as X.
    rewrite app_nil_r, <- !app_assoc in X. apply X; [|auto]. rewrite !len_app, !le_enc_len. reflexivity.
Qed.

Theorem inline_file lzvn junk method m size comp b ops :
  (forall d s, len (junk d s) = len s) -> method = METHOD_DEFLATE \/ method = METHOD_LZVN ->
  bytes comp -> len comp <= 65521 -> 1 <= len b <= 65536 ->
  (method = METHOD_DEFLATE /\ deflate_stored comp b \/ method = METHOD_LZVN /\ lzvn_stored lzvn comp b) ->
  Forall (fun op => 0 <= fst op) ops ->
  fst (file_reads (decompress_data lzvn method) junk method (mem (inline_data m size comp)) (len b) ch_init ops) =
  map (read_slice b) ops.
Proof.
  intros HJ HM Bc Hc Hb HS Hops.
  destruct (inline_layout m size comp) as (I1 & I2 & I3). pose proof (len_nonneg comp).
  pose proof (inline_offsets method (inline_data m size comp) I1 ltac:(lia)) as TO.
  assert (EW : w32 (len (inline_data m size comp)) = 16 + len comp) by (unfold w32; rewrite I2; apply Z.mod_small; lia).
  rewrite EW in TO.
  pose proof (whole_file (decompress_data lzvn method) junk method (inline_data m size comp) [16; 16 + len comp] [comp] [] [b] ops) as W.
  cbn [concat] in W. rewrite !app_nil_r in W. apply W; clear W; auto.
  - unfold METHOD_DEFLATE, METHOD_LZVN, METHOD_UNKNOWN5 in *. lia.
  - cbn [offsets_ok steps_ok]. repeat split; lia.
  - change (len [16; 16 + len comp]) with 2. lia.
  - intros o [<-|[<-|[]]]; lia.
  - cbn [cut app]. replace (16 + len comp - 16) with (len comp) by lia. rewrite I3. reflexivity.
  - exists [], b. repeat split; auto; lia.
  - constructor; [|constructor]. destruct HS as [(-> & [->|HS])|(-> & HS)].
    + apply decompress_raw; lia.
    + rewrite <- (app_nil_r comp). apply decompress_zlib; auto; [constructor|lia].
    + apply decompress_lzvn; auto; lia.
Qed.

(* Accepted tables end at the size of the stream. *)
Lemma offsets_end method C offs : bytes C -> len C < 2 ^ 32 ->
  In method [METHOD_DEFLATE; METHOD_LZVN; METHOD_UNKNOWN5] ->
  get_block_offsets method (mem C) = Ok offs -> exists front, offs = front ++ [len C].
Proof.
  intros HB HL HM HO. pose proof (len_nonneg C).
  assert (EW : w32 (len C) = len C) by (unfold w32; apply Z.mod_small; lia).
  destruct (Z.eq_dec (le_val (slice C 0 4)) INLINE_SIG) as [E|E].
  - destruct (inline_cases method C HB E) as [X|(L & X)]; rewrite HO in X; [discriminate|].
    exists [16]. rewrite EW in X. cbn. congruence.
  - destruct HM as [<-|[<-|[<-|[]]]].
    + destruct (deflate_cases C HB E) as [(X & _)|[(X & D)|(X & _)]]; rewrite HO in X; try discriminate.
      exists (deflate_body C). rewrite EW in X. congruence.
    + destruct (lzvn_cases C HB E) as [(X & _)|(X & D)]; rewrite HO in X; try discriminate.
      exists (lzvn_body C). rewrite EW in X. congruence.
    + rewrite unknown5_fails in HO by auto. discriminate.
Qed.

Lemma steps_bound : forall l o e, steps_ok o (l ++ [e]) -> o <= e /\ forall x, In x l -> x <= e.
Proof.
  induction l as [|y l IH]; intros o e H.
  - cbn in H. split; [lia|intros x []].
  - cbn [app steps_ok] in H. destruct H as (H1 & H2). destruct (IH y e H2) as (A & B).
    split; [lia|]. intros x [<-|Hx]; auto.
Qed.

Lemma offsets_all_le method C offs : bytes C -> len C < 2 ^ 32 ->
  In method [METHOD_DEFLATE; METHOD_LZVN; METHOD_UNKNOWN5] ->
  get_block_offsets method (mem C) = Ok offs -> forall o, In o offs -> o <= len C.
Proof.
  intros HB HL HM HO o Ho. destruct (offsets_end _ _ _ HB HL HM HO) as (front & ->).
  destruct (offsets_bounded _ _ _ HB HL HM HO) as (OK & _).
  destruct front as [|f front]; cbn [app offsets_ok] in *.
  - destruct Ho as [<-|[]]; lia.
  - destruct OK as (_ & OK). apply steps_bound in OK. destruct OK as (A & B).
    destruct Ho as [<-|Ho]; auto. apply in_app_or in Ho. destruct Ho as [Ho|[<-|[]]]; auto. lia.
Qed.

Theorem damaged_history dec junk method C usize offs sts ops l :
  (forall d s, len (junk d s) = len s) -> bytes C -> len C < 2 ^ 32 ->
  In method [METHOD_DEFLATE; METHOD_LZVN] ->
  get_block_offsets method (mem C) = Ok offs ->
  block_states dec usize 0 (cut C offs) sts ->
  65536 * (len sts - 1) < usize <= 65536 * len sts ->
  Forall (fun op => 0 <= fst op) ops ->
  predict sts usize (2 ^ 32 - 1) false ops = Some l ->
  fst (file_reads dec junk method (mem C) usize ch_init ops) = map outcome l.
Proof.
  intros HJ HB HL HM HT HS HU HO HP.
  assert (HM' : In method [METHOD_DEFLATE; METHOD_LZVN; METHOD_UNKNOWN5]) by (cbn in *; tauto).
  destruct (offsets_bounded _ _ _ HB HL HM' HT) as (OK & OL).
  eapply history_spec; eauto using offsets_all_le.
  unfold METHOD_DEFLATE, METHOD_LZVN, METHOD_UNKNOWN5 in *. cbn in HM. lia.
Qed.

(* Forks of 8160 or more blocks. *)
Theorem large_fork lzvn junk hdr dsize comps rmap size off n :
  bytes hdr -> len hdr = 252 -> Forall bytes comps -> bytes rmap ->
  8160 <= len comps <= 33554431 -> off < size -> 
  fst (file_read (decompress_data lzvn METHOD_DEFLATE) junk METHOD_DEFLATE (mem (deflate_fork hdr dsize comps rmap))
         size ch_init off n) = Oob.
Proof.
  intros Bh Lh Bc Br Hn Hs. set (C := deflate_fork hdr dsize comps rmap).
  assert (O : get_block_offsets METHOD_DEFLATE (mem C) = Oob).
  { pose proof (fork_sig hdr dsize comps rmap) as S. fold C in S.
    pose proof (fork_count hdr dsize comps rmap (conj Bh Lh) ltac:(lia)) as FC. fold C in FC.
    pose proof (fork_len hdr dsize comps rmap (conj Bh Lh)) as FL. fold C in FL.
    pose proof (len_nonneg (concat comps)). pose proof (len_nonneg rmap).
    apply deflate_overflow; try lia.
    - apply fork_bytes; auto.
    - rewrite S. reflexivity.
    - rewrite S. vm_compute. congruence. }
  unfold file_read. replace (size <=? off) with false by lia.
  unfold ch_read. cbn [ch_offs ch_seek ch_init]. rewrite O. reflexivity.
Qed.

(* Reads of arbitrary streams stay inside the buffers. *)
Section Safe.
Variable dec : list Z -> Z -> res (list Z).
Variable junk : list Z -> list Z -> list Z.
Variable method : Z.
Variable C : list Z.
Variable usize : Z.
Hypothesis junk_len : forall d s, len (junk d s) = len s.
Hypothesis dec_safe : forall d, bytes d -> dec d 65536 = Fail \/ exists out, dec d 65536 = Ok out /\ len out <= 65536.
Hypothesis HB : bytes C.
Hypothesis HL : len C < 2 ^ 32.
Hypothesis HM : In method [METHOD_DEFLATE; METHOD_LZVN; METHOD_UNKNOWN5].
Hypothesis HD : method = METHOD_DEFLATE -> le_val (slice C 260 4) < 8160 \/ len C <= 65537.

Definition hsafe (h : chandle) : Prop :=
  len (ch_seg h) = 65536 /\ 0 <= ch_size h <= 65536 /\
  match ch_offs h with None => True | Some o => get_block_offsets method (mem C) = Ok o end.
Definition fine {A} (r : res A) : Prop := match r with Ok _ | Fail => True | Oob | Fuel => False end.

Lemma load_safe h offs i : hsafe h -> get_block_offsets method (mem C) = Ok offs -> 0 <= i < len offs - 1 ->
  fine (fst (load_block dec junk (mem C) usize h offs i)) /\ hsafe (snd (load_block dec junk (mem C) usize h offs i)).
Proof.
  intros (S1 & S2 & S3) HO Hi. unfold load_block. destruct (ch_idx h =? i); [cbn; unfold hsafe; auto|].
  destruct (offsets_bounded _ _ _ HB HL HM HO) as (OK & OL).
  destruct (getb_in offs i ltac:(lia)) as (o & Eo & No). destruct (getb_in offs (i + 1) ltac:(lia)) as (e & Ee & Ne).
  assert (BO : 0 <= o <= e /\ e <= o + 65537 /\ e <= len C).
  { destruct offs as [|p r]; [cbn in OL; lia|]. destruct OK as (P & ST).
    replace (Z.to_nat (i + 1)) with (S (Z.to_nat i)) in Ne by lia.
    pose proof (steps_nth r p _ o e ST No Ne). pose proof (steps_nonneg r p _ o P ST No).
    pose proof (offsets_all_le _ _ _ HB HL HM HO e (nth_error_In _ _ Ne)). lia. }
  assert (BD : block_data (mem C) offs i = Ok (slice C o (e - o))).
  { unfold block_data, mem, src_read, stream_read. rewrite Eo, Ee. cbn [bind]. unfold w64. rewrite Z.mod_small by lia.
    replace ((0 <=? o) && (0 <=? e - o) && (e - o <=? 2 ^ 63 - 1)) with true by lia. cbn [check bind]. rewrite Z.min_l by lia.
    rewrite len_slice by lia. change (BLOCK + 1) with 65537. replace (65537 <? e - o) with false by lia. cbn [bind].
    rewrite Z.eqb_refl. reflexivity. }
  rewrite BD. change BLOCK with 65536.
  destruct (dec_safe (slice C o (e - o)) (bytes_slice _ _ _ HB)) as [->|(out & -> & Lo)].
  - cbn. split; [exact I|]. unfold hsafe. cbn. rewrite junk_len. repeat split; auto; lia.
  - assert (LS : len (out ++ skipn (length out) (ch_seg h)) = 65536).
    { rewrite len_app. unfold len in *. rewrite skipn_length. lia. }
    pose proof (len_nonneg out). unfold set_seg. cbn [ch_offs ch_cur ch_idx ch_seg ch_size].
    destruct (_ && _); unfold hsafe; cbn [fst snd ch_offs ch_seg ch_size fine]; repeat split; auto; lia.
Qed.

Lemma loop_safe : forall fuel h offs i doff n acc, hsafe h -> get_block_offsets method (mem C) = Ok offs ->
  0 <= i -> 0 <= doff -> n <= Z.of_nat fuel ->
  fine (fst (read_loop dec junk (mem C) usize fuel h offs i doff n acc)) /\
  hsafe (snd (read_loop dec junk (mem C) usize fuel h offs i doff n acc)).
Proof.
  induction fuel as [|fuel IH]; intros h offs i doff n acc S HO Hi Hd Hf; cbn [read_loop].
  - replace (0 <? n) with false by lia. cbn. auto.
  - destruct (0 <? n) eqn:E; [|cbn; auto]. destruct (len offs - 1 <=? i) eqn:E2; [cbn; auto|].
    destruct (load_safe h offs i S HO ltac:(lia)) as (F1 & F2).
    destruct (load_block dec junk (mem C) usize h offs i) as [r h']. cbn [fst snd] in *.
    destruct r; try (destruct F1; fail); [|cbn; auto].
    destruct (ch_size h' <=? doff) eqn:E3; [cbn; auto|].
    destruct F2 as (F2 & F3 & F4). rewrite rd_in by lia.
    apply IH; auto; try lia.
    + unfold hsafe. auto.
    + apply (w_range 32). lia.
Qed.

Lemma read_safe h off n : hsafe h -> 0 <= off ->
  fine (fst (file_read dec junk method (mem C) usize h off n)) /\ hsafe (snd (file_read dec junk method (mem C) usize h off n)).
Proof.
  intros S Ho. unfold file_read. destruct (usize <=? off) eqn:E; [cbn; auto|].
  unfold ch_read. cbn [ch_seek ch_offs ch_cur ch_idx ch_seg ch_size].
  destruct (offsets_safe method C HB HM HD) as (N1 & N2).
  assert (G : (match ch_offs h with Some o => Ok o | None => get_block_offsets method (mem C) end) = get_block_offsets method (mem C)).
  { destruct S as (_ & _ & S). destruct (ch_offs h); auto. }
  rewrite G. destruct (get_block_offsets method (mem C)) as [offs| | |] eqn:EO; try congruence.
  - rewrite E. set (h1 := mk_ch (Some offs) off (ch_idx h) (ch_seg h) (ch_size h)).
    assert (S1 : hsafe h1).
    { destruct S as (A & B & _). unfold hsafe, h1. cbn [ch_seg ch_size ch_offs]. rewrite EO. auto. }
    destruct (method =? METHOD_UNKNOWN5).
    + cbn [fst snd fine]. split; auto.
    + destruct (loop_safe (Z.to_nat (Z.min n (usize - off))) h1 offs (w32 (off / BLOCK)) (off mod BLOCK)
         (Z.min n (usize - off)) [] S1 EO) as (A & B); try lia.
      * apply (w_range 32). lia.
      * unfold BLOCK. lia.
      * destruct (read_loop _ _ _ _ _ _ _ _ _ _ _) as [r h2]. cbn [fst snd] in *.
        destruct r; cbn [fst snd]; split; auto.
  - destruct S as (A & B & D). cbn [fst snd fine]. split; [exact I|]. unfold hsafe. cbn [ch_seek ch_offs ch_seg ch_size].
    auto.
Qed.

Theorem reads_safe ops : Forall (fun op => 0 <= fst op) ops ->
  Forall fine (fst (file_reads dec junk method (mem C) usize ch_init ops)).
Proof.
  assert (H : hsafe ch_init).
  { unfold hsafe. cbn [ch_init ch_seg ch_size ch_offs]. rewrite zeros_len by (unfold BLOCK; lia). unfold BLOCK. repeat split; lia. }
  revert H. generalize ch_init as h. induction ops as [|[off n] ops IH]; intros h S F; [constructor|].
  apply Forall_cons_iff in F. destruct F as (F1 & F2). cbn [file_reads fst] in *.
  destruct (read_safe h off n S F1) as (A & B). destruct (file_read dec junk method (mem C) usize h off n) as [x h'].
  specialize (IH h' B F2). cbn [fst snd] in *. destruct (file_reads dec junk method (mem C) usize h' ops) as [xs h2].
  cbn [fst] in *. constructor; auto.
Qed.
End Safe.
