(* Proofs about B-tree node parsing. *)
From Verif Require Import Base BaseLemmas At BTree BTreeSpec.
Ltac Zify.zify_post_hook ::= Z.div_mod_to_equations.

(* ---- safety ---- *)

Definition fine {A} (r : res A) : Prop := match r with Ok _ | Fail => True | Oob | Fuel => False end.
Lemma fine_bind {A B} (r : res A) (f : A -> res B) : fine r -> (forall x, r = Ok x -> fine (f x)) -> fine (bind r f).
Proof. destruct r; cbn; auto. Qed.
Lemma fine_check b : fine (check b).
Proof. destruct b; exact I. Qed.
Lemma fine_rd {A} (l : list A) off n : 0 <= off -> 0 <= n -> off + n <= len l -> fine (rd l off n).
Proof. intros. rewrite rd_in by auto. exact I. Qed.
Lemma fine_rd_le n l off : 0 <= off -> 0 <= n -> off + n <= len l -> fine (rd_le n l off).
Proof. intros. rewrite rd_le_in by auto. exact I. Qed.

Lemma le2_range l off v : bytes l -> rd_le 2 l off = Ok v -> 0 <= v < 2 ^ 16.
Proof.
  intros H R. apply rd_le_ok in R. destruct R as (A & B & C & ->).
  pose proof (le_val_range _ (bytes_slice l off 2 H)) as X. rewrite len_slice in X by lia. change (256 ^ 2) with (2 ^ 16) in X. lia.
Qed.
Lemma le4_range l off v : bytes l -> rd_le 4 l off = Ok v -> 0 <= v < 2 ^ 32.
Proof.
  intros H R. apply rd_le_ok in R. destruct R as (A & B & C & ->).
  pose proof (le_val_range _ (bytes_slice l off 4 H)) as X. rewrite len_slice in X by lia. change (256 ^ 4) with (2 ^ 32) in X. lia.
Qed.

Lemma object_data_safe data : fine (read_object_data data).
Proof.
  unfold read_object_data. apply fine_bind; [apply fine_check|]. intros u H. apply check_ok in H.
  apply fine_bind; [apply fine_rd_le; lia|]. intros ty Hty. apply fine_bind; [apply fine_check|]. intros.
  apply fine_bind; [apply fine_rd_le; lia|]. intros; exact I.
Qed.

Lemma header_safe data : fine (read_node_header data).
Proof.
  unfold read_node_header. apply fine_bind; [apply fine_check|]. intros u H. apply check_ok in H.
  repeat (apply fine_bind; [apply fine_rd_le; lia|]; intros). exact I.
Qed.
Lemma header_ranges data h : bytes data -> read_node_header data = Ok h ->
  0 <= bh_keys h /\ 0 <= bh_eoff h < 2 ^ 16 /\ 0 <= bh_esize h < 2 ^ 16 /\ 0 <= bh_uoff h < 2 ^ 16.
Proof.
  intros HB H. unfold read_node_header in H.
  apply bind_ok in H. destruct H as (u & _ & H).
  apply bind_ok in H. destruct H as (f & _ & H).
  apply bind_ok in H. destruct H as (l & _ & H).
  apply bind_ok in H. destruct H as (k & H1 & H).
  apply bind_ok in H. destruct H as (eo & H2 & H).
  apply bind_ok in H. destruct H as (es & H3 & H).
  apply bind_ok in H. destruct H as (uo & H4 & H).
  apply bind_ok in H. destruct H as (us & _ & H).
  apply le4_range in H1; auto. apply le2_range in H2; auto. apply le2_range in H3; auto. apply le2_range in H4; auto.
  assert (h = mk_bh f l k eo es uo us) as -> by congruence. cbn. lia.
Qed.
Lemma footer_safe data : fine (read_footer data).
Proof.
  unfold read_footer. apply fine_bind; [apply fine_check|]. intros u H. apply check_ok in H.
  repeat (apply fine_bind; [apply fine_rd_le; lia|]; intros). exact I.
Qed.

Lemma toc_entry_safe flags st data off : bytes data -> 0 <= off ->
  off + (if Z.land flags 4 =? 0 then 8 else 4) <= len data ->
  fine (read_toc_entry flags st data off).
Proof.
  intros HB Ho Hl. unfold read_toc_entry. destruct (Z.land flags 4 =? 0).
  - repeat (apply fine_bind; [apply fine_rd_le; lia|]; intros). exact I.
  - repeat (apply fine_bind; [apply fine_rd_le; lia|]; intros). apply fine_bind; [apply fine_check|]. intros; exact I.
Qed.
Lemma toc_entry_ranges flags st data off ko ks vo vs : bytes data ->
  read_toc_entry flags st data off = Ok (ko, ks, vo, vs) -> 0 <= ks < 2 ^ 16 /\ 0 <= vs < 2 ^ 16.
Proof.
  intros HB H. unfold read_toc_entry in H. destruct (Z.land flags 4 =? 0).
  - apply bind_ok in H. destruct H as (a & H1 & H). apply bind_ok in H. destruct H as (b & H2 & H).
    apply bind_ok in H. destruct H as (c & H3 & H). apply bind_ok in H. destruct H as (d & H4 & H).
    apply le2_range in H2; auto. apply le2_range in H4; auto.
    assert (ks = b) as -> by congruence. assert (vs = d) as -> by congruence. lia.
  - apply bind_ok in H. destruct H as (a & H1 & H). apply bind_ok in H. destruct H as (b & H2 & H).
    apply bind_ok in H. destruct H as (c & H3 & H).
    assert (ks = 16) as -> by congruence.
    assert (vs = if Z.land flags 2 =? 0 then 8 else 16) as -> by congruence. destruct (Z.land flags 2 =? 0); lia.
Qed.

(* The key and value of a parsed entry are sub-ranges of the block. *)
Definition sub_range (data s : list Z) : Prop := exists off, 0 <= off /\ off + len s <= len data /\ s = slice data off (len s).

Lemma entry_safe flags st data koff voff off : bytes data -> 0 <= off ->
  off + (if Z.land flags 4 =? 0 then 8 else 4) <= len data ->
  fine (read_entry flags st data koff voff off) /\
  forall k v, read_entry flags st data koff voff off = Ok (k, v) -> sub_range data k /\ sub_range data v.
Proof.
  intros HB Ho Hl. unfold read_entry. pose proof (toc_entry_safe flags st data off HB Ho Hl) as F.
  pose proof (toc_entry_ranges flags st data off) as R.
  destruct (read_toc_entry flags st data off) as [[[[ko ks] vo] vs]| | |]; cbn [bind]; try (destruct F; fail).
  2:{ split; [exact I|discriminate]. }
  specialize (R ko ks vo vs HB eq_refl).
  pose proof (w_range 16 (ko + koff) ltac:(lia)) as W1. fold (w16 (ko + koff)) in W1.
  pose proof (w_range 16 (voff - vo) ltac:(lia)) as W2. fold (w16 (voff - vo)) in W2.
  destruct ((len data <? w16 (ko + koff)) || (len data - w16 (ko + koff) <? ks)) eqn:E1; cbn [negb check bind];
    [split; [exact I|discriminate]|].
  destruct ((len data <? w16 (voff - vo)) || (len data - w16 (voff - vo) <? vs)) eqn:E2; cbn [negb check bind];
    [split; [exact I|discriminate]|].
  rewrite !rd_in by lia. cbn [bind]. split; [exact I|]. intros k v H.
  assert (k = slice data (w16 (ko + koff)) ks) as -> by congruence.
  assert (v = slice data (w16 (voff - vo)) vs) as -> by congruence.
  split; eexists; rewrite len_slice by lia; repeat split; try lia.
Qed.

Lemma entries_safe flags st data koff voff : forall k off, bytes data -> 0 <= off ->
  off + Z.of_nat k * (if Z.land flags 4 =? 0 then 8 else 4) <= len data ->
  fine (read_entries k flags st data koff voff (if Z.land flags 4 =? 0 then 8 else 4) off) /\
  forall es, read_entries k flags st data koff voff (if Z.land flags 4 =? 0 then 8 else 4) off = Ok es ->
    length es = k /\ Forall (fun e => sub_range data (fst e) /\ sub_range data (snd e)) es.
Proof.
  set (esz := if Z.land flags 4 =? 0 then 8 else 4). assert (E : esz = 8 \/ esz = 4) by (unfold esz; destruct (_ =? 0); auto).
  induction k as [|k IH]; intros off HB Ho Hl; cbn [read_entries].
  - split; [exact I|]. intros es H. assert (es = []) as -> by congruence. auto.
  - destruct (entry_safe flags st data koff voff off HB Ho ltac:(fold esz; lia)) as (F & S).
    destruct (read_entry flags st data koff voff off) as [[key value]| | |]; cbn [bind]; try (destruct F; fail).
    2:{ split; [exact I|discriminate]. }
    destruct (IH (off + esz) HB ltac:(lia) ltac:(lia)) as (F2 & S2).
    destruct (read_entries k flags st data koff voff esz (off + esz)) as [r| | |]; cbn [bind]; try (destruct F2; fail).
    2:{ split; [exact I|discriminate]. }
    split; [exact I|]. intros es H. injection H as <-.
    destruct (S2 r eq_refl) as (L & FA). destruct (S key value eq_refl). split; [cbn; congruence|]. constructor; auto.
Qed.

Theorem node_safe data : bytes data ->
  fine (read_node data) /\
  forall n, read_node data = Ok n ->
    len (bn_entries n) = bh_keys (bn_header n) /\
    Forall (fun e => sub_range data (fst e) /\ sub_range data (snd e)) (bn_entries n).
Proof.
  intros HB. unfold read_node.
  destruct ((len data <? 32 + 24 + 40) || (2 ^ 63 - 1 <? len data)) eqn:E0; cbn [negb check bind]; [split; [exact I|discriminate]|].
  pose proof (object_data_safe data) as F1.
  destruct (read_object_data data) as [[ty st]| | |]; cbn [bind]; try (destruct F1; fail); [|split; [exact I|discriminate]].
  rewrite (rd_in data 32 24) by lia. cbn [bind].
  pose proof (header_safe (slice data 32 24)) as F2. pose proof (header_ranges (slice data 32 24)) as R.
  destruct (read_node_header (slice data 32 24)) as [h| | |]; cbn [bind]; try (destruct F2; fail); [|split; [exact I|discriminate]].
  specialize (R h (bytes_slice _ _ _ HB) eq_refl).
  destruct (len data - (32 + 24 + 40) <=? bh_eoff h) eqn:E1; cbn [negb check bind]; [split; [exact I|discriminate]|].
  destruct (len data - (32 + 24 + 40) - bh_eoff h <? bh_esize h) eqn:E2; cbn [negb check bind]; [split; [exact I|discriminate]|].
  destruct (len data - (32 + 24 + 40) - bh_eoff h - bh_esize h <=? bh_uoff h) eqn:E3; cbn [negb check bind]; [split; [exact I|discriminate]|].
  set (root := negb (Z.land (bh_flags h) 1 =? 0)).
  assert (F3 : fine (if root then let! fd := rd data (len data - 40) 40 in let! f := read_footer fd in Ok (Some f) else Ok None)).
  { destruct root; [|exact I]. apply fine_bind; [apply fine_rd; lia|]. intros. apply fine_bind; [apply footer_safe|]. intros; exact I. }
  destruct (if root then let! fd := rd data (len data - 40) 40 in let! f := read_footer fd in Ok (Some f) else Ok None) as [footer| | |];
    cbn [bind]; try (destruct F3; fail); [|split; [exact I|discriminate]].
  set (esz := if Z.land (bh_flags h) 4 =? 0 then 8 else 4).
  assert (Ez : esz = 8 \/ esz = 4) by (unfold esz; destruct (Z.land (bh_flags h) 4 =? 0); [left|right]; reflexivity).
  destruct (bh_esize h / esz <? bh_keys h) eqn:E4; cbn [negb check bind]; [split; [exact I|discriminate]|].
  set (koff := w16 (bh_eoff h + 56) + bh_esize h). set (voff := w16 (if root then w16 (len data) - 40 else len data)).
  assert (K : bh_keys h * esz <= bh_esize h) by (destruct Ez as [-> | ->]; lia).
  destruct (entries_safe (bh_flags h) st data koff voff (Z.to_nat (bh_keys h)) (56 + bh_eoff h) HB ltac:(lia)) as (F4 & S4).
  { fold esz. rewrite Z2Nat.id by lia. lia. }
  fold esz in F4, S4.
  destruct (read_entries (Z.to_nat (bh_keys h)) (bh_flags h) st data koff voff esz (56 + bh_eoff h)) as [es| | |];
    cbn [bind]; try (destruct F4; fail); [|split; [exact I|discriminate]].
  split; [exact I|]. intros n H.
  assert (n = mk_bn ty st h footer es) as -> by congruence. cbn [bn_entries bn_header].
  destruct (S4 es eq_refl) as (L & FA). split; auto. unfold len. lia.
Qed.

(* ---- round trip ---- *)

Lemma land_testbit f k : 0 <= k -> (Z.land f (2 ^ k) =? 0) = negb (Z.testbit f k).
Proof.
  intros Hk. destruct (Z.testbit f k) eqn:E; cbn [negb].
  - apply Z.eqb_neq. intros H. assert (X : Z.testbit (Z.land f (2 ^ k)) k = false) by (rewrite H; apply Z.testbit_0_l).
    rewrite Z.land_spec, E, Z.pow2_bits_true in X by lia. discriminate.
  - apply Z.eqb_eq. apply Z.bits_inj'. intros j Hj. rewrite Z.land_spec, Z.testbit_0_l.
    destruct (Z.eq_dec j k) as [-> | N].
    + rewrite E. reflexivity.
    + rewrite Z.pow2_bits_false by lia. apply andb_false_r.
Qed.

Lemma land_1 f : (Z.land f 1 =? 0) = negb (Z.testbit f 0).
Proof. apply (land_testbit f 0). lia. Qed.
Lemma land_2 f : (Z.land f 2 =? 0) = negb (Z.testbit f 1).
Proof. apply (land_testbit f 1). lia. Qed.
Lemma land_4 f : (Z.land f 4 =? 0) = negb (Z.testbit f 2).
Proof. apply (land_testbit f 2). lia. Qed.

Lemma values_cons k v r : values_area ((k, v) :: r) = values_area r ++ v.
Proof. unfold values_area. cbn [map rev snd]. rewrite concat_app. cbn [concat]. rewrite app_nil_r. reflexivity. Qed.
Lemma keys_cons k v r : keys_area ((k, v) :: r) = k ++ keys_area r.
Proof. reflexivity. Qed.

Section RoundTrip.
Variables (flags st : Z) (data : list Z) (koff voff : Z).
Let fixed := Z.testbit flags 2.
Hypothesis Hs : len data <= 65535.
Hypothesis Hst : fixed = true -> st = 0x0b.
Hypothesis Hk : 0 <= koff.
Hypothesis Hv : 0 <= voff <= len data.

Lemma entries_round : forall recs off k v,
  (fixed = true -> forall key value, In (key, value) recs -> len key = 16 /\ len value = (if Z.testbit flags 1 then 16 else 8)) ->
  at_ data off (toc fixed k v recs) -> 0 <= k -> 0 <= v ->
  at_ data (koff + k) (keys_area recs) ->
  at_ data (voff - v - len (values_area recs)) (values_area recs) ->
  read_entries (length recs) flags st data koff voff (if fixed then 4 else 8) off = Ok recs.
Proof.
  induction recs as [|[key value] recs IH]; intros off k v HF HT Hk0 Hv0 HK HV; [reflexivity|].
  cbn [length read_entries]. cbn [toc] in HT. apply at_app in HT. destruct HT as (HT1 & HT2).
  rewrite keys_cons in HK. apply at_app in HK. destruct HK as (HK1 & HK2).
  rewrite values_cons, len_app in HV. apply at_app in HV. destruct HV as (HV1 & HV2).
  pose proof (at_bounds _ _ _ HK1) as BK. pose proof (at_bounds _ _ _ HV2) as BV.
  pose proof (len_nonneg key). pose proof (len_nonneg value). pose proof (len_nonneg (values_area recs)).
  replace (voff - v - (len (values_area recs) + len value) + len (values_area recs)) with (voff - v - len value) in * by lia.
  assert (RE : read_toc_entry flags st data off = Ok (k, len key, v + len value, len value)).
  { unfold read_toc_entry. rewrite (land_4 flags). fold fixed.
    destruct fixed eqn:EF; cbn [negb].
    - apply at_app in HT1. destruct HT1 as (A & B). rewrite le_enc_len in B.
      rewrite (at_rd_le data off 2 k 2 A) by (try reflexivity; change (256 ^ Z.of_nat 2) with 65536; lia). cbn [bind].
      rewrite (at_rd_le data (off + 2) 2 (v + len value) 2 B) by (try reflexivity; change (256 ^ Z.of_nat 2) with 65536; lia). cbn [bind].
      rewrite (Hst eq_refl), Z.eqb_refl. cbn [check bind].
      destruct (HF eq_refl key value (or_introl eq_refl)) as (-> & ->).
      rewrite (land_2 flags). destruct (Z.testbit flags 1); reflexivity.
    - apply at_app in HT1. destruct HT1 as (A & B). rewrite le_enc_len in B.
      apply at_app in B. destruct B as (B & C). rewrite le_enc_len in C.
      apply at_app in C. destruct C as (C & D). rewrite le_enc_len in D.
      change (Z.of_nat 2) with 2 in *. replace (off + 2 + 2) with (off + 4) in * by lia. replace (off + 4 + 2) with (off + 6) in * by lia.
      rewrite (at_rd_le data off 2 k 2 A) by (try reflexivity; change (256 ^ Z.of_nat 2) with 65536; lia). cbn [bind].
      rewrite (at_rd_le data (off + 2) 2 (len key) 2 B) by (try reflexivity; change (256 ^ Z.of_nat 2) with 65536; lia). cbn [bind].
      rewrite (at_rd_le data (off + 4) 2 (v + len value) 2 C) by (try reflexivity; change (256 ^ Z.of_nat 2) with 65536; lia). cbn [bind].
      rewrite (at_rd_le data (off + 6) 2 (len value) 2 D) by (try reflexivity; change (256 ^ Z.of_nat 2) with 65536; lia).
      reflexivity. }
  unfold read_entry. rewrite RE. cbn [bind].
  assert (w16 (k + koff) = koff + k) as -> by (unfold w16; rewrite Z.mod_small; lia).
  assert (w16 (voff - (v + len value)) = voff - v - len value) as -> by (unfold w16; rewrite Z.mod_small; lia).
  replace ((len data <? koff + k) || (len data - (koff + k) <? len key)) with false by lia. cbn [negb check bind].
  replace ((len data <? voff - v - len value) || (len data - (voff - v - len value) <? len value)) with false by lia. cbn [negb check bind].
  rewrite (at_rd data (koff + k) key (len key) HK1 eq_refl). cbn [bind].
  rewrite (at_rd data (voff - v - len value) value (len value) HV2 eq_refl). cbn [bind].
  rewrite (IH (off + (if fixed then 4 else 8)) (k + len key) (v + len value)); [reflexivity|..].
  - intros F a b I. apply HF; auto. right. auto.
  - eapply at_eq; [exact HT2|]. f_equal. destruct fixed; rewrite !len_app, !le_enc_len; lia.
  - lia.
  - lia.
  - eapply at_eq; [exact HK2|]. lia.
  - eapply at_eq; [exact HV1|]. lia.
Qed.
End RoundTrip.

Lemma toc_len fixed : forall recs k v, len (toc fixed k v recs) = (if fixed then 4 else 8) * len recs.
Proof.
  induction recs as [|[key value] recs IH]; intros k v; [destruct fixed; reflexivity|].
  cbn [toc]. rewrite len_app, IH, len_cons. destruct fixed; rewrite !len_app, !le_enc_len; lia.
Qed.

Definition footer_of (fd : list Z) : option bfooter :=
  match read_footer fd with Ok f => Some f | _ => None end.

(* What parsing a well-formed node gives. *)
Definition node_result (d : node_desc) : bnode :=
  mk_bn (nd_type d) (nd_subtype d)
    (mk_bh (nd_flags d) (nd_level d) (len (nd_recs d)) (len (nd_gap d)) (len (nd_toc d))
       (len (keys_area (nd_recs d))) (len (nd_free d)))
    (if Z.testbit (nd_flags d) 0 then
       let fd := nd_footer d in
       Some (mk_bf (le_val (slice fd 0 4)) (le_val (slice fd 4 4)) (le_val (slice fd 8 4)) (le_val (slice fd 12 4))
               (le_val (slice fd 16 4)) (le_val (slice fd 20 4)))
     else None)
    (nd_recs d).

Theorem node_round d : node_ok d ->
  (if Z.testbit (nd_flags d) 0 then 0 else 40) < len (nd_free d) + len (values_area (nd_recs d)) ->
  read_node (node_bytes d) = Ok (node_result d).
Proof.
  intros (O1 & O2 & O3 & O4 & O5 & O6 & O7 & O8 & O9 & O10) HG.
  set (data := node_bytes d) in *.
  pose proof (at_self data) as A. unfold data at 2, node_bytes, nd_header in A. rewrite <- !app_assoc in A.
  apply at_app in A. destruct A as (_ & A). rewrite O1 in A.
  apply at_app in A. destruct A as (ATY & A). rewrite le_enc_len in A.
  apply at_app in A. destruct A as (AST & A). rewrite le_enc_len in A.
  assert (AH : at_ data 32 (nd_header d)).
  { unfold nd_header. rewrite !app_assoc in A. rewrite !app_assoc. 
    do 6 (apply at_app in A; destruct A as (A & _)). exact A. }
  apply at_app in A. destruct A as (_ & A). rewrite le_enc_len in A.
  apply at_app in A. destruct A as (_ & A). rewrite le_enc_len in A.
  apply at_app in A. destruct A as (_ & A). rewrite le_enc_len in A.
  apply at_app in A. destruct A as (_ & A). rewrite le_enc_len in A.
  apply at_app in A. destruct A as (_ & A). rewrite le_enc_len in A.
  apply at_app in A. destruct A as (_ & A). rewrite le_enc_len in A.
  apply at_app in A. destruct A as (_ & A). rewrite le_enc_len in A.
  apply at_app in A. destruct A as (_ & A). rewrite O6 in A.
  apply at_app in A. destruct A as (_ & A).
  apply at_app in A. destruct A as (AT & A).
  apply at_app in A. destruct A as (AK & A).
  apply at_app in A. destruct A as (_ & A).
  apply at_app in A. destruct A as (AV & AF).
  set (g := len (nd_gap d)) in *. set (t := len (nd_toc d)) in *. set (ks := len (keys_area (nd_recs d))) in *.
  set (fr := len (nd_free d)) in *. set (vs := len (values_area (nd_recs d))) in *.
  change (Z.of_nat 2) with 2 in *. change (Z.of_nat 4) with 4 in *.
  assert (L : len data = 56 + g + t + ks + fr + vs + len (nd_footer d)).
  { unfold data, node_bytes, nd_header. rewrite !len_app, !le_enc_len. fold g t ks fr vs. lia. }
  pose proof (len_nonneg (nd_gap d)). pose proof (len_nonneg (nd_toc d)). pose proof (len_nonneg (keys_area (nd_recs d))).
  pose proof (len_nonneg (nd_free d)). pose proof (len_nonneg (values_area (nd_recs d))). pose proof (len_nonneg (nd_recs d)).
  fold g t ks fr vs in H, H0, H1, H2, H3.
  assert (TL : t = (if nd_fixed d then 4 else 8) * len (nd_recs d) + len (nd_spare d)).
  { unfold t, nd_toc. rewrite len_app, toc_len. reflexivity. }
  pose proof (len_nonneg (nd_spare d)). pose proof (len_nonneg (nd_footer d)).
  assert (NR : len (nd_recs d) <= 16384) by (destruct (nd_fixed d); lia).
  unfold read_node.
  replace ((len data <? 32 + 24 + 40) || (2 ^ 63 - 1 <? len data)) with false
    by (destruct (Z.testbit (nd_flags d) 0); lia).
  cbn [negb check bind].
  assert (OD : read_object_data data = Ok (nd_type d, nd_subtype d)).
  { unfold read_object_data. replace (len data <? 32) with false by (destruct (Z.testbit (nd_flags d) 0); lia). cbn [negb check bind].
    rewrite (at_rd_le data 24 4 (nd_type d) 4 ATY) by (try reflexivity; change (256 ^ Z.of_nat 4) with (2 ^ 32); lia). cbn [bind].
    change 0xffffff with (Z.ones 24). rewrite Z.land_ones by lia.
    replace ((nd_type d mod 2 ^ 24 =? 0) || (nd_type d mod 2 ^ 24 =? 2) || (nd_type d mod 2 ^ 24 =? 3)) with true
      by (cbn [In] in O9; lia).
    cbn [check bind].
    rewrite (at_rd_le data 28 4 (nd_subtype d) 4 AST) by (try reflexivity; change (256 ^ Z.of_nat 4) with (2 ^ 32); lia). reflexivity. }
  rewrite OD. cbn [bind].
  assert (HLn : len (nd_header d) = 24) by (unfold nd_header; rewrite !len_app, !le_enc_len, O6; reflexivity).
  rewrite (at_rd data 32 (nd_header d) 24 AH) by auto. cbn [bind].
  assert (HR : read_node_header (nd_header d) = Ok (mk_bh (nd_flags d) (nd_level d) (len (nd_recs d)) g t ks fr)).
  { unfold read_node_header. rewrite HLn. change (24 <? 24) with false. cbn [negb check bind].
    pose proof (at_self (nd_header d)) as B. unfold nd_header at 2 in B.
    apply at_app in B. destruct B as (B1 & B). rewrite le_enc_len in B.
    apply at_app in B. destruct B as (B2 & B). rewrite le_enc_len in B.
    apply at_app in B. destruct B as (B3 & B). rewrite le_enc_len in B.
    apply at_app in B. destruct B as (B4 & B). rewrite le_enc_len in B.
    apply at_app in B. destruct B as (B5 & B). rewrite le_enc_len in B.
    apply at_app in B. destruct B as (B6 & B). rewrite le_enc_len in B.
    apply at_app in B. destruct B as (B7 & B).
    fold g t ks fr in B4, B5, B6, B7.
    rewrite (at_rd_le _ 0 2 (nd_flags d) 2 B1) by (try reflexivity; change (256 ^ Z.of_nat 2) with (2 ^ 16); lia). cbn [bind].
    rewrite (at_rd_le _ 2 2 (nd_level d) 2 B2) by (try reflexivity; change (256 ^ Z.of_nat 2) with (2 ^ 16); lia). cbn [bind].
    rewrite (at_rd_le _ 4 4 (len (nd_recs d)) 4 B3) by (try reflexivity; change (256 ^ Z.of_nat 4) with (2 ^ 32); lia). cbn [bind].
    rewrite (at_rd_le _ 8 2 g 2 B4) by (try reflexivity; change (256 ^ Z.of_nat 2) with (2 ^ 16); lia). cbn [bind].
    rewrite (at_rd_le _ 10 2 t 2 B5) by (try reflexivity; change (256 ^ Z.of_nat 2) with (2 ^ 16); lia). cbn [bind].
    rewrite (at_rd_le _ 12 2 ks 2 B6) by (try reflexivity; change (256 ^ Z.of_nat 2) with (2 ^ 16); lia). cbn [bind].
    rewrite (at_rd_le _ 14 2 fr 2 B7) by (try reflexivity; change (256 ^ Z.of_nat 2) with (2 ^ 16); lia). reflexivity. }
  rewrite HR. cbn [bind bh_eoff bh_esize bh_uoff bh_flags bh_keys].
  rewrite (land_1 (nd_flags d)). rewrite negb_involutive.
  rewrite (land_4 (nd_flags d)). fold (nd_fixed d).
  replace (len data - (32 + 24 + 40) <=? g) with false by (destruct (Z.testbit (nd_flags d) 0); lia). cbn [negb check bind].
  replace (len data - (32 + 24 + 40) - g <? t) with false by (destruct (Z.testbit (nd_flags d) 0); lia). cbn [negb check bind].
  replace (len data - (32 + 24 + 40) - g - t <=? ks) with false by (destruct (Z.testbit (nd_flags d) 0); lia). cbn [negb check bind].
  set (root := Z.testbit (nd_flags d) 0) in *.
  set (voff := len data - (if root then 40 else 0)).
  assert (FT : (if root then let! fd := rd data (len data - 40) 40 in let! f := read_footer fd in Ok (Some f) else Ok None) =
    Ok (bn_footer (node_result d))).
  { unfold node_result. cbn [bn_footer]. fold root. destruct root; [|reflexivity].
    rewrite (at_rd data (len data - 40) (nd_footer d) 40); [|eapply at_eq; [exact AF|lia]|lia]. cbn [bind].
    unfold read_footer. rewrite O7. change (40 <? 40) with false. cbn [negb check bind].
    rewrite !rd_le_in by lia. reflexivity. }
  rewrite FT. cbn [bind].
  assert (EV : w16 (if root then w16 (len data) - 40 else len data) = voff).
  { unfold voff, w16. destruct root; [rewrite (Z.mod_small (len data)), Z.mod_small by lia|rewrite Z.mod_small by lia]; lia. }
  rewrite EV.
  replace (if negb (nd_fixed d) then 8 else 4) with (if nd_fixed d then 4 else 8) by (destruct (nd_fixed d); reflexivity).
  replace (t / (if nd_fixed d then 4 else 8) <? len (nd_recs d)) with false by (destruct (nd_fixed d); lia). cbn [negb check bind].
  assert (w16 (g + 56) = g + 56) as -> by (unfold w16; apply Z.mod_small; lia).
  replace (Z.to_nat (len (nd_recs d))) with (length (nd_recs d)) by (unfold len; lia).
  unfold nd_toc in AT. apply at_app in AT. destruct AT as (AT & _).
  unfold nd_fixed in *.
  rewrite (entries_round (nd_flags d) (nd_subtype d) data (g + 56 + t) voff O8 (fun E => proj1 (O10 E)) ltac:(lia)
    ltac:(unfold voff; destruct root; lia) (nd_recs d) (56 + g) 0 0).
  - reflexivity.
  - intros F key value I. apply (proj2 (O10 F)). auto.
  - eapply at_eq; [exact AT|lia].
  - lia.
  - lia.
  - eapply at_eq; [exact AK|lia].
  - eapply at_eq; [exact AV|]. fold vs. unfold voff. destruct root; lia.
Qed.
