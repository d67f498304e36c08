(* Proofs about blocks, streams and the zlib wrapper. *)
From Verif Require Import Base BaseLemmas Checksum ChecksumSpec ChecksumProofs BitStream Huffman Deflate DeflateSpec
  BitProofs HuffProofs DeflateProofs DeflateDynProofs.
Ltac Zify.zify_post_hook ::= Z.div_mod_to_equations.

(* One iteration of the block loop: (last block?, output, stream). *)
Definition block_step (cap : Z) (out : list Z) (s : bit_stream) : res (bool * list Z * bit_stream) :=
  let! (last, btype, s) := read_block_header s in
  let! fixed := (if btype =? 1 then build_fixed
                 else Ok (huff_init 288 15, huff_init 30 15)) in
  let! (out, s) := read_block btype fixed cap out s in
  Ok (negb (last =? 0), out, s).

Lemma block_loop_S f cap out s : block_loop (S f) cap out s =
  if bs_off s <? len (bs_data s) then
    let! (l, out, s) := block_step cap out s in
    if l then Ok (out, s) else block_loop f cap out s
  else Ok (out, s).
Proof.
  cbn [block_loop]. destruct (bs_off s <? len (bs_data s)); auto. unfold block_step.
  destruct (read_block_header s) as [[[last btype] s1]| | |]; cbn [bind]; auto.
  destruct (if btype =? 1 then build_fixed else _) as [fx| | |]; cbn [bind]; auto.
  destruct (read_block btype fx cap out s1) as [[o s2]| | |]; cbn [bind]; auto.
Qed.

Lemma lxor_65535 x : 0 <= x < 65536 -> Z.lxor x 65535 = 65535 - x.
Proof.
  intros H. change 65535 with (Z.ones 16) at 1.
  assert (E : Z.lxor x (Z.ones 16) = Z.ldiff (Z.ones 16) x).
  { apply Z.bits_inj'. intros k Hk. rewrite Z.lxor_spec, Z.ldiff_spec.
    destruct (Z.lt_ge_cases k 16).
    - rewrite Z.ones_spec_low by lia. destruct (Z.testbit x k); auto.
    - rewrite Z.ones_spec_high by lia. rewrite Z.bits_above_log2; auto; [lia|].
      destruct (Z.eq_dec x 0) as [->|]; [simpl; lia|].
      apply Z.log2_lt_pow2; [lia|]. apply Z.lt_le_trans with (2 ^ 16); [lia|]. apply Z.pow_le_mono_r; lia. }
  rewrite E. rewrite <- Z.sub_nocarry_ldiff; [reflexivity|].
  apply Z.bits_inj'. intros k Hk. rewrite Z.ldiff_spec, Z.bits_0.
  destruct (Z.lt_ge_cases k 16).
  - rewrite Z.ones_spec_low by lia. apply andb_false_r.
  - rewrite (Z.bits_above_log2 x); auto; [lia|].
    destruct (Z.eq_dec x 0) as [->|]; [simpl; lia|].
    apply Z.log2_lt_pow2; [lia|]. apply Z.lt_le_trans with (2 ^ 16); [lia|]. apply Z.pow_le_mono_r; lia.
Qed.

Lemma land_65535 x : 0 <= x -> Z.land x 65535 = x mod 65536.
Proof. intros. change 65535 with (Z.ones 16). rewrite Z.land_ones by lia. reflexivity. Qed.
Lemma land_7 x : 0 <= x < 8 -> Z.land x 7 = x.
Proof. intros. change 7 with (Z.ones 3). rewrite Z.land_ones by lia. apply Z.mod_small. auto. Qed.
Lemma land_1 x : 0 <= x -> Z.land x 1 = x mod 2.
Proof. intros. change 1 with (Z.ones 1). rewrite Z.land_ones by lia. reflexivity. Qed.

Lemma header3 f b1 b2 : let v := lsb_val [f; b1; b2] in
  Z.land v 1 = b2z f /\ Z.shiftr v 1 = b2z b1 + 2 * b2z b2.
Proof. destruct f, b1, b2; split; reflexivity. Qed.

Lemma negb_b2z f : negb (b2z f =? 0) = f.
Proof. destruct f; reflexivity. Qed.

(* What follows the header. *)
Definition step_body (cap : Z) (out : list Z) (t : Z) (f : bool) (s : bit_stream) : res (bool * list Z * bit_stream) :=
  let! fixed := (if t =? 1 then build_fixed else Ok (huff_init 288 15, huff_init 30 15)) in
  let! (out, s) := read_block t fixed cap out s in
  Ok (f, out, s).

Lemma block_step_header cap out s f b1 b2 rest : bs_inv s -> bs_rem s = [f; b1; b2] ++ rest ->
  exists s1, block_step cap out s = step_body cap out (b2z b1 + 2 * b2z b2) f s1 /\
    bs_inv s1 /\ bs_data s1 = bs_data s /\ bs_rem s1 = rest.
Proof.
  intros I R. destruct (bs_get_app s 3 _ _ I ltac:(apply width25; auto; lia) R eq_refl) as (s1 & E & I1 & D1 & R1).
  exists s1. split; [|auto]. unfold block_step, read_block_header, step_body. rewrite E. cbn [bind].
  destruct (header3 f b1 b2) as (-> & ->). rewrite negb_b2z. reflexivity.
Qed.

Lemma block_step_nobits cap out s : bs_inv s -> len (bs_rem s) < 3 -> block_step cap out s = Fail.
Proof.
  intros I L. unfold block_step, read_block_header.
  destruct (bs_get_spec s 3 I ltac:(apply width25; auto; lia)) as [(_ & ->)|(L' & _)]; [auto|lia].
Qed.

Lemma fuel_ok s : len (bs_rem s) <= 8 * len (bs_data s) -> (length (bs_rem s) < bit_fuel (bs_data s))%nat.
Proof. unfold bit_fuel, len. lia. Qed.

(* ---- stored blocks ---- *)

Lemma stored_value d n : 0 <= d < 65536 -> 0 <= n < 65536 ->
  let v := lsb_val (lsb_bits 16 d ++ lsb_bits 16 n) in
  Z.land v 65535 = d /\ Z.lxor (Z.shiftr v 16) 65535 = 65535 - n.
Proof.
  intros Hd Hn v.
  assert (V : v = d + 65536 * n).
  { unfold v. rewrite lsb_val_app, !lsb_val_bits, lsb_bits_len. change (2 ^ Z.of_nat 16) with 65536.
    rewrite !Z.mod_small by lia. auto. }
  rewrite land_65535 by lia. rewrite Z.shiftr_div_pow2 by lia. change (2 ^ 16) with 65536. rewrite V.
  split; [lia|]. replace ((d + 65536 * n) / 65536) with n by lia. apply lxor_65535. lia.
Qed.

Lemma stored_value' a : len a = 32 -> exists d n, 0 <= d < 65536 /\ 0 <= n < 65536 /\
  a = lsb_bits 16 d ++ lsb_bits 16 n /\
  Z.land (lsb_val a) 65535 = d /\ Z.lxor (Z.shiftr (lsb_val a) 16) 65535 = 65535 - n.
Proof.
  intros L. destruct (bits_as_lsb a 32 L ltac:(lia)) as (Ea & Ra). set (v := lsb_val a) in *.
  change (2 ^ 32) with (65536 * 65536) in Ra.
  assert (E : a = lsb_bits 16 (v mod 65536) ++ lsb_bits 16 (v / 65536)).
  { rewrite Ea. change (Z.to_nat 32) with (16 + 16)%nat.
    replace v with (v mod 65536 + 2 ^ Z.of_nat 16 * (v / 65536)) at 1 by (change (2 ^ Z.of_nat 16) with 65536; lia).
    apply lsb_bits_app. change (2 ^ Z.of_nat 16) with 65536. lia. }
  exists (v mod 65536), (v / 65536).
  assert (H1 : 0 <= v mod 65536 < 65536) by lia. assert (H2 : 0 <= v / 65536 < 65536) by lia.
  destruct (stored_value _ _ H1 H2) as (V1 & V2). rewrite <- E in V1, V2. fold v in V1, V2. auto.
Qed.

Lemma width32 s : bs_inv s -> bs_size s = 0 -> width_ok (bs_size s) 32.
Proof. intros _ ->. unfold width_ok. simpl. lia. Qed.

Lemma skip_spec s : bs_inv s -> 
  exists s' pad, (if 0 <? Z.land (bs_size s) 7 then let! (_, s) := bs_get s (Z.land (bs_size s) 7) in Ok s else Ok s) = Ok s' /\
    len pad = bs_size s /\ bs_rem s = pad ++ bs_rem s' /\ bs_inv s' /\ bs_data s' = bs_data s /\ bs_size s' = 0.
Proof.
  intros I. pose proof I as ((Hs & _) & H8). rewrite land_7 by lia.
  destruct (0 <? bs_size s) eqn:E.
  - destruct (bs_get_spec s (bs_size s) I ltac:(apply width25; auto; lia)) as [(L & _)|(L & s1 & E1 & I1 & D1 & R1)].
    { rewrite bs_rem_len in L by apply I. destruct I as ((?&?&?&?)&?). lia. }
    rewrite E1. cbn [bind]. exists s1, (firstn (Z.to_nat (bs_size s)) (bs_rem s)). split; auto.
    split. { unfold len in *. rewrite firstn_length. lia. }
    split; [rewrite R1; symmetry; apply firstn_skipn|]. split; auto. split; auto.
    rewrite (bs_size_rem s1 I1), R1. pose proof (bs_rem_len s ltac:(apply I)) as RL.
    unfold len in *. rewrite skipn_length. rewrite Nat2Z.inj_sub by lia. lia.
  - exists s, []. rewrite len_nil. split; auto. split; [lia|]. split; auto. split; auto. split; auto. lia.
Qed.

Lemma aligned_rem s : bs_inv s -> bs_size s = 0 -> bs_rem s = bits_of (skipn (Z.to_nat (bs_off s)) (bs_data s)).
Proof. intros _ H. unfold bs_rem. rewrite H. reflexivity. Qed.

Lemma skipn_add {A} (l : list A) a b : skipn a (skipn b l) = skipn (b + a) l.
Proof. revert l; induction b; intros l; simpl; auto. destruct l; auto. apply skipn_nil. Qed.

Lemma stored_step cap out f s : bs_inv s ->
  step_body cap out 0 f s = Fail \/
  exists d pad s', step_body cap out 0 f s = Ok (f, out ++ d, s') /\ len pad = bs_size s /\
    bytes d /\ len d <= 65535 /\ (len out <= cap -> len (out ++ d) <= cap) /\
    bs_rem s = (pad ++ lsb_bits 16 (len d) ++ lsb_bits 16 (65535 - len d) ++ bits_of d) ++ bs_rem s' /\
    bs_inv s' /\ bs_data s' = bs_data s.
Proof.
  intros I. unfold step_body, read_block. change (0 =? 1) with false. change (0 =? 0) with true. cbn [bind].
  destruct (skip_spec s I) as (s1 & pad & E1 & Lp & R1 & I1 & D1 & Z1). rewrite E1. cbn [bind].
  destruct (bs_get s1 32) as [[v s2]| | |] eqn:E2; cbn [bind]; auto.
  2:{ destruct (bs_get_safe s1 32 I1 (width32 s1 I1 Z1)); congruence. }
  2:{ destruct (bs_get_safe s1 32 I1 (width32 s1 I1 Z1)); congruence. }
  apply bs_get_inv in E2; auto using width32. destruct E2 as (a & La & -> & R2 & I2 & D2).
  destruct (stored_value' a La) as (dl & n & Hdl & Hn & Ea & V1 & V2). rewrite V1, V2.
  assert (Z2 : bs_size s2 = 0).
  { rewrite (bs_size_rem s2 I2). rewrite (bs_size_rem s1 I1), R2, len_app, La in Z1. lia. }
  destruct (dl =? 65535 - n) eqn:C1; cbn [check bind]; auto.
  assert (Hn' : n = 65535 - dl) by lia. clear C1.
  destruct (dl =? 0) eqn:C2.
  { cbn [bind]. right. exists [], pad, s2. rewrite app_nil_r. change (len (@nil Z)) with 0.
    assert (DZ : dl = 0) by lia. clear V1. rewrite DZ in *. split; auto. split; auto. split; [constructor|]. split; [lia|]. split; [auto|].
    split. { rewrite R1, R2, Ea, Hn', <- !app_assoc. reflexivity. } split; [auto|congruence]. }
  destruct (len (bs_data s2) - bs_off s2 <? dl) eqn:C3; cbn [negb check bind]; auto.
  destruct (cap - len out <? dl) eqn:C4; cbn [negb check bind]; auto.
  pose proof I2 as ((_ & _ & Ho & Hb) & _).
  rewrite rd_in by lia. cbn [bind]. replace (len out + dl <=? cap) with true by lia. cbn [bind].
  set (d := slice (bs_data s2) (bs_off s2) dl).
  assert (Ld : len d = dl) by (unfold d; apply len_slice; lia).
  right. exists d, pad. eexists. split; [reflexivity|]. split; auto.
  split; [unfold d; apply bytes_slice; auto|]. split; [lia|]. split; [intros _; rewrite len_app; lia|].
  split; [|split].
  - rewrite R1, R2, Ea, Ld, Hn', <- !app_assoc. do 3 f_equal.
    rewrite (aligned_rem s2 I2 Z2). unfold bs_rem. cbn [bs_size bs_buf bs_off bs_data]. change (lsb_bits (Z.to_nat 0) 0) with (@nil bool). cbn [app].
    rewrite <- bits_of_app. f_equal. unfold d, slice.
    replace (Z.to_nat (bs_off s2 + dl)) with (Z.to_nat (bs_off s2) + Z.to_nat dl)%nat by lia.
    rewrite <- skipn_add. symmetry. apply firstn_skipn.
  - unfold bs_inv, bs_winv. cbn [bs_size bs_buf bs_off bs_data]. change (2 ^ 0) with 1. repeat split; auto; lia.
  - cbn [bs_data]. congruence.
Qed.

Lemma stored_complete cap out f s d pad rest : bs_inv s -> len pad = bs_size s -> bytes d -> len d <= 65535 ->
  len (out ++ d) <= cap ->
  bs_rem s = (pad ++ lsb_bits 16 (len d) ++ lsb_bits 16 (65535 - len d) ++ bits_of d) ++ rest ->
  exists s', step_body cap out 0 f s = Ok (f, out ++ d, s') /\ bs_inv s' /\ bs_data s' = bs_data s /\ bs_rem s' = rest.
Proof.
  intros I Lp Bd Ld Hc R. unfold step_body, read_block. change (0 =? 1) with false. change (0 =? 0) with true. cbn [bind].
  pose proof (len_nonneg d).
  destruct (skip_spec s I) as (s1 & pad' & E1 & Lp' & R1 & I1 & D1 & Z1). rewrite E1. cbn [bind].
  assert (R1' : bs_rem s1 = (lsb_bits 16 (len d) ++ lsb_bits 16 (65535 - len d)) ++ bits_of d ++ rest).
  { rewrite R1 in R. rewrite <- !app_assoc in R. apply app_eq_len in R; [|unfold len in *; lia].
    destruct R as (_ & R). rewrite R, <- !app_assoc. auto. }
  destruct (bs_get_app s1 32 _ _ I1 (width32 s1 I1 Z1) R1') as (s2 & E2 & I2 & D2 & R2).
  { rewrite len_app, !lsb_bits_len. lia. }
  rewrite E2. cbn [bind].
  destruct (stored_value (len d) (65535 - len d)) as (V1 & V2); try lia. rewrite V1, V2.
  replace (len d =? 65535 - (65535 - len d)) with true by lia. cbn [check bind].
  assert (Z2 : bs_size s2 = 0).
  { rewrite (bs_size_rem s2 I2). rewrite (bs_size_rem s1 I1), R1', len_app, <- R2, len_app, !lsb_bits_len in Z1. lia. }
  destruct (len d =? 0) eqn:C2.
  { cbn [bind]. exists s2. destruct d; [|rewrite len_cons in C2; pose proof (len_nonneg d); lia].
    rewrite app_nil_r. split; auto. split; auto. split; [congruence|]. rewrite R2. reflexivity. }
  rewrite len_app in Hc.
  rewrite (aligned_rem s2 I2 Z2) in R2.
  pose proof I2 as ((_ & _ & Ho & Hb) & _).
  assert (L2 : len d <= len (bs_data s2) - bs_off s2).
  { apply (f_equal len) in R2. rewrite len_app, !bits_of_len in R2. unfold len at 1 in R2. rewrite skipn_length in R2.
    pose proof (len_nonneg rest). unfold len in *. lia. }
  assert (SK : slice (bs_data s2) (bs_off s2) (len d) = d /\
     bits_of (skipn (Z.to_nat (bs_off s2 + len d)) (bs_data s2)) = rest).
  { set (t := skipn (Z.to_nat (bs_off s2)) (bs_data s2)) in *.
    assert (T : t = firstn (Z.to_nat (len d)) t ++ skipn (Z.to_nat (len d)) t) by (symmetry; apply firstn_skipn).
    rewrite T, bits_of_app in R2. apply app_eq_len in R2.
    - destruct R2 as (Q1 & Q2). split.
      + unfold slice. fold t. apply bits_of_inj; auto. apply Forall_firstn'. unfold t. apply Forall_skipn'. auto.
      + rewrite <- Q2. f_equal. unfold t. rewrite skipn_add. f_equal. lia.
    - assert (len (firstn (Z.to_nat (len d)) t) = len d).
      { unfold t, len in *. rewrite firstn_length, skipn_length. lia. }
      pose proof (bits_of_len (firstn (Z.to_nat (len d)) t)). pose proof (bits_of_len d). unfold len in *. lia. }
  destruct SK as (SK1 & SK2).
  replace (negb (len (bs_data s2) - bs_off s2 <? len d)) with true by lia. cbn [check bind].
  replace (negb (cap - len out <? len d)) with true by lia. cbn [check bind].
  rewrite rd_in by lia. cbn [bind]. replace (len out + len d <=? cap) with true by lia. cbn [bind]. rewrite SK1.
  eexists. split; [reflexivity|]. split; [|split].
  - unfold bs_inv, bs_winv. cbn [bs_size bs_buf bs_off bs_data]. change (2 ^ 0) with 1. repeat split; auto; lia.
  - cbn [bs_data]. congruence.
  - unfold bs_rem. cbn [bs_size bs_buf bs_off bs_data]. exact SK2.
Qed.

(* ---- one block ---- *)

Lemma block_step_complete cap out s pos final b bs rest : bs_inv s -> (len (bs_rem s) + pos) mod 8 = 0 ->
  len (bs_rem s) <= 8 * len (bs_data s) ->
  bs_rem s = bs ++ rest -> has_distances b -> block_ok out b -> block_enc pos final b bs ->
  len (block_out out b) <= cap ->
  exists s', block_step cap out s = Ok (final, block_out out b, s') /\ bs_inv s' /\ bs_data s' = bs_data s /\ bs_rem s' = rest.
Proof.
  intros I M LB R HD OK E Hc.
  destruct E as [d pad Lp|ts tb TE|ll dl ts hb tb DH PL TE PD].
  - rewrite <- app_assoc in R.
    destruct (block_step_header cap out s final false false _ I R) as (s1 & E1 & I1 & D1 & R1).
    rewrite E1. change (b2z false + 2 * b2z false) with 0. cbn [block_ok block_out] in *. destruct OK as (O1 & O2).
    destruct (stored_complete cap out final s1 d pad rest) as (s' & E2 & I2 & D2 & R2); auto.
    + rewrite (bs_size_rem s1 I1), R1, Lp. rewrite R, len_app in M. change (len [final; false; false]) with 3 in M. lia.
    + exists s'. split; auto. split; auto. split; [congruence|auto].
  - rewrite <- app_assoc in R.
    destruct (block_step_header cap out s final true false _ I R) as (s1 & E1 & I1 & D1 & R1).
    rewrite E1. change (b2z true + 2 * b2z false) with 1. cbn [block_ok block_out] in *.
    unfold step_body, read_block. change (1 =? 1) with true. change (1 =? 0) with false. cbv iota.
    destruct build_fixed_ok as (lit & dist & EF & TL & TD). rewrite EF. cbn [bind fst snd].
    unfold decode_huffman.
    destruct (decode_complete fixed_ll fixed_dl lit dist cap TL TD ts tb TE (bit_fuel (bs_data s1)) out s1 rest) as (s' & E2 & I2 & D2 & R2); auto.
    + rewrite R, !len_app in LB. change (len [final; true; false]) with 3 in LB. rewrite D1. unfold bit_fuel.
      pose proof (len_nonneg rest). unfold len in *. lia.
    + rewrite E2. cbn [bind]. exists s'. split; auto. split; auto. split; [congruence|auto].
  - rewrite <- app_assoc in R.
    destruct (block_step_header cap out s final false true _ I R) as (s1 & E1 & I1 & D1 & R1).
    rewrite E1. change (b2z false + 2 * b2z true) with 2. cbn [block_ok block_out has_distances] in *.
    unfold step_body, read_block. change (2 =? 1) with false. change (2 =? 0) with false. change (2 =? 2) with true. cbn [bind].
    assert (PD' : prefix_code 15 dl).
    { destruct PD as [PD|PD]; auto. apply Exists_exists in HD. destruct HD as (x & Ix & Nx).
      rewrite Forall_forall in PD. exfalso. auto. }
    rewrite <- app_assoc in R1.
    assert (C256 : coded ll 256).
    { clear - TE. induction TE; auto. }
    destruct (build_dynamic_complete s1 ll dl hb (tb ++ rest) I1 R1 DH PL PD' C256) as (lit & dist & s2 & E2 & TL & TD & I2 & D2 & R2).
    rewrite E2. cbn [bind]. unfold decode_huffman.
    destruct (decode_complete ll dl lit dist cap TL TD ts tb TE (bit_fuel (bs_data s2)) out s2 rest) as (s' & E3 & I3 & D3 & R3); auto.
    + rewrite R, !len_app in LB. change (len [final; false; true]) with 3 in LB. rewrite D2, D1. unfold bit_fuel.
      pose proof (len_nonneg rest). pose proof (len_nonneg hb). unfold len in *. lia.
    + rewrite E3. cbn [bind]. exists s'. split; auto. split; auto. split; [congruence|auto].
Qed.

Lemma block_step_sound cap out s pos : bs_inv s -> (len (bs_rem s) + pos) mod 8 = 0 ->
  len (bs_rem s) <= 8 * len (bs_data s) -> len out <= cap ->
  block_step cap out s = Fail \/
  exists final b bs s', block_step cap out s = Ok (final, block_out out b, s') /\
    has_distances b /\ block_ok out b /\ block_enc pos final b bs /\ len (block_out out b) <= cap /\
    bs_rem s = bs ++ bs_rem s' /\ 3 <= len bs /\ bs_inv s' /\ bs_data s' = bs_data s.
Proof.
  intros I M LB Hc.
  destruct (Z.lt_ge_cases (len (bs_rem s)) 3) as [L3|L3].
  { left. apply block_step_nobits; auto. }
  assert (exists f b1 b2 rest, bs_rem s = [f; b1; b2] ++ rest) as (f & b1 & b2 & rest & R).
  { destruct (bs_rem s) as [|f [|b1 [|b2 r]]]; rewrite ?len_cons, ?len_nil in L3; try lia. exists f, b1, b2, r. auto. }
  destruct (block_step_header cap out s f b1 b2 rest I R) as (s1 & E1 & I1 & D1 & R1). rewrite E1.
  assert (LB1 : len (bs_rem s1) <= 8 * len (bs_data s1)).
  { rewrite R, len_app in LB. change (len [f; b1; b2]) with 3 in LB. rewrite R1, D1. lia. }
  destruct b2, b1.
  - left. reflexivity.
  - change (b2z false + 2 * b2z true) with 2.
    unfold step_body, read_block. change (2 =? 1) with false. change (2 =? 0) with false. change (2 =? 2) with true. cbn [bind].
    destruct (build_dynamic_sound s1 I1) as [E2|(ll & dl & hb & lit & dist & s2 & E2 & X1 & X2 & X3 & X4 & X5 & X6 & X7 & X8 & X9 & X10)].
    { rewrite E2. auto. }
    rewrite E2. cbn [bind]. unfold decode_huffman.
    assert (LB2 : len (bs_rem s2) <= 8 * len (bs_data s2)).
    { rewrite X8, len_app in LB1. pose proof (len_nonneg hb). rewrite X10. lia. }
    destruct (decode_sound ll dl lit dist cap X6 X7 X5 (bit_fuel (bs_data s2)) out s2 X9 Hc (fuel_ok s2 LB2))
      as [E3|(ts & bs & s' & E3 & Y1 & Y2 & Y3 & Y4 & Y5 & Y6)].
    { rewrite E3. auto. }
    rewrite E3. cbn [bind]. right. exists f, (Dynamic ll dl ts), ([f; false; true] ++ hb ++ bs), s'.
    cbn [has_distances block_ok block_out]. split; auto.
    split; [apply X3|]. split; auto. split; [constructor; auto|]. split; auto.
    split. { rewrite R, <- R1, X8, Y2, <- !app_assoc. auto. }
    split. { rewrite len_app. change (len [f; false; true]) with 3. pose proof (len_nonneg (hb ++ bs)). lia. }
    split; auto. congruence.
  - change (b2z true + 2 * b2z false) with 1.
    unfold step_body, read_block. change (1 =? 1) with true. change (1 =? 0) with false. cbv iota.
    destruct build_fixed_ok as (lit & dist & EF & TL & TD). rewrite EF. cbn [bind fst snd].
    unfold decode_huffman.
    destruct (decode_sound fixed_ll fixed_dl lit dist cap TL TD ltac:(vm_compute; discriminate) (bit_fuel (bs_data s1)) out s1 I1 Hc (fuel_ok s1 LB1))
      as [E3|(ts & bs & s' & E3 & Y1 & Y2 & Y3 & Y4 & Y5 & Y6)].
    { rewrite E3. auto. }
    rewrite E3. cbn [bind]. right. exists f, (Fixed ts), ([f; true; false] ++ bs), s'.
    cbn [has_distances block_ok block_out]. split; auto.
    split; auto. split; auto. split; [constructor; auto|]. split; auto.
    split. { rewrite R, <- R1, Y2, <- !app_assoc. auto. }
    split. { rewrite len_app. change (len [f; true; false]) with 3. pose proof (len_nonneg bs). lia. }
    split; auto. congruence.
  - change (b2z false + 2 * b2z false) with 0.
    destruct (stored_step cap out f s1 I1) as [E2|(d & pad & s' & E2 & Lp & X1 & X2 & X3 & X4 & X5 & X6)]; auto.
    right. exists f, (Stored d), ([f; false; false] ++ (pad ++ lsb_bits 16 (len d) ++ lsb_bits 16 (65535 - len d) ++ bits_of d)), s'.
    cbn [has_distances block_ok block_out]. split; auto. split; auto. split; auto. split.
    { constructor. rewrite Lp, (bs_size_rem s1 I1), R1. rewrite R, len_app in M. change (len [f; false; false]) with 3 in M. lia. }
    split; auto.
    split. { rewrite R, <- R1, X4, <- !app_assoc. auto. }
    split. { rewrite len_app. change (len [f; false; false]) with 3. match goal with |- _ <= 3 + len ?x => pose proof (len_nonneg x) end. lia. }
    split; auto. congruence.
Qed.

(* ---- the block loop ---- *)

Lemma block_enc_len pos final b bs : block_enc pos final b bs -> 10 <= len bs.
Proof.
  intros [d pad Lp|ts tb TE|ll dl ts hb tb DH PL TE PD].
  - rewrite !len_app, !lsb_bits_len. change (len [final; false; false]) with 3.
    pose proof (len_nonneg pad). pose proof (len_nonneg (bits_of d)). lia.
  - rewrite len_app. change (len [final; true; false]) with 3.
    assert (7 <= len tb); [|lia].
    clear - TE. induction TE as [|t ts b bs _ _ IH].
    + vm_compute. discriminate.
    + rewrite len_app. pose proof (len_nonneg b). lia.
  - destruct DH as (cl & nc & cts & clb & _ & _ & _ & _ & _ & _ & _ & _ & _ & ->).
    rewrite !len_app, !lsb_bits_len. change (len [final; false; true]) with 3.
    pose proof (len_nonneg (flat_map (fun k => lsb_bits 3 (code_len cl (nth k cl_order 0%nat))) (seq 0 nc))).
    pose proof (len_nonneg clb). pose proof (len_nonneg tb). lia.
Qed.

Lemma off_lt s : bs_inv s -> 8 <= len (bs_rem s) -> bs_off s <? len (bs_data s) = true.
Proof. intros I H. rewrite (bs_off_rem s I). lia. Qed.

Lemma stream_out_len P pos out out' bs : stream_enc P pos out out' bs -> len out <= len out'.
Proof.
  assert (B : forall out b, len out <= len (block_out out b)).
  { intros o [d|ts|ll dl ts]; cbn [block_out]; try apply expand_len. rewrite len_app. pose proof (len_nonneg d). lia. }
  induction 1; [apply B|]. pose proof (B out b). lia.
Qed.

Lemma block_loop_complete cap pos out out' bs : stream_enc has_distances pos out out' bs ->
  forall f s rest, bs_inv s -> (len (bs_rem s) + pos) mod 8 = 0 -> len (bs_rem s) <= 8 * len (bs_data s) ->
  bs_rem s = bs ++ rest -> len out' <= cap -> (length bs < f)%nat ->
  exists s', block_loop f cap out s = Ok (out', s') /\ bs_inv s' /\ bs_data s' = bs_data s /\ bs_rem s' = rest.
Proof.
  induction 1 as [pos out b bs HD OK E|pos out b bs out' bs' HD OK E ST IH]; intros f s rest I M LB R Hc Hf.
  - pose proof (block_enc_len _ _ _ _ E) as L10. destruct f as [|f]; [lia|]. rewrite block_loop_S.
    rewrite off_lt; auto. 2:{ rewrite R, len_app. pose proof (len_nonneg rest). lia. }
    destruct (block_step_complete cap out s pos true b bs rest I M LB R HD OK E Hc) as (s' & E1 & I1 & D1 & R1).
    rewrite E1. cbn [bind]. eauto.
  - pose proof (block_enc_len _ _ _ _ E) as L10. destruct f as [|f]; [lia|]. rewrite block_loop_S.
    rewrite <- app_assoc in R. rewrite app_length in Hf.
    rewrite off_lt; auto. 2:{ rewrite R, !len_app. pose proof (len_nonneg rest). pose proof (len_nonneg bs'). lia. }
    pose proof (stream_out_len _ _ _ _ _ ST).
    destruct (block_step_complete cap out s pos false b bs (bs' ++ rest) I M LB R HD OK E) as (s' & E1 & I1 & D1 & R1); [lia|].
    rewrite E1. cbn [bind].
    destruct (IH f s' rest I1) as (s2 & E2 & I2 & D2 & R2); auto.
    + rewrite R1. rewrite R, len_app in M. replace (len (bs' ++ rest) + (pos + len bs)) with (len bs + len (bs' ++ rest) + pos) by lia. auto.
    + rewrite R1, D1. rewrite R, len_app in LB. pose proof (len_nonneg bs). lia.
    + unfold len in L10. lia.
    + exists s2. split; auto. split; auto. split; [congruence|auto].
Qed.

Lemma block_loop_sound cap : forall f pos out s, bs_inv s -> (len (bs_rem s) + pos) mod 8 = 0 ->
  len (bs_rem s) <= 8 * len (bs_data s) -> len out <= cap -> (length (bs_rem s) < f)%nat ->
  block_loop f cap out s = Fail \/
  exists out' s' bs, block_loop f cap out s = Ok (out', s') /\ len out' <= cap /\
    bs_rem s = bs ++ bs_rem s' /\ bs_inv s' /\ bs_data s' = bs_data s /\
    (stream_enc has_distances pos out out' bs \/ open_enc has_distances pos out out' bs /\ len (bs_rem s') < 8).
Proof.
  induction f as [|f IH]; intros pos out s I M LB Hc Hf; [lia|].
  rewrite block_loop_S.
  destruct (bs_off s <? len (bs_data s)) eqn:E0.
  2:{ right. exists out, s, []. split; auto. split; auto. split; auto. split; auto. split; auto. right.
      split; [constructor|]. rewrite (bs_off_rem s I) in E0. pose proof (len_nonneg (bs_rem s)). lia. }
  destruct (block_step_sound cap out s pos I M LB Hc) as [E|(fin & b & bs & s1 & E & X1 & X2 & X3 & X4 & X5 & X6 & X7 & X8)];
    rewrite E; cbn [bind]; auto.
  destruct fin.
  - right. exists (block_out out b), s1, bs. split; auto. split; auto. split; auto. split; auto. split; auto.
    left. constructor; auto.
  - destruct (IH (pos + len bs) (block_out out b) s1 X7) as [E2|(out' & s' & bs' & E2 & Y1 & Y2 & Y3 & Y4 & Y5)]; auto.
    + rewrite X5, len_app in M. replace (len (bs_rem s1) + (pos + len bs)) with (len bs + len (bs_rem s1) + pos) by lia. auto.
    + rewrite X5, len_app in LB. rewrite X8. lia.
    + rewrite X5, app_length in Hf. unfold len in X6. lia.
    + right. exists out', s', (bs ++ bs'). split; auto. split; auto. split; [rewrite X5, Y2, app_assoc; auto|].
      split; auto. split; [congruence|]. destruct Y5 as [Y5|(Y5 & Y6)].
      * left. econstructor; eauto.
      * right. split; auto. econstructor; eauto.
Qed.

(* ---- whole streams ---- *)

Lemma nth_is_byte l k : bytes l -> is_byte (nth k l 0).
Proof.
  intros H. destruct (nth_in_or_default k l 0) as [I|E].
  - unfold bytes in H. rewrite Forall_forall in H. auto.
  - rewrite E. unfold is_byte; lia.
Qed.

Lemma match_bytes_bytes out l d : bytes out -> bytes (match_bytes out l d).
Proof.
  intros H. unfold bytes, match_bytes. apply Forall_forall. intros x Hx. apply in_map_iff in Hx.
  destruct Hx as (i & <- & _). apply nth_is_byte; auto.
Qed.

Lemma expand_bytes ll dl ts bs : tokens_enc ll dl ts bs -> forall out, bytes out -> bytes (expand out ts).
Proof.
  induction 1 as [|t ts b bs Ht _ IH]; intros out Ho; cbn [expand]; auto.
  destruct Ht as [c Hc _|].
  - apply IH. apply bytes_app. split; auto. constructor; [exact Hc|constructor].
  - apply IH. apply bytes_app. split; auto. apply match_bytes_bytes; auto.
Qed.

Lemma block_out_bytes pos f out b bs : bytes out -> block_ok out b -> block_enc pos f b bs -> bytes (block_out out b).
Proof.
  intros Ho OK E. destruct E as [d pad Lp|ts tb TE|ll dl ts hb tb DH PL TE PD]; cbn [block_out block_ok] in *.
  - apply bytes_app. destruct OK. auto.
  - eapply expand_bytes; eauto.
  - eapply expand_bytes; eauto.
Qed.

Lemma stream_bytes P pos out out' bs : stream_enc P pos out out' bs -> bytes out -> bytes out'.
Proof.
  induction 1; intros Ho.
  - eapply block_out_bytes; eauto.
  - apply IHstream_enc. eapply block_out_bytes; eauto.
Qed.
Lemma open_bytes P pos out out' bs : open_enc P pos out out' bs -> bytes out -> bytes out'.
Proof.
  induction 1; intros Ho; auto.
  apply IHopen_enc. eapply block_out_bytes; eauto.
Qed.

Lemma stream_nonempty P pos out out' bs : stream_enc P pos out out' bs -> 10 <= len bs.
Proof.
  induction 1.
  - eapply block_enc_len; eauto.
  - rewrite len_app. pose proof (block_enc_len _ _ _ _ H1). lia.
Qed.

Lemma init_rem0 data : bs_rem (bs_init data 0) = bits_of data.
Proof. reflexivity. Qed.

Lemma deflate_complete data cap out : bytes data -> deflate_stream has_distances data out -> len out <= cap ->
  deflate_decompress data cap = Ok out.
Proof.
  intros Hb (bs & rest & ST & E) Hc. unfold deflate_decompress.
  pose proof (stream_nonempty _ _ _ _ _ ST) as L10. pose proof (len_nonneg rest).
  pose proof (bits_of_len data) as LB. rewrite E, len_app in LB.
  replace (negb (len data =? 0)) with true by lia. cbn [check bind].
  pose proof (len_nonneg data).
  destruct (block_loop_complete cap 0 [] out bs ST (bit_fuel data) (bs_init data 0) rest) as (s' & E1 & _).
  - apply bs_init_inv; auto; lia.
  - rewrite init_rem0, bits_of_len. lia.
  - rewrite init_rem0, bits_of_len. cbn [bs_init bs_data]. lia.
  - exact E.
  - auto.
  - unfold bit_fuel. unfold len in *. lia.
  - rewrite E1. reflexivity.
Qed.

Lemma deflate_sound data cap : bytes data -> 0 <= cap ->
  deflate_decompress data cap = Fail \/
  exists out, deflate_decompress data cap = Ok out /\ len out <= cap /\ bytes out /\
    (deflate_stream has_distances data out \/
     exists bs rest, open_enc has_distances 0 [] out bs /\ bits_of data = bs ++ rest /\ len rest < 8).
Proof.
  intros Hb Hc. unfold deflate_decompress.
  destruct (len data =? 0) eqn:E0; cbn [negb check bind]; auto.
  pose proof (len_nonneg data).
  destruct (block_loop_sound cap (bit_fuel data) 0 [] (bs_init data 0)) as [E|(out & s' & bs & E & X1 & X2 & X3 & X4 & X5)].
  - apply bs_init_inv; auto; lia.
  - rewrite init_rem0, bits_of_len. lia.
  - rewrite init_rem0, bits_of_len. cbn [bs_init bs_data]. lia.
  - rewrite len_nil. auto.
  - rewrite init_rem0. pose proof (bits_of_len data). unfold bit_fuel, len in *. lia.
  - rewrite E. auto.
  - rewrite E. cbn [bind]. right. exists out. split; auto. split; auto.
    rewrite init_rem0 in X2. destruct X5 as [X5|(X5 & X6)].
    + split; [eapply stream_bytes; eauto; constructor|]. left. exists bs, (bs_rem s'). auto.
    + split; [eapply open_bytes; eauto; constructor|]. right. exists bs, (bs_rem s'). auto.
Qed.

(* ---- zlib ---- *)

Lemma unread_none s : bs_inv s -> unread_bytes 5 s = Ok s.
Proof. intros (_ & H). cbn [unread_bytes]. replace (8 <=? bs_size s) with false by lia. auto. Qed.

Lemma header_cases data : bytes data ->
  read_data_header data = Fail \/ exists off, read_data_header data = Ok off /\ 2 <= off <= 6 /\ off <= len data.
Proof.
  intros Hb. unfold read_data_header.
  destruct (2 <=? len data) eqn:E; cbn [check bind]; auto.
  rewrite !getb_znth by lia. cbn [bind].
  destruct (negb (Z.land (znth data 1) 32 =? 0)) eqn:F.
  - destruct (negb ((len data <? 6) || (len data - 6 <? 2))) eqn:G; cbn [check bind]; auto.
    unfold rd_be. rewrite rd_in by lia. cbn [bind].
    destruct (Z.land (znth data 0) 15 =? 8); cbn [check bind]; auto.
    destruct (negb (32768 <? Z.shiftl 1 (Z.shiftr (znth data 0) 4 + 8))); cbn [check bind]; auto.
    right. exists 6. repeat split; auto; lia.
  - cbn [bind]. destruct (Z.land (znth data 0) 15 =? 8); cbn [check bind]; auto.
    destruct (negb (32768 <? Z.shiftl 1 (Z.shiftr (znth data 0) 4 + 8))); cbn [check bind]; auto.
    right. exists 2. repeat split; auto; lia.
Qed.

Lemma adler_range out : bytes out -> 0 <= adler_ref 1 0 out < 256 ^ 4.
Proof.
  intros _. unfold adler_ref.
  assert (H : forall l a b, 0 <= a < 65521 -> 0 <= b < 65521 ->
    let '(a', b') := fold_left (fun '(a, b) d => ((a + d) mod 65521, (b + (a + d)) mod 65521)) l (a, b) in
    0 <= a' < 65521 /\ 0 <= b' < 65521).
  { induction l as [|x l IH]; intros a b Ha Hb; cbn [fold_left]; auto.
    apply IH; apply Z.mod_pos_bound; lia. }
  specialize (H out (1 mod 65521) (0 mod 65521) ltac:(lia) ltac:(lia)).
  destruct (fold_left _ _ _) as [a b]. lia.
Qed.

Lemma adler_ok out : bytes out -> calculate_adler32 out 1 = Ok (adler_ref 1 0 out).
Proof. intros H. rewrite adler32_correct by (auto; lia). reflexivity. Qed.

(* Bytes after the checksum are ignored. *)
Lemma zlib_complete_trailing data0 extra cap out : zlib_stream has_distances (adler_ref 1 0) data0 out -> bytes extra ->
  len out <= cap -> zlib_decompress (data0 ++ extra) cap = Ok out.
Proof.
  intros (cmf & flg & body & bs & pad & Ed0 & Bc & Bf & M8 & Wn & _ & T5 & Bb & ST & Eb & Lp) Hx Hc.
  set (data := data0 ++ extra) in *.
  assert (Ed : data = [cmf; flg] ++ body ++ be_enc 4 (adler_ref 1 0 out) ++ extra).
  { unfold data. rewrite Ed0, <- !app_assoc. reflexivity. }
  clearbody data. pose proof (len_nonneg extra).
  pose proof (stream_nonempty _ _ _ _ _ ST) as L10. pose proof (len_nonneg pad).
  pose proof (bits_of_len body) as LB. rewrite Eb, len_app in LB.
  assert (Hb : bytes data).
  { rewrite Ed. apply bytes_app. split; [constructor; [exact Bc|constructor; [exact Bf|constructor]]|].
    apply bytes_app. split; auto. apply bytes_app. split; auto. apply be_enc_bytes. }
  assert (LD : len data = 2 + len body + 4 + len extra).
  { rewrite Ed. rewrite !len_app, be_enc_len. change (len [cmf; flg]) with 2. lia. }
  assert (Bo : bytes out) by (eapply stream_bytes; eauto; constructor).
  unfold zlib_decompress.
  replace (negb (len data =? 0)) with true by lia. cbn [check bind].
  assert (HD : read_data_header data = Ok 2).
  { unfold read_data_header. replace (2 <=? len data) with true by lia. cbn [check bind].
    rewrite !getb_znth by lia. cbn [bind].
    replace (znth data 0) with cmf by (rewrite Ed; reflexivity).
    replace (znth data 1) with flg by (rewrite Ed; reflexivity).
    assert (F : Z.land flg 32 = 0).
    { apply Z.bits_inj'. intros i Hi. rewrite Z.land_spec, Z.bits_0. change 32 with (2 ^ 5).
      destruct (Z.eq_dec i 5) as [->|Ni].
      - rewrite T5. reflexivity.
      - rewrite Z.pow2_bits_false by auto. apply andb_false_r. }
    rewrite F. cbn [Z.eqb negb bind].
    change 15 with (Z.ones 4). rewrite Z.land_ones by lia. change (2 ^ 4) with 16. rewrite M8.
    cbn [Z.eqb Pos.eqb check bind]. rewrite Z.shiftr_div_pow2 by lia. change (2 ^ 4) with 16.
    rewrite Z.shiftl_mul_pow2 by (unfold is_byte in Bc; lia).
    assert (2 ^ (cmf / 16 + 8) <= 2 ^ 15) by (apply Z.pow_le_mono_r; lia).
    change (2 ^ 15) with 32768 in *.
    replace (32768 <? 1 * 2 ^ (cmf / 16 + 8)) with false by lia. reflexivity. }
  rewrite HD. cbn [bind]. replace (len data <=? 2) with false by lia. cbn [negb check bind].
  assert (RM : bs_rem (bs_init data 2) = bs ++ pad ++ bits_of (be_enc 4 (adler_ref 1 0 out) ++ extra)).
  { rewrite bs_init_rem, Ed. change (skipn (Z.to_nat 2) ([cmf; flg] ++ ?x)) with x.
    rewrite bits_of_app, Eb, app_assoc. auto. }
  assert (LR : len (bs_rem (bs_init data 2)) = 8 * (len data - 2)).
  { rewrite bs_rem_len by (apply bs_init_inv; auto; lia). cbn [bs_init bs_size bs_data bs_off]. lia. }
  destruct (block_loop_complete cap 0 [] out bs ST (bit_fuel data) (bs_init data 2) (pad ++ bits_of (be_enc 4 (adler_ref 1 0 out) ++ extra)))
    as (s' & E1 & I' & D' & R').
  - apply bs_init_inv; auto; lia.
  - lia.
  - cbn [bs_init bs_data] in *. lia.
  - exact RM.
  - auto.
  - unfold bit_fuel. pose proof (len_nonneg pad). unfold len in *. lia.
  - rewrite E1. cbn [bind]. cbn [bs_init bs_data] in D'.
    assert (OF : bs_off s' = 2 + len body).
    { rewrite bs_off_rem by auto. rewrite R', D', len_app, bits_of_len, len_app, be_enc_len. lia. }
    rewrite OF. replace (4 <=? len data - (2 + len body)) with true by lia.
    rewrite unread_none by auto. cbn [bind]. rewrite OF. unfold rd_be.
    rewrite rd_in by (pose proof (len_nonneg body); lia). cbn [bind].
    replace (slice data (2 + len body) 4) with (be_enc 4 (adler_ref 1 0 out)).
    2:{ symmetry.
        assert (Ed' : data = ([cmf; flg] ++ body) ++ be_enc 4 (adler_ref 1 0 out) ++ extra)
          by (rewrite <- app_assoc; exact Ed).
        rewrite Ed'. apply slice_exact; [rewrite len_app; reflexivity|rewrite be_enc_len; reflexivity]. }
    rewrite be_val_enc by (apply adler_range; auto).
    rewrite adler_ok by auto. cbn [bind]. rewrite Z.eqb_refl. reflexivity.
Qed.

Lemma zlib_complete data cap out : zlib_stream has_distances (adler_ref 1 0) data out -> len out <= cap ->
  zlib_decompress data cap = Ok out.
Proof.
  intros. rewrite <- (app_nil_r data). apply zlib_complete_trailing; auto. constructor.
Qed.

(* What success of the zlib reader means: the blocks are well formed, and the
   Adler-32 that follows them (if four bytes are left) is that of the output. *)
Definition zlib_result (data out : list Z) : Prop :=
  exists off bs rest,
    (off = 2 \/ off = 6) /\ off <= len data /\
    bits_of (skipn (Z.to_nat off) data) = bs ++ rest /\
    (stream_enc has_distances 0 [] out bs \/ (open_enc has_distances 0 [] out bs /\ len rest < 8)) /\
    (4 <= len rest / 8 -> be_val (slice data (len data - len rest / 8) 4) = adler_ref 1 0 out).

Lemma header_off data off : read_data_header data = Ok off -> off = 2 \/ off = 6.
Proof.
  unfold read_data_header. intros H.
  repeat match goal with
  | H : bind ?r _ = Ok _ |- _ => let E := fresh in destruct r eqn:E; cbn [bind] in H; try discriminate
  | H : (if ?b then _ else _) = Ok _ |- _ => destruct b; try discriminate
  | H : Ok _ = Ok _ |- _ => injection H; clear H; intros
  end; subst; auto.
Qed.

Lemma zlib_sound data cap : bytes data -> 0 <= cap ->
  zlib_decompress data cap = Fail \/
  exists out, zlib_decompress data cap = Ok out /\ len out <= cap /\ zlib_result data out.
Proof.
  intros Hb Hc. unfold zlib_decompress.
  destruct (len data =? 0) eqn:E0; cbn [negb check bind]; auto.
  destruct (header_cases data Hb) as [E|(off & E & Ho & Hl)]; rewrite E; cbn [bind]; auto.
  pose proof (header_off _ _ E) as HO.
  destruct (len data <=? off) eqn:E1; cbn [negb check bind]; auto.
  assert (LR : len (bs_rem (bs_init data off)) = 8 * (len data - off)).
  { rewrite bs_rem_len by (apply bs_init_inv; auto; lia). cbn [bs_init bs_size bs_data bs_off]. lia. }
  destruct (block_loop_sound cap (bit_fuel data) 0 [] (bs_init data off)) as [E2|(out & s' & bs & E2 & X1 & X2 & X3 & X4 & X5)].
  - apply bs_init_inv; auto; lia.
  - lia.
  - cbn [bs_init bs_data] in *. lia.
  - rewrite len_nil. auto.
  - unfold bit_fuel, len in *. lia.
  - rewrite E2. auto.
  - rewrite E2. cbn [bind].
    assert (Bo : bytes out).
    { destruct X5 as [X5|(X5 & _)]; [eapply stream_bytes|eapply open_bytes]; eauto; constructor. }
    cbn [bs_init bs_data] in X4.
    pose proof (bs_off_rem s' X3) as OF. rewrite X4 in OF. rewrite bs_init_rem in X2.
    assert (OR : bs_off s' <= len data /\ 0 <= bs_off s').
    { destruct X3 as ((_ & _ & Y & _) & _). rewrite X4 in Y. lia. }
    destruct (4 <=? len data - bs_off s') eqn:E4.
    + rewrite unread_none by auto. cbn [bind]. unfold rd_be. rewrite rd_in by lia. cbn [bind].
      rewrite adler_ok by auto. cbn [bind].
      destruct (be_val (slice data (bs_off s') 4) =? adler_ref 1 0 out) eqn:E5; cbn [check bind]; auto.
      right. exists out. split; auto. split; auto.
      exists off, bs, (bs_rem s'). split; [auto|]. split; [lia|]. split; [auto|]. split; [tauto|].
      intros _. rewrite <- OF. lia.
    + right. exists out. split; auto. split; auto.
      exists off, bs, (bs_rem s'). split; [auto|]. split; [lia|]. split; [auto|]. split; [tauto|].
      intros Q. exfalso. lia.
Qed.
