From Verif Require Import Base BaseLemmas Checksum ChecksumSpec.
Ltac Zify.zify_post_hook ::= Z.div_mod_to_equations.

(* ---------- Fletcher-64 ---------- *)

Lemma sum1_app a ws vs : sum1 a (ws ++ vs) = sum1 (sum1 a ws) vs.
Proof. revert a; induction ws; intros; simpl; auto. Qed.
Lemma sum2_app a b ws vs : sum2 a b (ws ++ vs) = sum2 (sum1 a ws) (sum2 a b ws) vs.
Proof. revert a b; induction ws; intros; simpl; auto. Qed.

Lemma sum1_ge a ws : Forall is_word ws -> a <= sum1 a ws.
Proof.
  revert a; induction ws as [|w ws IH]; intros a H; simpl; [lia|].
  inversion H; subst. specialize (IH (a + w) H3). unfold is_word in H2. lia.
Qed.
Lemma sum2_ge a b ws : 0 <= a -> Forall is_word ws -> b <= sum2 a b ws.
Proof.
  revert a b; induction ws as [|w ws IH]; intros a b Ha H; simpl; [lia|].
  inversion H; subst. unfold is_word in H2. specialize (IH (a + w) (b + (a + w))).
  assert (b + (a + w) <= sum2 (a + w) (b + (a + w)) ws) by (apply IH; auto; lia). lia.
Qed.

Lemma sum2_ge_sum1 a b ws : 0 <= a -> 0 <= b -> Forall is_word ws -> ws <> [] -> sum1 a ws <= sum2 a b ws.
Proof.
  revert a b; induction ws as [|w ws IH]; intros a b Ha Hb H Hn; [congruence|].
  inversion H; subst. unfold is_word in H2. simpl. destruct ws as [|w' ws].
  - simpl. lia.
  - apply IH; auto; try lia. congruence.
Qed.

Lemma fletcher_loop_words ws : forall a b,
  0 <= a -> 0 <= b -> Forall is_word ws -> sum1 a ws < 2 ^ 64 -> sum2 a b ws < 2 ^ 64 ->
  fletcher64_loop (words_bytes ws) a b = Ok (sum1 a ws, sum2 a b ws).
Proof.
  induction ws as [|w ws IH]; intros a b Ha Hb H H1 H2; [reflexivity|].
  inversion H; subst. change (words_bytes (w :: ws)) with (le_enc 4 w ++ words_bytes ws).
  cbn [le_enc app]. cbn [fletcher64_loop].
  change ([w mod 256; w / 256 mod 256; w / 256 / 256 mod 256; w / 256 / 256 / 256 mod 256])
    with (le_enc 4 w).
  rewrite le_val_enc by (unfold is_word in H4; simpl; lia).
  unfold is_word in H4. cbn [sum1 sum2] in *.
  pose proof (sum1_ge (a + w) ws H5).
  assert (b + (a + w) <= sum2 (a + w) (b + (a + w)) ws) by (apply sum2_ge; auto; lia).
  unfold w64. rewrite (Z.mod_small (a + w)) by lia. rewrite (Z.mod_small (b + (a + w))) by lia.
  apply IH; auto; lia.
Qed.

Lemma sum1_upper a ws : Forall is_word ws -> sum1 a ws <= a + len ws * (2 ^ 32 - 1).
Proof.
  revert a; induction ws as [|w ws IH]; intros a H; [simpl; unfold len; simpl; lia|].
  inversion H; subst. specialize (IH (a + w) H3). unfold is_word in H2.
  rewrite len_cons. simpl sum1. lia.
Qed.

Lemma sum2_upper ws : forall a b, 0 <= a -> Forall is_word ws ->
  2 * sum2 a b ws <= 2 * b + 2 * len ws * a + len ws * (len ws + 1) * (2 ^ 32 - 1).
Proof.
  induction ws as [|w ws IH]; intros a b Ha H; [unfold len; simpl; lia|].
  inversion H; subst. unfold is_word in H2. cbn [sum2].
  specialize (IH (a + w) (b + (a + w))). rewrite len_cons.
  assert (0 <= len ws) by apply len_nonneg.
  assert (2 * sum2 (a + w) (b + (a + w)) ws <=
    2 * (b + (a + w)) + 2 * len ws * (a + w) + len ws * (len ws + 1) * (2 ^ 32 - 1)) by (apply IH; auto; lia).
  assert (len ws * w <= len ws * (2 ^ 32 - 1)) by (apply Z.mul_le_mono_nonneg_l; lia).
  nia.
Qed.

Lemma fletcher_no_overflow ws a b : Forall is_word ws -> len ws <= 92680 ->
  0 <= a < 2 ^ 32 -> 0 <= b < 2 ^ 32 ->
  0 <= sum1 a ws < 2 ^ 64 /\ 0 <= sum2 a b ws < 2 ^ 64.
Proof.
  intros H Hn Ha Hb.
  pose proof (sum1_upper a ws H). pose proof (sum1_ge a ws H).
  pose proof (sum2_upper ws a b (proj1 Ha) H). pose proof (sum2_ge a b ws (proj1 Ha) H).
  pose proof (len_nonneg ws).
  split; [nia|].
  assert (len ws * a <= 92680 * (2 ^ 32 - 1)) by nia.
  assert (len ws * (len ws + 1) <= 92680 * 92681) by nia.
  nia.
Qed.

Lemma fletcher_closes_unique a b ws c0 c1 d0 d1 :
  fletcher_closes a b ws c0 c1 -> fletcher_closes a b ws d0 d1 -> c0 = d0 /\ c1 = d1.
Proof.
  unfold fletcher_closes, fl_modulus. rewrite !sum1_app, !sum2_app. cbn [sum1 sum2].
  generalize (sum1 a ws) as L, (sum2 a b ws) as U. intros L U (A1 & A2 & A3 & A4) (B1 & B2 & B3 & B4).
  assert (c0 = d0); [|split; [assumption|]]; lia.
Qed.

Lemma words_bytes_len ws : len (words_bytes ws) = 4 * len ws.
Proof.
  induction ws as [|w ws IH]; [reflexivity|].
  change (words_bytes (w :: ws)) with (le_enc 4 w ++ words_bytes ws).
  rewrite len_app, le_enc_len, IH, len_cons. lia.
Qed.

Lemma words_bytes_app a b : words_bytes (a ++ b) = words_bytes a ++ words_bytes b.
Proof. unfold words_bytes. rewrite map_app, concat_app. reflexivity. Qed.

Lemma calc_fletcher_words ws init : Forall is_word ws -> len ws <= 92680 -> 0 <= init < 2 ^ 64 ->
  exists c0 c1, calculate_fletcher64 (words_bytes ws) init = Ok (c0 + 2 ^ 32 * c1) /\
    fletcher_closes (init mod 2 ^ 32) (init / 2 ^ 32) ws c0 c1.
Proof.
  intros H Hn Hi. unfold calculate_fletcher64.
  rewrite words_bytes_len. rewrite Z.mul_comm, Z_mod_mult. cbn [Z.eqb check bind].
  change 0xffffffff with (Z.ones 32). rewrite !Z.land_ones by lia.
  rewrite Z.shiftr_div_pow2 by lia.
  rewrite (Z.mod_small (init / 2 ^ 32)) by (change (2 ^ 64) with (2 ^ 32 * 2 ^ 32) in Hi; lia).
  destruct (fletcher_no_overflow ws (init mod 2 ^ 32) (init / 2 ^ 32) H Hn) as [B1 B2];
    [apply Z.mod_pos_bound; lia| split; [apply Z.div_pos; lia|change (2 ^ 64) with (2 ^ 32 * 2 ^ 32) in Hi; apply Z.div_lt_upper_bound; lia] |].
  rewrite fletcher_loop_words; try lia; auto.
  cbn [bind].
  set (L := sum1 (init mod 2 ^ 32) ws) in *. set (U := sum2 (init mod 2 ^ 32) (init / 2 ^ 32) ws) in *.
  change (Z.ones 32) with (2 ^ 32 - 1). unfold w32, fl_modulus.
  set (c0 := (2 ^ 32 - 1 - (L mod (2 ^ 32 - 1) + U mod (2 ^ 32 - 1)) mod (2 ^ 32 - 1))).
  assert (0 < c0 <= 2 ^ 32 - 1) as Hc0 by (unfold c0; lia).
  rewrite (Z.mod_small c0) by lia.
  set (c1 := (2 ^ 32 - 1 - (L mod (2 ^ 32 - 1) + c0) mod (2 ^ 32 - 1))).
  assert (0 < c1 <= 2 ^ 32 - 1) as Hc1 by (unfold c1; lia).
  exists c0, c1. split.
  - f_equal. rewrite Z.lor_comm, lor_shift_add by lia. rewrite Z.shiftl_mul_pow2 by lia.
    unfold w64. rewrite Z.mod_small; lia.
  - unfold fletcher_closes, fl_modulus. rewrite sum1_app, sum2_app. cbn [sum1 sum2]. fold L U.
    clearbody L U. clear H Hn Hi.
    repeat split; try lia; unfold c1; unfold c0; clear Hc1 Hc0 c1; clear c0; lia.
Qed.

(* Every buffer with a multiple of 4 bytes is a serialisation of words. *)
Lemma bytes_words b : bytes b -> len b mod 4 = 0 ->
  exists ws, Forall is_word ws /\ b = words_bytes ws.
Proof.
  intros Hb Hl. assert (exists n, length b = (4 * n)%nat) as (n & Hn).
  { exists (Z.to_nat (len b / 4)). unfold len in *. lia. }
  clear Hl. revert b Hb Hn. induction n as [|n IH]; intros b Hb Hn.
  - destruct b; [exists []; split; [constructor|reflexivity]|simpl in Hn; lia].
  - destruct b as [|b0 [|b1 [|b2 [|b3 r]]]]; simpl in Hn; try lia.
    do 4 (apply bytes_cons in Hb; destruct Hb as [? Hb]).
    destruct (IH r Hb) as (ws & Hw & ->); [lia|].
    exists (le_val [b0; b1; b2; b3] :: ws). split.
    + constructor; auto. unfold is_word, is_byte in *. cbn [le_val]. lia.
    + change (words_bytes (?w :: ws)) with (le_enc 4 w ++ words_bytes ws).
      change (le_enc 4) with (le_enc (length [b0; b1; b2; b3])).
      rewrite (le_enc_val [b0; b1; b2; b3]); [reflexivity|]. repeat constructor; auto; unfold is_byte in *; lia.
Qed.

Lemma fletcher64_correct b init :
  bytes b -> len b mod 4 = 0 -> len b <= 4 * 92680 -> 0 <= init < 2 ^ 64 ->
  exists ws c0 c1, b = words_bytes ws /\ Forall is_word ws /\
    calculate_fletcher64 b init = Ok (c0 + 2 ^ 32 * c1) /\
    fletcher_closes (init mod 2 ^ 32) (init / 2 ^ 32) ws c0 c1 /\
    (forall d0 d1, fletcher_closes (init mod 2 ^ 32) (init / 2 ^ 32) ws d0 d1 -> d0 = c0 /\ d1 = c1).
Proof.
  intros Hb Hm Hn Hi. destruct (bytes_words b Hb Hm) as (ws & Hw & ->).
  rewrite words_bytes_len in Hn.
  destruct (calc_fletcher_words ws init Hw) as (c0 & c1 & E & C); [lia|auto|].
  exists ws, c0, c1. do 4 (split; [assumption || reflexivity|]).
  intros d0 d1 D. destruct (fletcher_closes_unique _ _ _ _ _ _ _ D C); auto.
Qed.

Lemma fletcher64_misaligned b init : len b mod 4 <> 0 -> calculate_fletcher64 b init = Fail.
Proof. intros H. unfold calculate_fletcher64. replace (len b mod 4 =? 0) with false by lia. reflexivity. Qed.

(* Single word error detection. *)
Lemma sum1_shift a d ws : sum1 (a + d) ws = sum1 a ws + d.
Proof. revert a; induction ws as [|w ws IH]; intros; simpl; auto. rewrite <- IH. f_equal. lia. Qed.

Lemma fletcher_closes_mod1 a b ws c0 c1 : fletcher_closes a b ws c0 c1 ->
  (sum1 a ws + c0 + c1) mod fl_modulus = 0.
Proof. unfold fletcher_closes. rewrite sum1_app. cbn [sum1]. tauto. Qed.

Lemma fletcher_word_change pre post w v init :
  Forall is_word pre -> Forall is_word post -> is_word w -> is_word v ->
  len pre + 1 + len post <= 92680 -> 0 <= init < 2 ^ 64 ->
  calculate_fletcher64 (words_bytes (pre ++ [w] ++ post)) init =
  calculate_fletcher64 (words_bytes (pre ++ [v] ++ post)) init ->
  w = v \/ (w = 0 /\ v = 2 ^ 32 - 1) \/ (w = 2 ^ 32 - 1 /\ v = 0).
Proof.
  intros Hp Hq Hw Hv Hn Hi E.
  destruct (calc_fletcher_words (pre ++ [w] ++ post) init) as (c0 & c1 & E1 & C1); auto.
  { apply Forall_app; split; auto. constructor; auto. }
  { rewrite !len_app, len_cons, len_nil. lia. }
  destruct (calc_fletcher_words (pre ++ [v] ++ post) init) as (d0 & d1 & E2 & C2); auto.
  { apply Forall_app; split; auto. constructor; auto. }
  { rewrite !len_app, len_cons, len_nil. lia. }
  rewrite E1, E2 in E. assert (c0 + 2 ^ 32 * c1 = d0 + 2 ^ 32 * d1) as E' by congruence.
  assert (c0 = d0 /\ c1 = d1) as [-> ->].
  { destruct C1 as (X1 & X2 & _), C2 as (Y1 & Y2 & _). unfold fl_modulus in *.
    clear - X1 X2 Y1 Y2 E'. change (2 ^ 32) with 4294967296 in *. split; lia. }
  apply fletcher_closes_mod1 in C1, C2. revert C1 C2.
  rewrite !sum1_app. cbn [app sum1].
  rewrite (sum1_shift _ w post), (sum1_shift _ v post).
  generalize (sum1 (sum1 (init mod 2 ^ 32) pre) post) as L. intros L C1 C2.
  unfold is_word, fl_modulus in *. lia.
Qed.

(* ---------- CRC ---------- *)

Lemma crc_table_bit_feed poly c : 0 <= c -> crc_table_bit poly c = crc_feed_bit poly c false.
Proof.
  intros Hc. unfold crc_table_bit, crc_feed_bit. rewrite xorb_false_r.
  change 1 with (Z.ones 1) at 1. rewrite Z.land_ones by lia. change (2 ^ 1) with 2.
  rewrite (Zmod_odd c). destruct (Z.odd c); simpl; auto. apply Z.lxor_comm.
Qed.

Lemma feed_bit_xor poly r k b : 0 <= r -> (b = Z.odd k) -> 0 <= k ->
  crc_feed_bit poly r b = Z.lxor (crc_feed_bit poly (Z.lxor r (if b then 1 else 0)) false) 0.
Proof.
  intros Hr -> Hk. rewrite Z.lxor_0_r. unfold crc_feed_bit. rewrite xorb_false_r.
  assert (Z.odd (Z.lxor r (if Z.odd k then 1 else 0)) = xorb (Z.odd r) (Z.odd k)) as E1.
  { rewrite <- !Z.bit0_odd, Z.lxor_spec. f_equal. rewrite !Z.bit0_odd. destruct (Z.odd k); reflexivity. }
  assert (Z.shiftr (Z.lxor r (if Z.odd k then 1 else 0)) 1 = Z.shiftr r 1) as E2.
  { rewrite Z.shiftr_lxor. destruct (Z.odd k); simpl; rewrite ?Z.lxor_0_r; reflexivity. }
  rewrite E1, E2. reflexivity.
Qed.

(* One bit with the remaining data xored into the register. *)
Lemma feed_bit_pre poly r k : 0 <= r -> 0 <= k ->
  crc_feed_bit poly (Z.lxor r k) false = Z.lxor (crc_feed_bit poly r (Z.odd k)) (Z.shiftr k 1).
Proof.
  intros Hr Hk. unfold crc_feed_bit. rewrite xorb_false_r.
  assert (Z.odd (Z.lxor r k) = xorb (Z.odd r) (Z.odd k)) as E1.
  { rewrite <- !Z.bit0_odd, Z.lxor_spec. reflexivity. }
  rewrite E1, Z.shiftr_lxor. destruct (xorb (Z.odd r) (Z.odd k)); auto.
  rewrite !Z.lxor_assoc. f_equal. apply Z.lxor_comm.
Qed.

Fixpoint feed_n (poly : Z) (n : nat) (r k : Z) : Z :=
  match n with O => r | S m => feed_n poly m (crc_feed_bit poly r (Z.odd k)) (Z.shiftr k 1) end.

Lemma crc_feed_bit_nonneg poly r b : 0 <= poly -> 0 <= r -> 0 <= crc_feed_bit poly r b.
Proof.
  intros. unfold crc_feed_bit. assert (0 <= Z.shiftr r 1) by (apply Z.shiftr_nonneg; auto).
  destruct (xorb _ _); auto. apply Z.lxor_nonneg; split; auto.
Qed.

Lemma table_bits_feed poly n : forall r k, 0 <= poly -> 0 <= r -> 0 <= k ->
  crc_table_bits n poly (Z.lxor r k) = Z.lxor (feed_n poly n r k) (Z.shiftr k (Z.of_nat n)).
Proof.
  induction n as [|n IH]; intros r k Hp Hr Hk.
  - simpl. rewrite Z.shiftr_0_r. reflexivity.
  - cbn [crc_table_bits feed_n].
    rewrite crc_table_bit_feed by (apply Z.lxor_nonneg; tauto).
    rewrite feed_bit_pre by auto. rewrite IH; auto.
    + rewrite Z.shiftr_shiftr by lia. do 2 f_equal. lia.
    + apply crc_feed_bit_nonneg; auto.
    + apply Z.shiftr_nonneg; auto.
Qed.

Lemma feed_n_byte poly r b : is_byte b ->
  feed_n poly 8 r b = fold_left (crc_feed_bit poly) (byte_bits b) r.
Proof.
  intros Hb. unfold byte_bits. cbn [seq map fold_left feed_n].
  rewrite <- !Z.bit0_odd. rewrite !Z.shiftr_spec by lia. reflexivity.
Qed.

(* Table steps on x with high part: linearity in the upper bits. *)
Lemma table_bit_linear_hi poly x h : 0 <= x -> 0 <= h ->
  crc_table_bit poly (Z.lxor x (Z.shiftl h 1)) = Z.lxor (crc_table_bit poly x) h.
Proof.
  intros Hx Hh. rewrite !crc_table_bit_feed; auto; [|apply Z.lxor_nonneg; split; auto; intros; apply Z.shiftl_nonneg; auto].
  rewrite feed_bit_pre by (auto; apply Z.shiftl_nonneg; auto).
  assert (Z.odd (Z.shiftl h 1) = false) as ->.
  { rewrite <- Z.bit0_odd. apply Z.shiftl_spec_low; lia. }
  rewrite Z.shiftr_shiftl_l by lia. simpl. reflexivity.
Qed.

Lemma crc_table_bit_nonneg poly r : 0 <= poly -> 0 <= r -> 0 <= crc_table_bit poly r.
Proof. intros. rewrite crc_table_bit_feed by auto. apply crc_feed_bit_nonneg; auto. Qed.

Lemma table_bits_linear_hi poly n : forall x h, 0 <= poly -> 0 <= x -> 0 <= h ->
  crc_table_bits n poly (Z.lxor x (Z.shiftl h (Z.of_nat n))) = Z.lxor (crc_table_bits n poly x) h.
Proof.
  induction n as [|n IH]; intros x h Hp Hx Hh.
  - cbn [crc_table_bits]. change (Z.of_nat 0) with 0. rewrite Z.shiftl_0_r. reflexivity.
  - cbn [crc_table_bits].
    replace (Z.shiftl h (Z.of_nat (S n))) with (Z.shiftl (Z.shiftl h (Z.of_nat n)) 1)
      by (rewrite Z.shiftl_shiftl by lia; f_equal; lia).
    rewrite table_bit_linear_hi by (auto; apply Z.shiftl_nonneg; auto).
    apply IH; auto. apply crc_table_bit_nonneg; auto.
Qed.

Lemma split_low8 r : 0 <= r -> r = Z.lxor (Z.land r 255) (Z.shiftl (Z.shiftr r 8) 8).
Proof.
  intros Hr. apply Z.bits_inj'. intros n Hn. rewrite Z.lxor_spec, Z.land_spec.
  change 255 with (Z.ones 8).
  destruct (Z.lt_ge_cases n 8).
  - rewrite Z.ones_spec_low by lia. rewrite Z.shiftl_spec_low by lia.
    rewrite andb_true_r, xorb_false_r. reflexivity.
  - rewrite Z.ones_spec_high by lia. rewrite andb_false_r, Z.shiftl_spec by lia.
    rewrite Z.shiftr_spec by lia. replace (n - 8 + 8) with n by lia. destruct (Z.testbit r n); reflexivity.
Qed.

(* One byte step of the table algorithm equals 8 bit-serial steps. *)
Lemma crc_byte_step poly r b : 0 <= poly -> 0 <= r -> is_byte b ->
  Z.lxor (crc_table_bits 8 poly (Z.land (Z.lxor r b) 255)) (Z.shiftr r 8)
  = fold_left (crc_feed_bit poly) (byte_bits b) r.
Proof.
  intros Hp Hr Hb. rewrite <- feed_n_byte by auto.
  assert (0 <= b) by (unfold is_byte in Hb; lia).
  pose proof (table_bits_feed poly 8 r b Hp Hr H) as T.
  assert (Z.shiftr b (Z.of_nat 8) = 0) as E0.
  { change (Z.of_nat 8) with 8. rewrite Z.shiftr_div_pow2 by lia. unfold is_byte in Hb. apply Z.div_small. simpl; lia. }
  rewrite E0, Z.lxor_0_r in T. rewrite <- T.
  assert (0 <= Z.lxor r b) by (apply Z.lxor_nonneg; tauto).
  rewrite (split_low8 (Z.lxor r b)) at 2 by auto.
  change (Z.shiftl (Z.shiftr (Z.lxor r b) 8) 8) with (Z.shiftl (Z.shiftr (Z.lxor r b) 8) (Z.of_nat 8)).
  rewrite table_bits_linear_hi; auto; [| apply Z.land_nonneg; auto | apply Z.shiftr_nonneg; auto].
  f_equal. rewrite Z.shiftr_lxor. change (Z.of_nat 8) with 8 in E0. rewrite E0, Z.lxor_0_r. reflexivity.
Qed.

Lemma crc32_table_get poly i : 0 <= i < 256 -> getb (crc32_table poly) i = Ok (crc_table_bits 8 poly i).
Proof.
  intros Hi. unfold getb.
  assert (len (crc32_table poly) = 256) as -> by (unfold len, crc32_table; rewrite map_length, seq_length; reflexivity).
  replace ((0 <=? i) && (i <? 256)) with true by lia.
  unfold crc32_table. rewrite (map_nth_error _ _ _ (d := Z.to_nat i)).
  - rewrite Z2Nat.id by lia. reflexivity.
  - rewrite nth_error_nth' with (d := O) by (rewrite seq_length; lia). rewrite seq_nth by lia. reflexivity.
Qed.

Lemma weak_crc32_correct data : forall reg, bytes data -> 0 <= reg ->
  calculate_weak_crc32 data reg = Ok (crc_bitwise castagnoli_reflected reg data).
Proof.
  unfold calculate_weak_crc32, crc_bitwise.
  replace castagnoli_reflected with 0x82f63b78 by (vm_compute; reflexivity).
  induction data as [|b data IH]; intros reg Hd Hr; [reflexivity|].
  apply bytes_cons in Hd. destruct Hd as [Hb Hd].
  cbn [weak_crc32_loop flat_map]. rewrite fold_left_app.
  assert (0 <= Z.land (Z.lxor reg b) 255 < 256).
  { change 255 with (Z.ones 8). rewrite Z.land_ones by lia. apply Z.mod_pos_bound. lia. }
  rewrite crc32_table_get by auto. cbn [bind].
  rewrite crc_byte_step; auto; [|lia].
  apply IH; auto.
  rewrite <- feed_n_byte by auto.
  assert (forall n r k, 0 <= r -> 0 <= feed_n 0x82f63b78 n r k) as P.
  { clear. induction n; intros r k Hr; simpl; auto. apply IHn. apply crc_feed_bit_nonneg; lia. }
  apply P; auto.
Qed.

Lemma weak_crc32_split a b reg : bytes a -> bytes b -> 0 <= reg ->
  calculate_weak_crc32 (a ++ b) reg =
  bind (calculate_weak_crc32 a reg) (fun c => calculate_weak_crc32 b c).
Proof.
  intros Ha Hb Hr. unfold calculate_weak_crc32. generalize (crc32_table 0x82f63b78) as t. intros t.
  clear Ha Hb Hr. revert reg. induction a as [|x a IH]; intros reg; [reflexivity|].
  cbn [app weak_crc32_loop]. destruct (getb _ _); simpl; auto.
Qed.

(* ---------- Adler-32 ---------- *)

Definition adler_step '(a, b) (d : Z) : Z * Z := ((a + d) mod 65521, (b + (a + d)) mod 65521).

Lemma adler32_reduce_mod x : 0 <= x < 2 ^ 32 -> adler32_reduce x = x mod 65521.
Proof.
  intros Hx. unfold adler32_reduce.
  change 0xffff with (Z.ones 16). rewrite !Z.land_ones by lia.
  rewrite !Z.shiftr_div_pow2, !Z.shiftl_mul_pow2 by lia.
  change (2 ^ 16) with 65536. change (2 ^ 4) with 16. unfold w32. change (2 ^ 32) with 4294967296 in *.
  set (v := x / 65536). set (m := x mod 65536).
  assert (x = 65536 * v + m) by (unfold v, m; apply Z.div_mod; lia).
  assert (0 <= m < 65536) by (apply Z.mod_pos_bound; lia).
  assert (0 <= v < 65536) by (unfold v; split; [apply Z.div_pos; lia|apply Z.div_lt_upper_bound; lia]).
  rewrite (Z.mod_small (m + (v * 16 - v))) by lia.
  set (x1 := m + (v * 16 - v)).
  set (v1 := x1 / 65536). set (m1 := x1 mod 65536).
  assert (x1 = 65536 * v1 + m1) by (unfold v1, m1; apply Z.div_mod; lia).
  assert (0 <= m1 < 65536) by (apply Z.mod_pos_bound; lia).
  assert (0 <= v1 < 16) by (unfold v1; split; [apply Z.div_pos; lia|apply Z.div_lt_upper_bound; lia]).
  rewrite (Z.mod_small (m1 + (v1 * 16 - v1))) by lia.
  clearbody v m v1 m1.
  assert (x mod 65521 = x1 mod 65521) as ->.
  { replace x with (x1 + v * 65521) by lia. apply Z_mod_plus_full. }
  assert (x1 mod 65521 = (m1 + (v1 * 16 - v1)) mod 65521) as Ex.
  { replace x1 with (m1 + (v1 * 16 - v1) + v1 * 65521) by lia. apply Z_mod_plus_full. }
  destruct (Z.ltb_spec 65521 x1).
  - rewrite Ex. clear Ex.
    destruct (Z.leb_spec 65521 (m1 + (v1 * 16 - v1))).
    + replace (m1 + (v1 * 16 - v1)) with ((m1 + (v1 * 16 - v1) - 65521) + 1 * 65521) at 2 by lia.
      rewrite Z_mod_plus_full. rewrite Z.mod_small; lia.
    + rewrite Z.mod_small; lia.
  - destruct (Z.leb_spec 65521 x1).
    + assert (x1 = 65521) as -> by lia. reflexivity.
    + rewrite Z.mod_small; lia.
Qed.

(* exact sums *)
Lemma adler_acc_exact data : forall l u, bytes data -> 0 <= l -> 0 <= u ->
  sum1 l data < 2 ^ 32 -> sum2 l u data < 2 ^ 32 ->
  adler32_acc data l u = (sum1 l data, sum2 l u data).
Proof.
  induction data as [|d data IH]; intros l u Hd Hl Hu H1 H2; [reflexivity|].
  apply bytes_cons in Hd. destruct Hd as [Hb Hd]. unfold is_byte in Hb.
  assert (Forall is_word data) as Hw.
  { eapply Forall_impl; [|exact Hd]. unfold is_byte, is_word; intros; lia. }
  cbn [adler32_acc sum1 sum2] in *.
  pose proof (sum1_ge (l + d) data Hw).
  assert (u + (l + d) <= sum2 (l + d) (u + (l + d)) data) by (apply sum2_ge; auto; lia).
  unfold w32. rewrite (Z.mod_small (l + d)) by lia. rewrite (Z.mod_small (u + (l + d))) by lia.
  apply IH; auto; lia.
Qed.

Lemma sum1_upper_b a data : bytes data -> sum1 a data <= a + len data * 255.
Proof.
  revert a; induction data as [|w ws IH]; intros a H; [simpl; unfold len; simpl; lia|].
  apply bytes_cons in H. destruct H as [Hb H]. specialize (IH (a + w) H). unfold is_byte in Hb.
  rewrite len_cons. simpl sum1. lia.
Qed.
Lemma sum2_upper_b ws : forall a b, 0 <= a -> bytes ws ->
  2 * sum2 a b ws <= 2 * b + 2 * len ws * a + len ws * (len ws + 1) * 255.
Proof.
  induction ws as [|w ws IH]; intros a b Ha H; [unfold len; simpl; lia|].
  apply bytes_cons in H. destruct H as [Hb H]. unfold is_byte in Hb. cbn [sum2].
  rewrite len_cons. assert (0 <= len ws) by apply len_nonneg.
  assert (2 * sum2 (a + w) (b + (a + w)) ws <=
    2 * (b + (a + w)) + 2 * len ws * (a + w) + len ws * (len ws + 1) * 255) by (apply IH; auto; lia).
  assert (len ws * w <= len ws * 255) by (apply Z.mul_le_mono_nonneg_l; lia).
  nia.
Qed.

Lemma adler_bounds data l u : bytes data -> len data <= 5552 -> 0 <= l < 65536 -> 0 <= u < 65536 ->
  0 <= sum1 l data < 2 ^ 32 /\ 0 <= sum2 l u data < 2 ^ 32.
Proof.
  intros Hd Hn Hl Hu.
  assert (Forall is_word data) as Hw.
  { eapply Forall_impl; [|exact Hd]. unfold is_byte, is_word; intros; lia. }
  pose proof (sum1_upper_b l data Hd). pose proof (sum1_ge l data Hw).
  pose proof (sum2_upper_b data l u (proj1 Hl) Hd). pose proof (sum2_ge l u data (proj1 Hl) Hw).
  pose proof (len_nonneg data). split; [lia|].
  assert (len data * l <= 5552 * 65535) by nia.
  assert (len data * (len data + 1) <= 5552 * 5553) by nia. lia.
Qed.

Lemma adler_fold_sums data : forall l u,
  fold_left adler_step data (l mod 65521, u mod 65521) = (sum1 l data mod 65521, sum2 l u data mod 65521).
Proof.
  induction data as [|d data IH]; intros l u; [reflexivity|].
  cbn [fold_left sum1 sum2 adler_step].
  rewrite <- IH. f_equal. f_equal; lia.
Qed.

Lemma adler_blocks_correct fuel : forall data l u,
  len data < 5552 + 5552 * Z.of_nat fuel -> bytes data -> 0 <= l < 65521 -> 0 <= u < 65521 ->
  exists pre rest l' u', data = pre ++ rest /\ len rest < 5552 /\
    adler32_blocks fuel data l u = Ok (rest, l', u') /\
    0 <= l' < 65521 /\ 0 <= u' < 65521 /\
    fold_left adler_step pre (l, u) = (l', u').
Proof.
  induction fuel as [|fuel IH]; intros data l u Hf Hd Hl Hu; cbn [adler32_blocks].
  - replace (len data <? 0x15b0) with true by lia.
    exists [], data, l, u. repeat split; auto; lia.
  - destruct (Z.ltb_spec (len data) 0x15b0).
    + exists [], data, l, u. repeat split; auto; lia.
    + set (blk := slice data 0 0x15b0). set (tl := skipn (Z.to_nat 0x15b0) data).
      assert (data = blk ++ tl) as Ed by (unfold blk, tl, slice; simpl skipn; symmetry; apply firstn_skipn).
      assert (len blk = 5552) as Hb by (apply len_slice; lia).
      assert (bytes blk) by (apply bytes_slice; auto).
      assert (bytes tl) by (unfold tl; apply Forall_skipn'; auto).
      destruct (adler_bounds blk l u) as [B1 B2]; auto; try lia.
      rewrite adler_acc_exact; auto; try lia.
      rewrite !adler32_reduce_mod by lia.
      assert (len tl < 5552 + 5552 * Z.of_nat fuel).
      { assert (len data = len blk + len tl) by (rewrite Ed at 1; apply len_app). lia. }
      destruct (IH tl (sum1 l blk mod 65521) (sum2 l u blk mod 65521)) as (pre & rest & l' & u' & E1 & E2 & E3 & E4 & E5 & E6);
        auto; try (apply Z.mod_pos_bound; lia).
      exists (blk ++ pre), rest, l', u'. repeat split; auto; try lia.
      * rewrite Ed at 1. rewrite E1, app_assoc. reflexivity.
      * rewrite fold_left_app. rewrite <- E6. f_equal.
        rewrite <- (Z.mod_small l 65521), <- (Z.mod_small u 65521) by lia.
        rewrite adler_fold_sums. rewrite !(Z.mod_small l), !(Z.mod_small u) by lia. reflexivity.
Qed.

Lemma adler32_correct data init : bytes data ->
  init mod 65536 < 65521 -> 0 <= init / 65536 < 65521 ->
  calculate_adler32 data init = Ok (adler_ref (init mod 65536) (init / 65536) data).
Proof.
  intros Hd H1 H2. unfold calculate_adler32.
  change 0xffff with (Z.ones 16). rewrite !Z.land_ones, Z.shiftr_div_pow2 by lia.
  change (2 ^ 16) with 65536. rewrite (Z.mod_small (init / 65536)) by lia.
  destruct (adler_blocks_correct (length data) data (init mod 65536) (init / 65536))
    as (pre & rest & l & u & E1 & E2 & E3 & E4 & E5 & E6); auto; try lia.
  { unfold len. lia. }
  rewrite E3. cbn [bind]. unfold adler_ref. fold adler_step.
  change (fun '(a, b) d => ((a + d) mod 65521, (b + (a + d)) mod 65521)) with adler_step.
  rewrite (Z.mod_small (init mod 65536)) by (split; [apply Z.mod_pos_bound; lia|auto]).
  rewrite (Z.mod_small (init / 65536)) by lia.
  rewrite E1, fold_left_app, E6.
  assert (bytes rest) as Hr by (rewrite E1 in Hd; apply bytes_app in Hd; tauto).
  assert (forall l2 u2, 0 <= l2 < 65521 -> 0 <= u2 < 65521 ->
     w32 (Z.lor (Z.shiftl u2 16) l2) = u2 * 65536 + l2) as W.
  { intros l2 u2 X Y. rewrite Z.lor_comm, lor_shift_add by lia. rewrite Z.shiftl_mul_pow2 by lia.
    unfold w32. rewrite Z.mod_small; change (2 ^ 16) with 65536; lia. }
  destruct (Z.ltb_spec 0 (len rest)).
  - destruct (adler_bounds rest l u) as [B1 B2]; auto; try lia.
    rewrite adler_acc_exact by (auto; lia).
    rewrite !adler32_reduce_mod by lia.
    rewrite <- (Z.mod_small l 65521) at 3 by lia. rewrite <- (Z.mod_small u 65521) at 2 by lia.
    rewrite adler_fold_sums.
    f_equal. apply W; apply Z.mod_pos_bound; lia.
  - assert (rest = []) as -> by (destruct rest; [auto|unfold len in *; simpl in *; lia]).
    cbn [fold_left]. f_equal. apply W; lia.
Qed.
