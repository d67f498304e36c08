(* Proofs about the bit reader (BitStream.v). *)
From Verif Require Import Base BaseLemmas BitStream DeflateSpec.
Ltac Zify.zify_post_hook ::= Z.div_mod_to_equations.

(* ---- bit strings ---- *)

Lemma app_eq_len {A} (a b c d : list A) : a ++ b = c ++ d -> length a = length c -> a = c /\ b = d.
Proof.
  revert c; induction a as [|x a IH]; intros [|y c] H L; simpl in *; try lia; auto.
  inversion H; subst. destruct (IH c); auto. subst; auto.
Qed.

Lemma lsb_bits_length n v : length (lsb_bits n v) = n.
Proof. revert v; induction n; intros; simpl; auto. Qed.
Lemma lsb_bits_len n v : len (lsb_bits n v) = Z.of_nat n.
Proof. unfold len; rewrite lsb_bits_length; auto. Qed.

Lemma b2z_odd v : b2z (Z.odd v) = v mod 2.
Proof. rewrite Zmod_odd. destruct (Z.odd v); auto. Qed.

Lemma pow2_succ n : 2 ^ Z.of_nat (S n) = 2 * 2 ^ Z.of_nat n.
Proof. rewrite Nat2Z.inj_succ, Z.pow_succ_r by lia. reflexivity. Qed.
Lemma pow2_pos n : 0 <= n -> 0 < 2 ^ n.
Proof. intros; apply Z.pow_pos_nonneg; lia. Qed.

Lemma lsb_val_bits n v : lsb_val (lsb_bits n v) = v mod 2 ^ Z.of_nat n.
Proof.
  revert v; induction n; intros v.
  - simpl. rewrite Z.mod_1_r. auto.
  - cbn [lsb_bits lsb_val]. rewrite IHn, b2z_odd, pow2_succ.
    pose proof (pow2_pos (Z.of_nat n)).
    rewrite Z.rem_mul_r by lia. lia.
Qed.

Lemma lsb_val_range l : 0 <= lsb_val l < 2 ^ len l.
Proof.
  unfold len. induction l as [|b l IH]; [simpl; lia|].
  cbn [lsb_val length]. rewrite pow2_succ. destruct b; cbn [b2z]; lia.
Qed.

Lemma lsb_bits_val l : lsb_bits (length l) (lsb_val l) = l.
Proof.
  induction l as [|b l IH]; auto.
  cbn [length lsb_bits lsb_val]. f_equal.
  - rewrite Z.odd_add, Z.odd_mul. simpl. destruct b; auto.
  - replace ((b2z b + 2 * lsb_val l) / 2) with (lsb_val l); auto.
    destruct b; cbn [b2z]; lia.
Qed.

Lemma lsb_bits_app n m a b : 0 <= a < 2 ^ Z.of_nat n ->
  lsb_bits (n + m) (a + 2 ^ Z.of_nat n * b) = lsb_bits n a ++ lsb_bits m b.
Proof.
  revert a; induction n; intros a H.
  - simpl Nat.add. change (2 ^ Z.of_nat 0) with 1 in *.
    replace (a + 1 * b) with b by lia. reflexivity.
  - cbn [Nat.add lsb_bits app]. rewrite pow2_succ in *. f_equal.
    + rewrite Z.odd_add, !Z.odd_mul. simpl. destruct (Z.odd a); auto.
    + rewrite <- IHn by lia. f_equal.
      pose proof (pow2_pos (Z.of_nat n)).
      replace (a + 2 * 2 ^ Z.of_nat n * b) with (a + 2 ^ Z.of_nat n * b * 2) by ring.
      rewrite Z.div_add by lia. reflexivity.
Qed.

Lemma lsb_val_app a b : lsb_val (a ++ b) = lsb_val a + 2 ^ len a * lsb_val b.
Proof.
  unfold len. induction a as [|x a IH].
  - change (2 ^ Z.of_nat (length (@nil bool))) with 1. simpl lsb_val. cbn [app]. lia.
  - cbn [app lsb_val length]. rewrite IH, pow2_succ. ring.
Qed.

Lemma byte_bits_lsb b : byte_bits b = lsb_bits 8 b.
Proof.
  unfold byte_bits. cbn [seq map lsb_bits].
  rewrite !Z.bit0_odd.
  repeat match goal with |- ?x :: _ = ?x :: _ => f_equal end.
  rewrite <- !Z.bit0_odd. rewrite <- !Z.div2_div.
  change (Z.of_nat 0) with 0. 
  assert (E : forall x k, Z.testbit (Z.div2 x) (Z.of_nat k) = Z.testbit x (Z.of_nat (S k))).
  { intros. rewrite Z.div2_spec, Z.shiftr_spec by lia. f_equal. lia. }
  pose proof (fun x => E x O) as E0. change (Z.of_nat 0) with 0 in E0.
  rewrite !E0, !E. reflexivity.
Qed.

Lemma byte_bits_length b : length (byte_bits b) = 8%nat.
Proof. reflexivity. Qed.

Lemma bits_of_len d : len (bits_of d) = 8 * len d.
Proof.
  unfold len. induction d as [|b d IH]; auto.
  unfold bits_of in *. cbn [flat_map]. rewrite app_length, byte_bits_length. simpl length. lia.
Qed.

Lemma bits_of_app a b : bits_of (a ++ b) = bits_of a ++ bits_of b.
Proof. unfold bits_of. rewrite flat_map_app. reflexivity. Qed.

Lemma byte_bits_inj a b : is_byte a -> is_byte b -> byte_bits a = byte_bits b -> a = b.
Proof.
  unfold is_byte. rewrite !byte_bits_lsb. intros Ha Hb H.
  apply (f_equal lsb_val) in H. rewrite !lsb_val_bits in H.
  change (2 ^ Z.of_nat 8) with 256 in H. rewrite !Z.mod_small in H; lia.
Qed.

Lemma bits_of_inj a b : bytes a -> bytes b -> bits_of a = bits_of b -> a = b.
Proof.
  revert b; induction a as [|x a IH]; intros [|y b] Ha Hb H; auto.
  - apply (f_equal (@length bool)) in H. simpl in H. lia.
  - apply (f_equal (@length bool)) in H. simpl in H. lia.
  - unfold bits_of in *. cbn [flat_map] in H.
    apply bytes_cons in Ha. apply bytes_cons in Hb.
    assert (E : byte_bits x = byte_bits y /\ flat_map byte_bits a = flat_map byte_bits b).
    { apply app_eq_len in H; auto. } 
    destruct E as [E1 E2]. f_equal; [apply byte_bits_inj; tauto|apply IH; tauto].
Qed.

(* ---- the bit reader ---- *)

(* Bits not yet delivered. *)
Definition bs_rem (s : bit_stream) : list bool :=
  lsb_bits (Z.to_nat (bs_size s)) (bs_buf s) ++ bits_of (skipn (Z.to_nat (bs_off s)) (bs_data s)).

Definition bs_winv (s : bit_stream) : Prop :=
  0 <= bs_size s <= 32 /\ 0 <= bs_buf s < 2 ^ bs_size s /\
  0 <= bs_off s <= len (bs_data s) /\ bytes (bs_data s).

Definition bs_inv (s : bit_stream) : Prop := bs_winv s /\ bs_size s < 8.

Lemma bs_rem_len s : bs_winv s -> len (bs_rem s) = bs_size s + 8 * (len (bs_data s) - bs_off s).
Proof.
  intros (H1 & H2 & H3 & _). unfold bs_rem. rewrite len_app, lsb_bits_len, bits_of_len.
  unfold len in *. rewrite skipn_length. lia.
Qed.

Lemma bs_init_inv data off : bytes data -> 0 <= off <= len data -> bs_inv (bs_init data off).
Proof. intros. unfold bs_inv, bs_winv, bs_init. simpl. repeat split; auto; lia. Qed.

Lemma bs_init_rem data off : bs_rem (bs_init data off) = bits_of (skipn (Z.to_nat off) data).
Proof. reflexivity. Qed.

Lemma skipn_nth {A} (l : list A) k x : nth_error l k = Some x -> skipn k l = x :: skipn (S k) l.
Proof.
  revert l; induction k; intros [|y l] H; simpl in *; try discriminate.
  - inversion H; auto.
  - apply IHk; auto.
Qed.

Lemma bytes_nth l k x : bytes l -> nth_error l k = Some x -> is_byte x.
Proof. intros H E. apply nth_error_In in E. unfold bytes in H. rewrite Forall_forall in H. auto. Qed.

Lemma fill_spec f : forall rem s, bs_winv s -> bs_size s + 8 * Z.of_nat f > 32 ->
  (bs_fill f rem s = Fail /\ len (bs_rem s) < rem) \/
  (exists s', bs_fill f rem s = Ok s' /\ bs_winv s' /\ bs_rem s' = bs_rem s /\
     bs_data s' = bs_data s /\ (rem <= bs_size s' \/ 24 < bs_size s') /\
     (bs_size s' - bs_size s) mod 8 = 0 /\ (bs_size s' = bs_size s \/ bs_size s' < rem + 8)).
Proof.
  induction f; intros rem s Hw Hf.
  - destruct Hw as ((?&?)&_). exfalso; lia.
  - cbn [bs_fill]. pose proof Hw as (Hs & Hb & Ho & Hd).
    destruct ((bs_size s <? rem) && (bs_size s <=? 24)) eqn:E.
    2:{ right. exists s. repeat split; auto; try lia. }
    destruct (bs_off s <? len (bs_data s)) eqn:L; cbn [check bind].
    2:{ left. split; auto. rewrite bs_rem_len by auto. lia. }
    destruct (getb_in (bs_data s) (bs_off s)) as (b & G & N); [lia|]. rewrite G. cbn [bind].
    assert (Hbb : is_byte b) by (eapply bytes_nth; eauto). unfold is_byte in Hbb.
    set (s1 := mk_bs _ _ _ _).
    assert (P : 0 < 2 ^ bs_size s) by (apply pow2_pos; lia).
    assert (P24 : 2 ^ bs_size s <= 2 ^ 24) by (apply Z.pow_le_mono_r; lia).
    assert (W : w32 (Z.shiftl b (bs_size s)) = Z.shiftl b (bs_size s)).
    { unfold w32. apply Z.mod_small. rewrite Z.shiftl_mul_pow2 by lia.
      change (2 ^ 32) with (256 * 2 ^ 24). nia. }
    assert (B1 : bs_buf s1 = bs_buf s + 2 ^ bs_size s * b).
    { unfold s1. cbn [bs_buf]. rewrite W, lor_shift_add by lia.
      rewrite Z.shiftl_mul_pow2 by lia. ring. }
    assert (S1 : bs_size s1 = bs_size s + 8).
    { unfold s1; cbn [bs_size]. unfold w8. change (2 ^ 8) with 256. apply Z.mod_small. lia. }
    assert (W1 : bs_winv s1).
    { unfold bs_winv. rewrite B1, S1, Z.pow_add_r by lia. change (2 ^ 8) with 256.
      unfold s1; cbn [bs_off bs_data]. repeat split; auto; try lia; nia. }
    assert (R1 : bs_rem s1 = bs_rem s).
    { unfold bs_rem. rewrite B1, S1. unfold s1; cbn [bs_off bs_data].
      replace (Z.to_nat (bs_size s + 8)) with (Z.to_nat (bs_size s) + 8)%nat by lia.
      replace (2 ^ bs_size s) with (2 ^ Z.of_nat (Z.to_nat (bs_size s))) by (f_equal; lia).
      rewrite lsb_bits_app by (rewrite Z2Nat.id by lia; lia).
      rewrite <- app_assoc. f_equal. rewrite <- byte_bits_lsb.
      rewrite (skipn_nth _ _ _ N).
      replace (Z.to_nat (bs_off s + 1)) with (S (Z.to_nat (bs_off s))) by lia. reflexivity. }
    destruct (IHf rem s1 W1) as [(F & L')|(s' & F & I1 & I2 & I3 & I4 & I5 & I6)]; [lia| |].
    + left. split; auto. rewrite <- R1; auto.
    + right. exists s'. rewrite S1 in *. split; auto. split; auto. split; [congruence|].
      split; [exact I3|]. split; [lia|]. split; lia.
Qed.

(* The widths that can be read in one piece when [size] bits are buffered. *)
Definition width_ok (size n : Z) : Prop := 0 <= n <= 24 + (if size =? 0 then 8 else size).

Lemma bs_get_spec s n : bs_inv s -> width_ok (bs_size s) n ->
  (len (bs_rem s) < n /\ bs_get s n = Fail) \/
  (n <= len (bs_rem s) /\ exists s', bs_get s n = Ok (lsb_val (firstn (Z.to_nat n) (bs_rem s)), s') /\
     bs_inv s' /\ bs_data s' = bs_data s /\ bs_rem s' = skipn (Z.to_nat n) (bs_rem s)).
Proof.
  intros (Hw & Hs8) Hn. unfold width_ok in Hn.
  assert (n <= 32) by (destruct (bs_size s =? 0) eqn:?; lia).
  unfold bs_get. replace (n <=? 32) with true by lia. cbn [check bind].
  pose proof (len_nonneg (bs_rem s)).
  destruct (Z.eq_dec n 0) as [->|Hn0].
  { right. split; [lia|]. exists s. split; [reflexivity|]. split; [split; auto|]. split; auto. }
  assert (F32 : forall v s2, bs_loop 32 n 0 v s2 = Ok (v, s2)) by reflexivity.
  revert F32. change 33%nat with (S 32). generalize 32%nat. intros f32 F32. cbn [bs_loop].
  replace (0 <? n) with true by lia.
  destruct (fill_spec 6 n s Hw) as [(F & L)|(s1 & F & W1 & R1 & D1 & Q1 & M1 & U1)].
  { destruct Hw; lia. }
  { left. rewrite F. cbn [bind]. split; auto. }
  rewrite F. cbn [bind]. right.
  assert (Hw0 := Hw). destruct Hw0 as (Hs & _). pose proof W1 as (Hs1 & Hb1 & Ho1 & Hd1).
  assert (Hge : n <= bs_size s1).
  { destruct Q1 as [Q|Q]; auto. destruct (bs_size s =? 0) eqn:E; lia. }
  rewrite <- R1. rewrite bs_rem_len in * by auto. 
  split; [lia|].
  replace (if n <? bs_size s1 then n else bs_size s1) with n by (destruct (n <? bs_size s1) eqn:?; lia).
  replace (n <? n) with false by lia.
  rewrite Z.sub_diag.
  assert (V : lsb_val (firstn (Z.to_nat n) (bs_rem s1)) = bs_buf s1 mod 2 ^ n).
  { unfold bs_rem. rewrite firstn_app, lsb_bits_length.
    replace (Z.to_nat n - Z.to_nat (bs_size s1))%nat with O by lia. rewrite firstn_O, app_nil_r.
    replace (Z.to_nat (bs_size s1)) with (Z.to_nat n + Z.to_nat (bs_size s1 - n))%nat by lia.
    pose proof (pow2_pos n ltac:(lia)).
    rewrite (Z.div_mod (bs_buf s1) (2 ^ n)) at 1 by lia. rewrite Z.add_comm.
    replace (2 ^ n) with (2 ^ Z.of_nat (Z.to_nat n)) by (f_equal; lia).
    rewrite lsb_bits_app. 2:{ apply Z.mod_pos_bound. rewrite Z2Nat.id by lia. lia. }
    rewrite firstn_app, lsb_bits_length, Nat.sub_diag, firstn_O, app_nil_r.
    rewrite firstn_all2 by (rewrite lsb_bits_length; lia).
    rewrite lsb_val_bits, Z2Nat.id by lia. rewrite Z.mod_mod; lia. }
  rewrite V.
  set (s2 := mk_bs _ _ _ _).
  exists s2.
  assert (RV : Z.lor 0 (if n <? 32 then Z.land (bs_buf s1) (Z.ones n) else bs_buf s1) = bs_buf s1 mod 2 ^ n).
  { rewrite Z.lor_0_l. destruct (n <? 32) eqn:E.
    - apply Z.land_ones; lia.
    - assert (n = 32) as -> by lia. replace (bs_size s1) with 32 in Hb1 by lia.
      symmetry; apply Z.mod_small; lia. }
  rewrite RV.
  rewrite F32.
  assert (SZ : bs_size s2 = bs_size s1 - n) by reflexivity.
  assert (BF : bs_buf s2 = bs_buf s1 / 2 ^ n).
  { unfold s2; cbn [bs_buf]. destruct (bs_size s1 - n =? 0) eqn:E.
    - symmetry. replace (bs_size s1) with n in Hb1 by lia. apply Z.div_small; lia.
    - replace (n <? 32) with true by lia. apply Z.shiftr_div_pow2. lia. }
  pose proof (pow2_pos n ltac:(lia)).
  pose proof (pow2_pos (bs_size s1 - n) ltac:(lia)).
  assert (bs_buf s1 < 2 ^ n * 2 ^ (bs_size s1 - n)).
  { rewrite <- Z.pow_add_r by lia. replace (n + (bs_size s1 - n)) with (bs_size s1) by lia. lia. }
  split; auto. split; [|split].
  - split.
    + unfold bs_winv. rewrite SZ, BF. unfold s2; cbn [bs_off bs_data].
      split; [lia|]. split; [|split; [lia|auto]].
      split; [apply Z.div_pos; lia|apply Z.div_lt_upper_bound; lia].
    + rewrite SZ. destruct U1 as [U|U]; lia.
  - auto.
  - unfold bs_rem at 1. rewrite SZ, BF. unfold s2; cbn [bs_off bs_data].
    unfold bs_rem. rewrite skipn_app, lsb_bits_length.
    replace (Z.to_nat n - Z.to_nat (bs_size s1))%nat with O by lia. rewrite skipn_O. f_equal.
    replace (Z.to_nat (bs_size s1)) with (Z.to_nat n + Z.to_nat (bs_size s1 - n))%nat by lia.
    rewrite (Z.div_mod (bs_buf s1) (2 ^ n)) at 2 by lia. rewrite Z.add_comm.
    replace (2 ^ n) with (2 ^ Z.of_nat (Z.to_nat n)) by (f_equal; lia).
    rewrite lsb_bits_app. 2:{ apply Z.mod_pos_bound. rewrite Z2Nat.id by lia. lia. }
    rewrite skipn_app, lsb_bits_length, Nat.sub_diag, skipn_O.
    rewrite skipn_all2 by (rewrite lsb_bits_length; lia). reflexivity.
Qed.

(* With size < 8 the number of buffered bits is fixed by what is left. *)
Lemma bs_size_rem s : bs_inv s -> bs_size s = len (bs_rem s) mod 8.
Proof. intros (W & H). rewrite bs_rem_len by auto. destruct W as ((?&?)&_). lia. Qed.

Lemma bs_off_rem s : bs_inv s -> bs_off s = len (bs_data s) - len (bs_rem s) / 8.
Proof. intros (W & H). rewrite bs_rem_len by auto. destruct W as ((?&?)&_). lia. Qed.

Lemma bs_get_app s n a b : bs_inv s -> width_ok (bs_size s) n -> bs_rem s = a ++ b -> len a = n ->
  exists s', bs_get s n = Ok (lsb_val a, s') /\ bs_inv s' /\ bs_data s' = bs_data s /\ bs_rem s' = b.
Proof.
  intros I W R L. destruct (bs_get_spec s n I W) as [(H & _)|(_ & s' & E & I' & D & R')].
  - rewrite R, len_app in H. pose proof (len_nonneg b). lia.
  - exists s'. rewrite E, R' , R. unfold len in L. subst n. rewrite Nat2Z.id.
    rewrite firstn_app, Nat.sub_diag, firstn_O, app_nil_r, firstn_all.
    rewrite skipn_app, Nat.sub_diag, skipn_O, skipn_all. auto.
Qed.

Lemma bs_get_inv s n v s' : bs_inv s -> width_ok (bs_size s) n -> bs_get s n = Ok (v, s') ->
  exists a, len a = n /\ v = lsb_val a /\ bs_rem s = a ++ bs_rem s' /\ bs_inv s' /\ bs_data s' = bs_data s.
Proof.
  intros I W E. destruct (bs_get_spec s n I W) as [(_ & E')|(L & s1 & E' & I' & D & R')].
  - congruence.
  - rewrite E in E'. assert (v = lsb_val (firstn (Z.to_nat n) (bs_rem s)) /\ s' = s1) as (-> & ->) by (split; congruence).
    exists (firstn (Z.to_nat n) (bs_rem s)). unfold width_ok in W.
    split. { unfold len in *. rewrite firstn_length. lia. }
    split; auto. split; auto. rewrite R'. symmetry. apply firstn_skipn.
Qed.

Lemma bs_get_safe s n : bs_inv s -> width_ok (bs_size s) n -> bs_get s n <> Oob /\ bs_get s n <> Fuel.
Proof.
  intros I W. destruct (bs_get_spec s n I W) as [(_ & ->)|(_ & s1 & -> & _)]; split; discriminate.
Qed.

Lemma width25 s n : bs_inv s -> 0 <= n <= 24 -> width_ok (bs_size s) n.
Proof. intros ((?&?)&?) H'. unfold width_ok. destruct (bs_size s =? 0); lia. Qed.

(* ---- sequences of reads ---- *)

Lemma bs_get_list_spec : forall ns s pos, bs_inv s -> (len (bs_rem s) + pos) mod 8 = 0 ->
  widths_ok pos ns ->
  match split_bits (bs_rem s) ns with
  | Some vs => exists s', bs_get_list s ns = Ok (vs, s')
  | None => bs_get_list s ns = Fail
  end.
Proof.
  induction ns as [|n ns IH]; intros s pos I M W; cbn [split_bits bs_get_list].
  - eauto.
  - destruct W as (W1 & W2).
    assert (WO : width_ok (bs_size s) n).
    { unfold width_ok. rewrite (bs_size_rem s I). destruct (len (bs_rem s) mod 8 =? 0) eqn:E; lia. }
    destruct (bs_get_spec s n I WO) as [(L & E)|(L & s' & E & I' & D & R)]; rewrite E; cbn [bind].
    + replace (n <=? len (bs_rem s)) with false by lia. auto.
    + replace (n <=? len (bs_rem s)) with true by lia.
      specialize (IH s' (pos + n) I'). rewrite <- R.
      assert (M' : (len (bs_rem s') + (pos + n)) mod 8 = 0).
      { rewrite R. unfold len in *. rewrite skipn_length.
        replace (Z.of_nat (length (bs_rem s) - Z.to_nat n) + (pos + n))
          with (Z.of_nat (length (bs_rem s)) + pos) by lia. auto. }
      specialize (IH M' W2).
      destruct (split_bits (bs_rem s') ns).
      * destruct IH as (s2 & ->). cbn [bind]. eauto.
      * rewrite IH. auto.
Qed.

(* ---- memory safety for every width ---- *)

Lemma bs_loop_safe : forall f n rem safe s, bs_winv s -> rem < Z.of_nat f -> 0 <= rem ->
  bs_loop f n rem safe s <> Oob /\ bs_loop f n rem safe s <> Fuel /\
  (forall v s', bs_loop f n rem safe s = Ok (v, s') -> bs_winv s').
Proof.
  induction f as [|f IH]; intros n rem safe s W H H0; [lia|].
  cbn [bs_loop]. destruct (0 <? rem) eqn:E.
  2:{ repeat split; try discriminate; intros; assert (s' = s) as -> by congruence; apply W. }
  assert (F6 : bs_size s + 8 * Z.of_nat 6 > 32) by (destruct W; lia).
  destruct (fill_spec 6 rem s W F6) as [(F & L)|(s1 & F & W1 & R1 & D1 & Q1 & M1 & U1)]; rewrite F; cbn [bind].
  { repeat split; discriminate. }
  pose proof W1 as (Hs1 & Hb1 & Ho1 & Hd1).
  set (rn := if rem <? bs_size s1 then rem else bs_size s1).
  assert (Hrn : 1 <= rn <= rem /\ rn <= bs_size s1).
  { unfold rn. destruct (rem <? bs_size s1) eqn:?; lia. }
  apply IH; try lia.
  unfold bs_winv. cbn [bs_size bs_buf bs_off bs_data].
  split; [lia|]. split; [|split; auto].
  pose proof (pow2_pos rn ltac:(lia)). pose proof (pow2_pos (bs_size s1 - rn) ltac:(lia)).
  destruct (bs_size s1 - rn =? 0) eqn:Z0; [lia|].
  replace (rn <? 32) with true by lia. rewrite Z.shiftr_div_pow2 by lia.
  assert (bs_buf s1 < 2 ^ rn * 2 ^ (bs_size s1 - rn)).
  { rewrite <- Z.pow_add_r by lia. replace (rn + (bs_size s1 - rn)) with (bs_size s1) by lia. lia. }
  split; [apply Z.div_pos; lia|apply Z.div_lt_upper_bound; lia].
Qed.

Lemma bs_get_list_safe : forall ns s, bs_winv s -> Forall (fun n => 0 <= n) ns ->
  bs_get_list s ns <> Oob /\ bs_get_list s ns <> Fuel.
Proof.
  induction ns as [|n ns IH]; intros s W F; cbn [bs_get_list]; [split; discriminate|].
  apply Forall_cons_iff in F. destruct F as (Hn & F). unfold bs_get.
  destruct (n <=? 32) eqn:E; cbn [check bind]; [|split; discriminate].
  pose proof (bs_loop_safe 33 n n 0 s W ltac:(lia) Hn) as (B1 & B2 & B3).
  destruct (bs_loop 33 n n 0 s) as [[v s1]| | |]; try congruence; cbn [bind]; [|split; discriminate].
  destruct (IH s1 (B3 v s1 eq_refl) F) as (C1 & C2).
  destruct (bs_get_list s1 ns) as [[vs s2]| | |]; cbn [bind]; split; congruence || discriminate.
Qed.
