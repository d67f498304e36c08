From Verif Require Import Base.

Lemma len_nonneg {A} (l : list A) : 0 <= len l.
Proof. unfold len; lia. Qed.

Lemma len_app {A} (a b : list A) : len (a ++ b) = len a + len b.
Proof. unfold len; rewrite app_length; lia. Qed.

Lemma len_cons {A} (x : A) l : len (x :: l) = 1 + len l.
Proof. unfold len; simpl length; lia. Qed.

Lemma len_nil {A} : len (@nil A) = 0.
Proof. reflexivity. Qed.

Lemma bind_ok {A B} (r : res A) (f : A -> res B) b :
  bind r f = Ok b -> exists a, r = Ok a /\ f a = Ok b.
Proof. destruct r; simpl; try discriminate; eauto. Qed.

Lemma bind_not_oob {A B} (r : res A) (f : A -> res B) :
  r <> Oob -> (forall a, r = Ok a -> f a <> Oob) -> bind r f <> Oob.
Proof. destruct r; simpl; intros H1 H2; try discriminate; auto. Qed.

Lemma bind_not_fuel {A B} (r : res A) (f : A -> res B) :
  r <> Fuel -> (forall a, r = Ok a -> f a <> Fuel) -> bind r f <> Fuel.
Proof. destruct r; simpl; intros H1 H2; try discriminate; auto. Qed.

Lemma check_not_oob b : check b <> Oob.
Proof. destruct b; discriminate. Qed.
Lemma check_not_fuel b : check b <> Fuel.
Proof. destruct b; discriminate. Qed.
Lemma check_ok b u : check b = Ok u -> b = true.
Proof. destruct b; [reflexivity|discriminate]. Qed.

Lemma getb_in {A} (l : list A) i : 0 <= i < len l -> exists x, getb l i = Ok x /\ nth_error l (Z.to_nat i) = Some x.
Proof.
  intros H. unfold getb.
  replace ((0 <=? i) && (i <? len l)) with true by lia.
  destruct (nth_error l (Z.to_nat i)) eqn:E; eauto.
  apply nth_error_None in E. unfold len in H. lia.
Qed.

Lemma getb_ok {A} (l : list A) i x : getb l i = Ok x -> 0 <= i < len l /\ nth_error l (Z.to_nat i) = Some x.
Proof.
  unfold getb. destruct ((0 <=? i) && (i <? len l)) eqn:E; try discriminate.
  destruct (nth_error l (Z.to_nat i)) eqn:F; try discriminate.
  intros H; inversion H; subst. split; [lia|auto].
Qed.

Lemma getb_not_oob {A} (l : list A) i : 0 <= i < len l -> getb l i <> Oob.
Proof. intros H; destruct (getb_in l i H) as (x & -> & _); discriminate. Qed.

Lemma getb_not_fuel {A} (l : list A) i : getb l i <> Fuel.
Proof. unfold getb. destruct (_ && _); [destruct nth_error|]; discriminate. Qed.
Lemma getb_not_fail {A} (l : list A) i : getb l i <> Fail.
Proof. unfold getb. destruct (_ && _); [destruct nth_error|]; discriminate. Qed.

Lemma rd_in {A} (l : list A) off n : 0 <= off -> 0 <= n -> off + n <= len l -> rd l off n = Ok (slice l off n).
Proof. intros. unfold rd. replace ((0 <=? off) && (0 <=? n) && (off + n <=? len l)) with true by lia. reflexivity. Qed.

Lemma rd_ok {A} (l : list A) off n s : rd l off n = Ok s -> 0 <= off /\ 0 <= n /\ off + n <= len l /\ s = slice l off n.
Proof.
  unfold rd. destruct ((0 <=? off) && (0 <=? n) && (off + n <=? len l)) eqn:E; try discriminate.
  intros H; inversion H; subst. repeat split; lia.
Qed.

Lemma rd_not_fuel {A} (l : list A) off n : rd l off n <> Fuel.
Proof. unfold rd. destruct (_ && _); discriminate. Qed.
Lemma rd_not_fail {A} (l : list A) off n : rd l off n <> Fail.
Proof. unfold rd. destruct (_ && _); discriminate. Qed.
Lemma rd_not_oob {A} (l : list A) off n : 0 <= off -> 0 <= n -> off + n <= len l -> rd l off n <> Oob.
Proof. intros; rewrite rd_in by auto; discriminate. Qed.

Lemma rd_le_in n l off : 0 <= off -> 0 <= n -> off + n <= len l -> rd_le n l off = Ok (le_val (slice l off n)).
Proof. intros. unfold rd_le. rewrite rd_in by auto. reflexivity. Qed.
Lemma rd_le_not_oob n l off : 0 <= off -> 0 <= n -> off + n <= len l -> rd_le n l off <> Oob.
Proof. intros; rewrite rd_le_in by auto; discriminate. Qed.
Lemma rd_le_not_fuel n l off : rd_le n l off <> Fuel.
Proof. unfold rd_le, rd. destruct (_ && _); discriminate. Qed.
Lemma rd_le_not_fail n l off : rd_le n l off <> Fail.
Proof. unfold rd_le, rd. destruct (_ && _); discriminate. Qed.
Lemma rd_le_ok n l off v : rd_le n l off = Ok v -> 0 <= off /\ 0 <= n /\ off + n <= len l /\ v = le_val (slice l off n).
Proof.
  unfold rd_le. intros H. apply bind_ok in H. destruct H as (s & H1 & H2).
  apply rd_ok in H1. destruct H1 as (?&?&?&->). inversion H2; auto.
Qed.

Lemma len_slice {A} (l : list A) off n : 0 <= off -> 0 <= n -> off + n <= len l -> len (slice l off n) = n.
Proof.
  intros. unfold slice, len in *. rewrite firstn_length, skipn_length. lia.
Qed.

Lemma slice_app_l {A} (a b : list A) off n : 0 <= off -> off + n <= len a -> slice (a ++ b) off n = slice a off n.
Proof.
  intros Ho Hn. unfold slice, len in *.
  destruct (Z.le_gt_cases n 0) as [Hz|Hz].
  { replace (Z.to_nat n) with O by lia. reflexivity. }
  rewrite skipn_app, firstn_app.
  replace (Z.to_nat n - length (skipn (Z.to_nat off) a))%nat with O
    by (rewrite skipn_length; lia).
  simpl. rewrite app_nil_r. reflexivity.
Qed.

Lemma slice_app_r {A} (a b : list A) off n : len a <= off -> slice (a ++ b) off n = slice b (off - len a) n.
Proof.
  intros Ho. unfold slice, len in *. rewrite skipn_app.
  rewrite (skipn_all2 a) by lia. simpl.
  do 2 f_equal. lia.
Qed.

Lemma slice_0_all {A} (l : list A) : slice l 0 (len l) = l.
Proof. unfold slice, len. simpl. rewrite firstn_all2; auto; lia. Qed.

Lemma slice_all {A} (l : list A) n : n = len l -> slice l 0 n = l.
Proof. intros ->. apply slice_0_all. Qed.

Lemma slice_exact {A} (a b c : list A) off n : off = len a -> n = len b -> slice (a ++ b ++ c) off n = b.
Proof.
  intros -> ->. rewrite slice_app_r by lia. rewrite Z.sub_diag.
  rewrite slice_app_l by lia. apply slice_0_all.
Qed.

Lemma bytes_app a b : bytes (a ++ b) <-> bytes a /\ bytes b.
Proof. unfold bytes. apply Forall_app. Qed.
Lemma bytes_cons x a : bytes (x :: a) <-> is_byte x /\ bytes a.
Proof. unfold bytes. split; intros H; [inversion H; auto|constructor; tauto]. Qed.

Lemma Forall_firstn' {A} (P : A -> Prop) n l : Forall P l -> Forall P (firstn n l).
Proof. revert l; induction n; intros [|x l] H; simpl; auto. inversion H; subst; constructor; auto. Qed.
Lemma Forall_skipn' {A} (P : A -> Prop) n l : Forall P l -> Forall P (skipn n l).
Proof. revert l; induction n; intros [|x l] H; simpl; auto. inversion H; auto. Qed.
Lemma bytes_slice l off n : bytes l -> bytes (slice l off n).
Proof. intros; unfold bytes, slice; apply Forall_firstn', Forall_skipn'; auto. Qed.

Lemma pow256 n : 256 ^ Z.of_nat (S n) = 256 * 256 ^ Z.of_nat n.
Proof. rewrite Nat2Z.inj_succ, Z.pow_succ_r by lia. reflexivity. Qed.

Lemma le_val_range l : bytes l -> 0 <= le_val l < 256 ^ len l.
Proof.
  unfold bytes, len. induction l as [|b l IH]; intros H.
  - simpl. lia.
  - inversion H; subst. specialize (IH H3). cbn [le_val length].
    rewrite pow256. unfold is_byte in H2. lia.
Qed.

Lemma le_enc_length n v : length (le_enc n v) = n.
Proof. revert v; induction n; intros; simpl; auto. Qed.
Lemma le_enc_len n v : len (le_enc n v) = Z.of_nat n.
Proof. unfold len; rewrite le_enc_length; auto. Qed.

Lemma le_enc_bytes n v : bytes (le_enc n v).
Proof.
  revert v; induction n; intros; simpl; constructor.
  - unfold is_byte. apply Z.mod_pos_bound. lia.
  - apply IHn.
Qed.

Lemma le_val_enc n v : 0 <= v < 256 ^ Z.of_nat n -> le_val (le_enc n v) = v.
Proof.
  revert v; induction n; intros v H.
  - simpl in *. lia.
  - cbn [le_enc le_val]. rewrite pow256 in H. rewrite IHn.
    + pose proof (Z.div_mod v 256). lia.
    + split; [apply Z.div_pos; lia|]. apply Z.div_lt_upper_bound; lia.
Qed.

Lemma le_enc_val l : bytes l -> le_enc (length l) (le_val l) = l.
Proof.
  unfold bytes. induction l as [|b l IH]; intros H; [reflexivity|].
  inversion H; subst. cbn [le_val length le_enc]. unfold is_byte in H2.
  rewrite (Z.mul_comm 256), Z_mod_plus_full, Z_div_plus_full by lia.
  rewrite Z.mod_small, Z.div_small by lia. rewrite Z.add_0_l, IH; auto.
Qed.

Lemma nth_error_slice {A} (l : list A) off n (k : nat) :
  0 <= off -> (Z.of_nat k < n) -> nth_error (slice l off n) k = nth_error l (Z.to_nat off + k).
Proof.
  intros Ho Hk. unfold slice.
  assert (k < Z.to_nat n)%nat by lia. clear Hk.
  revert H. generalize (Z.to_nat n) as m. intros m H.
  assert (forall (q : list A) m k, (k < m)%nat -> nth_error (firstn m q) k = nth_error q k) as E.
  { clear. intros q m; revert q; induction m; intros q k Hk; [lia|].
    destruct q as [|x q]; [destruct k; reflexivity|]. destruct k; simpl; auto. apply IHm. lia. }
  rewrite E by auto.
  assert (forall (q : list A) o k, nth_error (skipn o q) k = nth_error q (o + k)%nat) as F.
  { clear. intros q o; revert q; induction o; intros q k; simpl; auto.
    destruct q; [destruct k; reflexivity|]. apply IHo. }
  apply F.
Qed.

Lemma slice_slice {A} (l : list A) o1 n1 o2 n2 :
  0 <= o1 -> 0 <= o2 -> 0 <= n2 -> o2 + n2 <= n1 ->
  slice (slice l o1 n1) o2 n2 = slice l (o1 + o2) n2.
Proof.
  intros. unfold slice.
  rewrite skipn_firstn_comm. rewrite firstn_firstn.
  replace (Init.Nat.min (Z.to_nat n2) (Z.to_nat n1 - Z.to_nat o2)) with (Z.to_nat n2) by lia.
  f_equal. 
  assert (forall (q : list A) a b, skipn a (skipn b q) = skipn (b + a) q) as E.
  { clear. intros q a b; revert q; induction b; intros q; simpl; auto. destruct q; [destruct a; reflexivity|]. apply IHb. }
  rewrite E. f_equal. lia.
Qed.

Lemma slice_split {A} (l : list A) o n m : 0 <= o -> 0 <= n -> 0 <= m ->
  slice l o (n + m) = slice l o n ++ slice l (o + n) m.
Proof.
  intros. unfold slice.
  replace (Z.to_nat (n + m)) with (Z.to_nat n + Z.to_nat m)%nat by lia.
  replace (Z.to_nat (o + n)) with (Z.to_nat o + Z.to_nat n)%nat by lia.
  assert (forall (q : list A) a b, firstn (a + b) q = firstn a q ++ firstn b (skipn a q)) as E.
  { clear. intros q a; revert q; induction a; intros q b; simpl; auto. destruct q; simpl; [rewrite firstn_nil; auto|]. rewrite IHa; auto. }
  rewrite E. f_equal. f_equal.
  assert (forall (q : list A) a b, skipn a (skipn b q) = skipn (b + a) q) as F.
  { clear. intros q a b; revert q; induction b; intros q; simpl; auto. destruct q; [destruct a; reflexivity|]. apply IHb. }
  apply F.
Qed.

Lemma zeros_len n : 0 <= n -> len (zeros n) = n.
Proof. intros; unfold zeros, len; rewrite repeat_length; lia. Qed.

Lemma zeros_bytes n : bytes (zeros n).
Proof. unfold zeros, bytes. apply Forall_forall. intros x H. apply repeat_spec in H. subst. unfold is_byte; lia. Qed.

Lemma w_range k x : 0 < k -> 0 <= x mod 2 ^ k < 2 ^ k.
Proof. intros. apply Z.mod_pos_bound. apply Z.pow_pos_nonneg; lia. Qed.

(* Disjoint lor is addition. *)
Lemma lor_shift_add a b n : 0 <= n -> 0 <= a < 2 ^ n -> Z.lor a (Z.shiftl b n) = a + Z.shiftl b n.
Proof.
  intros Hn Ha. symmetry. rewrite <- Z.lxor_lor.
  - apply Z.add_nocarry_lxor. apply Z.bits_inj'. intros k Hk.
    rewrite Z.land_spec, Z.bits_0. destruct (Z.lt_ge_cases k n).
    + rewrite (Z.shiftl_spec_low b) by auto. apply andb_false_r.
    + destruct (Z.eq_dec a 0) as [->|]. { rewrite Z.bits_0; auto. }
      rewrite (Z.bits_above_log2 a k); auto; [lia|]. assert (Z.log2 a < n) by (apply Z.log2_lt_pow2; lia). lia.
  - apply Z.bits_inj'. intros k Hk.
    rewrite Z.land_spec, Z.bits_0. destruct (Z.lt_ge_cases k n).
    + rewrite (Z.shiftl_spec_low b) by auto. apply andb_false_r.
    + destruct (Z.eq_dec a 0) as [->|]. { rewrite Z.bits_0; auto. }
      rewrite (Z.bits_above_log2 a k); auto; [lia|]. assert (Z.log2 a < n) by (apply Z.log2_lt_pow2; lia). lia.
Qed.

Lemma be_val_acc_app a b x : be_val_acc x (a ++ b) = be_val_acc (be_val_acc x a) b.
Proof. revert x; induction a as [|y a IH]; intros; cbn; auto. Qed.

Lemma be_val_rev l : be_val (rev l) = le_val l.
Proof.
  induction l as [|x l IH]; [reflexivity|]. cbn [rev le_val]. unfold be_val in *.
  rewrite be_val_acc_app, IH. cbn. lia.
Qed.

Lemma be_val_enc n v : 0 <= v < 256 ^ Z.of_nat n -> be_val (be_enc n v) = v.
Proof. intros. unfold be_enc. rewrite be_val_rev. apply le_val_enc; auto. Qed.

Lemma be_enc_len n v : len (be_enc n v) = Z.of_nat n.
Proof. unfold len, be_enc. rewrite rev_length. apply (le_enc_len n v). Qed.

Lemma be_enc_bytes n v : bytes (be_enc n v).
Proof. unfold be_enc, bytes. apply Forall_rev. apply le_enc_bytes. Qed.
