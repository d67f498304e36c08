From Coq Require Import Lia.
From Verif Require Import Base BaseLemmas At BTreeProofs Crypt CryptSpec.
Ltac Zify.zify_post_hook ::= Z.div_mod_to_equations.

Lemma xor_eq a b : xor a b = xor_bytes a b.
Proof. revert b. induction a as [|x a IH]; intros [|y b]; try reflexivity. cbn. f_equal. apply IH. Qed.
Lemma xor_len a b : len a = len b -> len (xor a b) = len a.
Proof. unfold len. revert b. induction a as [|x a IH]; intros [|y b] H; cbn [length xor] in *; try lia; specialize (IH b); lia. Qed.
Lemma xor_comm a b : xor a b = xor b a.
Proof. revert b. induction a as [|x a IH]; intros [|y b]; try reflexivity. cbn. rewrite Z.lxor_comm, IH. reflexivity. Qed.
Lemma xor_twice a b : len a = len b -> xor b (xor a b) = a.
Proof.
  unfold len. revert b. induction a as [|x a IH]; intros [|y b] H; cbn in *; try lia; try reflexivity. f_equal; [|apply IH; lia].
  rewrite (Z.lxor_comm x y), <- Z.lxor_assoc, Z.lxor_nilpotent. apply Z.lxor_0_l.
Qed.
Lemma xor_zeros a : xor (zeros (len a)) a = a.
Proof.
  unfold zeros, len. rewrite Nat2Z.id. induction a as [|x a IH]; [reflexivity|]. cbn [length repeat xor]. rewrite IH. reflexivity.
Qed.
Lemma xor_firstn n a b : firstn n (xor a b) = xor (firstn n a) (firstn n b).
Proof. revert a b. induction n as [|n IH]; intros [|x a] [|y b]; try reflexivity. cbn. f_equal. apply IH. Qed.
Lemma xor_firstn_l n a b : len a = len b -> firstn n (xor a b) = xor (firstn n a) b.
Proof. unfold len. revert a b. induction n as [|n IH]; intros [|x a] [|y b] H; try reflexivity; cbn in *; try lia. f_equal. apply IH. lia. Qed.

Lemma xor_byte a b : 0 <= a < 256 -> 0 <= b < 256 -> 0 <= Z.lxor a b < 256.
Proof.
  intros Ha Hb. split; [apply Z.lxor_nonneg; lia|]. assert (E : Z.lxor a b = Z.lxor a b mod 2 ^ 8).
  { rewrite <- Z.land_ones by lia. apply Z.bits_inj'. intros i Hi. rewrite Z.land_spec.
    destruct (Z.ltb_spec i 8); [rewrite Z.ones_spec_low by lia; rewrite andb_true_r; reflexivity|]. rewrite Z.ones_spec_high by lia. rewrite andb_false_r, Z.lxor_spec.
    rewrite <- (Z.mod_small a (2 ^ 8)) by lia. rewrite <- (Z.mod_small b (2 ^ 8)) by lia. rewrite !Z.mod_pow2_bits_high by lia. reflexivity. }
  rewrite E. change (2 ^ 8) with 256. apply Z.mod_pos_bound. lia.
Qed.
Lemma xor_bytes_bytes a b : bytes a -> bytes b -> bytes (xor a b).
Proof.
  revert b. induction a as [|x a IH]; intros [|y b] Ha Hb; try constructor; inversion Ha; inversion Hb; subst; [apply xor_byte; assumption|apply IH; assumption].
Qed.
Lemma bytes_firstn n l : bytes l -> bytes (firstn n l).
Proof. unfold bytes. rewrite !Forall_forall. intros H x Hx. apply H. rewrite <- (firstn_skipn n l). apply in_or_app. auto. Qed.
Lemma bytes_skipn n l : bytes l -> bytes (skipn n l).
Proof. unfold bytes. rewrite !Forall_forall. intros H x Hx. apply H. rewrite <- (firstn_skipn n l). apply in_or_app. auto. Qed.

Lemma wr_at a s c s'  : len s = len s' -> wr (a ++ s ++ c) (len a) s' = Ok (a ++ s' ++ c).
Proof.
  intros H. unfold wr. pose proof (len_nonneg a). pose proof (len_nonneg c). rewrite !len_app.
  replace ((0 <=? len a) && (len a + len s' <=? len a + (len s + len c))) with true by lia.
  unfold len at 1. rewrite Nat2Z.id, firstn_app, Nat.sub_diag, firstn_all. cbn [firstn]. rewrite app_nil_r. do 3 f_equal.
  replace (Z.to_nat (len a + len s')) with (length (a ++ s)) by (rewrite app_length; unfold len in *; lia).
  rewrite app_assoc, skipn_app, skipn_all, Nat.sub_diag. reflexivity.
Qed.
Lemma rd_mid (a s c : list Z) n : n = len s -> rd (a ++ s ++ c) (len a) n = Ok s.
Proof.
  intros ->. apply at_rd; [|reflexivity]. exists a, c. auto.
Qed.

Lemma step_fits b n off : 0 < b -> n mod b = 0 -> off mod b = 0 -> off < n -> off + b <= n.
Proof.
  intros Hb Hn Ho H. apply Z.div_exact in Hn; [|lia]. apply Z.div_exact in Ho; [|lia].
  generalize dependent (n / b). generalize dependent (off / b). intros q Hq r Hr. subst. assert (q < r) by nia. nia.
Qed.

Section Crypt.
  Variables (xts : list Z -> list Z -> list Z) (bps : Z).
  Hypothesis Hb : 16 <= bps.
  Hypothesis xts_len : forall n s, bytes s -> len s = bps -> len (xts (tweak n) s) = bps.

  Lemma crypt_loop_ok : forall sectors fuel done out0 tail sector,
    Forall (fun s => bytes s /\ len s = bps) sectors -> len out0 = len (concat sectors) -> (length (concat sectors) <= fuel)%nat ->
    forall done', len done' = len done ->
    crypt_loop xts fuel (done ++ concat sectors) (done' ++ out0 ++ tail) (len done) sector bps =
    Ok (done' ++ concat (enc_sectors (fun n s => xts (tweak n) s) sector sectors) ++ tail).
  Proof.
    induction sectors as [|s sectors IH]; intros fuel done out0 tail sector HF HO HL done' HD.
    - cbn [concat enc_sectors app] in *. rewrite app_nil_r. assert (out0 = []) by (destruct out0; [reflexivity|unfold len in HO; cbn in HO; lia]). subst.
      replace (crypt_loop xts fuel done (done' ++ [] ++ tail) (len done) sector bps) with (Ok (done' ++ [] ++ tail)); [reflexivity|].
      destruct fuel; cbn [crypt_loop]; rewrite Z.ltb_irrefl; reflexivity.
    - pose proof (Forall_inv HF) as (Hbs & Hs). pose proof (Forall_inv_tail HF) as HF'. cbn [concat enc_sectors] in *.
      rewrite len_app in HO. rewrite app_length in HL. pose proof (len_nonneg (concat sectors)). pose proof (len_nonneg done).
      destruct fuel as [|fuel]; [unfold len in *; lia|]. cbn [crypt_loop].
      rewrite !len_app. replace (len done <? len done + (len s + len (concat sectors))) with true by lia.
      replace (16 <=? bps) with true by lia. cbn [check bind]. rewrite rd_mid by lia. cbn [bind].
      rewrite <- (firstn_skipn (length s) out0), <- app_assoc. rewrite <- HD.
      assert (L1 : len (firstn (length s) out0) = len s) by (unfold len in *; rewrite firstn_length; lia).
      assert (LX : len (xts (tweak sector) s) = bps) by (apply xts_len; assumption).
      rewrite wr_at by lia. cbn [bind].
      pose proof (IH fuel (done ++ s) (skipn (length s) out0) tail (sector + 1) HF') as X.
      assert (L2 : len (skipn (length s) out0) = len (concat sectors)) by (unfold len in *; rewrite skipn_length; lia).
      specialize (X L2). assert (L3 : (length (concat sectors) <= fuel)%nat) by (unfold len in *; lia). specialize (X L3 (done' ++ xts (tweak sector) s)).
      rewrite !len_app, LX in X. specialize (X ltac:(lia)). rewrite <- !app_assoc in *. rewrite HD in *. rewrite Hs in X. exact X.
  Qed.
  Lemma crypt_ok sectors out sector : Forall (fun s => bytes s /\ len s = bps) sectors -> len (concat sectors) <= len out ->
    crypt xts true (concat sectors) out sector bps =
    Ok (concat (enc_sectors (fun n s => xts (tweak n) s) sector sectors) ++ skipn (length (concat sectors)) out).
  Proof.
    intros HF HL. unfold crypt. cbn [check bind]. replace (len (concat sectors) <=? len out) with true by lia. cbn [check bind].
    rewrite <- (firstn_skipn (length (concat sectors)) out) at 1.
    apply (crypt_loop_ok sectors (length (concat sectors)) [] _ _ sector HF) with (done' := []); [|lia|reflexivity].
    unfold len in *. rewrite firstn_length. lia.
  Qed.
  Lemma crypt_loop_fine input : bytes input -> len input mod bps = 0 -> forall fuel out off sector,
    0 <= off -> off mod bps = 0 -> len input - off <= Z.of_nat fuel -> len input <= len out ->
    exists o, crypt_loop xts fuel input out off sector bps = Ok o /\ len o = len out.
  Proof.
    intros HB HM. induction fuel as [|fuel IH]; intros out off sector H0 H1 H2 H3; cbn [crypt_loop].
    - replace (off <? len input) with false by lia. eauto.
    - destruct (off <? len input) eqn:E; [|eauto]. apply Z.ltb_lt in E.
      assert (off + bps <= len input) by (apply step_fits; assumption || lia).
      replace (16 <=? bps) with true by lia. cbn [check bind]. rewrite rd_in by lia. cbn [bind].
      assert (LS : len (xts (tweak sector) (slice input off bps)) = bps) by (apply xts_len; [apply bytes_slice, HB|rewrite len_slice; lia]).
      unfold wr. rewrite LS. replace ((0 <=? off) && (off + bps <=? len out)) with true by lia. cbn [bind].
      destruct (IH (firstn (Z.to_nat off) out ++ xts (tweak sector) (slice input off bps) ++ skipn (Z.to_nat (off + bps)) out) (off + bps) (sector + 1)) as (o & Ho & Hl).
      + lia.
      + rewrite Z.add_mod, H1, Z.mod_same by lia. reflexivity.
      + lia.
      + rewrite !len_app, LS. unfold len in *. rewrite firstn_length, skipn_length. lia.
      + exists o. split; [exact Ho|]. rewrite Hl, !len_app, LS. unfold len in *. rewrite firstn_length, skipn_length. lia.
  Qed.
End Crypt.

Lemma tweak_data_unit n : tweak n = data_unit n.
Proof.
  unfold tweak, data_unit, w64. assert (H : 0 <= n mod 2 ^ 64 < 2 ^ 64) by (apply Z.mod_pos_bound; lia).
  generalize dependent (n mod 2 ^ 64). intros x H. change (le_enc 16 x) with (le_enc (8 + 8) x).
  assert (G : forall k m v, le_enc (k + m) v = le_enc k v ++ le_enc m (v / 256 ^ Z.of_nat k)).
  { induction k as [|k IH]; intros m v; [cbn [Nat.add le_enc app Z.of_nat]; rewrite Z.pow_0_r, Z.div_1_r; reflexivity|].
    cbn [Nat.add le_enc app]. rewrite IH. do 3 f_equal. rewrite Nat2Z.inj_succ, Z.pow_succ_r by lia. rewrite Z.div_div by (try apply Z.pow_pos_nonneg; lia). reflexivity. }
  rewrite G. f_equal. change (256 ^ Z.of_nat 8) with (2 ^ 64). rewrite Z.div_small by lia. reflexivity.
Qed.

  Lemma wrap_pass_snoc (enc : list Z -> list Z) t a rs r : wrap_pass enc t a (rs ++ [r]) =
    let (a1, rs1) := wrap_pass enc t a rs in
    let b := enc (a1 ++ r) in (xor_bytes (firstn 8 b) (be_enc 8 (t + len rs)), rs1 ++ [skipn 8 b]).
  Proof.
    revert t a. induction rs as [|x rs IH]; intros t a.
    - cbn [app wrap_pass]. change (len (@nil (list Z))) with 0. rewrite Z.add_0_r. reflexivity.
    - cbn [app wrap_pass]. rewrite IH. destruct (wrap_pass enc (t + 1) (xor_bytes (firstn 8 (enc (a ++ x))) (be_enc 8 t)) rs) as [a1 rs1].
      rewrite len_cons. replace (t + 1 + len rs) with (t + (len rs + 1)) by lia. replace (1 + len rs) with (len rs + 1) by lia. reflexivity.
  Qed.
Section Unwrap.
  Variables (enc dec : list Z -> list Z).
  Hypothesis dec_enc : forall b, bytes b -> len b = 16 -> dec (enc b) = b.
  Hypothesis enc_len : forall b, bytes b -> len b = 16 -> bytes (enc b) /\ len (enc b) = 16.
  Notation word r := (bytes r /\ len r = 8).

  Lemma unwrap_step_ok n round i (a r rs done : list Z) : word a -> word r -> len rs = 8 * (i - 1) ->
    0 <= round * (n - 1) + i < 2 ^ 64 ->
    let b := enc (a ++ r) in
    unwrap_step dec n round i (xor_bytes (firstn 8 b) (be_enc 8 (round * (n - 1) + i)) ++ rs ++ skipn 8 b ++ done) =
    Ok (a ++ rs ++ r ++ done).
  Proof.
    intros (Ba & Ha) (Br & Hr) Hrs Ht b. assert (Bar : bytes (a ++ r)) by (apply bytes_app; auto). assert (Lb : len b = 16) by (apply enc_len; [exact Bar|rewrite len_app; lia]).
    assert (L1 : len (firstn 8 b) = 8) by (unfold len in *; rewrite firstn_length; lia).
    assert (L2 : len (skipn 8 b) = 8) by (unfold len in *; rewrite skipn_length; lia).
    remember (round * (n - 1) + i) as t eqn:ET. assert (LT : len (be_enc 8 t) = 8) by apply be_enc_len.
    rewrite <- xor_eq. remember (xor (firstn 8 b) (be_enc 8 t)) as a' eqn:EA.
    assert (La : len a' = 8) by (subst a'; rewrite xor_len; lia).
    unfold unwrap_step. rewrite <- ET. unfold w64. rewrite Z.mod_small by exact Ht.
    pose proof (rd_mid [] a' (rs ++ skipn 8 b ++ done) 8 ltac:(lia)) as R1. change (len (@nil Z)) with 0 in R1. cbn [app] in R1. rewrite R1. cbn [bind].
    assert (X : xor (be_enc 8 t) a' = firstn 8 b) by (subst a'; apply xor_twice; lia).
    rewrite X. pose proof (rd_mid (a' ++ rs) (skipn 8 b) done 8 ltac:(lia)) as R2. rewrite len_app in R2. replace (len a' + len rs) with (i * 8) in R2 by lia.
    rewrite <- app_assoc in R2. rewrite R2. cbn [bind]. rewrite firstn_skipn. unfold b. rewrite dec_enc by (try exact Bar; rewrite len_app; lia).
    assert (S1 : slice (a ++ r) 0 8 = a) by (rewrite slice_app_l by lia; apply slice_all; lia).
    assert (S2 : slice (a ++ r) 8 8 = r) by (rewrite slice_app_r by lia; rewrite Ha; apply slice_all; lia).
    rewrite S1, S2. pose proof (wr_at [] a' (rs ++ skipn 8 b ++ done) a ltac:(lia)) as W1. change (len (@nil Z)) with 0 in W1. cbn [app] in W1. fold b. rewrite W1. cbn [bind].
    pose proof (wr_at (a ++ rs) (skipn 8 b) done r ltac:(lia)) as W2. rewrite len_app in W2. replace (len a + len rs) with (i * 8) in W2 by lia.
    rewrite <- !app_assoc in W2. exact W2.
  Qed.

  Lemma concat8 (rs : list (list Z)) : Forall (fun r => word r) rs -> len (concat rs) = 8 * len rs.
  Proof. induction 1 as [|r rs (H0 & H) HF IH]; [reflexivity|]. cbn [concat]. rewrite len_app, len_cons, IH. lia. Qed.
  Lemma wrap_pass_len : forall rs t a, word a -> Forall (fun r => word r) rs ->
    match wrap_pass enc t a rs with (a', rs') => word a' /\ Forall (fun r => word r) rs' /\ length rs' = length rs end.
  Proof.
    induction rs as [|r rs IH]; intros t a Ha HF; cbn [wrap_pass]; [auto|]. inversion HF as [|? ? Hr HF']; subst.
    destruct Ha as (Ba & Ha). destruct Hr as (Br & Hr).
    destruct (enc_len (a ++ r)) as (Be & Lb); [apply bytes_app; auto|rewrite len_app; lia|].
    assert (L1 : word (xor_bytes (firstn 8 (enc (a ++ r))) (be_enc 8 t))).
    { assert (X : len (firstn 8 (enc (a ++ r))) = 8) by (unfold len in *; rewrite firstn_length; lia).
      assert (Y : len (be_enc 8 t) = 8) by apply be_enc_len. rewrite <- xor_eq. split; [|rewrite xor_len; lia].
      apply xor_bytes_bytes; [apply bytes_firstn, Be|apply be_enc_bytes]. }
    specialize (IH (t + 1) _ L1 HF'). destruct (wrap_pass enc (t + 1) _ rs) as [a' rs']. destruct IH as (I1 & I2 & I3).
    split; [exact I1|]. split; [constructor; [split; [apply bytes_skipn, Be|unfold len in *; rewrite skipn_length; lia]|exact I2]|cbn; lia].
  Qed.
  Lemma unwrap_blocks_ok n round : forall rs a done, word a -> Forall (fun r => word r) rs ->
    0 <= round -> 0 <= n - 1 -> round * (n - 1) + len rs < 2 ^ 64 ->
    match wrap_pass enc (round * (n - 1) + 1) a rs with (a', rs') =>
      unwrap_blocks dec n round (length rs) (a' ++ concat rs' ++ done) = Ok (a ++ concat rs ++ done) end.
  Proof.
    intros rs. induction rs as [|r rs IH] using rev_ind; intros a done Ha HF H0 H1 H2; [reflexivity|].
    apply Forall_app in HF. destruct HF as (HF & HF1). apply Forall_inv in HF1. rewrite len_app in H2. change (len [r]) with 1 in H2.
    rewrite wrap_pass_snoc. specialize (IH a (r ++ done) Ha HF H0 H1 ltac:(lia)).
    pose proof (wrap_pass_len rs (round * (n - 1) + 1) a Ha HF) as WL.
    destruct (wrap_pass enc (round * (n - 1) + 1) a rs) as [a1 rs1]. destruct WL as (W1 & W2 & W3).
    rewrite app_length. cbn [length]. rewrite Nat.add_1_r. cbn [unwrap_blocks].
    rewrite !concat_app. cbn [concat]. rewrite !app_nil_r, <- !app_assoc.
    replace (round * (n - 1) + 1 + len rs) with (round * (n - 1) + Z.of_nat (S (length rs))) by (unfold len; lia).
    rewrite unwrap_step_ok; [cbn [bind]; exact IH|exact W1|exact HF1|rewrite concat8 by exact W2; unfold len; lia|unfold len in *; nia].
  Qed.
  Lemma unwrap_passes_ok n : forall j k rs a, word a -> Forall (fun r => word r) rs -> len rs = n - 1 -> (Z.of_nat (k + j)) * (n - 1) < 2 ^ 64 ->
    forall a' rs', wrap_passes enc j (Z.of_nat k * (n - 1) + 1) a rs = (a', rs') ->
    exists buf, unwrap_rounds dec n (k + j) (a' ++ concat rs') = unwrap_rounds dec n k buf /\ buf = a ++ concat rs.
  Proof.
    induction j as [|j IH]; intros k rs a Ha HF Hn Hk a' rs' HW; cbn [wrap_passes] in HW.
    - injection HW as -> ->. rewrite Nat.add_0_r. eauto.
    - pose proof (wrap_pass_len rs (Z.of_nat k * (n - 1) + 1) a Ha HF) as WL.
      pose proof (unwrap_blocks_ok n (Z.of_nat k) rs a [] Ha HF) as UB.
      pose proof (len_nonneg rs). specialize (UB ltac:(lia) ltac:(lia) ltac:(nia)).
      destruct (wrap_pass enc (Z.of_nat k * (n - 1) + 1) a rs) as [a1 rs1]. destruct WL as (W1 & W2 & W3).
      replace (Z.of_nat k * (n - 1) + 1 + len rs1) with (Z.of_nat (S k) * (n - 1) + 1) in HW by (unfold len in *; lia).
      destruct (IH (S k) rs1 a1 W1 W2 ltac:(unfold len in *; lia) ltac:(replace (S k + j)%nat with (k + S j)%nat by lia; exact Hk) a' rs' HW) as (buf & E & EB).
      replace (k + S j)%nat with (S k + j)%nat by lia. rewrite E. subst buf. cbn [unwrap_rounds]. rewrite !app_nil_r in UB.
      replace (Z.to_nat (n - 1)) with (length rs) by (unfold len in *; lia). rewrite UB. cbn [bind]. eauto.
  Qed.
  Theorem key_unwrap_ok key_bits iv rs : In key_bits [128; 192; 256] -> word iv -> Forall (fun r => word r) rs -> rs <> [] -> len rs < 2 ^ 60 ->
    key_unwrap dec key_bits (key_wrap enc iv rs) = Ok (iv ++ concat rs).
  Proof.
    intros HK Hiv HF HN HL. unfold key_wrap. destruct (wrap_passes enc 6 1 iv rs) as [a' rs'] eqn:EW.
    pose proof (len_nonneg rs). assert (1 <= len rs) by (destruct rs; [congruence|rewrite len_cons; pose proof (len_nonneg rs); lia]).
    destruct (unwrap_passes_ok (len rs + 1) 6 0 rs iv Hiv HF ltac:(lia) ltac:(change (Z.of_nat (0 + 6)) with 6; lia) a' rs' EW) as (buf & E & EB).
    assert (LP : forall j t a l, word a -> Forall (fun r => word r) l -> match wrap_passes enc j t a l with (a', l') => word a' /\ Forall (fun r => word r) l' /\ length l' = length l end).
    { induction j as [|j IH]; intros t a l A1 A2; cbn [wrap_passes]; [auto|]. pose proof (wrap_pass_len l t a A1 A2) as W.
      destruct (wrap_pass enc t a l) as [a1 l1]. destruct W as (W1 & W2 & W3). specialize (IH (t + len l1) a1 l1 W1 W2).
      destruct (wrap_passes enc j (t + len l1) a1 l1) as [a2 l2]. destruct IH as (I1 & I2 & I3). split; [exact I1|]. split; [exact I2|]. lia. }
    specialize (LP 6%nat 1 iv rs Hiv HF). rewrite EW in LP. destruct LP as (P1 & P2 & P3).
    destruct P1 as (P0 & P1). assert (LW : len (a' ++ concat rs') = 8 * (len rs + 1)) by (rewrite len_app, concat8 by exact P2; unfold len in *; lia).
    unfold key_unwrap. rewrite LW. replace ((key_bits =? 128) || (key_bits =? 192) || (key_bits =? 256)) with true by (destruct HK as [<-|[<-|[<-|[]]]]; reflexivity).
    cbn [check bind]. replace (8 <? 8 * (len rs + 1)) with true by lia. cbn [check bind].
    replace (8 * (len rs + 1) mod 8 =? 0) with true by lia. cbn [check bind]. replace (8 * (len rs + 1) / 8) with (len rs + 1) by lia.
    cbn [Nat.add] in E. rewrite E, EB. reflexivity.
  Qed.
End Unwrap.

(* Whatever the decryption function, unwrapping does not leave the buffer. *)
Section UnwrapSafe.
  Variable dec : list Z -> list Z.
  Hypothesis dec_len : forall b, bytes b -> len b = 16 -> bytes (dec b) /\ len (dec b) = 16.
  Lemma unwrap_step_safe n round i buf : bytes buf -> 0 <= i -> (i + 1) * 8 <= len buf -> exists o, unwrap_step dec n round i buf = Ok o /\ bytes o /\ len o = len buf.
  Proof.
    intros HB H0 H1. unfold unwrap_step. rewrite rd_in by lia. cbn [bind]. rewrite rd_in by lia. cbn [bind].
    set (b := dec (xor (be_enc 8 (w64 (round * (n - 1) + i))) (slice buf 0 8) ++ slice buf (i * 8) 8)).
    assert (Bb : bytes b /\ len b = 16).
    { apply dec_len; [apply bytes_app; split; [apply xor_bytes_bytes; [apply be_enc_bytes|]|]; apply bytes_slice, HB|]. rewrite len_app, xor_len; rewrite ?be_enc_len, ?len_slice; lia. }
    destruct Bb as (Bb & Lb). assert (B1 : bytes (slice b 0 8)) by apply bytes_slice, Bb. assert (B2 : bytes (slice b 8 8)) by apply bytes_slice, Bb.
    assert (L1 : len (slice b 0 8) = 8) by (rewrite len_slice; lia). assert (L2 : len (slice b 8 8) = 8) by (rewrite len_slice; lia).
    unfold wr at 1. rewrite L1. replace ((0 <=? 0) && (0 + 8 <=? len buf)) with true by lia. cbn [bind].
    assert (LM : len (firstn (Z.to_nat 0) buf ++ slice b 0 8 ++ skipn (Z.to_nat (0 + 8)) buf) = len buf).
    { rewrite !len_app, L1. unfold len in *. rewrite firstn_length, skipn_length. lia. }
    assert (BM : bytes (firstn (Z.to_nat 0) buf ++ slice b 0 8 ++ skipn (Z.to_nat (0 + 8)) buf)) by (rewrite !bytes_app; auto using bytes_firstn, bytes_skipn).
    generalize dependent (firstn (Z.to_nat 0) buf ++ slice b 0 8 ++ skipn (Z.to_nat (0 + 8)) buf). intros buf' LM BM.
    unfold wr. rewrite L2, LM. replace ((0 <=? i * 8) && (i * 8 + 8 <=? len buf)) with true by lia. eexists. split; [reflexivity|]. split; [rewrite !bytes_app; auto using bytes_firstn, bytes_skipn|].
    rewrite !len_app, L2. unfold len in *. rewrite firstn_length, skipn_length. lia.
  Qed.
  Lemma unwrap_blocks_safe n round i buf : bytes buf -> (Z.of_nat i + 1) * 8 <= len buf -> exists o, unwrap_blocks dec n round i buf = Ok o /\ bytes o /\ len o = len buf.
  Proof.
    revert buf. induction i as [|i IH]; intros buf HB H; [cbn; eauto|]. cbn [unwrap_blocks].
    destruct (unwrap_step_safe n round (Z.of_nat (S i)) buf HB ltac:(lia) H) as (o & -> & B & E). cbn [bind].
    destruct (IH o B ltac:(lia)) as (o' & -> & B' & E'). exists o'. split; [reflexivity|]. split; [exact B'|lia].
  Qed.
  Lemma unwrap_rounds_safe n r buf : bytes buf -> 1 <= n -> n * 8 <= len buf -> exists o, unwrap_rounds dec n r buf = Ok o /\ bytes o /\ len o = len buf.
  Proof.
    revert buf. induction r as [|r IH]; intros buf HB H0 H; [cbn; eauto|]. cbn [unwrap_rounds].
    destruct (unwrap_blocks_safe n (Z.of_nat r) (Z.to_nat (n - 1)) buf HB ltac:(lia)) as (o & -> & B & E). cbn [bind].
    destruct (IH o B H0 ltac:(lia)) as (o' & -> & B' & E'). exists o'. split; [reflexivity|]. split; [exact B'|lia].
  Qed.
  Lemma key_unwrap_safe key_bits w : bytes w -> In key_bits [128; 192; 256] -> 8 < len w -> len w mod 8 = 0 -> exists o, key_unwrap dec key_bits w = Ok o /\ bytes o /\ len o = len w.
  Proof.
    intros HB HK H1 H2. unfold key_unwrap.
    replace ((key_bits =? 128) || (key_bits =? 192) || (key_bits =? 256)) with true by (destruct HK as [<-|[<-|[<-|[]]]]; reflexivity). cbn [check bind].
    replace (8 <? len w) with true by lia. cbn [check bind]. replace (len w mod 8 =? 0) with true by lia. cbn [check bind].
    apply unwrap_rounds_safe; lia || exact HB.
  Qed.
End UnwrapSafe.

(* Every sequence of words is the wrapping of some integrity value and key. *)
Section Surj.
  Variables (enc dec : list Z -> list Z).
  Hypothesis BC : block_cipher enc dec.
  Notation word r := (bytes r /\ len r = 8).
  Lemma step_surj t a' r' : word a' -> word r' -> exists a r, word a /\ word r /\
    xor_bytes (firstn 8 (enc (a ++ r))) (be_enc 8 t) = a' /\ skipn 8 (enc (a ++ r)) = r'.
  Proof.
    intros (Ba & La) (Br & Lr). pose proof (be_enc_len 8 t) as LT. pose proof (be_enc_bytes 8 t) as BT. change (Z.of_nat 8) with 8 in LT.
    assert (BX : bytes (xor a' (be_enc 8 t))) by (apply xor_bytes_bytes; assumption). assert (LX : len (xor a' (be_enc 8 t)) = 8) by (rewrite xor_len; lia).
    destruct (BC (xor a' (be_enc 8 t) ++ r')) as (_ & (Bd & Ld) & _ & ED); [apply bytes_app; auto|rewrite len_app; lia|].
    remember (dec (xor a' (be_enc 8 t) ++ r')) as d eqn:E. exists (firstn 8 d), (skipn 8 d).
    rewrite firstn_skipn, ED, <- xor_eq. rewrite firstn_app, skipn_app.
    replace (8 - length (xor a' (be_enc 8 t)))%nat with 0%nat by (unfold len in LX; lia). rewrite (firstn_all2 (n := 8) (xor a' (be_enc 8 t))) by (unfold len in LX; lia). rewrite (skipn_all2 (n := 8) (xor a' (be_enc 8 t))) by (unfold len in LX; lia).
    rewrite (firstn_O r'), (skipn_O r'), app_nil_r, app_nil_l. split; [split; [apply bytes_firstn, Bd|unfold len in *; rewrite firstn_length; lia]|].
    split; [split; [apply bytes_skipn, Bd|unfold len in *; rewrite skipn_length; lia]|]. split; [|reflexivity].
    rewrite xor_comm, (xor_comm a'), (xor_comm (be_enc 8 t) a'). apply xor_twice. lia.
  Qed.
  Lemma wrap_pass_surj : forall rs' t a', word a' -> Forall (fun r => word r) rs' ->
    exists a rs, word a /\ Forall (fun r => word r) rs /\ length rs = length rs' /\ wrap_pass enc t a rs = (a', rs').
  Proof.
    induction rs' as [|r' rs' IH] using rev_ind; intros t a' Ha HF; [exists a', []; split; [exact Ha|]; split; [constructor|]; split; reflexivity|].
    apply Forall_app in HF. destruct HF as (HF & HF1). apply Forall_inv in HF1.
    destruct (step_surj (t + len rs') a' r' Ha HF1) as (a1 & r & W1 & W2 & E1 & E2).
    destruct (IH t a1 W1 HF) as (a & rs & I1 & I2 & I3 & I4). exists a, (rs ++ [r]). split; [exact I1|]. split; [apply Forall_app; auto|].
    split; [rewrite !app_length, I3; reflexivity|]. rewrite wrap_pass_snoc, I4. replace (len rs) with (len rs') by (unfold len; lia).
    cbv zeta. rewrite E1, E2. reflexivity.
  Qed.
  Lemma wrap_passes_surj : forall j rs' t a', word a' -> Forall (fun r => word r) rs' ->
    exists a rs, word a /\ Forall (fun r => word r) rs /\ length rs = length rs' /\ wrap_passes enc j t a rs = (a', rs').
  Proof.
    induction j as [|j IH]; intros rs' t a' Ha HF; [exists a', rs'; cbn [wrap_passes]; auto|].
    destruct (IH rs' (t + len rs') a' Ha HF) as (a1 & rs1 & I1 & I2 & I3 & I4).
    destruct (wrap_pass_surj rs1 t a1 I1 I2) as (a & rs & J1 & J2 & J3 & J4). exists a, rs. split; [exact J1|]. split; [exact J2|]. split; [lia|].
    cbn [wrap_passes]. rewrite J4. replace (len rs1) with (len rs') by (unfold len; lia). exact I4.
  Qed.
End Surj.

Section PBKDF2.
  Variable hmac : list Z -> list Z -> list Z.
  Hypothesis hmac_len : forall k d, len (hmac k d) = 32.
  Notation u := (u hmac). Notation t := (t hmac).
  Lemma u_len p s i j : len (u p s i j) = 32.
  Proof. destruct j; apply hmac_len. Qed.
  Lemma t_len p s i c : len (t p s i c) = 32.
  Proof. induction c as [|c IH]; [reflexivity|]. cbn [CryptSpec.t]. rewrite <- xor_eq, xor_len; rewrite ?u_len; lia. Qed.
  Lemma iterate_t p s i size : forall k j, 0 <= size <= 32 ->
    iterate hmac p k (u p s i j) (firstn (Z.to_nat size) (t p s i (S j))) = firstn (Z.to_nat size) (t p s i (S j + k)).
  Proof.
    induction k as [|k IH]; intros j H; [rewrite Nat.add_0_r; reflexivity|]. cbn [iterate].
    change (hmac p (u p s i j)) with (u p s i (S j)).
    rewrite <- xor_firstn_l by (rewrite t_len, u_len; reflexivity).
    rewrite xor_eq. change (xor_bytes (t p s i (S j)) (u p s i (S j))) with (t p s i (S (S j))). rewrite IH by exact H. f_equal. f_equal. lia.
  Qed.
  Lemma block_t p s c i size : 1 <= c < 2 ^ 32 -> 0 <= i < 2 ^ 32 - 1 -> 0 <= size <= 32 ->
    block hmac p s c i size = firstn (Z.to_nat size) (t p s (i + 1) (Z.to_nat c)).
  Proof.
    intros Hc Hi Hs. unfold block, w32. rewrite !Z.mod_small by lia. change (hmac p (s ++ be_enc 4 (i + 1))) with (u p s (i + 1) 0).
    assert (E : slice (u p s (i + 1) 0) 0 size = firstn (Z.to_nat size) (t p s (i + 1) 1)).
    { unfold slice. cbn [skipn Z.to_nat]. f_equal. cbn [CryptSpec.t]. rewrite <- xor_eq. rewrite <- (u_len p s (i + 1) 0). symmetry. apply xor_zeros. }
    rewrite E. change 1%nat with (S 0). rewrite iterate_t by exact Hs. do 2 f_equal. lia.
  Qed.
  Lemma blocks_t p s c : 1 <= c < 2 ^ 32 -> forall n i, Z.of_nat i + Z.of_nat n < 2 ^ 32 ->
    blocks hmac p s c (Z.of_nat i) n = concat (map (fun i => t p s (Z.of_nat i + 1) (Z.to_nat c)) (seq i n)).
  Proof.
    intros Hc. induction n as [|n IH]; intros i Hi; [reflexivity|]. cbn [blocks seq map concat]. rewrite block_t by lia.
    rewrite firstn_all2 by (pose proof (t_len p s (Z.of_nat i + 1) (Z.to_nat c)); unfold len in *; lia). f_equal.
    replace (Z.of_nat i + 1) with (Z.of_nat (S i)) by lia. apply IH. lia.
  Qed.
  Lemma blocks_len p s c l : len (concat (map (fun i => t p s (Z.of_nat i + 1) (Z.to_nat c)) l)) = 32 * len l.
  Proof. induction l as [|x l IH]; [reflexivity|]. cbn [map concat]. rewrite len_app, len_cons, t_len, IH. lia. Qed.
  Theorem pbkdf2_ok p s c size : 1 <= c < 2 ^ 32 -> 0 <= size <= 32 * (2 ^ 32 - 1) -> pbkdf2 hmac p s c size = Ok (dk hmac p s c size).
  Proof.
    intros Hc Hs. unfold pbkdf2, dk. replace (negb (c =? 0)) with true by lia. cbn [check bind]. unfold w32. rewrite Z.mod_small by lia.
    remember (size / 32) as n eqn:En. remember (size - n * 32) as r eqn:Er.
    pose proof (blocks_t p s c Hc (Z.to_nat n) 0 ltac:(lia)) as B. change (Z.of_nat 0) with 0 in B. rewrite B. clear B.
    destruct (r =? 0) eqn:E0.
    - replace ((size + 31) / 32) with n by lia. rewrite firstn_all2; [reflexivity|].
      pose proof (blocks_len p s c (seq 0 (Z.to_nat n))) as BL. unfold len in BL. rewrite seq_length in BL. lia.
    - replace (32 <? r) with false by lia. replace ((size + 31) / 32) with (n + 1) by lia. rewrite block_t by lia.
      replace (Z.to_nat (n + 1)) with (Z.to_nat n + 1)%nat by lia. rewrite seq_app, map_app, concat_app. cbn [seq map concat Nat.add]. rewrite app_nil_r.
      pose proof (blocks_len p s c (seq 0 (Z.to_nat n))) as BL. unfold len in BL. rewrite seq_length in BL.
      set (L := concat (map _ (seq 0 (Z.to_nat n)))) in *. clearbody L.
      rewrite firstn_app. rewrite (firstn_all2 (n := Z.to_nat size) L) by lia. rewrite Z2Nat.id by lia. replace (Z.to_nat size - length L)%nat with (Z.to_nat r) by lia. reflexivity.
  Qed.
End PBKDF2.
