(* AES is a block cipher: decryption inverts encryption on blocks of 16 bytes. *)
From Coq Require Import Lia Btauto.
From Verif Require Import Base BaseLemmas Crypt CryptSpec CryptProofs Aes Sha256.
Ltac Zify.zify_post_hook ::= Z.div_mod_to_equations.

(* ---- finite checks ---- *)
Definition all256 (f : Z -> bool) : bool := forallb f (seqz 256).
Lemma all256_ok f : all256 f = true -> forall x, 0 <= x < 256 -> f x = true.
Proof.
  intros H x Hx. unfold all256 in H. rewrite forallb_forall in H. apply H. unfold seqz. apply in_map_iff.
  exists (Z.to_nat x). split; [lia|]. apply in_seq. lia.
Qed.
Ltac check256 x H := revert x H; apply (all256_ok _); vm_compute; reflexivity.

Lemma table_byte (l : list Z) n : forallb (fun x => (0 <=? x) && (x <? 256)) l = true -> 0 <= nth n l 0 < 256.
Proof.
  intros H. rewrite forallb_forall in H. destruct (Nat.lt_ge_cases n (length l)) as [L|L].
  - specialize (H (nth n l 0) (nth_In l 0 L)). lia.
  - rewrite nth_overflow by exact L. lia.
Qed.
Lemma sub_byte x : 0 <= sub x < 256.
Proof. apply table_byte. vm_compute. reflexivity. Qed.
Lemma inv_sub_byte x : 0 <= inv_sub x < 256.
Proof. apply table_byte. vm_compute. reflexivity. Qed.
Lemma sub_inv x : 0 <= x < 256 -> inv_sub (sub x) = x.
Proof. intros H. apply Z.eqb_eq. check256 x H. Qed.
Lemma inv_sub_sub x : 0 <= x < 256 -> sub (inv_sub x) = x.
Proof. intros H. apply Z.eqb_eq. check256 x H. Qed.

(* ---- multiplication is linear ---- *)
Lemma xtime_test a : 0 <= a < 256 -> (256 <=? 2 * a) = Z.testbit a 7.
Proof. intros H. apply eqb_prop. check256 a H. Qed.
Lemma xtime_byte a : 0 <= a < 256 -> 0 <= xtime a < 256.
Proof.
  intros H. assert (E : (0 <=? xtime a) && (xtime a <? 256) = true) by (check256 a H). lia.
Qed.
Lemma xtime_lin a b : 0 <= a < 256 -> 0 <= b < 256 -> xtime (Z.lxor a b) = Z.lxor (xtime a) (xtime b).
Proof.
  intros Ha Hb. pose proof (xor_byte a b Ha Hb) as Hx. unfold xtime. cbv zeta. rewrite !xtime_test by assumption. rewrite Z.lxor_spec.
  assert (D : 2 * Z.lxor a b = Z.lxor (2 * a) (2 * b)).
  { rewrite !(Z.mul_comm 2). change 2 with (2 ^ 1). rewrite <- !Z.shiftl_mul_pow2 by lia. apply Z.shiftl_lxor. }
  rewrite D. destruct (Z.testbit a 7), (Z.testbit b 7); cbn [xorb]; apply Z.bits_inj'; intros n _; rewrite !Z.lxor_spec; btauto.
Qed.
Lemma gmul_byte : forall n a c, 0 <= a < 256 -> 0 <= gmul n a c < 256.
Proof.
  induction n as [|n IH]; intros a c H; cbn [gmul]; [lia|]. apply xor_byte; [destruct (Z.odd c); lia|]. apply IH, xtime_byte, H.
Qed.
Lemma gmul_lin : forall n a b c, 0 <= a < 256 -> 0 <= b < 256 -> gmul n (Z.lxor a b) c = Z.lxor (gmul n a c) (gmul n b c).
Proof.
  induction n as [|n IH]; intros a b c Ha Hb; cbn [gmul]; [reflexivity|]. rewrite xtime_lin by assumption. rewrite IH by (apply xtime_byte; assumption).
  destruct (Z.odd c); apply Z.bits_inj'; intros k _; rewrite !Z.lxor_spec, ?Z.bits_0; btauto.
Qed.
Definition x4 (a b c d : Z) : Z := Z.lxor (Z.lxor a b) (Z.lxor c d).
Lemma x4_byte a b c d : 0 <= a < 256 -> 0 <= b < 256 -> 0 <= c < 256 -> 0 <= d < 256 -> 0 <= x4 a b c d < 256.
Proof. intros. unfold x4. apply xor_byte; apply xor_byte; assumption. Qed.
Lemma gmul_x4 a b c d k : 0 <= a < 256 -> 0 <= b < 256 -> 0 <= c < 256 -> 0 <= d < 256 ->
  gmul 4 (x4 a b c d) k = x4 (gmul 4 a k) (gmul 4 b k) (gmul 4 c k) (gmul 4 d k).
Proof. intros. unfold x4. rewrite !gmul_lin; try assumption; try (apply xor_byte; assumption). reflexivity. Qed.
Lemma x4_transpose a1 a2 a3 a4 b1 b2 b3 b4 c1 c2 c3 c4 d1 d2 d3 d4 :
  x4 (x4 a1 a2 a3 a4) (x4 b1 b2 b3 b4) (x4 c1 c2 c3 c4) (x4 d1 d2 d3 d4) =
  x4 (x4 a1 b1 c1 d1) (x4 a2 b2 c2 d2) (x4 a3 b3 c3 d3) (x4 a4 b4 c4 d4).
Proof. unfold x4. apply Z.bits_inj'. intros n _. rewrite !Z.lxor_spec. btauto. Qed.

(* one byte through a column of a matrix and a row of the other *)
Definition through (x p1 p2 p3 p4 q1 q2 q3 q4 : Z) : Z :=
  x4 (gmul 4 (gmul 4 x p1) q1) (gmul 4 (gmul 4 x p2) q2) (gmul 4 (gmul 4 x p3) q3) (gmul 4 (gmul 4 x p4) q4).
(* the matrices with first rows p and q (circulant) are inverse *)
Definition circ_inverse (p1 p2 p3 p4 q1 q2 q3 q4 : Z) : Prop := forall x, 0 <= x < 256 ->
  through x p1 p4 p3 p2 q1 q2 q3 q4 = x /\ through x p2 p1 p4 p3 q1 q2 q3 q4 = 0 /\
  through x p3 p2 p1 p4 q1 q2 q3 q4 = 0 /\ through x p4 p3 p2 p1 q1 q2 q3 q4 = 0.
Lemma mix_inverse : circ_inverse 2 3 1 1 14 11 13 9 /\ circ_inverse 14 11 13 9 2 3 1 1.
Proof.
  split; intros x H; repeat split; apply Z.eqb_eq; check256 x H.
Qed.
Lemma through_rot x p1 p2 p3 p4 q1 q2 q3 q4 : through x p1 p2 p3 p4 q1 q2 q3 q4 = through x p2 p3 p4 p1 q2 q3 q4 q1.
Proof. unfold through, x4. apply Z.bits_inj'. intros n _. rewrite !Z.lxor_spec. btauto. Qed.
Lemma mix_col p1 p2 p3 p4 q1 q2 q3 q4 w x y z s : circ_inverse p1 p2 p3 p4 q1 q2 q3 q4 ->
  0 <= w < 256 -> 0 <= x < 256 -> 0 <= y < 256 -> 0 <= z < 256 ->
  mix q1 q2 q3 q4 (mix p1 p2 p3 p4 (w :: x :: y :: z :: s)) = w :: x :: y :: z :: mix q1 q2 q3 q4 (mix p1 p2 p3 p4 s).
Proof.
  intros HI Hw Hx Hy Hz. cbn [mix]. fold (x4 (gmul 4 w p1) (gmul 4 x p2) (gmul 4 y p3) (gmul 4 z p4)).
  fold (x4 (gmul 4 w p4) (gmul 4 x p1) (gmul 4 y p2) (gmul 4 z p3)). fold (x4 (gmul 4 w p3) (gmul 4 x p4) (gmul 4 y p1) (gmul 4 z p2)).
  fold (x4 (gmul 4 w p2) (gmul 4 x p3) (gmul 4 y p4) (gmul 4 z p1)).
  assert (G : forall r1 r2 r3 r4, Z.lxor (Z.lxor (gmul 4 (x4 (gmul 4 w p1) (gmul 4 x p2) (gmul 4 y p3) (gmul 4 z p4)) r1) (gmul 4 (x4 (gmul 4 w p4) (gmul 4 x p1) (gmul 4 y p2) (gmul 4 z p3)) r2))
     (Z.lxor (gmul 4 (x4 (gmul 4 w p3) (gmul 4 x p4) (gmul 4 y p1) (gmul 4 z p2)) r3) (gmul 4 (x4 (gmul 4 w p2) (gmul 4 x p3) (gmul 4 y p4) (gmul 4 z p1)) r4)) =
     x4 (through w p1 p4 p3 p2 r1 r2 r3 r4) (through x p2 p1 p4 p3 r1 r2 r3 r4) (through y p3 p2 p1 p4 r1 r2 r3 r4) (through z p4 p3 p2 p1 r1 r2 r3 r4)).
  { intros. rewrite !gmul_x4 by (apply gmul_byte; assumption).
    change (Z.lxor (Z.lxor ?a ?b) (Z.lxor ?c ?d)) with (x4 a b c d). rewrite x4_transpose. reflexivity. }
  rewrite !G. clear G.
  destruct (HI w Hw) as (W1 & W2 & W3 & W4). destruct (HI x Hx) as (X1 & X2 & X3 & X4). destruct (HI y Hy) as (Y1 & Y2 & Y3 & Y4). destruct (HI z Hz) as (Z1 & Z2 & Z3 & Z4).
  assert (R : forall t a1 a2 a3 a4, through t a1 a2 a3 a4 q4 q1 q2 q3 = through t a2 a3 a4 a1 q1 q2 q3 q4) by (intros; apply through_rot).
  assert (R2 : forall t a1 a2 a3 a4, through t a1 a2 a3 a4 q3 q4 q1 q2 = through t a3 a4 a1 a2 q1 q2 q3 q4) by (intros; rewrite through_rot; apply R).
  assert (R3 : forall t a1 a2 a3 a4, through t a1 a2 a3 a4 q2 q3 q4 q1 = through t a4 a1 a2 a3 q1 q2 q3 q4) by (intros; rewrite through_rot; apply R2).
  rewrite !R, !R2, !R3. rewrite W1, W2, W3, W4, X1, X2, X3, X4, Y1, Y2, Y3, Y4, Z1, Z2, Z3, Z4. unfold x4.
  rewrite ?Z.lxor_0_r, ?Z.lxor_0_l, ?Z.lxor_0_r. reflexivity.
Qed.
Lemma mix_mix p1 p2 p3 p4 q1 q2 q3 q4 : circ_inverse p1 p2 p3 p4 q1 q2 q3 q4 -> forall s, length s = 16%nat -> bytes s ->
  mix q1 q2 q3 q4 (mix p1 p2 p3 p4 s) = s.
Proof.
  intros HI. assert (G : forall k s, length s = (4 * k)%nat -> bytes s -> mix q1 q2 q3 q4 (mix p1 p2 p3 p4 s) = s).
  { induction k as [|k IH]; intros s L B; [destruct s; [reflexivity|discriminate L]|].
    do 4 (destruct s as [|? s]; [cbn in L; lia|]). apply bytes_cons in B. destruct B as (B1 & B). apply bytes_cons in B. destruct B as (B2 & B).
    apply bytes_cons in B. destruct B as (B3 & B). apply bytes_cons in B. destruct B as (B4 & B). rewrite mix_col by assumption. rewrite IH; [reflexivity|cbn in L; lia|exact B]. }
  intros s L. apply (G 4%nat). exact L.
Qed.
Lemma mix_bytes p1 p2 p3 p4 : forall k s, length s = (4 * k)%nat -> bytes s -> bytes (mix p1 p2 p3 p4 s) /\ length (mix p1 p2 p3 p4 s) = (4 * k)%nat.
Proof.
  induction k as [|k IH]; intros s L B; [destruct s; [split; [constructor|reflexivity]|discriminate L]|].
  do 4 (destruct s as [|? s]; [cbn in L; lia|]). apply bytes_cons in B. destruct B as (B1 & B). apply bytes_cons in B. destruct B as (B2 & B).
  apply bytes_cons in B. destruct B as (B3 & B). apply bytes_cons in B. destruct B as (B4 & B). destruct (IH s ltac:(cbn in L; lia) B) as (I1 & I2).
  cbn [mix]. split; [|cbn [length]; lia].
  do 4 (apply bytes_cons; split; [apply x4_byte; apply gmul_byte; assumption|]). exact I1.
Qed.

(* ---- states of 16 bytes ---- *)
Notation st s := (bytes s /\ length s = 16%nat).
Lemma st_xor a b : st a -> st b -> st (xor_bytes a b).
Proof.
  intros (A1 & A2) (B1 & B2). rewrite <- xor_eq. split; [apply xor_bytes_bytes; assumption|].
  pose proof (xor_len a b) as L. unfold len in L. lia.
Qed.
Lemma st_xor_twice a b : st a -> st b -> xor_bytes (xor_bytes a b) b = a.
Proof. intros (A1 & A2) (B1 & B2). rewrite <- !xor_eq. rewrite xor_comm. apply xor_twice. unfold len. lia. Qed.
Lemma nth_byte s i : bytes s -> 0 <= nth i s 0 < 256.
Proof.
  intros B. destruct (Nat.lt_ge_cases i (length s)) as [L|L]; [|rewrite nth_overflow by exact L; lia].
  unfold bytes in B. rewrite Forall_forall in B. apply (B _ (nth_In s 0 L)).
Qed.
Lemma st_perm p s : st s -> length p = 16%nat -> st (perm p s).
Proof.
  intros (B & _) L. unfold perm. split; [|rewrite map_length; exact L]. unfold bytes. apply Forall_forall. intros x H. apply in_map_iff in H.
  destruct H as (i & <- & _). apply nth_byte, B.
Qed.
Lemma st_sub s : st s -> st (map sub s).
Proof. intros (B & L). split; [|rewrite map_length; exact L]. unfold bytes. apply Forall_forall. intros x H. apply in_map_iff in H. destruct H as (i & <- & _). apply sub_byte. Qed.
Lemma st_inv_sub s : st s -> st (map inv_sub s).
Proof. intros (B & L). split; [|rewrite map_length; exact L]. unfold bytes. apply Forall_forall. intros x H. apply in_map_iff in H. destruct H as (i & <- & _). apply inv_sub_byte. Qed.
Lemma map_inv (f g : Z -> Z) s : (forall x, 0 <= x < 256 -> f (g x) = x) -> bytes s -> map f (map g s) = s.
Proof. intros H B. rewrite map_map. induction B as [|x l X B IH]; [reflexivity|]. cbn [map]. rewrite H by exact X. rewrite IH. reflexivity. Qed.
Ltac sixteen s H := let L := fresh in destruct H as (_ & L); do 17 (destruct s as [|? s]; try discriminate L).
Lemma shift_inv s : st s -> inv_shift_rows (shift_rows s) = s.
Proof. intros H. sixteen s H. reflexivity. Qed.
Lemma inv_shift s : st s -> shift_rows (inv_shift_rows s) = s.
Proof. intros H. sixteen s H. reflexivity. Qed.
Lemma st_shift s : st s -> st (shift_rows s).
Proof. intros H. apply st_perm; [exact H|reflexivity]. Qed.
Lemma st_inv_shift s : st s -> st (inv_shift_rows s).
Proof. intros H. apply st_perm; [exact H|reflexivity]. Qed.
Lemma st_mix s : st s -> st (mix_columns s).
Proof. intros (B & L). apply (mix_bytes _ _ _ _ 4%nat); assumption. Qed.
Lemma st_inv_mix s : st s -> st (inv_mix_columns s).
Proof. intros (B & L). apply (mix_bytes _ _ _ _ 4%nat); assumption. Qed.
Lemma mix_inv s : st s -> inv_mix_columns (mix_columns s) = s.
Proof. intros (B & L). apply mix_mix; [apply mix_inverse|exact L|exact B]. Qed.
Lemma inv_mix s : st s -> mix_columns (inv_mix_columns s) = s.
Proof. intros (B & L). apply mix_mix; [apply mix_inverse|exact L|exact B]. Qed.
Lemma st_ss s : st s -> st (shift_rows (map sub s)).
Proof. intros H. apply st_shift, st_sub, H. Qed.
Lemma st_iss s : st s -> st (map inv_sub (inv_shift_rows s)).
Proof. intros H. apply st_inv_sub, st_inv_shift, H. Qed.
Lemma ss_inv s : st s -> map inv_sub (inv_shift_rows (shift_rows (map sub s))) = s.
Proof. intros H. rewrite shift_inv by (apply st_sub, H). apply map_inv; [apply sub_inv|apply H]. Qed.
Lemma iss_inv s : st s -> shift_rows (map sub (map inv_sub (inv_shift_rows s))) = s.
Proof. intros H. rewrite (map_inv sub inv_sub) by (try exact inv_sub_sub; apply (st_inv_shift s H)). apply inv_shift, H. Qed.

(* ---- rounds ---- *)
Lemma enc_rounds_cons k keys s : keys <> [] -> enc_rounds (k :: keys) s = enc_rounds keys (xor_bytes (mix_columns (shift_rows (map sub s))) k).
Proof. destruct keys; [congruence|reflexivity]. Qed.
Lemma dec_rounds_cons k keys s : keys <> [] -> dec_rounds (k :: keys) s = dec_rounds keys (inv_mix_columns (xor_bytes (map inv_sub (inv_shift_rows s)) k)).
Proof. destruct keys; [congruence|reflexivity]. Qed.
Lemma st_enc_rounds : forall keys s, Forall (fun k => st k) keys -> st s -> st (enc_rounds keys s).
Proof.
  induction keys as [|k keys IH]; intros s F H; [exact H|]. pose proof (Forall_inv F) as K. apply Forall_inv_tail in F. destruct keys as [|k2 keys].
  - cbn [enc_rounds]. apply st_xor; [apply st_ss, H|exact K].
  - rewrite enc_rounds_cons by discriminate. apply IH; [exact F|]. apply st_xor; [apply st_mix, st_ss, H|exact K].
Qed.
Lemma st_dec_rounds : forall keys s, Forall (fun k => st k) keys -> st s -> st (dec_rounds keys s).
Proof.
  induction keys as [|k keys IH]; intros s F H; [exact H|]. pose proof (Forall_inv F) as K. apply Forall_inv_tail in F. destruct keys as [|k2 keys].
  - cbn [dec_rounds]. apply st_xor; [apply st_iss, H|exact K].
  - rewrite dec_rounds_cons by discriminate. apply IH; [exact F|]. apply st_inv_mix, st_xor; [apply st_iss, H|exact K].
Qed.
Lemma dec_enc_rounds : forall keys s kl r tl, Forall (fun k => st k) keys -> st s -> rev keys = kl :: r -> tl <> [] ->
  dec_rounds (r ++ tl) (xor_bytes (enc_rounds keys s) kl) = dec_rounds tl (shift_rows (map sub s)).
Proof.
  induction keys as [|k keys IH]; intros s kl r tl F H E N; [discriminate E|]. pose proof (Forall_inv F) as K. apply Forall_inv_tail in F.
  destruct keys as [|k2 keys].
  - cbn in E. injection E as <- <-. cbn [enc_rounds app]. rewrite st_xor_twice by (try exact K; apply st_ss, H). reflexivity.
  - rewrite enc_rounds_cons by discriminate. cbn [rev] in E. destruct (rev keys ++ [k2]) as [|kl' r'] eqn:ER; [apply app_eq_nil in ER; destruct ER; discriminate|].
    cbn [app] in E. injection E as -> <-. rewrite <- app_assoc. cbn [app].
    pose proof (st_mix _ (st_ss s H)) as M.
    rewrite (IH _ kl r' (k :: tl)); [|exact F|apply st_xor; assumption|exact ER|discriminate].
    rewrite dec_rounds_cons by exact N. rewrite ss_inv by (apply st_xor; assumption). rewrite st_xor_twice by assumption. rewrite mix_inv by (apply st_ss, H). reflexivity.
Qed.
Lemma enc_dec_rounds : forall keys s kl r tl, Forall (fun k => st k) keys -> st s -> rev keys = kl :: r -> tl <> [] ->
  enc_rounds (r ++ tl) (xor_bytes (dec_rounds keys s) kl) = enc_rounds tl (map inv_sub (inv_shift_rows s)).
Proof.
  induction keys as [|k keys IH]; intros s kl r tl F H E N; [discriminate E|]. pose proof (Forall_inv F) as K. apply Forall_inv_tail in F.
  destruct keys as [|k2 keys].
  - cbn in E. injection E as <- <-. cbn [dec_rounds app]. rewrite st_xor_twice by (try exact K; apply st_iss, H). reflexivity.
  - rewrite dec_rounds_cons by discriminate. cbn [rev] in E. destruct (rev keys ++ [k2]) as [|kl' r'] eqn:ER; [apply app_eq_nil in ER; destruct ER; discriminate|].
    cbn [app] in E. injection E as -> <-. rewrite <- app_assoc. cbn [app].
    pose proof (st_xor _ _ (st_iss s H) K) as M.
    rewrite (IH _ kl r' (k :: tl)); [|exact F|apply st_inv_mix; assumption|exact ER|discriminate].
    rewrite enc_rounds_cons by exact N. rewrite iss_inv by (apply st_inv_mix; assumption). rewrite inv_mix by assumption.
    rewrite st_xor_twice by (try exact K; apply st_iss, H). reflexivity.
Qed.

(* ---- round keys ---- *)
Notation w4 w := (bytes w /\ length w = 4%nat).
Lemma expand_ok nk : forall fuel i rcon w, (1 <= nk)%nat -> (nk <= length w)%nat -> 0 <= rcon < 256 -> Forall (fun x => w4 x) w ->
  Forall (fun x => w4 x) (expand nk fuel i rcon w) /\ length (expand nk fuel i rcon w) = (length w + fuel)%nat.
Proof.
  induction fuel as [|fuel IH]; intros i rcon w Hn HL HR F; cbn [expand]; [split; [exact F|lia]|].
  assert (W : forall n, (n < length w)%nat -> w4 (nth n w [])).
  { intros n L. rewrite Forall_forall in F. apply F, nth_In, L. }
  assert (T : w4 (hd [] w)) by (destruct w as [|x w]; [cbn in HL; lia|]; apply (Forall_inv F)).
  assert (S4 : forall l, w4 l -> w4 (map sub l)).
  { intros l (B & L). split; [|rewrite map_length; exact L]. unfold bytes. apply Forall_forall. intros x Hx. apply in_map_iff in Hx. destruct Hx as (y & <- & _). apply sub_byte. }
  assert (X4 : forall a b, w4 a -> w4 b -> w4 (xor_bytes a b)).
  { intros a b (A1 & A2) (B1 & B2). rewrite <- xor_eq. split; [apply xor_bytes_bytes; assumption|]. pose proof (xor_len a b) as L. unfold len in L. lia. }
  edestruct (IH (S i) (if (Nat.modulo i nk =? 0)%nat then xtime rcon else rcon)) as (I1 & I2); [exact Hn| | | |split; [exact I1|rewrite I2; cbn [length]; lia]].
  - cbn [length]. lia.
  - destruct (Nat.modulo i nk =? 0)%nat; [apply xtime_byte, HR|exact HR].
  - constructor; [|exact F]. apply X4; [apply W; lia|]. remember (hd [] w) as t0 eqn:Et. clear Et. destruct (Nat.modulo i nk =? 0)%nat.
    + apply X4.
      * apply S4. destruct T as (B & L). split; [apply bytes_app; split; [apply bytes_skipn, B|apply bytes_firstn, B]|]. rewrite app_length, skipn_length, firstn_length. lia.
      * split; [|reflexivity]. repeat (constructor; [unfold is_byte; lia|]). constructor.
    + destruct ((6 <? nk) && (Nat.modulo i nk =? 4))%nat; [apply S4, T|exact T].
Qed.
Lemma split_ok n : forall k l, length l = (k * n)%nat -> bytes l -> Forall (fun x => bytes x /\ length x = n) (split n k l) /\ length (split n k l) = k.
Proof.
  induction k as [|k IH]; intros l L B; cbn [split]; [split; [constructor|reflexivity]|].
  destruct (IH (skipn n l)) as (I1 & I2); [rewrite skipn_length; lia|apply bytes_skipn, B|].
  split; [constructor; [split; [apply bytes_firstn, B|rewrite firstn_length; lia]|exact I1]|cbn [length]; lia].
Qed.
Lemma concat4 l : Forall (fun x => w4 x) l -> bytes (concat l) /\ length (concat l) = (4 * length l)%nat.
Proof.
  induction 1 as [|x l (B & L) F (I1 & I2)]; [split; [constructor|reflexivity]|]. cbn [concat length]. split; [apply bytes_app; auto|rewrite app_length; lia].
Qed.
Lemma round_keys_ok key nk : bytes key -> length key = (4 * nk)%nat -> (1 <= nk)%nat ->
  Forall (fun k => st k) (round_keys key) /\ length (round_keys key) = (nk + 7)%nat.
Proof.
  intros B L Hn. unfold round_keys. replace (Nat.div (length key) 4) with nk by (rewrite L, Nat.mul_comm, Nat.div_mul; lia).
  destruct (split_ok 4 nk key ltac:(lia) B) as (S1 & S2).
  destruct (expand_ok nk (4 * (nk + 7) - nk) nk 1 (rev (split 4 nk key)) Hn) as (E1 & E2); [rewrite rev_length; lia|lia|apply Forall_rev, S1|].
  rewrite rev_length, S2 in E2. remember (expand nk (4 * (nk + 7) - nk) nk 1 (rev (split 4 nk key))) as e eqn:Ee. clear Ee.
  destruct (concat4 (rev e) ltac:(apply Forall_rev, E1)) as (C1 & C2). rewrite rev_length in C2. apply split_ok; [lia|exact C1].
Qed.

Theorem aes_cipher key : bytes key -> len key = 16 \/ len key = 24 \/ len key = 32 -> block_cipher (aes_enc key) (aes_dec key).
Proof.
  intros B L. assert (exists nk, length key = (4 * nk)%nat /\ (1 <= nk)%nat) as (nk & L4 & Hn) by (unfold len in L; exists (Nat.div (length key) 4); split; [|]; destruct L as [L|[L|L]]; [replace (length key) with 16%nat by lia|replace (length key) with 24%nat by lia|replace (length key) with 32%nat by lia|replace (length key) with 16%nat by lia|replace (length key) with 24%nat by lia|replace (length key) with 32%nat by lia]; cbn; lia).
  destruct (round_keys_ok key nk B L4 Hn) as (RK & RL).
  intros b Bb Lb. assert (Sb : st b) by (split; [exact Bb|unfold len in Lb; lia]). clear Bb Lb.
  unfold aes_enc, aes_dec. remember (round_keys key) as ks eqn:Ek. clear Ek.
  assert (exists k0 mid kl, ks = k0 :: mid ++ [kl]) as (k0 & mid & kl & ->).
  { destruct ks as [|k0 ks]; [cbn in RL; lia|]. destruct (exists_last (l := ks)) as (mid & kl & ->); [intros ->; cbn in RL; lia|]. eauto. }
  pose proof (Forall_inv RK) as K0. apply Forall_inv_tail in RK. pose proof RK as RK'. apply Forall_app in RK'. destruct RK' as (Rm & Rl). apply Forall_inv in Rl.
  cbn [rev]. rewrite rev_app_distr. cbn [rev app].
  assert (ST : forall s, st s -> bytes s /\ len s = 16) by (intros s (S1 & S2); split; [exact S1|unfold len; lia]).
  assert (E1 : st (enc_rounds (mid ++ [kl]) (xor_bytes b k0))) by (apply st_enc_rounds; [exact RK|apply st_xor; assumption]).
  assert (RF : Forall (fun k => st k) (rev mid ++ [k0])) by (apply Forall_app; split; [apply Forall_rev, Rm|constructor; [exact K0|constructor]]).
  assert (D1 : st (dec_rounds (rev mid ++ [k0]) (xor_bytes b kl))) by (apply st_dec_rounds; [exact RF|apply st_xor; assumption]).
  split; [apply ST, E1|]. split; [apply ST, D1|]. split.
  - rewrite (dec_enc_rounds (mid ++ [kl]) (xor_bytes b k0) kl (rev mid) [k0]); [|exact RK|apply st_xor; assumption|rewrite rev_app_distr; reflexivity|discriminate].
    cbn [dec_rounds]. rewrite ss_inv by (apply st_xor; assumption). apply st_xor_twice; assumption.
  - rewrite <- (rev_involutive mid) at 1.
    rewrite (enc_dec_rounds (rev mid ++ [k0]) (xor_bytes b kl) k0 (rev (rev mid)) [kl]); [|exact RF|apply st_xor; assumption|rewrite rev_app_distr; reflexivity|discriminate].
    cbn [enc_rounds]. rewrite iss_inv by (apply st_xor; assumption). apply st_xor_twice; assumption.
Qed.

(* ---- hashes ---- *)
Lemma sha256_bytes m : bytes (sha256 m).
Proof.
  unfold sha256. remember (fold_left _ _ _) as l eqn:E. clear E. induction l as [|x l IH]; [constructor|]. cbn [flat_map]. apply bytes_app. split; [apply be_enc_bytes|exact IH].
Qed.
Lemma hmac_sha256_bytes k d : bytes (hmac_sha256 k d).
Proof. apply sha256_bytes. Qed.

(* ---- XTS ---- *)
Lemma le_enc_st v : st (le_enc 16 v).
Proof. split; [apply le_enc_bytes|]. pose proof (le_enc_len 16 v) as L. unfold len in L. lia. Qed.
Lemma st_xtime128 t : st (xtime128 t).
Proof. apply le_enc_st. Qed.
Lemma xts_blocks_ok enc dec : block_cipher enc dec -> forall l t, Forall (fun b => st b) l -> st t ->
  exists l', Forall (fun b => st b) l' /\ length l' = length l /\ xts_blocks enc t l = concat l' /\ xts_blocks dec t l' = concat l.
Proof.
  intros HC. induction l as [|b l IH]; intros t F T; [exists []; split; [constructor|]; split; [reflexivity|]; split; reflexivity|].
  pose proof (Forall_inv F) as B. destruct (IH (xtime128 t) (Forall_inv_tail F) (st_xtime128 t)) as (l' & I1 & I2 & I3 & I4).
  pose proof (st_xor b t B T) as X. destruct (HC (xor_bytes b t)) as ((E1 & E2) & _ & E3 & _); [apply X|destruct X as (_ & X); unfold len; lia|].
  assert (SE : st (enc (xor_bytes b t))) by (split; [exact E1|unfold len in E2; lia]).
  exists (xor_bytes (enc (xor_bytes b t)) t :: l'). split; [constructor; [apply st_xor; assumption|exact I1]|]. split; [cbn [length]; lia|].
  cbn [xts_blocks concat]. rewrite I3, I4. split; [reflexivity|]. rewrite st_xor_twice by assumption. rewrite E3. rewrite st_xor_twice by assumption. reflexivity.
Qed.
Lemma xts_blocks_st f : (forall b, st b -> st (f b)) -> forall l t, Forall (fun b => st b) l -> st t ->
  bytes (xts_blocks f t l) /\ length (xts_blocks f t l) = (16 * length l)%nat.
Proof.
  intros H. induction l as [|b l IH]; intros t F T; [split; [constructor|reflexivity]|]. pose proof (Forall_inv F) as B.
  destruct (IH (xtime128 t) (Forall_inv_tail F) (st_xtime128 t)) as (I1 & I2). cbn [xts_blocks].
  destruct (st_xor _ _ (H _ (st_xor b t B T)) T) as (X1 & X2). split; [apply bytes_app; auto|rewrite app_length; cbn [length]; lia].
Qed.
Lemma split_concat n : forall l, (1 <= n)%nat -> Forall (fun b => bytes b /\ length b = n) l -> split n (length l) (concat l) = l.
Proof.
  intros l Hn. induction l as [|b l IH]; intros F; [reflexivity|]. pose proof (Forall_inv F) as (B & L). cbn [length concat split].
  rewrite firstn_app, skipn_app. rewrite (firstn_all2 (n := n) b) by lia. rewrite (skipn_all2 (n := n) b) by lia. replace (n - length b)%nat with 0%nat by lia.
  rewrite firstn_O, skipn_O, app_nil_r, app_nil_l, (IH (Forall_inv_tail F)). reflexivity.
Qed.
Lemma concat_split n : forall k l, length l = (k * n)%nat -> concat (split n k l) = l.
Proof.
  induction k as [|k IH]; intros l L; [destruct l; [reflexivity|discriminate L]|]. cbn [split concat]. rewrite IH by (rewrite skipn_length; lia). apply firstn_skipn.
Qed.
Theorem xts_cipher key1 key2 n : bytes key1 -> len key1 = 16 \/ len key1 = 32 -> bytes key2 -> len key2 = 16 \/ len key2 = 32 -> n mod 16 = 0 ->
  unit_cipher n (xts_enc key1 key2) (xts_dec key1 key2).
Proof.
  intros B1 L1 B2 L2 Hn m s Bs Ls. pose proof (aes_cipher key1 B1 ltac:(lia)) as C1. pose proof (aes_cipher key2 B2 ltac:(lia)) as C2.
  assert (T : st (aes_enc key2 (data_unit m))).
  { destruct (le_enc_st (m mod 2 ^ 64)) as (D1 & D2). destruct (C2 (data_unit m)) as ((E1 & E2) & _); [exact D1|unfold len, data_unit; lia|]. split; [exact E1|unfold len in E2; lia]. }
  assert (exists k, length s = (k * 16)%nat) as (k & Lk) by (exists (Z.to_nat (len s / 16)); unfold len in *; lia).
  unfold xts_enc, xts_dec. assert (Dk : forall x : list Z, length x = (k * 16)%nat -> Nat.div (length x) 16 = k) by (intros x ->; apply Nat.div_mul; lia).
  rewrite (Dk s Lk). destruct (split_ok 16 k s Lk Bs) as (S1 & S2).
  assert (SC : forall f g, block_cipher f g -> (forall b, st b -> st (f b)) /\ (forall b, st b -> st (g b))).
  { intros f g HC. split; intros b (Bb & Lb); destruct (HC b Bb ltac:(unfold len; lia)) as ((F1 & F2) & (G1 & G2) & _); split; try assumption; unfold len in *; lia. }
  destruct (SC _ _ C1) as (SE & SD).
  destruct (xts_blocks_ok _ _ C1 (split 16 k s) _ S1 T) as (l' & I1 & I2 & I3 & I4).
  destruct (xts_blocks_st _ SE (split 16 k s) _ S1 T) as (X1 & X2). destruct (xts_blocks_st _ SD (split 16 k s) _ S1 T) as (Y1 & Y2).
  rewrite S2 in *. split; [split; [exact X1|unfold len in *; lia]|]. split; [split; [exact Y1|unfold len in *; lia]|].
  rewrite (Dk _ ltac:(rewrite X2; lia)). rewrite I3. replace k with (length l') by lia. rewrite split_concat by (try exact I1; lia).
  rewrite I4. apply concat_split. exact Lk.
Qed.
