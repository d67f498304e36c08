(* Proofs about the DEFLATE decoder (Deflate.v). *)
From Verif Require Import Base BaseLemmas BitStream Huffman Deflate DeflateSpec BitProofs HuffProofs.
Ltac Zify.zify_post_hook ::= Z.div_mod_to_equations.

(* ---- matches ---- *)

Lemma match_bytes_len out l d : 0 <= l -> len (match_bytes out l d) = l.
Proof. intros. unfold match_bytes, len. rewrite map_length, seq_length. lia. Qed.

Lemma match_bytes_snoc out j d : 0 <= j ->
  match_bytes out (j + 1) d = match_bytes out j d ++ [nth (Z.to_nat (len out - d + j mod d)) out 0].
Proof.
  intros. unfold match_bytes. replace (Z.to_nat (j + 1)) with (S (Z.to_nat j)) by lia.
  rewrite seq_S, map_app. cbn [map Nat.add]. rewrite Z2Nat.id by lia. reflexivity.
Qed.

Lemma getb_app_l {A} (a b : list A) i : 0 <= i < len a -> getb (a ++ b) i = getb a i.
Proof.
  intros. unfold getb. rewrite len_app. pose proof (len_nonneg b).
  replace ((0 <=? i) && (i <? len a + len b)) with true by lia.
  replace ((0 <=? i) && (i <? len a)) with true by lia.
  rewrite nth_error_app1; auto. unfold len in *. lia.
Qed.
Lemma getb_app_r {A} (a b : list A) i : len a <= i -> getb (a ++ b) i = getb b (i - len a).
Proof.
  intros. unfold getb. rewrite len_app. pose proof (len_nonneg a).
  destruct ((0 <=? i) && (i <? len a + len b)) eqn:E.
  - replace ((0 <=? i - len a) && (i - len a <? len b)) with true by lia.
    rewrite nth_error_app2 by (unfold len in *; lia).
    replace (Z.to_nat i - length a)%nat with (Z.to_nat (i - len a)) by (unfold len in *; lia). auto.
  - replace ((0 <=? i - len a) && (i - len a <? len b)) with false by lia. auto.
Qed.

Lemma getb_match out j i d : 0 <= i < j -> 1 <= d <= len out ->
  getb (match_bytes out j d) i = Ok (nth (Z.to_nat (len out - d + i mod d)) out 0).
Proof.
  intros H Hd. rewrite getb_znth by (rewrite match_bytes_len; lia). f_equal.
  unfold znth, match_bytes.
  rewrite nth_indep with (d' := (fun i0 : nat => nth (Z.to_nat (len out - d + Z.of_nat i0 mod d)) out 0) O).
  2:{ rewrite map_length, seq_length. lia. }
  rewrite (map_nth (fun i0 : nat => nth (Z.to_nat (len out - d + Z.of_nat i0 mod d)) out 0)).
  rewrite seq_nth by lia. simpl Nat.add. rewrite Z2Nat.id by lia. reflexivity.
Qed.

Lemma copy_match_spec d cap out : 1 <= d <= len out ->
  forall k j, 0 <= j -> len out + j + Z.of_nat k <= cap ->
  copy_match k d cap (out ++ match_bytes out j d) = Ok (out ++ match_bytes out (j + Z.of_nat k) d).
Proof.
  intros Hd. induction k; intros j Hj Hc.
  - cbn [copy_match]. do 3 f_equal. lia.
  - cbn [copy_match]. rewrite len_app, match_bytes_len by lia.
    assert (G : getb (out ++ match_bytes out j d) (len out + j - d) =
                Ok (nth (Z.to_nat (len out - d + j mod d)) out 0)).
    { destruct (Z.lt_ge_cases j d).
      - rewrite getb_app_l, getb_znth by lia. unfold znth. do 3 f_equal. rewrite Z.mod_small; lia.
      - rewrite getb_app_r by lia. rewrite getb_match by lia. do 4 f_equal.
        replace (len out + j - d - len out) with (j + (-1) * d) by lia.
        apply Z.mod_add. lia. }
    rewrite G. cbn [bind]. unfold put. rewrite len_app, match_bytes_len by lia.
    replace (len out + j <? cap) with true by lia. cbn [bind].
    rewrite <- app_assoc, <- match_bytes_snoc by lia.
    rewrite IHk by lia. do 3 f_equal. lia.
Qed.

Lemma copy_match_0 d cap out k : 1 <= d <= len out -> len out + Z.of_nat k <= cap ->
  copy_match k d cap out = Ok (out ++ match_bytes out (Z.of_nat k) d).
Proof.
  intros. pose proof (copy_match_spec d cap out H k 0 ltac:(lia) ltac:(lia)) as E.
  change (match_bytes out 0 d) with (@nil Z) in E. rewrite app_nil_r in E. exact E.
Qed.

(* ---- tables ---- *)

Lemma len_tables k : (k < 29)%nat -> exists eb base, nth_error len_table k = Some (eb, base) /\
  getb literal_codes_extra (Z.of_nat k) = Ok eb /\ getb literal_codes_base (Z.of_nat k) = Ok base /\
  0 <= eb <= 5 /\ 3 <= base <= 258.
Proof.
  intros. do 29 (destruct k as [|k]; [do 2 eexists; split; [reflexivity|]; split; [reflexivity|]; split; [reflexivity|lia]|]).
  lia.
Qed.
Lemma dist_tables k : (k < 30)%nat -> exists eb base, nth_error dist_table k = Some (eb, base) /\
  getb distance_codes_extra (Z.of_nat k) = Ok eb /\ getb distance_codes_base (Z.of_nat k) = Ok base /\
  0 <= eb <= 13 /\ 1 <= base <= 24577.
Proof.
  intros. do 30 (destruct k as [|k]; [do 2 eexists; split; [reflexivity|]; split; [reflexivity|]; split; [reflexivity|lia]|]).
  lia.
Qed.

Lemma nth_len_table k eb base : nth_error len_table k = Some (eb, base) -> (k < 29)%nat.
Proof. intros H. assert (nth_error len_table k <> None) as N by congruence. apply nth_error_Some in N. exact N. Qed.
Lemma nth_dist_table k eb base : nth_error dist_table k = Some (eb, base) -> (k < 30)%nat.
Proof. intros H. assert (nth_error dist_table k <> None) as N by congruence. apply nth_error_Some in N. exact N. Qed.

Lemma pow2_le a b : 0 <= a <= b -> 2 ^ a <= 2 ^ b.
Proof. intros; apply Z.pow_le_mono_r; lia. Qed.

(* ---- decoding the symbols of a block ---- *)

Lemma expand_len ts : forall out, len out <= len (expand out ts).
Proof.
  induction ts as [|[b|l d] ts IH]; intros out; cbn [expand]; [lia| |].
  - specialize (IH (out ++ [b])). rewrite len_app in IH. change (len [b]) with 1 in IH. lia.
  - specialize (IH (out ++ match_bytes out l d)). rewrite len_app in IH.
    pose proof (len_nonneg (match_bytes out l d)). lia.
Qed.

Lemma decode_complete ll dl lit dist cap : tree_of 15 ll lit -> tree_of 15 dl dist ->
  forall ts bs, tokens_enc ll dl ts bs -> forall f out s rest,
  bs_inv s -> bs_rem s = bs ++ rest -> dist_ok out ts -> len (expand out ts) <= cap ->
  (length bs < f)%nat ->
  exists s', decode_loop f lit dist cap out s = Ok (expand out ts, s') /\
    bs_inv s' /\ bs_data s' = bs_data s /\ bs_rem s' = rest.
Proof.
  intros TL TD. pose proof TL as (_ & _ & _ & _ & _ & PL). pose proof TD as (_ & _ & _ & _ & _ & PD).
  induction 1 as [C|t ts b bs Ht Hts IH]; intros f out s rest I R DO Hc Hf.
  - destruct f as [|f]; [lia|]. cbn [decode_loop].
    destruct (huff_get_complete 15 ll lit 256 s rest TL ltac:(lia) C I R) as (s' & E & I' & D' & R').
    rewrite E. cbn [bind]. exists s'. auto.
  - rewrite app_length in Hf.
    destruct f as [|f]; [lia|]. cbn [decode_loop].
    destruct Ht as [c Hcr Hcd|ls ds leb lbase deb dbase lx dx N1 N2 X1 X2 C1 C2].
    + rewrite <- app_assoc in R.
      destruct (huff_get_complete 15 ll lit _ s _ TL ltac:(lia) Hcd I R) as (s' & E & I' & D' & R').
      rewrite E. cbn [bind]. rewrite Z2Nat.id by lia. replace (c <? 256) with true by lia.
      cbn [expand dist_ok] in *. pose proof (expand_len ts (out ++ [c])) as EL.
      rewrite len_app in EL. change (len [c]) with 1 in EL.
      replace (negb (cap <=? len out)) with true by lia. cbn [check bind]. unfold put.
      replace (len out <? cap) with true by lia. cbn [bind].
      assert (W : w8 c = c) by (apply Z.mod_small; lia). rewrite W.
      pose proof (codeword_len 15 ll _ ltac:(lia) PL Hcd) as CL. unfold len in CL.
      destruct (IH f (out ++ [c]) s' rest I' R' DO Hc ltac:(lia)) as (s2 & E2 & I2 & D2 & R2).
      exists s2. rewrite E2. split; auto. split; auto. split; [congruence|auto].
    + pose proof (nth_len_table _ _ _ N1) as K1. pose proof (nth_dist_table _ _ _ N2) as K2.
      destruct (len_tables ls K1) as (eb & base & T1 & T2 & T3 & T4 & T5).
      destruct (dist_tables ds K2) as (eb2 & base2 & U1 & U2 & U3 & U4 & U5).
      assert (eb = leb /\ base = lbase) as (-> & ->) by (split; congruence).
      assert (eb2 = deb /\ base2 = dbase) as (-> & ->) by (split; congruence).
      clear T1 U1.
      rewrite <- !app_assoc in R.
      pose proof (pow2_le leb 5 ltac:(lia)). pose proof (pow2_le deb 13 ltac:(lia)).
      change (2 ^ 5) with 32 in *. change (2 ^ 13) with 8192 in *.
      destruct (huff_get_complete 15 ll lit _ s _ TL ltac:(lia) C1 I R) as (s1 & E1 & I1 & D1 & R1).
      rewrite E1. cbn [bind].
      replace (Z.of_nat (257 + ls) <? 256) with false by lia.
      replace ((256 <? Z.of_nat (257 + ls)) && (Z.of_nat (257 + ls) <? 286)) with true by lia.
      replace (Z.of_nat (257 + ls) - 257) with (Z.of_nat ls) by lia.
      rewrite T2. cbn [bind].
      assert (W8 : w8 leb = leb) by (unfold w8; apply Z.mod_small; change (2 ^ 8) with 256; lia). rewrite W8.
      destruct (bs_get_app s1 leb _ _ I1 ltac:(apply width25; auto; lia) R1) as (s2 & E2 & I2 & D2 & R2).
      { rewrite lsb_bits_len. lia. }
      rewrite E2. cbn [bind]. rewrite T3. cbn [bind].
      rewrite lsb_val_bits, Z2Nat.id by lia. rewrite (Z.mod_small lx) by lia.
      assert (W16a : w16 lx = lx) by (unfold w16; apply Z.mod_small; change (2 ^ 16) with 65536; lia). rewrite W16a.
      assert (W16b : w16 (lbase + lx) = lbase + lx) by (unfold w16; apply Z.mod_small; change (2 ^ 16) with 65536; lia). rewrite W16b.
      destruct (huff_get_complete 15 dl dist _ s2 _ TD ltac:(lia) C2 I2 R2) as (s3 & E3 & I3 & D3 & R3).
      rewrite E3. cbn [bind]. rewrite U2. cbn [bind].
      assert (W8' : w8 deb = deb) by (unfold w8; apply Z.mod_small; change (2 ^ 8) with 256; lia). rewrite W8'.
      destruct (bs_get_app s3 deb _ _ I3 ltac:(apply width25; auto; lia) R3) as (s4 & E4 & I4 & D4 & R4).
      { rewrite lsb_bits_len. lia. }
      rewrite E4. cbn [bind]. rewrite U3. cbn [bind].
      rewrite lsb_val_bits, Z2Nat.id by lia. rewrite (Z.mod_small dx) by lia.
      assert (W16c : w16 dx = dx) by (unfold w16; apply Z.mod_small; change (2 ^ 16) with 65536; lia). rewrite W16c.
      assert (W16d : w16 (dbase + dx) = dbase + dx) by (unfold w16; apply Z.mod_small; change (2 ^ 16) with 65536; lia). rewrite W16d.
      cbn [expand dist_ok] in *. destruct DO as (DO1 & DO2).
      pose proof (expand_len ts (out ++ match_bytes out (lbase + lx) (dbase + dx))) as EL.
      rewrite len_app, match_bytes_len in EL by lia.
      replace (negb (len out <? dbase + dx)) with true by lia.
      replace (negb (cap <? len out + (lbase + lx))) with true by lia. cbn [check bind].
      rewrite copy_match_0 by lia. rewrite Z2Nat.id by lia. cbn [bind].
      pose proof (codeword_len 15 ll _ ltac:(lia) PL C1) as CL. unfold len in CL.
      rewrite app_length in Hf.
      destruct (IH f (out ++ match_bytes out (lbase + lx) (dbase + dx)) s4 rest I4 R4 DO2 Hc ltac:(lia)) as (s5 & E5 & I5 & D5 & R5).
      exists s5. rewrite E5. split; auto. split; auto. split; [congruence|auto].
Qed.

Lemma bs_get_cases s n : bs_inv s -> 0 <= n <= 24 ->
  bs_get s n = Fail \/ exists a s', bs_get s n = Ok (lsb_val a, s') /\ len a = n /\
    bs_rem s = a ++ bs_rem s' /\ bs_inv s' /\ bs_data s' = bs_data s.
Proof.
  intros I Hn. pose proof (width25 s n I Hn) as W.
  destruct (bs_get s n) as [[v s']| | |] eqn:E; auto.
  - right. apply bs_get_inv in E; auto. destruct E as (a & A1 & -> & A2 & A3 & A4). exists a, s'. auto.
  - destruct (bs_get_safe s n I W); congruence.
  - destruct (bs_get_safe s n I W); congruence.
Qed.

Lemma bits_as_lsb a n : len a = n -> 0 <= n -> a = lsb_bits (Z.to_nat n) (lsb_val a) /\ 0 <= lsb_val a < 2 ^ n.
Proof.
  intros <- _. split; [|apply lsb_val_range]. unfold len. rewrite Nat2Z.id. symmetry. apply lsb_bits_val.
Qed.

Lemma decode_sound ll dl lit dist cap : tree_of 15 ll lit -> tree_of 15 dl dist -> len dl <= 30 ->
  forall f out s, bs_inv s -> len out <= cap -> (length (bs_rem s) < f)%nat ->
  decode_loop f lit dist cap out s = Fail \/
  exists ts bs s', decode_loop f lit dist cap out s = Ok (expand out ts, s') /\
    tokens_enc ll dl ts bs /\ bs_rem s = bs ++ bs_rem s' /\ dist_ok out ts /\
    len (expand out ts) <= cap /\ bs_inv s' /\ bs_data s' = bs_data s.
Proof.
  intros TL TD Hdl. pose proof TL as (_ & _ & _ & _ & _ & PL). pose proof TD as (_ & _ & _ & _ & _ & PD).
  induction f as [|f IH]; intros out s I Hc Hf; [lia|].
  cbn [decode_loop].
  destruct (huff_get_sound 15 ll lit s TL ltac:(lia) I) as [E1|(sym & s1 & E1 & C1 & R1 & I1 & D1)]; rewrite E1; cbn [bind]; [auto|].
  pose proof (codeword_len 15 ll sym ltac:(lia) PL C1) as CL1. unfold len in CL1.
  destruct (Z.of_nat sym <? 256) eqn:B1.
  { destruct (cap <=? len out) eqn:B2; cbn [negb check bind]; auto.
    unfold put. replace (len out <? cap) with true by lia. cbn [bind].
    assert (W : w8 (Z.of_nat sym) = Z.of_nat sym) by (unfold w8; apply Z.mod_small; change (2 ^ 8) with 256; lia).
    rewrite W.
    destruct (IH (out ++ [Z.of_nat sym]) s1) as [E|(ts & bs & s' & E & X1 & X2 & X3 & X4 & X5 & X6)]; auto.
    - rewrite len_app. change (len [Z.of_nat sym]) with 1. lia.
    - rewrite R1, app_length in Hf. lia.
    - right. exists (Lit (Z.of_nat sym) :: ts), (codeword ll sym ++ bs), s'. cbn [expand dist_ok].
      split; auto. split.
      { constructor; auto. rewrite <- (Nat2Z.id sym) at 2. constructor; [lia|]. rewrite Nat2Z.id; auto. }
      split; [rewrite R1, X2, app_assoc; auto|]. split; auto. split; auto. split; auto. congruence. }
  destruct ((256 <? Z.of_nat sym) && (Z.of_nat sym <? 286)) eqn:B2.
  2:{ destruct (Z.of_nat sym =? 256) eqn:B3; cbn [check bind]; auto.
      right. exists [], (codeword ll sym), s1. cbn [expand dist_ok]. assert (sym = 256%nat) as -> by lia.
      split; auto. split; [constructor; auto|]. auto. }
  set (ls := (sym - 257)%nat).
  assert (Hsym : sym = (257 + ls)%nat) by (unfold ls; lia).
  replace (Z.of_nat sym - 257) with (Z.of_nat ls) by lia.
  destruct (len_tables ls ltac:(lia)) as (leb & lbase & T1 & T2 & T3 & T4 & T5).
  pose proof (pow2_le leb 5 ltac:(lia)). change (2 ^ 5) with 32 in *.
  rewrite T2. cbn [bind].
  assert (W8 : w8 leb = leb) by (unfold w8; apply Z.mod_small; change (2 ^ 8) with 256; lia). rewrite W8.
  destruct (bs_get_cases s1 leb I1 ltac:(lia)) as [E2|(a & s2 & E2 & La & R2 & I2 & D2)]; rewrite E2; cbn [bind]; [auto|].
  rewrite T3. cbn [bind].
  destruct (bits_as_lsb a leb La ltac:(lia)) as (Ea & Ra).
  assert (W16a : w16 (lsb_val a) = lsb_val a) by (unfold w16; apply Z.mod_small; change (2 ^ 16) with 65536; lia). rewrite W16a.
  assert (W16b : w16 (lbase + lsb_val a) = lbase + lsb_val a) by (unfold w16; apply Z.mod_small; change (2 ^ 16) with 65536; lia). rewrite W16b.
  destruct (huff_get_sound 15 dl dist s2 TD ltac:(lia) I2) as [E3|(ds & s3 & E3 & C3 & R3 & I3 & D3)]; rewrite E3; cbn [bind]; [auto|].
  assert (Hds : (ds < 30)%nat) by (destruct C3; unfold len in Hdl; lia).
  destruct (dist_tables ds Hds) as (deb & dbase & U1 & U2 & U3 & U4 & U5).
  pose proof (pow2_le deb 13 ltac:(lia)). change (2 ^ 13) with 8192 in *.
  rewrite U2. cbn [bind].
  assert (W8' : w8 deb = deb) by (unfold w8; apply Z.mod_small; change (2 ^ 8) with 256; lia). rewrite W8'.
  destruct (bs_get_cases s3 deb I3 ltac:(lia)) as [E4|(b & s4 & E4 & Lb & R4 & I4 & D4)]; rewrite E4; cbn [bind]; [auto|].
  rewrite U3. cbn [bind].
  destruct (bits_as_lsb b deb Lb ltac:(lia)) as (Eb & Rb).
  assert (W16c : w16 (lsb_val b) = lsb_val b) by (unfold w16; apply Z.mod_small; change (2 ^ 16) with 65536; lia). rewrite W16c.
  assert (W16d : w16 (dbase + lsb_val b) = dbase + lsb_val b) by (unfold w16; apply Z.mod_small; change (2 ^ 16) with 65536; lia). rewrite W16d.
  destruct (len out <? dbase + lsb_val b) eqn:B3; cbn [negb check bind]; [auto|].
  destruct (cap <? len out + (lbase + lsb_val a)) eqn:B4; cbn [negb check bind]; [auto|].
  rewrite copy_match_0 by lia. rewrite Z2Nat.id by lia. cbn [bind].
  destruct (IH (out ++ match_bytes out (lbase + lsb_val a) (dbase + lsb_val b)) s4) as [E|(ts & bs & s' & E & X1 & X2 & X3 & X4 & X5 & X6)]; auto.
  - rewrite len_app, match_bytes_len by lia. lia.
  - rewrite R1, R2, R3, R4, !app_length in Hf. lia.
  - right. exists (Match (lbase + lsb_val a) (dbase + lsb_val b) :: ts),
      ((codeword ll sym ++ lsb_bits (Z.to_nat leb) (lsb_val a) ++ codeword dl ds ++ lsb_bits (Z.to_nat deb) (lsb_val b)) ++ bs), s'.
    cbn [expand dist_ok]. split; auto. split.
    { constructor; auto. rewrite Hsym. econstructor; eauto. rewrite <- Hsym; auto. }
    split. { rewrite R1, R2, R3, R4, X2, <- Ea, <- Eb, <- !app_assoc. auto. }
    split; [split; [lia|auto]|]. split; auto. split; auto. congruence.
Qed.
