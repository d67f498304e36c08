From Coq Require Import Lia.
From Verif Require Import Base BaseLemmas At BTreeProofs RecordsProofs KeyBag KeyBagSpec.
Ltac Zify.zify_post_hook ::= Z.div_mod_to_equations.

(* ---- safety, with three readable bytes after the payload ---- *)
Lemma getb_byte data off : bytes data -> 0 <= off < len data -> exists b, getb data off = Ok b /\ 0 <= b < 256.
Proof.
  intros HB H. destruct (getb_in data off H) as (b & E & N). exists b. split; [exact E|]. apply nth_error_In in N.
  unfold bytes in HB. rewrite Forall_forall in HB. apply HB in N. exact N.
Qed.
Lemma der_size_fine f data off : bytes data -> 0 <= off -> off + 3 <= len data ->
  fine (der_size f data off) /\ forall vs next, der_size f data off = Ok (vs, next) -> off + 1 <= next <= off + 3 /\ 0 <= vs < 2 ^ 16.
Proof.
  intros HB H0 H1. unfold der_size. destruct (getb_byte data off HB ltac:(lia)) as (b & -> & Hb). cbn [bind]. destruct (b <? 128).
  - split; [exact I|]. intros vs next He. injection He as <- <-. lia.
  - destruct ((b =? 129) && f).
    + destruct (getb_byte data (off + 1) HB ltac:(lia)) as (v & -> & Hv). cbn [bind]. split; [exact I|]. intros vs next He. injection He as <- <-. lia.
    + destruct (b =? 130); [|split; [exact I|discriminate]]. rewrite rd_le_in by lia. cbn [bind]. split; [exact I|].
      intros vs next He. pose proof (le_val_range (slice data (off + 1) 2) (bytes_slice _ _ _ HB)) as R. rewrite len_slice in R by lia.
      assert (vs = le_val (slice data (off + 1) 2) /\ next = off + 3) as (-> & ->) by (split; congruence). lia.
Qed.
Definition obj_ok (size : Z) (o : option (Z * Z)) : Prop :=
  match o with None => True | Some (base, osize) => 0 <= base /\ base + 3 <= size /\ 0 <= osize /\ base + osize <= size end.
Lemma kek_outer_fine data size : bytes data -> size + 3 <= len data -> forall fuel off h obj, 2 <= off -> size - off <= Z.of_nat fuel -> obj_ok size obj ->
  fine (kek_outer fuel data size off h obj) /\ forall h' obj', kek_outer fuel data size off h obj = Ok (h', obj') -> obj_ok size obj'.
Proof.
  intros HB HS. induction fuel as [|fuel IH]; intros off h obj H0 HF HO.
  - cbn [kek_outer]. replace (negb (off <? size)) with true by lia. split; [exact I|]. intros h' obj' He. injection He as <- <-. exact HO.
  - cbn [kek_outer]. destruct (negb (off <? size)) eqn:E; [split; [exact I|]; intros h' obj' He; injection He as <- <-; exact HO|].
    destruct (getb_byte data off HB ltac:(lia)) as (tag & -> & Ht). cbn [bind].
    destruct (der_size_fine true data (off + 1) HB ltac:(lia) ltac:(lia)) as (D1 & D2).
    destruct (der_size true data (off + 1)) as [[vs next]| | |]; try contradiction; [|split; [exact I|discriminate]]. cbn [bind].
    destruct (D2 vs next eq_refl) as (D3 & D4). clear D1 D2.
    destruct ((tag =? 0) && (vs =? 0)); [split; [exact I|]; intros h' obj' He; injection He as <- <-; exact HO|].
    destruct ((next <? size) && (vs <=? size - next)) eqn:Ec; [|split; [exact I|discriminate]]. cbn [check bind].
    destruct (tag =? 129); [destruct (vs =? 32) eqn:E32; [|split; [exact I|discriminate]]; cbn [check bind]; rewrite rd_in by lia; cbn [bind]; apply IH; lia || exact HO|].
    destruct (tag =? 130); [destruct (vs =? 8) eqn:E8; [|split; [exact I|discriminate]]; cbn [check bind]; apply IH; lia || exact HO|].
    destruct (tag =? 163); [|apply IH; lia || exact HO].
    destruct (negb (vs =? 0)) eqn:En; [|split; [exact I|discriminate]]. cbn [check bind]. apply IH; try lia.
    unfold obj_ok, w16. pose proof (Z.mod_pos_bound (vs + 2) (2 ^ 16) ltac:(lia)). pose proof (Z.mod_le (vs + 2) (2 ^ 16) ltac:(lia) ltac:(lia)). lia.
Qed.
Lemma kek_value_fine data off tag vs k : bytes data -> 0 <= off -> 0 <= vs -> off + vs <= len data -> fine (kek_value data off tag vs k).
Proof.
  intros HB H0 H1 H2. unfold kek_value.
  destruct (tag =? 129); [destruct (vs =? 16) eqn:E; [|exact I]; cbn [check bind]; rewrite rd_in by lia; exact I|].
  destruct (tag =? 130); [destruct (vs =? 8) eqn:E; [|exact I]; cbn [check bind]; rewrite rd_le_in by lia; exact I|].
  destruct (tag =? 131); [destruct (vs =? 40) eqn:E; [|exact I]; cbn [check bind]; rewrite rd_in by lia; exact I|].
  destruct (tag =? 132); [destruct (negb (vs =? 0) && (vs <=? 8)) eqn:E; [|exact I]; cbn [check bind]; unfold rd_be; rewrite rd_in by lia; exact I|].
  destruct (tag =? 133); [destruct (vs =? 16) eqn:E; [|exact I]; cbn [check bind]; rewrite rd_in by lia; exact I|]. exact I.
Qed.
Lemma kek_inner_fine data size base osize : bytes data -> size + 3 <= len data -> obj_ok size (Some (base, osize)) ->
  forall fuel off k, 0 <= off -> osize - off <= Z.of_nat fuel -> fine (kek_inner fuel data base osize off k).
Proof.
  intros HB HS (O1 & O2 & O3 & O4). induction fuel as [|fuel IH]; intros off k H0 HF; cbn [kek_inner].
  - replace (negb (off <? osize)) with true by lia. exact I.
  - destruct (negb (off <? osize)) eqn:E; [exact I|].
    destruct (getb_byte data (base + off) HB ltac:(lia)) as (tag & -> & Ht). cbn [bind].
    destruct (der_size_fine false data (base + (off + 1)) HB ltac:(lia) ltac:(lia)) as (D1 & D2).
    destruct (der_size false data (base + (off + 1))) as [[vs next]| | |]; try contradiction; [|exact I]. cbn [bind].
    destruct (D2 vs next eq_refl) as (D3 & D4). destruct ((tag =? 0) && (vs =? 0)); [exact I|].
    destruct ((next - base <? osize) && (vs <=? osize - (next - base))) eqn:Ec; [|exact I]. cbn [check bind].
    pose proof (kek_value_fine data (base + (next - base)) tag vs k HB ltac:(lia) ltac:(lia) ltac:(lia)) as V.
    destruct (kek_value data (base + (next - base)) tag vs k) as [k'| | |]; try contradiction; [|exact I]. cbn [bind]. apply IH; lia.
Qed.
Theorem kek_read_mem_fine data size : bytes data -> size + 3 <= len data -> fine (kek_read_mem data size).
Proof.
  intros HB HS. unfold kek_read_mem. destruct (2 <=? size) eqn:E2; [|exact I]. cbn [check bind].
  destruct (getb_byte data 0 HB ltac:(lia)) as (tag & -> & Ht). cbn [bind].
  destruct (der_size_fine true data 1 HB ltac:(lia) ltac:(lia)) as (D1 & D2).
  destruct (der_size true data 1) as [[vs next]| | |]; try contradiction; [|exact I]. cbn [bind]. destruct (D2 vs next eq_refl) as (D3 & D4). clear D1 D2.
  destruct (tag =? 48); [|exact I]. cbn [check bind]. destruct (vs <=? size - 2); [|exact I]. cbn [check bind].
  destruct (kek_outer_fine data size HB HS (Z.to_nat size) next (k_hmac kek0) None ltac:(lia) ltac:(lia) I) as (F & G).
  destruct (kek_outer (Z.to_nat size) data size next (k_hmac kek0) None) as [[h [[base osize]|]]| | |]; try contradiction; try exact I. cbn [bind].
  specialize (G h _ eq_refl). pose proof G as (O1 & O2 & O3 & O4).
  destruct (getb_byte data base HB ltac:(lia)) as (tag' & -> & Ht'). cbn [bind].
  destruct (der_size_fine false data (base + 1) HB ltac:(lia) ltac:(lia)) as (D1 & D2).
  destruct (der_size false data (base + 1)) as [[vs' next']| | |]; try contradiction; [|exact I]. cbn [bind]. destruct (D2 vs' next' eq_refl) as (D5 & D6). clear D1 D2.
  destruct (tag' =? 163); [|exact I]. cbn [check bind]. destruct (vs' <=? osize - 2); [|exact I]. cbn [check bind].
  apply (kek_inner_fine data size base osize HB HS G); lia.
Qed.

(* ---- round trip ---- *)
Lemma tlv_len tag v : len v < 256 -> len (tlv tag v) = len v + (if len v <? 128 then 2 else 3).
Proof. intros H. unfold tlv. destruct (len v <? 128); rewrite len_app; [change (len [tag; len v]) with 2|change (len [tag; 129; len v]) with 3]; lia. Qed.
Lemma tlv_at data off tag v : at_ data off (tlv tag v) -> len v < 256 ->
  getb data off = Ok tag /\ at_ data (off + (if len v <? 128 then 2 else 3)) v /\
  der_size true data (off + 1) = Ok (len v, off + (if len v <? 128 then 2 else 3)) /\
  (len v < 128 -> forall f, der_size f data (off + 1) = Ok (len v, off + 2)).
Proof.
  intros HA HL. pose proof (len_nonneg v) as L0. unfold tlv in HA. destruct (len v <? 128) eqn:E.
  - cbn [app] in HA. pose proof HA as HA0. change (tag :: len v :: v) with ([tag] ++ [len v] ++ v) in HA.
    apply at_app in HA. destruct HA as (A1 & HA). apply at_app in HA. destruct HA as (A2 & A3). change (len [tag]) with 1 in *. change (len [len v]) with 1 in *.
    assert (D : forall f, der_size f data (off + 1) = Ok (len v, off + 2)).
    { intros f. unfold der_size. rewrite (getb_at _ _ _ _ A2). cbn [bind]. rewrite E. do 2 f_equal. lia. }
    split; [apply (getb_at _ _ _ _ A1)|]. split; [apply (at_eq _ _ _ _ A3); lia|]. split; [apply D|]. intros _. exact D.
  - change ([tag; 129; len v] ++ v) with ([tag] ++ [129] ++ [len v] ++ v) in HA.
    apply at_app in HA. destruct HA as (A1 & HA). apply at_app in HA. destruct HA as (A2 & HA). apply at_app in HA. destruct HA as (A3 & A4).
    change (len [tag]) with 1 in *. change (len [129]) with 1 in *. change (len [len v]) with 1 in *.
    split; [apply (getb_at _ _ _ _ A1)|]. split; [apply (at_eq _ _ _ _ A4); lia|]. split; [|intros; lia].
    unfold der_size. rewrite (getb_at _ _ _ _ A2). cbn [bind]. change (129 <? 128) with false. change ((129 =? 129) && true) with true. cbn beta iota.
    rewrite (getb_at _ _ _ _ A3). cbn [bind]. do 2 f_equal. lia.
Qed.
Lemma outer_step fuel data off tag v h obj : at_ data off (tlv tag v) -> 1 <= len v < 256 ->
  kek_outer (S fuel) data (len data) off h obj =
  (if tag =? 129 then let! _ := check (len v =? 32) in kek_outer fuel data (len data) (off + len (tlv tag v)) v obj
   else if tag =? 130 then let! _ := check (len v =? 8) in kek_outer fuel data (len data) (off + len (tlv tag v)) h obj
   else if tag =? 163 then kek_outer fuel data (len data) (off + len (tlv tag v)) h (Some (off + (if len v <? 128 then 0 else 1), len v + 2))
   else kek_outer fuel data (len data) (off + len (tlv tag v)) h obj).
Proof.
  intros HA HL. destruct (tlv_at data off tag v HA ltac:(lia)) as (G & AV & D & _). pose proof (at_bounds _ _ _ AV) as B. pose proof (at_bounds _ _ _ HA) as B0.
  cbn [kek_outer]. rewrite tlv_len by lia. destruct (len v <? 128) eqn:E.
  - replace (negb (off <? len data)) with false by lia. rewrite G. cbn [bind]. rewrite D. cbn [bind]. replace ((tag =? 0) && (len v =? 0)) with false by lia.
    replace ((off + 2 <? len data) && (len v <=? len data - (off + 2))) with true by lia. cbn [check bind].
    replace (off + (len v + 2)) with (off + 2 + len v) by lia.
    destruct (tag =? 129). { destruct (len v =? 32) eqn:E2; [|reflexivity]. cbn [check bind]. rewrite (at_rd _ _ _ 32 AV) by lia. reflexivity. }
    destruct (tag =? 130). { reflexivity. }
    destruct (tag =? 163); [|reflexivity]. replace (negb (len v =? 0)) with true by lia. cbn [check bind]. unfold w16. rewrite Z.mod_small by lia.
    replace (off + 2 - 2) with (off + 0) by lia. reflexivity.
  - replace (negb (off <? len data)) with false by lia. rewrite G. cbn [bind]. rewrite D. cbn [bind]. replace ((tag =? 0) && (len v =? 0)) with false by lia.
    replace ((off + 3 <? len data) && (len v <=? len data - (off + 3))) with true by lia. cbn [check bind].
    replace (off + (len v + 3)) with (off + 3 + len v) by lia.
    destruct (tag =? 129). { destruct (len v =? 32) eqn:E2; [|reflexivity]. cbn [check bind]. rewrite (at_rd _ _ _ 32 AV) by lia. reflexivity. }
    destruct (tag =? 130). { reflexivity. }
    destruct (tag =? 163); [|reflexivity]. replace (negb (len v =? 0)) with true by lia. cbn [check bind]. unfold w16. rewrite Z.mod_small by lia.
    replace (off + 3 - 2) with (off + 1) by lia. reflexivity.
Qed.
Lemma inner_step fuel data base osize off tag v k : at_ data (base + off) (tlv tag v) -> 1 <= len v < 128 -> off + 2 + len v <= osize ->
  kek_inner (S fuel) data base osize off k = let! k := kek_value data (base + (off + 2)) tag (len v) k in kek_inner fuel data base osize (off + len (tlv tag v)) k.
Proof.
  intros HA HL HO. destruct (tlv_at data (base + off) tag v HA ltac:(lia)) as (G & _ & _ & D). specialize (D ltac:(lia) false).
  cbn [kek_inner]. rewrite tlv_len by lia. replace (len v <? 128) with true by lia.
  replace (negb (off <? osize)) with false by lia. rewrite G. cbn [bind]. replace (base + (off + 1)) with (base + off + 1) by lia. rewrite D. cbn [bind].
  replace ((tag =? 0) && (len v =? 0)) with false by lia. replace (base + off + 2 - base) with (off + 2) by lia.
  replace ((off + 2 <? osize) && (len v <=? osize - (off + 2))) with true by lia. cbn [check bind].
  replace (off + (len v + 2)) with (off + 2 + len v) by lia. reflexivity.
Qed.
Lemma at_tlv_val data off tag v : at_ data off (tlv tag v) -> len v < 128 -> at_ data (off + 2) v.
Proof. intros HA HL. destruct (tlv_at data off tag v HA ltac:(lia)) as (_ & A & _). replace (len v <? 128) with true in A by lia. exact A. Qed.

Lemma tlv_short tag v : len v < 128 -> len (tlv tag v) = len v + 2.
Proof. intros H. rewrite tlv_len by lia. replace (len v <? 128) with true by lia. reflexivity. Qed.
Theorem kek_read_ok k iterations extra salt : kek_ok k iterations extra salt -> kek_read (packed_key k iterations extra salt) = Ok k.
Proof.
  intros (K1 & K2 & K3 & K4 & K5 & K6 & K7 & K8 & K9 & K10). unfold kek_read.
  remember (packed_key k iterations extra salt) as data eqn:Ed. assert (HA : at_ data 0 data) by apply at_self. rewrite Ed in HA at 2.
  assert (LM : len (le_enc 4 (k_method k) ++ extra) = 8) by (rewrite len_app, le_enc_len; lia).
  assert (L0 : len (tlv 128 [0]) = 3) by reflexivity.
  assert (L1 : len (tlv 129 (k_id k)) = 18) by (rewrite tlv_short; lia). assert (L2 : len (tlv 130 (le_enc 4 (k_method k) ++ extra)) = 10) by (rewrite tlv_short; lia).
  assert (L3 : len (tlv 131 (k_wrapped k)) = 42) by (rewrite tlv_short; lia). assert (L4 : len (tlv 132 iterations) = len iterations + 2) by (rewrite tlv_short; lia).
  assert (L5 : len (tlv 133 (k_salt k)) = 18) by (rewrite tlv_short; lia).
  assert (LO : len (key_object k iterations extra) = len iterations + 93) by (unfold key_object; rewrite !len_app; lia).
  assert (M1 : len (tlv 129 (k_hmac k)) = 34) by (rewrite tlv_short; lia). assert (M2 : len (tlv 130 salt) = 10) by (rewrite tlv_short; lia).
  assert (M3 : len (tlv 163 (key_object k iterations extra)) = len iterations + 95) by (rewrite tlv_short; lia).
  unfold packed_key in HA. remember (tlv 128 [0] ++ tlv 129 (k_hmac k) ++ tlv 130 salt ++ tlv 163 (key_object k iterations extra)) as v eqn:Ev.
  assert (LV : len v = len iterations + 142) by (subst v; rewrite !len_app; lia).
  assert (LD : len data = len v + 3). { rewrite Ed. unfold packed_key. rewrite <- Ev. rewrite tlv_len by lia. replace (len v <? 128) with false by lia. lia. }
  destruct (tlv_at data 0 48 v HA ltac:(lia)) as (G & A & D & _). replace (len v <? 128) with false in A, D by lia. change (0 + 3) with 3 in *. change (0 + 1) with 1 in *.
  unfold kek_read_mem. replace (2 <=? len data) with true by lia. cbn [check bind]. rewrite G. cbn [bind]. rewrite D. cbn [bind]. change (48 =? 48) with true. cbn [check bind].
  replace (len v <=? len data - 2) with true by lia. cbn [check bind].
  subst v. apply at_app in A. destruct A as (A0 & A). apply at_app in A. destruct A as (A1 & A). apply at_app in A. destruct A as (A2 & A3).
  rewrite L0, ?M1, ?M2 in *. change (3 + 3) with 6 in *. change (6 + 34) with 40 in *. change (40 + 10) with 50 in *.
  replace (Z.to_nat (len data)) with (S (S (S (S (Z.to_nat (len data - 4)))))) by lia.
  rewrite (outer_step _ data 3 128 [0]) by (try exact A0; change (len [0]) with 1; lia). change (128 =? 129) with false. change (128 =? 130) with false. change (128 =? 163) with false. cbv iota.
  rewrite L0. change (3 + 3) with 6. rewrite (outer_step _ data 6 129 (k_hmac k)) by (try exact A1; lia). change (129 =? 129) with true. cbv iota. replace (len (k_hmac k) =? 32) with true by lia. cbn [check bind].
  rewrite M1. change (6 + 34) with 40. rewrite (outer_step _ data 40 130 salt) by (try exact A2; lia). change (130 =? 129) with false. change (130 =? 130) with true. cbv iota. replace (len salt =? 8) with true by lia. cbn [check bind].
  rewrite M2. change (40 + 10) with 50. rewrite (outer_step _ data 50 163 (key_object k iterations extra)) by (try exact A3; lia). change (163 =? 129) with false. change (163 =? 130) with false. change (163 =? 163) with true. cbv iota.
  replace (len (key_object k iterations extra) <? 128) with true by lia. change (50 + 0) with 50.
  replace (kek_outer (Z.to_nat (len data - 4)) data (len data) (50 + len (tlv 163 (key_object k iterations extra))) (k_hmac k) (Some (50, len (key_object k iterations extra) + 2)))
    with (Ok (k_hmac k, Some (50, len (key_object k iterations extra) + 2))) by (destruct (Z.to_nat (len data - 4)); cbn [kek_outer]; replace (negb (50 + len (tlv 163 (key_object k iterations extra)) <? len data)) with true by lia; reflexivity).
  cbn [bind]. destruct (tlv_at data 50 163 _ A3 ltac:(lia)) as (G3 & AO & _ & D3). specialize (D3 ltac:(lia) false). replace (len (key_object k iterations extra) <? 128) with true in AO by lia.
  rewrite G3. cbn [bind]. rewrite D3. cbn [bind]. change (163 =? 163) with true. cbn [check bind]. replace (len (key_object k iterations extra) <=? len (key_object k iterations extra) + 2 - 2) with true by lia. cbn [check bind].
  rewrite LO. remember (len iterations + 93 + 2) as osize eqn:Eo. change (50 + 2 - 50) with 2. change (50 + 2) with 52 in *.
  unfold key_object in AO. apply at_app in AO. destruct AO as (B0 & AO). apply at_app in AO. destruct AO as (B1 & AO). apply at_app in AO. destruct AO as (B2 & AO).
  apply at_app in AO. destruct AO as (B3 & AO). apply at_app in AO. destruct AO as (B4 & B5).
  rewrite L0, L1, L2, L3, L4 in *.
  replace (S (S (S (S (Z.to_nat (len data - 4)))))) with (S (S (S (S (S (S (Z.to_nat (len data - 6)))))))) by lia.
  rewrite (inner_step _ data 50 osize 2 128 [0]) by (try (apply (at_eq _ _ _ _ B0); lia); change (len [0]) with 1; lia). cbn [kek_value]. change (kek_value data (50 + (2 + 2)) 128 (len [0])) with (@Ok kek). cbn [bind]. rewrite L0.
  rewrite (inner_step _ data 50 osize (2 + 3) 129 (k_id k)) by (try (apply (at_eq _ _ _ _ B1); lia); lia).
  unfold kek_value at 1. change (129 =? 129) with true. cbv iota. replace (len (k_id k) =? 16) with true by lia. cbn [check bind].
  rewrite (at_rd data (50 + (2 + 3 + 2)) (k_id k)) by (try lia; pose proof (at_tlv_val _ _ _ _ B1 ltac:(lia)) as X; apply (at_eq _ _ _ _ X); lia). cbn [bind]. rewrite L1.
  rewrite (inner_step _ data 50 osize (2 + 3 + 18) 130 (le_enc 4 (k_method k) ++ extra)) by (try (apply (at_eq _ _ _ _ B2); lia); lia).
  unfold kek_value at 1. change (130 =? 129) with false. change (130 =? 130) with true. cbv iota. rewrite LM. change (8 =? 8) with true. cbn [check bind].
  pose proof (at_tlv_val _ _ _ _ B2 ltac:(lia)) as X2. apply at_app in X2. destruct X2 as (X2 & _).
  rewrite (at_rd_le data (50 + (2 + 3 + 18 + 2)) 4%nat (k_method k) 4) by (try reflexivity; try (apply (at_eq _ _ _ _ X2); lia); change (256 ^ Z.of_nat 4) with (2 ^ 32); lia). cbn [bind]. rewrite L2.
  rewrite (inner_step _ data 50 osize (2 + 3 + 18 + 10) 131 (k_wrapped k)) by (try (apply (at_eq _ _ _ _ B3); lia); lia).
  unfold kek_value at 1. change (131 =? 129) with false. change (131 =? 130) with false. change (131 =? 131) with true. cbv iota. replace (len (k_wrapped k) =? 40) with true by lia. cbn [check bind].
  rewrite (at_rd data (50 + (2 + 3 + 18 + 10 + 2)) (k_wrapped k)) by (try lia; pose proof (at_tlv_val _ _ _ _ B3 ltac:(lia)) as X; apply (at_eq _ _ _ _ X); lia). cbn [bind]. rewrite L3.
  rewrite (inner_step _ data 50 osize (2 + 3 + 18 + 10 + 42) 132 iterations) by (try (apply (at_eq _ _ _ _ B4); lia); lia).
  unfold kek_value at 1. change (132 =? 129) with false. change (132 =? 130) with false. change (132 =? 131) with false. change (132 =? 132) with true. cbv iota.
  replace (negb (len iterations =? 0) && (len iterations <=? 8)) with true by lia. cbn [check bind]. unfold rd_be.
  rewrite (at_rd data (50 + (2 + 3 + 18 + 10 + 42 + 2)) iterations) by (try lia; pose proof (at_tlv_val _ _ _ _ B4 ltac:(lia)) as X; apply (at_eq _ _ _ _ X); lia). cbn [bind]. rewrite L4, K8.
  rewrite (inner_step _ data 50 osize (2 + 3 + 18 + 10 + 42 + (len iterations + 2)) 133 (k_salt k)) by (try (apply (at_eq _ _ _ _ B5); lia); lia).
  unfold kek_value at 1. change (133 =? 129) with false. change (133 =? 130) with false. change (133 =? 131) with false. change (133 =? 132) with false. change (133 =? 133) with true. cbv iota.
  replace (len (k_salt k) =? 16) with true by lia. cbn [check bind].
  rewrite (at_rd data (50 + (2 + 3 + 18 + 10 + 42 + (len iterations + 2) + 2)) (k_salt k)) by (try lia; pose proof (at_tlv_val _ _ _ _ B5 ltac:(lia)) as X; apply (at_eq _ _ _ _ X); lia). cbn [bind]. rewrite L5.
  cbn [k_hmac k_id k_method k_wrapped k_iterations k_salt].
  destruct (Z.to_nat (len data - 6)); cbn [kek_inner]; replace (negb (2 + 3 + 18 + 10 + 42 + (len iterations + 2) + 18 <? osize)) with true by lia; destruct k; reflexivity.
Qed.
