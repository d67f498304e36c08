From Coq Require Import Lia.
From Verif Require Import Base BaseLemmas At BTreeProofs RecordsProofs Checksum ChecksumSpec ChecksumProofs Crypt CryptSpec CryptProofs KeyBag KeyBagSpec.
Ltac Zify.zify_post_hook ::= Z.div_mod_to_equations.

(* ---- parsing of key bags: safety ---- *)
Definition entry_inside (data : list Z) (e : bag_entry) : Prop :=
  exists off, 0 <= off /\ off + 24 + len (be_data e) <= len data /\ be_id e = slice data off 16 /\
    be_data e = slice data (off + 24) (len (be_data e)).

Lemma bag_entry_read_fine data off : bytes data -> 0 <= off <= len data ->
  fine (bag_entry_read data off) /\
  forall e, bag_entry_read data off = Ok e -> 1 <= len (be_data e) /\ off + 24 + len (be_data e) <= len data /\
    be_id e = slice data off 16 /\ be_data e = slice data (off + 24) (len (be_data e)).
Proof.
  intros HB H. unfold bag_entry_read. destruct (24 <=? len data - off) eqn:E; [|split; [exact I|discriminate]]. cbn [check bind]. apply Z.leb_le in E.
  rewrite rd_in by lia. cbn [bind]. rewrite !rd_le_in by lia. cbn [bind].
  pose proof (le_val_range (slice data (off + 18) 2) (bytes_slice _ _ _ HB)) as R. rewrite len_slice in R by lia.
  remember (le_val (slice data (off + 18) 2)) as ds eqn:Eds.
  destruct (negb (ds =? 0) && (ds <=? len data - off - 24)) eqn:E2; [|split; [exact I|discriminate]]. cbn [check bind]. rewrite rd_in by lia. cbn [bind].
  split; [exact I|]. intros e He. injection He as <-. cbn [be_data be_id]. rewrite len_slice by lia. split; [lia|]. split; [lia|]. split; reflexivity.
Qed.
Lemma bag_entries_fine data : bytes data -> forall n off, 0 <= off <= len data ->
  fine (bag_entries data n off) /\ forall l, bag_entries data n off = Ok l -> Forall (entry_inside data) l /\ length l = n.
Proof.
  intros HB. induction n as [|n IH]; intros off H; [split; [exact I|]; intros l Hl; injection Hl as <-; split; [constructor|reflexivity]|]. cbn [bag_entries].
  destruct (bag_entry_read_fine data off HB H) as (F & G). destruct (bag_entry_read data off) as [e| | |]; try contradiction; [|split; [exact I|discriminate]].
  cbn [bind]. destruct (G e eq_refl) as (G1 & G2 & G3 & G4). clear G F.
  remember (off + (24 + len (be_data e))) as o eqn:Eo.
  assert (EI : entry_inside data e) by (exists off; split; [lia|]; split; [lia|]; split; assumption).
  destruct (o mod 16 =? 0) eqn:Ep.
  - cbn [bind]. destruct (IH o ltac:(lia)) as (I1 & I2). destruct (bag_entries data n o) as [l| | |]; try contradiction; [|split; [exact I|discriminate]].
    cbn [bind]. split; [exact I|]. intros l' Hl. injection Hl as <-. destruct (I2 l eq_refl). split; [constructor; assumption|cbn; lia].
  - destruct ((16 - o mod 16 <=? len data) && (o <=? len data - (16 - o mod 16))) eqn:Ec; [|split; [exact I|discriminate]]. cbn [check bind].
    destruct (IH (o + (16 - o mod 16)) ltac:(lia)) as (I1 & I2).
    destruct (bag_entries data n (o + (16 - o mod 16))) as [l| | |]; try contradiction; [|split; [exact I|discriminate]].
    cbn [bind]. split; [exact I|]. intros l' Hl. injection Hl as <-. destruct (I2 l eq_refl). split; [constructor; assumption|cbn; lia].
Qed.
Lemma bag_body_fine data : bytes data -> 32 <= len data ->
  fine (bag_body data) /\ forall l, bag_body data = Ok l -> Forall (entry_inside data) l.
Proof.
  intros HB H. unfold bag_body, bag_header. destruct (16 <=? len data - 32) eqn:E; [|split; [exact I|discriminate]]. cbn [check bind].
  rewrite !rd_le_in by lia. cbn [bind]. destruct (le_val (slice data 32 2) =? 2); [|split; [exact I|discriminate]]. cbn [check bind].
  destruct (le_val (slice data (32 + 4) 4) <=? len data - 32); [|split; [exact I|discriminate]]. cbn [check bind].
  destruct (bag_entries_fine data HB (Z.to_nat (le_val (slice data (32 + 2) 2))) 48 ltac:(lia)) as (F & G). split; [exact F|]. intros l Hl. apply G, Hl.
Qed.
Lemma fletcher_loop_fine : forall n b l u, (length b <= n)%nat -> len b mod 4 = 0 -> fine (fletcher64_loop b l u).
Proof.
  induction n as [|n IH]; intros b l u Hn H; [destruct b; [exact I|cbn in Hn; lia]|].
  destruct b as [|b0 [|b1 [|b2 [|b3 b]]]]; cbn [fletcher64_loop]; try exact I; try (unfold len in H; cbn in H; lia).
  apply IH; [cbn in Hn; lia|]. rewrite !len_cons in H. lia.
Qed.
Lemma fletcher_fine b i : fine (calculate_fletcher64 b i).
Proof.
  unfold calculate_fletcher64. apply fine_bind; [apply fine_check|]. intros u H. apply check_ok in H. apply Z.eqb_eq in H.
  apply fine_bind; [eapply fletcher_loop_fine; [reflexivity|exact H]|]. intros [l1 u1] _. exact I.
Qed.
Lemma container_bag_fine data : bytes data ->
  fine (container_bag data) /\ forall l, container_bag data = Ok (Some l) -> Forall (entry_inside data) l.
Proof.
  intros HB. unfold container_bag. destruct (32 <=? len data) eqn:E; [|split; [exact I|discriminate]]. cbn [check bind]. apply Z.leb_le in E.
  rewrite !rd_le_in by lia. cbn [bind]. destruct (negb (le_val (slice data 24 4) =? 0x6b657973)); [split; [exact I|discriminate]|]. destruct (le_val (slice data 28 4) =? 0); [|split; [exact I|discriminate]]. cbn [check bind].
  rewrite rd_in by lia. cbn [bind]. pose proof (fletcher_fine (slice data 8 (len data - 8)) 0) as FF.
  destruct (calculate_fletcher64 (slice data 8 (len data - 8)) 0) as [s| | |]; try contradiction; [|split; [exact I|discriminate]]. cbn [bind].
  destruct (le_val (slice data 0 8) =? s); [|split; [exact I|discriminate]]. cbn [check bind]. destruct (bag_body_fine data HB E) as (F & G).
  destruct (bag_body data) as [l| | |]; try contradiction; [|split; [exact I|discriminate]]. cbn [bind]. split; [exact I|].
  intros l' Hl. injection Hl as <-. apply G. reflexivity.
Qed.
Lemma volume_bag_fine data : bytes data ->
  fine (volume_bag data) /\ forall l, volume_bag data = Ok l -> Forall (entry_inside data) l.
Proof.
  intros HB. unfold volume_bag. destruct (32 <=? len data) eqn:E; [|split; [exact I|discriminate]]. cbn [check bind]. apply Z.leb_le in E.
  rewrite !rd_le_in by lia. cbn [bind]. destruct (le_val (slice data 24 4) =? 0x72656373); [|split; [exact I|discriminate]]. cbn [check bind].
  destruct (le_val (slice data 28 4) =? 0); [|split; [exact I|discriminate]]. cbn [check bind]. apply bag_body_fine; assumption.
Qed.

(* ---- parsing of key bags: round trip ---- *)
Lemma bag_entries_ok data : forall l b off, bag_layout l b -> off mod 16 = 0 -> at_ data off b -> bag_entries data (length l) off = Ok l.
Proof.
  induction l as [|e l IH]; intros b off HL Hm HA; [reflexivity|]. inversion HL as [|e' u pad l' b' (O1 & O2 & O3) Hu Hp Hm2 HL']; subst.
  unfold entry_image in HA. rewrite <- !app_assoc in HA.
  apply at_app in HA. destruct HA as (A1 & HA). apply at_app in HA. destruct HA as (A2 & HA). apply at_app in HA. destruct HA as (A3 & HA).
  apply at_app in HA. destruct HA as (A4 & HA). apply at_app in HA. destruct HA as (A5 & HA). apply at_app in HA. destruct HA as (A6 & A7).
  rewrite !le_enc_len in *. change (Z.of_nat 2) with 2 in *. rewrite Hu, O1 in *.
  pose proof (at_bounds _ _ _ A1) as B1. pose proof (at_bounds _ _ _ A6) as B6. pose proof (at_bounds _ _ _ A5) as B5. pose proof (at_bounds _ _ _ A7) as B7. pose proof (len_nonneg b') as Lb.
  cbn [length bag_entries]. unfold bag_entry_read. replace (24 <=? len data - off) with true by lia. cbn [check bind].
  rewrite (at_rd _ _ _ 16 A1 ltac:(lia)). cbn [bind].
  rewrite (at_rd_le data (off + 16) 2%nat (be_type e) 2) by (try reflexivity; try exact A2; change (256 ^ Z.of_nat 2) with (2 ^ 16); lia). cbn [bind].
  rewrite (at_rd_le data (off + 18) 2%nat (len (be_data e)) 2) by (try reflexivity; try (apply (at_eq _ _ _ _ A3); lia); change (256 ^ Z.of_nat 2) with (2 ^ 16); lia). cbn [bind].
  replace (negb (len (be_data e) =? 0) && (len (be_data e) <=? len data - off - 24)) with true by lia. cbn [check bind].
  rewrite (at_rd data (off + 24) (be_data e)) by (try reflexivity; apply (at_eq _ _ _ _ A5); lia). cbn [bind be_data].
  remember (off + (24 + len (be_data e))) as o eqn:Eo.
  assert (EE : {| be_id := be_id e; be_type := be_type e; be_data := be_data e |} = e) by (destruct e; reflexivity). rewrite EE.
  destruct (o mod 16 =? 0) eqn:Ep; cbn [bind].
  - assert (len pad = 0) by lia. rewrite (IH b' o HL'); [reflexivity|lia|apply (at_eq _ _ _ _ A7); lia].
  - replace ((16 - o mod 16 <=? len data) && (o <=? len data - (16 - o mod 16))) with true by lia. cbn [check bind].
    rewrite (IH b' (o + (16 - o mod 16)) HL'); [reflexivity|lia|apply (at_eq _ _ _ _ A7); lia].
Qed.
Lemma bag_body_ok sum ids ty n size u body rest l : len sum = 8 -> len ids = 16 -> len u = 8 -> bag_layout l body -> n = len l -> n < 2 ^ 16 ->
  0 <= size < 2 ^ 32 -> size <= 16 + len body + len rest ->
  let data := bag_image sum ids ty n size u body rest in
  bag_body data = Ok l /\ rd_le 4 data 24 = Ok (ty mod 2 ^ 32) /\ rd_le 4 data 28 = Ok 0 /\ rd data 0 8 = Ok sum /\ 48 <= len data.
Proof.
  intros Hs Hi Hu HL Hn Hn2 Hsz Hsz2 data. pose proof (len_nonneg l) as Ll. pose proof (len_nonneg body) as Lb. pose proof (len_nonneg rest) as Lr.
  assert (HA : at_ data 0 data) by apply at_self. unfold data at 2, bag_image in HA.
  assert (LD : len data = 48 + len body + len rest) by (unfold data, bag_image; rewrite !len_app, !le_enc_len, Hs, Hi, Hu; lia).
  clearbody data.
  apply at_app in HA. destruct HA as (A1 & HA). apply at_app in HA. destruct HA as (A2 & HA). apply at_app in HA. destruct HA as (A3 & HA).
  apply at_app in HA. destruct HA as (A4 & HA). apply at_app in HA. destruct HA as (A5 & HA). apply at_app in HA. destruct HA as (A6 & HA).
  apply at_app in HA. destruct HA as (A7 & HA). apply at_app in HA. destruct HA as (A8 & HA). apply at_app in HA. destruct HA as (A9 & _).
  rewrite !le_enc_len in *. rewrite Hs, Hi, Hu in *.
  assert (T : rd_le 4 data 24 = Ok (ty mod 2 ^ 32)).
  { unfold rd_le. rewrite (at_rd data 24 (le_enc 4 ty)) by (try reflexivity; apply (at_eq _ _ _ _ A3); lia). cbn [bind]. f_equal.
    assert (X : le_enc 4 ty = le_enc 4 (ty mod 2 ^ 32)).
    { cbn [le_enc]. rewrite !Z.div_div by lia. f_equal; [|f_equal; [|f_equal; [|f_equal]]]; try reflexivity; clear; lia. }
    rewrite X. apply le_val_enc. change (256 ^ Z.of_nat 4) with (2 ^ 32). apply Z.mod_pos_bound. lia. }
  split; [|split; [exact T|split; [|split; [|lia]]]].
  - unfold bag_body, bag_header. rewrite LD. replace (16 <=? 48 + len body + len rest - 32) with true by lia. cbn [check bind]. change (32 + 2) with 34. change (32 + 4) with 36.
    rewrite (at_rd_le data 32 2%nat 2 2) by (try reflexivity; try (apply (at_eq _ _ _ _ A5); lia); change (256 ^ Z.of_nat 2) with (2 ^ 16); lia). cbn [bind].
    rewrite (at_rd_le data 34 2%nat n 2) by (try reflexivity; try (apply (at_eq _ _ _ _ A6); lia); change (256 ^ Z.of_nat 2) with (2 ^ 16); lia). cbn [bind].
    rewrite (at_rd_le data 36 4%nat size 4) by (try reflexivity; try (apply (at_eq _ _ _ _ A7); lia); change (256 ^ Z.of_nat 4) with (2 ^ 32); lia). cbn [bind].
    rewrite Z.eqb_refl. cbn [check bind]. replace (size <=? 48 + len body + len rest - 32) with true by lia. cbn [check bind].
    replace (Z.to_nat n) with (length l) by (unfold len in *; lia). apply (bag_entries_ok data l body 48 HL); [reflexivity|]. apply (at_eq _ _ _ _ A9). lia.
  - apply (at_rd_le data 28 4%nat 0 4); try reflexivity; try (apply (at_eq _ _ _ _ A4); lia). change (256 ^ Z.of_nat 4) with (2 ^ 32); lia.
  - apply (at_rd data 0 sum); [exact A1|lia].
Qed.
