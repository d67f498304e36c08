From Coq Require Import Lia.
From Verif Require Import Base BaseLemmas ChecksumSpec Checksummed OmapSpec CryptSpec KeyBag KeyBagSpec Container ContainerSpec ContainerProofs ContainerTop.
Ltac Zify.zify_post_hook ::= Z.div_mod_to_equations.

Lemma put_same dev x e : put dev x e x = Some e.
Proof. unfold put. rewrite Z.eqb_refl. reflexivity. Qed.
Lemma put_other dev x e y : y <> x -> put dev x e y = dev y.
Proof. intros N. unfold put. rewrite (proj2 (Z.eqb_neq _ _) N). reflexivity. Qed.
Lemma puts_app dev u v : puts dev (u ++ v) = puts (puts dev u) v.
Proof. revert dev. induction u as [|(b, d) u IH]; intros dev; [reflexivity|]. cbn [puts app]. apply IH. Qed.
Lemma puts_other ws : forall dev x, ~ In x (map fst ws) -> puts dev ws x = dev x.
Proof.
  induction ws as [|(b, d) ws IH]; intros dev x N; [reflexivity|]. cbn [puts map fst In] in *. rewrite IH by tauto. apply put_other. intuition congruence.
Qed.

Section Crash.
  Variable enc : list Z -> list Z -> list Z -> list Z.

  Lemma usable_same dev dev' d : (forall x, refers d x -> dev' x = dev x) -> usable enc dev d -> usable enc dev' d.
  Proof.
    intros H (root & l & (R & o & E & HR) & HB). exists root, l. split.
    - split; [exact R|]. exists o. rewrite H by (left; reflexivity). auto.
    - destruct l as [l|]; [|exact HB]. destruct HB as (Hb & Hn & Hbn & sectors & sum & ids & size & u & body & rest & HF & HL & (blocks & LB & EB & HB) & REST).
      split; [exact Hb|]. split; [exact Hn|]. split; [exact Hbn|]. exists sectors, sum, ids, size, u, body, rest. split; [exact HF|]. split; [exact HL|].
      split; [|exact REST]. exists blocks. split; [exact LB|]. split; [exact EB|]. intros i Hi. destruct (HB i Hi) as (e & E1 & E2 & E3). exists e.
      rewrite H by (right; lia). auto.
  Qed.

  (* a consistent container with its area; x: a block that need not be a map *)
  Definition state (a n x : Z) (dev : device) (b : Z) (d : list Z) : Prop :=
    device_ok dev /\ (exists d0, superblock_in dev 0 d0 /\ Z.testbit (features d0) 8 = false /\ area d0 = a /\ area_size d0 = n) /\
    0 < a /\ a + n < 2 ^ 51 /\ area_intact dev a n /\
    (exists i m, 0 <= i <= n /\ a + i <> x /\ dev (a + i) = Some m /\ kind m = map_kind /\ 0 < xid m) /\
    newest_superblock dev a n b d /\ usable enc dev d.
  Lemma state_consistent a n x dev b d : state a n x dev b d -> consistent enc dev b d.
  Proof.
    intros (D & (d0 & S & F & <- & <-) & Ha & Han & HI & (i & m & Hi & _ & M) & HN & HU). split; [exact D|]. exists d0.
    split; [exact S|]. split; [exact F|]. split; [exact Ha|]. split; [exact Han|]. split; [exact HI|]. split; [exists i, m; auto|]. auto.
  Qed.
  Lemma consistent_state dev b d : consistent enc dev b d -> state (area d) (area_size d) 0 dev b d.
  Proof.
    intros (D & d0 & S & F & Ha & Han & HI & (i & m & Hi & M) & HN & HU).
    assert (X : area d = area d0 /\ area_size d = area_size d0).
    { destruct HN as ((E & SB) & HB & _). destruct HB as [HB|HB].
      - rewrite HB in E. destruct S as (S & _). assert (d = d0) by congruence. subst. auto.
      - destruct (HI (b - area d0) ltac:(lia)) as (e & E' & _ & K & _). replace (area d0 + (b - area d0)) with b in E' by lia.
        assert (d = e) by congruence. subst e. destruct (K (superblock_kind_of d SB)) as (_ & X). exact X. }
    destruct X as (-> & ->). split; [exact D|]. split; [exists d0; auto|]. split; [exact Ha|]. split; [exact Han|]. split; [exact HI|].
    split; [exists i, m; split; [exact Hi|]; split; [lia|exact M]|]. auto.
  Qed.

  Lemma device_put dev x e : device_ok dev -> bytes e -> len e <= 4096 -> device_ok (put dev x e).
  Proof.
    intros D B L b d. destruct (Z.eq_dec b x) as [->|N]; [rewrite put_same|rewrite put_other by exact N; apply D].
    intros H. assert (e = d) by congruence. subst. auto.
  Qed.
  Lemma intact_put dev a n x e : area_intact dev a n -> 32 <= len e ->
    (kind e = superblock_kind -> superblock_block e /\ area e = a /\ area_size e = n) -> (kind e = map_kind -> map_block e) -> area_intact (put dev x e) a n.
  Proof.
    intros H L K1 K2 i Hi. destruct (Z.eq_dec (a + i) x) as [E|N].
    - exists e. rewrite E, put_same. auto.
    - rewrite put_other by exact N. apply H. exact Hi.
  Qed.

  Lemma state_object a n x dev b d y e : state a n x dev b d -> bytes e -> len e <= 4096 -> y <> 0 -> ~ a <= y <= a + n -> ~ refers d y ->
    state a n x (put dev y e) b d.
  Proof.
    intros (D & (d0 & (S & SB) & F & Ea & En) & Ha & Han & HI & (i & m & Hi & Nx & Em & M) & ((S1 & SB1) & HB & HM) & HU) B L N0 NA NR.
    split; [apply device_put; assumption|]. split; [exists d0; split; [split; [rewrite put_other by congruence; exact S|exact SB]|auto]|].
    split; [exact Ha|]. split; [exact Han|].
    split; [intros j Hj; rewrite put_other by lia; apply HI; exact Hj|].
    split; [exists i, m; rewrite put_other by lia; auto|].
    split; [|apply (usable_same dev); [|exact HU]; intros z Hz; apply put_other; congruence].
    split; [split; [rewrite put_other by lia; exact S1|exact SB1]|]. split; [exact HB|].
    intros b' d' Hb' (E & SB'). rewrite put_other in E by lia. apply HM; [exact Hb'|split; assumption].
  Qed.

  Lemma state_map a n x x' dev b d y e : state a n x dev b d -> map_block e -> 0 < xid e -> a <= y <= a + n -> y <> b -> y <> x' -> ~ refers d y ->
    state a n x' (put dev y e) b d.
  Proof.
    intros (D & (d0 & (S & SB) & F & Ea & En) & Ha & Han & HI & _ & ((S1 & SB1) & HB & HM) & HU) MB X HY Nb Nx NR.
    assert (BL : bytes e /\ len e = 4096 /\ kind e = map_kind) by (unfold map_block in MB; tauto). destruct BL as (B & L & K).
    split; [apply device_put; [exact D|exact B|lia]|]. split; [exists d0; split; [split; [rewrite put_other by lia; exact S|exact SB]|auto]|].
    split; [exact Ha|]. split; [exact Han|].
    split; [apply intact_put; [exact HI|lia|rewrite K; discriminate|auto]|].
    split; [exists (y - a), e; replace (a + (y - a)) with y by lia; rewrite put_same; split; [lia|auto]|].
    split; [|apply (usable_same dev); [|exact HU]; intros z Hz; apply put_other; congruence].
    split; [split; [rewrite put_other by congruence; exact S1|exact SB1]|]. split; [exact HB|].
    intros b' d' Hb' (E & SB'). destruct (Z.eq_dec b' y) as [->|N].
    - exfalso. rewrite put_same in E. assert (e = d') by congruence. subst d'. pose proof (superblock_kind_of _ SB') as K'. rewrite K in K'. discriminate.
    - rewrite put_other in E by exact N. apply HM; [exact Hb'|split; assumption].
  Qed.

  Lemma state_superblock a n dev b d y e : state a n y dev b d -> superblock_block e -> xid d < xid e -> area e = a -> area_size e = n ->
    a <= y <= a + n -> usable enc (put dev y e) e -> state a n 0 (put dev y e) y e.
  Proof.
    intros (D & (d0 & (S & SB) & F & Ea & En) & Ha & Han & HI & (i & m & Hi & Nx & Em & M) & ((S1 & SB1) & HB & HM) & HU) SE X Ae Ne HY UE.
    assert (BL : bytes e /\ len e = 4096 /\ kind e = superblock_kind) by (unfold superblock_block in SE; tauto). destruct BL as (B & L & K).
    split; [apply device_put; [exact D|exact B|lia]|]. split; [exists d0; split; [split; [rewrite put_other by lia; exact S|exact SB]|auto]|].
    split; [exact Ha|]. split; [exact Han|].
    split; [apply intact_put; [exact HI|lia|auto|rewrite K; discriminate]|].
    split; [exists i, m; rewrite put_other by exact Nx; split; [exact Hi|]; split; [lia|auto]|].
    split; [|exact UE].
    split; [split; [apply put_same|exact SE]|]. split; [lia|].
    intros b' d' Hb' (E & SB'). destruct (Z.eq_dec b' y) as [->|N].
    - rewrite put_same in E. assert (e = d') by congruence. subst d'. split; [lia|]. intros (Y & _). contradiction.
    - rewrite put_other in E by exact N. destruct (HM b' d' Hb' (conj E SB')) as (H1 & _). lia.
  Qed.

  Lemma state_copy a n dev b d : state a n 0 dev b d -> area d = a -> area_size d = n -> Z.testbit (features d) 8 = false -> ~ refers d 0 ->
    state a n 0 (put dev 0 d) 0 d.
  Proof.
    intros (D & (d0 & (S & SB) & F & Ea & En) & Ha & Han & HI & (i & m & Hi & Nx & Em & M) & ((S1 & SB1) & HB & HM) & HU) Ad Nd Fd NR.
    assert (BL : bytes d /\ len d = 4096 /\ kind d = superblock_kind) by (unfold superblock_block in SB1; tauto). destruct BL as (B & L & K).
    split; [apply device_put; [exact D|exact B|lia]|]. split; [exists d; split; [split; [apply put_same|exact SB1]|auto]|].
    split; [exact Ha|]. split; [exact Han|].
    split; [apply intact_put; [exact HI|lia|auto|rewrite K; discriminate]|].
    split; [exists i, m; rewrite put_other by exact Nx; split; [exact Hi|]; split; [lia|auto]|].
    split; [|apply (usable_same dev); [|exact HU]; intros z Hz; apply put_other; congruence].
    split; [split; [apply put_same|exact SB1]|]. split; [auto|].
    intros b' d' Hb' (E & SB'). destruct (Z.eq_dec b' 0) as [->|N].
    - rewrite put_same in E. assert (d = d') by congruence. subst d'. split; [lia|]. intros (Y & _). contradiction.
    - rewrite put_other in E by exact N. destruct (HM b' d' Hb' (conj E SB')) as (H1 & _). split; [exact H1|]. intros (_ & Y). lia.
  Qed.

  Lemma state_objects a n x b d : forall ws dev, state a n x dev b d ->
    Forall (fun w => bytes (snd w) /\ len (snd w) <= 4096 /\ fst w <> 0 /\ ~ a <= fst w <= a + n) ws -> (forall y, refers d y -> ~ In y (map fst ws)) ->
    state a n x (puts dev ws) b d.
  Proof.
    induction ws as [|(y, e) ws IH]; intros dev HS HF HR; [exact HS|]. cbn [puts]. pose proof (Forall_inv HF) as (B & L & N0 & NA). cbn [fst snd] in *.
    apply IH; [|exact (Forall_inv_tail HF)|intros z Hz Hi; apply (HR z Hz); right; exact Hi].
    apply state_object; try assumption. intros R. apply (HR y R). left. reflexivity.
  Qed.
  Lemma state_maps a n x x' b d t : 0 < t -> forall ws dev, state a n x dev b d -> ws <> [] ->
    Forall (fun w => map_block (snd w) /\ xid (snd w) = t /\ a <= fst w < a + n /\ fst w <> b /\ fst w <> x') ws ->
    (forall y, refers d y -> ~ a <= y <= a + n) -> state a n x' (puts dev ws) b d.
  Proof.
    intros Ht. assert (ONE : forall ws dev, state a n x' dev b d ->
      Forall (fun w => map_block (snd w) /\ xid (snd w) = t /\ a <= fst w < a + n /\ fst w <> b /\ fst w <> x') ws ->
      (forall y, refers d y -> ~ a <= y <= a + n) -> state a n x' (puts dev ws) b d).
    { induction ws as [|(y, e) ws IH]; intros dev HS HF HR; [exact HS|]. cbn [puts]. pose proof (Forall_inv HF) as (B & X & NA & N1 & N2). cbn [fst snd] in *.
      apply IH; [|exact (Forall_inv_tail HF)|exact HR]. apply (state_map a n x'); try assumption; try lia. intros R. apply (HR y R). lia. }
    intros [|(y, e) ws] dev HS HN HF HR; [contradiction|]. cbn [puts]. pose proof (Forall_inv HF) as (B & X & NA & N1 & N2). cbn [fst snd] in *.
    apply ONE; [|exact (Forall_inv_tail HF)|exact HR]. apply (state_map a n x); try assumption; try lia. intros R. apply (HR y R). lia.
  Qed.

  Lemma Forall_firstn {A} (P : A -> Prop) k l : Forall P l -> Forall P (firstn k l).
  Proof. intros H. revert l H. induction k as [|k IH]; intros [|x l] H; cbn [firstn]; try constructor; [exact (Forall_inv H)|apply IH, (Forall_inv_tail H)]. Qed.
  Lemma In_firstn {A} (x : A) k l : In x (firstn k l) -> In x l.
  Proof. revert l. induction k as [|k IH]; intros [|y l]; cbn [firstn In]; try tauto. intros [H|H]; auto. Qed.

  Lemma crash_consistent dev b d b' d' ws dev' : consistent enc dev b d -> checkpoint enc dev b d b' d' ws -> crash_clean dev ws dev' ->
    exists b2, consistent enc dev' b2 d \/ consistent enc dev' b2 d'.
  Proof.
    intros HC (objects & maps & copy & -> & SE & HX & EA & EN & HF & HB' & NB & HO & HR & HU & HRA & HM0 & HM & HCP) HK. destruct HK as [k].
    apply consistent_state in HC. set (a := area d) in *. set (n := area_size d) in *.
    assert (X0 : 0 <= xid d). { destruct HC as (_ & _ & _ & _ & _ & _ & ((_ & S) & _) & _). unfold superblock_block in S. apply (num_range d 16 8); try tauto; lia. }
    assert (HRd : forall y, refers d y -> ~ a <= y <= a + n) by (intros y Hy; apply (HRA y); auto).
    rewrite firstn_app. set (k1 := (k - length objects)%nat). destruct (Nat.eq_dec k1 0) as [E|E].
    { rewrite E. cbn [firstn]. rewrite app_nil_r. exists b. left. apply (state_consistent a n 0). apply state_objects; [exact HC|apply Forall_firstn; exact HO|].
      intros y Hy Hi. apply (HR y Hy). rewrite <- firstn_map in Hi. apply In_firstn in Hi. exact Hi. }
    rewrite (firstn_all2 (n := k) objects) by lia. rewrite puts_app.
    assert (S1 : state a n 0 (puts dev objects) b d) by (apply state_objects; assumption).
    rewrite firstn_app. set (k2 := (k1 - length maps)%nat). destruct (Nat.eq_dec k2 0) as [E2|E2].
    { rewrite E2. cbn [firstn]. rewrite app_nil_r. exists b. left. apply (state_consistent a n b').
      apply (state_maps a n 0 b' b d (xid d')); try assumption; try lia; [|apply Forall_firstn; exact HM].
      destruct maps as [|w maps]; [contradiction|]. destruct k1 as [|k1']; [contradiction|]. cbn [firstn]. discriminate. }
    rewrite (firstn_all2 (n := k1) maps) by lia. rewrite puts_app.
    assert (S2 : state a n b' (puts (puts dev objects) maps) b d) by (apply (state_maps a n 0 b' b d (xid d')); try assumption; lia).
    destruct k2 as [|k3]; [contradiction|]. cbn [firstn puts].
    assert (S3 : state a n 0 (put (puts (puts dev objects) maps) b' d') b' d').
    { apply (state_superblock a n _ b d); try assumption; try lia. apply (usable_same (puts dev objects)); [|exact HU].
      intros x Hx. destruct (HRA x (or_intror Hx)) as (_ & NX). rewrite put_other by lia. apply puts_other. intros Hi. apply in_map_iff in Hi.
      destruct Hi as (w & <- & Hw). rewrite Forall_forall in HM. specialize (HM w Hw). cbn beta in HM. lia. }
    exists (if Nat.eqb k3 0 then b' else match copy with [] => b' | _ => 0 end). right.
    destruct HCP as [HCP|HCP]; rewrite HCP.
    - rewrite firstn_nil. cbn [puts]. destruct (Nat.eqb k3 0); apply (state_consistent a n 0); exact S3.
    - destruct k3 as [|k3]; cbn [firstn puts Nat.eqb]; [apply (state_consistent a n 0); exact S3|]. rewrite firstn_nil. cbn [puts].
      apply (state_consistent a n 0). apply (state_copy a n _ b'); try assumption. intros R. destruct (HRA 0 (or_intror R)) as (NZ & _). apply NZ. reflexivity.
  Qed.
End Crash.
