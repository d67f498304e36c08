(* Different facts have different texts. *)
From Coq Require Import String.
From Verif Require Import Base BaseLemmas NameSpec Name NameProofs SnapSpec FileSpec FileNames PropEntry ToolPathSpec ToolInfoSpec ToolTextSpec.
Open Scope list_scope.

Definition starts (l : list Z) : Prop := match l with c :: _ => c <> 9 | [] => True end.
Lemma tabs_split a : forall a' r r', tabs a -> tabs a' -> starts r -> starts r' -> a ++ r = a' ++ r' -> a = a' /\ r = r'.
Proof.
  induction a as [|x a IH]; intros [|x' a'] r r' T T' S S' E; cbn [app] in E.
  - auto.
  - subst r. inversion T'; subst. cbn [starts] in S. congruence.
  - subst r'. inversion T; subst. cbn [starts] in S'. congruence.
  - injection E as <- E. inversion T; subst. inversion T'; subst. destruct (IH a' r r') as (-> & ->); auto.
Qed.
Definition plain_value (v : value) : bool := match v with VLabel | VHead => false | _ => true end.
Lemma item_same date label v v' line : starts label -> label <> [] -> plain_value v = true -> plain_value v' = true -> item date (label, v) line -> item date (label, v') line ->
  exists l, means date v l /\ means date v' l.
Proof.
  intros S N P P' (a & A & I) (a' & A' & I'). cbn [fst snd] in I, I'.
  assert (X : exists b l, tabs b /\ line = a ++ label ++ b ++ chars ": " ++ l /\ means date v l) by (destruct v; (discriminate || exact I)).
  assert (X' : exists b l, tabs b /\ line = a' ++ label ++ b ++ chars ": " ++ l /\ means date v' l) by (destruct v'; (discriminate || exact I')).
  destruct X as (b & l & B & E & M). destruct X' as (b' & l' & B' & E' & M'). rewrite E in E'.
  assert (SL : forall r, starts (label ++ r)) by (intros r; destruct label; [congruence|exact S]).
  destruct (tabs_split a a' _ _ A A' (SL _) (SL _) E') as (_ & E2). apply app_inv_head in E2.
  destruct (tabs_split b b' (chars ": " ++ l) (chars ": " ++ l') B B' ltac:(cbn; lia) ltac:(cbn; lia) E2) as (_ & E3). apply app_inv_head in E3. subst l'. eauto.
Qed.
Lemma hex_inj date l v v' : means date (VHex v) l -> means date (VHex v') l -> v = v'.
Proof. intros (h & E & _ & _ & H) (h' & E' & _ & _ & H'). rewrite E in E'. apply app_inv_head in E'. congruence. Qed.
Lemma dec_inj date l v v' : means date (VDec v) l -> means date (VDec v') l -> v = v'.
Proof. intros (_ & _ & H) (_ & _ & H'). congruence. Qed.
Lemma be_inj d : forall d', bytes d -> bytes d' -> len d = len d' -> be_val d = be_val d' -> d = d'.
Proof.
  induction d as [|x d IH] using rev_ind; intros d' B B' L E.
  - destruct d'; [reflexivity|]. rewrite len_cons in L. pose proof (len_nonneg d'). change (len (@nil Z)) with 0 in L. lia.
  - destruct d' as [|x' d' _] using rev_ind; [rewrite len_app in L; pose proof (len_nonneg d); change (len (@nil Z)) with 0 in L; change (len [x]) with 1 in L; lia|].
    rewrite !len_app in L. change (len [x]) with 1 in L. change (len [x']) with 1 in L. unfold be_val in *. rewrite !be_val_acc_app in E. cbn [be_val_acc] in E.
    apply bytes_app in B. apply bytes_app in B'. destruct B as (B & X). destruct B' as (B' & X'). apply Forall_inv in X. apply Forall_inv in X'. unfold is_byte in *.
    assert (be_val_acc 0 d = be_val_acc 0 d' /\ x = x') as (E1 & ->) by lia. f_equal. apply IH; auto. lia.
Qed.
Lemma app_len_inj {A} (a : list A) : forall a' b b', len a = len a' -> a ++ b = a' ++ b' -> a = a' /\ b = b'.
Proof.
  induction a as [|x a IH]; intros [|x' a'] b b' L E; rewrite ?len_cons in L; cbn [app] in E; [auto|pose proof (len_nonneg a'); change (len (@nil A)) with 0 in L; lia|pose proof (len_nonneg a); change (len (@nil A)) with 0 in L; lia|].
  injection E as <- E. destruct (IH a' b b') as (-> & ->); auto. lia.
Qed.
Lemma uuid_inj date l d d' : means date (VUuid d) l -> means date (VUuid d') l -> bytes d -> bytes d' -> d = d'.
Proof.
  intros (a & b & c & e & f & E & L1 & L2 & L3 & L4 & L5 & H1 & H2 & H3) (a' & b' & c' & e' & f' & E' & M1 & M2 & M3 & M4 & M5 & K1 & K2 & K3) B B'. rewrite E in E'. clear E.
  destruct (app_len_inj a a' _ _ ltac:(lia) E') as (<- & E1). injection E1 as E1. destruct (app_len_inj b b' _ _ ltac:(lia) E1) as (<- & E2). injection E2 as E2.
  destruct (app_len_inj c c' _ _ ltac:(lia) E2) as (<- & E3). injection E3 as E3. destruct (app_len_inj e e' _ _ ltac:(lia) E3) as (<- & E4). injection E4 as E4. subst f'.
  apply be_inj; auto; [lia|congruence].
Qed.
Lemma text_inj date l s s' : means date (VText s) l -> means date (VText s') l -> text s -> text s' -> s = s'.
Proof. cbn [means]. intros -> E T T'. apply utf8_inj; [| | | |exact E]; (eapply Forall_impl; [|eassumption]; cbn; tauto). Qed.

Lemma Forall2_skip {A B} (R : A -> B -> Prop) F : forall r r' ls, Forall2 R (F ++ r) ls -> Forall2 R (F ++ r') ls -> exists ls', Forall2 R r ls' /\ Forall2 R r' ls'.
Proof. induction F as [|x F IH]; intros r r' ls H H'; [eauto|]. inversion H; subst. inversion H'; subst. eauto. Qed.
Lemma both_cons {A B} (R : A -> B -> Prop) x x' r r' ls : Forall2 R (x :: r) ls -> Forall2 R (x' :: r') ls -> exists y ls', R x y /\ R x' y /\ Forall2 R r ls' /\ Forall2 R r' ls'.
Proof. intros H H'. inversion H; subst. inversion H'; subst. eauto 6. Qed.
Lemma snapshots_inj date : forall names names' n l l' ls, snapshot_items n names l -> snapshot_items n names' l' -> Forall2 (item date) l ls -> Forall2 (item date) l' ls ->
  Forall text names -> Forall text names' -> names = names'.
Proof.
  induction names as [|s names IH]; intros [|s' names'] n l l' ls H H' F F' T T'; cbn [snapshot_items] in H, H'.
  - reflexivity.
  - destruct H' as (h & r & _ & -> & _). subst l. inversion F; subst. inversion F'.
  - destruct H as (h & r & _ & -> & _). subst l'. inversion F'; subst. inversion F.
  - destruct H as (h & r & _ & -> & H). destruct H' as (h' & r' & _ & -> & H').
    inversion F as [|? x1 ? ls1 I1 F1]; subst. inversion F1 as [|? x2 ? ls2 I2 F2]; subst. inversion F' as [|? ? ? ? _ F1']; subst. inversion F1' as [|? ? ? ? I2' F2']; subst.
    destruct (item_same date (chars "Name") (VText s) (VText s') _ ltac:(cbn; lia) ltac:(discriminate) eq_refl eq_refl I2 I2') as (t & M & M').
    inversion T; subst. inversion T'; subst. f_equal; [apply (text_inj date t); assumption|]. eapply IH; eassumption.
Qed.
Definition facts_ok (f : volume_facts) : Prop := bytes (vf_id f) /\ text (vf_name f) /\ Forall text (vf_snapshots f).
Lemma volume_inj date n f f' l l' t : facts_ok f -> facts_ok f' -> volume_items n f l -> volume_items n f' l' -> states date t l -> states date t l' -> f = f'.
Proof.
  destruct f as [id name c i ro lk ss]. destruct f' as [id' name' c' i' ro' lk' ss']. unfold facts_ok. cbn [vf_id vf_name vf_snapshots].
  intros (B & T & TS) (B' & T' & TS') (h & r & _ & SI & ->) (h' & r' & _ & SI' & ->) (ls & E & F) (ls' & E' & F'). cbn [vf_id vf_name vf_compatible vf_incompatible vf_read_only vf_locked vf_snapshots] in *.
  rewrite E in E'. apply app_inj_tail in E'. destruct E' as (<- & _). clear E t. cbn [app] in F, F'.
  destruct (both_cons _ _ _ _ _ _ F F') as (y0 & l0 & _ & _ & F0 & F0'). destruct (both_cons _ _ _ _ _ _ F0 F0') as (y1 & l1 & _ & _ & F1 & F1').
  destruct (both_cons _ _ _ _ _ _ F1 F1') as (y2 & l2 & I2 & I2' & F2 & F2'). destruct (both_cons _ _ _ _ _ _ F2 F2') as (y3 & l3 & I3 & I3' & F3 & F3'). destruct (both_cons _ _ _ _ _ _ F3 F3') as (y4 & l4 & I4 & I4' & F4 & F4').
  destruct (item_same date (chars "Identifier") (VUuid id) (VUuid id') _ ltac:(cbn; lia) ltac:(discriminate) eq_refl eq_refl I2 I2') as (t2 & M2 & M2'). assert (id = id') as <- by (apply (uuid_inj date t2); assumption).
  destruct (item_same date (chars "Name") (VText name) (VText name') _ ltac:(cbn; lia) ltac:(discriminate) eq_refl eq_refl I3 I3') as (t3 & M3 & M3'). assert (name = name') as <- by (apply (text_inj date t3); assumption).
  destruct (item_same date (chars "Compatible features") (VHex c) (VHex c') _ ltac:(cbn; lia) ltac:(discriminate) eq_refl eq_refl I4 I4') as (t4 & M4 & M4'). assert (c = c') as <- by (apply (hex_inj date t4); assumption).
  clear F F' F0 F0' F1 F1' F2 F2' F3 F3' I2 I2' I3 I3' I4 I4' M2 M2' M3 M3' M4 M4'.
  destruct (Forall2_skip _ _ _ _ _ F4 F4') as (l5 & F5 & F5'). destruct (both_cons _ _ _ _ _ _ F5 F5') as (y6 & l6 & _ & _ & F6 & F6'). destruct (both_cons _ _ _ _ _ _ F6 F6') as (y7 & l7 & I7 & I7' & F7 & F7').
  destruct (item_same date (chars "Incompatible features") (VHex i) (VHex i') _ ltac:(cbn; lia) ltac:(discriminate) eq_refl eq_refl I7 I7') as (t7 & M7 & M7'). assert (i = i') as <- by (apply (hex_inj date t7); assumption).
  destruct (Forall2_skip _ _ _ _ _ F7 F7') as (l8 & F8 & F8'). destruct (both_cons _ _ _ _ _ _ F8 F8') as (y9 & l9 & _ & _ & F9 & F9'). destruct (both_cons _ _ _ _ _ _ F9 F9') as (ya & la & Ia & Ia' & Fa & Fa').
  destruct (item_same date (chars "Read-only compatible features") (VHex ro) (VHex ro') _ ltac:(cbn; lia) ltac:(discriminate) eq_refl eq_refl Ia Ia') as (ta & Ma & Ma'). assert (ro = ro') as <- by (apply (hex_inj date ta); assumption).
  destruct (both_cons _ _ _ _ _ _ Fa Fa') as (yb & lb & _ & _ & Fb & Fb'). clear - Fb Fb' SI SI' TS TS'.
  assert (D : forall v y, item date (chars "Is locked", VLabel) y -> item date (chars "Number of snapshots", VDec v) y -> False).
  { intros v y (a & A & Ea) (b & B & c0 & x & _ & Eb & _). cbn [fst snd] in Ea, Eb. rewrite Ea in Eb.
    destruct (tabs_split a b (chars "Is locked") (chars "Number of snapshots" ++ c0 ++ chars ": " ++ x) A B ltac:(cbn; lia) ltac:(cbn; lia) Eb) as (_ & X). discriminate. }
  assert (E : lk = lk' /\ exists y ls, item date (chars "Number of snapshots", VDec (len ss)) y /\ item date (chars "Number of snapshots", VDec (len ss')) y /\ Forall2 (item date) r ls /\ Forall2 (item date) r' ls).
  { destruct lk, lk'; cbn [app] in Fb, Fb'; destruct (both_cons _ _ _ _ _ _ Fb Fb') as (y & l & J & J' & G & G').
    - split; [reflexivity|]. destruct (both_cons _ _ _ _ _ _ G G') as (z & m & Q). exists z, m. exact Q.
    - destruct (D _ _ J J').
    - destruct (D _ _ J' J).
    - split; [reflexivity|]. exists y, l. auto. }
  destruct E as (<- & y & ls & _ & _ & G & G'). rewrite (snapshots_inj date ss ss' 1 r r' ls SI SI' G G' TS TS'). reflexivity.
Qed.
