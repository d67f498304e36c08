(* Occurrence of a byte string at an offset of a buffer: proof tool for layouts. *)
From Verif Require Import Base BaseLemmas.

Definition at_ (l : list Z) (off : Z) (s : list Z) : Prop :=
  exists pre post, l = pre ++ s ++ post /\ off = len pre.

Lemma at_self l : at_ l 0 l.
Proof. exists [], []. rewrite app_nil_r. auto. Qed.

Lemma app_same_len {A} : forall (a b c d : list A), length a = length c -> a ++ b = c ++ d -> a = c /\ b = d.
Proof.
  induction a as [|x a IH]; intros b [|y c] d L E; try discriminate; auto.
  cbn in *. injection L as L. injection E as -> E. destruct (IH b c d L E) as (-> & ->). auto.
Qed.

Lemma at_app l off a b : at_ l off (a ++ b) <-> at_ l off a /\ at_ l (off + len a) b.
Proof.
  split.
  - intros (p & q & -> & ->). split.
    + exists p, (b ++ q). rewrite <- app_assoc. auto.
    + exists (p ++ a), q. rewrite <- !app_assoc, len_app. auto.
  - intros ((p & q & E & ->) & (p' & q' & E' & H)).
    exists p, q'. split; auto. rewrite <- app_assoc.
    rewrite E in E'. rewrite app_assoc in E'.
    destruct (app_same_len (p ++ a) q p' (b ++ q')) as (_ & X); auto.
    { rewrite app_length. unfold len in H. lia. }
    rewrite E, X. reflexivity.
Qed.

Lemma at_nil l off : 0 <= off <= len l -> at_ l off [].
Proof.
  intros H. exists (firstn (Z.to_nat off) l), (skipn (Z.to_nat off) l). cbn [app]. rewrite firstn_skipn. split; auto.
  unfold len in *. rewrite firstn_length. lia.
Qed.

Lemma at_bounds l off s : at_ l off s -> 0 <= off /\ off + len s <= len l.
Proof. intros (p & q & -> & ->). rewrite !len_app. pose proof (len_nonneg p). pose proof (len_nonneg q). lia. Qed.

Lemma at_slice l off s n : at_ l off s -> n = len s -> slice l off n = s.
Proof. intros (p & q & -> & ->) ->. apply slice_exact; auto. Qed.

Lemma at_of_slice l off n : 0 <= off -> 0 <= n -> off + n <= len l -> at_ l off (slice l off n).
Proof.
  intros H1 H2 H3. exists (firstn (Z.to_nat off) l), (skipn (Z.to_nat n) (skipn (Z.to_nat off) l)).
  unfold slice. rewrite !firstn_skipn. split; auto. unfold len in *. rewrite firstn_length. lia.
Qed.

Lemma at_rd l off s n : at_ l off s -> n = len s -> rd l off n = Ok s.
Proof.
  intros H ->. pose proof (at_bounds l off s H). pose proof (len_nonneg s).
  rewrite rd_in by lia. f_equal. eapply at_slice; eauto.
Qed.

Lemma at_rd_le l off k v n : at_ l off (le_enc k v) -> n = Z.of_nat k -> 0 <= v < 256 ^ Z.of_nat k ->
  rd_le n l off = Ok v.
Proof.
  intros H -> Hv. unfold rd_le. erewrite at_rd by (eauto; rewrite le_enc_len; reflexivity). cbn [bind].
  rewrite le_val_enc by auto. reflexivity.
Qed.

Lemma at_rd_be l off k v n : at_ l off (be_enc k v) -> n = Z.of_nat k -> 0 <= v < 256 ^ Z.of_nat k ->
  rd_be n l off = Ok v.
Proof.
  intros H -> Hv. unfold rd_be. erewrite at_rd by (eauto; rewrite be_enc_len; reflexivity). cbn [bind].
  rewrite be_val_enc by auto. reflexivity.
Qed.

Lemma at_trans l off s off2 t : at_ l off s -> at_ s off2 t -> at_ l (off + off2) t.
Proof.
  intros (p & q & -> & ->) (p2 & q2 & -> & ->). exists (p ++ p2), (q2 ++ q).
  rewrite <- !app_assoc, len_app. auto.
Qed.

Lemma at_eq l off off' s : at_ l off s -> off = off' -> at_ l off' s.
Proof. congruence. Qed.
