From Coq Require Import Lia.
From Verif Require Import Base BaseLemmas At Checksum ChecksumSpec Checksummed BTree BTreeProofs Walk
  Omap OmapSpec Crypt CryptSpec CryptProofs KeyBag KeyBagSpec KeyBagProofs UnlockProofs RecordsProofs Container ContainerSpec ContainerProofs ContainerTop PropContainer PropOpen
  FsTree Snapshot VolumeSuper Verbose VerboseSpec.
Ltac Zify.zify_post_hook ::= Z.div_mod_to_equations.

(* The same result, or an error instead of it. *)
Definition only_fails {A} (r' r : res A) : Prop := r' = Fail \/ r' = r.
Lemma only_fails_bind {A B} (r : res A) (k' k : A -> res B) : (forall a, r = Ok a -> only_fails (k' a) (k a)) -> only_fails (bind r k') (bind r k).
Proof. intros H. destruct r; cbn [bind]; [apply H; reflexivity|right; reflexivity..]. Qed.
Lemma only_fails_skip {A B} (r : res A) (k' : A -> res B) (k : res B) : fine r -> (forall a, r = Ok a -> only_fails (k' a) k) -> only_fails (bind r k') k.
Proof. intros F H. destruct r; try contradiction; cbn [bind]; [apply H; reflexivity|left; reflexivity]. Qed.

(* ---- objects ---- *)
Section Objects.
  Variable img : device.

  Lemma shown_object_fine b n ty sub : 32 <= n -> fine (shown_object img b n ty sub).
  Proof.
    intros Hn. unfold shown_object. apply fine_bind; [apply read_at_fine; lia|]. intros d E. apply read_at_ok in E; [|lia]. destruct E as (e & _ & _ & L & ->).
    rewrite !num_rd by (rewrite ?len_slice by lia; lia). cbn [bind]. apply fine_bind; [apply fine_check|]. intros u _. apply fine_check.
  Qed.
  Lemma shown_object_iff b n ty sub : 32 <= n -> (shown_object img b n ty sub = Ok tt <-> object_there img b n ty sub).
  Proof.
    intros Hn. unfold shown_object, object_there. split.
    - intros H. apply bind_ok in H. destruct H as (d & E & H). apply read_at_ok in E; [|lia]. destruct E as (e & E & R & L & ->).
      rewrite !num_rd in H by (rewrite ?len_slice by lia; lia). cbn [bind] in H. rewrite !num_head in H by lia.
      apply bind_ok in H. destruct H as (u & K & H). apply check_ok in K. apply check_ok in H. split; [lia|]. exists e. unfold kind. repeat split; try lia. exact E.
    - intros (R & d & E & L & K & U). unfold read_at, seek. rewrite (proj2 (Z.ltb_lt _ _) R). cbn [check bind]. unfold read_block. rewrite E. cbn [bind].
      rewrite (proj2 (Z.leb_le _ _) L). cbn [check bind]. rewrite rd_in by lia. cbn [bind]. rewrite !num_rd by (rewrite ?len_slice by lia; lia). cbn [bind]. rewrite !num_head by lia.
      unfold kind in K. rewrite K, Z.eqb_refl. cbn [check bind]. rewrite U, Z.eqb_refl. reflexivity.
  Qed.

  Lemma first_mapping_one l oid r r' : first_mapping l oid r -> first_mapping l oid r' -> r = r'.
  Proof.
    assert (X : forall a b a' b' (x y : Z), a ++ (oid, x) :: b = a' ++ (oid, y) :: b' -> ~ In oid (map fst a) -> ~ In oid (map fst a') -> x = y).
    { induction a as [|p a IH]; intros b a' b' x y E N N'; destruct a' as [|q a'].
      - injection E as E _. exact E.
      - exfalso. injection E as E _. subst q. apply N'. left. reflexivity.
      - exfalso. injection E as E _. subst p. apply N. left. reflexivity.
      - injection E as _ E. apply (IH b a' b' x y E); intros Q; [apply N|apply N']; right; exact Q. }
    destruct r as [x|], r' as [y|]; cbn [first_mapping]; intros H H'.
    - destruct H as (a & b & E & N), H' as (a' & b' & E' & N'). f_equal. rewrite E in E'. exact (X a b a' b' x y E' N N').
    - exfalso. apply H'. destruct H as (a & b & -> & _). rewrite map_app. apply in_or_app. right. left. reflexivity.
    - exfalso. apply H. destruct H' as (a & b & -> & _). rewrite map_app. apply in_or_app. right. left. reflexivity.
    - reflexivity.
  Qed.
  Lemma shown_mapped_fine m oid n ty : 32 <= n -> fine (shown_mapped img m oid n ty).
  Proof. intros Hn. unfold shown_mapped. destruct (0 <? oid); [|exact I]. destruct (map_lookup m oid); [apply shown_object_fine; exact Hn|exact I]. Qed.
  Lemma shown_mapped_iff m oid n ty : 32 <= n -> 0 <= oid -> (shown_mapped img m oid n ty = Ok tt <-> mapped_there img m oid n ty).
  Proof.
    intros Hn Ho. unfold shown_mapped, mapped_there. destruct (0 <? oid) eqn:E.
    - apply Z.ltb_lt in E. pose proof (map_lookup_first m oid) as F. destruct (map_lookup m oid) as [a|] eqn:EM.
      + rewrite shown_object_iff by exact Hn. split.
        * intros H. right. exists a. split; assumption.
        * intros [H|(a' & F' & H)]; [lia|]. pose proof (first_mapping_one _ _ _ _ F F') as X. injection X as ->. exact H.
      + split; [discriminate|]. intros [H|(a' & F' & H)]; [lia|]. discriminate (first_mapping_one _ _ _ _ F F').
    - apply Z.ltb_ge in E. split; [intros _; left; lia|reflexivity].
  Qed.
  Lemma shown_objects_fine m x : fine (shown_objects img m x).
  Proof.
    unfold shown_objects. apply fine_bind; [destruct (ex_fusion x =? 0); [exact I|apply shown_object_fine; lia]|]. intros _ _.
    apply fine_bind; [apply shown_mapped_fine; lia|]. intros _ _. apply shown_mapped_fine. lia.
  Qed.
  Definition extra_of (d : list Z) : extra := mk_extra (num d 152 8) (num d 168 8) (num d 1352 8).
  Lemma shown_objects_iff m d : bytes d -> len d = 4096 -> (shown_objects img m (extra_of d) = Ok tt <-> objects_there img d m).
  Proof.
    intros B L. unfold shown_objects, objects_there, extra_of. cbn [ex_fusion ex_space ex_reaper].
    pose proof (num_range d 152 8 B ltac:(lia) ltac:(lia) ltac:(lia)). pose proof (num_range d 168 8 B ltac:(lia) ltac:(lia) ltac:(lia)).
    rewrite <- (shown_mapped_iff m (num d 152 8)), <- (shown_mapped_iff m (num d 168 8)) by lia.
    assert (F : (if num d 1352 8 =? 0 then Ok tt else shown_object img (num d 1352 8) 4096 0x40000002 0x15) = Ok tt <->
      (num d 1352 8 = 0 \/ object_there img (num d 1352 8) 4096 0x40000002 0x15)).
    { destruct (num d 1352 8 =? 0) eqn:E; [apply Z.eqb_eq in E; split; [intros _; left; exact E|reflexivity]|]. apply Z.eqb_neq in E.
      rewrite shown_object_iff by lia. split; [intros X; right; exact X|]. intros [X|X]; [contradiction|exact X]. }
    rewrite <- F. destruct (if num d 1352 8 =? 0 then Ok tt else shown_object img (num d 1352 8) 4096 0x40000002 0x15) as [[]| | |]; cbn [bind]; try (split; [discriminate|intros (X & _); discriminate X]).
    destruct (shown_mapped img m (num d 152 8) 4096 0x80000005) as [[]| | |]; cbn [bind]; try (split; [discriminate|intros (_ & X & _); discriminate X]).
    split; [intros X; repeat split; exact X|intros (_ & _ & X); exact X].
  Qed.
End Objects.

(* ---- the scan, on any device ---- *)
Section Scan.
  Variables (img : device).
  Hypothesis D : device_ok img.

  Definition drop (x : scan * Z + scan * Z) : scan + scan := match x with inl p => inl (fst p) | inr p => inr (fst p) end.
  Definition dropped (r : res (scan * Z + scan * Z)) : res (scan + scan) := let! x := r in Ok (drop x).
  Lemma step_v first s w : scan_step_v img first (s, w) = Fail \/ dropped (scan_step_v img first (s, w)) = scan_step img first s.
  Proof.
    unfold scan_step_v, scan_step. destruct (sc_index s <=? sb_area_size (sc_sb s)); [|right; reflexivity]. cbv zeta.
    destruct (object_at img (first + sc_index s)) as [(x, ty)| | |]; cbn [bind dropped]; try (right; reflexivity).
    destruct (ty =? 0x4000000c).
    - pose proof (map_at_fine (fun _ _ s => s) img (fun _ _ s B L => conj B L) D (first + sc_index s)) as F. destruct (map_at img (first + sc_index s)); try contradiction; cbn [bind]; [|left; reflexivity].
      right. destruct (sc_map_xid s <? x); reflexivity.
    - right. destruct (ty =? 0x80000001); [|reflexivity]. destruct (superblock_at img (first + sc_index s)) as [n| | |]; cbn [bind dropped]; try reflexivity.
      destruct (sb_xid (sc_sb s) <? sb_xid n); reflexivity.
  Qed.
  Lemma steps_v first : forall k s w, steps k (scan_step_v img first) (s, w) = Fail \/ dropped (steps k (scan_step_v img first) (s, w)) = steps k (scan_step img first) s.
  Proof.
    induction k as [|k IH]; intros s w; cbn [steps]; [right; reflexivity|].
    destruct (step_v first s w) as [H|H]; [rewrite H; left; reflexivity|]. rewrite <- H.
    destruct (scan_step_v img first (s, w)) as [[(s', w')|(s', w')]| | |]; cbn [dropped bind drop fst]; try (right; reflexivity). apply IH.
  Qed.
  (* the second part is the block of the superblock that is selected *)
  Definition at_block (p : scan * Z) : Prop := superblock_at img (snd p) = Ok (sc_sb (fst p)).
  Lemma step_at first p p' : at_block p -> scan_step_v img first p = Ok (inl p') -> at_block p'.
  Proof.
    destruct p as (s, w). unfold at_block. cbn [fst snd]. intros A. unfold scan_step_v. destruct (sc_index s <=? sb_area_size (sc_sb s)); [|discriminate]. cbv zeta.
    destruct (object_at img (first + sc_index s)) as [(x, ty)| | |]; cbn [bind]; try discriminate.
    destruct (ty =? 0x4000000c).
    - destruct (map_at img (first + sc_index s)); cbn [bind]; try discriminate. destruct (sc_map_xid s <? x); intros E; injection E as <-; exact A.
    - destruct (ty =? 0x80000001); [|intros E; injection E as <-; exact A]. destruct (superblock_at img (first + sc_index s)) as [n| | |] eqn:EN; cbn [bind]; try discriminate.
      destruct (sb_xid (sc_sb s) <? sb_xid n); intros E; injection E as <-; [exact EN|exact A].
  Qed.
  Definition last {A} (r : res (A + A)) : res A := let! r := r in match r with inl _ => Fuel | inr s => Ok s end.
  Lemma area_steps_v K s : superblock_at img 0 = Ok s -> fine (last (steps K (scan_step img (sb_area s)) (mk_scan 0 s 0 0))) ->
    last (steps K (scan_step_v img (sb_area s)) (mk_scan 0 s 0 0, 0)) = Fail \/
    exists r w, last (steps K (scan_step_v img (sb_area s)) (mk_scan 0 s 0 0, 0)) = Ok (r, w) /\ last (steps K (scan_step img (sb_area s)) (mk_scan 0 s 0 0)) = Ok r /\
    superblock_at img w = Ok (sc_sb r).
  Proof.
    intros H0 FS. destruct (steps_v (sb_area s) K (mk_scan 0 s 0 0) 0) as [E|E]; [left; rewrite E; reflexivity|]. rewrite <- E in FS |- *.
    destruct (steps K (scan_step_v img (sb_area s)) (mk_scan 0 s 0 0, 0)) as [[(r, w)|(r, w)]| | |] eqn:EV; cbn [last dropped bind drop fst] in *; try contradiction; [|left; reflexivity].
    right. exists r, w. split; [reflexivity|]. split; [reflexivity|].
    destruct (steps_invariant at_block (scan_step_v img (sb_area s)) (step_at (sb_area s)) K (mk_scan 0 s 0 0, 0) _ H0 EV) as ((s', w') & A & E').
    unfold scan_step_v in E'. destruct (sc_index s' <=? sb_area_size (sc_sb s')).
    - exfalso. cbv zeta in E'. apply bind_ok in E'. destruct E' as ((x, ty) & _ & E'). destruct (ty =? 0x4000000c).
      + apply bind_ok in E'. destruct E' as (u & _ & E'). destruct (sc_map_xid s' <? x); discriminate.
      + destruct (ty =? 0x80000001); [|discriminate]. apply bind_ok in E'. destruct E' as (n & _ & E'). destruct (sb_xid (sc_sb s') <? sb_xid n); discriminate.
    - injection E' as <- <-. exact A.
  Qed.
  Lemma scan_area_last s : scan_area img s = last (steps (2 ^ 32) (scan_step img (sb_area s)) (mk_scan 0 s 0 0)).
  Proof. unfold scan_area, last. rewrite rounds_steps. reflexivity. Qed.
  Lemma scan_area_v_last s : scan_area_v img s = last (steps (2 ^ 32) (scan_step_v img (sb_area s)) (mk_scan 0 s 0 0, 0)).
  Proof. unfold scan_area_v, last. rewrite rounds_steps. reflexivity. Qed.
  Lemma area_v s : superblock_at img 0 = Ok s ->
    scan_area_v img s = Fail \/ exists r w, scan_area_v img s = Ok (r, w) /\ scan_area img s = Ok r /\ superblock_at img w = Ok (sc_sb r).
  Proof.
    intros H0. assert (FS : fine (scan_area img s)).
    { apply scan_area_fine; [exact D|]. apply (superblock_at_ok img 0 s D) in H0. destruct H0 as (d & (_ & X) & _ & ->). unfold superblock_block in X. change (area_size d < 2 ^ 31). tauto. }
    rewrite scan_area_last in FS. rewrite scan_area_v_last, scan_area_last. exact (area_steps_v (2 ^ 32) s H0 FS).
  Qed.

  Lemma extra_ok w s : superblock_at img w = Ok s -> exists d, superblock_in img (w mod 2 ^ 52) d /\ s = contents d /\ extra_at img w = Ok (extra_of d).
  Proof.
    intros H. destruct (superblock_at_ok img w s D H) as (d & S & R & ->). exists d. split; [exact S|]. split; [reflexivity|].
    unfold superblock_at in H. apply bind_ok in H. destruct H as (e & E & _). unfold extra_at. rewrite E. cbn [bind].
    apply read_at_ok in E; [|lia]. destruct E as (f & F & _ & L & ->). rewrite (proj1 S) in F. injection F as <-.
    rewrite !num_rd by (rewrite ?len_slice by lia; lia). cbn [bind]. rewrite !num_head by lia. reflexivity.
  Qed.

  Variable dec : list Z -> list Z -> list Z -> list Z.
  Lemma open_v_only_fails : only_fails (open_v dec img) (open dec img).
  Proof.
    unfold open_v, open. apply only_fails_bind. intros s Es. cbv zeta. apply only_fails_bind. intros u _.
    destruct (area_v s Es) as [E|(r & w & E & E' & A)]; rewrite E; [left; reflexivity|]. rewrite E'. cbn [bind].
    apply only_fails_bind. intros u1 _. apply only_fails_bind. intros m _. destruct (extra_ok w (sc_sb r) A) as (d & _ & _ & EX). rewrite EX. cbn [bind].
    apply only_fails_skip; [apply shown_objects_fine|]. intros u2 _. right. reflexivity.
  Qed.
End Scan.

(* ---- intact containers ---- *)
Section Intact.
  Variable img : device.
  Hypothesis D : device_ok img.
  Variables (a n : Z) (d0 : list Z).
  Hypothesis H0 : superblock_in img 0 d0.
  Hypothesis Ha : 0 < a.
  Hypothesis Han : a + n < 2 ^ 51.
  Hypothesis Hn : 0 <= n < 2 ^ 31.
  Hypothesis A0 : area d0 = a.
  Hypothesis N0 : area_size d0 = n.
  Hypothesis HI : area_intact img a n.

  Definition done_v (i : Z) (p : scan * Z) : Prop := done img a n i (fst p) /\
    exists d, superblock_in img (snd p) d /\ sc_sb (fst p) = contents d /\ (snd p = 0 \/ a <= snd p < a + i) /\
    forall b' d', before a (snd p) b' -> superblock_in img b' d' -> xid d' < xid d.

  Lemma step_both i p : 0 <= i <= n -> done_v i p -> exists q, scan_step_v img a p = Ok (inl q) /\ done_v (i + 1) q.
  Proof.
    destruct p as (s, w). cbn [fst snd]. intros Hi (DN & (d & S & EC & RW & MW)). cbn [fst snd] in *.
    destruct (done_step img D a n d0 Ha Han Hn A0 N0 HI i s Hi DN) as (r & E & DR).
    destruct DN as (E1 & (b & db & SB & E2 & E3 & E4 & HB & HM) & _). destruct (HI i Hi) as (e & Ee & Le & K1 & K2).
    assert (X : exists w', scan_step_v img a (s, w) = Ok (inl (r, w')) /\
      (w' = w /\ sc_sb r = sc_sb s \/ w' = a + i /\ superblock_in img (a + i) e /\ sc_sb r = contents e /\ xid db < xid e)).
    { unfold scan_step in E. unfold scan_step_v. rewrite E2 in *. change (sb_area_size (contents db)) with (area_size db) in *. rewrite E4, E1 in *.
      rewrite (proj2 (Z.leb_le i n)) in * by lia. cbv zeta in *. rewrite (object_at_in img (a + i) e) in * by (try assumption; lia). cbn [bind] in *.
      destruct (kind e =? 0x4000000c) eqn:KM.
      - apply Z.eqb_eq in KM. specialize (K2 KM). unfold map_at. rewrite (read_at_in img (a + i) e 4096) by (try assumption; try lia; destruct K2 as (L & _); lia). cbn [bind].
        destruct K2 as (L & Be & K2). rewrite slice_all by lia. rewrite (proj2 (map_read_iff e (mappings e) Be L)) by (split; [split; [exact L|split; [exact Be|exact K2]]|reflexivity]). cbn [bind].
        exists w. destruct (sc_map_xid s <? xid e); injection E as <-; (split; [reflexivity|left; split; reflexivity]).
      - destruct (kind e =? 0x80000001) eqn:KS; [|exists w; injection E as <-; split; [reflexivity|left; split; reflexivity]].
        apply Z.eqb_eq in KS. destruct (K1 KS) as (SE & _ & _). rewrite (superblock_at_in img (a + i) e D) in * by (try (split; assumption); lia). cbn [bind] in *.
        change (sb_xid (contents db)) with (xid db) in *. change (sb_xid (contents e)) with (xid e) in *. destruct (xid db <? xid e) eqn:C.
        + apply Z.ltb_lt in C. exists (a + i). injection E as <-. split; [reflexivity|]. right. split; [reflexivity|]. split; [split; assumption|]. split; [reflexivity|exact C].
        + exists w. injection E as <-. split; [reflexivity|left; split; reflexivity]. }
    destruct X as (w' & X & CASE). exists (r, w'). split; [exact X|]. split; [exact DR|]. cbn [fst snd]. destruct CASE as [(-> & ER)|(-> & SE & ER & LT)].
    - exists d. split; [exact S|]. split; [congruence|]. split; [lia|exact MW].
    - exists e. split; [exact SE|]. split; [exact ER|]. split; [lia|]. intros b' d' (NB & BB) S'. destruct (HM b' d' ltac:(lia) S') as (M & _). lia.
  Qed.
  Lemma all_both : forall (m : nat) k p, (m < k)%nat -> Z.of_nat m <= n + 1 -> done_v (n + 1 - Z.of_nat m) p ->
    exists q, steps k (scan_step_v img a) p = Ok (inr q) /\ done_v (n + 1) q.
  Proof.
    induction m as [|m IH]; intros k p Hk Hm HD; (destruct k as [|k]; [lia|]); cbn [steps].
    - exists p. replace (n + 1 - Z.of_nat 0) with (n + 1) in HD by lia. split; [|exact HD]. destruct p as (s, w).
      destruct HD as ((E1 & (b & d & _ & E2 & _ & E4 & _) & _) & _). cbn [fst] in *. unfold scan_step_v. rewrite E2, E1. change (sb_area_size (contents d)) with (area_size d). rewrite E4.
      rewrite (proj2 (Z.leb_gt _ _)) by lia. reflexivity.
    - destruct (step_both (n + 1 - Z.of_nat (S m)) p ltac:(lia) HD) as (r & E & HR). rewrite E. cbn [bind]. apply IH; [lia|lia|].
      replace (n + 1 - Z.of_nat m) with (n + 1 - Z.of_nat (S m) + 1) by lia. exact HR.
  Qed.
  Lemma area_both b d : newest_superblock img a n b d -> exists r, scan_area_v img (contents d0) = Ok (r, b).
  Proof.
    intros HN. unfold scan_area_v. rewrite rounds_steps. change (sb_area (contents d0)) with (area d0). rewrite A0.
    assert (P : Z.of_nat (2 ^ 32) = 2 ^ 32) by (rewrite Nat2Z.inj_pow; reflexivity).
    destruct (all_both (Z.to_nat (n + 1)) (2 ^ 32) (mk_scan 0 (contents d0) 0 0, 0)) as ((r, w) & E & (DN & (dw & S & EC & RW & MW))); [lia|lia| |].
    - replace (n + 1 - Z.of_nat (Z.to_nat (n + 1))) with 0 by lia. split; [apply done_start; assumption|]. cbn [fst snd]. exists d0.
      split; [exact H0|]. split; [reflexivity|]. split; [left; reflexivity|]. intros b' d' (NB & BB). lia.
    - rewrite E. cbn [bind fst snd] in *. exists r. f_equal. f_equal. destruct HN as (SN & RN & MN).
      destruct (Z.eq_dec w b) as [X|X]; [exact X|]. exfalso.
      destruct (MN w dw ltac:(lia) S) as (L1 & B1). 
      assert (Y : before a w b \/ before a b w) by (unfold before; lia).
      destruct DN as (_ & (b2 & d2 & S2 & EC2 & _ & _ & RB2 & M2) & _). assert (XE : xid dw = xid d2) by (rewrite EC in EC2; apply (f_equal sb_xid) in EC2; exact EC2).
      destruct (M2 b d ltac:(lia) SN) as (L2 & _).
      destruct Y as [Y|Y]; [specialize (MW b d Y SN)|specialize (B1 Y)]; lia.
  Qed.
End Intact.

Section Consistent.
  Variables enc dec : list Z -> list Z -> list Z -> list Z.
  Hypothesis cipher : forall id, unit_cipher 512 (enc id) (dec id).

  Lemma open_v_iff img b d c : consistent enc img b d -> (open_v dec img = Ok c <-> open dec img = Ok c /\ objects_there img d (c_map c)).
  Proof.
    intros HC. pose proof HC as (D & d0 & S0 & F0 & A0 & AN & HI & _ & HN & _).
    assert (N0 : 0 <= area_size d0 < 2 ^ 31).
    { destruct S0 as (_ & S0). unfold superblock_block in S0. split; [apply (num_range d0 104 4); try tauto; lia|tauto]. }
    destruct (area_both img D (area d0) (area_size d0) d0 S0 A0 AN N0 eq_refl eq_refl HI b d HN) as (r & EV).
    assert (Rb : 0 <= b < 2 ^ 51) by (destruct HN as (_ & R & _); lia).
    assert (SD : superblock_in img b d) by apply HN.
    unfold open_v, open. rewrite (superblock_at_in img 0 d0 D ltac:(lia) S0). cbn [bind]. cbv zeta.
    destruct (area_v img D (contents d0)) as [E|(r' & w & E & E' & A)]; [apply superblock_at_in; [exact D|lia|exact S0]|congruence|]. rewrite EV in E. injection E as <- <-. rewrite EV, E'.
    destruct (check (Z.land (sb_incompatible (contents d0)) 0x100 =? 0)) as [[]| | |]; cbn [bind]; try (split; [discriminate|intros (X & _); discriminate X]).
    destruct (check (negb (sc_map r =? 0))) as [[]| | |]; cbn [bind]; try (split; [discriminate|intros (X & _); discriminate X]).
    destruct (map_at img (sc_map r)) as [m| | |]; cbn [bind]; try (split; [discriminate|intros (X & _); discriminate X]).
    destruct (extra_ok img D b (sc_sb r) A) as (dx & SX & _ & EX). rewrite Z.mod_small in SX by lia. assert (dx = d) by (destruct SX as (SX & _), SD as (SD & _); congruence). subst dx.
    rewrite EX. cbn [bind]. assert (B : bytes d /\ len d = 4096) by (destruct SD as (_ & SD); unfold superblock_block in SD; tauto).
    pose proof (shown_objects_iff img m d (proj1 B) (proj2 B)) as IFF. pose proof (shown_objects_fine img m (extra_of d)) as F.
    set (rest := (let! _ := check (negb (sb_omap (sc_sb r) =? 0)) in _)). assert (CM : forall c', rest = Ok c' -> c_map c' = m).
    { intros c' E. unfold rest in E. do 4 (apply bind_ok in E; destruct E as (? & _ & E)). injection E as <-. reflexivity. }
    destruct (shown_objects img m (extra_of d)) as [[]| | |]; try contradiction; cbn [bind].
    - split; [intros X; split; [exact X|]; rewrite (CM c X); apply IFF; reflexivity|intros (X & _); exact X].
    - split; [discriminate|]. intros (X & Y). rewrite (CM c X) in Y. apply IFF in Y. discriminate Y.
  Qed.
End Consistent.

(* ---- volumes ---- *)
Section Volumes.
  Variable dec : list Z -> list Z -> list Z -> list Z.
  Lemma volume_open_d_only_fails img size bag b : only_fails (volume_open_d dec img size bag b) (volume_open dec img size bag b).
  Proof.
    unfold volume_open_d, volume_open. apply only_fails_bind. intros s _. apply only_fails_bind. intros u _. apply only_fails_bind. intros o _. apply only_fails_bind. intros u1 _.
    apply only_fails_bind. intros (k, locked) _. apply only_fails_skip; [|intros u2 _; right; reflexivity].
    destruct (vs_extents s =? 0); [exact I|apply shown_object_fine; lia].
  Qed.
  Lemma volume_open_d_iff img size bag b ov : volume_open_d dec img size bag b = Ok ov <->
    volume_open dec img size bag b = Ok ov /\ (vs_extents (ov_super ov) = 0 \/ object_there img (vs_extents (ov_super ov)) 4096 0x40000002 0xf).
  Proof.
    unfold volume_open_d, volume_open. destruct (vsuper_at img b false) as [s| | |]; cbn [bind]; try (split; [discriminate|intros (X & _); discriminate X]).
    destruct (check (negb (vs_omap s =? 0))) as [[]| | |]; cbn [bind]; try (split; [discriminate|intros (X & _); discriminate X]).
    destruct (omap_at img (vs_omap s)) as [o| | |]; cbn [bind]; try (split; [discriminate|intros (X & _); discriminate X]).
    destruct (check (negb (o =? 0))) as [[]| | |]; cbn [bind]; try (split; [discriminate|intros (X & _); discriminate X]).
    destruct (volume_keys dec img bag s) as [(k, locked)| | |]; cbn [bind]; try (split; [discriminate|intros (X & _); discriminate X]).
    set (rest := bind (if vs_snapshots s =? 0 then Ok [] else _) _).
    assert (CM : forall c', rest = Ok c' -> ov_super c' = s).
    { intros c' E. unfold rest in E. do 2 (apply bind_ok in E; destruct E as (? & _ & E)). injection E as <-. reflexivity. }
    destruct (vs_extents s =? 0) eqn:E0; cbn [bind].
    - apply Z.eqb_eq in E0. split; [intros X; split; [exact X|left; rewrite (CM ov X); exact E0]|intros (X & _); exact X].
    - apply Z.eqb_neq in E0. pose proof (shown_object_iff img (vs_extents s) 4096 0x40000002 0xf ltac:(lia)) as IFF. pose proof (shown_object_fine img (vs_extents s) 4096 0x40000002 0xf ltac:(lia)) as F.
      destruct (shown_object img (vs_extents s) 4096 0x40000002 0xf) as [[]| | |]; try contradiction; cbn [bind].
      + split; [intros X; split; [exact X|right; rewrite (CM ov X); apply IFF; reflexivity]|intros (X & _); exact X].
      + split; [discriminate|]. intros (X & [Y|Y]); rewrite (CM ov X) in Y; [contradiction|]. apply IFF in Y. discriminate Y.
  Qed.
End Volumes.
