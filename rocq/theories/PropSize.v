(* C103: the size of an open container and how far its trees reach. *)
From Coq Require Import Lia.
From Verif Require Import Base BaseLemmas Checksummed BTree BTreeSpec Walk TreeSpec Omap OmapSpec OmapTop PropOmap CryptSpec Container ContainerSpec ContainerProofs ContainerTop PropContainer.

(* What holds: on any device the size is the one in block 0, and a container whose newest
   superblock has the same size reaches all volumes whose object map tree is within it. *)
Theorem C103_size_of_block_0 : forall dec img c, device_ok img -> open dec img = Ok c ->
  exists d0, superblock_in img 0 d0 /\ container_size c = num d0 40 8 * 4096 mod 2 ^ 64.
Proof.
  intros dec img c D E. pose proof (open_size dec img c D E) as S. unfold open in E. apply bind_ok in E. destruct E as (s & ES & _).
  apply (superblock_at_ok img 0 s D) in ES. destruct ES as (d0 & S0 & _ & _). change (0 mod 2 ^ 52) with 0 in S0. exists d0. split; [exact S0|].
  unfold container_size. rewrite S. unfold size_of. rewrite (proj1 S0). reflexivity.
Qed.
Print Assumptions C103_size_of_block_0.
Theorem C103_same_size_partial : forall enc dec, (forall id, unit_cipher 512 (enc id) (dec id)) ->
  forall img b d d0 root h recs, consistent enc img b d -> img 0 = Some d0 -> num d0 40 8 = num d 40 8 -> num d 40 8 < 2 ^ 52 ->
  root_of img d root -> omap_tree (part (num d 40 8 * 4096) img) h root recs -> Z.of_nat h <= 256 -> (exists k, slots d = volumes d ++ repeat 0 k) ->
  exists c, open dec img = Ok c /\ container_size c = num d 40 8 * 4096 /\
  forall i v e, nth_error (volumes d) i = Some v -> newest recs v (xid d) (Some e) ->
    exists od, volume_by_index img c (Z.of_nat i) = Ok od /\ od_oid od = v /\ od_address od = rec_address e.
Proof.
  intros enc dec HC img b d d0 root h recs H E0 ES Hn HR HT Hh HK. destruct (open_consistent enc dec HC img b d H) as (c & m & j & EO & (EC & RT & _) & _).
  assert (SB : superblock_block d) by (destruct H as (_ & d1 & _ & _ & _ & _ & _ & _ & (N1 & _) & _); exact (proj2 N1)).
  pose proof (superblock_bytes d SB) as (L & B). pose proof (num_range d 40 8 B ltac:(lia) ltac:(lia) ltac:(lia)) as R.
  assert (EZ : c_size c = num d 40 8 * 4096).
  { rewrite (open_size dec img c (proj1 H) EO). unfold size_of. rewrite E0, ES. apply Z.mod_small. lia. }
  exists c. split; [exact EO|]. split; [exact EZ|].
  assert (ER : c_root c = root) by (destruct RT as (_ & o1 & O1 & _ & _ & _ & O2 & _), HR as (_ & o2 & O3 & _ & _ & _ & O4 & _); congruence).
  rewrite <- EZ, <- ER in HT. destruct (C48_volumes_by_index_partial img c d h recs SB EC HK HT Hh) as (_ & _ & VI).
  intros i v e EV HN. destruct (VI i v EV) as (r & N & EI). destruct r as [r|]; [|destruct HN as (I & O & T & _); specialize (N e I O); lia].
  assert (r = e) by (exact (newest_unique (part (c_size c) img) h (c_root c) recs v (xid d) r e HT N HN)). subst r. rewrite EI. eexists. split; [reflexivity|]. split; reflexivity.
Qed.
Print Assumptions C103_same_size_partial.

(* The full statement is false. Block 0 has the superblock of transaction 5, when the container
   had 6 blocks; it has 100 blocks since transaction 6. *)
Definition sb_old : list Z := le_enc 8 9751799269076705533 ++ skipn 8 (firstn 40 sb5) ++ le_enc 8 6 ++ skipn 48 sb5.
Lemma sb_old_ok : superblock_block sb_old.
Proof. apply superblock_by_read; vm_compute; reflexivity. Qed.
Lemma sb_old_fields : fields sb_old 5 /\ num sb_old 40 8 = 6 /\ num sb6 40 8 = 100.
Proof. vm_compute. auto 10. Qed.
Definition dev_grown := ex_dev sb_old map6 sb6 (zeros 4096) (zeros 4096).
Lemma dev_grown_ok enc : consistent enc dev_grown 2 sb6.
Proof.
  destruct sb_old_fields as ((F1 & F2 & F3 & F4 & F5 & F6 & F7) & _). destruct sb6_fields as (G1 & G2 & G3 & G4 & G5 & G6 & G7). destruct map_fields as (_ & M6 & K6).
  pose proof sb_old_ok as S5. pose proof sb6_ok as S6. pose proof map6_ok as P6.
  unfold dev_grown. remember sb_old as s eqn:Es. clear Es. remember sb6 as t eqn:Et. clear Et. remember map6 as m eqn:Em. clear Em.
  apply (ex_consistent enc _ _ _ _ _ 2 t m); try assumption; try lia.
  - rewrite F5. reflexivity.
  - repeat (apply Forall_cons; [tauto|]). constructor.
  - cbn [In]. auto.
  - reflexivity.
  - intros i d' Hi E Sd. pose proof (superblock_kind_of d' Sd) as K. unfold ex_dev in E.
    assert (C : i = 0 \/ i = 1 \/ i = 2 \/ i = 3 \/ i = 4) by lia. destruct C as [C|[C|[C|[C|C]]]]; subst i; cbn [Z.eqb Pos.eqb] in E; injection E as <-.
    + split; lia.
    + rewrite K6 in K. discriminate.
    + split; lia.
    + rewrite zeros_kind in K. discriminate.
    + rewrite zeros_kind in K. discriminate.
Qed.
Lemma grown_root : root_of dev_grown sb6 6.
Proof. destruct sb6_fields as (_ & _ & _ & _ & _ & F6 & _). unfold root_of. rewrite F6. split; [lia|]. exists ex_omap. split; [reflexivity|]. vm_compute. intuition congruence. Qed.
Lemma grown_opens enc dec : (forall id, unit_cipher 512 (enc id) (dec id)) -> exists c, open dec dev_grown = Ok c /\ c_sb c = contents sb6 /\ c_root c = 6 /\ c_size c = 6 * 4096.
Proof.
  intros HC. destruct (open_consistent enc dec HC dev_grown 2 sb6 (dev_grown_ok enc)) as (c & m & j & EO & (EC & RT & _) & _). exists c. split; [exact EO|]. split; [exact EC|]. split.
  - destruct RT as (_ & o1 & O1 & _ & _ & _ & O2 & _), grown_root as (_ & o2 & O3 & _ & _ & _ & O4 & _). congruence.
  - rewrite (open_size dec dev_grown c (proj1 (dev_grown_ok enc)) EO). unfold size_of. change (dev_grown 0) with (Some sb_old). cbv iota. rewrite (proj1 (proj2 sb_old_fields)). reflexivity.
Qed.
Theorem C103_old_size_refuted : exists img b d, (forall enc, consistent enc img b d) /\ num d 40 8 = 100 /\
  forall enc dec, (forall id, unit_cipher 512 (enc id) (dec id)) -> exists c, open dec img = Ok c /\ c_sb c = contents d /\ container_size c = 6 * 4096.
Proof.
  exists dev_grown, 2, sb6. split; [exact dev_grown_ok|]. split; [apply sb_old_fields|]. intros enc dec HC. destruct (grown_opens enc dec HC) as (c & E1 & E2 & _ & E3). eauto.
Qed.
Print Assumptions C103_old_size_refuted.
(* No volume of it can be opened, although the object map has them and is within the container. *)
Lemma not_within img b n : n <= b * 4096 -> 0 <= b -> within n img b = None.
Proof. intros H Hb. unfold within. replace (b <? n / 4096) with false; [reflexivity|]. symmetry. apply Z.ltb_ge. apply Z.div_le_upper_bound; lia. Qed.
Lemma no_root img root oid x : img root = None -> omap_lookup img root oid x = Fail.
Proof.
  intros E. assert (X : read_block img root = Fail) by (unfold read_block; rewrite E; reflexivity).
  unfold omap_lookup, plain_walk, Walk.walk, bindM, plain_root, retM. unfold omap_load_root. rewrite X. destruct (int_max <? root); reflexivity.
Qed.
Theorem C103_grown_container_refuted : exists img b d root recs v e, (forall enc, consistent enc img b d) /\ root_of img d root /\
  omap_tree (part (num d 40 8 * 4096) img) 0 root recs /\ In v (volumes d) /\ newest recs v (xid d) (Some e) /\
  forall enc dec, (forall id, unit_cipher 512 (enc id) (dec id)) -> exists c, open dec img = Ok c /\ number_of_volumes c = 2 /\ forall i, volume_by_index img c i = Fail.
Proof.
  destruct sb_old_fields as (_ & _ & N). destruct sb6_fields as (X6 & _).
  exists dev_grown, 2, sb6, 6, [(ex_key 40 1, ex_val 100); (ex_key 42 1, ex_val 101)], 42, (ex_key 42 1, ex_val 101). split; [exact dev_grown_ok|]. split; [exact grown_root|].
  split; [rewrite N; split; [ex_node_tac|]; sorted_tac|]. split; [vm_compute; auto|]. split.
  { rewrite X6. split; [right; left; reflexivity|]. split; [reflexivity|]. split; [vm_compute; discriminate|]. intros r' [<-|[<-|[]]] O T; vm_compute in O; try discriminate O; vm_compute; discriminate. }
  intros enc dec HC. destruct (grown_opens enc dec HC) as (c & E1 & E2 & E3 & E4). exists c. split; [exact E1|].
  split; [unfold number_of_volumes; rewrite E2; vm_compute; reflexivity|]. intros i. unfold volume_by_index. rewrite E3, E4.
  destruct (check _) eqn:EK; try reflexivity; cbn [bind]; [|unfold check in EK; destruct (_ && _); discriminate EK..].
  assert (G : exists oid, getb (sb_volumes (c_sb c)) i = Ok oid).
  { assert (Hi : 0 <= i < 2) by (unfold check in EK; rewrite E2 in EK; replace (sb_count (contents sb6)) with 2 in EK by (vm_compute; reflexivity); destruct ((0 <=? i) && (i <? 2)) eqn:EI; [lia|discriminate]).
    rewrite E2. assert (C : i = 0 \/ i = 1) by lia. destruct C as [-> | ->]; [exists 40|exists 42]; vm_compute; reflexivity. }
  destruct G as (oid & ->). cbn [bind]. rewrite no_root; [reflexivity|]. apply not_within; lia.
Qed.
Print Assumptions C103_grown_container_refuted.
Example C103_example : forall enc dec, (forall id, unit_cipher 512 (enc id) (dec id)) -> exists c, open dec dev5 = Ok c /\ container_size c = 409600 /\
  exists od, volume_by_index dev5 c 1 = Ok od /\ od_oid od = 42 /\ od_address od = 101.
Proof.
  intros enc dec HC. destruct sb5_fields as (X5 & _ & _ & _ & _ & F6 & _). assert (N : num sb5 40 8 = 100) by (vm_compute; reflexivity).
  destruct (C103_same_size_partial enc dec HC dev5 0 sb5 sb5 6 0 [(ex_key 40 1, ex_val 100); (ex_key 42 1, ex_val 101)] (dev5_ok enc)) as (c & E & S & V).
  - reflexivity.
  - reflexivity.
  - rewrite N. lia.
  - unfold root_of. rewrite F6. split; [lia|]. exists ex_omap. split; [reflexivity|]. vm_compute. intuition congruence.
  - rewrite N. split; [ex_node_tac|]. sorted_tac.
  - lia.
  - exists 98%nat. vm_compute. reflexivity.
  - exists c. split; [exact E|]. split; [rewrite S, N; reflexivity|]. apply (V 1%nat 42 (ex_key 42 1, ex_val 101)); [vm_compute; reflexivity|].
    rewrite X5. split; [right; left; reflexivity|]. split; [reflexivity|]. split; [vm_compute; discriminate|]. intros r' [<-|[<-|[]]] O T; vm_compute in O; try discriminate O; vm_compute; discriminate.
Qed.
