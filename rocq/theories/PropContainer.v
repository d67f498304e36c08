(* C46-C49: opening a container. *)
From Coq Require Import Lia.
From Verif Require Import Base BaseLemmas Checksum ChecksumSpec Checksummed BTree BTreeSpec BTreeProofs Walk TreeSpec Omap OmapSpec PropOmap Crypt CryptSpec KeyBag KeyBagSpec
  Container ContainerSpec ContainerProofs ContainerTop ContainerCrash.

(* ---- a small container ---- *)
(* superblock of a transaction, with descriptor area in blocks 1 to 3 and object map in block
   5, and with a counter behind the volume slots *)
Definition ex_sb (sum x : Z) (vols : list Z) : list Z :=
  le_enc 8 sum ++ (le_enc 8 1 ++ le_enc 8 x ++ le_enc 4 superblock_kind ++ le_enc 4 0 ++ [78; 88; 83; 66] ++ le_enc 4 4096 ++ le_enc 8 100 ++ zeros 16 ++
    le_enc 8 2 ++ repeat 7 16 ++ zeros 16 ++ le_enc 4 3 ++ le_enc 4 0 ++ le_enc 8 1 ++ zeros 40 ++ le_enc 8 5 ++ zeros 12 ++ le_enc 4 100 ++
    concat (map (le_enc 8) vols) ++ zeros (8 * (100 - len vols)) ++ le_enc 8 x ++ zeros 3104).
Definition ex_map (sum x : Z) (l : list (Z * Z)) : list Z :=
  le_enc 8 sum ++ (le_enc 8 2 ++ le_enc 8 x ++ le_enc 4 map_kind ++ le_enc 4 0 ++ le_enc 4 1 ++ le_enc 4 (len l) ++
    concat (map (fun e => zeros 24 ++ le_enc 8 (fst e) ++ le_enc 8 (snd e)) l) ++ zeros (4056 - 40 * len l)).
Definition ex_omap : list Z := zeros 24 ++ le_enc 4 omap_kind ++ le_enc 4 0 ++ zeros 16 ++ le_enc 8 6 ++ zeros 40.
Definition ex_tree_block : list Z := node_bytes (ex_node true true [(ex_key 40 1, ex_val 100); (ex_key 42 1, ex_val 101)]).
Definition ex_dev (b0 b1 b2 b3 b4 : list Z) : device := fun b =>
  if b =? 0 then Some b0 else if b =? 1 then Some b1 else if b =? 2 then Some b2 else if b =? 3 then Some b3 else if b =? 4 then Some b4
  else if b =? 5 then Some ex_omap else if b =? 6 then Some ex_tree_block else None.
Definition bytesb (d : list Z) : bool := forallb (fun x => (0 <=? x) && (x <? 256)) d.
Lemma bytesb_ok d : bytesb d = true -> bytes d.
Proof.
  intros H. apply Forall_forall. intros x Hx. unfold bytesb in H. rewrite forallb_forall in H. specialize (H x Hx). unfold is_byte. lia.
Qed.
Lemma superblock_by_read d : bytesb d = true -> len d = 4096 -> is_ok (superblock_read d) = true -> superblock_block d.
Proof.
  intros B L H. apply bytesb_ok in B. destruct (superblock_read d) as [s| | |] eqn:E; try discriminate. apply (superblock_read_iff d s B L) in E. apply E.
Qed.
Lemma map_by_read d : bytesb d = true -> len d = 4096 -> is_ok (map_read d) = true -> map_block d.
Proof.
  intros B L H. apply bytesb_ok in B. destruct (map_read d) as [s| | |] eqn:E; try discriminate. apply (map_read_iff d s B L) in E. apply E.
Qed.
Lemma ex_device b0 b1 b2 b3 b4 : Forall (fun d => bytes d /\ len d <= 4096) [b0; b1; b2; b3; b4] -> device_ok (ex_dev b0 b1 b2 b3 b4).
Proof.
  intros H b d. assert (H' : Forall (fun d => bytes d /\ len d <= 4096) [b0; b1; b2; b3; b4; ex_omap; ex_tree_block]).
  { do 5 (apply Forall_cons; [exact (Forall_inv H)|]; apply Forall_inv_tail in H).
    apply Forall_cons; [split; [apply bytesb_ok|]; vm_compute; congruence|]. apply Forall_cons; [split; [apply bytesb_ok|]; vm_compute; congruence|constructor]. }
  clear H. rewrite Forall_forall in H'. unfold ex_dev. generalize dependent ex_omap. generalize dependent ex_tree_block. intros t o H.
  do 7 (match goal with |- context [b =? ?k] => destruct (b =? k) end; [intros E; apply H; assert (X : Some d = Some d) by reflexivity; rewrite <- E in X at 1; injection X as <-; cbn [In]; tauto|]). discriminate.
Qed.

Definition sb5 := ex_sb 9752208648179395659 5 [40; 42].
Definition sb6 := ex_sb 9752216370530592067 6 [40; 42].
Definition sb7 := ex_sb 9752223732104535695 7 [40; 0; 42].
Definition map5 := ex_map 9236915173616244287 5 [(1024, 20); (1025, 21); (1024, 22)].
Definition map6 := ex_map 9228001991197690087 6 [(1024, 23)].
Lemma sb5_ok : superblock_block sb5.
Proof. apply superblock_by_read; vm_compute; reflexivity. Qed.
Lemma sb6_ok : superblock_block sb6.
Proof. apply superblock_by_read; vm_compute; reflexivity. Qed.
Lemma sb7_ok : superblock_block sb7.
Proof. apply superblock_by_read; vm_compute; reflexivity. Qed.
Lemma map5_ok : map_block map5.
Proof. apply map_by_read; vm_compute; reflexivity. Qed.
Lemma map6_ok : map_block map6.
Proof. apply map_by_read; vm_compute; reflexivity. Qed.

Lemma superblock_small d : superblock_block d -> bytes d /\ len d <= 4096.
Proof. unfold superblock_block. intros H. split; [tauto|lia]. Qed.
Lemma map_small d : map_block d -> bytes d /\ len d <= 4096.
Proof. unfold map_block. intros H. split; [tauto|lia]. Qed.
Lemma zeros_small : bytes (zeros 4096) /\ len (zeros 4096) <= 4096.
Proof. split; [apply zeros_bytes|]. rewrite zeros_len; lia. Qed.

(* the fields of the blocks *)
Definition fields (d : list Z) (x : Z) : Prop :=
  xid d = x /\ kind d = superblock_kind /\ area d = 1 /\ area_size d = 3 /\ features d = 2 /\ num d 160 8 = 5 /\ num d 1296 8 = 0.
Lemma sb5_fields : fields sb5 5. Proof. vm_compute. auto 10. Qed.
Lemma sb6_fields : fields sb6 6. Proof. vm_compute. auto 10. Qed.
Lemma sb7_fields : fields sb7 7. Proof. vm_compute. auto 10. Qed.
Lemma map_fields : (xid map5 = 5 /\ kind map5 = map_kind) /\ (xid map6 = 6 /\ kind map6 = map_kind). Proof. vm_compute. auto. Qed.
Lemma zeros_kind : kind (zeros 4096) = 0. Proof. vm_compute. reflexivity. Qed.

Lemma ex_consistent enc b0 b1 b2 b3 b4 b d m :
  superblock_block b0 -> area b0 = 1 -> area_size b0 = 3 -> Z.testbit (features b0) 8 = false ->
  Forall (fun x => (superblock_block x /\ area x = 1 /\ area_size x = 3) \/ map_block x \/ x = zeros 4096) [b1; b2; b3; b4] ->
  In m [b1; b2; b3; b4] -> map_block m -> 0 < xid m ->
  0 <= b <= 4 -> ex_dev b0 b1 b2 b3 b4 b = Some d -> superblock_block d -> num d 160 8 = 5 -> num d 1296 8 = 0 ->
  (forall i d', 0 <= i <= 4 -> ex_dev b0 b1 b2 b3 b4 i = Some d' -> superblock_block d' -> xid d' <= xid d /\ (i < b -> xid d' < xid d)) ->
  consistent enc (ex_dev b0 b1 b2 b3 b4) b d.
Proof.
  intros S0 A0 N0 F0 HF Hm Mm Xm Hb Eb Sd Od Bd HN.
  assert (SM : forall x, In x [b1; b2; b3; b4] -> bytes x /\ len x = 4096).
  { intros x Hx. rewrite Forall_forall in HF. destruct (HF x Hx) as [(X & _)|[X|X]]; [unfold superblock_block in X; tauto|unfold map_block in X; tauto|].
    subst x. split; [apply zeros_bytes|rewrite zeros_len; lia]. }
  assert (AT : forall i, 0 <= i <= 3 -> exists x, In x [b1; b2; b3; b4] /\ ex_dev b0 b1 b2 b3 b4 (1 + i) = Some x).
  { intros i Hi. assert (C : i = 0 \/ i = 1 \/ i = 2 \/ i = 3) by lia. destruct C as [C|[C|[C|C]]]; subst i; eexists; (split; [|reflexivity]); cbn [In]; tauto. }
  split.
  { apply ex_device. apply Forall_cons; [apply superblock_small; exact S0|]. apply Forall_forall. intros x Hx. specialize (SM x Hx). split; [tauto|lia]. }
  exists b0. rewrite A0, N0. split; [split; [reflexivity|exact S0]|]. split; [exact F0|]. split; [lia|]. split; [lia|]. split; [|split; [|split]].
  - intros i Hi. destruct (AT i Hi) as (x & Hx & E). exists x. split; [exact E|]. destruct (SM x Hx) as (Bx & Lx). split; [lia|].
    rewrite Forall_forall in HF. destruct (HF x Hx) as [(X & Y)|[X|X]].
    + rewrite (superblock_kind_of x X). split; [auto|discriminate].
    + assert (K : kind x = map_kind) by (unfold map_block in X; tauto). rewrite K. split; [discriminate|auto].
    + subst x. rewrite zeros_kind. split; discriminate.
  - cbn [In] in Hm. assert (K : kind m = map_kind) by (unfold map_block in Mm; tauto).
    destruct Hm as [E|[E|[E|[E|[]]]]]; [exists 0, m|exists 1, m|exists 2, m|exists 3, m]; (split; [lia|]); (split; [rewrite <- E; reflexivity|]); auto.
  - split; [split; assumption|]. split; [lia|]. intros b' d' Hb' (E & S'). destruct (HN b' d' ltac:(lia) E S') as (H1 & H2). split; [exact H1|].
    intros (Y1 & Y2). apply H2. lia.
  - exists 6, None. split; [|left; exact Bd]. unfold root_of. rewrite Od. split; [lia|]. exists ex_omap.
    split; [reflexivity|]. vm_compute. intuition congruence.
Qed.

(* ---- C49 ---- *)
(* lookup in a checkpoint map, on every block *)
Theorem C49_map_lookup : forall d, bytes d -> len d = 4096 ->
  (map_read d = Fail \/ exists l, map_read d = Ok l) /\
  forall l, map_read d = Ok l -> map_block d /\ forall oid, first_mapping (mappings d) oid (map_lookup l oid).
Proof.
  intros d B L. split; [pose proof (map_read_fine d B L); destruct (map_read d); try contradiction; eauto|].
  intros l E. apply (map_read_iff d l B L) in E. destruct E as (M & ->). split; [exact M|]. intros oid. apply map_lookup_first.
Qed.
Print Assumptions C49_map_lookup.
Theorem C49_map_read : forall d, map_block d -> map_read d = Ok (mappings d).
Proof. intros d M. pose proof M as M'. unfold map_block in M'. apply map_read_iff; [tauto|tauto|auto]. Qed.
Print Assumptions C49_map_read.
Example C49_example : map_block map5 /\ mappings map5 = [(1024, 20); (1025, 21); (1024, 22)] /\
  map (map_lookup (mappings map5)) [1024; 1025; 1026] = [Some 20; Some 21; None].
Proof. split; [exact map5_ok|]. vm_compute. auto. Qed.

(* ---- C46 ---- *)
(* Whatever is on the device: the superblock used is in block 0 or in the area, and no valid
   superblock in block 0 or in the area (or the block after it) is newer. *)
Theorem C46_selected_is_newest_partial : forall dec img c, device_ok img -> open dec img = Ok c ->
  exists d0, superblock_in img 0 d0 /\ (area d0 + 2 ^ 31 <= 2 ^ 51 ->
  exists b d, superblock_in img b d /\ c_sb c = contents d /\
  (b = 0 \/ exists b' d', superblock_in img b' d' /\ area d0 <= b <= area d0 + area_size d') /\
  forall b' d', (b' = 0 \/ area d0 <= b' <= area d0 + area_size d) -> superblock_in img b' d' -> xid d' <= xid d).
Proof.
  intros dec img c D H. unfold open in H. apply bind_ok in H. destruct H as (s & E & H). apply (superblock_at_ok img 0 s D) in E.
  destruct E as (d0 & S0 & _ & ->). change (0 mod 2 ^ 52) with 0 in S0. exists d0. split; [exact S0|]. intros Ha.
  assert (B0 : superblock_block d0) by apply S0. assert (A0 : 0 < area d0).
  { unfold superblock_block in B0. pose proof (num_range d0 112 8 ltac:(tauto) ltac:(lia) ltac:(lia) ltac:(lia)). unfold area in *. lia. }
  apply bind_ok in H. destruct H as (u & _ & H). apply bind_ok in H. destruct H as (r & E & H). apply bind_ok in H. destruct H as (u' & _ & H).
  apply bind_ok in H. destruct H as (m & _ & H). cbv zeta in H. apply bind_ok in H. destruct H as (u2 & _ & H). apply bind_ok in H. destruct H as (root & _ & H).
  apply bind_ok in H. destruct H as (u3 & _ & H). apply bind_ok in H. destruct H as (bag & _ & H).
  assert (HC : c_sb c = sc_sb r) by (destruct c; injection H; intros; subst; reflexivity). clear H.
  apply scan_area_steps in E. destruct E as (k & ES). change (sb_area (contents d0)) with (area d0) in ES.
  apply (steps_invariant (seen img (area d0) d0) (scan_step img (area d0))) in ES.
  - destruct ES as (r' & (I0 & b & d & S & ED & X & HB & HM) & ES). apply scan_step_end in ES. destruct ES as (-> & HI).
    exists b, d. split; [exact S|]. split; [congruence|]. split; [exact HB|]. rewrite ED in HI. change (sb_area_size (contents d)) with (area_size d) in HI.
    intros b' d' [Z|Z] S'; [subst b'; assert (d' = d0) by (destruct S' as (S' & _), S0 as (S0 & _); congruence); subst; exact X|].
    apply (HM (b' - area d0)); [lia|]. replace (area d0 + (b' - area d0)) with b' by lia. exact S'.
  - apply (seen_step img D (area d0) d0 A0 Ha).
  - split; [cbn; lia|]. exists 0, d0. split; [exact S0|]. split; [reflexivity|]. split; [lia|]. split; [auto|]. cbn [sc_index]. lia.
Qed.
Print Assumptions C46_selected_is_newest_partial.

(* A consistent container is opened with its newest superblock, and with the first of the
   newest checkpoint maps. *)
Theorem C46_opens_newest_partial : forall enc dec, (forall id, unit_cipher 512 (enc id) (dec id)) ->
  forall img b d, consistent enc img b d ->
  exists c m, open dec img = Ok c /\ opened enc img c d /\ img (c_map_block c) = Some m /\ map_block m /\ c_map c = mappings m /\
  forall i m', 0 <= i <= area_size d -> img (area d + i) = Some m' -> kind m' = map_kind -> xid m' <= xid m.
Proof.
  intros enc dec HC img b d H. destruct (open_consistent enc dec HC img b d H) as (c & m & j & H1 & H2 & H3 & H4 & H5 & _ & H6). exists c, m. auto 10.
Qed.
Print Assumptions C46_opens_newest_partial.

(* a container after transaction 5 *)
Definition dev5 := ex_dev sb5 map5 sb5 (zeros 4096) (zeros 4096).
Lemma dev5_ok enc : consistent enc dev5 0 sb5.
Proof.
  destruct sb5_fields as (F1 & F2 & F3 & F4 & F5 & F6 & F7). destruct map_fields as ((M5 & K5) & _).
  pose proof sb5_ok as S5. pose proof map5_ok as P5. unfold dev5. remember sb5 as s eqn:Es. clear Es. remember map5 as m eqn:Em. clear Em.
  apply (ex_consistent enc _ _ _ _ _ 0 s m); try assumption; try lia.
  - rewrite F5. reflexivity.
  - repeat (apply Forall_cons; [tauto|]). constructor.
  - cbn [In]. auto.
  - reflexivity.
  - intros i d' Hi E Sd. split; [|lia]. pose proof (superblock_kind_of d' Sd) as K. unfold ex_dev in E.
    assert (C : i = 0 \/ i = 1 \/ i = 2 \/ i = 3 \/ i = 4) by lia. destruct C as [C|[C|[C|[C|C]]]]; subst i; cbn [Z.eqb Pos.eqb] in E; injection E as <-.
    + lia.
    + rewrite K5 in K. discriminate.
    + lia.
    + rewrite zeros_kind in K. discriminate.
    + rewrite zeros_kind in K. discriminate.
Qed.
Example C46_example : forall enc dec, (forall id, unit_cipher 512 (enc id) (dec id)) ->
  exists c, open dec dev5 = Ok c /\ c_sb c = contents sb5 /\ number_of_volumes c = 2.
Proof.
  intros enc dec HC. destruct (C46_opens_newest_partial enc dec HC dev5 0 sb5 (dev5_ok enc)) as (c & m & E & (ES & _) & _).
  exists c. split; [exact E|]. split; [exact ES|]. unfold number_of_volumes. rewrite ES. vm_compute. reflexivity.
Qed.

(* The full statement is false: with a damaged superblock in the area the container is not
   opened at all, although the newest superblock and all it refers to is intact. *)
Definition bad := torn map5 sb6 512.
Definition dev_bad := ex_dev sb5 map6 sb6 bad (zeros 4096).
Lemma bad_not : superblock_read bad = Fail.
Proof. vm_compute. reflexivity. Qed.
Lemma bad_block : bytes bad /\ len bad = 4096.
Proof. split; [apply bytesb_ok|]; vm_compute; reflexivity. Qed.
Lemma open_bad : forall dec, open dec dev_bad = Fail.
Proof. intros dec. vm_compute. reflexivity. Qed.
Theorem C46_damaged_superblock_refuted : exists dev d0 d m, device_ok dev /\ superblock_in dev 0 d0 /\ area d0 = 1 /\ area_size d0 = 3 /\
  newest_superblock dev (area d0) (area_size d0) 2 d /\ xid d0 < xid d /\ (forall enc, usable enc dev d) /\
  dev 1 = Some m /\ map_block m /\ xid m = xid d /\ forall dec, open dec dev = Fail.
Proof.
  exists dev_bad, sb5, sb6, map6. destruct sb5_fields as (F1 & F2 & F3 & F4 & F5 & F6 & F7).
  destruct sb6_fields as (G1 & G2 & G3 & G4 & G5 & G6 & G7). destruct map_fields as (_ & M6 & K6).
  pose proof sb5_ok as S5. pose proof sb6_ok as S6. pose proof map6_ok as P6. pose proof bad_not as NB. pose proof open_bad as FO. destruct bad_block as (BB & LB).
  unfold dev_bad in *. remember sb5 as s5 eqn:E5. clear E5. remember sb6 as s6 eqn:E6. clear E6. remember map6 as m eqn:Em. clear Em. remember bad as bd eqn:Eb. clear Eb.
  assert (D : device_ok (ex_dev s5 m s6 bd (zeros 4096))).
  { apply ex_device. apply Forall_cons; [apply superblock_small; exact S5|]. apply Forall_cons; [apply map_small; exact P6|].
    apply Forall_cons; [apply superblock_small; exact S6|]. apply Forall_cons; [split; [exact BB|lia]|]. apply Forall_cons; [exact zeros_small|constructor]. }
  split; [exact D|]. split; [split; [reflexivity|exact S5]|]. split; [exact F3|]. split; [exact F4|]. rewrite F3, F4. split.
  { split; [split; [reflexivity|exact S6]|]. split; [lia|]. intros b' d' Hb' (E & S'). pose proof (superblock_kind_of d' S') as K. unfold ex_dev in E.
    assert (C : b' = 0 \/ b' = 1 \/ b' = 2 \/ b' = 3 \/ b' = 4) by lia. destruct C as [C|[C|[C|[C|C]]]]; subst b'; cbn [Z.eqb Pos.eqb] in E; injection E as <-.
    - lia.
    - rewrite K6 in K. discriminate.
    - split; [lia|]. unfold before. lia.
    - exfalso. pose proof (proj2 (superblock_read_iff bd (contents bd) BB LB) (conj S' eq_refl)) as X. rewrite NB in X. discriminate.
    - rewrite zeros_kind in K. discriminate. }
  split; [lia|]. split.
  { intros enc. exists 6, None. split; [|left; exact G7]. unfold root_of. rewrite G6. split; [lia|]. exists ex_omap. split; [reflexivity|]. vm_compute. intuition congruence. }
  split; [reflexivity|]. split; [exact P6|]. split; [lia|]. exact FO.
Qed.
Print Assumptions C46_damaged_superblock_refuted.

(* Also, the block after the area is scanned: a superblock there is used although it is not in
   the area. *)
Definition dev_out := ex_dev sb5 map5 sb5 (zeros 4096) sb6.
Ltac ex_block E := unfold ex_dev in E; cbn [Z.eqb Pos.eqb] in E; injection E as <-.
Lemma dev_out_ok enc : consistent enc dev_out 4 sb6.
Proof.
  destruct sb5_fields as (F1 & F2 & F3 & F4 & F5 & F6 & F7). destruct sb6_fields as (G1 & G2 & G3 & G4 & G5 & G6 & G7). destruct map_fields as ((M5 & K5) & _).
  pose proof sb5_ok as S5. pose proof sb6_ok as S6. pose proof map5_ok as P5. unfold dev_out.
  remember sb5 as s eqn:Es. clear Es. remember sb6 as s6 eqn:Es. clear Es. remember map5 as m eqn:Em. clear Em.
  apply (ex_consistent enc _ _ _ _ _ 4 s6 m); try assumption; try lia.
  - rewrite F5. reflexivity.
  - repeat (apply Forall_cons; [tauto|]). constructor.
  - cbn [In]. auto.
  - reflexivity.
  - intros i d' Hi E Sd. pose proof (superblock_kind_of d' Sd) as K.
    assert (C : i = 0 \/ i = 1 \/ i = 2 \/ i = 3 \/ i = 4) by lia. destruct C as [C|[C|[C|[C|C]]]]; subst i; ex_block E.
    + lia.
    + rewrite K5 in K. discriminate.
    + lia.
    + rewrite zeros_kind in K. discriminate.
    + lia.
Qed.
Theorem C46_outside_area_refuted : exists dev d0, superblock_in dev 0 d0 /\
  forall enc dec, (forall id, unit_cipher 512 (enc id) (dec id)) -> exists c, open dec dev = Ok c /\
  forall b d, b = 0 \/ area d0 <= b < area d0 + area_size d0 -> superblock_in dev b d -> c_sb c <> contents d.
Proof.
  exists dev_out, sb5. split; [split; [reflexivity|exact sb5_ok]|]. intros enc dec HC.
  destruct (C46_opens_newest_partial enc dec HC dev_out 4 sb6 (dev_out_ok enc)) as (c & m & E & (ES & _) & _). exists c. split; [exact E|]. rewrite ES.
  destruct sb5_fields as (F1 & F2 & F3 & F4 & F5 & F6 & F7). destruct sb6_fields as (G1 & G2 & G3 & G4 & G5 & G6 & G7). destruct map_fields as ((M5 & K5) & _).
  rewrite F3, F4. unfold dev_out. remember sb5 as s eqn:Es. clear Es. remember sb6 as s6 eqn:Es. clear Es. remember map5 as mm eqn:Em. clear Em.
  clear E ES. intros b d Hb (E & Sd) X. pose proof (superblock_kind_of d Sd) as K. assert (X' : xid s6 = xid d) by (change (sb_xid (contents s6) = sb_xid (contents d)); rewrite X; reflexivity).
  assert (C : b = 0 \/ b = 1 \/ b = 2 \/ b = 3) by lia. destruct C as [C|[C|[C|C]]]; subst b; ex_block E.
  - lia.
  - rewrite K5 in K. discriminate K.
  - lia.
  - rewrite zeros_kind in K. discriminate K.
Qed.
Print Assumptions C46_outside_area_refuted.

(* ---- C47 ---- *)
(* Crashes between writes of blocks: the container is opened with the checkpoint before or
   after. *)
Theorem C47_crash_between_blocks_partial : forall enc dec, (forall id, unit_cipher 512 (enc id) (dec id)) ->
  forall dev b d b' d' ws dev', consistent enc dev b d -> checkpoint enc dev b d b' d' ws -> crash_clean dev ws dev' ->
  exists c, open dec dev' = Ok c /\ (opened enc dev' c d \/ opened enc dev' c d').
Proof.
  intros enc dec HC dev b d b' d' ws dev' H1 H2 H3. destruct (crash_consistent enc dev b d b' d' ws dev' H1 H2 H3) as (b2 & [H|H]).
  - destruct (open_consistent enc dec HC dev' b2 d H) as (c & m & j & E & O & _). eauto.
  - destruct (open_consistent enc dec HC dev' b2 d' H) as (c & m & j & E & O & _). eauto.
Qed.
Print Assumptions C47_crash_between_blocks_partial.

(* transaction 6 of the container: the map in block 3, the superblock in block 1 *)
Definition ws6 : list (Z * list Z) := [(9, zeros 4096); (3, map6); (1, sb6); (0, sb6)].
Lemma ws6_ok enc : checkpoint enc dev5 0 sb5 1 sb6 ws6.
Proof.
  destruct sb5_fields as (F1 & F2 & F3 & F4 & F5 & F6 & F7). destruct sb6_fields as (G1 & G2 & G3 & G4 & G5 & G6 & G7). destruct map_fields as (_ & M6 & K6).
  assert (N5 : num sb5 1304 8 = 0) by (vm_compute; reflexivity). assert (N6 : num sb6 1304 8 = 0) by (vm_compute; reflexivity).
  pose proof sb5_ok as S5. pose proof sb6_ok as S6. pose proof map6_ok as P6. unfold ws6, dev5. pose proof (superblock_small _ S6) as Z6.
  remember sb5 as s5 eqn:Es. clear Es. remember sb6 as s6 eqn:Es. clear Es. remember map6 as m eqn:Em. clear Em.
  exists [(9, zeros 4096)], [(3, m)], [(0, s6)]. split; [reflexivity|]. split; [exact S6|]. split; [lia|]. split; [congruence|]. split; [congruence|].
  split; [rewrite G5; reflexivity|]. rewrite F3, F4. split; [lia|]. split; [lia|]. split.
  { apply Forall_cons; [|constructor]. cbn [fst snd]. destruct zeros_small. split; [assumption|]. split; [assumption|]. lia. }
  split; [unfold refers; cbn [map fst In]; intros x Hx; lia|]. split.
  { exists 6, None. split; [|left; exact G7]. unfold root_of. rewrite G6. split; [lia|]. exists ex_omap. split; [reflexivity|]. vm_compute. intuition congruence. }
  split; [unfold refers; intros x Hx; lia|]. split; [discriminate|]. split; [|auto].
  apply Forall_cons; [|constructor]. cbn [fst snd]. split; [exact P6|]. split; [congruence|]. lia.
Qed.
(* the full statement is false: half of a superblock makes the container unreadable *)
Theorem C47_torn_superblock_refuted : exists dev b d b' d' ws dev',
  (forall enc, consistent enc dev b d /\ checkpoint enc dev b d b' d' ws) /\ crash dev ws dev' /\ forall dec, open dec dev' = Fail.
Proof.
  exists dev5, 0, sb5, 1, sb6, ws6, (put (puts dev5 (firstn 2 ws6)) 1 (torn map5 sb6 512)). split; [intros enc; split; [apply dev5_ok|apply ws6_ok]|].
  split; [apply (crash_torn dev5 ws6 2 1 sb6 map5 512); reflexivity|]. intros dec. vm_compute. reflexivity.
Qed.
Print Assumptions C47_torn_superblock_refuted.
(* and after the map of the new checkpoint is written, that map is used with the superblock of
   the old one *)
Theorem C47_map_of_other_checkpoint_refuted : exists dev b d b' d' ws dev',
  (forall enc, consistent enc dev b d /\ checkpoint enc dev b d b' d' ws) /\ crash_clean dev ws dev' /\
  forall enc dec, (forall id, unit_cipher 512 (enc id) (dec id)) ->
  exists c m, open dec dev' = Ok c /\ dev' (c_map_block c) = Some m /\ c_map c = mappings m /\ xid m <> sb_xid (c_sb c).
Proof.
  exists dev5, 0, sb5, 1, sb6, ws6, (puts dev5 (firstn 2 ws6)). split; [intros enc; split; [apply dev5_ok|apply ws6_ok]|].
  split; [constructor|]. intros enc dec HC. destruct sb5_fields as (F1 & F2 & F3 & F4 & F5 & F6 & F7). destruct map_fields as (_ & M6 & K6).
  assert (N5 : num sb5 1304 8 = 0) by (vm_compute; reflexivity).
  assert (S : consistent enc (puts dev5 (firstn 2 ws6)) 0 sb5).
  { apply (state_consistent enc 1 3 1). cbn [firstn ws6 puts]. apply (state_map enc 1 3 0); try lia; [|exact map6_ok|unfold refers; lia].
    apply state_object; try apply zeros_small; try lia; [|unfold refers; lia]. rewrite <- F3, <- F4 at 1. apply consistent_state. apply dev5_ok. }
  destruct (C46_opens_newest_partial enc dec HC _ 0 sb5 S) as (c & m & E & (ES & _) & Em & _ & EM & MX). exists c, m. split; [exact E|]. split; [exact Em|]. split; [exact EM|].
  specialize (MX 2 map6). rewrite F3, F4 in MX. specialize (MX ltac:(lia) eq_refl K6). rewrite ES. change (sb_xid (contents sb5)) with (xid sb5). rewrite F1. lia.
Qed.
Print Assumptions C47_map_of_other_checkpoint_refuted.
(* a crash after the superblock is written *)
Example C47_example : forall enc dec, (forall id, unit_cipher 512 (enc id) (dec id)) ->
  exists c, open dec (puts dev5 (firstn 3 ws6)) = Ok c /\ (opened enc (puts dev5 (firstn 3 ws6)) c sb5 \/ opened enc (puts dev5 (firstn 3 ws6)) c sb6).
Proof. intros enc dec HC. apply (C47_crash_between_blocks_partial enc dec HC dev5 0 sb5 1 sb6 ws6); [apply dev5_ok|apply ws6_ok|constructor]. Qed.

(* ---- C48 ---- *)
Lemma open_selects dec img c : device_ok img -> open dec img = Ok c -> exists b d, superblock_in img b d /\ c_sb c = contents d.
Proof.
  intros D H. unfold open in H. apply bind_ok in H. destruct H as (s & E & H). apply (superblock_at_ok img 0 s D) in E. destruct E as (d0 & S0 & _ & ->).
  apply bind_ok in H. destruct H as (u & _ & H). apply bind_ok in H. destruct H as (r & E & H). apply bind_ok in H. destruct H as (u' & _ & H).
  apply bind_ok in H. destruct H as (m & _ & H). cbv zeta in H. apply bind_ok in H. destruct H as (u2 & _ & H). apply bind_ok in H. destruct H as (root & _ & H).
  apply bind_ok in H. destruct H as (u3 & _ & H). apply bind_ok in H. destruct H as (bag & _ & H).
  assert (HC : c_sb c = sc_sb r) by (destruct c; injection H; intros; subst; reflexivity). clear H. rewrite HC.
  apply scan_area_steps in E. destruct E as (k & ES).
  apply (steps_invariant (fun s => exists b d, superblock_in img b d /\ sc_sb s = contents d)) in ES.
  - destruct ES as (r' & X & ES). apply scan_step_end in ES. destruct ES as (-> & _). exact X.
  - intros s s' (b & d & S & ED) X. apply (scan_step_ok img D) in X. destruct X as (_ & _ & e & E & _ & _ & K & R). rewrite R.
    destruct ((kind e =? superblock_kind) && _) eqn:C; [|eauto]. apply andb_true_iff in C. destruct C as (C & _). apply Z.eqb_eq in C.
    eexists _, e. split; [split; [exact E|exact (K C)]|reflexivity].
  - exists (0 mod 2 ^ 52), d0. split; [exact S0|reflexivity].
Qed.
(* the number of volumes, whatever slots are in use *)
Theorem C48_number_of_volumes : forall dec img c, device_ok img -> open dec img = Ok c ->
  exists b d, superblock_in img b d /\ c_sb c = contents d /\ number_of_volumes c = len (filter (fun v => negb (v =? 0)) (map (fun i => num d (184 + 8 * Z.of_nat i) 8) (seq 0 100))).
Proof.
  intros dec img c D E. destruct (open_selects dec img c D E) as (b & d & S & EC). exists b, d. split; [exact S|]. split; [exact EC|].
  unfold number_of_volumes. rewrite EC. reflexivity.
Qed.
Print Assumptions C48_number_of_volumes.
Lemma by_index img c vs k h recs : sb_volumes (c_sb c) = vs ++ repeat 0 k -> sb_count (c_sb c) = len vs -> Forall (fun v => 0 < v) vs ->
  omap_tree (part (c_size c) img) h (c_root c) recs -> Z.of_nat h <= 256 ->
  (forall i, ~ 0 <= i < number_of_volumes c -> volume_by_index img c i = Fail) /\
  length vs = Z.to_nat (number_of_volumes c) /\
  forall i v, nth_error vs i = Some v -> exists r, newest recs v (sb_xid (c_sb c)) r /\
    volume_by_index img c (Z.of_nat i) = match r with
      | Some e => Ok (mk_od v (rec_txn e) (le_val (slice (snd e) 0 4)) (le_val (slice (snd e) 4 4)) (rec_address e))
      | None => Fail
      end.
Proof.
  intros ES EN HP HT Hh. unfold number_of_volumes, volume_by_index. rewrite EN. split; [|split].
  - intros i Hi. replace ((0 <=? i) && (i <? len vs)) with false by lia. reflexivity.
  - unfold len. lia.
  - intros i v E. pose proof (nth_error_Some vs i) as X. rewrite E in X. assert (Hi : (i < length vs)%nat) by (apply X; discriminate). clear X. change (within (c_size c) img) with (part (c_size c) img).
    replace ((0 <=? Z.of_nat i) && (Z.of_nat i <? len vs)) with true by (unfold len; lia). cbn [check bind].
    assert (G : getb (sb_volumes (c_sb c)) (Z.of_nat i) = Ok v).
    { rewrite ES. unfold getb. replace ((0 <=? Z.of_nat i) && (Z.of_nat i <? len (vs ++ repeat 0 k))) with true by (rewrite len_app; pose proof (len_nonneg (repeat 0 k)); unfold len in *; lia).
      rewrite Nat2Z.id, nth_error_app1 by exact Hi. rewrite E. reflexivity. }
    rewrite G. cbn [bind]. assert (V : 0 < v) by (rewrite Forall_forall in HP; apply HP; eapply nth_error_In; exact E).
    destruct (C16_omap_lookup_partial (part (c_size c) img) h (c_root c) recs v (sb_xid (c_sb c)) HT Hh V) as (r & HN & EL). exists r. split; [exact HN|]. rewrite EL. destruct r; reflexivity.
Qed.
Lemma in_slots d v n : In v (map (fun i => num d (184 + 8 * Z.of_nat i) 8) (seq 0 n)) -> exists j, (j < n)%nat /\ v = num d (184 + 8 * Z.of_nat j) 8.
Proof. intros E. apply in_map_iff in E. destruct E as (j & E & Hj). apply in_seq in Hj. exists j. split; [lia|symmetry; exact E]. Qed.
Lemma superblock_bytes d : superblock_block d -> len d = 4096 /\ bytes d.
Proof. unfold superblock_block. tauto. Qed.
Lemma num_pos d j : len d = 4096 -> bytes d -> (j < 100)%nat -> 0 <= num d (184 + 8 * Z.of_nat j) 8.
Proof. intros L B H. apply num_range; try assumption; lia. Qed.
Lemma nonzero_pos (l : list Z) : (forall v, In v l -> 0 <= v) -> Forall (fun v => 0 < v) (filter (fun v => negb (v =? 0)) l).
Proof. intros H. apply Forall_forall. intros v E. apply filter_In in E. destruct E as (E & N). specialize (H v E). lia. Qed.
Lemma volumes_pos d : superblock_block d -> Forall (fun v => 0 < v) (volumes d).
Proof.
  intros SB. apply superblock_bytes in SB. destruct SB as (L & B). apply nonzero_pos. intros v E. apply in_slots in E. destruct E as (j & Hj & ->). apply num_pos; assumption.
Qed.
(* with the slots in use at the start, the indices give the volumes in order: the newest version
   of each in the object map *)
Theorem C48_volumes_by_index_partial : forall img c d h recs, superblock_block d -> c_sb c = contents d ->
  (exists k, slots d = volumes d ++ repeat 0 k) -> omap_tree (part (c_size c) img) h (c_root c) recs -> Z.of_nat h <= 256 ->
  (forall i, ~ 0 <= i < number_of_volumes c -> volume_by_index img c i = Fail) /\
  length (volumes d) = Z.to_nat (number_of_volumes c) /\
  forall i v, nth_error (volumes d) i = Some v -> exists r, newest recs v (xid d) r /\
    volume_by_index img c (Z.of_nat i) = match r with
      | Some e => Ok (mk_od v (rec_txn e) (le_val (slice (snd e) 0 4)) (le_val (slice (snd e) 4 4)) (rec_address e))
      | None => Fail
      end.
Proof.
  intros img c d h recs SB EC (k & ES) HT Hh. pose proof (volumes_pos d SB) as HP.
  assert (X : sb_volumes (c_sb c) = slots d /\ sb_count (c_sb c) = len (volumes d) /\ sb_xid (c_sb c) = xid d) by (rewrite EC; split; [|split]; reflexivity).
  destruct X as (X1 & X2 & X3). rewrite <- X3. rewrite ES in X1. apply (by_index img c (volumes d) k h recs); assumption.
Qed.
Print Assumptions C48_volumes_by_index_partial.
(* A slot not in use before others: the last volumes cannot be reached, although they are in the
   object map. *)
Definition dev_gap := ex_dev sb7 map6 (zeros 4096) (zeros 4096) (zeros 4096).
Lemma dev_gap_ok enc : consistent enc dev_gap 0 sb7.
Proof.
  destruct sb7_fields as (F1 & F2 & F3 & F4 & F5 & F6 & F7). destruct map_fields as (_ & M6 & K6). pose proof sb7_ok as S7. pose proof map6_ok as P6.
  unfold dev_gap. remember sb7 as s eqn:Es. clear Es. remember map6 as m eqn:Em. clear Em.
  apply (ex_consistent enc _ _ _ _ _ 0 s m); try assumption; try lia.
  - rewrite F5. reflexivity.
  - repeat (apply Forall_cons; [tauto|]). constructor.
  - cbn [In]. auto.
  - reflexivity.
  - intros i d' Hi E Sd. pose proof (superblock_kind_of d' Sd) as K.
    assert (C : i = 0 \/ i = 1 \/ i = 2 \/ i = 3 \/ i = 4) by lia. destruct C as [C|[C|[C|[C|C]]]]; subst i; ex_block E.
    + lia.
    + rewrite K6 in K. discriminate K.
    + rewrite zeros_kind in K. discriminate K.
    + rewrite zeros_kind in K. discriminate K.
    + rewrite zeros_kind in K. discriminate K.
Qed.
Theorem C48_unreachable_volume_refuted : exists img d v e, superblock_in img 0 d /\ In v (volumes d) /\
  forall enc dec, (forall id, unit_cipher 512 (enc id) (dec id)) -> exists c, open dec img = Ok c /\ c_sb c = contents d /\ c_size c = 100 * 4096 /\
  number_of_volumes c = 2 /\ omap_lookup (part (c_size c) img) (c_root c) v (xid d) = Ok (Some e) /\
  (forall i e', volume_by_index img c i = Ok e' -> od_oid e' <> v) /\ volume_by_index img c 1 = Fail.
Proof.
  exists dev_gap, sb7, 42, (mk_od 42 1 0 4096 101). split; [split; [reflexivity|exact sb7_ok]|]. split; [vm_compute; auto|].
  intros enc dec HC. destruct (C46_opens_newest_partial enc dec HC dev_gap 0 sb7 (dev_gap_ok enc)) as (c & m & E & (ES & ER & _) & _).
  assert (R : c_root c = 6).
  { destruct ER as (_ & o & EO & _ & _ & _ & X & _). destruct sb7_fields as (_ & _ & _ & _ & _ & F6 & _). rewrite F6 in EO.
    assert (H : Some o = Some ex_omap) by (symmetry; exact EO). assert (HO : o = ex_omap) by congruence. subst o. rewrite <- X. vm_compute. reflexivity. }
  assert (HS : c_size c = 100 * 4096).
  { rewrite (open_size dec dev_gap c (proj1 (dev_gap_ok enc)) E). vm_compute. reflexivity. }
  exists c. split; [exact E|]. clear E ER. split; [exact ES|]. split; [exact HS|].
  assert (X : sb_count (c_sb c) = 2 /\ getb (sb_volumes (c_sb c)) 0 = Ok 40 /\ getb (sb_volumes (c_sb c)) 1 = Ok 0 /\ sb_xid (c_sb c) = 7).
  { rewrite ES. vm_compute. auto. }
  assert (X7 : xid sb7 = 7) by apply sb7_fields. rewrite X7. clear ES X7. destruct X as (X1 & X2 & X3 & X4). unfold number_of_volumes, volume_by_index. rewrite R, X1, X4, HS.
  assert (V1 : omap_lookup (within (100 * 4096) dev_gap) 6 0 7 = Fail) by (vm_compute; reflexivity).
  assert (V0 : omap_lookup (within (100 * 4096) dev_gap) 6 40 7 = Ok (Some (mk_od 40 1 0 4096 100))) by (vm_compute; reflexivity).
  assert (V2 : omap_lookup (within (100 * 4096) dev_gap) 6 42 7 = Ok (Some (mk_od 42 1 0 4096 101))) by (vm_compute; reflexivity).
  split; [reflexivity|]. split; [exact V2|]. clear V2. generalize dependent dev_gap. intros g V1 V0. split.
  - intros i e'. destruct ((0 <=? i) && (i <? 2)) eqn:Hi; [|discriminate]. cbn [check bind]. assert (C : i = 0 \/ i = 1) by lia. destruct C as [C|C]; subst i.
    + rewrite X2. cbn [bind]. rewrite V0. cbn [bind]. intros H. assert (HE : e' = mk_od 40 1 0 4096 100) by congruence. subst e'. discriminate.
    + rewrite X3. cbn [bind]. rewrite V1. discriminate.
  - change ((0 <=? 1) && (1 <? 2)) with true. cbn [check bind]. rewrite X3. cbn [bind]. rewrite V1. reflexivity.
Qed.
Print Assumptions C48_unreachable_volume_refuted.
Example C48_example : exists c, c_sb c = contents sb5 /\ c_root c = 6 /\ number_of_volumes c = 2 /\
  map (volume_by_index dev5 c) [-1; 0; 1; 2] = [Fail; Ok (mk_od 40 1 0 4096 100); Ok (mk_od 42 1 0 4096 101); Fail] /\ slots sb5 = volumes sb5 ++ repeat 0 98.
Proof. exists {| c_size := 409600; c_sb := contents sb5; c_map_block := 1; c_map := []; c_root := 6; c_bag := None |}. split; [reflexivity|]. vm_compute. auto. Qed.
