From Coq Require Import Lia.
From Verif Require Import Base BaseLemmas At OmapProofs Checksum ChecksumSpec ChecksumProofs Checksummed BTree BTreeProofs Walk RecordsProofs
  Omap OmapSpec Crypt CryptSpec CryptProofs KeyBag KeyBagSpec KeyBagProofs UnlockProofs Container ContainerSpec.
Ltac Zify.zify_post_hook ::= Z.div_mod_to_equations.

Lemma num_rd d off n : 0 <= off -> 0 <= n -> off + n <= len d -> rd_le n d off = Ok (num d off n).
Proof. intros A B C. unfold rd_le. rewrite rd_in by assumption. reflexivity. Qed.
Lemma bytes_slice' l off n : bytes l -> bytes (slice l off n).
Proof. intros H. apply bytes_slice. exact H. Qed.
Lemma num_range d off n : bytes d -> 0 <= off -> 0 <= n -> off + n <= len d -> 0 <= num d off n < 256 ^ n.
Proof.
  intros B H1 H2 H3. unfold num. pose proof (le_val_range (slice d off n) (bytes_slice' d off n B)) as R.
  rewrite len_slice in R by assumption. exact R.
Qed.
Lemma num_enc d off (k : nat) v : slice d off (Z.of_nat k) = le_enc k v -> 0 <= v < 256 ^ Z.of_nat k -> num d off (Z.of_nat k) = v.
Proof. intros E R. unfold num. rewrite E. apply le_val_enc. exact R. Qed.

Lemma sum_check d : bytes d -> len d = 4096 ->
  exists v, calculate_fletcher64 (slice d 8 4088) 0 = Ok v /\ (num d 0 8 = v <-> checksummed d).
Proof.
  intros B L. destruct (fletcher64_correct (slice d 8 4088) 0) as (ws & c0 & c1 & E & W & C & F & U).
  { apply bytes_slice'. exact B. } { rewrite len_slice by lia. reflexivity. } { rewrite len_slice by lia. lia. } { lia. }
  exists (c0 + 2 ^ 32 * c1). split; [exact C|]. change (0 mod 2 ^ 32) with 0 in *. change (0 / 2 ^ 32) with 0 in *.
  assert (LW : len ws = 1022). { pose proof (words_bytes_len ws) as X. rewrite <- E, len_slice in X by lia. lia. }
  split.
  - intros N. exists c0, c1, ws. pose proof F as ((R0 & R0') & (R1 & R1') & _). unfold fl_modulus in *. split; [|split; [exact W|split; [lia|exact F]]].
    rewrite <- E. assert (X : slice d 0 8 = le_enc 4 c0 ++ le_enc 4 c1).
    { transitivity (le_enc 8 (c0 + 2 ^ 32 * c1)).
      - rewrite <- N. unfold num. replace 8%nat with (length (slice d 0 8)).
        + rewrite le_enc_val; [reflexivity|apply bytes_slice'; exact B].
        + pose proof (len_slice d 0 8 ltac:(lia) ltac:(lia) ltac:(lia)). unfold len in *. lia.
      - cbn [le_enc app]. rewrite !Z.div_div by lia. cbn [Z.mul Pos.mul].
        clear - R0 R0' R1 R1'. repeat (apply (f_equal2 cons); [lia|]). reflexivity. }
    rewrite app_assoc, <- X. rewrite <- (firstn_skipn 8 d) at 1. unfold slice. change (Z.to_nat 8) with 8%nat.
    change (skipn (Z.to_nat 0) d) with d. f_equal. symmetry. apply firstn_all2. rewrite skipn_length. unfold len in L. lia.
  - intros H. destruct (checksummed_ok d H) as (s & b & L8 & R & RB & CF). rewrite num_rd in R by lia.
    rewrite rd_in in RB by lia. assert (N : num d 0 8 = s) by congruence. assert (Eb : slice d 8 (len d - 8) = b) by congruence.
    rewrite L in Eb. change (4096 - 8) with 4088 in Eb. rewrite <- Eb in CF. congruence.
Qed.

Lemma read_slots_ok d n : forall off, 0 <= off -> off + 8 * Z.of_nat n <= len d ->
  read_slots d n off = Ok (map (fun i => num d (off + 8 * Z.of_nat i) 8) (seq 0 n),
    len (filter (fun v => negb (v =? 0)) (map (fun i => num d (off + 8 * Z.of_nat i) 8) (seq 0 n)))).
Proof.
  induction n as [|n IH]; intros off H0 H1; [reflexivity|]. cbn [read_slots]. rewrite num_rd by lia. cbn [bind].
  rewrite (IH (off + 8)) by lia. cbn [bind seq map filter]. rewrite <- seq_shift, map_map.
  replace (off + 8 * Z.of_nat 0) with off by lia.
  rewrite (map_ext (fun i => num d (off + 8 * Z.of_nat (S i)) 8) (fun i => num d (off + 8 + 8 * Z.of_nat i) 8)) by (intros i; f_equal; lia).
  destruct (num d off 8 =? 0); cbn [negb]; [reflexivity|]. rewrite len_cons. reflexivity.
Qed.

Lemma Ok_inj {A} (x y : A) : Ok x = Ok y -> x = y.
Proof. congruence. Qed.
Lemma land_bit x n : 0 <= n -> (Z.land x (2 ^ n) =? 0) = negb (Z.testbit x n).
Proof.
  intros Hn. assert (E : Z.land x (2 ^ n) = if Z.testbit x n then 2 ^ n else 0).
  { apply Z.bits_inj'. intros k Hk. rewrite Z.land_spec, Z.pow2_bits_eqb by lia.
    destruct (Z.testbit x n) eqn:T; [rewrite Z.pow2_bits_eqb by lia|rewrite Z.bits_0]; destruct (n =? k) eqn:N; rewrite ?andb_false_r, ?andb_true_r; try reflexivity.
    - apply Z.eqb_eq in N. subst. exact T.
    - apply Z.eqb_eq in N. subst. exact T. }
  rewrite E. destruct (Z.testbit x n); cbn [negb]; [|reflexivity]. apply Z.eqb_neq. pose proof (Z.pow_pos_nonneg 2 n). lia.
Qed.

Lemma list_eqb_iff a b : list_eqb a b = true <-> a = b.
Proof. split; [apply list_eqb_eq|]. intros ->. destruct (list_eqb b b) eqn:E; [reflexivity|]. apply list_eqb_neq in E. contradiction. Qed.

(* superblock_read accepts exactly the superblocks *)
Lemma superblock_read_iff d s : bytes d -> len d = 4096 -> (superblock_read d = Ok s <-> superblock_block d /\ s = contents d).
Proof.
  intros B L. unfold superblock_read. rewrite L. change (1384 <=? 4096) with true. cbn [check bind].
  rewrite !num_rd by lia. cbn [bind]. rewrite !rd_in by lia. rewrite read_slots_ok by lia. cbn [bind].
  change (4096 - 8) with 4088. destruct (sum_check d B L) as (v & C & HV). 
  pose proof (num_range d 104 4 B ltac:(lia) ltac:(lia) ltac:(lia)) as R.
  assert (HA : (Z.land (num d 104 4) 0x80000000 =? 0) = (num d 104 4 <? 2 ^ 31)).
  { change 0x80000000 with (2 ^ 31). rewrite land_bit by lia. change (256 ^ 4) with (2 ^ 32) in R.
    destruct (num d 104 4 <? 2 ^ 31) eqn:T.
    - apply Z.ltb_lt in T. assert (X : Z.testbit (num d 104 4) 31 = false); [|rewrite X; reflexivity].
      apply Z.testbit_false; [lia|]. rewrite Z.div_small by lia. reflexivity.
    - apply Z.ltb_ge in T. assert (X : Z.testbit (num d 104 4) 31 = true); [|rewrite X; reflexivity].
      apply Z.testbit_true; [lia|]. replace (num d 104 4 / 2 ^ 31) with 1 by lia. reflexivity. }
  rewrite HA. clear HA. replace (Z.land (num d 64 8) 1 =? 0) with (negb (Z.testbit (num d 64 8) 0)) by (symmetry; apply (land_bit _ 0); lia).
  unfold superblock_block. rewrite <- HV. unfold kind, superblock_kind, features, area_size, area.
  split.
  - destruct (num d 24 4 =? 0x80000001) eqn:E1; [|discriminate]. cbn [check bind].
    destruct (num d 28 4 =? 0) eqn:E2; [|discriminate]. cbn [check bind].
    destruct (list_eqb (slice d 32 4) [78; 88; 83; 66]) eqn:E3; [|discriminate]. cbn [check bind]. rewrite C. cbn [bind].
    destruct (num d 0 8 =? v) eqn:E4; [|discriminate]. cbn [check bind].
    destruct (negb (Z.testbit (num d 64 8) 0)) eqn:E5; [|discriminate]. cbn [check bind].
    destruct (num d 36 4 =? 4096) eqn:E6; [|discriminate]. cbn [check bind].
    destruct (num d 104 4 <? 2 ^ 31) eqn:E7; [|discriminate]. cbn [check bind].
    destruct (negb (num d 112 8 =? 0)) eqn:E8; [|discriminate]. cbn [check bind].
    destruct (num d 180 4 <=? 100) eqn:E9; [|discriminate]. cbn [check bind].
    intros H. assert (Hs : contents d = s) by (apply Ok_inj; exact H). split; [|symmetry; exact Hs].
    apply Z.eqb_eq in E1, E2, E4, E6. apply list_eqb_iff in E3. apply negb_true_iff in E5, E8. apply Z.eqb_neq in E8. apply Z.ltb_lt in E7. apply Z.leb_le in E9.
    auto 15.
  - intros ((_ & _ & E4 & E1 & E2 & E3 & E6 & E5 & E7 & E8 & E9) & ->).
    rewrite (proj2 (Z.eqb_eq _ _) E1), (proj2 (Z.eqb_eq _ _) E2), (proj2 (list_eqb_iff _ _) E3). cbn [check bind]. rewrite C. cbn [bind].
    rewrite (proj2 (Z.eqb_eq _ _) E4), E5, (proj2 (Z.eqb_eq _ _) E6), (proj2 (Z.ltb_lt _ _) E7), (proj2 (Z.eqb_neq _ _) E8), (proj2 (Z.leb_le _ _) E9). cbn [negb check bind].
    unfold contents, volumes, slots. reflexivity.
Qed.

Lemma superblock_read_fine d : bytes d -> len d = 4096 -> fine (superblock_read d).
Proof.
  intros B L. unfold superblock_read. rewrite L. change (1384 <=? 4096) with true. cbn [check bind].
  rewrite !num_rd by lia. cbn [bind]. rewrite !rd_in by lia. rewrite read_slots_ok by lia. cbn [bind].
  change (4096 - 8) with 4088. destruct (sum_check d B L) as (v & C & HV). 
  apply fine_bind; [apply fine_check|intros ? _]. cbn [bind]. apply fine_bind; [apply fine_check|intros ? _]. cbn [bind]. apply fine_bind; [apply fine_check|intros ? _].
  cbn [bind]. rewrite C. cbn [bind]. repeat (apply fine_bind; [apply fine_check|intros ? _]). exact I.
Qed.

Lemma map_entries_ok d n : forall off, 0 <= off -> off + 40 * Z.of_nat n <= len d ->
  map_entries d n off = Ok (map (fun i => (num d (off + 40 * Z.of_nat i + 24) 8, num d (off + 40 * Z.of_nat i + 32) 8)) (seq 0 n)).
Proof.
  induction n as [|n IH]; intros off H0 H1; [reflexivity|]. cbn [map_entries]. unfold map_entry_read.
  rewrite (proj2 (Z.leb_le 40 (len d - off))) by lia. cbn [check bind]. rewrite !num_rd by lia. cbn [bind].
  rewrite (IH (off + 40)) by lia. cbn [bind seq map]. rewrite <- seq_shift, map_map.
  replace (off + 40 * Z.of_nat 0) with off by lia. f_equal. f_equal. apply map_ext. intros i. f_equal; f_equal; lia.
Qed.
Lemma map_read_iff d l : bytes d -> len d = 4096 -> (map_read d = Ok l <-> map_block d /\ l = mappings d).
Proof.
  intros B L. unfold map_read. rewrite L. change (4080 <=? 4096) with true. cbn [check bind].
  rewrite !num_rd by lia. cbn [bind]. rewrite !rd_in by lia. cbn [bind].
  change (4096 - 8) with 4088. destruct (sum_check d B L) as (v & C & HV). rewrite C. cbn [bind].
  pose proof (num_range d 36 4 B ltac:(lia) ltac:(lia) ltac:(lia)) as R.
  unfold map_block. rewrite <- HV. unfold kind, map_kind. split.
  - destruct (num d 24 4 =? 0x4000000c) eqn:E1; [|discriminate]. cbn [check bind].
    destruct (num d 28 4 =? 0) eqn:E2; [|discriminate]. cbn [check bind].
    destruct (num d 0 8 =? v) eqn:E4; [|discriminate]. cbn [check bind].
    destruct (num d 36 4 <=? 101) eqn:E9; [|discriminate]. cbn [check bind].
    apply Z.eqb_eq in E1, E2, E4. apply Z.leb_le in E9.
    rewrite map_entries_ok by lia. intros H. split; [auto 10|]. unfold mappings. congruence.
  - intros ((_ & _ & E4 & E1 & E2 & E9) & ->).
    rewrite (proj2 (Z.eqb_eq _ _) E1), (proj2 (Z.eqb_eq _ _) E2), (proj2 (Z.eqb_eq _ _) E4), (proj2 (Z.leb_le _ _) E9). cbn [check bind].
    rewrite map_entries_ok by lia. reflexivity.
Qed.
Lemma map_read_fine d : bytes d -> len d = 4096 -> fine (map_read d).
Proof.
  intros B L. unfold map_read. rewrite L. change (4080 <=? 4096) with true. cbn [check bind].
  rewrite !num_rd by lia. cbn [bind]. rewrite !rd_in by lia. cbn [bind].
  change (4096 - 8) with 4088. destruct (sum_check d B L) as (v & C & HV). rewrite C. cbn [bind].
  apply fine_bind; [apply fine_check|intros ? _]. apply fine_bind; [apply fine_check|intros ? _].
  apply fine_bind; [apply fine_check|intros ? _]. apply fine_bind; [apply fine_check|intros ? H]. apply check_ok in H. apply Z.leb_le in H.
  pose proof (num_range d 36 4 B ltac:(lia) ltac:(lia) ltac:(lia)) as R.
  rewrite map_entries_ok by lia. exact I.
Qed.
Lemma map_lookup_first l oid : first_mapping l oid (map_lookup l oid).
Proof.
  induction l as [|(o, a) l IH]; [intros []|]. cbn [map_lookup]. destruct (oid =? o) eqn:E.
  - apply Z.eqb_eq in E. subst o. exists [], l. split; [reflexivity|intros []].
  - apply Z.eqb_neq in E. destruct (map_lookup l oid) as [x|]; cbn [first_mapping] in *.
    + destruct IH as (p & q & -> & N). exists ((o, a) :: p), q. split; [reflexivity|]. cbn [map fst]. intros [X|X]; [congruence|exact (N X)].
    + cbn [map fst]. intros [X|X]; [congruence|exact (IH X)].
Qed.

(* ---- reading from the device ---- *)

Lemma seek_ok b : 0 <= b < 2 ^ 51 -> seek b = Ok b.
Proof. intros H. unfold seek. rewrite Z.mod_small by lia. rewrite (proj2 (Z.ltb_lt _ _)) by lia. reflexivity. Qed.
Lemma read_at_in img b d n : 0 <= b < 2 ^ 51 -> img b = Some d -> 0 <= n <= len d -> read_at img b n = Ok (slice d 0 n).
Proof.
  intros H E N. unfold read_at. rewrite seek_ok by exact H. cbn [bind]. unfold read_block. rewrite E. cbn [bind].
  rewrite (proj2 (Z.leb_le _ _)) by lia. cbn [check bind]. rewrite rd_in by lia. reflexivity.
Qed.
Lemma read_at_ok img b n d : 0 <= n -> read_at img b n = Ok d ->
  exists e, img (b mod 2 ^ 52) = Some e /\ 0 <= b mod 2 ^ 52 < 2 ^ 51 /\ n <= len e /\ d = slice e 0 n.
Proof.
  intros Hn. unfold read_at, seek. destruct (b mod 2 ^ 52 <? 2 ^ 51) eqn:E1; [|discriminate]. cbn [check bind].
  unfold read_block. destruct (img (b mod 2 ^ 52)) as [e|]; [|discriminate]. cbn [bind].
  destruct (n <=? len e) eqn:E2; [|discriminate]. cbn [check bind]. apply Z.leb_le in E2. apply Z.ltb_lt in E1.
  rewrite rd_in by lia. intros H. exists e. split; [reflexivity|]. split; [lia|]. split; [lia|]. congruence.
Qed.
Lemma read_at_fine img b n : 0 <= n -> fine (read_at img b n).
Proof.
  intros Hn. unfold read_at, seek. destruct (b mod 2 ^ 52 <? 2 ^ 51); [|exact I]. cbn [check bind].
  unfold read_block. destruct (img (b mod 2 ^ 52)) as [e|]; [|exact I]. cbn [bind].
  destruct (n <=? len e) eqn:E2; [|exact I]. cbn [check bind]. apply Z.leb_le in E2. rewrite rd_in by lia. exact I.
Qed.
Lemma num_head d off n m : 0 <= off -> 0 <= n -> off + n <= m -> m <= len d -> num (slice d 0 m) off n = num d off n.
Proof. intros. unfold num. rewrite slice_slice by lia. reflexivity. Qed.

Lemma superblock_at_in img b d : device_ok img -> 0 <= b < 2 ^ 51 -> superblock_in img b d -> superblock_at img b = Ok (contents d).
Proof.
  intros D H (E & S). pose proof (D b d E) as (B & L). pose proof S as (L4 & _). unfold superblock_at.
  rewrite (read_at_in img b d 4096) by (try assumption; lia). cbn [bind]. rewrite slice_all by lia.
  apply (superblock_read_iff d); auto.
Qed.
Lemma within_bytes n img : bytes_image img -> bytes_image (within n img).
Proof. intros H b d. unfold within. destruct (_ <? _); [apply H|discriminate]. Qed.
Lemma superblock_at_ok img b s : device_ok img -> superblock_at img b = Ok s ->
  exists d, superblock_in img (b mod 2 ^ 52) d /\ 0 <= b mod 2 ^ 52 < 2 ^ 51 /\ s = contents d.
Proof.
  intros D H. unfold superblock_at in H. apply bind_ok in H. destruct H as (d & E & R).
  apply read_at_ok in E; [|lia]. destruct E as (e & E & Hb & L & ->). pose proof (D _ _ E) as (B & L4).
  rewrite slice_all in R by lia. apply (superblock_read_iff e s B ltac:(lia)) in R. destruct R as (R & ->). exists e. unfold superblock_in. auto.
Qed.
Lemma object_at_in img b d : 0 <= b < 2 ^ 51 -> img b = Some d -> 32 <= len d -> object_at img b = Ok (xid d, kind d).
Proof.
  intros H E L. unfold object_at. rewrite (read_at_in img b d 32) by (try assumption; lia). cbn [bind].
  rewrite !num_rd by (rewrite ?len_slice by lia; lia). cbn [bind]. rewrite !num_head by lia. reflexivity.
Qed.
Lemma object_at_ok img b x t : object_at img b = Ok (x, t) ->
  exists d, img (b mod 2 ^ 52) = Some d /\ 0 <= b mod 2 ^ 52 < 2 ^ 51 /\ 32 <= len d /\ x = xid d /\ t = kind d.
Proof.
  intros H. unfold object_at in H. apply bind_ok in H. destruct H as (d & E & R).
  apply read_at_ok in E; [|lia]. destruct E as (e & E & Hb & L & ->). exists e.
  rewrite !num_rd in R by (rewrite ?len_slice by lia; lia). cbn [bind] in R. rewrite !num_head in R by lia.
  split; [exact E|]. split; [exact Hb|]. split; [exact L|]. unfold xid, kind. split; congruence.
Qed.

(* ---- the loop ---- *)

Fixpoint steps {A B} (k : nat) (f : A -> res (A + B)) (s : A) : res (A + B) :=
  match k with
  | O => Ok (inl s)
  | S k => let! r := f s in match r with inl s => steps k f s | inr b => Ok (inr b) end
  end.
Lemma steps_add {A B} j k (f : A -> res (A + B)) s :
  steps (j + k) f s = let! r := steps j f s in match r with inl s => steps k f s | inr b => Ok (inr b) end.
Proof.
  revert s. induction j as [|j IH]; intros s; [reflexivity|]. cbn [steps Nat.add]. destruct (f s) as [[s'|b]| | |]; cbn [bind]; try reflexivity. apply IH.
Qed.
Lemma rounds_steps {A B} n (f : A -> res (A + B)) : forall s, rounds n f s = steps (2 ^ n) f s.
Proof.
  induction n as [|n IH]; intros s.
  - cbn. destruct (f s) as [[s'|b]| | |]; reflexivity.
  - replace (2 ^ S n)%nat with (2 ^ n + 2 ^ n)%nat by (cbn [Nat.pow]; lia). cbn [rounds]. rewrite steps_add, IH. destruct (steps (2 ^ n) f s) as [[s'|b]| | |]; cbn [bind]; try reflexivity. apply IH.
Qed.

Lemma steps_invariant {A B} (P : A -> Prop) (f : A -> res (A + B)) : (forall s s', P s -> f s = Ok (inl s') -> P s') ->
  forall k s r, P s -> steps k f s = Ok (inr r) -> exists s', P s' /\ f s' = Ok (inr r).
Proof.
  intros HS. induction k as [|k IH]; intros s r HP; cbn [steps]; [discriminate|]. destruct (f s) as [[s'|b]| | |] eqn:E; cbn [bind]; try discriminate.
  - intros H. apply (IH s' r); [apply (HS s s' HP E)|exact H].
  - intros H. exists s. split; [exact HP|]. congruence.
Qed.

Section Scan.
  Variable img : device.
  Hypothesis D : device_ok img.

  (* one round *)
  Lemma scan_step_ok first s r : scan_step img first s = Ok (inl r) ->
    sc_index s <= sb_area_size (sc_sb s) /\ sc_index r = sc_index s + 1 /\
    exists d, img ((first + sc_index s) mod 2 ^ 52) = Some d /\ 0 <= (first + sc_index s) mod 2 ^ 52 < 2 ^ 51 /\ 32 <= len d /\
    (kind d = superblock_kind -> superblock_block d) /\
    sc_sb r = (if (kind d =? superblock_kind) && (sb_xid (sc_sb s) <? xid d) then contents d else sc_sb s).
  Proof.
    unfold scan_step. destruct (sc_index s <=? sb_area_size (sc_sb s)) eqn:E0; [|discriminate]. apply Z.leb_le in E0. cbv zeta.
    destruct (object_at img (first + sc_index s)) as [(x, t)| | |] eqn:E1; cbn [bind]; try discriminate.
    apply object_at_ok in E1. destruct E1 as (d & E1 & Hb & L & -> & ->). intros H. split; [exact E0|].
    unfold superblock_kind. destruct (kind d =? 0x4000000c) eqn:K1.
    - apply Z.eqb_eq in K1. assert (K2 : (kind d =? 0x80000001) = false) by (rewrite K1; reflexivity).
      split; [destruct (sc_map_xid s <? xid d); injection H as <-; reflexivity|]. exists d. rewrite K2. apply Z.eqb_neq in K2.
      split; [exact E1|]. split; [exact Hb|]. split; [exact L|]. split; [contradiction|]. cbn [andb].
      destruct (sc_map_xid s <? xid d); injection H as <-; reflexivity.
    - destruct (kind d =? 0x80000001) eqn:K2.
      + destruct (superblock_at img (first + sc_index s)) as [n| | |] eqn:E2; cbn [bind] in H; try discriminate.
        apply superblock_at_ok in E2; [|exact D]. destruct E2 as (d' & (E2 & S2) & _ & ->). rewrite E1 in E2. assert (d' = d) by congruence. subst d'.
        change (sb_xid (contents d)) with (xid d) in H.
        split; [destruct (sb_xid (sc_sb s) <? xid d); injection H as <-; reflexivity|]. exists d.
        split; [exact E1|]. split; [exact Hb|]. split; [exact L|]. split; [intros _; exact S2|]. rewrite K2. cbn [andb].
        destruct (sb_xid (sc_sb s) <? xid d); injection H as <-; reflexivity.
      + split; [injection H as <-; reflexivity|]. exists d. split; [exact E1|]. split; [exact Hb|]. split; [exact L|].
        apply Z.eqb_neq in K2. split; [contradiction|]. apply Z.eqb_neq in K2. rewrite K2. cbn [andb]. injection H as <-. reflexivity.
  Qed.
  Lemma scan_step_end first s r : scan_step img first s = Ok (inr r) -> r = s /\ sb_area_size (sc_sb s) < sc_index s.
  Proof.
    unfold scan_step. destruct (sc_index s <=? sb_area_size (sc_sb s)) eqn:E0; cbv zeta.
    - destruct (object_at img (first + sc_index s)) as [(x, t)| | |]; cbn [bind]; try discriminate.
      destruct (t =? 0x4000000c); [destruct (sc_map_xid s <? x); discriminate|]. destruct (t =? 0x80000001); [|discriminate].
      destruct (superblock_at img (first + sc_index s)) as [n| | |]; cbn [bind]; try discriminate. destruct (sb_xid (sc_sb s) <? sb_xid n); discriminate.
    - apply Z.leb_gt in E0. intros H. split; [congruence|exact E0].
  Qed.

  (* the superblock selected so far is the newest of those seen *)
  Definition seen (a : Z) (d0 : list Z) (s : scan) : Prop :=
    0 <= sc_index s /\ exists b d, superblock_in img b d /\ sc_sb s = contents d /\ xid d0 <= xid d /\
    (b = 0 \/ exists b' d', superblock_in img b' d' /\ a <= b <= a + area_size d') /\
    forall j d', 0 <= j < sc_index s -> superblock_in img (a + j) d' -> xid d' <= xid d.
  Lemma seen_step a d0 : 0 < a -> a + 2 ^ 31 <= 2 ^ 51 -> forall s r, seen a d0 s -> scan_step img a s = Ok (inl r) -> seen a d0 r.
  Proof.
    intros Ha Ha2 s r (I0 & b & d & HI & HS & H0 & HB & HM) H. apply scan_step_ok in H. destruct H as (HI1 & HI2 & e & E & Hb & L & HK & HR).
    rewrite HS in HI1. change (sb_area_size (contents d)) with (area_size d) in HI1.
    assert (A31 : area_size d < 2 ^ 31) by (destruct HI as (_ & X); unfold superblock_block in X; tauto).
    rewrite Z.mod_small in E by lia. rewrite HS in HR. change (sb_xid (contents d)) with (xid d) in HR.
    split; [lia|]. destruct ((kind e =? superblock_kind) && (xid d <? xid e)) eqn:C.
    - apply andb_true_iff in C. destruct C as (C1 & C2). apply Z.eqb_eq in C1. apply Z.ltb_lt in C2.
      exists (a + sc_index s), e. split; [split; [exact E|exact (HK C1)]|]. split; [exact HR|]. split; [lia|]. split.
      + right. exists b, d. split; [exact HI|lia].
      + intros j d' Hj S. destruct (Z.eq_dec j (sc_index s)) as [->|N].
        * destruct S as (S & _). rewrite E in S. assert (d' = e) by congruence. subst. lia.
        * specialize (HM j d' ltac:(lia) S). lia.
    - exists b, d. split; [exact HI|]. split; [exact HR|]. split; [exact H0|]. split; [exact HB|].
      intros j d' Hj S. destruct (Z.eq_dec j (sc_index s)) as [->|N]; [|apply (HM j d' ltac:(lia) S)].
      destruct S as (S & SB). rewrite E in S. assert (d' = e) by congruence. subst d'. 
      assert (K : kind e = superblock_kind) by (unfold superblock_block in SB; tauto). rewrite K, Z.eqb_refl in C. cbn [andb] in C. apply Z.ltb_ge in C. exact C.
  Qed.

  (* the loop ends within 2^32 rounds *)
  Lemma scan_steps_index a : forall k s r, steps k (scan_step img a) s = Ok (inl r) -> sc_index r = sc_index s + Z.of_nat k.
  Proof.
    induction k as [|k IH]; intros s r; cbn [steps].
    - intros H. assert (s = r) by congruence. subst. lia.
    - destruct (scan_step img a s) as [[s'|b]| | |] eqn:E; cbn [bind]; try discriminate. intros H. apply IH in H. apply scan_step_ok in E. lia.
  Qed.
  Definition below (s : scan) : Prop := 0 <= sc_index s <= 2 ^ 31 /\ sb_area_size (sc_sb s) < 2 ^ 31.
  Lemma scan_steps_below a : forall k s r, below s -> steps k (scan_step img a) s = Ok (inl r) -> below r.
  Proof.
    induction k as [|k IH]; intros s r (B1 & B2); cbn [steps].
    - intros H. assert (s = r) by congruence. subst. split; assumption.
    - destruct (scan_step img a s) as [[s'|b]| | |] eqn:E; cbn [bind]; try discriminate. intros H. apply (IH s' r); [|exact H].
      apply scan_step_ok in E. destruct E as (E1 & E2 & d & _ & _ & _ & K & R). split; [lia|]. rewrite R.
      destruct ((kind d =? superblock_kind) && _) eqn:C; [|exact B2]. apply andb_true_iff in C. destruct C as (C & _). apply Z.eqb_eq in C.
      specialize (K C). unfold superblock_block in K. change (sb_area_size (contents d)) with (area_size d). tauto.
  Qed.
  Lemma fine_steps a : forall k s, fine (steps k (scan_step img a) s).
  Proof.
    induction k as [|k IH]; intros s; cbn [steps]; [exact I|]. apply fine_bind.
    - unfold scan_step. destruct (sc_index s <=? sb_area_size (sc_sb s)); [|exact I]. cbv zeta. apply fine_bind.
      + unfold object_at. apply fine_bind; [apply read_at_fine; lia|]. intros d H. apply read_at_ok in H; [|lia]. destruct H as (e & _ & _ & L & ->).
        rewrite !num_rd by (rewrite ?len_slice by lia; lia). exact I.
      + intros (x, t) _. destruct (t =? 0x4000000c); [destruct (sc_map_xid s <? x); exact I|]. destruct (t =? 0x80000001); [|exact I].
        apply fine_bind; [|intros n _; destruct (sb_xid (sc_sb s) <? sb_xid n); exact I].
        unfold superblock_at. apply fine_bind; [apply read_at_fine; lia|]. intros d H. apply read_at_ok in H; [|lia]. destruct H as (e & E & _ & L & ->).
        destruct (D _ _ E) as (B & L4). rewrite slice_all by lia. apply superblock_read_fine; [exact B|lia].
    - intros [r|r] _; [apply IH|exact I].
  Qed.
  Lemma scan_area_fine s : sb_area_size s < 2 ^ 31 -> fine (scan_area img s).
  Proof.
    intros HS. unfold scan_area. rewrite rounds_steps. pose proof (fine_steps (sb_area s) (2 ^ 32) (mk_scan 0 s 0 0)) as F.
    destruct (steps (2 ^ 32) (scan_step img (sb_area s)) (mk_scan 0 s 0 0)) as [[r|r]| | |] eqn:E; cbn [bind]; try exact I; try exact F.
    exfalso. pose proof (scan_steps_index _ _ _ _ E) as X. assert (B : below (mk_scan 0 s 0 0)) by (split; cbn [sc_index sc_sb]; [lia|exact HS]).
    pose proof (scan_steps_below _ _ _ _ B E) as (Y & _).
    cbn [sc_index] in X. assert (Z.of_nat (2 ^ 32) = 2 ^ 32) by (rewrite Nat2Z.inj_pow; reflexivity). lia.
  Qed.
  Lemma scan_area_steps s r : scan_area img s = Ok r -> exists k, steps k (scan_step img (sb_area s)) (mk_scan 0 s 0 0) = Ok (inr r).
  Proof.
    unfold scan_area. rewrite rounds_steps. generalize (2 ^ 32)%nat. intros k H. exists k.
    destruct (steps k (scan_step img (sb_area s)) (mk_scan 0 s 0 0)) as [[r'|r']| | |]; cbn [bind] in H; congruence.
  Qed.
End Scan.
