(* C52, C53, and the snapshot tree part of C21. *)
From Coq Require Import Lia.
From Verif Require Import Base BaseLemmas BTree BTreeSpec BTreeProofs Walk WalkProofs TreeSpec TreeProofs Omap OmapSpec OmapProofs OmapTop PropOmap
  Records RecordsSpec RecordsProofs FsTree FsSpec FsTop PropFs Name NameSpec Snapshot SnapSpec SnapProofs.

(* ---- a small snapshot tree: a branch node over two leaves ---- *)
Definition sx_snap (x block : Z) (name : list Z) : snapshot :=
  {| sm_xid := x; sm_extents := 4; sm_block := block; sm_created := 10; sm_changed := 11; sm_inode := 2; sm_type := 2; sm_flags := 0; sm_name := name |}.
Definition sx5 := sx_snap 5 77 [97; 0].
Definition sx9 := sx_snap 9 (2 ^ 32 + 77) [98; 99; 0].
Definition sx_rec (s : snapshot) : record := (snapshot_key s, snapshot_value s).
Definition sx_name (n : list Z) (x : Z) : record := (RecordsSpec.key_head 11 (2 ^ 60 - 1) ++ le_enc 2 (len n) ++ n, le_enc 8 x).
Definition sx_leaf1 : list record := [sx_rec sx5].
Definition sx_leaf2 : list record := [sx_rec sx9; sx_name [97; 0] 5; sx_name [98; 99; 0] 9].
Definition sx_root (a b : Z) : list record := [(snapshot_key sx5, le_enc 8 a); (snapshot_key sx9, le_enc 8 b)].
Definition sx_node (root leaf : bool) (recs : list record) : node_desc :=
  mk_nd (zeros 24) (if root then 0x40000002 else 0x40000003) 0x10
    ((if root then 1 else 0) + (if leaf then 2 else 0)) (if leaf then 0 else 1) recs [] []
    (zeros (4096 - 56 - 8 * len recs - len (keys_area recs) - len (values_area recs) - (if root then 40 else 0))) (zeros 8)
    (if root then zeros 4 ++ le_enc 4 4096 ++ le_enc 4 0 ++ le_enc 4 0 ++ zeros 24 else []).
(* the references of the root are a and b *)
Definition sx_img (a b : Z) : device := fun i =>
  if i =? 60 then Some (node_bytes (sx_node true false (sx_root a b)))
  else if i =? 61 then Some (node_bytes (sx_node false true sx_leaf1))
  else if i =? 62 then Some (node_bytes (sx_node false true sx_leaf2))
  else if i =? 63 then Some (node_bytes (sx_node true true (sx_leaf1 ++ sx_leaf2))) else None.
Definition sx_orecs : list record := [(ex_key 50 1, ex_val 61); (ex_key 51 1, ex_val 99); (ex_key 51 3, ex_val 62)].
Definition sx_omap : device := fun b =>
  if b =? 30 then Some (node_bytes (ex_node true true sx_orecs)) else None.
Definition sx (a b root : Z) : fs := mk_fs (sx_img a b) root sx_omap 30 4.

Lemma sx_node_at dev (lead : Z -> Z -> Prop) root leaf o b recs : dev b = Some (node_bytes (sx_node root leaf recs)) ->
  (if root then b = o else lead o b) -> 0 <= b < 2 ^ 31 ->
  len (node_bytes (sx_node root leaf recs)) = 4096 -> 40 < len (nd_free (sx_node root leaf recs)) ->
  snap_node dev lead root o leaf recs.
Proof.
  intros HI HR Hb HL HF. exists b. split; [exact HR|]. split; [exact Hb|]. exists (sx_node root leaf recs).
  split; [exact HI|]. split; [|split; [exact HL|]].
  - unfold node_ok. rewrite HL. unfold nd_fixed. change (nd_flags (sx_node root leaf recs)) with ((if root then 1 else 0) + (if leaf then 2 else 0)).
    replace (Z.testbit _ 2) with false by (destruct root, leaf; reflexivity).
    split; [reflexivity|]. cbn [nd_type nd_subtype nd_level nd_lists nd_footer sx_node].
    split; [destruct root; lia|]. split; [lia|]. split; [destruct root, leaf; lia|]. split; [destruct leaf; lia|]. split; [reflexivity|].
    split; [destruct root, leaf; reflexivity|]. split; [lia|]. split; [destruct root; vm_compute; auto|]. discriminate.
  - pose proof (len_nonneg (values_area (nd_recs (sx_node root leaf recs)))).
    split; [intros _; lia|]. split; [lia|]. split; [destruct root; cbn; auto|]. split; [reflexivity|].
    split; [destruct root, leaf; reflexivity|]. split; [destruct root, leaf; reflexivity|]. split; [destruct root, leaf; reflexivity|].
    split; [intros ->; reflexivity|reflexivity].
Qed.
Lemma sx_records : Forall2 snapshot_rec [sx_rec sx5; sx_rec sx9] [sx5; sx9] /\ Forall name_rec [sx_name [97; 0] 5; sx_name [98; 99; 0] 9].
Proof.
  assert (O : snapshot_ok sx5 /\ snapshot_ok sx9) by (vm_compute; intuition congruence).
  split; [constructor; [split; [apply O|reflexivity]|constructor; [split; [apply O|reflexivity]|constructor]]|].
  assert (N : forall n x, 0 <= len n < 100 -> bytes n -> name_rec (sx_name n x)).
  { intros n x Hn B. unfold name_rec, sx_name. cbn [fst]. split; [unfold RecordsSpec.key_head; rewrite len_app, le_enc_len; pose proof (len_nonneg (le_enc 2 (len n) ++ n)); lia|].
    split; [apply bytes_app; split; [apply le_enc_bytes|apply bytes_app; split; [apply le_enc_bytes|exact B]]|].
    assert (K : kword (RecordsSpec.key_head 11 (2 ^ 60 - 1) ++ le_enc 2 (len n) ++ n) = 11 * 2 ^ 60 + (2 ^ 60 - 1)).
    { unfold kword. rewrite slice_app_l by (try (unfold RecordsSpec.key_head; rewrite le_enc_len); lia). vm_compute. reflexivity. }
    unfold kty, kid. rewrite K. split; reflexivity. }
  repeat (apply Forall_cons || apply Forall_nil); apply N; try (vm_compute; intuition congruence); repeat constructor; unfold is_byte; lia.
Qed.
Ltac sx_lt := repeat (apply Forall_cons || apply Forall_nil); apply fs_ltb_ok; vm_compute; reflexivity.
Ltac sx_sorted := repeat (apply sorted_nil || (apply sorted_cons; [solve [apply Forall_nil | sx_lt]|])).
Lemma sx_tree a b dev (lead : Z -> Z -> Prop) : (forall i, In i [60; 61; 62] -> dev i = sx_img a b i) -> lead a 61 -> lead b 62 ->
  0 <= a < 256 -> 0 <= b < 256 ->
  len (node_bytes (sx_node true false (sx_root a b))) = 4096 -> 40 < len (nd_free (sx_node true false (sx_root a b))) ->
  fs_child_of (le_enc 8 a) a -> fs_child_of (le_enc 8 b) b ->
  snap_tree dev lead fx_tie 1 60 [sx5; sx9].
Proof.
  intros HD L1 L2 Ha Hb R1 R2 C1 C2.
  assert (E60 := HD 60 ltac:(cbn; auto)). assert (E61 := HD 61 ltac:(cbn; auto)). assert (E62 := HD 62 ltac:(cbn; auto)).
  destruct sx_records as (F2 & FN). exists [sx_rec sx5; sx_rec sx9], [sx_name [97; 0] 5; sx_name [98; 99; 0] 9]. split; [lia|]. split; [|split; assumption].
  exists (sx_root a b). split; [apply (sx_node_at dev lead true false 60 60); [exact E60|reflexivity|lia|exact R1|exact R2]|].
  split; [discriminate|]. cbn [app]. unfold sx_root.
  apply (forest_cons _ _ _ _ (snapshot_key sx5) _ a _ _ (snapshot_value sx5) []); [exact C1| |reflexivity| |].
  - split; [|sx_sorted]. apply (sx_node_at dev lead false true a 61); [exact E61|exact L1|lia|vm_compute; reflexivity|vm_compute; reflexivity].
  - sx_lt.
  - rewrite <- (app_nil_r [sx_rec sx9; sx_name [97; 0] 5; sx_name [98; 99; 0] 9]).
    apply (forest_cons _ _ _ _ (snapshot_key sx9) _ b _ _ (snapshot_value sx9) [sx_name [97; 0] 5; sx_name [98; 99; 0] 9]); [exact C2| |reflexivity|repeat (apply Forall_cons || apply Forall_nil)|constructor].
    split; [|sx_sorted]. apply (sx_node_at dev lead false true b 62); [exact E62|exact L2|lia|vm_compute; reflexivity|vm_compute; reflexivity].
Qed.
Lemma sx_omap_tree dev : dev 30 = sx_omap 30 -> omap_tree dev 0 30 sx_orecs.
Proof. intros H. split; [apply ex_node_at; [lia|exact H|vm_compute; reflexivity|vm_compute; congruence]|]. sorted_tac. Qed.
Lemma sx_resolves o b r : In r sx_orecs -> rec_oid r = o -> rec_address r = b -> 0 < o < 2 ^ 64 ->
  forallb (fun r' => negb (rec_oid r' =? o) || negb (rec_txn r' <=? 4) || (rec_txn r' <=? rec_txn r)) sx_orecs = true -> rec_txn r <= 4 ->
  resolves sx_orecs 4 o b.
Proof.
  intros HI HO HA Ho HF HT. split; [exact Ho|]. exists r. split; [|exact HA]. split; [exact HI|]. split; [exact HO|]. split; [exact HT|].
  intros r' Hr' E1 E2. rewrite forallb_forall in HF. specialize (HF r' Hr'). lia.
Qed.
Lemma sx_virtual dev : (forall i, In i [60; 61; 62] -> dev i = sx_img 50 51 i) -> snap_tree dev (resolves sx_orecs 4) fx_tie 1 60 [sx5; sx9].
Proof.
  intros HD. apply (sx_tree 50 51); try exact HD; try lia; try (vm_compute; reflexivity).
  - apply (sx_resolves 50 61 (ex_key 50 1, ex_val 61)); [left; reflexivity|reflexivity|reflexivity|lia|reflexivity|vm_compute; discriminate].
  - apply (sx_resolves 51 62 (ex_key 51 3, ex_val 62)); [right; right; left; reflexivity|reflexivity|reflexivity|lia|reflexivity|vm_compute; discriminate].
Qed.
Lemma sx_physical dev : (forall i, In i [60; 61; 62] -> dev i = sx_img 61 62 i) -> snap_tree dev physical fx_tie 1 60 [sx5; sx9].
Proof. intros HD. apply (sx_tree 61 62); try exact HD; try lia; try (vm_compute; reflexivity); unfold physical; lia. Qed.
Lemma sx_single dev (lead : Z -> Z -> Prop) : dev 63 = sx_img 0 0 63 -> snap_tree dev lead fx_tie 0 63 [sx5; sx9].
Proof.
  intros HD. destruct sx_records as (F2 & FN). exists [sx_rec sx5; sx_rec sx9], [sx_name [97; 0] 5; sx_name [98; 99; 0] 9]. split; [lia|]. split; [|split; assumption].
  split; [|sx_sorted]. apply (sx_node_at dev lead true true 63 63); [exact HD|reflexivity|lia|vm_compute; reflexivity|vm_compute; reflexivity].
Qed.

(* ---- C21, snapshot tree ---- *)
Theorem C21_snapshot_traversal_terminates : forall t, bytes_image (fs_img t) -> bytes_image (fs_omap t) ->
  get_snapshots t <> Fuel /\ get_snapshots t <> Oob.
Proof. intros t HF HO. pose proof (get_snapshots_fine t HF HO) as F. destruct (get_snapshots t); cbn in F; try contradiction; split; discriminate. Qed.
Print Assumptions C21_snapshot_traversal_terminates.
(* a sub node that is its own child *)
Definition sx_loop : fs := mk_fs (fun b =>
  if b =? 60 then Some (node_bytes (sx_node true false [(snapshot_key sx5, le_enc 8 50)]))
  else if b =? 61 then Some (node_bytes (sx_node false false [(snapshot_key sx5, le_enc 8 50)])) else None) 60 sx_omap 30 4.
Lemma snap_loop_walk : forall t b,
  match snap_root t, snap_sub t b with
  | Ok (Some m), Ok n => (is_leaf m = false /\ wk_plan snap_walker m = [Ok b]) /\ is_leaf n = false /\ wk_plan snap_walker n = [Ok b]
  | _, _ => False
  end -> get_snapshots t = Fail.
Proof.
  intros t b H. unfold get_snapshots. destruct (snap_root t) as [[m|]| | |]; try contradiction.
  destruct (snap_sub t b) as [n| | |] eqn:E; try contradiction. destruct H as ((H1 & H2) & H3 & H4).
  apply (walk_self_loop _ _ _ m n b); auto.
Qed.
Example C21_snapshot_example : get_snapshots sx_loop = Fail.
Proof. apply (snap_loop_walk sx_loop 50). vm_compute. auto. Qed.

(* ---- C53 ---- *)
(* Names and block numbers, for trees whose nodes are virtual objects. *)
Theorem C53_snapshots_virtual_tree_partial : forall (tie : list Z -> list Z -> Prop) h t ho orecs ss,
  (forall a b c, tie a b -> tie b c -> tie a c) -> Z.of_nat ho <= 256 -> omap_tree (fs_omap t) ho (fs_orb t) orecs ->
  snap_tree (fs_img t) (resolves orecs (fs_txn t)) tie h (fs_rb t) ss ->
  get_snapshots t = Ok (map (fun s => mk_snap (sm_block s mod 2 ^ 32) (sm_name s)) ss).
Proof.
  intros tie h t ho orecs ss HT Hho HO HS. apply (get_snapshots_ok tie t (resolves orecs (fs_txn t)) HT) with (h := h); [|exact HS].
  intros x b (Hx & r & HN & HA). split; [lia|]. intros Hb. unfold snap_sub.
  destruct (omap_lookup_correct (fs_omap t) ho (fs_orb t) orecs x (fs_txn t) HO Hho (proj1 Hx)) as (r' & HN' & E'). rewrite E'. cbn [bind]. destruct r' as [r'|].
  - assert (r' = r) by (eapply newest_unique; eauto). subst r'. cbn [option_map rec_desc od_address]. rewrite HA.
    replace (int_max <? b) with false by lia. reflexivity.
  - exfalso. destruct HN as (I1 & O1 & T1 & _). specialize (HN' r I1 O1). lia.
Qed.
Print Assumptions C53_snapshots_virtual_tree_partial.
(* And for a tree of a single node, whatever references lead to. *)
Theorem C53_snapshots_single_node_partial : forall (tie : list Z -> list Z -> Prop) lead t ss,
  (forall a b c, tie a b -> tie b c -> tie a c) -> snap_tree (fs_img t) lead tie 0 (fs_rb t) ss ->
  get_snapshots t = Ok (map (fun s => mk_snap (sm_block s mod 2 ^ 32) (sm_name s)) ss).
Proof.
  intros tie lead t ss HT (ms & ns & Hh & (HN & HS) & HR). apply (get_snapshots_ok tie t (fun _ _ => False) HT) with (h := 0%nat).
  - intros x b [].
  - exists ms, ns. split; [exact Hh|]. split; [|exact HR]. split; [|exact HS]. destruct HN as (b & E & HN). exists b. split; [exact E|exact HN].
Qed.
Print Assumptions C53_snapshots_single_node_partial.
Example C53_example : get_snapshots (sx 50 51 60) = Ok [mk_snap 77 [97; 0]; mk_snap 77 [98; 99; 0]] /\
  get_snapshots (sx 0 0 63) = Ok [mk_snap 77 [97; 0]; mk_snap 77 [98; 99; 0]].
Proof.
  assert (HT : forall a b c, fx_tie a b -> fx_tie b c -> fx_tie a c) by (unfold fx_tie; lia). split.
  - apply (C53_snapshots_virtual_tree_partial fx_tie 1 (sx 50 51 60) 0 sx_orecs [sx5; sx9] HT); [lia|apply sx_omap_tree; reflexivity|].
    apply sx_virtual. reflexivity.
  - apply (C53_snapshots_single_node_partial fx_tie physical (sx 0 0 63) [sx5; sx9] HT). apply sx_single. reflexivity.
Qed.
(* The full statement is false: the nodes of the tree are physical objects, as their type says,
   but references between them are looked up in the object map. *)
Theorem C53_physical_tree_refuted : exists t ss, (exists tie h orecs ho, snap_tree (fs_img t) physical tie h (fs_rb t) ss /\
  Z.of_nat ho <= 256 /\ omap_tree (fs_omap t) ho (fs_orb t) orecs) /\ ss <> [] /\ get_snapshots t = Fail.
Proof.
  exists (sx 61 62 60), [sx5; sx9]. split; [|split; [discriminate|vm_compute; reflexivity]].
  exists fx_tie, 1%nat, sx_orecs, 0%nat. split; [apply sx_physical; reflexivity|]. split; [lia|apply sx_omap_tree; reflexivity].
Qed.
Print Assumptions C53_physical_tree_refuted.

(* ---- C52 ---- *)
Theorem C52_snapshot_name_partial : forall s cs rest, text cs -> len (utf8 cs) < 256 -> sn_name s = utf8 cs ++ 0 :: rest ->
  snap_name s = Ok (unmark cs) /\ (no_mark cs -> snap_name s = Ok cs).
Proof.
  intros s cs rest HT HL E. assert (X : snap_name s = Ok (unmark cs)).
  { unfold snap_name. rewrite E. apply stream_text_ok; [exact HT|lia|]. left. split; [exact HL|eauto]. }
  split; [exact X|]. intros HN. rewrite X. unfold unmark, no_mark in *. destruct cs as [|c cs]; [reflexivity|].
  rewrite (proj2 (Z.eqb_neq _ _) HN). reflexivity.
Qed.
Print Assumptions C52_snapshot_name_partial.
Theorem C52_long_name_partial : forall s, 256 <= len (sn_name s) -> snap_name s <> Oob /\ snap_name s <> Fuel.
Proof. intros s H. pose proof (stream_text_fine (sn_name s) 256 ltac:(lia)) as F. unfold snap_name. destruct (stream_text (sn_name s) 256); cbn in F; try contradiction; split; discriminate. Qed.
Print Assumptions C52_long_name_partial.
(* a name of two characters, of two and four bytes *)
Example C52_example : snap_name (mk_snap 77 [0xc3; 0xa9; 0xf0; 0x9f; 0x98; 0x80; 0]) = Ok [0xe9; 0x1f600].
Proof. vm_compute. reflexivity. Qed.
(* The full statement is false: a name that is stored without NUL is read beyond its end. *)
Theorem C52_name_read_beyond_end_refuted : exists k v s, bytes k /\ bytes v /\ snap_read (k, v) = Ok s /\ snap_name s = Oob.
Proof.
  exists (snapshot_key sx5), (snapshot_value (sx_snap 5 77 [97; 98])), (mk_snap 77 [97; 98]).
  split; [apply le_enc_bytes|]. split; [|split; vm_compute; reflexivity].
  unfold snapshot_value. repeat (apply bytes_app; split); try apply le_enc_bytes. repeat constructor; unfold is_byte; cbn; lia.
Qed.
Print Assumptions C52_name_read_beyond_end_refuted.
