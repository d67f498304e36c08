(* C16, and the object map part of C21 and C54. *)
From Verif Require Import Base BaseLemmas BTree BTreeSpec BTreeProofs Walk TreeSpec Omap OmapSpec OmapProofs OmapTop.

(* A small object map: a branch node over two leaves. Object 5 has three versions, one
   of them in the second leaf. *)
Definition ex_key (o t : Z) := le_enc 8 o ++ le_enc 8 t.
Definition ex_val (a : Z) := le_enc 4 0 ++ le_enc 4 4096 ++ le_enc 8 a.
Definition ex_leaf1 := [(ex_key 3 1, ex_val 100); (ex_key 5 2, ex_val 101); (ex_key 5 4, ex_val 102)].
Definition ex_leaf2 := [(ex_key 5 7, ex_val 103); (ex_key 9 1, ex_val 104)].
Definition ex_node (root leaf : bool) (recs : list record) : node_desc :=
  let n := len recs in
  let vs := if leaf then 16 else 8 in
  mk_nd (zeros 24) (if root then 0x40000002 else 0x40000003) 0x0b
    ((if root then 1 else 0) + (if leaf then 2 else 0) + 4) (if leaf then 0 else 1) recs [] []
    (zeros (4096 - 56 - 4 * n - 16 * n - vs * n - (if root then 40 else 0))) (zeros 8)
    (if root then zeros 4 ++ le_enc 4 4096 ++ le_enc 4 16 ++ le_enc 4 16 ++ zeros 24 else []).
Definition ex_root := [(ex_key 3 1, le_enc 8 11); (ex_key 5 7, le_enc 8 12)].
Definition ex_dev : device := fun b =>
  if b =? 10 then Some (node_bytes (ex_node true false ex_root))
  else if b =? 11 then Some (node_bytes (ex_node false true ex_leaf1))
  else if b =? 12 then Some (node_bytes (ex_node false true ex_leaf2))
  else None.

Lemma ex_node_ok (root leaf : bool) recs :
  forallb (fun r : record => (len (fst r) =? 16) && (len (snd r) =? (if leaf then 16 else 8))) recs = true ->
  len recs <= 100 -> node_ok (ex_node root leaf recs) /\ len (node_bytes (ex_node root leaf recs)) = 4096.
Proof.
  intros H HL. unfold record in *. pose proof (len_nonneg recs) as HN. remember (if leaf then 16 else 8) as vs eqn:EV.
  assert (HV : vs = 8 \/ vs = 16) by (subst vs; destruct leaf; auto).
  assert (LS : forall k v, In (k, v) recs -> len k = 16 /\ len v = vs).
  { intros k v Hi. rewrite forallb_forall in H. specialize (H _ Hi). cbn [fst snd] in H. lia. }
  assert (HK : len (keys_area recs) = 16 * len recs).
  { unfold keys_area. rewrite (concat_len_const _ 16), len_map; [reflexivity|]. apply Forall_map, Forall_forall.
    intros [k v] Hi. apply (LS k v Hi). }
  assert (HVA : len (values_area recs) = vs * len recs).
  { unfold values_area. rewrite (concat_len_const _ vs), len_rev, len_map; [reflexivity|]. apply Forall_rev, Forall_map, Forall_forall.
    intros [k v] Hi. apply (LS k v Hi). }
  assert (LB : len (node_bytes (ex_node root leaf recs)) = 4096).
  { unfold node_bytes, nd_header, nd_toc, nd_fixed, ex_node. cbn [nd_object nd_gap nd_recs nd_free nd_footer nd_spare nd_flags nd_lists].
    unfold record. rewrite !len_app, !le_enc_len, toc_len, HK, HVA.
    replace (Z.testbit _ 2) with true by (destruct root, leaf; reflexivity). rewrite <- EV.
    rewrite (zeros_len (4096 - _ - _ - _ - _ - _)) by (destruct root; nia).
    rewrite (zeros_len 24), (zeros_len 8) by lia. change (len (@nil Z)) with 0.
    destruct root; [change (len (zeros 4 ++ le_enc 4 4096 ++ le_enc 4 16 ++ le_enc 4 16 ++ zeros 24)) with 40|change (len (@nil Z)) with 0]; clear; cbn [Z.of_nat Pos.of_succ_nat Pos.succ]; ring. }
  split; [|exact LB]. unfold node_ok. rewrite LB. unfold nd_fixed, ex_node.
  cbn [nd_object nd_type nd_subtype nd_recs nd_footer nd_flags nd_lists nd_level].
  split; [reflexivity|]. split; [destruct root; lia|]. split; [lia|]. split; [destruct root, leaf; lia|].
  split; [destruct leaf; lia|]. split; [reflexivity|]. split; [destruct root, leaf; reflexivity|]. split; [lia|].
  split; [destruct root; vm_compute; auto|]. intros _. split; [reflexivity|].
  replace (Z.testbit _ 1) with leaf by (destruct root, leaf; reflexivity). rewrite <- EV. exact LS.
Qed.
Lemma ex_node_at dev b (root leaf : bool) recs : 0 <= b < 2 ^ 31 -> dev b = Some (node_bytes (ex_node root leaf recs)) ->
  forallb (fun r : record => (len (fst r) =? 16) && (len (snd r) =? (if leaf then 16 else 8))) recs = true ->
  len recs <= 100 -> omap_node dev root b leaf recs.
Proof.
  intros Hb HD H HL. split; [exact Hb|]. destruct (ex_node_ok root leaf recs H HL) as (OK & L4).
  exists (ex_node root leaf recs). split; [exact HD|]. split; [exact OK|]. split; [exact L4|].
  split; [cbn; lia|]. split; [reflexivity|]. split; [reflexivity|].
  split; [destruct root, leaf; reflexivity|]. split; [destruct root, leaf; reflexivity|]. split; [destruct root, leaf; reflexivity|].
  split; [intros ->; reflexivity|reflexivity].
Qed.
Ltac ex_node_tac := apply ex_node_at; [lia|reflexivity|vm_compute; reflexivity|vm_compute; congruence].

Ltac fa_tac := repeat (apply Forall_cons || apply Forall_nil); vm_compute; auto.
Ltac sorted_tac := repeat (apply sorted_nil || (apply sorted_cons; [fa_tac|])).

Example ex_tree : omap_tree ex_dev 1 10 (ex_leaf1 ++ ex_leaf2).
Proof.
  exists ex_root. split; [ex_node_tac|]. split; [discriminate|].
  unfold ex_leaf1, ex_leaf2, ex_root.
  apply (forest_cons _ _ _ _ _ _ 11 _ _ _ [(ex_key 5 2, ex_val 101); (ex_key 5 4, ex_val 102)] [(ex_key 5 7, ex_val 103); (ex_key 9 1, ex_val 104)]); [reflexivity| |reflexivity| |].
  - split; [ex_node_tac|]. sorted_tac.
  - fa_tac.
  - apply (forest_cons _ _ _ _ _ _ 12 _ _ _ [(ex_key 9 1, ex_val 104)] []); [reflexivity| |reflexivity|fa_tac|constructor].
    split; [ex_node_tac|]. sorted_tac.
Qed.

(* C16. *)
Theorem C16_omap_lookup_partial : forall dev h rb recs oid t,
  omap_tree dev h rb recs -> Z.of_nat h <= 256 -> 0 < oid ->
  exists r, newest recs oid t r /\
    omap_lookup dev rb oid t =
      Ok (option_map (fun e => mk_od oid (rec_txn e) (le_val (slice (snd e) 0 4)) (le_val (slice (snd e) 4 4)) (rec_address e)) r).
Proof.
  intros dev h rb recs oid t HT Hh Ho. destruct (omap_lookup_correct dev h rb recs oid t HT Hh Ho) as (r & HN & E).
  exists r. split; [exact HN|]. rewrite E. destruct r as [e|]; [|reflexivity]. destruct HN as (_ & <- & _). reflexivity.
Qed.
Print Assumptions C16_omap_lookup_partial.

(* The records of a tree are unique, so that the newest version is too. *)
Theorem C16_newest_unique : forall dev h rb recs oid t r1 r2,
  omap_tree dev h rb recs -> newest recs oid t (Some r1) -> newest recs oid t (Some r2) -> r1 = r2.
Proof.
  intros dev h rb recs oid t r1 r2 HT N1 N2. eapply newest_unique; eauto.
Qed.
Print Assumptions C16_newest_unique.

Example C16_example :
  map (fun q => omap_lookup ex_dev 10 (fst q) (snd q)) [(5, 1); (5, 2); (5, 3); (5, 6); (5, 7); (5, 100); (4, 9); (9, 1); (10, 1); (1, 5)] =
  [Ok None; Ok (Some (mk_od 5 2 0 4096 101)); Ok (Some (mk_od 5 2 0 4096 101)); Ok (Some (mk_od 5 4 0 4096 102));
   Ok (Some (mk_od 5 7 0 4096 103)); Ok (Some (mk_od 5 7 0 4096 103)); Ok None; Ok (Some (mk_od 9 1 0 4096 104)); Ok None; Ok None].
Proof. vm_compute. reflexivity. Qed.

(* The full statement is false: a lookup of identifier 0, of which there is no record,
   is an error instead of not-found. *)
Theorem C16_omap_lookup_refuted : exists dev h rb recs t,
  omap_tree dev h rb recs /\ Z.of_nat h <= 256 /\ newest recs 0 t None /\ omap_lookup dev rb 0 t = Fail.
Proof.
  exists ex_dev, 1%nat, 10, (ex_leaf1 ++ ex_leaf2), 5. split; [exact ex_tree|]. split; [lia|]. split; [|vm_compute; reflexivity].
  intros r Hr E. cbn in Hr. repeat (destruct Hr as [<-|Hr]; [vm_compute in E; discriminate|]). contradiction.
Qed.
Print Assumptions C16_omap_lookup_refuted.

(* C54 (object map): the results of any sequence of lookups through one node cache, with
   any eviction policy and on any image, are those of single lookups with a new handle. *)
Theorem C54_omap_history_independent : forall img rb P evict, bytes_image img ->
  (forall (p : P) l b, incl (snd (evict p l b)) l) ->
  forall p qs, omap_session img rb P evict qs (p, []) = map (fun q => omap_lookup img rb (fst q) (snd q)) qs.
Proof. intros. apply omap_session_pure; auto. Qed.
Print Assumptions C54_omap_history_independent.

(* A policy that keeps two nodes; the root refers to itself as a child for identifiers of
   20 and up. *)
Definition ex_dev2 : device := fun b =>
  if b =? 10 then Some (node_bytes (ex_node true false (ex_root ++ [(ex_key 20 0, le_enc 8 10)]))) else ex_dev b.
Example C54_example :
  omap_session ex_dev2 10 unit (fun p l _ => (p, firstn 1 l)) [(5, 3); (20, 1); (9, 1); (20, 1); (5, 3)] (tt, []) =
  [Ok (Some (mk_od 5 2 0 4096 101)); Fail; Ok (Some (mk_od 9 1 0 4096 104)); Fail; Ok (Some (mk_od 5 2 0 4096 101))].
Proof. vm_compute. reflexivity. Qed.

(* C21 (object map): every lookup on every image ends within 257 levels, without access
   outside a buffer. *)
Theorem C21_omap_lookup_terminates : forall img rb oid t, bytes_image img ->
  omap_lookup img rb oid t <> Fuel /\ omap_lookup img rb oid t <> Oob.
Proof.
  intros img rb oid t H. pose proof (omap_lookup_fine img H rb oid t) as F.
  destruct (omap_lookup img rb oid t); cbn in F; try contradiction; split; discriminate.
Qed.
Print Assumptions C21_omap_lookup_terminates.
(* A sub node that is its own child. *)
Definition ex_dev3 : device := fun b =>
  if b =? 10 then Some (node_bytes (ex_node true false [(ex_key 1 0, le_enc 8 11)]))
  else if b =? 11 then Some (node_bytes (ex_node false false [(ex_key 1 0, le_enc 8 11)])) else None.
Example C21_omap_example : omap_lookup ex_dev3 10 5 5 = Fail.
Proof. vm_compute. reflexivity. Qed.
