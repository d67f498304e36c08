(* C14, C15: B-tree nodes. *)
From Verif Require Import Base BaseLemmas At BTree BTreeSpec BTreeProofs.

(* C14. Blocks of any size. *)
Theorem C14_node_parse_safe : forall data, bytes data ->
  read_node data <> Oob /\ read_node data <> Fuel /\
  forall n, read_node data = Ok n ->
    forall k v, In (k, v) (bn_entries n) ->
      (exists o, 0 <= o /\ o + len k <= len data /\ k = slice data o (len k)) /\
      (exists o, 0 <= o /\ o + len v <= len data /\ v = slice data o (len v)).
Proof.
  intros data HB. destruct (node_safe data HB) as (F & S).
  split; [destruct (read_node data); [discriminate..|contradiction|contradiction]|].
  split; [destruct (read_node data); [discriminate..|contradiction|contradiction]|].
  intros n H k v I. destruct (S n H) as (_ & FA). rewrite Forall_forall in FA. apply (FA (k, v) I).
Qed.
Print Assumptions C14_node_parse_safe.

Theorem C14_number_of_entries : forall data n, bytes data -> read_node data = Ok n ->
  len (bn_entries n) = bh_keys (bn_header n).
Proof. intros data n HB H. apply (node_safe data HB); auto. Qed.
Print Assumptions C14_number_of_entries.

(* A value offset pointing before the block is rejected, not read. *)
Definition C14_desc : node_desc :=
  mk_nd (zeros 24) 3 0x0e 2 0 [([1; 2; 3; 4; 5; 6; 7; 8], [9; 10]); ([1; 2; 3; 4; 5; 6; 7; 9], [])] [] [0; 0] (zeros 60) (zeros 8) [].
Example C14_example :
  is_ok (read_node (node_bytes C14_desc)) = true /\
  read_node (firstn (Z.to_nat 60) (node_bytes C14_desc) ++ [200; 0] ++ skipn (Z.to_nat 62) (node_bytes C14_desc)) = Fail.
Proof. vm_compute. auto. Qed.

(* C15. The full statement is false: a full branch node (not the root) with five records
   of 792-byte keys is rejected, because the room of a root footer is taken off for
   every node. *)
Theorem C15_node_round_trip_refuted : exists d,
  node_ok d /\ len (node_bytes d) = 4096 /\ read_node (node_bytes d) = Fail.
Proof.
  exists (mk_nd (zeros 24) 3 0x0e 0 1 (repeat (zeros 792, zeros 8) 5) [] [] [] (zeros 8) []).
  split; [|vm_compute; auto].
  unfold node_ok. cbn [nd_object nd_type nd_subtype nd_flags nd_level nd_lists nd_footer nd_recs nd_fixed].
  change (Z.testbit 0 0) with false. cbv iota.
  split; [reflexivity|]. split; [lia|]. split; [lia|]. split; [lia|]. split; [lia|].
  split; [reflexivity|]. split; [reflexivity|]. split; [vm_compute; congruence|].
  split; [vm_compute; auto|]. intros X. vm_compute in X. discriminate.
Qed.
Print Assumptions C15_node_round_trip_refuted.

(* What holds: every well-formed node whose free space and values take at least one byte
   (root) or 41 bytes (other nodes); type, subtype, header, footer and records are
   exactly those stored. *)
Theorem C15_node_round_trip_partial : forall d, node_ok d ->
  (if Z.testbit (nd_flags d) 0 then 0 else 40) < len (nd_free d) + len (values_area (nd_recs d)) ->
  exists n, read_node (node_bytes d) = Ok n /\ bn_entries n = nd_recs d /\
    bn_type n = nd_type d /\ bn_subtype n = nd_subtype d /\
    bh_flags (bn_header n) = nd_flags d /\ bh_level (bn_header n) = nd_level d /\
    match bn_footer n with
    | None => Z.testbit (nd_flags d) 0 = false
    | Some f => Z.testbit (nd_flags d) 0 = true /\
        bf_node f = le_val (slice (nd_footer d) 4 4) /\ bf_key f = le_val (slice (nd_footer d) 8 4) /\
        bf_value f = le_val (slice (nd_footer d) 12 4)
    end.
Proof.
  intros d OK H. exists (node_result d). split; [apply node_round; auto|].
  unfold node_result. cbn [bn_entries bn_type bn_subtype bn_header bn_footer bh_flags bh_level].
  do 5 (split; [reflexivity|]). destruct (Z.testbit (nd_flags d) 0); [|reflexivity]. cbn [bf_node bf_key bf_value]. auto.
Qed.
Print Assumptions C15_node_round_trip_partial.

Example C15_example : exists n, read_node (node_bytes C14_desc) = Ok n /\
  bn_entries n = [([1; 2; 3; 4; 5; 6; 7; 8], [9; 10]); ([1; 2; 3; 4; 5; 6; 7; 9], [])] /\ is_leaf n = true.
Proof. eexists. split; [vm_compute; reflexivity|]. vm_compute. auto. Qed.
(* A root node of an object map: fixed-size entries and a footer. *)
Example C15_fixed_example :
  let d := mk_nd (zeros 24) 0x40000002 0x0b 7 0 [(le_enc 8 5 ++ le_enc 8 1, zeros 16); (le_enc 8 7 ++ le_enc 8 2, repeat 1 16)]
             [] (zeros 20) (zeros 30) (zeros 8) (le_enc 4 0 ++ le_enc 4 4096 ++ le_enc 4 16 ++ le_enc 4 16 ++ zeros 24) in
  exists n, read_node (node_bytes d) = Ok n /\ bn_entries n = nd_recs d /\ bn_footer n = Some (mk_bf 0 4096 16 16 0 0).
Proof. eexists. split; [vm_compute; reflexivity|]. vm_compute. auto. Qed.
