(* C17-C20, and the file system tree part of C21 and C54. *)
From Verif Require Import Base BaseLemmas BTree BTreeSpec BTreeProofs Walk WalkProofs TreeSpec TreeProofs Omap OmapSpec OmapProofs OmapTop
  PropOmap Records RecordsSpec RecordsProofs FsTree FsSpec FsProofs FsTop FsLookup.
Require Import Sorted.
Ltac Zify.zify_post_hook ::= Z.div_mod_to_equations.

(* ---- a small file system: a branch node over two leaves, reached through an object map
   with two versions of the second leaf. Directory 2 straddles the leaves; file 16 has an
   attribute and two extents. ---- *)
Definition fx_child (id : Z) (c inode : Z) : record :=
  (dir_key_plain id [c; 0], dir_value_bytes inode 77 8 0 true []).
Definition fx_stored : stored_inode := {|
  st_parent_id := 2; st_private_id := 16; st_create_time := 11; st_mod_time := 12; st_change_time := 13; st_access_time := 14;
  st_internal_flags := 0; st_nlink := 1; st_protection_class := 0; st_write_generation := 0; st_bsd_flags := 0;
  st_uid := 501; st_gid := 20; st_mode := 33188; st_pad1 := 0; st_pad2 := 0 |}.
Definition fx_inode (id : Z) : record := (key_head 3 id, inode_value_bytes fx_stored 0 true []).
Definition fx_extent (off size block : Z) : record := (extent_key_bytes 16 off, extent_value_bytes 0 size block 0).
Definition fx_attr : record := (attr_key_bytes 16 [120; 0], attr_inline_bytes [1; 2; 3]).
Definition fx_leaf1 : list record := [fx_inode 2; fx_child 2 97 16].
Definition fx_leaf2 : list record := [fx_child 2 98 17; fx_inode 16; fx_attr; fx_extent 0 4096 900; fx_extent 4096 8192 950].
Definition fx_recs := fx_leaf1 ++ fx_leaf2.
Definition fx_root : list record := [(fst (fx_inode 2), le_enc 8 50); (fst (fx_child 2 98 17), le_enc 8 51)].
Definition fx_node (root leaf : bool) (recs : list record) : node_desc :=
  mk_nd (zeros 24) (if root then 2 else 3) 0x0e
    ((if root then 1 else 0) + (if leaf then 2 else 0)) (if leaf then 0 else 1) recs [] []
    (zeros (4096 - 56 - 8 * len recs - len (keys_area recs) - len (values_area recs) - (if root then 40 else 0))) (zeros 8)
    (if root then zeros 4 ++ le_enc 4 4096 ++ le_enc 4 0 ++ le_enc 4 0 ++ zeros 24 else []).
Definition fx_img : device := fun b =>
  if b =? 20 then Some (node_bytes (fx_node true false fx_root))
  else if b =? 21 then Some (node_bytes (fx_node false true fx_leaf1))
  else if b =? 22 then Some (node_bytes (fx_node false true fx_leaf2)) else None.
Definition fx_orecs : list record := [(ex_key 50 1, ex_val 21); (ex_key 51 1, ex_val 99); (ex_key 51 3, ex_val 22)].
Definition fx_omap : device := fun b =>
  if b =? 30 then Some (node_bytes (ex_node true true fx_orecs)) else None.
Definition fx : fs := mk_fs fx_img 20 fx_omap 30 4.
Definition fx_tie (a b : list Z) : Prop := le_val a < le_val b.

Lemma fx_node_at root leaf o b recs : fx_img b = Some (node_bytes (fx_node root leaf recs)) ->
  (if root then b = o else resolves fx_orecs 4 o b) -> 0 <= b < 2 ^ 31 ->
  len (node_bytes (fx_node root leaf recs)) = 4096 -> 
  40 < len (nd_free (fx_node root leaf recs)) ->
  fs_node fx_img fx_orecs 4 root o leaf recs.
Proof.
  intros HI HR Hb HL HF. exists b. split; [exact HR|]. split; [exact Hb|]. exists (fx_node root leaf recs).
  split; [exact HI|]. split; [|split; [exact HL|]].
  - unfold node_ok. rewrite HL. unfold nd_fixed. change (nd_flags (fx_node root leaf recs)) with ((if root then 1 else 0) + (if leaf then 2 else 0)).
    replace (Z.testbit _ 2) with false by (destruct root, leaf; reflexivity).
    split; [reflexivity|]. cbn [nd_type nd_subtype nd_level nd_lists nd_footer fx_node].
    split; [destruct root; lia|]. split; [lia|]. split; [destruct root, leaf; lia|]. split; [destruct leaf; lia|]. split; [reflexivity|].
    split; [destruct root, leaf; reflexivity|]. split; [lia|]. split; [destruct root; vm_compute; auto|]. discriminate.
  - pose proof (len_nonneg (values_area (nd_recs (fx_node root leaf recs)))).
    split; [intros _; lia|]. split; [lia|]. split; [destruct root; cbn; auto|]. split; [reflexivity|].
    split; [destruct root, leaf; reflexivity|]. split; [destruct root, leaf; reflexivity|]. split; [destruct root, leaf; reflexivity|].
    split; [intros ->; reflexivity|reflexivity].
Qed.
Lemma fx_resolves o b r : In r fx_orecs -> rec_oid r = o -> rec_address r = b -> 0 < o < 2 ^ 64 ->
  forallb (fun r' => negb (rec_oid r' =? o) || negb (rec_txn r' <=? 4) || (rec_txn r' <=? rec_txn r)) fx_orecs = true -> rec_txn r <= 4 ->
  resolves fx_orecs 4 o b.
Proof.
  intros HI HO HA Ho HF HT. split; [exact Ho|]. exists r. split; [|exact HA]. split; [exact HI|]. split; [exact HO|]. split; [exact HT|].
  intros r' Hr' E1 E2. rewrite forallb_forall in HF. specialize (HF r' Hr'). lia.
Qed.
Lemma fs_rec_ok_dec r : (8 <=? len (fst r)) && forallb (fun b => (0 <=? b) && (b <? 256)) (fst r) && (3 <=? kty (fst r)) &&
  (negb (kty (fst r) =? 8) || (16 <=? len (fst r))) = true -> fs_rec_ok r.
Proof.
  intros H. apply andb_prop in H. destruct H as (H & H4). apply andb_prop in H. destruct H as (H & H3). apply andb_prop in H. destruct H as (H1 & H2).
  split; [lia|]. split; [|split; [lia|lia]]. apply Forall_forall. intros b Hb. rewrite forallb_forall in H2. specialize (H2 b Hb). unfold is_byte. lia.
Qed.
Definition fs_ltb (a b : list Z) : bool :=
  (kid a <? kid b) || ((kid a =? kid b) && ((kty a <? kty b) ||
    ((kty a =? kty b) && (if kty a =? 3 then false else if kty a =? 8 then koff a <? koff b else le_val a <? le_val b)))).
Lemma fs_ltb_ok a b : fs_ltb a b = true -> fs_lt fx_tie a b.
Proof.
  unfold fs_ltb, fs_lt, tie_lt, fx_tie. intros H. destruct (kty a =? 3) eqn:E3; [lia|]. destruct (kty a =? 8); lia.
Qed.
Ltac fs_tac := repeat (apply Forall_cons || apply Forall_nil); apply fs_ltb_ok; vm_compute; reflexivity.
Ltac fs_sorted := repeat (apply sorted_nil || (apply sorted_cons; [solve [apply Forall_nil | fs_tac]|])).

Lemma fx_omap_tree : omap_tree fx_omap 0 30 fx_orecs.
Proof. split; [ex_node_tac|]. sorted_tac. Qed.

Example fx_tree : fs_tree fx_tie 1 fx fx_recs.
Proof.
  exists 0%nat, fx_orecs. split; [lia|]. split; [exact fx_omap_tree|]. split; [lia|]. split.
  - exists fx_root. split; [apply (fx_node_at true false 20 20); [reflexivity|reflexivity|lia|vm_compute; reflexivity|vm_compute; reflexivity]|].
    split; [discriminate|]. unfold fx_recs, fx_leaf1, fx_leaf2, fx_root.
    apply (forest_cons _ _ _ _ (fst (fx_inode 2)) _ 50 _ _ (snd (fx_inode 2)) [fx_child 2 97 16]); [reflexivity| |reflexivity| |].
    + split; [|fs_sorted]. apply (fx_node_at false true 50 21); [reflexivity| |lia|vm_compute; reflexivity|vm_compute; reflexivity].
      apply (fx_resolves 50 21 (ex_key 50 1, ex_val 21)); [left; reflexivity|reflexivity|reflexivity|lia|reflexivity|vm_compute; discriminate].
    + repeat (apply Forall_cons || apply Forall_nil); apply fs_ltb_ok; vm_compute; reflexivity.
    + rewrite <- (app_nil_r [fx_child 2 98 17; fx_inode 16; fx_attr; fx_extent 0 4096 900; fx_extent 4096 8192 950]).
      apply (forest_cons _ _ _ _ (fst (fx_child 2 98 17)) _ 51 _ _ (snd (fx_child 2 98 17)) [fx_inode 16; fx_attr; fx_extent 0 4096 900; fx_extent 4096 8192 950]); [reflexivity| |reflexivity| |constructor].
      * split; [|fs_sorted]. apply (fx_node_at false true 51 22); [reflexivity| |lia|vm_compute; reflexivity|vm_compute; reflexivity].
        apply (fx_resolves 51 22 (ex_key 51 3, ex_val 22)); [right; right; left; reflexivity|reflexivity|reflexivity|lia|reflexivity|vm_compute; discriminate].
      * repeat (apply Forall_cons || apply Forall_nil).
  - repeat (apply Forall_cons || apply Forall_nil); apply fs_rec_ok_dec; vm_compute; reflexivity.
Qed.

(* ---- C17 ---- *)
Lemma inode_unique tie recs id r1 r2 : sorted (fs_lt tie) recs -> In r1 recs -> In r2 recs ->
  has 3 id r1 = true -> has 3 id r2 = true -> r1 = r2.
Proof.
  intros HS. induction HS as [|e es H H1 IH]; intros I1 I2 H3 H4; [contradiction|]. rewrite Forall_forall in H.
  assert (X : forall r r', has 3 id r = true -> has 3 id r' = true -> ~ fs_lt tie (fst r) (fst r')).
  { intros r r' Hr Hr' L. unfold has, fs_lt, tie_lt in *. assert (E : kty (fst r) = 3) by lia. rewrite E in L. cbn [Z.eqb Pos.eqb] in L. lia. }
  destruct I1 as [->|I1], I2 as [->|I2]; auto; exfalso.
  - apply (X r1 r2 H3 H4 (H r2 I2)).
  - apply (X r2 r1 H4 H3 (H r1 I1)).
Qed.
Lemma inode_key_kid k : 8 <= len k -> inode_key k = Ok (kid k).
Proof.
  intros H. unfold inode_key. rewrite check_true by lia. cbn [bind]. rewrite rd_le_in by lia. cbn [bind].
  change 1152921504606846975 with (Z.ones 60). rewrite Z.land_ones by lia. reflexivity.
Qed.

Theorem C17_inode_by_identifier_partial : forall (tie : list Z -> list Z -> Prop) h t recs id,
  (forall a b c, tie a b -> tie b c -> tie a c) -> fs_tree tie h t recs -> 0 <= id < 2 ^ 60 ->
  (forall r, In r recs -> has 3 id r = true ->
     fs_inode t id = let! i := inode_value (snd r) in Ok (Some (id, i))) /\
  ((forall r, In r recs -> has 3 id r = false) -> fs_inode t id = Ok None).
Proof.
  intros tie h t recs id HTR HT Hid. unfold fs_inode. rewrite (id_tree tie HTR id Hid h t recs HT). cbn [bind]. unfold id_ans.
  pose proof (fs_tree_sorted tie HTR h t recs HT) as HS.
  assert (HG : Forall fs_rec_ok recs) by (destruct HT as (? & ? & _ & _ & _ & _ & HG); exact HG).
  split.
  - intros r Hr HH. destruct (find (has 3 id) recs) as [r'|] eqn:E.
    + apply find_some in E. destruct E as (I' & H'). assert (r' = r) by (eapply inode_unique; eauto). subst r'.
      cbn [inode_finish]. unfold read_inode. rewrite Forall_forall in HG. rewrite inode_key_kid by apply (HG r Hr). cbn [bind].
      replace (kid (fst r)) with id by (unfold has in HH; lia). destruct (inode_value (snd r)); reflexivity.
    + rewrite (List.find_none _ _ E r Hr) in HH. discriminate.
  - intros HN. destruct (find (has 3 id) recs) as [r'|] eqn:E; [|reflexivity].
    apply find_some in E. destruct E as (I' & H'). rewrite (HN r' I') in H'. discriminate.
Qed.
Print Assumptions C17_inode_by_identifier_partial.

Example C17_example : map (fun i => match fs_inode fx i with Ok (Some (j, v)) => (j, in_owner v) | Ok None => (-1, 0) | _ => (-2, 0) end)
  [1; 2; 3; 16; 17; 2 ^ 60 - 1] = [(-1, 0); (2, 501); (-1, 0); (16, 501); (-1, 0); (-1, 0)].
Proof. vm_compute. reflexivity. Qed.

(* The full statement is false: an identifier of more than 60 bits is taken for another. *)
Theorem C17_inode_by_identifier_refuted : exists (tie : list Z -> list Z -> Prop) h t recs id i,
  (forall a b c, tie a b -> tie b c -> tie a c) /\ fs_tree tie h t recs /\ 0 <= id < 2 ^ 64 /\
  (forall r, In r recs -> kid (fst r) <> id) /\ fs_inode t id = Ok (Some (16, i)).
Proof.
  exists fx_tie, 1%nat, fx, fx_recs, (2 ^ 60 + 16), (match inode_value (snd (fx_inode 16)) with Ok i => i | _ => Build_inode 0 0 0 0 0 0 0 0 0 0 0 None 0 0 end).
  split; [unfold fx_tie; intros; lia|]. split; [exact fx_tree|]. split; [lia|]. split; [|vm_compute; reflexivity].
  intros r _. unfold kid. pose proof (Z.mod_pos_bound (kword (fst r)) (2 ^ 60)). lia.
Qed.
Print Assumptions C17_inode_by_identifier_refuted.

(* ---- enumerations ---- *)

(* The condition under which a tree with branch nodes is read: some record is not after
   what is looked up. It holds in particular when there is something to find. *)
Definition not_below (ty id : Z) (recs : list record) : Prop :=
  exists r, In r recs /\ (kid (fst r) < id \/ (kid (fst r) = id /\ kty (fst r) <= ty)).
Lemma not_below_reach tie ty id recs : sorted (fs_lt tie) recs -> not_below ty id recs -> reach id ty recs.
Proof.
  intros HS (r & Hr & HL). destruct HS as [|e es H H1]; [exact I|]. cbn. unfold above.
  destruct Hr as [->|Hr]; [lia|]. rewrite Forall_forall in H. specialize (H r Hr). unfold fs_lt in H. lia.
Qed.

Lemma enumeration {A} (parse : bentry -> res A) more (R : record -> A -> Prop) (tie : list Z -> list Z -> Prop) h t recs ty id :
  (forall a b c, tie a b -> tie b c -> tie a c) ->
  (forall r a, R r a -> parse r = Ok a) ->
  (forall k v, fs_rec_ok (k, []) -> has ty id (k, v) = true -> exists m, more (k, v) = Ok m /\
        (m = false -> forall r, fs_rec_ok r -> fs_lt tie (fst r) k -> has ty id r = false)) ->
  fs_tree tie h t recs -> 0 <= id < 2 ^ 60 ->
  (forall r, In r recs -> has ty id r = true -> exists a, R r a) ->
  h = O \/ not_below ty id recs ->
  exists l, fs_walk t (enum_walker parse more ty id) = Ok l /\ Forall2 R (filter (has ty id) recs) l.
Proof.
  intros HTR HP HM HT Hid HR HB. exists (enum_ans id ty A parse recs). split; [|apply enum_forall2; auto].
  apply (enum_tree tie HTR parse more id ty h t recs Hid); auto.
  - intros r Hr HH. destruct (HR r Hr HH) as (a & Ha). exists a. auto.
  - destruct HB as [HB|HB]; [left; exact HB|right]. eapply not_below_reach; [|exact HB]. eapply fs_tree_sorted; eauto.
Qed.

(* C18 *)
Theorem C18_directory_enumeration_partial : forall (tie : list Z -> list Z -> Prop) h t recs id,
  (forall a b c, tie a b -> tie b c -> tie a c) -> fs_tree tie h t recs -> 0 <= id < 2 ^ 60 ->
  (forall r, In r recs -> has 9 id r = true -> exists e, dir_rec id r e) ->
  h = O \/ not_below 9 id recs ->
  exists l, fs_dir t id = Ok l /\ Forall2 (dir_rec id) (filter (has 9 id) recs) l.
Proof.
  intros tie h t recs id HTR HT Hid HR HB. eapply enumeration; eauto.
  - intros. eapply dir_rec_read; eauto.
  - intros. eapply always_ok; eauto.
Qed.
Print Assumptions C18_directory_enumeration_partial.

(* Each record once, and all of one kind: a record in the result comes from the directory. *)
Theorem C18_no_other : forall id recs l, Forall2 (dir_rec id) (filter (has 9 id) recs) l ->
  (forall e, In e l -> exists r, In r recs /\ has 9 id r = true /\ dir_rec id r e) /\
  (forall r, In r recs -> has 9 id r = true -> exists e, In e l /\ dir_rec id r e) /\
  length l = length (filter (has 9 id) recs).
Proof.
  intros id recs l H. split; [|split].
  - intros e He. apply in_split in He. destruct He as (l1 & l2 & ->). apply Forall2_app_inv_r in H.
    destruct H as (a & b & _ & Hb & E). inversion Hb as [|r ? b' ? Hr Hrest]; subst. assert (I : In r (filter (has 9 id) recs)) by (rewrite E; apply in_or_app; right; left; auto).
    apply filter_In in I. exists r. tauto.
  - intros r Hr HH. assert (I : In r (filter (has 9 id) recs)) by (apply filter_In; auto). apply in_split in I. destruct I as (l1 & l2 & E).
    rewrite E in H. apply Forall2_app_inv_l in H. destruct H as (a & b & _ & Hb & ->). inversion Hb as [|? e ? b' He Hrest]; subst.
    exists e. split; [apply in_or_app; right; left; auto|auto].
  - clear - H. induction H; cbn; congruence.
Qed.
Print Assumptions C18_no_other.

Example C18_example : fs_dir fx 2 = Ok [mk_de [97; 0] 0 16 77; mk_de [98; 0] 0 17 77] /\ fs_dir fx 16 = Ok [] /\ fs_dir fx 3 = Ok [].
Proof. vm_compute. auto. Qed.

(* The full statement is false: in a tree with a branch node, an identifier before all keys
   gives an error instead of no entries. *)
Theorem C18_directory_enumeration_refuted : exists (tie : list Z -> list Z -> Prop) h t recs id,
  (forall a b c, tie a b -> tie b c -> tie a c) /\ fs_tree tie h t recs /\ 0 <= id < 2 ^ 60 /\
  (forall r, In r recs -> kid (fst r) <> id) /\ fs_dir t id = Fail /\ fs_attrs t id = Fail /\ fs_extents t id = Fail.
Proof.
  exists fx_tie, 1%nat, fx, fx_recs, 1. split; [unfold fx_tie; intros; lia|]. split; [exact fx_tree|]. split; [lia|]. split.
  - intros r Hr. assert (E : forallb (fun r => negb (kid (fst r) =? 1)) fx_recs = true) by (vm_compute; reflexivity).
    rewrite forallb_forall in E. specialize (E r Hr). lia.
  - vm_compute. auto.
Qed.
Print Assumptions C18_directory_enumeration_refuted.

(* C19 *)
Theorem C19_attribute_enumeration_partial : forall (tie : list Z -> list Z -> Prop) h t recs id,
  (forall a b c, tie a b -> tie b c -> tie a c) -> fs_tree tie h t recs -> 0 <= id < 2 ^ 60 ->
  (forall r, In r recs -> has 4 id r = true -> exists a, attr_rec id r a) ->
  h = O \/ not_below 4 id recs ->
  exists l, fs_attrs t id = Ok l /\ Forall2 (attr_rec id) (filter (has 4 id) recs) l.
Proof.
  intros tie h t recs id HTR HT Hid HR HB. eapply enumeration; eauto.
  - intros. eapply attr_rec_read; eauto.
  - intros. eapply always_ok; eauto.
Qed.
Print Assumptions C19_attribute_enumeration_partial.

(* The attributes of a file that exists: its inode record is not after them, so that the
   enumeration never fails, and gives an empty list when there is none. *)
Theorem C19_attributes_of_existing_file : forall (tie : list Z -> list Z -> Prop) h t recs id r,
  (forall a b c, tie a b -> tie b c -> tie a c) -> fs_tree tie h t recs -> 0 <= id < 2 ^ 60 ->
  In r recs -> has 3 id r = true ->
  (forall r, In r recs -> has 4 id r = true -> exists a, attr_rec id r a) ->
  exists l, fs_attrs t id = Ok l /\ Forall2 (attr_rec id) (filter (has 4 id) recs) l /\
    ((forall r, In r recs -> has 4 id r = false) -> l = []).
Proof.
  intros tie h t recs id r HTR HT Hid Hr HH HR.
  destruct (C19_attribute_enumeration_partial tie h t recs id HTR HT Hid HR) as (l & E & F).
  - right. exists r. split; [exact Hr|]. unfold has in HH. lia.
  - exists l. split; [exact E|]. split; [exact F|]. intros HN.
    rewrite (no_match id 4) in F; [inversion F; reflexivity|]. apply Forall_forall. auto.
Qed.
Print Assumptions C19_attributes_of_existing_file.

Theorem C19_attribute_enumeration_refuted : exists (tie : list Z -> list Z -> Prop) h t recs id,
  (forall a b c, tie a b -> tie b c -> tie a c) /\ fs_tree tie h t recs /\ 0 <= id < 2 ^ 60 /\
  (forall r, In r recs -> has 4 id r = false) /\ fs_attrs t id = Fail.
Proof.
  exists fx_tie, 1%nat, fx, fx_recs, 1. split; [unfold fx_tie; intros; lia|]. split; [exact fx_tree|]. split; [lia|]. split.
  - intros r Hr. assert (E : forallb (fun r => negb (has 4 1 r)) fx_recs = true) by (vm_compute; reflexivity).
    rewrite forallb_forall in E. specialize (E r Hr). destruct (has 4 1 r); [discriminate|reflexivity].
  - vm_compute. reflexivity.
Qed.
Print Assumptions C19_attribute_enumeration_refuted.

Example C19_example : fs_attrs fx 16 = Ok [mk_at [120; 0] 2 (AInline [1; 2; 3])] /\ fs_attrs fx 2 = Ok [].
Proof. vm_compute. auto. Qed.

(* C20: and in logical order *)
Theorem C20_extent_enumeration_partial : forall (tie : list Z -> list Z -> Prop) h t recs id,
  (forall a b c, tie a b -> tie b c -> tie a c) -> fs_tree tie h t recs -> 0 <= id < 2 ^ 60 ->
  (forall r, In r recs -> has 8 id r = true -> exists e, extent_rec id r e) ->
  h = O \/ not_below 8 id recs ->
  exists l, fs_extents t id = Ok l /\ Forall2 (extent_rec id) (filter (has 8 id) recs) l /\
    StronglySorted (fun a b => ex_off a < ex_off b) l.
Proof.
  intros tie h t recs id HTR HT Hid HR HB.
  destruct (enumeration read_extent not_first (extent_rec id) tie h t recs 8 id HTR) as (l & E & F); auto.
  - intros. eapply extent_rec_read; eauto.
  - intros. eapply not_first_ok; eauto.
  - exists l. split; [exact E|]. split; [exact F|].
    pose proof (fs_tree_sorted tie HTR h t recs HT) as HS. clear - HS F.
    assert (KO : forall r e, extent_rec id r e -> koff (fst r) = ex_off e).
    { intros r e (fl & HK & _ & Ho & _). rewrite HK. unfold koff, extent_key_bytes.
      rewrite slice_app_r by (rewrite key_head_len; lia). rewrite key_head_len.
      rewrite slice_all by (rewrite le_enc_len; reflexivity). apply le_val_enc. exact Ho. }
    revert l F. induction HS as [|e es H H1 IH]; intros l F; cbn [filter] in F; [inversion F; constructor|].
    destruct (has 8 id e) eqn:HE; [|auto]. inversion F as [|? x ? l' HX HF]; subst. constructor; [auto|].
    apply Forall_forall. intros y Hy. apply in_split in Hy. destruct Hy as (l1 & l2 & ->). apply Forall2_app_inv_r in HF.
    destruct HF as (a & b & _ & Hb & E). inversion Hb as [|r ? b' ? Hr Hrest]; subst.
    assert (I : In r (filter (has 8 id) es)) by (rewrite E; apply in_or_app; right; left; auto). apply filter_In in I. destruct I as (I1 & I2).
    rewrite Forall_forall in H. specialize (H r I1). unfold fs_lt, tie_lt, has in *.
    replace (kty (fst e) =? 3) with false in H by lia. replace (kty (fst e) =? 8) with true in H by lia.
    rewrite <- (KO _ _ HX), <- (KO _ _ Hr). lia.
Qed.
Print Assumptions C20_extent_enumeration_partial.

Theorem C20_extent_enumeration_refuted : exists (tie : list Z -> list Z -> Prop) h t recs id,
  (forall a b c, tie a b -> tie b c -> tie a c) /\ fs_tree tie h t recs /\ 0 <= id < 2 ^ 60 /\
  (forall r, In r recs -> has 8 id r = false) /\ fs_extents t id = Fail.
Proof.
  exists fx_tie, 1%nat, fx, fx_recs, 1. split; [unfold fx_tie; intros; lia|]. split; [exact fx_tree|]. split; [lia|]. split.
  - intros r Hr. assert (E : forallb (fun r => negb (has 8 1 r)) fx_recs = true) by (vm_compute; reflexivity).
    rewrite forallb_forall in E. specialize (E r Hr). destruct (has 8 1 r); [discriminate|reflexivity].
  - vm_compute. reflexivity.
Qed.
Print Assumptions C20_extent_enumeration_refuted.

Example C20_example : fs_extents fx 16 = Ok [mk_ex 0 4096 900 0; mk_ex 4096 8192 950 0].
Proof. vm_compute. reflexivity. Qed.

(* ---- C21 and C54, file system tree ---- *)
Theorem C21_fs_traversals_terminate : forall t q, bytes_image (fs_img t) -> bytes_image (fs_omap t) ->
  ask t q <> Fuel /\ ask t q <> Oob.
Proof.
  intros t q HF HO. pose proof (ask_fine t HF HO q) as F. destruct (ask t q); cbn in F; try contradiction; split; discriminate.
Qed.
Print Assumptions C21_fs_traversals_terminate.
(* A sub node that is its own child. *)
Definition fx_loop_img : device := fun b =>
  if b =? 20 then Some (node_bytes (fx_node true false [(key_head 3 2, le_enc 8 50)]))
  else if b =? 21 then Some (node_bytes (fx_node false false [(key_head 3 2, le_enc 8 50)])) else None.
Definition fx_loop : fs := mk_fs fx_loop_img 20 fx_omap 30 4.
Lemma fs_loop_walk : forall t b {A} (w : walker A),
  match fs_root t, fs_sub t b with
  | Ok (Some m), Ok n => (is_leaf m = false /\ wk_plan w m = [Ok b]) /\ is_leaf n = false /\ wk_plan w n = [Ok b]
  | _, _ => False
  end -> fs_walk t w = Fail.
Proof.
  intros t b A w H. unfold fs_walk. destruct (fs_root t) as [[m|]| | |]; try contradiction.
  destruct (fs_sub t b) as [n| | |] eqn:S; try contradiction. destruct H as ((H1 & H2) & H3 & H4).
  apply (walk_self_loop _ _ _ m n b); auto.
Qed.
Example C21_fs_example : map (ask fx_loop) [QInode 5; QDir 5; QAttrs 5; QExtents 5] = [Fail; Fail; Fail; Fail].
Proof.
  assert (H1 : fs_walk fx_loop (fs_id_walker 5 3) = Fail) by (apply (fs_loop_walk fx_loop 50); vm_compute; auto).
  assert (H2 : fs_walk fx_loop (dir_walker 5) = Fail) by (apply (fs_loop_walk fx_loop 50); vm_compute; auto).
  assert (H3 : fs_walk fx_loop (attr_walker 5) = Fail) by (apply (fs_loop_walk fx_loop 50); vm_compute; auto).
  assert (H4 : fs_walk fx_loop (extent_walker 5) = Fail) by (apply (fs_loop_walk fx_loop 50); vm_compute; auto).
  cbn [map ask]. unfold fs_inode, fs_dir, fs_attrs, fs_extents. rewrite H1, H2, H3, H4. reflexivity.
Qed.

Theorem C54_fs_history_independent : forall t P Q evp evq, bytes_image (fs_img t) -> bytes_image (fs_omap t) ->
  (forall (p : P) l b, incl (snd (evp p l b)) l) -> (forall (q : Q) l b, incl (snd (evq q l b)) l) ->
  forall p q qs, fs_session P Q evp evq t qs ((p, []), (q, [])) = map (ask t) qs.
Proof. intros. apply fs_session_pure; auto. Qed.
Print Assumptions C54_fs_history_independent.
Example C54_fs_example :
  fs_session unit unit (fun p l _ => (p, firstn 1 l)) (fun p l _ => (p, [])) fx [QDir 2; QExtents 16; QDir 1; QDir 2] ((tt, []), (tt, [])) =
  [Ok (ADir [mk_de [97; 0] 0 16 77; mk_de [98; 0] 0 17 77]); Ok (AExtents [mk_ex 0 4096 900 0; mk_ex 4096 8192 950 0]); Fail;
   Ok (ADir [mk_de [97; 0] 0 16 77; mk_de [98; 0] 0 17 77])].
Proof. vm_compute. reflexivity. Qed.
