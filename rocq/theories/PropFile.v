(* C66, C67: open file entries. *)
From Verif Require Import Base BaseLemmas Name NameSpec NameProofs PropName BTreeSpec Walk Omap TreeSpec OmapSpec OmapTop PropOmap RecordsSpec Records FsTree FsSpec FsLookup PropFs
  CryptSpec Crypt DataSpec DataRead DataProofs Compressed CompressedSpec CompressedTop PropCompressed FileEntry FileSpec FileProofs FileTop.
Ltac Zify.zify_post_hook ::= Z.div_mod_to_equations.

(* ---- a file system in one node: directory 2; file 16 of 4100 bytes in two extents; file 17
   whose data is compressed in its attribute; symbolic link 18; file 19 with an attribute whose
   name is a byte order mark and com.apple.decmpfs ---- *)
Definition fy_stored (id : Z) : stored_inode := {|
  st_parent_id := 2; st_private_id := id; st_create_time := 11; st_mod_time := 12; st_change_time := 13; st_access_time := 14;
  st_internal_flags := 0; st_nlink := 1; st_protection_class := 0; st_write_generation := 0; st_bsd_flags := 0;
  st_uid := 501; st_gid := 20; st_mode := 33188; st_pad1 := 0; st_pad2 := 0 |}.
Definition fy_inode (id size : Z) : record :=
  (RecordsSpec.key_head 3 id, inode_value_bytes (fy_stored id) 40 true [(8, 0, le_enc 8 size ++ zeros 32)]).
Definition fy_attr (id : Z) (name v : list Z) : record := (attr_key_bytes id (name ++ [0]), attr_inline_bytes v).
Definition fy_extent (off size block : Z) : record := (extent_key_bytes 16 off, extent_value_bytes 0 size block 0).
Definition fy_bom : list Z := 0xfeff :: decmpfs_name.
Definition fy_raw : list Z := inline_data 3 2 [0xff; 97; 98].
Definition fy_zip : list Z := inline_data 3 1 [120; 156; 75; 4; 0; 0; 98; 0; 98].
Definition fy_recs : list record :=
  [fy_inode 2 0; fy_inode 16 4100; fy_attr 16 [120] [1; 2; 3]; fy_extent 0 4096 900; fy_extent 4096 4096 950;
   fy_inode 17 0; fy_attr 17 decmpfs_name fy_raw; fy_inode 18 0; fy_attr 18 symlink_name [116; 0];
   fy_inode 19 0; fy_attr 19 (utf8 fy_bom) fy_zip].
Definition fy_img : device := fun b => if b =? 20 then Some (node_bytes (fx_node true true fy_recs)) else None.
Definition fy : fs := mk_fs fy_img 20 fx_omap 30 4.
Example fy_tree : fs_tree fx_tie 0 fy fy_recs.
Proof.
  exists 0%nat, fx_orecs. split; [lia|]. split; [exact fx_omap_tree|]. split; [lia|]. split.
  - cbn [subtree]. split.
    + exists 20. split; [reflexivity|]. split; [lia|]. exists (fx_node true true fy_recs). split; [reflexivity|].
      assert (L : len (node_bytes (fx_node true true fy_recs)) = 4096) by (vm_compute; reflexivity).
      assert (LF : (0 <? len (nd_free (fx_node true true fy_recs)) + len (values_area (nd_recs (fx_node true true fy_recs)))) = true) by (vm_compute; reflexivity).
      split; [|split; [exact L|]].
      * unfold node_ok. rewrite L. unfold nd_fixed. change (nd_flags (fx_node true true fy_recs)) with 3.
        change (Z.testbit 3 2) with false. split; [reflexivity|]. cbn [nd_type nd_subtype nd_level nd_lists nd_footer fx_node].
        split; [lia|]. split; [lia|]. split; [lia|]. split; [lia|]. split; [reflexivity|].
        split; [reflexivity|]. split; [lia|]. split; [vm_compute; auto|]. discriminate.
      * split; [discriminate|]. split; [lia|]. split; [cbn; auto|]. split; [reflexivity|].
        split; [reflexivity|]. split; [reflexivity|]. split; [reflexivity|]. split; [reflexivity|reflexivity].
    + unfold fy_recs. fs_sorted.
  - unfold fy_recs. repeat (apply Forall_cons || apply Forall_nil); apply fs_rec_ok_dec; vm_compute; reflexivity.
Qed.
Definition fy_content (o : Z) : Z := o mod 251.
Definition fy_dev : device := fun b =>
  if b =? 900 then Some (window fy_content 0 4096) else if b =? 950 then Some (window fy_content 4096 4096) else None.
Definition fy_value (r : record) : inode := match inode_value (snd r) with Ok i => i | _ => Build_inode 0 0 0 0 0 0 0 0 0 0 0 None 0 0 end.
Definition fy_entry (id size : Z) : fentry := mk_fe fy fy_dev None id (fy_value (fy_inode id size)) None.

(* C66. The calls on an open file entry, in any number and order, give what the file is: its
   size, its bytes wherever and however they are read, its extents, its number of attributes and
   its link target. This holds for files stored as they are, encrypted, or compressed with DEFLATE
   or LZVN in the attribute or the resource fork. *)
Theorem C66_file_entry_partial : forall (tie : list Z -> list Z -> Prop) h t recs dev ctx block lzvn junk id i rec r l f cs,
  (forall a b c, tie a b -> tie b c -> tie a c) -> fs_tree tie h t recs -> 0 <= id < 2 ^ 60 -> In r recs -> has 3 id r = true ->
  volume_data dev ctx block -> (forall d s, len (junk d s) = len s) -> is_file lzvn block recs id i l f ->
  exists st, entry_calls lzvn junk (mk_fe t dev ctx id i rec) cs f_init = Ok (file_steps f 0 cs, st).
Proof.
  intros tie h t recs dev ctx block lzvn junk id i rec r l f cs H1 H2 H3 H4 H5 H6 H7 H8.
  destruct (file_entry_ok tie h t recs dev ctx block lzvn junk id i rec r l f cs H1 H2 H3 H4 H5 H6 H7 H8) as (st & E & _). eauto.
Qed.
Print Assumptions C66_file_entry_partial.

(* The files 17 and 16 meet the conditions. *)
Definition answers (r : res (list fanswer * fstate)) : option (list fanswer) := match r with Ok (l, _) => Some l | _ => None end.
Lemma answers_some r l : answers r = Some l -> exists st, r = Ok (l, st).
Proof. destruct r as [(x & st)| | |]; cbn [answers]; try discriminate. intros E. injection E as ->. eauto. Qed.
Definition fy_calls : list fcall := [CRead 1; CSize; COffset; CRead 5; CSeek (-1) 2; CRead 5; CReadAt 0 5; CReadAt (-1) 5; CAttrs; CExtents; CLink].
Example C66_example_compressed : answers (entry_calls no_lzvn no_junk (fy_entry 17 0) fy_calls f_init) =
  Some [RBytes [97]; RSize 2; RPos 1; RBytes [98]; RPos 1; RBytes [98]; RBytes [97; 98]; RError; RCount 1; RCount 0; RLink None].
Proof. vm_compute. reflexivity. Qed.
Lemma fy_ascii n : forallb (fun c => (0 <? c) && (c <? 0x80)) n = true -> file_name n /\ spells n (n ++ [0]) /\ hd 0 n <> 0xfeff.
Proof.
  intros H. destruct (ascii_name n H) as (F & _). split; [exact F|]. split.
  - right. f_equal. clear F. induction n as [|c n IH]; [reflexivity|]. cbn [forallb] in H. apply andb_true_iff in H. destruct H as (H0 & H).
    unfold utf8. cbn [map concat]. fold (utf8 n). rewrite <- (IH H). unfold utf8_char. replace (c <? 0x80) with true by lia. reflexivity.
  - destruct n as [|c n]; cbn [hd]; [lia|]. cbn [forallb] in H. apply andb_true_iff in H. lia.
Qed.
Lemma fy_attr_rec id n v : 1 <= len v < 2 ^ 16 -> len n < 1000 -> attr_rec id (fy_attr id n v) (mk_at (n ++ [0]) 2 (AInline v)).
Proof.
  intros Hv Hn. unfold attr_rec, fy_attr. cbn [fst snd at_name at_flags at_data]. rewrite len_app. pose proof (len_nonneg n). change (len [0]) with 1.
  split; [reflexivity|]. split; [lia|]. split; [lia|]. repeat split; try lia.
Qed.
Example C66_instance_compressed :
  is_file no_lzvn (plain_block fy_dev) fy_recs 17 (fy_value (fy_inode 17 0)) [(mk_at (decmpfs_name ++ [0]) 2 (AInline fy_raw), decmpfs_name)]
    (mk_file [97; 98] [] 1 None).
Proof.
  split; [|split; [|split; [|split; [constructor|split; [reflexivity|reflexivity]]]]].
  - split; [|repeat constructor; intros []].
    assert (E : filter (has 4 17) fy_recs = [fy_attr 17 decmpfs_name fy_raw]) by (vm_compute; reflexivity).
    rewrite E. constructor; [|constructor]. cbn [fst snd]. split; [apply fy_attr_rec; [split; [|reflexivity]; vm_compute; discriminate|reflexivity]|].
    apply (fy_ascii decmpfs_name). reflexivity.
  - right. apply (pf_inline _ _ _ _ (mk_at (decmpfs_name ++ [0]) 2 (AInline fy_raw)) 3 [0xff; 97; 98] [97; 98]).
    + reflexivity.
    + reflexivity.
    + repeat constructor; unfold is_byte; lia.
    + vm_compute. discriminate.
    + vm_compute. split; discriminate.
    + left. split; [reflexivity|]. left. reflexivity.
  - split; [vm_compute; split; [discriminate|reflexivity]|]. split.
    + exists (fy_inode 16 4100). split; [right; left; reflexivity|]. left. vm_compute. reflexivity.
    + assert (E : filter (has 8 (in_stream (fy_value (fy_inode 17 0)))) fy_recs = []) by (vm_compute; reflexivity). rewrite E. constructor.
Qed.

Lemma fy_extent_rec off size b : 0 <= off < 2 ^ 64 -> 0 <= size < 2 ^ 56 -> 0 <= b < 2 ^ 64 -> extent_rec 16 (fy_extent off size b) (mk_ex off size b 0).
Proof. intros H1 H2 H3. exists 0. cbn [fy_extent fst snd ex_off ex_size ex_block ex_crypto]. repeat split; lia. Qed.
Example C66_instance_plain :
  is_file no_lzvn (plain_block fy_dev) fy_recs 16 (fy_value (fy_inode 16 4100)) [(mk_at [120; 0] 2 (AInline [1; 2; 3]), [120])]
    (mk_file (window fy_content 0 4100) [mk_ex 0 4096 900 0; mk_ex 4096 4096 950 0] 1 None).
Proof.
  assert (X : extents_of fy_recs 16 [mk_ex 0 4096 900 0; mk_ex 4096 4096 950 0]).
  { split; [lia|]. split.
    - exists (fy_inode 16 4100). split; [right; left; reflexivity|]. right. vm_compute. split; [reflexivity|discriminate].
    - assert (E : filter (has 8 16) fy_recs = [fy_extent 0 4096 900; fy_extent 4096 4096 950]) by (vm_compute; reflexivity). rewrite E.
      constructor; [apply fy_extent_rec; lia|]. constructor; [apply fy_extent_rec; lia|constructor]. }
  assert (ES : in_stream (fy_value (fy_inode 16 4100)) = 16) by (vm_compute; reflexivity).
  split; [|split; [|split; [|split; [|split; [reflexivity|reflexivity]]]]]; cbn [fl_extents fl_data].
  - split; [|repeat constructor; intros []].
    assert (E : filter (has 4 16) fy_recs = [fy_attr 16 [120] [1; 2; 3]]) by (vm_compute; reflexivity).
    rewrite E. constructor; [|constructor]. cbn [fst snd]. split; [apply (fy_attr_rec 16 [120] [1; 2; 3]); [split; [|reflexivity]; vm_compute; discriminate|reflexivity]|].
    apply (fy_ascii [120]). reflexivity.
  - left. split; [left; reflexivity|]. rewrite window_len by lia. split; [vm_compute; reflexivity|].
    exists [mk_ex 0 4096 900 0; mk_ex 4096 4096 950 0], fy_content. rewrite ES. rewrite window_len by lia.
    split; [exact X|]. split; [cbn [contiguous ex_off ex_size]; repeat split; lia|]. split; [cbn [total fold_right ex_size]; lia|].
    split; [repeat constructor; cbn [ex_block ex_size]; lia|]. split; [|reflexivity].
    intros e k [<-|[<-|[]]] Hk; cbn [ex_size ex_block ex_off] in *; replace (Z.testbit (in_flags (fy_value (fy_inode 16 4100))) 9) with false by (vm_compute; reflexivity); cbn [andb].
    + assert (k = 0) as -> by lia. split; [reflexivity|]. unfold len. rewrite map_length, seq_length. lia.
    + assert (k = 0) as -> by lia. split; [reflexivity|]. unfold len. rewrite map_length, seq_length. lia.
  - rewrite ES. exact X.
  - repeat constructor; cbn [ex_block]; lia.
Qed.
Example C66_example_plain : answers (entry_calls no_lzvn no_junk (fy_entry 16 4100)
    [CSize; CSeek (-6) 2; CRead 100; COffset; CSeek (-2) 1; CRead 1; CReadAt 4094 4; CReadAt 5000 1; CRead 3; CSeek (-1) 0; COffset; CExtents; CExtent 1; CExtent 2] f_init) =
  Some [RSize 4100; RPos 4094; RBytes [78; 79; 80; 81; 82; 83]; RPos 4100; RPos 4098; RBytes [82]; RBytes [78; 79; 80; 81]; RBytes []; RBytes []; RError;
    RPos 5000; RCount 2; RExtent (950 * 4096) 4096; RError].
Proof. vm_compute. reflexivity. Qed.
Example C66_example_link : answers (entry_calls no_lzvn no_junk (fy_entry 18 0) [CLink; CSize; CLink; CRead 4] f_init) =
  Some [RLink (Some [116; 0]); RSize 0; RLink (Some [116; 0]); RBytes []].
Proof. vm_compute. reflexivity. Qed.

(* The full statement is false. An attribute whose name is a byte order mark followed by
   com.apple.decmpfs is another attribute, but a file with it is read as a compressed file. *)
Theorem C66_file_entry_refuted : exists (tie : list Z -> list Z -> Prop) h t recs dev id r i a s st,
  (forall a b c, tie a b -> tie b c -> tie a c) /\ fs_tree tie h t recs /\ In r recs /\ has 3 id r = true /\ inode_value (snd r) = Ok i /\
  in_size i = 0 /\ (forall r, In r recs -> has 8 (in_stream i) r = false) /\
  (exists ra, filter (has 4 id) recs = [ra] /\ attr_rec id ra a) /\ file_name s /\ spells s (at_name a) /\ s <> decmpfs_name /\
  entry_calls no_lzvn no_junk (mk_fe t dev None id i None) [CSize; CRead 5] f_init = Ok ([RSize 1; RBytes [97]], st).
Proof.
  exists fx_tie, 0%nat, fy, fy_recs, fy_dev, 19, (fy_inode 19 0), (fy_value (fy_inode 19 0)), (mk_at (utf8 fy_bom ++ [0]) 2 (AInline fy_zip)), fy_bom.
  assert (X : exists st, entry_calls no_lzvn no_junk (mk_fe fy fy_dev None 19 (fy_value (fy_inode 19 0)) None) [CSize; CRead 5] f_init = Ok ([RSize 1; RBytes [97]], st)).
  { apply answers_some. vm_compute. reflexivity. }
  destruct X as (st & X). exists st. split; [unfold fx_tie; intros; lia|]. split; [exact fy_tree|]. split; [unfold fy_recs; do 9 right; left; reflexivity|].
  split; [vm_compute; reflexivity|]. split; [vm_compute; reflexivity|]. split; [vm_compute; reflexivity|]. split.
  { intros r Hr. assert (E : forallb (fun r => negb (has 8 (in_stream (fy_value (fy_inode 19 0))) r)) fy_recs = true) by (vm_compute; reflexivity).
    rewrite forallb_forall in E. specialize (E r Hr). destruct (has 8 (in_stream (fy_value (fy_inode 19 0))) r); [discriminate|reflexivity]. }
  split; [exists (fy_attr 19 (utf8 fy_bom) fy_zip); split; [vm_compute; reflexivity|apply fy_attr_rec; [split; [|reflexivity]; vm_compute; discriminate|reflexivity]]|].
  split; [|split; [right; reflexivity|split; [discriminate|exact X]]].
  assert (F : forallb (fun c => (0 <? c) && (c <? 0xffff) && negb ((0xd800 <=? c) && (c <=? 0xdfff))) fy_bom = true) by reflexivity.
  rewrite forallb_forall in F. apply Forall_forall. intros c I. apply F in I. unfold scalar. lia.
Qed.
Print Assumptions C66_file_entry_refuted.

(* C67. Extended attributes: found by name, in UTF-8 and UTF-16, and by index, after any calls on
   the entry; and their size and bytes. *)
Theorem C67_extended_attributes_partial : forall (tie : list Z -> list Z -> Prop) h t recs dev ctx block lzvn junk id i rec r l f cs answers st,
  (forall a b c, tie a b -> tie b c -> tie a c) -> fs_tree tie h t recs -> 0 <= id < 2 ^ 60 -> In r recs -> has 3 id r = true ->
  volume_data dev ctx block -> (forall d s, len (junk d s) = len s) -> is_file lzvn block recs id i l f ->
  let e := mk_fe t dev ctx id i rec in
  entry_calls lzvn junk e cs f_init = Ok (answers, st) ->
  (forall s str, file_name s -> spells s str -> fst (entry_attr_by_name e utf8_next str st) = Ok (attr_named s l)) /\
  (forall s str, file_name s -> str = utf16 s \/ str = utf16 s ++ [0] -> fst (entry_attr_by_name e utf16_next str st) = Ok (attr_named s l)) /\
  (forall j, fst (entry_attr e j st) = match nth_error l (Z.to_nat j) with Some p => if 0 <=? j then Ok (fst p) else Fail | None => Fail end) /\
  (forall p v, In p l -> attr_holds block recs (fst p) v -> attr_size (fst p) = len v /\
     exists s, attr_stream e (fst p) = Ok (Some s) /\
     forall off n, 0 <= off -> 0 <= n <= 2 ^ 63 - 1 -> DataRead.stream_read s off n = Ok (slice v off (Z.min n (len v - off)))).
Proof.
  intros tie h t recs dev ctx block lzvn junk id i rec r l f cs an st H1 H2 H3 H4 H5 H6 H7 H8 e E.
  destruct (file_entry_ok tie h t recs dev ctx block lzvn junk id i rec r l f cs H1 H2 H3 H4 H5 H6 H7 H8) as (st0 & E0 & st' & G).
  fold e in E0, G. rewrite E in E0. injection E0 as -> ->.
  destruct H8 as (HA & _). destruct (attributes_read tie h t recs id l r H1 H2 H3 H4 H5 HA) as (EA & HW & HR).
  split; [|split; [|split]].
  - intros s str Hs Ss. unfold entry_attr_by_name. rewrite (bindM_ok _ _ _ _ _ G). cbn [retM fst fa_all]. unfold retM. cbn [fst].
    destruct (file_name_strip s str Hs Ss) as (ES & FS). apply by_name_ok; [exact Hs| |exact HW]. rewrite ES. apply utf8_decodes, FS.
  - intros s str Hs Ss. unfold entry_attr_by_name. rewrite (bindM_ok _ _ _ _ _ G). cbn [fa_all]. unfold retM. cbn [fst].
    assert (FS : Forall scalar s) by (eapply Forall_impl; [|exact Hs]; cbn; tauto).
    apply by_name_ok; [exact Hs| |exact HW]. assert (ES : strip str = utf16 s); [|rewrite ES; apply utf16_decodes, FS].
    destruct Ss as [->| ->]; [|apply strip_snoc]. rewrite strip_utf16 by exact FS. f_equal.
    destruct s as [|c s IHs] using rev_ind; [reflexivity|]. apply strip_not. apply Forall_app in Hs. destruct Hs as [_ Hs]. apply Forall_inv in Hs. apply Hs.
  - intros j. unfold entry_attr. rewrite (bindM_ok _ _ _ _ _ G). cbn [fa_all]. unfold retM. cbn [fst]. rewrite len_map.
    destruct (nth_error l (Z.to_nat j)) as [p|] eqn:N.
    + assert (LT : (Z.to_nat j < length l)%nat) by (apply nth_error_Some; rewrite N; discriminate). destruct (0 <=? j) eqn:CJ; cbn [andb]; [|reflexivity].
      unfold len. replace (j <? Z.of_nat (length l)) with true by lia. unfold getb, len. rewrite map_length. replace ((0 <=? j) && (j <? Z.of_nat (length l))) with true by lia.
      rewrite nth_error_map, N. reflexivity.
    + apply nth_error_None in N. unfold len. replace ((0 <=? j) && (j <? Z.of_nat (length l))) with false by lia. reflexivity.
  - intros p v Ip HH. destruct (HR p Ip) as (ra & RA). apply faithful_volume in H6.
    destruct (attr_stream_ok tie h t recs H1 H2 dev ctx block H6 id i rec ra (fst p) v RA HH) as (Z1 & s & Z2 & Z3 & Z4). split; [exact Z1|].
    exists s. split; [exact Z2|]. intros off n Ho Hn. rewrite Z4. unfold Compressed.stream_read.
    replace ((0 <=? off) && (0 <=? n) && (n <=? 2 ^ 63 - 1)) with true by lia. reflexivity.
Qed.
Print Assumptions C67_extended_attributes_partial.
Example C67_example : fst (entry_attr_by_name (fy_entry 16 4100) utf16_next [120; 0] f_init) = Ok (Some (mk_at [120; 0] 2 (AInline [1; 2; 3]))) /\
  fst (entry_attr_by_name (fy_entry 16 4100) utf8_next [120; 121] f_init) = Ok None.
Proof. vm_compute. auto. Qed.

(* The full statement is false: an attribute is found by a name that is not its name, and not
   found by its name. *)
Theorem C67_extended_attributes_refuted : exists (tie : list Z -> list Z -> Prop) h t recs dev id i a s s',
  (forall a b c, tie a b -> tie b c -> tie a c) /\ fs_tree tie h t recs /\ (exists ra, filter (has 4 id) recs = [ra] /\ attr_rec id ra a) /\
  file_name s /\ file_name s' /\ spells s (at_name a) /\ s <> s' /\
  fst (entry_attr_by_name (mk_fe t dev None id i None) utf8_next (utf8 s') f_init) = Ok (Some a) /\
  fst (entry_attr_by_name (mk_fe t dev None id i None) utf8_next (utf8 s) f_init) = Ok None.
Proof.
  exists fx_tie, 0%nat, fy, fy_recs, fy_dev, 19, (fy_value (fy_inode 19 0)), (mk_at (utf8 fy_bom ++ [0]) 2 (AInline fy_zip)), fy_bom, decmpfs_name.
  split; [unfold fx_tie; intros; lia|]. split; [exact fy_tree|].
  split; [exists (fy_attr 19 (utf8 fy_bom) fy_zip); split; [vm_compute; reflexivity|apply fy_attr_rec; [split; [|reflexivity]; vm_compute; discriminate|reflexivity]]|].
  split; [|split; [apply fy_ascii; reflexivity|split; [right; reflexivity|split; [discriminate|split; vm_compute; reflexivity]]]].
  assert (F : forallb (fun c => (0 <? c) && (c <? 0xffff) && negb ((0xd800 <=? c) && (c <=? 0xdfff))) fy_bom = true) by reflexivity.
  rewrite forallb_forall in F. apply Forall_forall. intros c I. apply F in I. unfold scalar. lia.
Qed.
Print Assumptions C67_extended_attributes_refuted.
