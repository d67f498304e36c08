(* C73: the full statement is false, for paths of one character (C23). *)
From Coq Require Import Lia.
From Verif Require Import Base BaseLemmas Checksum Checksummed BTree BTreeSpec BTreeProofs Walk WalkProofs TreeSpec Omap OmapProofs OmapSpec OmapTop PropOmap Records RecordsSpec FsTree FsSpec FsProofs FsLookup PropFs Name NameSpec NameProofs PropName FsName FsNameSpec FsNameProofs PropFsName PropCompressed FileEntry FileSpec FileTop PropFile EntryName EntrySpec PropEntry
  Crypt CryptSpec CryptProofs PropCrypt KeyBag KeyBagSpec Volume VolumeSpec PropVolume Container ContainerSpec ContainerProofs ContainerTop PropContainer DataRead DataSpec DataProofs DataSplit PropData Snapshot SnapSpec SnapProofs VolumeSuper VSuperSpec VSuperProofs PropVSuper Session SessionSpec SessionProofs PropSession EndSpec EndProofs PropEnd.

Lemma short_path t next fold id x str : fs_inode t id = Ok (Some x) -> len str = 1 -> fs_by_path t next fold id str = Ok (Some (x, None)).
Proof.
  intros H L. unfold fs_by_path, inode_by_path. rewrite bind_fst. cbn [retM fst].
  unfold fs_inode, fs_walk in H. destruct (fs_root t) as [[n|]| | |]; [|unfold walk, bindM, retM in H; cbn in H; discriminate..].
  cbn [bind]. rewrite bind_fst. replace ((len str =? 0) || (len str =? 1)) with true by lia. cbn [retM fst bind]. rewrite bind_fst. unfold FsName.entry_of.
  destruct (fst (walk (retM (Ok (Some n))) (pure (fs_sub t)) (fs_id_walker id 3) tt)) as [[e|]| | |]; cbn [bind inode_finish] in H; try discriminate.
  cbn [bind retM fst]. destruct (read_inode e) as [v| | |]; cbn [bind] in *; congruence.
Qed.
Lemma we_empty : is_file no_lzvn (plain_block we_dev) we_recs 17 (fy_value (fy_inode 17 0)) [] (mk_file [] [] 0 None).
Proof.
  assert (X : extents_of we_recs 17 []).
  { split; [lia|]. split.
    - exists (fy_inode 16 4100). split; [do 3 right; left; reflexivity|]. left. vm_compute. reflexivity.
    - assert (E : filter (has 8 17) we_recs = []) by (vm_compute; reflexivity). rewrite E. constructor. }
  assert (ES : in_stream (fy_value (fy_inode 17 0)) = 17) by (vm_compute; reflexivity).
  split; [|split; [|split; [|split; [|split; [reflexivity|reflexivity]]]]]; cbn [fl_extents fl_data].
  - split; [|constructor]. assert (E : filter (has 4 17) we_recs = []) by (vm_compute; reflexivity). rewrite E. constructor.
  - left. split; [left; reflexivity|]. split; [vm_compute; reflexivity|].
    exists [], (fun _ => 0). rewrite ES. split; [exact X|]. split; [exact Logic.I|]. split; [vm_compute; split; [discriminate|reflexivity]|]. split; [constructor|]. split; [intros e k []|reflexivity].
  - rewrite ES. exact X.
  - constructor.
Qed.
(* "e" is the path of a file of the device of the example; looking it up gives the root directory,
   in both encodings. *)
Theorem C73_short_path_refuted : exists dev b d v n hashed v2 p id rec i l f, forall enc dec sha hmac xenc xts unkeyed, primitives enc dec sha hmac -> (forall k1 k2, unit_cipher 512 (xenc k1 k2) (xts k1 k2)) ->
  volume_stored enc sha hmac xenc fx_tie dev b d v None None n /\ directories fx_tie hashed (Z.testbit (num (vn_super n) 56 8) 0) (vn_recs n) /\ inode_is (vn_recs n) 2 (Some v2) /\
  file_name p /\ leads hashed (Z.testbit (num (vn_super n) 56 8) 0) (vn_recs n) 2 None (components p) id rec /\ inode_is (vn_recs n) id (Some i) /\
  is_file no_lzvn (file_block (data_cipher xenc (vn_key n)) dev) (vn_recs n) id i l f /\ id <> 2 /\
  exists c od ov, open (fun id => xts id id) dev = Ok c /\ volume_by_index dev c (Z.of_nat v) = Ok od /\ volume_open (fun id => xts id id) dev (c_size c) (c_bag c) (od_address od) = Ok ov /\
    forall u : bool, exists h, vrun unit unit keep keep dec sha hmac xts unkeyed dev ov (bags_of c ov) (fresh unit unit ov tt tt)
      [VState (SetUser None); VState (SetRecovery None); VPath u (if u then utf16 p else utf8 p) (zeros 32) (zeros 32)] =
      Ok ([AInt (-1); AInt (-1); AEntry (Some (2, v2, None))], h).
Proof.
  exists we_dev, 0, sb5, 1%nat, we, false, (fy_value (fy_inode 2 0)), [101], 17, (Some (fz_rec [101] 17)), (fy_value (fy_inode 17 0)), [], (mk_file [] [] 0 None).
  intros enc dec sha hmac xenc xts unkeyed HP HX. destruct we_fields as (_ & _ & _ & _ & F5). cbn [we vn_super vn_recs vn_key]. rewrite F5. change (Z.testbit 9 0) with true.
  assert (I2 : inode_is we_recs 2 (Some (fy_value (fy_inode 2 0)))) by (apply we_inode; [left; reflexivity|vm_compute; reflexivity|lia|vm_compute; reflexivity]).
  assert (HT : forall a b c, fx_tie a b -> fx_tie b c -> fx_tie a c) by (unfold fx_tie; lia).
  pose proof (we_stored enc sha hmac xenc) as HV.
  split; [exact HV|]. split; [exact we_directories|]. split; [exact I2|]. split; [apply fy_ascii; reflexivity|].
  split. { change (components [101]) with [[101]]. apply (leads_down _ _ _ _ _ _ _ (fz_child 2 [101] 17) (fz_rec [101] 17) [101]); [|discriminate|reflexivity|reflexivity|apply leads_here].
    apply we_is_named; try reflexivity; try lia; [unfold we_recs; cbn [In]; tauto|vm_compute; split; discriminate]. }
  split; [apply we_inode; [do 7 right; left; reflexivity|vm_compute; reflexivity|lia|vm_compute; reflexivity]|].
  split; [exact we_empty|]. split; [lia|].
  destruct (container_volume enc sha hmac xenc xts HX fx_tie HT we_dev 0 sb5 1 None None we HV) as (c & od & E1 & E2 & E3 & E4).
  destruct (tree_found enc sha hmac xenc xts HX fx_tie HT we_dev 0 sb5 1 None None we HV) as (TF & h0 & FT).
  exists c, od, (open_of we_dev we). split; [exact E1|]. split; [exact E2|]. split; [exact E3|]. intros u.
  pose proof (inode_found fx_tie h0 _ we_recs 2 _ HT FT I2) as IF.
  destruct (lookup_stored enc dec sha hmac HP xenc xts HX unit unit keep keep ltac:(intros p l b; apply incl_refl) ltac:(intros q l b; apply incl_refl) unkeyed fx_tie HT we_dev 0 sb5 1 None None we HV c tt tt u
    (if u then utf16 [101] else utf8 [101]) (zeros 32) (zeros 32) (Some (2, fy_value (fy_inode 2 0), None)) E4 (zeros_len 32 ltac:(lia)) (zeros_len 32 ltac:(lia))) as (h & EV & _).
  - apply short_path; [exact IF|destruct u; reflexivity].
  - exists h. exact EV.
Qed.
Print Assumptions C73_short_path_refuted.
