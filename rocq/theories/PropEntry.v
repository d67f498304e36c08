(* C68 to C70: directories, the names of file entries, parents. *)
From Verif Require Import Base BaseLemmas Name NameSpec NameProofs PropName BTreeSpec Walk Omap TreeSpec OmapSpec OmapTop PropOmap RecordsSpec Records RecordsProofs FsTree FsSpec FsProofs FsTop FsLookup PropFs
  FsNameSpec FsName FsNameProofs FsNameTop PropFsName SnapSpec Snapshot SnapProofs DataRead DataProofs FileEntry FileSpec FileProofs FileTop PropFile EntryName EntrySpec.
Ltac Zify.zify_post_hook ::= Z.div_mod_to_equations.

Lemma name_text s name : file_name s -> spells s name -> hd 0 s <> 0xfeff -> stream_text name (len name) = Ok s.
Proof.
  intros F S H. assert (U : unmark s = s) by (destruct s as [|c s]; [reflexivity|]; cbn [hd] in H; cbn [unmark]; replace (c =? 0xfeff) with false by lia; reflexivity).
  assert (X : exists tail, name = utf8 s ++ tail /\ ends (len name) (len (utf8 s)) tail).
  { destruct S as [->| ->].
    - exists []. rewrite app_nil_r. split; [reflexivity|]. right. reflexivity.
    - exists [0]. split; [reflexivity|]. left. split; [rewrite len_app; change (len [0]) with 1; lia|]. eauto. }
  destruct X as (tail & EN & HE).
  destruct (len name <? 3) eqn:C.
  - unfold stream_text. rewrite C. cbn [bind]. rewrite EN in *. apply (stream_points_text (len (utf8 s ++ tail)) s [] tail); [exact F|exact HE|].
    change (len []) with 0. pose proof (len_nonneg (utf8 s ++ tail)). lia.
  - rewrite EN in *. rewrite stream_text_ok; [congruence|exact F|lia|exact HE].
Qed.

Lemma inode_found (tie : list Z -> list Z -> Prop) h t recs id v : (forall a b c, tie a b -> tie b c -> tie a c) -> fs_tree tie h t recs -> inode_is recs id v ->
  fs_inode t id = Ok (match v with Some i => Some (id, i) | None => None end).
Proof.
  intros HT HF (Hid & HV). destruct (C17_inode_by_identifier_partial tie h t recs id HT HF Hid) as (C1 & C2). destruct v as [i|].
  - destruct HV as (r & R1 & R2 & R3). rewrite (C1 r R1 R2), R3. reflexivity.
  - apply C2, HV.
Qed.

Section Directory.
  Variable tie : list Z -> list Z -> Prop.
  Variables (h : nat) (t : fs) (recs : list record) (dev : device) (ctx : option (list Z -> list Z -> list Z)) (id : Z) (i : inode) (rec : option dentry) (ri : record) (l : list (dentry * list Z)).
  Hypothesis tie_trans : forall a b c, tie a b -> tie b c -> tie a c.
  Hypothesis HT : fs_tree tie h t recs.
  Hypothesis Hid : 0 <= id < 2 ^ 60.
  Hypothesis HI : In ri recs.
  Hypothesis HH : has 3 id ri = true.
  Hypothesis HL : entries recs id l.
  Hypothesis HV : forall p, In p l -> exists v, inode_is recs (de_inode (fst p)) v.
  Notation e := (mk_fe t dev ctx id i rec).

  Lemma dir_listed : fs_dir t id = Ok (map fst l).
  Proof.
    destruct (C18_directory_enumeration_partial tie h t recs id tie_trans HT Hid) as (m & E & F).
    - intros r Hr H9. assert (I : In r (filter (has 9 id) recs)) by (apply filter_In; auto). apply in_split in I. destruct I as (a & b & EQ).
      unfold entries in HL. rewrite EQ in HL. apply Forall2_app_inv_l in HL. destruct HL as (m1 & m2 & _ & M2 & _). inversion M2 as [|x p y q HP]; subst. exists (fst p). apply HP.
    - right. exists ri. split; [exact HI|]. unfold has in HH. right. lia.
    - rewrite E. f_equal. apply (forall2_fun read_dentry (dir_rec id)) with (l := filter (has 9 id) recs); [intros; eapply dir_rec_read; eauto|exact F|].
      unfold entries in HL. clear - HL. induction HL as [|r p rs ps (HP & _) F IH]; cbn [map]; constructor; auto.
  Qed.
  Lemma get_dir_ok st : f_dir st = None \/ f_dir st = Some (map fst l) -> exists st', get_dir e st = (Ok (map fst l), st') /\ f_dir st' = Some (map fst l).
  Proof.
    intros [N|S]; unfold get_dir; [rewrite N|rewrite S; eauto]. unfold fe_tree, fe_id. rewrite (onM_ok _ _ _ _ dir_listed). eexists. split; reflexivity.
  Qed.
  Lemma entry_sub_ok j st : f_dir st = None \/ f_dir st = Some (map fst l) -> exists a st', dir_call e (DSub j) st = Ok (a, st') /\ f_dir st' = Some (map fst l) /\ directory_gives t dev ctx recs l (DSub j) a.
  Proof.
    intros HS. destruct (get_dir_ok st HS) as (st' & G & D). cbn [dir_call]. unfold entry_sub. rewrite (bindM_ok _ _ _ _ _ G). unfold retM. rewrite len_map.
    destruct ((0 <=? j) && (j <? len l)) eqn:C.
    - destruct (getb_in (map fst l) j ltac:(rewrite len_map; lia)) as (d & -> & N). rewrite nth_error_map in N. destruct (nth_error l (Z.to_nat j)) as [(d' & s)|] eqn:EN; cbn [option_map] in N; [|discriminate].
      injection N as <-. cbn [bind fst]. destruct (HV (d', s) (nth_error_In _ _ EN)) as (v & HV1). cbn [fst] in HV1. cbn [fe_tree fe_img fe_ctx].
      rewrite (inode_found tie h t recs _ v tie_trans HT HV1). cbn [bind]. destruct v as [v|].
      + eexists _, _. split; [reflexivity|]. split; [exact D|]. eapply gives_entry; eauto. lia.
      + eexists _, _. split; [reflexivity|]. split; [exact D|]. eapply gives_no_inode; eauto. lia.
    - eexists _, _. split; [reflexivity|]. split; [exact D|]. apply gives_no_entry. lia.
  Qed.
  Lemma dir_calls_ok : forall cs st, f_dir st = None \/ f_dir st = Some (map fst l) -> exists as_, dir_calls e cs st = Ok as_ /\ Forall2 (directory_gives t dev ctx recs l) cs as_.
  Proof.
    induction cs as [|c cs IH]; intros st HS; [exists []; split; [reflexivity|constructor]|].
    assert (X : exists a st', dir_call e c st = Ok (a, st') /\ f_dir st' = Some (map fst l) /\ directory_gives t dev ctx recs l c a).
    { destruct c as [|j]; [|apply entry_sub_ok, HS]. destruct (get_dir_ok st HS) as (st' & G & D). cbn [dir_call]. unfold entry_subs. rewrite (bindM_ok _ _ _ _ _ G). unfold retM. rewrite len_map.
      eexists _, _. split; [reflexivity|]. split; [exact D|constructor]. }
    destruct X as (a & st' & E1 & E2 & E3). destruct (IH st' (or_intror E2)) as (as_ & E4 & E5). exists (a :: as_). cbn [dir_calls]. rewrite E1. cbn [bind]. rewrite E4.
    split; [reflexivity|]. constructor; assumption.
  Qed.
End Directory.

Lemma entry_name_ok s x : entry_text x = Ok s -> (forall enc, entry_name_size enc x = Ok (len (enc s) + 1)) /\ (forall enc size, entry_name enc x size = string_of enc s size).
Proof.
  intros E. unfold entry_name_size, entry_name, string_of. rewrite E. cbn [bind]. split; [reflexivity|]. intros enc size.
  destruct (len (enc s) <? size) eqn:C; [rewrite check_true by lia; reflexivity|]. unfold check. replace (len (enc s) + 1 <=? size) with false by lia. reflexivity.
Qed.

(* C68. The calls on an open directory, in any number and order: the number of entries, and the
   entries in the order of their records; the names of the entries in UTF-8 and UTF-16. *)
Theorem C68_directory_partial : forall (tie : list Z -> list Z -> Prop) h t recs dev ctx id i rec ri l st cs,
  (forall a b c, tie a b -> tie b c -> tie a c) -> fs_tree tie h t recs -> 0 <= id < 2 ^ 60 -> In ri recs -> has 3 id ri = true ->
  entries recs id l -> (forall p, In p l -> exists v, inode_is recs (de_inode (fst p)) v) -> f_dir st = None ->
  (exists answers, dir_calls (mk_fe t dev ctx id i rec) cs st = Ok answers /\ Forall2 (directory_gives t dev ctx recs l) cs answers) /\
  (forall p x, In p l -> fe_rec x = Some (fst p) ->
     (forall enc, entry_name_size enc x = Ok (len (enc (snd p)) + 1)) /\ (forall enc size, entry_name enc x size = string_of enc (snd p) size)).
Proof.
  intros tie h t recs dev ctx id i rec ri l st cs H1 H2 H3 H4 H5 H6 H7 H8. split.
  - exact (dir_calls_ok tie h t recs dev ctx id i rec ri l H1 H2 H3 H4 H5 H6 H7 cs st (or_introl H8)).
  - intros p x Ip Ex. apply entry_name_ok. unfold entry_text. rewrite Ex.
    assert (F : Forall (fun p => file_name (snd p) /\ spells (snd p) (de_name (fst p)) /\ hd 0 (snd p) <> 0xfeff) l).
    { eapply forall2_right; [exact H6|]. cbn beta. tauto. }
    rewrite Forall_forall in F. destruct (F p Ip) as (F1 & F2 & F3). apply name_text; assumption.
Qed.
Print Assumptions C68_directory_partial.

Lemma utf8_inj s s' : Forall scalar s -> Forall (fun c => c <> 0) s -> Forall scalar s' -> Forall (fun c => c <> 0) s' -> utf8 s = utf8 s' -> s = s'.
Proof.
  intros F1 F2 G1 G2 E.
  assert (X : forall z, Forall scalar z -> Forall (fun c => c <> 0) z -> stream_points (length (utf8 z)) (utf8 z ++ []) (len (utf8 z)) 0 = Ok z).
  { intros z Z1 Z2. apply (stream_points_text (len (utf8 z)) z [] []).
    - clear - Z1 Z2. induction Z1; inversion Z2; subst; constructor; auto. apply IHZ1; assumption.
    - right. change (len []) with 0. lia.
    - change (len []) with 0. unfold len. lia. }
  pose proof (X s F1 F2) as A. pose proof (X s' G1 G2) as B. rewrite E in A. congruence.
Qed.
Lemma spells_inj s s' b : file_name s -> spells s b -> file_name s' -> spells s' b -> s = s'.
Proof.
  intros F S F' S'. destruct (file_name_strip s b F S) as (E & G). destruct (file_name_strip s' b F' S') as (E' & G').
  apply utf8_inj; try assumption; [eapply Forall_impl; [|exact F]; cbn; tauto|eapply Forall_impl; [|exact F']; cbn; tauto|congruence].
Qed.
Lemma split_plain s : ~ In 47 s -> split s = ([], s).
Proof.
  induction s as [|c s IH]; intros H; [reflexivity|]. cbn [split]. rewrite IH by (intros X; apply H; right; exact X).
  replace (c =? 47) with false; [reflexivity|]. assert (c <> 47) by (intros ->; apply H; left; reflexivity). lia.
Qed.
Lemma components_plain s : ~ In 47 s -> s <> [] -> components s = [s].
Proof.
  intros H N. unfold components. assert (E : (match s with 47 :: p => p | _ => s end) = s).
  { destruct s as [|c s]; [reflexivity|]. assert (c <> 47) by (intros ->; apply H; left; reflexivity).
    destruct c as [|q|q]; try reflexivity; repeat (destruct q as [q|q|]; try reflexivity); congruence. }
  rewrite E, split_plain by exact H. destruct s; [congruence|reflexivity].
Qed.
Lemma tree_root (tie : list Z -> list Z -> Prop) h t recs id r l : (forall a b c, tie a b -> tie b c -> tie a c) -> fs_tree tie h t recs -> In r recs -> has 3 id r = true -> 0 <= id < 2 ^ 60 ->
  fs_dir t id = Ok l -> exists n, fs_root t = Ok (Some n).
Proof.
  intros HT HF R1 R2 Hid HD. destruct (C17_inode_by_identifier_partial tie h t recs id HT HF Hid) as (C1 & _). specialize (C1 r R1 R2).
  unfold fs_dir, fs_inode, fs_walk, walk in *. unfold bindM, retM in *. destruct (fs_root t) as [[n|]| | |]; cbn [fst] in *; try discriminate; [eauto|].
  cbn [bind inode_finish wk_start fs_id_walker] in C1. destruct (inode_value (snd r)); discriminate.
Qed.

(* C69. A sub entry is found by its name, in both encodings, and it is the entry that is listed
   under that name; a name under which nothing is listed is not found. *)
Theorem C69_listed_name_found_partial : forall (tie : list Z -> list Z -> Prop) h t recs dev ctx id i rec ri l hashed fold q,
  (forall a b c, tie a b -> tie b c -> tie a c) -> fs_tree tie h t recs -> 0 <= id < 2 ^ 60 -> In ri recs -> has 3 id ri = true ->
  entries recs id l -> (forall p, In p l -> exists v, inode_is recs (de_inode (fst p)) (Some v)) ->
  directory hashed fold id recs -> name_order tie hashed fold id recs ->
  (hashed = true -> name_hash_of fold q <> 0 /\ (forall r e s, named hashed fold id recs r e s -> de_hash e <> 0)) ->
  file_name q -> ~ In 47 q -> 2 <= len (utf16 q) ->
  (forall p, In p l -> same_name fold (snd p) q -> same_name false (snd p) q) ->
  let e := mk_fe t dev ctx id i rec in
  entry_sub_by_name e utf16_next fold (utf16 q) = entry_sub_by_name e utf8_next fold (utf8 q) /\
  exists x, entry_sub_by_name e utf8_next fold (utf8 q) = Ok x /\
    match x with
    | Some y => exists d s v, In (d, s) l /\ same_name fold s q /\ inode_is recs (de_inode d) (Some v) /\ y = mk_fe t dev ctx (de_inode d) v (Some d)
    | None => forall p, In p l -> ~ same_name fold (snd p) q
    end.
Proof.
  intros tie h t recs dev ctx id i rec ri l hashed fold q H1 H2 H3 H4 H5 H6 H7 H8 H9 H10 H11 H12 H13 H14 e.
  assert (DL : fs_dir t id = Ok (map fst l)) by (exact (dir_listed tie h t recs id ri l H1 H2 H3 H4 H5 H6)).
  destruct (tree_root tie h t recs id ri _ H1 H2 H4 H5 H3 DL) as (n & RT).
  assert (H13' : 2 <= len (utf8 q)) by (pose proof (utf16_utf8_len q); lia).
  assert (QN : q <> []) by (intros ->; vm_compute in H13'; congruence).
  destruct (C23_path_components_partial t fold id n q RT H11) as (P8 & P16). specialize (P8 H13'). specialize (P16 H13).
  rewrite components_plain in P8, P16 by assumption.
  assert (LR : forall r e s, named hashed fold id recs r e s -> In (e, s) l).
  { intros r e0 s (A1 & A2 & A3 & A4 & A5 & A6). assert (I : In r (filter (has 9 id) recs)) by (apply filter_In; auto). apply in_split in I. destruct I as (a & b & EQ).
    unfold entries in H6. rewrite EQ in H6. apply Forall2_app_inv_l in H6. destruct H6 as (m1 & m2 & _ & M2 & ->). inversion M2 as [|x p y q' (HP & F & S & _) ]; subst.
    apply dir_rec_read in A3. apply dir_rec_read in HP. assert (fst p = e0) by congruence. destruct p as (d & s'). cbn [fst snd] in *. subst d.
    assert (s' = s) by (eapply spells_inj; eauto). subst s'. apply in_or_app. right. left. reflexivity. }
  assert (RL : forall p, In p l -> exists r, named hashed fold id recs r (fst p) (snd p)).
  { intros p Ip. apply in_split in Ip. destruct Ip as (a & b & EQ). subst l. unfold entries in H6. apply Forall2_app_inv_r in H6. destruct H6 as (m1 & m2 & _ & M2 & EF).
    inversion M2 as [|r p' y q' (HP & F & S & _) ]; subst. assert (I : In r (filter (has 9 id) recs)) by (rewrite EF; apply in_or_app; right; left; reflexivity).
    apply filter_In in I. destruct I as (I1 & I2). exists r. destruct (H8 r I1 I2) as (e0 & s & NN). pose proof NN as (A1 & A2 & A3 & A4 & A5 & A6).
    apply dir_rec_read in A3. apply dir_rec_read in HP as HP'. assert (fst p = e0) by congruence. subst e0. assert (s = snd p) by (eapply spells_inj; eauto). subst s. exact NN. }
  destruct (C22_name_lookup_partial tie h t recs id hashed fold q (utf8 q) H1 H2 H3 H8 H9 (ex_intro _ ri (conj H4 H5)) H11 (or_introl eq_refl) H10) as (d & D1 & D2).
  { intros r e0 s NN. exact (H14 (e0, s) (LR r e0 s NN)). }
  assert (FQ : Forall scalar q) by (eapply Forall_impl; [|exact H11]; cbn; tauto).
  assert (EN : entry_sub_by_name e utf16_next fold (utf16 q) = entry_sub_by_name e utf8_next fold (utf8 q)).
  { unfold entry_sub_by_name. cbn [fe_tree fe_id e]. rewrite P8, P16. unfold resolve. cbn [descend]. rewrite (C22_name_lookup_utf16 t fold id q FQ). reflexivity. }
  split; [exact EN|]. unfold entry_sub_by_name. cbn [fe_tree fe_id e]. rewrite P8. unfold resolve. cbn [descend]. rewrite D1. clear EN.
  destruct q as [|q0 q]; [congruence|]. cbn [bind]. destruct d as [d|].
  - destruct D2 as (r & s & NN & SN). pose proof (LR _ _ _ NN) as IL. destruct (H7 _ IL) as (v & HV). cbn [fst] in HV. cbn [bind].
    rewrite (inode_found tie h t recs _ _ H1 H2 HV). cbn [bind fe_img fe_ctx]. eexists. split; [reflexivity|]. cbn beta iota. exists d, s, v. auto.
  - eexists. split; [reflexivity|]. cbn beta iota. intros p Ip SN. destruct (RL p Ip) as (r & NN). exact (D2 _ _ _ NN SN).
Qed.
Print Assumptions C69_listed_name_found_partial.

(* C70. The parent of an entry is the object that its inode says is the parent; the root
   directory has none. *)
Theorem C70_parent_partial : forall (tie : list Z -> list Z -> Prop) h t recs dev ctx id i rec v,
  (forall a b c, tie a b -> tie b c -> tie a c) -> fs_tree tie h t recs -> inode_is recs (in_parent i) (Some v) ->
  entry_parent (mk_fe t dev ctx id i rec) = Ok (if id <=? 2 then None else Some (mk_fe t dev ctx (in_parent i) v None)).
Proof.
  intros tie h t recs dev ctx id i rec v H1 H2 H3. unfold entry_parent. cbn [fe_id fe_tree fe_inode fe_img fe_ctx].
  destruct (2 <? id) eqn:C; [replace (id <=? 2) with false by lia|replace (id <=? 2) with true by lia; reflexivity].
  rewrite (inode_found tie h t recs _ _ H1 H2 H3). reflexivity.
Qed.
Print Assumptions C70_parent_partial.

(* ---- a volume in one node: directory 2 with "ab" (file 16), "cd" (directory 18) and a name of
   a byte order mark and "ab" (file 17); directory 18 with "hl", a hard link to file 16, and "x" ---- *)
Definition fz_child (id : Z) (s : list Z) (inode : Z) : record := (dir_key_plain id (utf8 s ++ [0]), dir_value_bytes inode 77 8 0 true []).
Definition fz_recs : list record :=
  [fy_inode 2 0; fz_child 2 [97; 98] 16; fz_child 2 [99; 100] 18; fz_child 2 [0xfeff; 97; 98] 17; fy_inode 16 0; fy_inode 17 0; fy_inode 18 0;
   fz_child 18 [120] 17; fz_child 18 [104; 108] 16].
Definition fz_img : device := fun b => if b =? 20 then Some (node_bytes (fx_node true true fz_recs)) else None.
Definition fz : fs := mk_fs fz_img 20 fx_omap 30 4.
Example fz_tree : fs_tree fx_tie 0 fz fz_recs.
Proof.
  exists 0%nat, fx_orecs. split; [lia|]. split; [exact fx_omap_tree|]. split; [lia|]. split.
  - cbn [subtree]. split.
    + exists 20. split; [reflexivity|]. split; [lia|]. exists (fx_node true true fz_recs). split; [reflexivity|].
      assert (L : len (node_bytes (fx_node true true fz_recs)) = 4096) by (vm_compute; reflexivity).
      assert (LF : (0 <? len (nd_free (fx_node true true fz_recs)) + len (values_area (nd_recs (fx_node true true fz_recs)))) = true) by (vm_compute; reflexivity).
      split; [|split; [exact L|]].
      * unfold node_ok. rewrite L. unfold nd_fixed. change (nd_flags (fx_node true true fz_recs)) with 3.
        change (Z.testbit 3 2) with false. split; [reflexivity|]. cbn [nd_type nd_subtype nd_level nd_lists nd_footer fx_node].
        split; [lia|]. split; [lia|]. split; [lia|]. split; [lia|]. split; [reflexivity|].
        split; [reflexivity|]. split; [lia|]. split; [vm_compute; auto|]. discriminate.
      * split; [discriminate|]. split; [lia|]. split; [cbn; auto|]. split; [reflexivity|].
        split; [reflexivity|]. split; [reflexivity|]. split; [reflexivity|]. split; [reflexivity|reflexivity].
    + unfold fz_recs. fs_sorted.
  - unfold fz_recs. repeat (apply Forall_cons || apply Forall_nil); apply fs_rec_ok_dec; vm_compute; reflexivity.
Qed.
Definition fz_dev : device := fun _ => None.
Definition fz_entry (id : Z) : fentry := mk_fe fz fz_dev None id (fy_value (fy_inode id 0)) None.
Definition fz_rec (s : list Z) (inode : Z) : dentry := mk_de (utf8 s ++ [0]) 0 inode 77.
Lemma fz_dir_rec id s inode : 1 <= len (utf8 s) <= 1022 -> 0 <= inode < 2 ^ 64 -> dir_rec id (fz_child id s inode) (fz_rec s inode).
Proof.
  intros H1 H2. exists 8, 0, true, []. unfold fz_child, fz_rec. cbn [de_name de_hash de_inode de_added fst snd]. rewrite len_app. change (len [0]) with 1. change (len (@nil xfield)) with 0.
  split; [left; split; reflexivity|]. split; [reflexivity|]. split; [lia|]. split; [lia|]. split; [lia|]. split; [lia|]. split; constructor.
Qed.
Lemma fz_inode_is id : existsb (fun r => has 3 id r && (kid (fst r) =? id) && match inode_value (snd r) with Ok _ => true | _ => false end) fz_recs = true ->
  (0 <=? id) && (id <? 2 ^ 60) = true -> exists v, inode_is fz_recs id (Some v).
Proof.
  intros H B. apply existsb_exists in H. destruct H as (r & R1 & R2). destruct (inode_value (snd r)) as [v| | |] eqn:E; try lia.
  exists v. split; [lia|]. exists r. split; [exact R1|]. split; [destruct (has 3 id r); [reflexivity|discriminate]|exact E].
Qed.

(* Directory 18: what it contains, and what the calls give. *)
Example C68_instance : entries fz_recs 18 [(fz_rec [120] 17, [120]); (fz_rec [104; 108] 16, [104; 108])] /\
  (forall p, In p [(fz_rec [120] 17, [120]); (fz_rec [104; 108] 16, [104; 108])] -> exists v, inode_is fz_recs (de_inode (fst p)) (Some v)).
Proof.
  split.
  - unfold entries. assert (E : filter (has 9 18) fz_recs = [fz_child 18 [120] 17; fz_child 18 [104; 108] 16]) by (vm_compute; reflexivity). rewrite E.
    constructor; [|constructor; [|constructor]]; (split; [apply fz_dir_rec; [vm_compute; split; discriminate|cbn; lia]|]); cbn [fst snd]; apply fy_ascii; reflexivity.
  - intros p [<-|[<-|[]]]; apply fz_inode_is; vm_compute; reflexivity.
Qed.
Definition fz_show (a : danswer) : option (Z + Z * res (list Z) * res (list Z) * res Z) :=
  match a with
  | ACount n => Some (inl n)
  | AEntry x => Some (inr (fe_id x, entry_name utf8 x 3, entry_name utf16 x 2, entry_name_size utf8 x))
  | AError => None
  end.
Example C68_example : match dir_calls (fz_entry 18) [DSub 1; DCount; DSub 0; DSub 2; DSub (-1)] f_init with Ok l => map fz_show l | _ => [] end =
  [Some (inr (16, Ok [104; 108; 0], Fail, Ok 3)); Some (inl 2); Some (inr (17, Ok [120; 0], Ok [120; 0], Ok 2)); None; None].
Proof. vm_compute. reflexivity. Qed.

Lemma sub_call e l st j d x : (f_dir st = None /\ fs_dir (fe_tree e) (fe_id e) = Ok l \/ f_dir st = Some l) -> 0 <= j < len l -> getb l j = Ok d ->
  fs_inode (fe_tree e) (de_inode d) = Ok (Some x) ->
  exists st', entry_sub e j st = (Ok (mk_fe (fe_tree e) (fe_img e) (fe_ctx e) (fst x) (snd x) (Some d)), st') /\ f_dir st' = Some l.
Proof.
  intros HS Hj G I. assert (X : exists st', get_dir e st = (Ok l, st') /\ f_dir st' = Some l).
  { destruct HS as [(N & D)|S]; unfold get_dir; [rewrite N, (onM_ok _ _ _ _ D)|rewrite S; eauto]. eexists. split; reflexivity. }
  destruct X as (st' & X1 & X2). exists st'. split; [|exact X2]. unfold entry_sub. rewrite (bindM_ok _ _ _ _ _ X1). unfold retM.
  replace ((0 <=? j) && (j <? len l)) with true by lia. rewrite G. cbn [bind]. rewrite I. destruct x. reflexivity.
Qed.

(* The full statement is false: two entries of a directory with different names report the same
   name. *)
Theorem C68_directory_refuted : exists (tie : list Z -> list Z -> Prop) h t recs dev id i p q x y,
  (forall a b c, tie a b -> tie b c -> tie a c) /\ fs_tree tie h t recs /\ 0 <= id < 2 ^ 60 /\
  (exists r, In r recs /\ has 9 id r = true /\ dir_rec id r (fst p)) /\ (exists r, In r recs /\ has 9 id r = true /\ dir_rec id r (fst q)) /\
  file_name (snd p) /\ spells (snd p) (de_name (fst p)) /\ file_name (snd q) /\ spells (snd q) (de_name (fst q)) /\ snd p <> snd q /\
  dir_calls (mk_fe t dev None id i None) [DSub 0; DSub 2] f_init = Ok [AEntry x; AEntry y] /\ fe_rec x = Some (fst p) /\ fe_rec y = Some (fst q) /\
  forall enc size, entry_name enc x size = entry_name enc y size.
Proof.
  exists fx_tie, 0%nat, fz, fz_recs, fz_dev, 2, (fy_value (fy_inode 2 0)), (fz_rec [97; 98] 16, [97; 98]), (fz_rec [0xfeff; 97; 98] 17, [0xfeff; 97; 98]),
    (mk_fe fz fz_dev None 16 (fy_value (fy_inode 16 0)) (Some (fz_rec [97; 98] 16))), (mk_fe fz fz_dev None 17 (fy_value (fy_inode 17 0)) (Some (fz_rec [0xfeff; 97; 98] 17))).
  split; [unfold fx_tie; intros; lia|]. split; [exact fz_tree|]. split; [lia|]. cbn [fst snd].
  split; [exists (fz_child 2 [97; 98] 16); split; [unfold fz_recs; do 1 right; left; reflexivity|split; [vm_compute; reflexivity|apply fz_dir_rec; [vm_compute; split; discriminate|lia]]]|].
  split; [exists (fz_child 2 [0xfeff; 97; 98] 17); split; [unfold fz_recs; do 3 right; left; reflexivity|split; [vm_compute; reflexivity|apply fz_dir_rec; [vm_compute; split; discriminate|lia]]]|].
  split; [repeat constructor; unfold scalar; lia|]. split; [right; reflexivity|]. split; [repeat constructor; unfold scalar; lia|]. split; [right; reflexivity|]. split; [discriminate|].
  split; [|split; [reflexivity|split; [reflexivity|]]].
  - assert (D : fs_dir fz 2 = Ok [fz_rec [97; 98] 16; fz_rec [99; 100] 18; fz_rec [0xfeff; 97; 98] 17]) by (vm_compute; reflexivity).
    assert (A : fs_inode fz 16 = Ok (Some (16, fy_value (fy_inode 16 0)))) by (vm_compute; reflexivity).
    assert (B : fs_inode fz 17 = Ok (Some (17, fy_value (fy_inode 17 0)))) by (vm_compute; reflexivity).
    destruct (sub_call (fz_entry 2) _ f_init 0 _ _ (or_introl (conj eq_refl D)) ltac:(unfold len; cbn; lia) eq_refl A) as (st1 & S1 & D1).
    destruct (sub_call (fz_entry 2) _ st1 2 _ _ (or_intror D1) ltac:(unfold len; cbn; lia) eq_refl B) as (st2 & S2 & D2).
    cbn [dir_calls]. change (mk_fe fz fz_dev None 2 (fy_value (fy_inode 2 0)) None) with (fz_entry 2). cbn [dir_call]. rewrite S1. cbn [bind dir_call]. rewrite S2. reflexivity.
  - intros enc size. unfold entry_name. assert (E : forall i j, entry_text (mk_fe fz fz_dev None 16 i (Some (fz_rec [97; 98] 16))) = entry_text (mk_fe fz fz_dev None 17 j (Some (fz_rec [0xfeff; 97; 98] 17)))) by (intros; vm_compute; reflexivity).
    rewrite (E _ (fy_value (fy_inode 17 0))). reflexivity.
Qed.
Print Assumptions C68_directory_refuted.

Example C69_example : (match entry_sub_by_name (fz_entry 2) utf8_next false [99; 100] with Ok (Some x) => fe_id x | _ => -1 end) = 18 /\
  (match entry_sub_by_name (fz_entry 18) utf16_next false [104; 108] with Ok (Some x) => fe_id x | _ => -1 end) = 16 /\
  entry_sub_by_name (fz_entry 18) utf16_next false [104; 109] = Ok None.
Proof. vm_compute. auto. Qed.

(* The full statement is false: the sub entry "x" is listed, but looking up its name gives the
   directory. *)
Theorem C69_listed_name_found_refuted : exists (tie : list Z -> list Z -> Prop) h t recs dev id i x y,
  (forall a b c, tie a b -> tie b c -> tie a c) /\ fs_tree tie h t recs /\ 0 <= id < 2 ^ 60 /\
  fst (entry_sub (mk_fe t dev None id i None) 0 f_init) = Ok x /\ entry_name utf8 x 2 = Ok [120; 0] /\ fe_id x <> id /\
  entry_sub_by_name (mk_fe t dev None id i None) utf8_next false [120] = Ok (Some y) /\ fe_id y = id.
Proof.
  exists fx_tie, 0%nat, fz, fz_recs, fz_dev, 18, (fy_value (fy_inode 18 0)), (mk_fe fz fz_dev None 17 (fy_value (fy_inode 17 0)) (Some (fz_rec [120] 17))), (fz_entry 18).
  split; [unfold fx_tie; intros; lia|]. split; [exact fz_tree|]. split; [lia|].
  split; [|split; [vm_compute; reflexivity|split; [discriminate|split; [|reflexivity]]]].
  - assert (D : fs_dir fz 18 = Ok [fz_rec [120] 17; fz_rec [104; 108] 16]) by (vm_compute; reflexivity).
    assert (B : fs_inode fz 17 = Ok (Some (17, fy_value (fy_inode 17 0)))) by (vm_compute; reflexivity).
    destruct (sub_call (fz_entry 18) _ f_init 0 _ _ (or_introl (conj eq_refl D)) ltac:(unfold len; cbn; lia) eq_refl B) as (st1 & S1 & D1).
    change (mk_fe fz fz_dev None 18 (fy_value (fy_inode 18 0)) None) with (fz_entry 18). rewrite S1. reflexivity.
  - unfold entry_sub_by_name. assert (P : fs_by_path fz utf8_next false 18 [120] = Ok (Some (18, fy_value (fy_inode 18 0), None))) by (vm_compute; reflexivity).
    cbn [fe_tree fe_id]. rewrite P. reflexivity.
Qed.
Print Assumptions C69_listed_name_found_refuted.

(* The full statement is false: the sub entry "hl" of directory 18 says its parent is 2. *)
Theorem C70_parent_refuted : exists (tie : list Z -> list Z -> Prop) h t recs dev id i x y,
  (forall a b c, tie a b -> tie b c -> tie a c) /\ fs_tree tie h t recs /\ 0 <= id < 2 ^ 60 /\
  fst (entry_sub (mk_fe t dev None id i None) 1 f_init) = Ok x /\ entry_parent x = Ok (Some y) /\ fe_id y <> id.
Proof.
  exists fx_tie, 0%nat, fz, fz_recs, fz_dev, 18, (fy_value (fy_inode 18 0)), (mk_fe fz fz_dev None 16 (fy_value (fy_inode 16 0)) (Some (fz_rec [104; 108] 16))), (fz_entry 2).
  split; [unfold fx_tie; intros; lia|]. split; [exact fz_tree|]. split; [lia|]. split; [|split; [|discriminate]].
  - assert (D : fs_dir fz 18 = Ok [fz_rec [120] 17; fz_rec [104; 108] 16]) by (vm_compute; reflexivity).
    assert (B : fs_inode fz 16 = Ok (Some (16, fy_value (fy_inode 16 0)))) by (vm_compute; reflexivity).
    destruct (sub_call (fz_entry 18) _ f_init 1 _ _ (or_introl (conj eq_refl D)) ltac:(unfold len; cbn; lia) eq_refl B) as (st1 & S1 & D1).
    change (mk_fe fz fz_dev None 18 (fy_value (fy_inode 18 0)) None) with (fz_entry 18). rewrite S1. reflexivity.
  - assert (B : fs_inode fz 2 = Ok (Some (2, fy_value (fy_inode 2 0)))) by (vm_compute; reflexivity).
    unfold entry_parent. cbn [fe_id fe_tree fe_inode]. change (2 <? 16) with true. cbn iota. assert (P : in_parent (fy_value (fy_inode 16 0)) = 2) by (vm_compute; reflexivity). rewrite P, B. reflexivity.
Qed.
Print Assumptions C70_parent_refuted.
Example C70_example : match entry_parent (fz_entry 2), entry_parent (fz_entry 17) with Ok None, Ok (Some y) => fe_id y | _, _ => -1 end = 2.
Proof. vm_compute. reflexivity. Qed.
