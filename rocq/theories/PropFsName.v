(* Name lookup (C22), path resolution (C23), lookup by single name (C24); name and path
   lookups in C21 and C54; paths in UTF-8 and UTF-16 (C56). *)
From Coq Require Import Lia.
From Verif Require Import Base BaseLemmas At BTree BTreeSpec BTreeProofs Walk WalkProofs TreeSpec TreeProofs
  Omap OmapSpec OmapProofs OmapTop PropOmap Checksum ChecksumSpec ChecksumProofs Records RecordsSpec RecordsProofs FsTree FsSpec FsProofs FsTop FsLookup
  NameTables Name NameSpec NameProofs PropName FsName FsNameProofs FsNameTop FsNameSpec PropFs.
Ltac Zify.zify_post_hook ::= Z.div_mod_to_equations.

(* ---- C22 ---- *)

Lemma key_lt_trans : forall a b c, key_lt a b -> key_lt b c -> key_lt a c.
Proof.
  intros a b c H. revert c. induction H as [x l|x y l m H|x l m H IH]; intros c K.
  - inversion K; subst; apply key_prefix.
  - inversion K; subst; apply key_head; [eapply char_lt_trans; eauto|auto].
  - inversion K; subst; [apply key_head; auto|apply key_tail, IH; auto].
Qed.
Lemma key_nlt a b : cmp_key a b <> Gt -> a = b \/ key_lt a b.
Proof.
  intros H. destruct (cmp_key a b) eqn:E; [left; apply cmp_key_eq, E|right; apply cmp_key_lt, E|congruence].
Qed.
Lemma compare_names fold n name s str : file_name n -> spells n name -> name <> [] -> file_name s -> spells s str ->
  name_compare utf8_next fold name str = Ok (cmp_key (name_key fold s) (name_key fold n)).
Proof.
  intros Hn Sn N Hs Ss.
  destruct (file_name_strip n name Hn Sn) as [En Fn]. destruct (file_name_strip s str Hs Ss) as [Es Fs].
  change (name_compare utf8_next fold name str) with (compare_utf8 fold name str).
  rewrite compare_utf8_cmp by exact N. rewrite En, Es. unfold cmp.
  rewrite (cmp_loop_str _ _ _ _ _ s) by (apply utf8_decodes, Fs).
  apply cmp_str_key; [apply utf8_decodes, Fn|lia].
Qed.
Lemma hash_value fold s str : file_name s -> spells s str -> name_hash utf8_next fold str = Ok (name_hash_of fold s).
Proof. intros H S. exact (C28_hash_value fold s str H S). Qed.
Lemma same_name_hash fold s q : file_name s -> file_name q -> same_name fold s q -> name_hash_of fold s = name_hash_of fold q.
Proof.
  intros Hs Hq E.
  assert (X : Ok (name_hash_of fold s) = Ok (name_hash_of fold q)); [|injection X; auto].
  rewrite <- (hash_value fold s (utf8 s)), <- (hash_value fold q (utf8 q)) by (auto; left; reflexivity).
  assert (Fs : Forall scalar s) by (eapply Forall_impl; [|exact Hs]; cbn; tauto).
  assert (Fq : Forall scalar q) by (eapply Forall_impl; [|exact Hq]; cbn; tauto).
  rewrite (name_hash_str _ _ _ s utf8_decoder (utf8_decodes s Fs)), (name_hash_str _ _ _ q utf8_decoder (utf8_decodes q Fq)).
  rewrite (hash_str_key fold s q _ E). reflexivity.
Qed.

Lemma fs_record_walk t next fold id str h : name_hash next fold str = Ok h ->
  fs_record t next fold id str = fs_walk t (name_walker (record_compare next fold h str) (record_compare next false h str) id).
Proof.
  intros H. unfold fs_record, fs_walk, walk, find_record, bindM. cbn [retM]. destruct (fs_root t) as [[n|]| | |]; try reflexivity.
  cbn [bind]. rewrite H. reflexivity.
Qed.

Section Lookup.
  Variable tie : list Z -> list Z -> Prop.
  Hypothesis tie_trans : forall a b c, tie a b -> tie b c -> tie a c.
  Variables (h : nat) (t : fs) (recs : list record) (id : Z) (hashed fold : bool) (q str : list Z).
  Hypothesis HT : fs_tree tie h t recs.
  Hypothesis Hid : 0 <= id < 2 ^ 60.
  Hypothesis HD : directory hashed fold id recs.
  Hypothesis HO : name_order tie hashed fold id recs.
  Hypothesis Hq : file_name q.
  Hypothesis Hs : spells q str.
  Hypothesis HH : hashed = true -> name_hash_of fold q <> 0 /\ (forall r e s, named hashed fold id recs r e s -> de_hash e <> 0).
  Hypothesis HE : forall r e s, named hashed fold id recs r e s -> same_name fold s q -> same_name false s q.
  Notation hq := (name_hash_of fold q).

  Definition rcmp (f : bool) (hash : Z) (s : list Z) : comparison :=
    if hashed then (if hq <? hash then Lt else if hash <? hq then Gt else cmp_key (name_key f q) (name_key f s))
    else cmp_key (name_key f q) (name_key f s).
  Lemma record_compare_named f r e s : named hashed fold id recs r e s ->
    dir_key (fst r) = Ok (de_name e, de_hash e) /\ record_compare utf8_next f hq str (de_name e, de_hash e) = Ok (rcmp f (de_hash e) s) /\
    dir_value (snd r) = Ok (de_inode e, de_added e).
  Proof.
    intros HN. pose proof HN as (Hr & Hh & HR & Hf & Hsp & Hha). pose proof (dir_rec_read id r e HR) as RD. unfold read_dentry in RD.
    destruct (dir_key (fst r)) as [[n ha]| | |]; try discriminate. cbn [bind] in RD.
    destruct (dir_value (snd r)) as [[i a]| | |]; try discriminate. cbn [bind] in RD. injection RD as RD. subst e. cbn [de_name de_hash de_inode de_added] in *.
    split; [reflexivity|]. split; [|reflexivity]. unfold record_compare, rcmp. cbn [fst snd].
    assert (N : n <> []).
    { destruct HR as (_ & _ & _ & _ & _ & _ & HL & _). cbn [de_name] in HL. intros ->. unfold len in HL. cbn in HL. lia. }
    rewrite (compare_names f s n q str Hf Hsp N Hq Hs).
    destruct hashed.
    - destruct (HH eq_refl) as (H1 & H2). specialize (H2 r _ s HN). cbn [de_hash] in H2.
      replace (ha =? 0) with false by lia. replace (hq =? 0) with false by lia. cbn [negb andb].
      destruct (hq <? ha); [reflexivity|]. destruct (ha <? hq); reflexivity.
    - subst ha. reflexivity.
  Qed.
  Notation cl := (record_compare utf8_next fold hq str).
  Notation cb := (record_compare utf8_next false hq str).
  Lemma compared_named f r e s : named hashed fold id recs r e s -> compared (record_compare utf8_next f hq str) (fst r) = rcmp f (de_hash e) s.
  Proof.
    intros HN. destruct (record_compare_named f r e s HN) as (K1 & K2 & _). unfold compared. rewrite K1, K2. reflexivity.
  Qed.

  Lemma lookup_C r : In r recs -> key_has id (fst r) = true -> exists p, dir_key (fst r) = Ok p /\
    cl p = Ok (compared cl (fst r)) /\ cb p = Ok (compared cb (fst r)) /\ (compared cl (fst r) = Eq -> exists v, dir_value (snd r) = Ok v).
  Proof.
    intros Hr Hh. destruct (HD r Hr Hh) as (e & s & HN). exists (de_name e, de_hash e).
    rewrite (compared_named fold r e s HN), (compared_named false r e s HN).
    destruct (record_compare_named fold r e s HN) as (K1 & K2 & K3). destruct (record_compare_named false r e s HN) as (_ & K2' & _).
    split; [exact K1|]. split; [exact K2|]. split; [exact K2'|]. intros _. eauto.
  Qed.
  Lemma lookup_M1 a b : In a recs -> In b recs -> key_has id (fst a) = true -> key_has id (fst b) = true ->
    fs_lt tie (fst a) (fst b) -> compared cb (fst a) <> Gt -> compared cb (fst b) = Lt.
  Proof.
    intros Ia Ib Ha Hb L HG. destruct (HD a Ia Ha) as (ea & sa & Na). destruct (HD b Ib Hb) as (eb & sb & Nb).
    rewrite (compared_named false a ea sa Na) in HG. rewrite (compared_named false b eb sb Nb).
    assert (TL : tie (fst a) (fst b)).
    { unfold key_has, has in Ha, Hb. cbn [fst] in *. unfold fs_lt, tie_lt in L. destruct L as [L|(L1 & [L2|(L2 & L3)])]; [lia|lia|].
      replace (kty (fst a) =? 3) with false in L3 by lia. replace (kty (fst a) =? 8) with false in L3 by lia. exact L3. }
    pose proof (HO a b ea eb sa sb Na Nb TL) as OR. unfold rcmp in *.
    assert (KL : forall x y z, cmp_key x y <> Gt -> key_lt y z -> cmp_key x z = Lt).
    { intros x y z H1 H2. apply cmp_key_lt. destruct (key_nlt x y H1) as [E|E]; [subst; exact H2|]. eapply key_lt_trans; eauto. }
    destruct hashed.
    - destruct (hq <? de_hash ea) eqn:E1.
      + replace (hq <? de_hash eb) with true by lia. reflexivity.
      + destruct (de_hash ea <? hq) eqn:E2; [congruence|]. destruct OR as [OR|(OR1 & OR2)].
        * replace (hq <? de_hash eb) with true by lia. reflexivity.
        * replace (hq <? de_hash eb) with false by lia. replace (de_hash eb <? hq) with false by lia. eapply KL; eauto.
    - assert (Z : de_hash ea = 0 /\ de_hash eb = 0) by (destruct Na as (_ & _ & _ & _ & _ & X); destruct Nb as (_ & _ & _ & _ & _ & Y); auto).
      destruct OR as [OR|(OR1 & OR2)]; [lia|]. eapply KL; eauto.
  Qed.
  Lemma rcmp_eq f e s : rcmp f (de_hash e) s = Eq -> name_key f s = name_key f q /\ (hashed = true -> de_hash e = hq).
  Proof.
    unfold rcmp. intros H. destruct hashed.
    - destruct (hq <? de_hash e) eqn:E1; [discriminate|]. destruct (de_hash e <? hq) eqn:E2; [discriminate|]. apply cmp_key_eq in H.
      split; [auto|intros _; lia].
    - apply cmp_key_eq in H. split; [auto|discriminate].
  Qed.
  Lemma rcmp_same f e s : name_key f s = name_key f q -> (hashed = true -> de_hash e = hq) -> rcmp f (de_hash e) s = Eq.
  Proof.
    intros E1 E2. unfold rcmp. assert (X : cmp_key (name_key f q) (name_key f s) = Eq) by (apply cmp_key_eq; auto).
    destruct hashed; [|exact X]. rewrite E2 by reflexivity. rewrite Z.ltb_irrefl. exact X.
  Qed.
  Lemma lookup_M2 r : In r recs -> key_has id (fst r) = true -> compared cl (fst r) = Eq -> compared cb (fst r) = Eq.
  Proof.
    intros Hr Hh H. destruct (HD r Hr Hh) as (e & s & HN). rewrite (compared_named fold r e s HN) in H. rewrite (compared_named false r e s HN).
    apply rcmp_eq in H. destruct H as (H1 & H2). apply rcmp_same; [|exact H2]. exact (HE r e s HN H1).
  Qed.

  Theorem name_lookup : (exists r, In r recs /\ has 3 id r = true) ->
    exists d, fs_record t utf8_next fold id str = Ok d /\
    match d with
    | Some e => exists r s, named hashed fold id recs r e s /\ same_name fold s q
    | None => forall r e s, named hashed fold id recs r e s -> ~ same_name fold s q
    end.
  Proof.
    intros (ri & Hri & Hhi). exists (name_ans id cl recs). split.
    - rewrite (fs_record_walk t utf8_next fold id str hq) by (apply hash_value; auto).
      apply (name_tree tie tie_trans id cl cb recs Hid lookup_C lookup_M1 lookup_M2 h t HT). right.
      destruct HT as (ho & orecs & _ & _ & _ & HS & _). apply (subtree_sorted _ _ _ _ (fs_lt_trans tie tie_trans) (SEPLE tie)) in HS.
      destruct HS as [|e es H H1]; [exact I|]. unfold stop, above, key_has, has in *. cbn [fst] in *.
      destruct Hri as [X|X]; [subst; lia|]. rewrite Forall_forall in H. specialize (H ri X). unfold fs_lt in H. lia.
    - unfold name_ans. destruct (find (hit id cl) recs) as [r|] eqn:F.
      + apply find_some in F. destruct F as (Hr & F). unfold hit in F. apply andb_prop in F. destruct F as (F1 & F2).
        destruct (HD r Hr F1) as (e & s & HN). pose proof (compared_named fold r e s HN) as HC.
        destruct (record_compare_named fold r e s HN) as (K1 & _ & K3).
        replace (entry r) with (Some e) by (unfold entry; rewrite K1, K3; destruct e; reflexivity).
        exists r, s. split; [exact HN|]. rewrite HC in F2. destruct (rcmp fold (de_hash e) s) eqn:E; try discriminate.
        apply rcmp_eq in E. apply E.
      + intros r e s HN E. pose proof HN as (Hr & Hh & _ & Hf & _ & Hha). pose proof (List.find_none _ _ F r Hr) as X. unfold hit in X.
        change (has 9 id r) with (key_has id (fst r)) in Hh. rewrite Hh in X. cbn [andb] in X. rewrite (compared_named fold r e s HN) in X.
        rewrite rcmp_same in X; [discriminate|exact E|]. intros ->. rewrite Hha. apply same_name_hash; auto.
  Qed.
End Lookup.

(* The full statement is not true, see below. On a case-insensitive volume this needs the
   matching names of the directory to have the case of the string; on volumes with hashes it
   needs hashes that are not zero. *)
Theorem C22_name_lookup_partial : forall (tie : list Z -> list Z -> Prop) h t recs id hashed fold q str,
  (forall a b c, tie a b -> tie b c -> tie a c) -> fs_tree tie h t recs -> 0 <= id < 2 ^ 60 ->
  directory hashed fold id recs -> name_order tie hashed fold id recs ->
  (exists r, In r recs /\ has 3 id r = true) ->
  file_name q -> spells q str ->
  (hashed = true -> name_hash_of fold q <> 0 /\ (forall r e s, named hashed fold id recs r e s -> de_hash e <> 0)) ->
  (forall r e s, named hashed fold id recs r e s -> same_name fold s q -> same_name false s q) ->
  exists d, fs_record t utf8_next fold id str = Ok d /\
    match d with
    | Some e => exists r s, named hashed fold id recs r e s /\ same_name fold s q
    | None => forall r e s, named hashed fold id recs r e s -> ~ same_name fold s q
    end.
Proof. intros tie h t recs id hashed fold q str HTR HT Hid HD HO HI Hq Hs HH HE. eapply name_lookup; eauto. Qed.
Print Assumptions C22_name_lookup_partial.

(* Whatever the image, an entry that is returned has the name asked for: its record is a
   record of the directory that compares equal with the string. *)
Lemma name_leaf_found cmp look es e : name_leaf cmp look es = Ok (Some e) ->
  exists r, In r es /\ fs_word r = Ok look /\ read_dentry r = Ok e /\ cmp (de_name e, de_hash e) = Ok Eq.
Proof.
  induction es as [|r es IH]; cbn [name_leaf]; [discriminate|].
  destruct (fs_word r) as [k| | |] eqn:K; cbn [bind]; try discriminate.
  assert (R : name_leaf cmp look es = Ok (Some e) -> exists r0, In r0 (r :: es) /\ fs_word r0 = Ok look /\ read_dentry r0 = Ok e /\ cmp (de_name e, de_hash e) = Ok Eq).
  { intros H. destruct (IH H) as (r0 & H1 & H2). exists r0. split; [right; exact H1|exact H2]. }
  destruct (k =? look) eqn:EK; [|exact R]. destruct (dir_key (fst r)) as [p| | |] eqn:D; cbn [bind]; try discriminate.
  destruct (cmp p) as [c| | |] eqn:C; cbn [bind]; try discriminate. destruct c; try exact R.
  destruct (dir_value (snd r)) as [[i a]| | |] eqn:V; cbn [bind]; try discriminate. intros H. injection H as H. subst e. exists r.
  split; [left; reflexivity|]. split; [rewrite K; f_equal; lia|]. unfold read_dentry. rewrite D, V. destruct p as [n ha]. split; [reflexivity|exact C].
Qed.
Definition tree_record (t : fs) (r : record) : Prop :=
  exists n, (fs_root t = Ok (Some n) \/ exists o, fs_sub t o = Ok n) /\ is_leaf n = true /\ In r (bn_entries n).
Theorem C22_found_has_name : forall t next fold id str e, fs_record t next fold id str = Ok (Some e) ->
  (exists r, tree_record t r /\ fs_word r = Ok (lookup_word 9 id) /\ read_dentry r = Ok e) /\ name_compare next fold (de_name e) str = Ok Eq.
Proof.
  intros t next fold id str e H.
  assert (X : (exists r, tree_record t r /\ fs_word r = Ok (lookup_word 9 id) /\ read_dentry r = Ok e) /\
    exists h, record_compare next fold h str (de_name e, de_hash e) = Ok Eq).
  { unfold fs_record, find_record in H. destruct (fs_root t) as [[n|]| | |] eqn:ER; cbn [bind] in H; try discriminate.
    destruct (name_hash next fold str) as [h| | |]; try discriminate. unfold bindM in H. cbn [retM] in H.
    pose (w := name_walker (record_compare next fold h str) (record_compare next false h str) id).
    assert (V : forall f d m e, (fs_root t = Ok (Some m) \/ exists o, fs_sub t o = Ok m) -> fst (visit (pure (fs_sub t)) w f d m tt) = Ok (Some e) ->
       exists r, tree_record t r /\ fs_word r = Ok (lookup_word 9 id) /\ read_dentry r = Ok e /\ record_compare next fold h str (de_name e, de_hash e) = Ok Eq).
    { clear H e. induction f as [|f IH]; intros d m e HG H; cbn [visit] in H; [discriminate|].
      destruct (is_leaf m) eqn:EL.
      - destruct (_ <? _); [discriminate|]. unfold w in H. cbn [wk_leaf name_walker retM fst] in H. apply name_leaf_found in H.
        destruct H as (r & R0 & R1 & R2 & R3). exists r. split; [exists m; auto|auto].
      - destruct (_ <? _); [discriminate|]. change (wk_plan w m) with [let! e0 := name_branch (record_compare next false h str) id None (bn_entries m) in fs_child e0] in H.
        destruct (let! e0 := name_branch (record_compare next false h str) id None (bn_entries m) in fs_child e0) as [b| | |]; cbn [visit_children] in H; try discriminate.
        unfold bindM in H. cbn [retM] in H. change (pure (fs_sub t) b tt) with (fs_sub t b, tt) in H.
        destruct (fs_sub t b) as [m'| | |] eqn:EB; try discriminate.
        destruct (visit (pure (fs_sub t)) w f (d + 1) m' tt) as [r []] eqn:EV. destruct r as [x| | |]; try discriminate.
        cbn [visit_children retM fst wk_join name_walker w] in H. apply (IH (d + 1) m'); [right; exists b; exact EB|]. rewrite EV. exact H. }
    destruct (V _ _ n e (or_introl ER) H) as (r & R0 & R1 & R2 & R3). split; [exists r; auto|exists h; exact R3]. }
  destruct X as (X1 & (h & X2)). split; [exact X1|]. unfold record_compare in X2. cbn [fst snd] in X2. destruct (negb _ && negb _); [|exact X2].
  destruct (_ <? _); [discriminate|]. destruct (_ <? _); [discriminate|exact X2].
Qed.
Print Assumptions C22_found_has_name.

(* A tree of a root and two leaves. *)
Definition two_root (l1 l2 : list record) : list record := [(fst (hd ([], []) l1), le_enc 8 50); (fst (hd ([], []) l2), le_enc 8 51)].
Definition two_img (l1 l2 : list record) : device := fun b =>
  if b =? 20 then Some (node_bytes (fx_node true false (two_root l1 l2)))
  else if b =? 21 then Some (node_bytes (fx_node false true l1))
  else if b =? 22 then Some (node_bytes (fx_node false true l2)) else None.
Definition two (l1 l2 : list record) : fs := mk_fs (two_img l1 l2) 20 fx_omap 30 4.
Lemma two_node_at dev root leaf o b recs : dev b = Some (node_bytes (fx_node root leaf recs)) ->
  (if root then b = o else resolves fx_orecs 4 o b) -> 0 <= b < 2 ^ 31 ->
  len (node_bytes (fx_node root leaf recs)) = 4096 -> 
  40 < len (nd_free (fx_node root leaf recs)) ->
  fs_node dev fx_orecs 4 root o leaf recs.
Proof.
  intros HI HR Hb HL HF. exists b. split; [exact HR|]. split; [exact Hb|]. exists (fx_node root leaf recs).
  split; [exact HI|]. split; [|split; [exact HL|]].
  - unfold node_ok. rewrite HL. unfold nd_fixed. change (nd_flags (fx_node root leaf recs)) with ((if root then 1 else 0) + (if leaf then 2 else 0)).
    replace (Z.testbit _ 2) with false by (destruct root, leaf; reflexivity).
    split; [reflexivity|]. cbn [nd_type nd_subtype nd_level nd_lists nd_footer fx_node].
    split; [destruct root; lia|]. split; [lia|]. split; [destruct root, leaf; lia|]. split; [destruct leaf; lia|]. split; [reflexivity|].
    split; [destruct root, leaf; reflexivity|]. split; [lia|]. split; [destruct root; vm_compute; auto|]. discriminate.
  - pose proof (len_nonneg (values_area (nd_recs (fx_node root leaf recs)))).
    split; [intros _; lia|]. split; [lia|]. split; [destruct root; cbn; auto|]. split; [reflexivity|].
    split; [destruct root, leaf; reflexivity|]. split; [destruct root, leaf; reflexivity|]. split; [destruct root, leaf; reflexivity|].
    split; [intros ->; reflexivity|reflexivity].
Qed.
Fixpoint sortedb (l : list record) : bool :=
  match l with [] => true | e :: es => forallb (fun e' => fs_ltb (fst e) (fst e')) es && sortedb es end.
Lemma sortedb_ok l : sortedb l = true -> sorted (fs_lt fx_tie) l.
Proof.
  induction l as [|e es IH]; intros H; [constructor|]. cbn [sortedb] in H. apply andb_prop in H. destruct H as (H1 & H2).
  constructor; [|auto]. apply Forall_forall. intros x Hx. rewrite forallb_forall in H1. apply fs_ltb_ok, H1, Hx.
Qed.
Definition fits (root leaf : bool) (recs : list record) : bool :=
  (len (node_bytes (fx_node root leaf recs)) =? 4096) && (40 <? len (nd_free (fx_node root leaf recs))).
Definition recokb (r : record) : bool := (8 <=? len (fst r)) && forallb (fun b => (0 <=? b) && (b <? 256)) (fst r) && (3 <=? kty (fst r)) &&
  (negb (kty (fst r) =? 8) || (16 <=? len (fst r))).
Lemma two_tree a l1 b l2 : fits true false (two_root (a :: l1) (b :: l2)) = true -> fits false true (a :: l1) = true -> fits false true (b :: l2) = true ->
  sortedb ((a :: l1) ++ (b :: l2)) = true -> forallb recokb ((a :: l1) ++ (b :: l2)) = true ->
  fs_tree fx_tie 1 (two (a :: l1) (b :: l2)) ((a :: l1) ++ (b :: l2)).
Proof.
  intros F1 F2 F3 HS HR. unfold fits in *. 
  apply andb_prop in F1. apply andb_prop in F2. apply andb_prop in F3.
  rewrite Z.eqb_eq, Z.ltb_lt in F1. rewrite Z.eqb_eq, Z.ltb_lt in F2. rewrite Z.eqb_eq, Z.ltb_lt in F3.
  pose proof (sortedb_ok _ HS) as S. destruct (sorted_app_inv _ _ _ S) as (S1 & S2 & S3).
  exists 0%nat, fx_orecs. split; [lia|]. split; [exact fx_omap_tree|]. split; [lia|]. split.
  - exists (two_root (a :: l1) (b :: l2)).
    split; [apply (two_node_at _ true false 20 20); [reflexivity|reflexivity|lia|apply F1|apply F1]|]. split; [discriminate|].
    destruct a as [ka va], b as [kb vb]. cbn [two_root hd fst].
    apply (forest_cons _ _ _ _ ka _ 50 _ ka va l1); [reflexivity| |reflexivity| |].
    + split; [|exact S1]. apply (two_node_at _ false true 50 21); [reflexivity| |lia|apply F2|apply F2].
      apply (fx_resolves 50 21 (ex_key 50 1, ex_val 21)); [left; reflexivity|reflexivity|reflexivity|lia|reflexivity|vm_compute; discriminate].
    + apply Forall_forall. intros x Hx. constructor; [|constructor]. cbn [fst]. rewrite Forall_forall in S3. specialize (S3 x Hx). rewrite Forall_forall in S3. apply (S3 (kb, vb)). left. reflexivity.
    + match goal with |- forest ?a ?b ?c ?d ?es _ => enough (FF : forest a b c d es (((kb, vb) :: l2) ++ [])) by (rewrite app_nil_r in FF; exact FF) end.
      apply (forest_cons _ _ _ _ kb _ 51 _ kb vb l2); [reflexivity| |reflexivity| |constructor].
      * split; [|exact S2]. apply (two_node_at _ false true 51 22); [reflexivity| |lia|apply F3|apply F3].
        apply (fx_resolves 51 22 (ex_key 51 3, ex_val 22)); [right; right; left; reflexivity|reflexivity|reflexivity|lia|reflexivity|vm_compute; discriminate].
      * apply Forall_forall. intros. constructor.
  - apply Forall_forall. intros x Hx. rewrite forallb_forall in HR. specialize (HR x Hx). apply fs_rec_ok_dec, HR.
Qed.

Definition hashed_child (fold : bool) (id : Z) (s : list Z) (inode : Z) : record :=
  (dir_key_hashed id (name_hash_of fold s) (utf8 s ++ [0]), dir_value_bytes inode 77 8 0 true []).

(* "a.txt" in a volume that ignores case, the only record of its leaf *)
Definition case_name : list Z := [97; 46; 116; 120; 116].
Definition case_query : list Z := [65; 46; 116; 120; 116].
Definition case1 : list record := [fx_inode 2].
Definition case2 : list record := [hashed_child true 2 case_name 16; fx_inode 16].
Ltac in_cases H := repeat (destruct H as [H|H]; [subst|]); try (exfalso; exact H).
Ltac ascii := repeat (constructor; [unfold scalar; lia|]); constructor.

(* The full statement is false: a branch node is searched with the case of the string, so
   "A.txt" is not found although "a.txt" exists. *)
Theorem C22_case_insensitive_lookup_refuted : exists (tie : list Z -> list Z -> Prop) h t recs id q r e s,
  (forall a b c, tie a b -> tie b c -> tie a c) /\ fs_tree tie h t recs /\ 0 <= id < 2 ^ 60 /\
  directory true true id recs /\ name_order tie true true id recs /\ (exists r, In r recs /\ has 3 id r = true) /\
  file_name q /\ name_hash_of true q <> 0 /\ (forall r e s, named true true id recs r e s -> de_hash e <> 0) /\
  named true true id recs r e s /\ same_name true s q /\ fs_record t utf8_next true id (utf8 q) = Ok None.
Proof.
  pose (e := mk_de (utf8 case_name ++ [0]) (name_hash_of true case_name) 16 77).
  assert (ND : forall r, In r (case1 ++ case2) -> has 9 2 r = true -> r = hashed_child true 2 case_name 16).
  { intros r Hr Hh. destruct Hr as [E|[E|[E|[]]]]; subst r; [vm_compute in Hh; discriminate|reflexivity|vm_compute in Hh; discriminate]. }
  assert (NN : named true true 2 (case1 ++ case2) (hashed_child true 2 case_name 16) e case_name).
  { split; [right; left; reflexivity|]. split; [vm_compute; reflexivity|]. split.
    - exists 8, 0, true, []. unfold e. cbn [de_name de_hash de_inode de_added]. split; [right; split; [reflexivity|vm_compute; split; congruence]|].
      split; [reflexivity|]. split; [vm_compute; split; congruence|]. split; [lia|]. split; [lia|]. split; [vm_compute; reflexivity|]. split; constructor.
    - split; [ascii|]. split; [right; reflexivity|reflexivity]. }
  exists fx_tie, 1%nat, (two case1 case2), (case1 ++ case2), 2, case_query, (hashed_child true 2 case_name 16), e, case_name.
  split; [unfold fx_tie; intros; lia|]. split; [apply two_tree; vm_compute; reflexivity|]. split; [lia|].
  split; [intros r Hr Hh; rewrite (ND r Hr Hh); eauto|].
  split. { intros a b ea eb sa sb (A1 & A2 & _) (B1 & B2 & _) T. rewrite (ND a A1 A2), (ND b B1 B2) in T. unfold fx_tie in T. lia. }
  split; [exists (fx_inode 2); split; [left; reflexivity|vm_compute; reflexivity]|].
  split; [ascii|]. split; [vm_compute; discriminate|].
  split. { intros r e0 s (A1 & A2 & A3 & _). rewrite (ND r A1 A2) in A3. apply dir_rec_read in A3.
    assert (X : read_dentry (hashed_child true 2 case_name 16) = Ok e) by (apply dir_rec_read with (id := 2); apply NN).
    assert (e0 = e) by congruence. subst e0. vm_compute. discriminate. }
  split; [exact NN|]. split; [vm_compute; reflexivity|vm_compute; reflexivity].
Qed.
Print Assumptions C22_case_insensitive_lookup_refuted.

(* "selukb" has the hash 0; "aaaaaaaa" follows it, in the next leaf *)
Definition zero_name : list Z := [115; 101; 108; 117; 107; 98].
Definition zero_other : list Z := [97; 97; 97; 97; 97; 97; 97; 97].
Definition zero1 : list record := [fx_inode 2; hashed_child false 2 zero_name 16].
Definition zero2 : list record := [hashed_child false 2 zero_other 17; fx_inode 16].

(* False for names with the hash 0 on volumes that respect case as well: they are compared
   by name, other names by hash. *)
Theorem C22_zero_hash_lookup_refuted : exists (tie : list Z -> list Z -> Prop) h t recs id q r e,
  (forall a b c, tie a b -> tie b c -> tie a c) /\ fs_tree tie h t recs /\ 0 <= id < 2 ^ 60 /\
  directory true false id recs /\ name_order tie true false id recs /\ (exists r, In r recs /\ has 3 id r = true) /\
  named true false id recs r e q /\ fs_record t utf8_next false id (utf8 q) = Ok None.
Proof.
  pose (e1 := mk_de (utf8 zero_name ++ [0]) (name_hash_of false zero_name) 16 77).
  pose (e2 := mk_de (utf8 zero_other ++ [0]) (name_hash_of false zero_other) 17 77).
  pose (r1 := hashed_child false 2 zero_name 16). pose (r2 := hashed_child false 2 zero_other 17).
  assert (ND : forall r, In r (zero1 ++ zero2) -> has 9 2 r = true -> r = r1 \/ r = r2).
  { intros r Hr Hh. destruct Hr as [E|[E|[E|[E|[]]]]]; subst r; [vm_compute in Hh; discriminate|left; reflexivity|right; reflexivity|vm_compute in Hh; discriminate]. }
  assert (N1 : named true false 2 (zero1 ++ zero2) r1 e1 zero_name).
  { split; [right; left; reflexivity|]. split; [vm_compute; reflexivity|]. split.
    - exists 8, 0, true, []. unfold e1. cbn [de_name de_hash de_inode de_added]. split; [right; split; [reflexivity|vm_compute; split; congruence]|].
      split; [reflexivity|]. split; [vm_compute; split; congruence|]. split; [lia|]. split; [lia|]. split; [vm_compute; reflexivity|]. split; constructor.
    - split; [ascii|]. split; [right; reflexivity|reflexivity]. }
  assert (N2 : named true false 2 (zero1 ++ zero2) r2 e2 zero_other).
  { split; [right; right; left; reflexivity|]. split; [vm_compute; reflexivity|]. split.
    - exists 8, 0, true, []. unfold e2. cbn [de_name de_hash de_inode de_added]. split; [right; split; [reflexivity|vm_compute; split; congruence]|].
      split; [reflexivity|]. split; [vm_compute; split; congruence|]. split; [lia|]. split; [lia|]. split; [vm_compute; reflexivity|]. split; constructor.
    - split; [ascii|]. split; [right; reflexivity|reflexivity]. }
  assert (X1 : read_dentry r1 = Ok e1) by (apply dir_rec_read with (id := 2); apply N1).
  assert (X2 : read_dentry r2 = Ok e2) by (apply dir_rec_read with (id := 2); apply N2).
  exists fx_tie, 1%nat, (two zero1 zero2), (zero1 ++ zero2), 2, zero_name, r1, e1.
  split; [unfold fx_tie; intros; lia|]. split; [apply two_tree; vm_compute; reflexivity|]. split; [lia|].
  split. { intros r Hr Hh. destruct (ND r Hr Hh) as [E|E]; subst r; eauto. }
  split.
  { intros a b ea eb sa sb (A1 & A2 & A3 & _) (B1 & B2 & B3 & _) T. apply dir_rec_read in A3. apply dir_rec_read in B3.
    destruct (ND a A1 A2), (ND b B1 B2); subst a b; try (unfold fx_tie in T; lia).
    - left. assert (ea = e1) by congruence. assert (eb = e2) by congruence. subst ea eb. vm_compute. reflexivity.
    - exfalso. revert T. unfold fx_tie. vm_compute. discriminate. }
  split; [exists (fx_inode 2); split; [left; reflexivity|vm_compute; reflexivity]|].
  split; [exact N1|vm_compute; reflexivity].
Qed.
Print Assumptions C22_zero_hash_lookup_refuted.

(* what the lookup says for names in both leaves, present or not *)
Example C22_example : map (fun c => fs_record fx utf8_next false 2 [c]) [97; 98; 99] =
  [Ok (Some (mk_de [97; 0] 0 16 77)); Ok (Some (mk_de [98; 0] 0 17 77)); Ok None] /\
  fs_record (two case1 case2) utf8_next true 2 case_name = Ok (Some (mk_de (case_name ++ [0]) (name_hash_of true case_name) 16 77)) /\
  fs_record (two zero1 zero2) utf8_next false 2 zero_other = Ok (Some (mk_de (zero_other ++ [0]) (name_hash_of false zero_other) 17 77)).
Proof. vm_compute. auto. Qed.
Lemma fx_child_named id c i : In (fx_child id c i) fx_recs -> has 9 id (fx_child id c i) = true -> 0 < c < 128 -> 0 <= i < 2 ^ 64 ->
  named false false id fx_recs (fx_child id c i) (mk_de [c; 0] 0 i 77) [c].
Proof.
  intros HI HH Hc Hi. split; [exact HI|]. split; [exact HH|]. split.
  - exists 8, 0, true, []. cbn [de_name de_hash de_inode de_added]. split; [left; split; reflexivity|].
    split; [reflexivity|]. split; [unfold len; cbn; lia|]. split; [lia|]. split; [lia|]. split; [vm_compute; reflexivity|]. split; constructor.
  - split; [constructor; [unfold scalar; lia|constructor]|]. split; [right|reflexivity].
    cbn [utf8 map concat de_name]. unfold utf8_char. replace (c <? 128) with true by lia. reflexivity.
Qed.
Lemma fx_dir r : In r fx_recs -> has 9 2 r = true -> r = fx_child 2 97 16 \/ r = fx_child 2 98 17.
Proof.
  intros HI HH. unfold fx_recs in HI. cbn [fx_leaf1 fx_leaf2 app] in HI.
  destruct HI as [E|[E|[E|[E|[E|[E|[E|[]]]]]]]]; subst r; auto; vm_compute in HH; discriminate.
Qed.
(* the conditions of the theorem hold of the example tree *)
Example C22_example_conditions : directory false false 2 fx_recs /\ name_order fx_tie false false 2 fx_recs.
Proof.
  assert (N1 : named false false 2 fx_recs (fx_child 2 97 16) (mk_de [97; 0] 0 16 77) [97])
    by (apply fx_child_named; [right; left; reflexivity|vm_compute; reflexivity|lia|lia]).
  assert (N2 : named false false 2 fx_recs (fx_child 2 98 17) (mk_de [98; 0] 0 17 77) [98])
    by (apply fx_child_named; [right; right; left; reflexivity|vm_compute; reflexivity|lia|lia]).
  assert (U : forall r e s, named false false 2 fx_recs r e s -> (r = fx_child 2 97 16 /\ de_hash e = 0 /\ s = [97]) \/ (r = fx_child 2 98 17 /\ de_hash e = 0 /\ s = [98])).
  { intros r e s (A1 & A2 & A3 & A4 & A5 & A6). apply dir_rec_read in A3.
    assert (P : forall c i, r = fx_child 2 c i -> named false false 2 fx_recs (fx_child 2 c i) (mk_de [c; 0] 0 i 77) [c] -> de_hash e = 0 /\ s = [c]).
    { intros c i -> (_ & _ & B & B2 & B3 & _). apply dir_rec_read in B. assert (e = mk_de [c; 0] 0 i 77) by congruence. subst e.
      split; [reflexivity|]. cbn [de_name] in *.
      destruct (file_name_strip s _ A4 A5) as (C1 & C2). destruct (file_name_strip [c] _ B2 B3) as (C3 & C4). rewrite C3 in C1.
      destruct s as [|x s]; [exfalso; change (utf8 [c]) with (utf8_char c ++ []) in C1; rewrite app_nil_r in C1; exact (utf8_char_nonempty c C1)|].
      apply Forall_inv in C2 as C5. apply Forall_inv in C4. apply Forall_inv_tail in C2.
      assert (D : utf8_next (utf8 [c]) = utf8_next (utf8 (x :: s))) by congruence.
      change (utf8 [c]) with (utf8_char c ++ []) in D. change (utf8 (x :: s)) with (utf8_char x ++ utf8 s) in D.
      rewrite !utf8_char_next in D by assumption. assert (c = x /\ utf8 s = []) as (-> & E) by (split; congruence).
      destruct s as [|y s]; [reflexivity|]. exfalso. cbn [utf8 map concat] in E. apply app_eq_nil in E. eapply utf8_char_nonempty, E. }
    destruct (fx_dir r A1 A2) as [E|E]; [left|right]; split; auto; eapply P; eauto. }
  split.
  - intros r Hr Hh. destruct (fx_dir r Hr Hh) as [E|E]; subst r; eauto.
  - intros a b ea eb sa sb Na Nb T.
    destruct (U _ _ _ Na) as [(-> & H1 & ->)|(-> & H1 & ->)]; destruct (U _ _ _ Nb) as [(-> & H2 & ->)|(-> & H2 & ->)];
      try (exfalso; revert T; unfold fx_tie; lia).
    + right. split; [lia|]. apply cmp_key_lt. vm_compute. reflexivity.
    + exfalso. revert T. unfold fx_tie. vm_compute. discriminate.
Qed.

(* ---- the same string in UTF-16 ---- *)
Lemma name_leaf_ext c1 c2 look es : (forall k, c1 k = c2 k) -> name_leaf c1 look es = name_leaf c2 look es.
Proof.
  intros H. induction es as [|e es IH]; [reflexivity|]. cbn [name_leaf]. rewrite IH. destruct (fs_word e); try reflexivity. cbn [bind].
  destruct (_ =? _); [|reflexivity]. destruct (dir_key (fst e)); try reflexivity. cbn [bind]. rewrite H. reflexivity.
Qed.
Lemma name_branch_ext c1 c2 id es : (forall k, c1 k = c2 k) -> forall p, name_branch c1 id p es = name_branch c2 id p es.
Proof.
  intros H. induction es as [|e es IH]; intros p; [reflexivity|]. cbn [name_branch]. destruct (fs_word e); try reflexivity. cbn [bind].
  destruct (_ || _); [reflexivity|]. destruct (_ && _); [|apply IH]. destruct (dir_key (fst e)) as [k| | |]; try reflexivity. cbn [bind]. rewrite H.
  destruct (c2 k) as [[]| | |]; try reflexivity; cbn [bind]; apply IH.
Qed.
Lemma name_visit_ext ld l1 l2 b1 b2 id : (forall k, l1 k = l2 k) -> (forall k, b1 k = b2 k) -> forall f d n,
  visit (pure ld) (name_walker l1 b1 id) f d n tt = visit (pure ld) (name_walker l2 b2 id) f d n tt.
Proof.
  intros HL HB. induction f as [|f IH]; intros d n; [reflexivity|]. cbn [visit]. destruct (is_leaf n).
  - cbn [wk_lim wk_leaf name_walker]. rewrite (name_leaf_ext l1 l2) by exact HL. reflexivity.
  - destruct (_ <? _); [reflexivity|]. cbn [wk_plan wk_start name_walker visit_children]. rewrite (name_branch_ext b1 b2) by exact HB.
    unfold bindM. cbn [retM]. destruct (let! e := name_branch b2 id None (bn_entries n) in fs_child e) as [o| | |]; try reflexivity.
    change (pure ld o tt) with (ld o, tt). destruct (ld o) as [m| | |]; try reflexivity. rewrite IH. reflexivity.
Qed.
Lemma fs_record_utf16 t fold id s : Forall scalar s -> fs_record t utf16_next fold id (utf16 s) = fs_record t utf8_next fold id (utf8 s).
Proof.
  intros H. unfold fs_record, find_record. destruct (fs_root t) as [[n|]| | |]; cbn [bind]; [|reflexivity|reflexivity|reflexivity|reflexivity].
  pose proof (C27_hash_utf16 fold s H) as HH. unfold hash_utf16, hash_utf8 in HH. rewrite HH. unfold bindM. cbn [retM].
  
  destruct (name_hash utf8_next fold (utf8 s)) as [h| | |]; [|reflexivity|reflexivity|reflexivity].
  match goal with |- fst ?a = fst ?b => enough (E : a = b) by (rewrite E; reflexivity) end.
  assert (HC : forall f k, record_compare utf16_next f h (utf16 s) k = record_compare utf8_next f h (utf8 s) k).
  { intros f k. unfold record_compare. pose proof (C27_compare_utf16 f (fst k) s H) as X. unfold compare_utf16, compare_utf8 in X. rewrite X. reflexivity. }
  apply name_visit_ext; apply HC.
Qed.
(* A name in UTF-16 is found whenever it is in UTF-8, for all images. *)
Theorem C22_name_lookup_utf16 : forall t fold id s, Forall scalar s ->
  fs_record t utf16_next fold id (utf16 s) = fs_record t utf8_next fold id (utf8 s).
Proof. exact fs_record_utf16. Qed.
Print Assumptions C22_name_lookup_utf16.

(* ---- C23 ---- *)

Lemma split_spec p : match split p with (init, last) =>
  p = concat (map (fun c => c ++ [47]) init) ++ last /\ Forall (fun c => ~ In 47 c) init /\ ~ In 47 last end.
Proof.
  induction p as [|c p IH]; [cbn; auto|]. cbn [split]. destruct (split p) as [init last]. destruct IH as (IH1 & IH2 & IH3).
  destruct (c =? 47) eqn:E.
  - assert (c = 47) by lia. subst c. split; [cbn; f_equal; exact IH1|]. split; [constructor; auto|exact IH3].
  - destruct init as [|i init].
    + split; [cbn in *; congruence|]. split; [constructor|]. intros [X|X]; [lia|auto].
    + apply Forall_inv in IH2 as IH4. apply Forall_inv_tail in IH2.
      split; [cbn in *; congruence|]. split; [constructor; [|exact IH2]|exact IH3]. intros [X|X]; [lia|auto].
Qed.

Section Paths.
  Variables (next : list Z -> res (Z * list Z)) (enc : Z -> list Z).
  Hypothesis Hnext : forall c r, scalar c -> next (enc c ++ r) = Ok (c, r).
  Hypothesis Hne : forall c, enc c <> [].
  Hypothesis Hsep : enc 47 = [47].
  Hypothesis Hother : forall c, scalar c -> c <> 47 -> hd 0 (enc c) <> 47.
  Notation encs s := (concat (map enc s)).

  Lemma encs_app a b : encs (a ++ b) = encs a ++ encs b.
  Proof. rewrite map_app, concat_app. reflexivity. Qed.
  Lemma enc_len c : (1 <= length (enc c))%nat.
  Proof. pose proof (Hne c). destruct (enc c); [congruence|cbn; lia]. Qed.
  Lemma encs_nil s : encs s = [] -> s = [].
  Proof. destruct s as [|c s]; [reflexivity|]. cbn. intros H. apply app_eq_nil in H. destruct (Hne c). apply H. Qed.
  Lemma encs_cons c s : encs (c :: s) = enc c ++ encs s.
  Proof. reflexivity. Qed.
  Lemma segment_enc_gen rest tail : forall a fuel, file_name a -> ~ In 47 a ->
    (length (encs a) + 1 <= fuel)%nat ->
    (forall fuel, (1 <= fuel)%nat -> segment next fuel rest = Ok ([], tail)) ->
    segment next fuel (encs a ++ rest) = Ok (encs a, tail).
  Proof.
    induction a as [|c a IH]; intros fuel HF HN HL HR; [cbn [map concat app]; apply HR; cbn in HL; lia|].
    rewrite encs_cons, <- app_assoc. apply Forall_inv in HF as HF1. apply Forall_inv_tail in HF. destruct HF1 as (F1 & F2).
    rewrite encs_cons, app_length in HL. pose proof (enc_len c). pose proof (Hne c).
    destruct fuel as [|fuel]; [lia|]. cbn [segment]. pose proof (Hnext c (encs a ++ rest) F1) as NX.
    destruct (enc c ++ encs a ++ rest) as [|y l] eqn:EL; [apply app_eq_nil in EL; destruct EL; congruence|].
    rewrite NX. cbn [bind]. assert (c <> 47) by (intros ->; apply HN; left; reflexivity).
    replace ((c =? 47) || (c =? 0)) with false by lia.
    rewrite IH; [|exact HF|intros X; apply HN; right; exact X|lia|exact HR]. cbn [bind]. do 2 f_equal. rewrite <- EL.
    rewrite app_length. replace (length (enc c) + length (encs a ++ rest) - length (encs a ++ rest))%nat with (length (enc c) + 0)%nat by lia.
    rewrite firstn_app_2. cbn. rewrite app_nil_r. reflexivity.
  Qed.
  Lemma segment_last a fuel : file_name a -> ~ In 47 a -> (length (encs a) + 1 <= fuel)%nat -> segment next fuel (encs a) = Ok (encs a, []).
  Proof.
    intros HF HN HL. rewrite <- (app_nil_r (encs a)) at 1. apply segment_enc_gen; auto. intros [|f] Hf; [lia|reflexivity].
  Qed.
  Lemma segment_fuel_ge : forall l f f', segment next f l <> Fuel -> (f <= f')%nat -> segment next f' l = segment next f l.
  Proof.
    intros l f. revert l. induction f as [|f IH]; intros l f' H HL.
    - destruct l; [destruct f'; reflexivity|]. cbn in H. congruence.
    - destruct f' as [|f']; [lia|]. cbn [segment] in *. destruct l as [|x l]; [reflexivity|].
      destruct (next (x :: l)) as [[c r]| | |]; try reflexivity. cbn [bind] in *. destruct (_ || _); [reflexivity|].
      rewrite (IH r f'); [reflexivity| |lia]. intros E. rewrite E in H. cbn in H. congruence.
  Qed.
  Lemma segment_first a b fuel : file_name a -> ~ In 47 a -> (length (encs a) + 1 <= fuel)%nat ->
    segment next fuel (encs (a ++ 47 :: b)) = Ok (encs a, encs b).
  Proof.
    intros HF HN HL. rewrite encs_app, encs_cons, Hsep. apply segment_enc_gen; auto.
    intros [|f] Hf; [lia|]. cbn [app segment]. pose proof (Hnext 47 (encs b)) as NX. rewrite Hsep in NX. cbn [app] in NX.
    rewrite NX by (left; lia). reflexivity.
  Qed.

  Variables (t : fs) (fold : bool) (n : bnode).
  Hypothesis Hroot : fs_root t = Ok (Some n).
  Notation look := (fun i c => fs_record t next fold i (encs c)).
  Lemma find_record_look i c : fst (find_record unit (pure (fs_sub t)) next fold n i (encs c) tt) = look i c.
  Proof. unfold fs_record. rewrite Hroot. reflexivity. Qed.

  Lemma segment_last' a : file_name a -> ~ In 47 a -> a <> [] -> segment next (length (encs a)) (encs a) = Ok (encs a, []).
  Proof.
    intros HF HN HA. destruct (exists_last HA) as (a' & c & ->). rewrite encs_app. cbn [map concat]. rewrite app_nil_r.
    assert (HF' : file_name a') by (apply Forall_app in HF; apply HF).
    assert (Hc : scalar c /\ c <> 0) by (apply Forall_app in HF; destruct HF as (_ & HF); apply Forall_inv in HF; exact HF).
    assert (c <> 47) by (intros ->; apply HN; apply in_or_app; right; left; reflexivity).
    pose proof (enc_len c). clear HA HF.
    assert (G : forall fuel, (length (encs a') + 1 <= fuel)%nat -> segment next fuel (encs a' ++ enc c) = Ok (encs a' ++ enc c, [])).
    { induction a' as [|x a' IH]; intros fuel HL.
      - cbn [map concat app]. destruct fuel as [|fuel]; [lia|]. cbn [segment]. pose proof (Hnext c [] (proj1 Hc)) as NX. rewrite app_nil_r in NX. pose proof (Hne c).
        destruct (enc c) as [|y l]; [congruence|]. rewrite NX. cbn [bind]. replace ((c =? 47) || (c =? 0)) with false by lia.
        replace (segment next fuel []) with (Ok (@nil Z, @nil Z)) by (destruct fuel; reflexivity). cbn [bind]. rewrite app_nil_r.
        cbn [length Nat.sub]. rewrite firstn_all2 by (cbn; lia). reflexivity.
      - rewrite encs_cons, <- app_assoc. apply Forall_inv in HF' as HF1. apply Forall_inv_tail in HF'. destruct HF1 as (F1 & F2).
        rewrite encs_cons, app_length in HL. pose proof (enc_len x). pose proof (Hne x).
        destruct fuel as [|fuel]; [lia|]. cbn [segment]. pose proof (Hnext x (encs a' ++ enc c) F1) as NX.
        destruct (enc x ++ encs a' ++ enc c) as [|y l] eqn:EL; [apply app_eq_nil in EL; destruct EL; congruence|].
        rewrite NX. cbn [bind]. assert (x <> 47) by (intros ->; apply HN; left; reflexivity).
        replace ((x =? 47) || (x =? 0)) with false by lia.
        rewrite IH; [|intros X; apply HN; right; exact X|exact HF'|lia]. cbn [bind]. do 2 f_equal. rewrite <- EL.
        rewrite app_length. replace (length (enc x) + length (encs a' ++ enc c) - length (encs a' ++ enc c))%nat with (length (enc x) + 0)%nat by lia.
        rewrite firstn_app_2. cbn. rewrite app_nil_r. reflexivity. }
    apply G. rewrite app_length. lia.
  Qed.

  Lemma path_loop_descend : forall init last fuel id rec, Forall file_name init -> Forall (fun c => ~ In 47 c) init ->
    file_name last -> ~ In 47 last ->
    (length (encs (concat (map (fun c => c ++ [47%Z]) init) ++ last)) <= fuel)%nat ->
    fst (path_loop unit (pure (fs_sub t)) next fold n fuel id rec (encs (concat (map (fun c => c ++ [47]) init) ++ last)) tt) =
    descend look id rec (init ++ match last with [] => [] | _ => [last] end).
  Proof.
    induction init as [|c init IH]; intros last fuel id rec HF HN FL NL Hfuel.
    - cbn [map concat app] in *. destruct last as [|x last]; [destruct fuel; reflexivity|].
      remember (x :: last) as a eqn:EA. assert (AN : a <> []) by (subst; discriminate).
      pose proof (encs_nil a) as EN. pose proof (segment_last' a FL NL AN) as SG.
      destruct (encs a) as [|y l] eqn:EL; [destruct AN; auto|]. destruct fuel as [|fuel]; [cbn in Hfuel; lia|].
      cbn [path_loop]. rewrite bind_fst. cbn [retM fst]. rewrite SG. cbn [bind fst snd]. rewrite bind_fst, <- EL, find_record_look.
      cbn [app descend]. destruct a as [|a0 a]; [congruence|]. destruct (fs_record t next fold id (encs (a0 :: a))) as [[d|]| | |]; try reflexivity.
      cbn [bind]. destruct fuel; reflexivity.
    - apply Forall_inv in HF as HF1. apply Forall_inv_tail in HF. apply Forall_inv in HN as HN1. apply Forall_inv_tail in HN.
      cbn [map concat app] in *. rewrite <- !app_assoc in *. cbn [app] in *.
      remember (concat (map (fun c => c ++ [47]) init) ++ last) as rest eqn:ER.
      assert (SG : segment next (length (encs (c ++ 47 :: rest))) (encs (c ++ 47 :: rest)) = Ok (encs c, encs rest)).
      { apply segment_first; auto. rewrite encs_app, encs_cons, Hsep, app_length. cbn [app length]. lia. }
      assert (LE : (length (encs rest) < length (encs (c ++ 47%Z :: rest)))%nat).
      { rewrite encs_app, encs_cons, Hsep, app_length. cbn [app length]. lia. }
      destruct (encs (c ++ 47 :: rest)) as [|y l] eqn:EL; [cbn in LE; lia|]. destruct fuel as [|fuel]; [cbn in Hfuel; lia|].
      cbn [path_loop]. rewrite bind_fst. cbn [retM fst]. rewrite SG. cbn [bind fst snd descend]. pose proof (encs_nil c) as EN.
      destruct c as [|c0 c]; [reflexivity|]. remember (c0 :: c) as a eqn:EA.
      destruct (encs a) as [|z m] eqn:EM; [subst a; specialize (EN eq_refl); discriminate|]. rewrite bind_fst, <- EM, find_record_look.
      destruct (fs_record t next fold id (encs a)) as [[d|]| | |]; try reflexivity. cbn [bind]. subst rest. apply IH; auto. lia.
  Qed.

  Theorem path_components id p : file_name p -> 2 <= len (encs p) ->
    fs_by_path t next fold id (encs p) =
      let! r := descend look id None (components p) in
      match r with
      | None => Ok None
      | Some (i, d) => let! x := fs_inode t i in match x with Some x => Ok (Some (x, d)) | None => Fail end
      end.
  Proof.
    intros HP HL. unfold fs_by_path, inode_by_path. rewrite bind_fst. cbn [retM fst]. rewrite Hroot. cbn [bind]. rewrite bind_fst.
    replace ((len (encs p) =? 0) || (len (encs p) =? 1)) with false by lia.
    pose (p' := match p with 47 :: p' => p' | _ => p end).
    assert (T : (match encs p with 47 :: l => l | _ => encs p end) = encs p').
    { unfold p'. destruct p as [|c p]; [reflexivity|]. destruct (Z.eq_dec c 47) as [->|NE].
      - rewrite encs_cons, Hsep. reflexivity.
      - apply Forall_inv in HP. pose proof (Hother c (proj1 HP) NE) as HO. pose proof (Hne c).
        replace (match c :: p with 47 :: p'' => p'' | _ => c :: p end) with (c :: p)
          by (destruct c as [|q|q]; try reflexivity; repeat (destruct q as [q|q|]; try reflexivity); congruence).
        rewrite encs_cons. destruct (enc c) as [|y l]; [congruence|]. cbn [hd] in HO. cbn [app].
        destruct y as [|q|q]; try reflexivity; repeat (destruct q as [q|q|]; try reflexivity); congruence. }
    rewrite T. assert (HP' : file_name p').
    { unfold p'. destruct p as [|c p]; [constructor|]. destruct (Z.eq_dec c 47) as [->|NE]; [apply Forall_inv_tail in HP; exact HP|].
      destruct c as [|q|q]; try exact HP; repeat (destruct q as [q|q|]; try exact HP); congruence. }
    assert (LE : (length (encs p') <= length (encs p))%nat).
    { unfold p'. destruct p as [|c p]; [lia|]. destruct (Z.eq_dec c 47) as [->|NE]; [rewrite encs_cons, Hsep; cbn; lia|].
      destruct c as [|q|q]; try lia; repeat (destruct q as [q|q|]; try lia). }
    pose proof (split_spec p') as SP. unfold components. fold p'. destruct (split p') as [init last]. destruct SP as (S1 & S2 & S3).
    assert (FI : Forall file_name init /\ file_name last).
    { clearbody p'. clear - HP' S1. subst p'. apply Forall_app in HP'. split; [|apply HP']. destruct HP' as (HP' & _). induction init as [|c init IH]; constructor.
      - cbn in HP'. rewrite <- app_assoc in HP'. apply Forall_app in HP'. apply HP'.
      - apply IH. cbn in HP'. apply Forall_app in HP'. apply HP'. }
    rewrite S1. rewrite path_loop_descend; [|apply FI|exact S2|apply FI|exact S3|rewrite <- S1; exact LE].
    destruct (descend look id None _) as [[[i d]|]| | |]; try reflexivity. cbn [bind]. rewrite bind_fst. unfold fs_inode, fs_walk, entry_of. rewrite ?Hroot.
    destruct (fst (walk (retM (Ok (Some n))) (pure (fs_sub t)) (fs_id_walker i 3) tt)) as [[e|]| | |]; try reflexivity. cbn [bind inode_finish retM fst].
    destruct (read_inode e); reflexivity.
  Qed.
End Paths.

Lemma utf8_sep c : scalar c -> c <> 47 -> hd 0 (utf8_char c) <> 47.
Proof.
  intros H N. unfold scalar in H. unfold utf8_char. destruct (c <? 0x80); [cbn [hd]; lia|]. destruct (c <? 0x800) eqn:E2; [cbn [hd]; lia|]. destruct (c <? 0x10000) eqn:E3; cbn [hd]; lia.
Qed.
Lemma utf16_sep c : scalar c -> c <> 47 -> hd 0 (utf16_char c) <> 47.
Proof. intros H N. unfold scalar in H. unfold utf16_char. destruct (c <? 0x10000) eqn:E; cbn [hd]; lia. Qed.

(* The entry a list of components leads to, and its inode. *)
Definition resolve (t : fs) (look : Z -> list Z -> res (option dentry)) (id : Z) (cs : list (list Z)) : res (option (Z * inode * option dentry)) :=
  let! r := descend look id None cs in
  match r with
  | None => Ok None
  | Some (i, d) => let! x := fs_inode t i in match x with Some x => Ok (Some (x, d)) | None => Fail end
  end.

(* For every image and every path of two or more units (bytes or 16-bit units). *)
Theorem C23_path_components_partial : forall t fold id n p, fs_root t = Ok (Some n) -> file_name p ->
  (2 <= len (utf8 p) -> fs_by_path t utf8_next fold id (utf8 p) =
     resolve t (fun i c => fs_record t utf8_next fold i (utf8 c)) id (components p)) /\
  (2 <= len (utf16 p) -> fs_by_path t utf16_next fold id (utf16 p) =
     resolve t (fun i c => fs_record t utf16_next fold i (utf16 c)) id (components p)).
Proof.
  intros t fold id n p HR HP. split; intros HL.
  - apply (path_components utf8_next utf8_char utf8_char_next utf8_char_nonempty eq_refl utf8_sep t fold n HR id p HP HL).
  - apply (path_components utf16_next utf16_char utf16_char_next utf16_char_nonempty eq_refl utf16_sep t fold n HR id p HP HL).
Qed.
Print Assumptions C23_path_components_partial.

(* The empty path and the separator give the directory. *)
Theorem C23_empty_path : forall t fold id x, fs_inode t id = Ok (Some x) ->
  fs_by_path t utf8_next fold id [] = Ok (Some (x, None)) /\ fs_by_path t utf8_next fold id [47] = Ok (Some (x, None)) /\
  fs_by_path t utf16_next fold id [] = Ok (Some (x, None)) /\ fs_by_path t utf16_next fold id [47] = Ok (Some (x, None)).
Proof.
  intros t fold id x H.
  assert (G : forall next str, (len str =? 0) || (len str =? 1) = true -> fs_by_path t next fold id str = Ok (Some (x, None))).
  { intros next str HL. unfold fs_by_path, inode_by_path. rewrite bind_fst. cbn [retM fst].
    unfold fs_inode, fs_walk in H. destruct (fs_root t) as [[n|]| | |] eqn:ER.
    - cbn [bind]. rewrite bind_fst, HL. cbn [retM fst bind]. rewrite bind_fst. unfold entry_of.
      destruct (fst (walk (retM (Ok (Some n))) (pure (fs_sub t)) (fs_id_walker id 3) tt)) as [[e|]| | |]; cbn [bind inode_finish] in H; try discriminate.
      cbn [bind retM fst]. destruct (read_inode e) as [v| | |]; cbn [bind] in *; congruence.
    - unfold walk, bindM, retM in H. cbn in H. discriminate.
    - unfold walk, bindM, retM in H. cbn in H. discriminate.
    - unfold walk, bindM, retM in H. cbn in H. discriminate.
    - unfold walk, bindM, retM in H. cbn in H. discriminate. }
  split; [apply G; reflexivity|]. split; [apply G; reflexivity|]. split; apply G; reflexivity.
Qed.
Print Assumptions C23_empty_path.

(* A component that does not exist: not found. *)
Theorem C23_missing_component : forall t fold id n p before c after i d, fs_root t = Ok (Some n) -> file_name p -> 2 <= len (utf8 p) ->
  components p = before ++ c :: after ->
  descend (fun i c => fs_record t utf8_next fold i (utf8 c)) id None before = Ok (Some (i, d)) ->
  c = [] \/ fs_record t utf8_next fold i (utf8 c) = Ok None ->
  fs_by_path t utf8_next fold id (utf8 p) = Ok None.
Proof.
  intros t fold id n p before c after i d HR HP HL HC HB HM.
  rewrite (proj1 (C23_path_components_partial t fold id n p HR HP) HL), HC. unfold resolve.
  enough (E : descend (fun i c => fs_record t utf8_next fold i (utf8 c)) id None (before ++ c :: after) = Ok None) by (rewrite E; reflexivity).
  clear HC HP HL HR. revert id HB. generalize (@None dentry) as rec. induction before as [|b before IH]; intros rec id HB.
  - cbn [app descend] in *. assert (id = i) by congruence. subst id. destruct HM as [->|HM]; [reflexivity|]. destruct c; [reflexivity|]. rewrite HM. reflexivity.
  - cbn [app descend] in *. destruct b as [|b0 b]; [discriminate|].
    destruct (fs_record t utf8_next fold id (utf8 (b0 :: b))) as [[e|]| | |]; cbn [bind] in *; try discriminate. apply (IH _ _ HB).
Qed.
Print Assumptions C23_missing_component.

Example C23_example :
  map components [[47]; [47; 97]; [97; 47; 98]; [47; 97; 47; 98; 47]; [97; 47; 47; 98]] = [[]; [[97]]; [[97]; [98]]; [[97]; [98]]; [[97]; []; [98]]] /\
  (match fs_by_path fx utf8_next false 2 [47; 97] with Ok (Some (i, _, Some d)) => (i, de_inode d) | _ => (-1, -1) end) = (16, 16) /\
  (match fs_by_path fx utf8_next false 2 [47; 97; 47] with Ok (Some (i, _, Some d)) => (i, de_inode d) | _ => (-1, -1) end) = (16, 16) /\
  fs_by_path fx utf8_next false 2 [47; 97; 47; 98] = Ok None /\ fs_by_path fx utf8_next false 2 [47; 99] = Ok None.
Proof. vm_compute. auto. Qed.

(* The full statement is false: a path of a single character that is not the separator gives
   the directory, not its child, and even if there is no such child. *)
Theorem C23_one_character_path_refuted : exists t p q d x,
  fs_record t utf8_next false 2 p = Ok (Some d) /\ de_inode d = 16 /\ fs_record t utf8_next false 2 q = Ok None /\
  components p = [p] /\ components q = [q] /\
  fs_by_path t utf8_next false 2 p = Ok (Some (2, x, None)) /\ fs_by_path t utf8_next false 2 q = Ok (Some (2, x, None)).
Proof.
  exists fx, [97], [99], (mk_de [97; 0] 0 16 77), (match inode_value (snd (fx_inode 2)) with Ok i => i | _ => Build_inode 0 0 0 0 0 0 0 0 0 0 0 None 0 0 end).
  vm_compute. auto 10.
Qed.
Print Assumptions C23_one_character_path_refuted.

(* ---- C56 ---- *)
Lemma descend_utf16 t fold cs : Forall (Forall scalar) cs -> forall id d,
  descend (fun i c => fs_record t utf16_next fold i (utf16 c)) id d cs = descend (fun i c => fs_record t utf8_next fold i (utf8 c)) id d cs.
Proof.
  induction 1 as [|c cs H HS IH]; intros id d; cbn [descend]; [reflexivity|]. rewrite fs_record_utf16 by exact H. destruct c; cbn iota; [reflexivity|].
  destruct (fs_record t utf8_next fold id _) as [[e|]| | |]; cbn [bind]; auto.
Qed.
Lemma utf16_utf8_len s : len (utf16 s) <= len (utf8 s).
Proof.
  induction s as [|c s IH]; [cbn; lia|]. change (utf16 (c :: s)) with (utf16_char c ++ utf16 s). change (utf8 (c :: s)) with (utf8_char c ++ utf8 s).
  rewrite !len_app. enough (len (utf16_char c) <= len (utf8_char c)) by lia. unfold utf16_char, utf8_char, len.
  destruct (c <? 0x80) eqn:E1; [replace (c <? 0x10000) with true by lia; cbn; lia|]. destruct (c <? 0x800) eqn:E2; [replace (c <? 0x10000) with true by lia; cbn; lia|].
  destruct (c <? 0x10000); cbn; lia.
Qed.
Lemma components_scalar p : file_name p -> Forall (Forall scalar) (components p).
Proof.
  intros HP. unfold components. pose (p' := match p with 47 :: p' => p' | _ => p end). fold p'.
  assert (HP' : file_name p').
  { unfold p'. destruct p as [|c p]; [constructor|]. destruct (Z.eq_dec c 47) as [->|NE]; [apply Forall_inv_tail in HP; exact HP|].
    destruct c as [|q|q]; try exact HP; repeat (destruct q as [q|q|]; try exact HP); congruence. }
  pose proof (split_spec p') as SP. destruct (split p') as [init last]. destruct SP as (S1 & _ & _). clearbody p'. subst p'.
  apply Forall_app in HP'. destruct HP' as (H1 & H2).
  assert (W : forall l, file_name l -> Forall scalar l) by (intros l X; eapply Forall_impl; [|exact X]; cbn; tauto).
  apply Forall_app. split.
  - clear - H1 W. induction init as [|c init IH]; constructor.
    + cbn in H1. rewrite <- app_assoc in H1. apply Forall_app in H1. apply W, H1.
    + apply IH. cbn in H1. apply Forall_app in H1. apply H1.
  - destruct last; [constructor|]. constructor; [|constructor]. apply W, H2.
Qed.
Theorem C56_paths_utf16_partial : forall t fold id n p, fs_root t = Ok (Some n) -> file_name p -> 2 <= len (utf16 p) ->
  fs_by_path t utf16_next fold id (utf16 p) = fs_by_path t utf8_next fold id (utf8 p).
Proof.
  intros t fold id n p HR HP HL. pose proof (utf16_utf8_len p).
  destruct (C23_path_components_partial t fold id n p HR HP) as (A & B). rewrite A, B by lia. unfold resolve.
  rewrite descend_utf16 by (apply components_scalar, HP). reflexivity.
Qed.
Print Assumptions C56_paths_utf16_partial.
(* The full statement is false: a name of one unit in UTF-16 and several bytes in UTF-8. *)
Theorem C56_paths_utf16_refuted : exists t fold id p x,
  file_name p /\ fs_by_path t utf8_next fold id (utf8 p) = Ok None /\ fs_by_path t utf16_next fold id (utf16 p) = Ok (Some (2, x, None)).
Proof.
  exists fx, false, 2, [233], (match inode_value (snd (fx_inode 2)) with Ok i => i | _ => Build_inode 0 0 0 0 0 0 0 0 0 0 0 None 0 0 end).
  split; [ascii|]. vm_compute. auto.
Qed.
Print Assumptions C56_paths_utf16_refuted.
Example C56_example : forall s, s = [47; 97] ->
  fs_by_path fx utf16_next false 2 (utf16 s) = fs_by_path fx utf8_next false 2 (utf8 s) /\ is_ok (fs_by_path fx utf16_next false 2 (utf16 s)) = true.
Proof. intros s ->. vm_compute. auto. Qed.

(* ---- C24 ---- *)
(* True of names that do not exist. *)
Theorem C24_missing_name_partial : forall t fold id s str, file_name s -> spells s str ->
  fs_record t utf8_next fold id str = Ok None -> fs_by_name t utf8_next fold id str = Ok None.
Proof.
  intros t fold id s str _ _ H. unfold fs_by_name, inode_by_name, fs_record in *. rewrite bind_fst. cbn [retM fst].
  destruct (fs_root t) as [[n|]| | |]; cbn [bind] in *; try discriminate; [|reflexivity]. rewrite bind_fst, H. reflexivity.
Qed.
Print Assumptions C24_missing_name_partial.
(* No lookup by name succeeds, in whatever image. *)
Theorem C24_never_succeeds : forall t next fold id str x, fs_by_name t next fold id str <> Ok (Some x).
Proof.
  intros t next fold id str x H. unfold fs_by_name, inode_by_name in H. rewrite bind_fst in H. cbn [retM fst] in H.
  destruct (fs_root t) as [[n|]| | |]; cbn [bind] in H; try discriminate. rewrite bind_fst in H.
  destruct (fst (find_record unit (pure (fs_sub t)) next fold n id str tt)) as [[d|]| | |]; cbn [bind] in H; try discriminate.
  rewrite bind_fst in H.
  destruct (fst (entry_of unit (retM (Ok (Some n))) (pure (fs_sub t)) (de_inode d) tt)) as [[e|]| | |]; cbn in H; discriminate.
Qed.
Print Assumptions C24_never_succeeds.
(* The full statement is false. *)
Theorem C24_lookup_by_name_refuted : exists t id str d x,
  fs_record t utf8_next false id str = Ok (Some d) /\ fs_inode t (de_inode d) = Ok (Some x) /\ fs_by_name t utf8_next false id str = Fail.
Proof.
  exists fx, 2, [97], (mk_de [97; 0] 0 16 77), (16, match inode_value (snd (fx_inode 16)) with Ok i => i | _ => Build_inode 0 0 0 0 0 0 0 0 0 0 0 None 0 0 end).
  vm_compute. auto.
Qed.
Print Assumptions C24_lookup_by_name_refuted.
Example C24_example : fs_by_name fx utf8_next false 2 [99] = Ok None /\ fs_by_name fx utf8_next false 2 [98] = Fail.
Proof. vm_compute. auto. Qed.

(* ---- C21 and C54, with names and paths ---- *)
Theorem C21_lookups_terminate : forall t fold c, bytes_image (fs_img t) -> bytes_image (fs_omap t) ->
  call_plain t fold c <> Fuel /\ call_plain t fold c <> Oob.
Proof.
  intros t fold c HF HO. pose proof (call_fine t HF HO fold c) as F. destruct (call_plain t fold c); cbn in F; try contradiction; split; discriminate.
Qed.
Print Assumptions C21_lookups_terminate.
Example C21_lookups_example : fs_record fx_loop utf8_next false 5 [97] = Fail.
Proof.
  rewrite (fs_record_walk fx_loop utf8_next false 5 [97] (name_hash_of false [97])) by (vm_compute; reflexivity).
  apply (fs_loop_walk fx_loop 50). vm_compute. auto.
Qed.
Theorem C54_lookups_history_independent : forall t fold P Q evp evq, bytes_image (fs_img t) -> bytes_image (fs_omap t) ->
  (forall (p : P) l b, incl (snd (evp p l b)) l) -> (forall (q : Q) l b, incl (snd (evq q l b)) l) ->
  forall p q cs, session P Q evp evq t fold cs ((p, []), (q, [])) = map (call_plain t fold) cs.
Proof. intros. apply session_plain; auto. Qed.
Print Assumptions C54_lookups_history_independent.
Example C54_lookups_example :
  map (fun r => match r with Ok (RPath (Some (i, _, _))) => i | Ok (RPath None) => -1 | _ => -2 end)
    (session unit unit (fun p l _ => (p, firstn 1 l)) (fun p l _ => (p, [])) fx false
       [CPath8 2 [47; 97]; CPath8 2 [47; 99]; CPath16 2 [47; 97]] ((tt, []), (tt, []))) = [16; -1; 16].
Proof. vm_compute. reflexivity. Qed.
