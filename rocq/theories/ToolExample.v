(* Volumes in one node, for examples: the inodes and the entries of directories are checked by
   computation. *)
From Verif Require Import Base BaseLemmas Name NameSpec NameProofs PropName BTreeSpec BTreeProofs Walk Omap TreeSpec OmapSpec OmapTop PropOmap RecordsSpec Records RecordsProofs FsTree FsSpec FsProofs FsTop FsLookup PropFs
  FsNameSpec FsName FsNameProofs FsNameTop PropFsName Snapshot FileEntry FileSpec FileProofs FileTop PropFile EntryName EntrySpec PropEntry KeyBag EndSpec EndProofs ContainerProofs ToolInfoSpec.
Ltac Zify.zify_post_hook ::= Z.div_mod_to_equations.

Definition one_node (recs : list TreeSpec.record) : fs :=
  mk_fs (fun b => if b =? 20 then Some (node_bytes (fx_node true true recs)) else None) 20 fx_omap 30 4.
Ltac one_node_tac recs :=
  exists 0%nat, fx_orecs; split; [lia|]; split; [exact fx_omap_tree|]; split; [lia|]; split;
  [cbn [subtree]; split;
   [exists 20; split; [reflexivity|]; split; [lia|]; exists (fx_node true true recs); split; [reflexivity|];
    assert (L : len (node_bytes (fx_node true true recs)) = 4096) by (vm_compute; reflexivity);
    assert (LF : (0 <? len (nd_free (fx_node true true recs)) + len (values_area (nd_recs (fx_node true true recs)))) = true) by (vm_compute; reflexivity);
    split; [|split; [exact L|]];
    [unfold node_ok; rewrite L; unfold nd_fixed; change (nd_flags (fx_node true true recs)) with 3;
     change (Z.testbit 3 2) with false; split; [reflexivity|]; cbn [nd_type nd_subtype nd_level nd_lists nd_footer fx_node];
     split; [lia|]; split; [lia|]; split; [lia|]; split; [lia|]; split; [reflexivity|];
     split; [reflexivity|]; split; [lia|]; split; [vm_compute; auto|]; discriminate
    |split; [discriminate|]; split; [lia|]; split; [cbn; auto|]; split; [reflexivity|];
     split; [reflexivity|]; split; [reflexivity|]; split; [reflexivity|]; split; [reflexivity|reflexivity]]
   |unfold recs; fs_sorted]
  |unfold recs; repeat (apply Forall_cons || apply Forall_nil); apply fs_rec_ok_dec; vm_compute; reflexivity].

(* An entry: the directory, the name, the object. *)
Record link := mk_link { lk_dir : Z; lk_name : list Z; lk_to : Z }.
Definition link_rec (k : link) : TreeSpec.record := fz_child (lk_dir k) (lk_name k) (lk_to k).
Definition same_rec (a b : TreeSpec.record) : bool := list_eqb (fst a) (fst b) && list_eqb (snd a) (snd b).
Definition has_inode (recs : list TreeSpec.record) (id : Z) : bool :=
  (0 <=? id) && (id <? 2 ^ 60) && existsb (fun r => has 3 id r && is_ok (inode_value (snd r))) recs.
Definition link_ok (recs : list TreeSpec.record) (k : link) : bool :=
  forallb (fun c => (0 <? c) && (c <? 0x80)) (lk_name k) && (1 <=? len (lk_name k)) && (len (lk_name k) <=? 1022) &&
  has_inode recs (lk_to k) && has 9 (lk_dir k) (link_rec k) && existsb (same_rec (link_rec k)) recs.
Definition cmp_lt (a b : list (list Z)) : bool := match cmp_key a b with Lt => true | _ => false end.
Definition same_key (a b : list (list Z)) : bool := if list_eq_dec (list_eq_dec Z.eq_dec) a b then true else false.
Definition pair_ok (a b : link) : bool :=
  negb (lk_dir a =? lk_dir b) ||
  ((negb (le_val (fst (link_rec a)) <? le_val (fst (link_rec b))) || cmp_lt (name_key false (lk_name a)) (name_key false (lk_name b))) &&
   (negb (same_key (name_key true (lk_name a)) (name_key true (lk_name b))) || (list_eqb (lk_name a) (lk_name b) && (lk_to a =? lk_to b)))).
Definition links_ok (recs : list TreeSpec.record) (ks : list link) : bool :=
  forallb (fun r => negb (kty (fst r) =? 9) || existsb (fun k => same_rec r (link_rec k)) ks) recs &&
  forallb (link_ok recs) ks && forallb (fun a => forallb (pair_ok a) ks) ks.

Lemma same_rec_eq a b : same_rec a b = true -> a = b.
Proof. destruct a, b. unfold same_rec. cbn [fst snd]. rewrite andb_true_iff, !list_eqb_iff. intros (-> & ->). reflexivity. Qed.
Lemma has_inode_is recs id : has_inode recs id = true -> exists v, inode_is recs id (Some v).
Proof.
  unfold has_inode. rewrite !andb_true_iff, existsb_exists. intros ((A & B) & r & R1 & R2). apply andb_true_iff in R2. destruct R2 as (R2 & R3).
  destruct (inode_value (snd r)) as [v| | |] eqn:E; try discriminate. exists v. split; [lia|]. exists r. auto.
Qed.
(* Chains of entries from object id are of at most n entries. *)
Fixpoint depth_ok (ks : list link) (n : nat) (id : Z) : bool :=
  match n with
  | O => forallb (fun k => negb (lk_dir k =? id)) ks
  | S n => forallb (fun k => negb (lk_dir k =? id) || depth_ok ks n (lk_to k)) ks
  end.
Section Links.
  Variables (recs : list TreeSpec.record) (ks : list link).
  Hypothesis OK : links_ok recs ks = true.
  Lemma link_facts k : In k ks -> file_name (lk_name k) /\ spells (lk_name k) (de_name (fz_rec (lk_name k) (lk_to k))) /\ hd 0 (lk_name k) <> 0xfeff /\ lk_name k <> [] /\ utf8 (lk_name k) = lk_name k /\
    dir_rec (lk_dir k) (link_rec k) (fz_rec (lk_name k) (lk_to k)) /\ (exists v, inode_is recs (lk_to k) (Some v)) /\ has 9 (lk_dir k) (link_rec k) = true /\ In (link_rec k) recs.
  Proof.
    intros I. unfold links_ok in OK. rewrite !andb_true_iff in OK. destruct OK as ((_ & H) & _). rewrite forallb_forall in H. specialize (H k I).
    unfold link_ok in H. rewrite !andb_true_iff in H. destruct H as (((((H1 & H2) & H3) & H4) & H5) & H6). destruct (fy_ascii _ H1) as (F1 & F2 & F3).
    assert (U : utf8 (lk_name k) = lk_name k). { destruct F2 as [E|E]; [apply (f_equal (@length Z)) in E; rewrite app_length in E|].
      - clear - H1. induction (lk_name k) as [|c n IH]; [reflexivity|]. cbn [forallb] in H1. apply andb_true_iff in H1. destruct H1 as (H0 & H1). unfold utf8 in *. cbn [map concat]. rewrite IH by exact H1. unfold utf8_char. replace (c <? 0x80) with true by lia. reflexivity.
      - apply app_inj_tail in E. symmetry. tauto. }
    destruct (has_inode_is _ _ H4) as (v & V). split; [exact F1|]. split; [right; reflexivity|]. split; [exact F3|]. split; [intros E; rewrite E in H2; discriminate H2|]. split; [exact U|].
    split; [apply fz_dir_rec; [rewrite U; lia|destruct V as (V & _); lia]|]. split; [eauto|]. split; [exact H5|]. apply existsb_exists in H6. destruct H6 as (r & R1 & R2). apply same_rec_eq in R2. rewrite R2. exact R1.
  Qed.
  Lemma link_is id r : In r recs -> has 9 id r = true -> exists k, In k ks /\ r = link_rec k /\ lk_dir k = id.
  Proof.
    intros I H. pose proof OK as H0. unfold links_ok in H0. rewrite !andb_true_iff in H0. destruct H0 as ((H0 & _) & _). rewrite forallb_forall in H0. specialize (H0 r I). unfold has in H. apply andb_true_iff in H. destruct H as (H & HT).
    rewrite HT in H0. cbn [negb orb] in H0. apply existsb_exists in H0. destruct H0 as (k & K1 & K2). apply same_rec_eq in K2. exists k. split; [exact K1|]. split; [exact K2|].
    destruct (link_facts k K1) as (_ & _ & _ & _ & _ & _ & _ & HH & _). rewrite <- K2 in HH. unfold has in HH. lia.
  Qed.
  Lemma link_named k : In k ks -> named false true (lk_dir k) recs (link_rec k) (fz_rec (lk_name k) (lk_to k)) (lk_name k).
  Proof. intros I. destruct (link_facts k I) as (F1 & F2 & F3 & F4 & F5 & F6 & F7 & F8 & F9). split; [exact F9|]. split; [exact F8|]. split; [exact F6|]. split; [exact F1|]. split; [exact F2|reflexivity]. Qed.
  Lemma named_link id r e s : named false true id recs r e s -> exists k, In k ks /\ lk_dir k = id /\ r = link_rec k /\ e = fz_rec (lk_name k) (lk_to k) /\ s = lk_name k.
  Proof.
    intros (H1 & H2 & H3 & H4 & H5 & _). destruct (link_is id r H1 H2) as (k & K1 & -> & <-). exists k. split; [exact K1|]. split; [reflexivity|]. split; [reflexivity|].
    destruct (link_facts k K1) as (F1 & F2 & F3 & F4 & F5 & F6 & F7 & F8 & F9). apply dir_rec_read in F6. apply dir_rec_read in H3. assert (E : e = fz_rec (lk_name k) (lk_to k)) by congruence.
    split; [exact E|]. subst e. eapply spells_inj; eauto.
  Qed.
  Lemma links_directories : directories fx_tie false true recs.
  Proof.
    assert (P : forall a b, In a ks -> In b ks -> pair_ok a b = true).
    { intros a b A B. unfold links_ok in OK. rewrite !andb_true_iff in OK. destruct OK as (_ & H). rewrite forallb_forall in H. specialize (H a A). cbn beta in H. rewrite forallb_forall in H. exact (H b B). }
    intros id v _. split; [|split; [|split]].
    - intros r H1 H2. destruct (link_is id r H1 H2) as (k & K1 & -> & <-). eexists _, _. apply link_named, K1.
    - intros a b ea eb sa sb Ha Hb T. destruct (named_link _ _ _ _ Ha) as (k & K1 & K2 & -> & -> & ->). destruct (named_link _ _ _ _ Hb) as (m & M1 & M2 & -> & -> & ->). right. split; [reflexivity|].
      specialize (P k m K1 M1). unfold pair_ok in P. unfold fx_tie in T. rewrite K2, M2, Z.eqb_refl in P. cbn [negb orb] in P. apply andb_true_iff in P. destruct P as (P & _).
      replace (le_val (fst (link_rec k)) <? le_val (fst (link_rec m))) with true in P by lia. cbn [negb orb] in P. apply cmp_key_lt. unfold cmp_lt in P. destruct (cmp_key _ _); congruence.
    - intros r e s H. split; [discriminate|]. destruct (named_link _ _ _ _ H) as (k & K1 & K2 & -> & -> & ->). cbn [fz_rec de_inode]. apply link_facts, K1.
    - intros r1 e1 s1 r2 e2 s2 H1 H2 S. destruct (named_link _ _ _ _ H1) as (k & K1 & K2 & -> & -> & ->). destruct (named_link _ _ _ _ H2) as (m & M1 & M2 & -> & -> & ->).
      specialize (P k m K1 M1). unfold pair_ok in P. rewrite K2, M2, Z.eqb_refl in P. cbn [negb orb] in P. apply andb_true_iff in P. destruct P as (_ & P). unfold same_name in S.
      unfold same_key in P. destruct (list_eq_dec _ _ _) as [_|NE]; [|contradiction]. cbn [negb orb] in P. apply andb_true_iff in P. destruct P as (P1 & P2). apply list_eqb_iff in P1. rewrite P1. f_equal. lia.
  Qed.
  Lemma link_leads d k : In k ks -> leads false true recs (lk_dir k) d [lk_name k] (lk_to k) (Some (fz_rec (lk_name k) (lk_to k))).
  Proof. intros I. destruct (link_facts k I) as (F1 & F2 & F3 & F4 & _). eapply leads_down; [apply link_named, I|exact F4|reflexivity|reflexivity|]. apply leads_here. Qed.
  Lemma link_depth : forall n id d ms i e, depth_ok ks n id = true -> ToolInfoSpec.below false true recs id d ms i e -> (length ms <= n)%nat.
  Proof.
    intros n id d ms i e H B. revert n H. induction B as [|id d r c s names i e' N B IH]; intros n H; [cbn; lia|].
    destruct (named_link _ _ _ _ N) as (k & K1 & K2 & -> & -> & ->). cbn [fz_rec de_inode] in *. destruct n as [|n]; cbn [depth_ok] in H; rewrite forallb_forall in H; specialize (H k K1); cbn beta in H.
    - rewrite K2, Z.eqb_refl in H. discriminate.
    - rewrite K2, Z.eqb_refl in H. cbn [negb orb] in H. specialize (IH n H). cbn [length]. lia.
  Qed.
End Links.
