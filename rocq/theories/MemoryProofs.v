(* Proofs about the blocks of Memory.v: counting, the rules for the parts of a program, and the
   functions one by one. *)
From Verif Require Import Base BaseLemmas BTree Walk Omap Records FsTree Name FsName Crypt DataRead Compressed.
From Verif Require Import FileEntry Snapshot VolumeSuper ExtAttr Memory.
From Coq Require Import Lia.

Lemma kind_eqb_eq a b : kind_eqb a b = true <-> a = b.
Proof. destruct a, b; cbn; split; congruence. Qed.
Lemma block_eqb_eq a b : block_eqb a b = true <-> a = b.
Proof.
  destruct a as [k i], b as [k' i']. unfold block_eqb. cbn [fst snd]. rewrite Bool.andb_true_iff, kind_eqb_eq, Z.eqb_eq. split; [intros [-> ->]; reflexivity|].
  intros E. injection E as -> ->. auto.
Qed.

Fixpoint cnt (b : block) (l : list block) : Z :=
  match l with [] => 0 | x :: l => (if block_eqb x b then 1 else 0) + cnt b l end.
Lemma cnt_app b l l' : cnt b (l ++ l') = cnt b l + cnt b l'.
Proof. induction l as [|x l IH]; cbn [app cnt]; [lia|]. rewrite IH. lia. Qed.
Lemma cnt_nonneg b l : 0 <= cnt b l.
Proof. induction l as [|x l IH]; cbn [cnt]; [lia|]. destruct (block_eqb x b); lia. Qed.
Lemma take_out_some b : forall l l', take_out b l = Some l' -> forall x, cnt x l = (if block_eqb b x then 1 else 0) + cnt x l'.
Proof.
  induction l as [|y l IH]; intros l' H x; cbn [take_out] in H; [discriminate|].
  destruct (block_eqb y b) eqn:E.
  - injection H as <-. apply block_eqb_eq in E. subst y. reflexivity.
  - destruct (take_out b l) as [l''|] eqn:T; [|discriminate]. injection H as <-. cbn [cnt]. rewrite (IH _ eq_refl x). lia.
Qed.
Lemma take_out_none b : forall l, take_out b l = None -> cnt b l = 0.
Proof.
  induction l as [|y l IH]; intros H; cbn [take_out cnt] in *; [reflexivity|].
  destruct (block_eqb y b) eqn:E; [discriminate|]. destruct (take_out b l); [discriminate|]. rewrite IH by reflexivity. reflexivity.
Qed.

(* The live blocks are l, and nothing was freed that was not live. *)
Definition holds (h : heap) (l : list block) : Prop := h_bad h = false /\ forall b, cnt b (h_live h) = cnt b l.
Lemma holds_same h l l' : (forall b, cnt b l = cnt b l') -> holds h l -> holds h l'.
Proof. intros E [A B]. split; [exact A|]. intros b. rewrite B. apply E. Qed.
Ltac count := intros ?b; cbn [app cnt]; repeat (rewrite ?cnt_app; cbn [app cnt]); try lia.

Lemma free_holds b h F : holds h (b :: F) -> exists h', free b h = (Ok tt, h') /\ holds h' F.
Proof.
  intros [A B]. unfold free. destruct (take_out b (h_live h)) as [l|] eqn:T.
  - eexists. split; [reflexivity|]. split; [exact A|]. cbn [h_live]. intros x. pose proof (take_out_some _ _ _ T x) as C. pose proof (B x) as D. cbn [cnt] in D. lia.
  - exfalso. apply take_out_none in T. specialize (B b). cbn [cnt] in B. pose proof (cnt_nonneg b F).
    assert (E : block_eqb b b = true) by (apply block_eqb_eq; reflexivity). rewrite E in B. lia.
Qed.
Lemma frees_holds : forall l h F, holds h (l ++ F) -> exists h', frees l h = (Ok tt, h') /\ holds h' F.
Proof.
  induction l as [|b l IH]; intros h F H; cbn [frees app] in *; [exists h; split; [reflexivity|exact H]|].
  destruct (free_holds _ _ _ H) as (h1 & E & H1). unfold bindM. rewrite E. apply (IH _ _ H1).
Qed.
Lemma alloc_holds k h F : holds h F -> exists b h', alloc k h = (Ok b, h') /\ fst b = k /\ holds h' (b :: F).
Proof.
  intros [A B]. eexists _, _. split; [reflexivity|]. split; [reflexivity|]. split; [exact A|]. intros x. cbn [h_live cnt]. rewrite (B x). reflexivity.
Qed.

(* ---- rules: what a part takes, what it returns, and which blocks it may lose ---- *)
Definition ends {A} (L : block -> Prop) (post : A -> list block) (F : list block) (p : res A * heap) : Prop :=
  match p with
  | (Ok a, h) => exists lost, Forall L lost /\ holds h (post a ++ lost ++ F)
  | (Fail, h) => exists lost, Forall L lost /\ holds h (lost ++ F)
  | _ => True
  end.
Definition tr {A} (L : block -> Prop) (pre : list block) (m : M heap A) (post : A -> list block) : Prop :=
  forall F h, holds h (pre ++ F) -> ends L post F (m h).
Definition none (b : block) : Prop := False.
Lemma none_lost l : Forall none l -> l = [].
Proof. intros H. destruct l; [reflexivity|]. inversion H; contradiction. Qed.

Lemma tr_weaken {A} (L L' : block -> Prop) pre (m : M heap A) post : (forall b, L b -> L' b) -> tr L pre m post -> tr L' pre m post.
Proof.
  intros W H F h HH. specialize (H F h HH). unfold ends in *. destruct (m h) as [[a| | |] h']; auto; destruct H as (lost & X & Y); exists lost; split; auto; eapply Forall_impl; eauto.
Qed.
Lemma tr_ret {A} L pre (a : A) post : (forall b, cnt b pre = cnt b (post a)) -> tr L pre (retM (Ok a)) post.
Proof. intros E F h H. cbn. exists []. split; [constructor|]. eapply holds_same; [|exact H]. intros x. pose proof (E x). rewrite !cnt_app. cbn [cnt]. lia. Qed.
(* a value computed while nothing is held *)
Lemma tr_pure {A} L (r : res A) : tr L [] (retM r) (fun _ => []).
Proof. intros F h H. cbn. destruct r; auto; exists []; (split; [constructor|exact H]). Qed.
Lemma tr_alloc L k : tr L [] (alloc k) (fun b => [b]).
Proof. intros F h H. destruct (alloc_holds k h F H) as (b & h' & E & _ & H'). rewrite E. cbn. exists []. split; [constructor|exact H']. Qed.
Lemma tr_frees L l : tr L l (frees l) (fun _ => []).
Proof. intros F h H. destruct (frees_holds l h F H) as (h' & E & H'). rewrite E. cbn. exists []. split; [constructor|exact H']. Qed.
Lemma tr_free L b : tr L [b] (free b) (fun _ => []).
Proof. intros F h H. destruct (free_holds b h F H) as (h' & E & H'). rewrite E. cbn. exists []. split; [constructor|exact H']. Qed.
Lemma tr_fail {A} L post : tr L [] (retM (@Fail A)) post.
Proof. intros F h H. cbn. exists []. split; [constructor|exact H]. Qed.
Lemma tr_lose {A} (L : block -> Prop) pre (a : A) post : Forall L pre -> post a = [] -> tr L pre (retM (Ok a)) post.
Proof. intros HL E F h H. cbn. exists pre. split; [exact HL|]. rewrite E. exact H. Qed.
Lemma tr_fuel {A} L pre post : tr L pre (retM (@Fuel A)) post.
Proof. intros F h H. exact I. Qed.
Lemma tr_bind {A B} L pre (m : M heap A) mid (f : A -> M heap B) post :
  tr L pre m mid -> (forall a, tr L (mid a) (f a) post) -> tr L pre (bindM m f) post.
Proof.
  intros H1 H2 F h H. specialize (H1 F h H). unfold bindM. destruct (m h) as [[a| | |] h']; cbn [ends] in *; auto.
  destruct H1 as (lost & X & Y). specialize (H2 a (lost ++ F) h' Y). destruct (f a h') as [[b| | |] h'']; cbn [ends] in *; auto;
    destruct H2 as (lost' & X' & Y'); exists (lost' ++ lost); (split; [apply Forall_app; split; assumption|]);
    (eapply holds_same; [|exact Y']); count.
Qed.
Lemma tr_frame {A} L pre (m : M heap A) post R : tr L pre m post -> forall h F, holds h (pre ++ R ++ F) -> ends L post (R ++ F) (m h).
Proof. intros H h F X. apply H. exact X. Qed.
Definition cleans (R : list block) (m : M heap unit) : Prop := forall F h, holds h (R ++ F) -> exists h', m h = (Ok tt, h') /\ holds h' F.
Lemma cleans_free b : cleans [b] (free b).
Proof. intros F h H. apply free_holds. exact H. Qed.
Lemma cleans_frees l : cleans l (frees l).
Proof. intros F h H. apply frees_holds. exact H. Qed.
Lemma cleans_bind R R' m m' : cleans R m -> cleans R' m' -> cleans (R ++ R') (bindM m (fun _ => m')).
Proof.
  intros H1 H2 F h H. rewrite <- app_assoc in H. destruct (H1 _ _ H) as (h1 & E & H3). destruct (H2 _ _ H3) as (h2 & E2 & H4).
  exists h2. split; [|exact H4]. unfold bindM. rewrite E. exact E2.
Qed.
(* on_error frees what else is held *)
Lemma tr_orelse {A} L pre (m : M heap A) post R (clean : M heap unit) :
  tr L pre m post -> cleans R clean -> tr L (R ++ pre) (orelse m clean) (fun a => R ++ post a).
Proof.
  intros H1 H2 F h H. assert (H' : holds h (pre ++ R ++ F)) by (eapply holds_same; [|exact H]; count).
  specialize (H1 (R ++ F) h H'). unfold orelse. destruct (m h) as [[a| | |] h']; cbn [ends] in *; auto.
  - destruct H1 as (lost & X & Y). exists lost. split; [exact X|]. eapply holds_same; [|exact Y]. count.
  - destruct H1 as (lost & X & Y). assert (Y' : holds h' (R ++ lost ++ F)) by (eapply holds_same; [|exact Y]; count).
    destruct (H2 _ _ Y') as (h2 & E2 & Y2). rewrite E2. cbn [snd]. exists lost. split; [exact X|exact Y2].
Qed.
(* a value computed while R is held, which on_error frees *)
Lemma tr_try {A} L R (r : res A) clean : cleans R clean -> tr L R (orelse (retM r) clean) (fun _ => R).
Proof.
  intros H F h HH. unfold orelse, retM. destruct r as [a| | |]; cbn [ends]; auto.
  - exists []. split; [constructor|exact HH].
  - destruct (H _ _ HH) as (h' & E & H'). rewrite E. cbn [snd]. exists []. split; [constructor|exact H'].
Qed.
Lemma tr_on {A B} L pre (r : res A) (f : A -> M heap B) post : pre = [] -> (forall a, r = Ok a -> tr L [] (f a) post) -> tr L pre (onM r f) post.
Proof.
  intros -> H F h HH. unfold onM, bindM, retM. destruct r as [a| | |]; cbn [ends]; auto.
  - apply (H a eq_refl F h HH).
  - exists []. split; [constructor|exact HH].
Qed.

(* ---- names and paths ---- *)
Definition rec_post (r : option (block * dentry)) : list block := opt_blocks r.
Lemma name_leaf_tr cmp look : forall es, tr none [] (name_leaf_m cmp look es) rec_post.
Proof.
  induction es as [|e es IH]; cbn [name_leaf_m]; [apply tr_ret; reflexivity|].
  apply tr_on; [reflexivity|]. intros k _. destruct (k =? look); [|exact IH].
  eapply tr_bind; [apply tr_alloc|]. intros b. eapply tr_bind; [apply tr_try; apply cleans_free|]. cbn beta. intros [d|].
  - apply tr_ret. reflexivity.
  - eapply tr_bind; [apply tr_free|]. intros u; cbn beta. exact IH.
Qed.
Lemma name_branch_tr cmp id : forall es prev, tr none [] (name_branch_m cmp id prev es) (fun _ => []).
Proof.
  induction es as [|e es IH]; intros prev; cbn [name_branch_m]; [apply tr_ret; reflexivity|].
  apply tr_on; [reflexivity|]. intros k _. destruct (_ || _); [apply tr_ret; reflexivity|]. destruct (_ && _); [|apply IH].
  eapply tr_bind; [apply tr_alloc|]. intros b. eapply tr_bind; [apply tr_try; apply cleans_free|]. intros c.
  eapply tr_bind; [apply tr_free|]. intros u; cbn beta. destruct c; try apply IH. apply tr_ret. reflexivity.
Qed.
Lemma find_tr t leaf branch id : forall fuel depth n, tr none [] (find_m t leaf branch id fuel depth n) rec_post.
Proof.
  induction fuel as [|fuel IH]; intros depth n; cbn [find_m]; [apply tr_fuel|].
  destruct (is_leaf n); [destruct (257 <? depth); [apply tr_fail|apply name_leaf_tr]|]. destruct (max_depth <? depth); [apply tr_fail|].
  eapply tr_bind; [apply name_branch_tr|]. intros e. apply tr_on; [reflexivity|]. intros c _. apply tr_on; [reflexivity|]. intros m _. apply IH.
Qed.

(* No component of the path is empty. *)
Inductive clean (next : list Z -> res (Z * list Z)) : list Z -> Prop :=
| clean_nil : clean next []
| clean_more str s r : FsName.segment next (length str) str = Ok (s, r) -> s <> [] -> clean next r -> clean next str
| clean_bad str : (forall s r, FsName.segment next (length str) str <> Ok (s, r)) -> clean next str.

Definition lost_record (P : Prop) (b : block) : Prop := fst b = KRecord /\ P.
Definition is_record (r : option (block * dentry)) : Prop := forall b d, r = Some (b, d) -> fst b = KRecord.

Lemma tr_bind_ok {A B} L pre (m : M heap A) mid (f : A -> M heap B) post :
  tr L pre m mid -> (forall a h h', m h = (Ok a, h') -> tr L (mid a) (f a) post) -> tr L pre (bindM m f) post.
Proof.
  intros H1 H2 F h H. specialize (H1 F h H). unfold bindM. destruct (m h) as [[a| | |] h'] eqn:E; cbn [ends] in *; auto.
  destruct H1 as (lost & X & Y). specialize (H2 a h h' E (lost ++ F) h' Y). destruct (f a h') as [[b| | |] h'']; cbn [ends] in *; auto;
    destruct H2 as (lost' & X' & Y'); exists (lost' ++ lost); (split; [apply Forall_app; split; assumption|]);
    (eapply holds_same; [|exact Y']); count.
Qed.
Lemma bindM_run {S A B} (m : M S A) (f : A -> M S B) s b s' : bindM m f s = (Ok b, s') -> exists a s1, m s = (Ok a, s1) /\ f a s1 = (Ok b, s').
Proof. unfold bindM. destruct (m s) as [[a| | |] s1]; intros H; try discriminate. exists a, s1. split; [reflexivity|exact H]. Qed.
Lemma onM_run {S A B} (r : res A) (f : A -> M S B) s b s' : onM r f s = (Ok b, s') -> exists a, r = Ok a /\ f a s = (Ok b, s').
Proof. unfold onM, bindM, retM. destruct r as [a| | |]; intros H; try discriminate. exists a. split; [reflexivity|exact H]. Qed.

Lemma name_leaf_kind cmp look : forall es h r h', name_leaf_m cmp look es h = (Ok r, h') -> is_record r.
Proof.
  induction es as [|e es IH]; intros h r h' H; cbn [name_leaf_m] in H; [injection H as <- _; intros b d; discriminate|].
  apply onM_run in H. destruct H as (k & _ & H). destruct (k =? look); [|eapply IH; exact H].
  apply bindM_run in H. destruct H as (b & h1 & Ha & H). apply bindM_run in H. destruct H as (o & h2 & _ & H). destruct o as [d|].
  - injection H as <- _. intros b' d' E. injection E as <- _. injection Ha as <- _. reflexivity.
  - apply bindM_run in H. destruct H as (u & h3 & _ & H). eapply IH; exact H.
Qed.
Lemma find_kind t leaf branch id : forall fuel depth n h r h', find_m t leaf branch id fuel depth n h = (Ok r, h') -> is_record r.
Proof.
  induction fuel as [|fuel IH]; intros depth n h r h' H; cbn [find_m] in H; [discriminate|].
  destruct (is_leaf n); [destruct (257 <? depth); [discriminate|eapply name_leaf_kind; exact H]|]. destruct (max_depth <? depth); [discriminate|].
  apply bindM_run in H. destruct H as (e & h1 & _ & H). apply onM_run in H. destruct H as (c & _ & H). apply onM_run in H. destruct H as (m & _ & H). eapply IH; exact H.
Qed.

Lemma clean_seg next l s r : clean next l -> l <> [] -> FsName.segment next (length l) l = Ok (s, r) -> s <> [] /\ clean next r.
Proof.
  intros C. destruct C as [|l s' r' E1 E2 E3|l E1]; intros N E; [congruence| |exfalso; exact (E1 _ _ E)].
  rewrite E1 in E. injection E as <- <-. auto.
Qed.
Definition loop_post (r : option (Z * option (block * dentry))) : list block := match r with Some (_, d) => opt_blocks d | None => [] end.
Lemma path_loop_tr t next fold n : forall fuel id rec str, is_record rec ->
  tr (lost_record (~ clean next str)) (opt_blocks rec) (path_loop_m t next fold n fuel id rec str) loop_post.
Proof.
  induction fuel as [|fuel IH]; intros id rec str HR.
  { destruct str; cbn [path_loop_m]; [apply tr_ret; reflexivity|apply tr_fuel]. }
  destruct str as [|c str]; [apply tr_ret; reflexivity|]. cbn [path_loop_m].
  remember (c :: str) as l eqn:El.
  eapply tr_bind_ok; [apply tr_try; apply cleans_frees|]. cbn beta. intros p h h' HP.
  assert (ES : FsName.segment next (length l) l = Ok p).
  { unfold orelse, retM in HP. destruct (FsName.segment next (length l) l) as [q| | |]; try discriminate. injection HP as -> _. reflexivity. }
  destruct p as [s r]. cbn [fst snd]. destruct s as [|x s].
  { apply tr_lose; [|reflexivity]. destruct rec as [[b d]|]; cbn [opt_blocks fst]; [|constructor]. constructor; [|constructor].
    split; [exact (HR b d eq_refl)|]. intros C. destruct (clean_seg _ _ _ _ C ltac:(subst l; discriminate) ES) as [X _]. congruence. }
  eapply tr_bind; [apply tr_try; apply cleans_frees|]. cbn beta. intros hash.
  eapply tr_bind; [apply tr_frees|]. cbn beta. intros u.
  eapply tr_bind_ok; [eapply tr_weaken; [|apply find_tr]; intros b []|]. intros o h1 h2 HO. destruct o as [[b d]|]; [|apply tr_ret; reflexivity].
  eapply tr_weaken; [|apply IH; eapply find_kind; exact HO]. intros b' [K N]. split; [exact K|]. intros C. apply N.
  exact (proj2 (clean_seg _ _ _ _ C ltac:(subst l; discriminate) ES)).
Qed.

Definition tail_of (str : list Z) : list Z := match str with 47 :: l => l | _ => str end.
Definition path_post (r : option (block * (Z * inode) * option (block * dentry))) : list block :=
  match r with Some (b, _, d) => b :: opt_blocks d | None => [] end.
Lemma inode_by_path_tr t next fold id str : tr (lost_record (~ clean next (tail_of str))) [] (inode_by_path_m t next fold id str) path_post.
Proof.
  unfold inode_by_path_m. apply tr_on; [reflexivity|]. intros [n|] _; [|apply tr_ret; reflexivity]. fold (tail_of str).
  eapply tr_bind with (mid := loop_post).
  { destruct (_ || _); [apply tr_ret; reflexivity|]. apply (path_loop_tr t next fold n (length str) id None (tail_of str)). intros b d; discriminate. }
  intros [[i d]|]; [|apply tr_ret; reflexivity]. cbn [loop_post].
  eapply tr_bind; [apply tr_try; apply cleans_frees|]. cbn beta. intros e.
  eapply tr_bind with (mid := fun b => opt_blocks d ++ [b]).
  { intros F h H. destruct (alloc_holds KInode h _ H) as (b & h' & E & _ & H'). rewrite E. cbn [ends]. exists []. split; [constructor|].
    eapply holds_same; [|exact H']. count. }
  intros b. eapply tr_bind; [apply tr_try; apply cleans_bind; [apply cleans_frees|apply cleans_free]|]. cbn beta. intros v.
  apply tr_ret. cbn [path_post]. count.
Qed.
Definition new_post (r : option (fentry * list block)) : list block := match r with Some (_, l) => l | None => [] end.
Lemma by_path_tr t img ctx next fold id str : tr (lost_record (~ clean next (tail_of str))) [] (by_path_m t img ctx next fold id str) new_post.
Proof.
  unfold by_path_m. eapply tr_bind; [apply inode_by_path_tr|]. intros [[[b [i v]] d]|]; [|apply tr_ret; reflexivity]. cbn [path_post].
  intros F h H. unfold bindM. destruct (alloc_holds KEntry h _ H) as (c & h' & E & _ & H'). rewrite E. cbn. exists []. split; [constructor|].
  eapply holds_same; [|exact H']. count.
Qed.
Lemma by_id_tr t img ctx id : tr none [] (by_id_m t img ctx id) new_post.
Proof.
  unfold by_id_m. apply tr_on; [reflexivity|]. intros [[i v]|] _; [|apply tr_ret; reflexivity].
  eapply tr_bind; [apply tr_alloc|]. intros b. eapply tr_bind with (mid := fun c => [b; c]); [|intros c; apply tr_ret; reflexivity].
  intros F h H. destruct (alloc_holds KEntry h _ H) as (c & h' & E & _ & H'). rewrite E. cbn [ends]. exists []. split; [constructor|].
  eapply holds_same; [|exact H']. count.
Qed.
Lemma parent_tr e : tr none [] (parent_m e) new_post.
Proof.
  unfold parent_m. apply tr_on; [reflexivity|]. intros [x|] _; [|apply tr_ret; reflexivity].
  eapply tr_bind; [apply tr_alloc|]. intros b. eapply tr_bind with (mid := fun c => [b; c]); [|intros c; apply tr_ret; reflexivity].
  intros F h H. destruct (alloc_holds KEntry h _ H) as (c & h' & E & _ & H'). rewrite E. cbn [ends]. exists []. split; [constructor|].
  eapply holds_same; [|exact H']. count.
Qed.
Definition lost_super (b : block) : Prop := fst b = KSuper.
Lemma snap_tr img v i : tr lost_super [] (snap_m img v i) (fun p => fst p).
Proof.
  unfold snap_m. apply tr_on; [reflexivity|]. intros u _. eapply tr_bind; [apply tr_alloc|]. intros a.
  intros F h H. unfold bindM. destruct (alloc_holds KSuper h _ H) as (b & h' & E & K & H'). rewrite E.
  unfold orelse, retM. destruct (snapshot_open img v i) as [s| | |]; cbn [ends]; auto.
  - exists [b]. split; [constructor; [exact K|constructor]|]. eapply holds_same; [|exact H']. cbn [fst]. count.
  - assert (H2 : holds h' (a :: b :: F)) by (eapply holds_same; [|exact H']; count).
    destruct (free_holds _ _ _ H2) as (h2 & E2 & H3). rewrite E2. cbn [snd ends]. exists [b]. split; [constructor; [exact K|constructor]|exact H3].
Qed.
