(* The hierarchy that fsapfsinfo lists: every entry below the root directory, once. *)
From Coq Require FinFun.
From Verif Require Import Base BaseLemmas NameSpec Name NameProofs PropName BTreeProofs Walk Omap TreeSpec OmapSpec OmapTop RecordsSpec Records FsTree FsSpec FsTop FsLookup PropFs FsName FsNameSpec FsNameProofs FsNameTop PropFsName Snapshot DataRead
  FileEntry FileSpec FileTop EntryName EntrySpec PropEntry EndSpec EndProofs ToolPath ToolPathSpec ToolPathProofs ToolMountProofs ToolInfo ToolInfoSpec ToolLine.
Ltac Zify.zify_post_hook ::= Z.div_mod_to_equations.

Lemma key_lt_irrefl a : ~ key_lt a a.
Proof. intros H. apply cmp_key_lt in H. assert (E : cmp_key a a = Eq) by (apply cmp_key_eq; reflexivity). congruence. Qed.
Lemma below_trans hashed fold recs id d a i e b j e' : below hashed fold recs id d a i e -> below hashed fold recs i e b j e' -> below hashed fold recs id d (a ++ b) j e'.
Proof. intros H. revert b j e'. induction H as [|id d r c s names i e' H1 H2 IH]; intros b j e2 B; [exact B|]. cbn [app]. eapply below_down; [exact H1|]. apply IH, B. Qed.

(* The directory above an entry *)
Definition above (names : list (list Z)) : list Z := concat (map (fun s => s ++ [47]) names).
Lemma joined_above names s : joined (names ++ [s]) = above names ++ s.
Proof.
  induction names as [|n names IH]; [reflexivity|]. unfold above in *. cbn [app map concat]. rewrite <- app_assoc. cbn [app]. rewrite <- app_assoc, <- IH. cbn [joined].
  destruct (names ++ [s]) eqn:E; [destruct names; discriminate|reflexivity].
Qed.
Lemma above_app a b : above (a ++ b) = above a ++ above b.
Proof. unfold above. rewrite map_app, concat_app. reflexivity. Qed.
Lemma above_names names : Forall file_name names -> file_name (above names).
Proof.
  induction 1 as [|s l H1 H2 IH]; [constructor|]. unfold above in *. cbn [map concat]. apply Forall_app. split; [|exact IH]. apply Forall_app. split; [exact H1|]. constructor; [unfold scalar; lia|constructor].
Qed.

Lemma nodup_app {A} (a b : list A) : NoDup a -> NoDup b -> (forall x, In x a -> In x b -> False) -> NoDup (a ++ b).
Proof.
  intros H1 H2 H3. induction H1 as [|x l N H1 IH]; [exact H2|]. cbn [app]. constructor; [|apply IH; intros y Y; apply H3; right; exact Y].
  rewrite in_app_iff. intros [C|C]; [exact (N C)|exact (H3 x (or_introl eq_refl) C)].
Qed.

Section Hierarchy.
  Variables (tie : list Z -> list Z -> Prop) (h : nat) (t : fs) (recs : list record) (dev : image) (ctx : option (list Z -> list Z -> list Z)) (hashed fold : bool).
  Variable line : fentry -> list Z -> list Z -> fstate -> res (list Z * fstate).
  Variables (pre root : list Z) (good : list (list Z) -> list Z -> Prop).
  Hypothesis tie_trans : forall a b c, tie a b -> tie b c -> tie a c.
  Hypothesis HT : fs_tree tie h t recs.
  Hypothesis HD : directories tie hashed fold recs.
  Hypothesis HN : forall id r d s, named hashed fold id recs r d s -> s <> [] /\ hd 0 s <> 0xfeff.
  Hypothesis HP : file_name pre.
  Hypothesis HR : forall ms i d, below hashed fold recs 2 None ms i d -> i = 2 -> ms = [].
  Definition own_name (ms : list (list Z)) : list Z := last ms root.
  Definition entry_path (ms : list (list Z)) : list Z := pre ++ above (removelast ms).
  Hypothesis HL : forall ms i d v l, below hashed fold recs 2 None ms i d -> inode_is recs i (Some v) ->
    exists out st, line (mk_fe t dev ctx i v d) (utf8 (entry_path ms)) (utf8 (own_name ms)) (set_dir f_init l) = Ok (out, st) /\ f_dir st = Some l /\ good ms out.

  Lemma below_names : forall id d ms i e, below hashed fold recs id d ms i e -> Forall file_name ms.
  Proof. induction 1 as [|id d r c s names i e' H1 H2 IH]; constructor; [|exact IH]. apply H1. Qed.
  Lemma below_inode : forall id d ms i e, below hashed fold recs id d ms i e -> forall v, inode_is recs id (Some v) -> exists w, inode_is recs i (Some w).
  Proof.
    induction 1 as [|id d r c s names i e' H1 H2 IH]; intros v V; [eauto|]. destruct (HD id v V) as (_ & _ & H3 & _). destruct (H3 r c s H1) as (_ & w & W). exact (IH w W).
  Qed.

  (* the entries of a directory: their names differ *)
  Lemma dir_entries id v : inode_is recs id (Some v) -> exists l, entries recs id l /\ NoDup (map snd l) /\
    (forall d s, In (d, s) l <-> exists r, named hashed fold id recs r d s).
  Proof.
    intros V. destruct (HD id v V) as (D1 & D2 & _ & _).
    assert (X : forall rs, (forall r, In r rs -> In r recs) -> sorted (fs_lt tie) rs -> exists l, Forall2 (fun r p => named hashed fold id recs r (fst p) (snd p)) (filter (has 9 id) rs) l /\ NoDup (map snd l)).
    { induction rs as [|r rs IH]; intros I S; [exists []; split; constructor|]. inversion S as [|? ? S1 S2]; subst. destruct (IH (fun x X => I x (or_intror X)) S2) as (l & L1 & L2). cbn [filter].
      destruct (has 9 id r) eqn:H9; [|eauto]. destruct (D1 r (I r (or_introl eq_refl)) H9) as (e & s & N). exists ((e, s) :: l). split; [constructor; assumption|]. cbn [map snd]. constructor; [|exact L2].
      intros C. apply in_map_iff in C. destruct C as ((e' & s') & E & C). cbn [snd] in E. subst s'.
      assert (Y : exists r', In r' (filter (has 9 id) rs) /\ named hashed fold id recs r' e' s).
      { clear - L1 C. induction L1 as [|r' p rs' l' H1 H2 IH]; [destruct C|]. destruct C as [->|C]; [exists r'; split; [left; reflexivity|exact H1]|]. destruct (IH C) as (q & Q1 & Q2). exists q. split; [right; exact Q1|exact Q2]. }
      destruct Y as (r' & R1 & R2). apply filter_In in R1. destruct R1 as (R1 & R9). rewrite Forall_forall in S1. specialize (S1 r' R1).
      unfold has in H9, R9. unfold fs_lt in S1. assert (T : tie (fst r) (fst r')). { destruct S1 as [S1|(_ & [S1|(_ & S1)])]; [lia|lia|]. unfold tie_lt in S1. replace (kty (fst r) =? 3) with false in S1 by lia. replace (kty (fst r) =? 8) with false in S1 by lia. exact S1. }
      destruct (D2 r r' e e' s s N R2 T) as [LT|(_ & LT)]; [|exact (key_lt_irrefl _ LT)]. destruct N as (_ & _ & _ & _ & _ & N). destruct R2 as (_ & _ & _ & _ & _ & R2). lia. }
    destruct (X recs (fun r R => R) (fs_tree_sorted tie tie_trans h t recs HT)) as (l & L1 & L2). exists l. split; [|split; [exact L2|]].
    - unfold entries. clear - L1 HN. induction L1 as [|r p rs ps N L1 IH]; constructor; [|exact IH]. pose proof N as (N1 & N2 & N3 & N4 & N5 & N6). split; [exact N3|]. split; [exact N4|]. split; [exact N5|]. apply (HN _ _ _ _ N).
    - intros d s. split.
      + intros I. clear - L1 I. induction L1 as [|r p rs l H1 H2 IH]; [destruct I|]. destruct I as [->|I]; [exists r; exact H1|apply IH, I].
      + intros (r & N). assert (I : In r (filter (has 9 id) recs)) by (apply filter_In; split; apply N). clear X L2.
        revert I. induction L1 as [|r' p rs l H1 H2 IH]; intros I; [destruct I|]. destruct I as [->|I]; [|right; apply IH, I]. left.
        destruct p as (d' & s'). cbn [fst snd] in H1. destruct N as (_ & _ & N3 & N4 & N5 & _). destruct H1 as (_ & _ & M3 & M4 & M5 & _). apply dir_rec_read in N3. apply dir_rec_read in M3.
        assert (d = d') as <- by congruence. f_equal. eapply spells_inj; eauto.
  Qed.

  Lemma name_of ms i d v : below hashed fold recs 2 None ms i d -> entry_text (mk_fe t dev ctx 2 v None) = Ok root \/ ms <> [] ->
    entry_text (mk_fe t dev ctx i v d) = Ok (own_name ms).
  Proof.
    intros B R. destruct B as [|id d r c s names i e' N B]; [destruct R as [R|R]; [exact R|congruence]|]. unfold own_name. clear R.
    assert (X : forall id0 e0 ms0 i0 d0, below hashed fold recs id0 e0 ms0 i0 d0 -> forall s0, (exists c0, e0 = Some c0 /\ file_name s0 /\ spells s0 (de_name c0) /\ hd 0 s0 <> 0xfeff) ->
      entry_text (mk_fe t dev ctx i0 v d0) = Ok (last (s0 :: ms0) root)).
    { clear - HN. induction 1 as [|id0 e0 r0 c0 s0 names0 i0 e1 N0 B0 IH]; intros s1 (c1 & -> & F1 & F2 & F3); [apply name_text; assumption|].
      change (last (s1 :: s0 :: names0) root) with (last (s0 :: names0) root). apply IH. exists c0. split; [reflexivity|]. pose proof N0 as (_ & _ & _ & F4 & F5 & _). split; [exact F4|]. split; [exact F5|]. apply (HN _ _ _ _ N0). }
    apply (X _ _ _ _ _ B). exists c. split; [reflexivity|]. pose proof N as (_ & _ & _ & F4 & F5 & _). split; [exact F4|]. split; [exact F5|]. apply (HN _ _ _ _ N).
  Qed.

  Lemma each_sub (f : fentry -> res (list (list Z))) : forall k i (st : fstate) l l1 l2 xs ys e,
    l = l1 ++ l2 -> i = len l1 -> k = length l2 -> f_dir st = Some l -> fe_tree e = t -> fe_img e = dev -> fe_ctx e = ctx ->
    Forall2 (fun d v => inode_is recs (de_inode d) (Some v)) l2 xs ->
    Forall2 (fun p y => f (mk_fe t dev ctx (de_inode (fst p)) (snd p) (Some (fst p))) = Ok y) (combine l2 xs) ys ->
    (fix each (k : nat) (i : Z) (st : fstate) : res (list (list Z)) :=
      match k with
      | O => Ok []
      | S k =>
        let (x, st) := entry_sub e i st in
        let! x := x in
        let! l := f x in
        let! ls := each k (i + 1) st in
        Ok (l ++ ls)
      end) k i st = Ok (concat ys).
  Proof.
    intros k i st l l1 l2. revert k i st l1. induction l2 as [|d l2 IH]; intros k i st l1 xs ys e E1 E2 E3 E4 T1 T2 T3 F1 F2.
    - subst k. inversion F1; subst. inversion F2; subst. reflexivity.
    - subst k. inversion F1 as [|? v ? vs V F1' E]; subst. cbn [combine] in F2. inversion F2 as [|? y ? ys' Y F2' E']; subst. cbn [length fst snd] in *.
      destruct (sub_call e (l1 ++ d :: l2) st (len l1) d (de_inode d, v)) as (st' & S1 & S2).
      + right. exact E4.
      + rewrite len_app, len_cons. pose proof (len_nonneg l1). pose proof (len_nonneg l2). lia.
      + destruct (getb_in (l1 ++ d :: l2) (len l1)) as (x & G & N); [rewrite len_app, len_cons; pose proof (len_nonneg l1); pose proof (len_nonneg l2); lia|].
        unfold len in N. rewrite Nat2Z.id, nth_error_app2, Nat.sub_diag in N by lia. cbn in N. rewrite G. congruence.
      + apply (inode_found tie h (fe_tree e) recs _ (Some v) tie_trans HT V).
      + rewrite S1. cbn [bind fst snd]. rewrite Y. cbn [bind].
        rewrite (IH (length l2) (len l1 + 1) st' (l1 ++ [d]) vs ys' e); try assumption; try reflexivity.
        * rewrite <- app_assoc. reflexivity.
        * rewrite len_app. reflexivity.
  Qed.

  Hypothesis HRoot : forall v, inode_is recs 2 (Some v) -> entry_text (mk_fe t dev ctx 2 v None) = Ok root.
  Lemma hier_ok : forall n ms i d v, below hashed fold recs 2 None ms i d -> inode_is recs i (Some v) ->
    (forall ms' i' d', below hashed fold recs i d ms' i' d' -> (length ms' <= n)%nat) ->
    exists L outs, hierarchy line (S n) (mk_fe t dev ctx i v d) (utf8 (entry_path ms)) = Ok outs /\ NoDup L /\
      (forall ms', In ms' L <-> exists i' d', below hashed fold recs i d ms' i' d') /\ Forall2 (fun ms' out => good (ms ++ ms') out) L outs.
  Proof.
    induction n as [n IH] using lt_wf_ind. intros ms i d v B V DP. set (e := mk_fe t dev ctx i v d).
    pose proof V as (Hid & ri & R1 & R2 & R3). destruct (dir_entries i v V) as (l & L1 & L2 & L3).
    pose proof (dir_listed tie h t recs i ri l tie_trans HT Hid R1 R2 L1) as DL.
    assert (SB : entry_subs e f_init = (Ok (len l), set_dir f_init (map fst l))).
    { unfold entry_subs, get_dir. unfold bindM at 1. cbn [f_init f_dir]. unfold e. cbn [fe_tree fe_id]. rewrite (onM_ok _ _ _ _ DL). unfold retM. rewrite len_map. reflexivity. }
    pose proof (below_names _ _ _ _ _ B) as FN.
    assert (FP : file_name (entry_path ms)).
    { apply Forall_app. split; [exact HP|]. apply above_names. clear - FN. induction FN as [|s l F1 F2 IHF]; [constructor|]. destruct l; [constructor|]. change (removelast (s :: l :: l0)) with (s :: removelast (l :: l0)). constructor; assumption. }
    assert (ET : entry_text e = Ok (own_name ms)).
    { unfold e. destruct ms as [|m ms]; [|apply name_of; [exact B|right; discriminate]]. inversion B; subst. apply name_of; [exact B|left; apply HRoot, V]. }
    destruct (entry_name_ok (own_name ms) e ET) as (N1 & N2).
    destruct (HL ms i d v (map fst l) B V) as (out & st & HL1 & HL2 & HL3).
    (* the sub entries *)
    set (sub := entry_path ms ++ if i =? 2 then [] else own_name ms ++ [47]).
    assert (SP : forall s, sub = entry_path (ms ++ [s])).
    { intros s. unfold entry_path. rewrite removelast_last. unfold sub, entry_path. destruct ms as [|m ms0] eqn:EM.
      - inversion B; subst. rewrite Z.eqb_refl. cbn [removelast above map concat]. rewrite app_nil_r. reflexivity.
      - assert (i <> 2) by (intros ->; pose proof (HR _ _ _ B eq_refl); discriminate). replace (i =? 2) with false by lia. rewrite <- EM in *.
        rewrite <- app_assoc. f_equal. unfold own_name. rewrite (app_removelast_last (l := ms) root) at 3 by (rewrite EM; discriminate). rewrite above_app. unfold above at 3. cbn [map concat]. rewrite app_nil_r. reflexivity. }
    assert (SUB : forall q, In q l -> exists w, inode_is recs (de_inode (fst q)) (Some w)).
    { intros (d' & s) Q. apply L3 in Q. destruct Q as (r & N). destruct (HD i v V) as (_ & _ & H3 & _). apply (H3 _ _ _ N). }
    assert (EACH : forall l', (forall q, In q l' -> In q l) -> NoDup (map snd l') -> exists xs ys LS, Forall2 (fun d v => inode_is recs (de_inode d) (Some v)) (map fst l') xs /\
      Forall2 (fun p y => hierarchy line n (mk_fe t dev ctx (de_inode (fst p)) (snd p) (Some (fst p))) (utf8 sub) = Ok y) (combine (map fst l') xs) ys /\
      NoDup LS /\ (forall ms', In ms' LS <-> exists d' s ms1 i' d1, In (d', s) l' /\ ms' = s :: ms1 /\ below hashed fold recs (de_inode d') (Some d') ms1 i' d1) /\
      Forall2 (fun ms' out => good (ms ++ ms') out) LS (concat ys)).
    { induction l' as [|(d' & s) l' IHl]; intros I ND.
      - exists [], [], []. split; [constructor|]. split; [constructor|]. split; [constructor|]. split; [|constructor]. intros ms'. split; [intros []|]. intros (? & ? & ? & ? & ? & [] & _).
      - cbn [map snd] in ND. inversion ND as [|? ? ND1 ND2]; subst. destruct (IHl (fun q Q => I q (or_intror Q)) ND2) as (xs & ys & LS & X1 & X2 & X3 & X4 & X5).
        pose proof (I (d', s) (or_introl eq_refl)) as Q. destruct (SUB _ Q) as (w & W). cbn [fst] in W. apply L3 in Q. destruct Q as (r & N).
        assert (BS : below hashed fold recs i d [s] (de_inode d') (Some d')) by (eapply below_down; [exact N|apply below_here]).
        destruct n as [|n]; [pose proof (DP _ _ _ BS) as C; cbn [length] in C; lia|].
        destruct (IH n ltac:(lia) (ms ++ [s]) (de_inode d') (Some d') w) as (L & outs & Y1 & Y2 & Y3 & Y4).
        + eapply below_trans; eauto.
        + exact W.
        + intros ms' i' d1 B1. pose proof (DP _ _ _ (below_trans _ _ _ _ _ _ _ _ _ _ _ BS B1)) as C. cbn [app length] in C. lia.
        + exists (w :: xs), (outs :: ys), (map (cons s) L ++ LS). cbn [map fst combine]. split; [constructor; assumption|]. split; [constructor; [|exact X2]|split; [|split]].
          * cbn [fst snd]. rewrite (SP s). exact Y1.
          * apply nodup_app; [apply FinFun.Injective_map_NoDup; [intros a b E; congruence|exact Y2]|exact X3|].
            intros ms' M1 M2. apply in_map_iff in M1. destruct M1 as (m & <- & _). apply X4 in M2. destruct M2 as (d2 & s2 & ms2 & i2 & d3 & M2 & M3 & _). apply ND1. assert (s = s2) as -> by congruence.
            apply in_map_iff. exists (d2, s2). split; [reflexivity|exact M2].
          * intros ms'. rewrite in_app_iff, in_map_iff. split.
            -- intros [(m & <- & M)|M].
               ++ apply Y3 in M. destruct M as (i2 & d2 & M). exists d', s, m, i2, d2. split; [left; reflexivity|]. split; [reflexivity|exact M].
               ++ apply X4 in M. destruct M as (d2 & s2 & ms2 & i2 & d3 & M2 & M3 & M4). exists d2, s2, ms2, i2, d3. split; [right; exact M2|]. split; assumption.
            -- intros (d2 & s2 & ms2 & i2 & d3 & [E|M2] & M3 & M4).
               ++ left. assert (d2 = d') as -> by congruence. assert (s2 = s) as -> by congruence. exists ms2. split; [symmetry; exact M3|]. apply Y3. eauto.
               ++ right. apply X4. exists d2, s2, ms2, i2, d3. auto.
          * cbn [concat]. apply Forall2_app; [|exact X5]. clear - Y4. induction Y4 as [|m o L outs H1 H2 IHY]; cbn [map]; constructor; [|exact IHY]. rewrite <- app_assoc in H1. exact H1. }
    destruct (EACH l (fun q Q => Q) L2) as (xs & ys & LS & X1 & X2 & X3 & X4 & X5).
    exists ([] :: LS), (out :: concat ys). split; [|split; [|split]].
    - cbn [hierarchy]. rewrite SB. cbn [bind]. rewrite c_string_utf8 by exact FP. rewrite N1. cbn [bind]. rewrite N2. unfold string_of. replace (len (utf8 (own_name ms)) <? len (utf8 (own_name ms)) + 1) with true by lia. cbn [bind].
      replace (slice (utf8 (own_name ms) ++ [0]) 0 (len (utf8 (own_name ms)) + 1 - 1)) with (utf8 (own_name ms)).
      2:{ rewrite slice_app_l by lia. symmetry. apply slice_all. lia. }
      unfold e. rewrite HL1. cbn [bind fe_id]. fold e.
      assert (SU : utf8 (entry_path ms) ++ (if i =? 2 then [] else utf8 (own_name ms) ++ [47]) = utf8 sub).
      { unfold sub. rewrite utf8_app. f_equal. destruct (i =? 2); [reflexivity|]. rewrite utf8_app. reflexivity. }
      rewrite SU. rewrite (each_sub (fun x => hierarchy line n x (utf8 sub)) (Z.to_nat (len l)) 0 st (map fst l) [] (map fst l) xs ys e); try reflexivity; try assumption.
      unfold len. rewrite Nat2Z.id, map_length. reflexivity.
    - constructor; [|exact X3]. intros C. apply X4 in C. destruct C as (? & ? & ? & ? & ? & _ & C & _). discriminate.
    - intros ms'. cbn [In]. split.
      + intros [<-|M]; [exists i, d; apply below_here|]. apply X4 in M. destruct M as (d2 & s2 & ms2 & i2 & d3 & M2 & -> & M4). apply L3 in M2. destruct M2 as (r & N). exists i2, d3. eapply below_down; eauto.
      + intros (i2 & d2 & M). inversion M as [|? ? r c s names ? ? N B2]; subst; [left; reflexivity|]. right. apply X4. exists c, s, names, i2, d2. split; [apply L3; eauto|]. auto.
    - constructor; [rewrite app_nil_r; exact HL3|exact X5].
  Qed.
End Hierarchy.

(* ---- chains of entries are finite ---- *)
Lemma below_from hashed fold recs id d d' ms i e : below hashed fold recs id d ms i e -> ms <> [] -> below hashed fold recs id d' ms i e.
Proof. intros H. destruct H as [|id d r c s names i e' H1 H2]; intros N; [congruence|]. eapply below_down; eauto. Qed.
Lemma below_pump hashed fold recs id ms d : below hashed fold recs id None ms id d -> ms <> [] -> forall k, exists ms' d', below hashed fold recs id None ms' id d' /\ (k <= length ms')%nat.
Proof.
  intros B N. induction k as [|k (ms' & d' & B' & L)]; [exists [], None; split; [apply below_here|cbn; lia]|]. exists (ms' ++ ms), d. split; [|rewrite app_length; destruct ms; [congruence|cbn; lia]].
  eapply below_trans; [exact B'|]. eapply below_from; eauto.
Qed.
Lemma below_root hashed fold recs id n : (forall ms i d, below hashed fold recs id None ms i d -> (length ms <= n)%nat) -> forall ms i d, below hashed fold recs id None ms i d -> i = id -> ms = [].
Proof.
  intros H ms i d B ->. destruct ms as [|m ms]; [reflexivity|]. exfalso. destruct (below_pump _ _ _ _ _ _ B ltac:(discriminate) (S n)) as (ms' & d' & B' & L). specialize (H _ _ _ B'). lia.
Qed.
Lemma below_size hashed fold recs id d ms i e : below hashed fold recs id d ms i e -> Forall (fun s => len (utf8 s) <= 1023) ms.
Proof.
  induction 1 as [|id d r c s names i e' H1 H2 IH]; constructor; [|exact IH]. destruct H1 as (_ & _ & (fl & us & fu & xs & _ & _ & H & _) & _ & [S|S] & _); rewrite S in H; [lia|]. rewrite len_app in H. change (len [0]) with 1 in H. lia.
Qed.
Lemma above_size ms : Forall (fun s => len (utf8 s) <= 1023) ms -> len (utf8 (above ms)) <= 1024 * Z.of_nat (length ms).
Proof.
  induction 1 as [|s l H1 H2 IH]; [cbn; lia|]. unfold above in *. cbn [map concat length]. rewrite !utf8_app, !len_app, Nat2Z.inj_succ. change (len (utf8 [47])) with 1. lia.
Qed.
Lemma removelast_forall {A} (P : A -> Prop) l : Forall P l -> Forall P (removelast l).
Proof. induction 1 as [|x l H1 H2 IH]; [constructor|]. destruct l; [constructor|]. change (removelast (x :: a :: l)) with (x :: removelast (a :: l)). constructor; assumption. Qed.
Lemma path_text_joined pre root ms i : (i = 2 <-> ms = []) -> path_text i (entry_path pre ms) (own_name root ms) = pre ++ joined ms.
Proof.
  intros H. unfold path_text, entry_path, own_name. destruct ms as [|m ms].
  - assert (i = 2) as -> by (apply H; reflexivity). rewrite Z.eqb_refl. cbn [removelast above map concat joined]. rewrite !app_nil_r. reflexivity.
  - assert (i <> 2) by (intros E; apply H in E; discriminate). replace (i =? 2) with false by lia. rewrite <- app_assoc. f_equal.
    rewrite (app_removelast_last (l := m :: ms) root ltac:(discriminate)) at 3. rewrite joined_above. reflexivity.
Qed.
