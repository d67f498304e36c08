(* Name and path lookups: safety, termination, independence of the caches. *)
From Verif Require Import Base BaseLemmas At BTree BTreeSpec BTreeProofs Walk WalkProofs Omap OmapProofs Checksum ChecksumSpec ChecksumProofs
  Records RecordsProofs FsTree FsProofs NameTables Name NameSpec NameProofs PropName FsName.
Ltac Zify.zify_post_hook ::= Z.div_mod_to_equations.

(* A decoder that neither reads out of bounds nor loops. *)
Definition fine_decoder (next : list Z -> res (Z * list Z)) : Prop := decoder next /\ forall l, fine (next l).
Lemma utf8_fine : fine_decoder utf8_next.
Proof.
  split; [exact utf8_decoder|]. intros l. unfold utf8_next. destruct l as [|b r]; [exact I|].
  destruct (b <? 128); [exact I|]. destruct (_ && _).
  { destruct r as [|c r]; [exact I|]. destruct (cont c); exact I. }
  destruct (_ && _).
  { destruct r as [|c [|d r]]; try exact I. cbv zeta. destruct (_ && _); exact I. }
  destruct (_ && _); [|exact I]. destruct r as [|c [|d [|e r]]]; try exact I. cbv zeta. destruct (_ && _); exact I.
Qed.
Lemma utf16_fine : fine_decoder utf16_next.
Proof.
  split; [exact utf16_decoder|]. intros l. unfold utf16_next. destruct l as [|b r]; [exact I|].
  destruct (_ || _); [exact I|]. destruct (_ <? _); [|exact I]. destruct r as [|v r]; [exact I|]. destruct (_ && _); exact I.
Qed.

Section Fine.
  Variable next : list Z -> res (Z * list Z).
  Hypothesis HN : fine_decoder next.

  Lemma cmp_loop_fine fold : forall fuel name str, (length name < fuel)%nat -> fine (cmp_loop next fold fuel name str).
  Proof.
    induction fuel as [|fuel IH]; intros name str H; [lia|]. destruct name as [|x name]; [destruct str; exact I|].
    destruct str as [|y str]; [exact I|]. rewrite cmp_loop_step.
    pose proof (proj2 utf8_fine (x :: name)) as F. pose proof (utf8_decoder (x :: name)) as D.
    destruct (utf8_next (x :: name)) as [[c r]| | |]; try contradiction; [|exact I]. destruct (D c r eq_refl) as (D1 & _). cbn [bind].
    pose proof (proj2 HN (y :: str)) as F'. destruct (next (y :: str)) as [[d r']| | |]; try contradiction; [|exact I]. cbn [bind].
    generalize (nfd_of (folded fold d)) (nfd_of (folded fold c)). intros u v.
    destruct (cmp_mapping u v); [apply IH; cbn [length] in *; lia|exact I|exact I].
  Qed.
  Lemma name_compare_fine fold name str : fine (name_compare next fold name str).
  Proof. unfold name_compare. fine_step; [fine_step|]. apply cmp_loop_fine. lia. Qed.

  Lemma hash_loop_fine fold : forall fuel str crc, (length str <= fuel)%nat -> 0 <= crc -> fine (hash_loop next fold fuel str crc).
  Proof.
    induction fuel as [|fuel IH]; intros str crc H P; (destruct str as [|y str]; [exact I|]); [cbn [length] in H; lia|].
    cbn [hash_loop]. pose proof (proj2 HN (y :: str)) as F. pose proof (proj1 HN (y :: str)) as D.
    destruct (next (y :: str)) as [[c r]| | |]; try contradiction; [|exact I]. destruct (D c r eq_refl) as (D1 & _). cbn [bind].
    destruct (c =? 0); [exact I|]. rewrite hash_map_ok. cbn [bind]. generalize (hash_of fold c). intros m. unfold hash_chars.
    fold (words_bytes m). rewrite weak_crc32_correct by (try apply words_bytes_ok; exact P). cbn [bind].
    apply IH; [cbn [length] in *; lia|]. apply crc_bitwise_nonneg, P.
  Qed.
  Lemma name_hash_fine fold str : fine (name_hash next fold str).
  Proof. unfold name_hash. fine_step; [apply hash_loop_fine; lia|exact I]. Qed.

  Lemma record_compare_fine fold h str k : fine (record_compare next fold h str k).
  Proof.
    unfold record_compare. destruct (_ && _); [|apply name_compare_fine].
    destruct (_ <? _); [exact I|]. destruct (_ <? _); [exact I|]. apply name_compare_fine.
  Qed.

  Lemma name_leaf_fine cmp look es : (forall k, fine (cmp k)) -> Forall entry_bytes es -> fine (name_leaf cmp look es).
  Proof.
    intros HC. induction 1 as [|e es (H1 & H2) _ IH]; cbn [name_leaf]; [exact I|]. fine_step; [apply fs_word_fine|].
    destruct (_ =? _); [|exact IH]. fine_step; [apply dir_key_safe; auto|]. fine_step; [apply HC|].
    destruct x1; [|exact IH|exact IH]. fine_step; [apply dir_value_safe; auto|]. destruct x1. exact I.
  Qed.
  Lemma name_branch_fine cmp id es : (forall k, fine (cmp k)) -> Forall entry_bytes es -> forall p, fine (name_branch cmp id p es).
  Proof.
    intros HC. induction 1 as [|e es (H1 & H2) _ IH]; intros p; cbn [name_branch]; [exact I|]. fine_step; [apply fs_word_fine|].
    destruct (_ || _); [exact I|]. destruct (_ && _); [|apply IH]. fine_step; [apply dir_key_safe; auto|]. fine_step; [apply HC|].
    destruct x1; [apply IH|exact I|apply IH].
  Qed.
  Lemma name_walker_fine cl cb id : (forall k, fine (cl k)) -> (forall k, fine (cb k)) -> fine_walker (name_walker cl cb id).
  Proof.
    intros H1 H2 n Hn. cbn [wk_leaf wk_plan name_walker]. split; [apply name_leaf_fine; auto|]. constructor; [|constructor].
    fine_step; [apply name_branch_fine; auto|]. apply fs_child_fine.
  Qed.

  Lemma segment_fine : forall fuel l, (length l <= fuel)%nat -> fine (segment next fuel l).
  Proof.
    induction fuel as [|fuel IH]; intros l H; (destruct l as [|y l]; [exact I|]); [cbn [length] in H; lia|].
    cbn [segment]. pose proof (proj2 HN (y :: l)) as F. pose proof (proj1 HN (y :: l)) as D.
    destruct (next (y :: l)) as [[c r]| | |]; try contradiction; [|exact I]. destruct (D c r eq_refl) as (D1 & _). cbn [bind].
    destruct (_ || _); [exact I|]. fine_step; [apply IH; cbn [length] in *; lia|]. destruct x. exact I.
  Qed.
  Lemma segment_rest : forall fuel l s r, segment next fuel l = Ok (s, r) -> l <> [] -> (length r < length l)%nat.
  Proof.
    induction fuel as [|fuel IH]; intros l s r H Hl; (destruct l as [|y l]; [congruence|]); [discriminate|].
    cbn [segment] in H. pose proof (proj1 HN (y :: l)) as D.
    destruct (next (y :: l)) as [[c q]| | |]; try discriminate. destruct (D c q eq_refl) as (D1 & _). cbn [bind] in H.
    destruct (_ || _).
    - injection H as _ <-. exact D1.
    - destruct (segment next fuel q) as [[s' r']| | |] eqn:E; try discriminate. cbn [bind] in H. injection H as _ <-.
      destruct q as [|z q].
      + destruct fuel; cbn in E; injection E as _ <-; cbn [length] in *; lia.
      + apply IH in E; [cbn [length] in *; lia|discriminate].
  Qed.
End Fine.

Section Agree.
  Variable t : fs.
  Hypothesis HF : bytes_image (fs_img t).
  Hypothesis HO : bytes_image (fs_omap t).
  Variable next : list Z -> res (Z * list Z).
  Hypothesis HN : fine_decoder next.
  Variable fold : bool.

  (* ---- safety of the lookups without caches ---- *)
  Lemma fs_visit_fine {A} (w : walker A) n : fine_walker w -> wk_lim w <= 257 -> fs_root t = Ok (Some n) ->
    fine (fst (visit (pure (fs_sub t)) w walk_fuel 0 n tt)).
  Proof.
    intros HW HL HR. apply (pure_visit_fine _ (fs_sub t) w); unfold walk_fuel; try lia.
    - apply fs_sub_fine; auto.
    - intros b m Hm. apply HW. exact (fs_sub_entries t HF b m Hm).
    - apply HW. exact (fs_root_entries t HF _ HR).
    - apply HW. exact (fs_root_entries t HF _ HR).
  Qed.
  Notation findp := (find_record unit (pure (fs_sub t)) next fold).
  Lemma find_record_fine n id str : fs_root t = Ok (Some n) -> fine (fst (findp n id str tt)).
  Proof.
    intros HR. unfold find_record, bindM. cbn [retM]. pose proof (name_hash_fine next HN fold str) as F.
    destruct (name_hash next fold str) as [h| | |]; try contradiction; [|exact I].
    apply fs_visit_fine; [|cbn; lia|exact HR]. apply name_walker_fine; intros k; apply record_compare_fine, HN.
  Qed.
  Lemma fs_record_fine id str : fine (fs_record t next fold id str).
  Proof.
    unfold fs_record. pose proof (fs_root_fine t HF) as F. destruct (fs_root t) as [[n|]| | |] eqn:E; try contradiction; try exact I.
    cbn [bind]. apply find_record_fine, E.
  Qed.

  (* ---- with caches ---- *)
  Section History.
    Variables (P Q : Type).
    Variables (evp : P -> list (Z * bnode) -> Z -> P * list (Z * bnode)).
    Variables (evq : Q -> list (Z * bnode) -> Z -> Q * list (Z * bnode)).
    Hypothesis Hevp : forall p l b, incl (snd (evp p l b)) l.
    Hypothesis Hevq : forall p l b, incl (snd (evq p l b)) l.
    Notation inv := (fs_inv t P Q).

    (* A computation with caches that agrees with one without. *)
    Definition agrees {A} (m : M (caches P Q) A) (r : res A) : Prop :=
      forall s, inv s -> inv (snd (m s)) /\ fst (m s) = r.
    Lemma agrees_ret {A} (r : res A) : agrees (retM r) r.
    Proof. intros s HS. split; [exact HS|reflexivity]. Qed.
    Lemma agrees_bind {A B} (m : M (caches P Q) A) r (f : A -> M (caches P Q) B) g :
      agrees m r -> (forall a, r = Ok a -> agrees (f a) (g a)) -> agrees (bindM m f) (bind r g).
    Proof.
      intros Hm Hf s HS. destruct (Hm s HS) as (C & E). unfold bindM. destruct (m s) as [r' s']. cbn [fst snd] in *. subst r'.
      destruct r as [a| | |]; cbn [bind]; try (split; [exact C|reflexivity]). apply Hf; auto.
    Qed.

    Lemma agrees_walk {A} (w : walker A) : fine_walker w ->
      agrees (walk (fs_root_cached P Q evp t) (fs_sub_cached P Q evp evq t) w) (fs_walk t w).
    Proof. intros HW s HS. exact (fs_walk_agree t HF HO P Q evp evq Hevp Hevq w s HW HS). Qed.

    Lemma agrees_root : agrees (fs_root_cached P Q evp t) (fs_root t).
    Proof.
      intros [cf co] (C1 & C2). cbn [fst snd] in *. unfold fs_root_cached. cbn [fst snd].
      destruct (cached_root_agree (fs_load_root (fs_img t) (fs_rb t)) (fs_load_sub (fs_img t)) (fs_rb t) P evp Hevp (fun n => fs_disjoint (fs_img t) (fs_rb t) n) (fs_load_root_fine _ HF _) cf C1) as (C1' & E).
      destruct (cached_root _ _ _ _ cf) as [r cf']. cbn [fst snd] in *. split; [split; auto|]. exact E.
    Qed.
    Lemma agrees_visit {A} (w : walker A) n : fine_walker w -> wk_lim w <= 257 -> fs_root t = Ok (Some n) ->
      agrees (visit (fs_sub_cached P Q evp evq t) w walk_fuel 0 n) (fst (visit (pure (fs_sub t)) w walk_fuel 0 n tt)).
    Proof.
      intros HW HL HR s HS.
      assert (HE : fine (wk_leaf w n) /\ Forall fine (wk_plan w n)) by (apply HW; exact (fs_root_entries t HF _ HR)).
      change (fst (visit (pure (fs_sub t)) w walk_fuel 0 n tt)) with (U A (fs_sub t) w walk_fuel 0 n).
      apply (visit_agree (caches P Q) A (fs_root_cached P Q evp t) (fs_sub_cached P Q evp evq t) (fs_root t) (fs_sub t) inv w) with (rn := n).
      - apply fs_sub_fine; auto.
      - apply agrees_root.
      - intros rn HR' o [cf co] (C1 & C2). cbn [fst snd] in *. unfold fs_sub_cached. cbn [fst snd].
        destruct (omap_cached_agree (fs_omap t) HO (fs_orb t) Q evq Hevq o (fs_txn t) co C2) as (C2' & E).
        destruct (omap_lookup_cached _ _ _ _ _ co) as [r co']. cbn [fst snd] in *. unfold fs_sub. rewrite <- E.
        destruct r as [[d|]| | |]; cbn [bind fst snd]; try (split; [split; auto|auto]; fail).
        destruct (cached_sub_agree (fs_load_root (fs_img t) (fs_rb t)) (fs_load_sub (fs_img t)) (fs_rb t) P evp Hevp
          (fun n => fs_disjoint (fs_img t) (fs_rb t) n) (fs_load_sub_fine _ HF) rn HR' (od_address d) cf C1) as (C1' & E1).
        destruct (cached_sub _ _ _ _ cf) as [r cf']. cbn [fst snd] in *. split; [split; auto|]. exact E1.
      - intros m Hm. apply HW. exact (fs_root_entries t HF _ Hm).
      - intros b m Hm. apply HW. exact (fs_sub_entries t HF b m Hm).
      - exact HR.
      - unfold walk_fuel. lia.
      - lia.
      - unfold walk_fuel. lia.
      - exact HS.
      - exact HE.
      - auto.
    Qed.

    Lemma agrees_find n id str : fs_root t = Ok (Some n) ->
      agrees (find_record _ (fs_sub_cached P Q evp evq t) next fold n id str) (fst (findp n id str tt)).
    Proof.
      intros HR. unfold find_record. unfold bindM at 2. cbn [retM].
      intros s HS. unfold bindM. cbn [retM]. destruct (name_hash next fold str) as [h| | |]; try (split; [exact HS|reflexivity]).
      apply agrees_visit; [|cbn; lia|exact HR|exact HS].
      apply name_walker_fine; intros k; apply record_compare_fine, HN.
    Qed.
    Lemma bind_fst {A B} (m : M unit A) (f : A -> M unit B) :
      fst (bindM m f tt) = bind (fst (m tt)) (fun a => fst (f a tt)).
    Proof. unfold bindM. destruct (m tt) as [[a| | |] []]; reflexivity. Qed.

    Lemma agrees_path_loop n : fs_root t = Ok (Some n) -> forall fuel id rec str,
      agrees (path_loop _ (fs_sub_cached P Q evp evq t) next fold n fuel id rec str)
        (fst (path_loop unit (pure (fs_sub t)) next fold n fuel id rec str tt)).
    Proof.
      intros HR. induction fuel as [|fuel IH]; intros id rec str; (destruct str as [|y str]; [apply agrees_ret|]); [apply agrees_ret|].
      cbn [path_loop]. rewrite bind_fst. apply agrees_bind; [apply agrees_ret|]. intros [s r] _. cbn [fst snd].
      destruct s as [|z s]; [apply agrees_ret|]. rewrite bind_fst. apply agrees_bind; [apply agrees_find, HR|].
      intros [d|] _; [apply IH|apply agrees_ret].
    Qed.
    Lemma agrees_entry id : agrees (entry_of _ (fs_root_cached P Q evp t) (fs_sub_cached P Q evp evq t) id)
      (fst (entry_of unit (retM (fs_root t)) (pure (fs_sub t)) id tt)).
    Proof. apply agrees_walk, fs_id_walker_fine. Qed.

    Theorem agrees_name id str : agrees (by_name_cached P Q evp evq t next fold id str) (fs_by_name t next fold id str).
    Proof.
      unfold by_name_cached, fs_by_name, inode_by_name. rewrite bind_fst. apply agrees_bind; [apply agrees_root|].
      intros [n|] HR; [|apply agrees_ret]. cbn [retM fst] in HR. rewrite bind_fst. apply agrees_bind; [apply agrees_find, HR|].
      intros [d|] _; [|apply agrees_ret]. rewrite bind_fst. apply agrees_bind; [apply agrees_entry|]. intros e _. apply agrees_ret.
    Qed.
    Theorem agrees_path id str : agrees (by_path_cached P Q evp evq t next fold id str) (fs_by_path t next fold id str).
    Proof.
      unfold by_path_cached, fs_by_path, inode_by_path. rewrite bind_fst. apply agrees_bind; [apply agrees_root|].
      intros [n|] HR; [|apply agrees_ret]. cbn [retM fst] in HR. cbv zeta. rewrite bind_fst. apply agrees_bind.
      - destruct (_ || _); [apply agrees_ret|]. apply agrees_path_loop, HR.
      - intros [[i d]|] _; [|apply agrees_ret]. rewrite bind_fst. apply agrees_bind; [apply agrees_entry|].
        intros [e|] _; apply agrees_ret.
    Qed.
  End History.

  (* ---- safety ---- *)
  Lemma path_loop_fine n : fs_root t = Ok (Some n) -> forall fuel id rec str, (length str <= fuel)%nat ->
    fine (fst (path_loop unit (pure (fs_sub t)) next fold n fuel id rec str tt)).
  Proof.
    intros HR. induction fuel as [|fuel IH]; intros id rec str HL; (destruct str as [|y str]; [exact I|]); [cbn [length] in HL; lia|].
    cbn [path_loop]. rewrite bind_fst. cbn [retM fst]. apply fine_bind; [apply segment_fine; [exact HN|lia]|]. intros [s r] HS. cbn [fst snd].
    apply (segment_rest next HN) in HS; [|discriminate].
    destruct s as [|z s]; [exact I|]. rewrite bind_fst. apply fine_bind; [apply find_record_fine, HR|].
    intros [d|] _; [|exact I]. apply IH. cbn [length] in *. lia.
  Qed.
  Lemma entry_fine id : fine (fst (entry_of unit (retM (fs_root t)) (pure (fs_sub t)) id tt)).
  Proof. apply (fs_walk_fine t HF HO (fs_id_walker id 3)), fs_id_walker_fine. Qed.
  Lemma entry_of_bytes id e : fst (entry_of unit (retM (fs_root t)) (pure (fs_sub t)) id tt) = Ok (Some e) -> entry_bytes e.
  Proof. apply (fs_id_bytes t HF). Qed.

  Theorem fs_by_name_fine id str : fine (fs_by_name t next fold id str).
  Proof.
    unfold fs_by_name, inode_by_name. rewrite bind_fst. cbn [retM fst]. apply fine_bind; [apply fs_root_fine; auto|].
    intros [n|] HR; [|exact I]. rewrite bind_fst. apply fine_bind; [apply find_record_fine, HR|].
    intros [d|] _; [|exact I]. rewrite bind_fst. apply fine_bind; [apply entry_fine|]. intros [e|] _; exact I.
  Qed.
  Theorem fs_by_path_fine id str : fine (fs_by_path t next fold id str).
  Proof.
    unfold fs_by_path, inode_by_path. rewrite bind_fst. cbn [retM fst]. apply fine_bind; [apply fs_root_fine; auto|].
    intros [n|] HR; [|exact I]. cbv zeta. rewrite bind_fst. apply fine_bind.
    - destruct (_ || _); [exact I|]. apply path_loop_fine; [exact HR|].
      destruct str as [|y str]; [cbn; lia|]. destruct (Z.eq_dec y 47) as [E|E]; [subst; cbn [length]; lia|].
      replace (match y :: str with 47 :: l => l | _ => y :: str end) with (y :: str); [lia|].
      destruct y as [|p|p]; try reflexivity. repeat (destruct p as [p|p|]; try reflexivity). congruence.
    - intros [[i d]|] _; [|exact I]. rewrite bind_fst. apply fine_bind; [apply entry_fine|].
      intros [e|] HE; [|exact I]. apply entry_of_bytes in HE. cbn [retM fst]. fine_step; [apply read_inode_fine, HE|exact I].
  Qed.
End Agree.

(* ---- sessions of any lookups and enumerations through one handle ---- *)
Inductive call := CTree (q : query) | CName8 (id : Z) (s : list Z) | CName16 (id : Z) (s : list Z)
  | CPath8 (id : Z) (s : list Z) | CPath16 (id : Z) (s : list Z).
Inductive reply := RTree (a : answer) | RName (r : option (Z * inode * dentry)) | RPath (r : option (Z * inode * option dentry)).
Definition call_plain (t : fs) (fold : bool) (c : call) : res reply :=
  match c with
  | CTree q => let! a := ask t q in Ok (RTree a)
  | CName8 id s => let! r := fs_by_name t utf8_next fold id s in Ok (RName r)
  | CName16 id s => let! r := fs_by_name t utf16_next fold id s in Ok (RName r)
  | CPath8 id s => let! r := fs_by_path t utf8_next fold id s in Ok (RPath r)
  | CPath16 id s => let! r := fs_by_path t utf16_next fold id s in Ok (RPath r)
  end.
Section Session.
  Variables (P Q : Type).
  Variables (evp : P -> list (Z * bnode) -> Z -> P * list (Z * bnode)).
  Variables (evq : Q -> list (Z * bnode) -> Z -> Q * list (Z * bnode)).
  Definition call_cached (t : fs) (fold : bool) (c : call) : M (caches P Q) reply :=
    match c with
    | CTree q => bindM (ask_cached P Q evp evq t q) (fun a => retM (Ok (RTree a)))
    | CName8 id s => bindM (by_name_cached P Q evp evq t utf8_next fold id s) (fun r => retM (Ok (RName r)))
    | CName16 id s => bindM (by_name_cached P Q evp evq t utf16_next fold id s) (fun r => retM (Ok (RName r)))
    | CPath8 id s => bindM (by_path_cached P Q evp evq t utf8_next fold id s) (fun r => retM (Ok (RPath r)))
    | CPath16 id s => bindM (by_path_cached P Q evp evq t utf16_next fold id s) (fun r => retM (Ok (RPath r)))
    end.
  Fixpoint session (t : fs) (fold : bool) (cs : list call) (s : caches P Q) : list (res reply) :=
    match cs with
    | [] => []
    | c :: cs => let (r, s) := call_cached t fold c s in r :: session t fold cs s
    end.
  Hypothesis Hevp : forall p l b, incl (snd (evp p l b)) l.
  Hypothesis Hevq : forall p l b, incl (snd (evq p l b)) l.
  Variable t : fs.
  Hypothesis HF : bytes_image (fs_img t).
  Hypothesis HO : bytes_image (fs_omap t).

  Lemma call_agree fold c : agrees t P Q (call_cached t fold c) (call_plain t fold c).
  Proof.
    destruct c; cbn [call_cached call_plain]; (apply agrees_bind; [|intros; apply agrees_ret]).
    - intros s HS. apply ask_agree; auto.
    - apply agrees_name; auto. exact utf8_fine.
    - apply agrees_name; auto. exact utf16_fine.
    - apply agrees_path; auto. exact utf8_fine.
    - apply agrees_path; auto. exact utf16_fine.
  Qed.
  Theorem session_plain fold p q cs : session t fold cs ((p, []), (q, [])) = map (call_plain t fold) cs.
  Proof.
    assert (HC : fs_inv t P Q ((p, []), (q, []))) by (split; intros b n []). revert HC. generalize ((p, @nil (Z * bnode)), (q, @nil (Z * bnode))) as c.
    induction cs as [|x cs IH]; intros c HC; [reflexivity|]. cbn [session map].
    destruct (call_agree fold x c HC) as (HC' & E). destruct (call_cached t fold x c) as [r c'].
    cbn [fst snd] in *. subst r. f_equal. apply IH; auto.
  Qed.
  Theorem call_fine fold c : fine (call_plain t fold c).
  Proof.
    destruct c; cbn [call_plain]; (fine_step; [|exact I]).
    - apply ask_fine; auto.
    - apply fs_by_name_fine; auto. exact utf8_fine.
    - apply fs_by_name_fine; auto. exact utf16_fine.
    - apply fs_by_path_fine; auto. exact utf8_fine.
    - apply fs_by_path_fine; auto. exact utf16_fine.
  Qed.
End Session.
