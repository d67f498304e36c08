(* Proofs about Huffman tree building and decoding (Huffman.v). *)
From Verif Require Import Base BaseLemmas BitStream Huffman DeflateSpec BitProofs.
Ltac Zify.zify_post_hook ::= Z.div_mod_to_equations.

(* ---- arrays ---- *)

Definition znth (l : list Z) (i : Z) : Z := nth (Z.to_nat i) l 0.

Lemma getb_znth l i : 0 <= i < len l -> getb l i = Ok (znth l i).
Proof.
  intros H. destruct (getb_in l i H) as (x & E & N). rewrite E. f_equal.
  unfold znth. symmetry. apply nth_error_nth; auto.
Qed.

Lemma setb_in {A} (l : list A) i v : 0 <= i < len l ->
  setb l i v = Ok (firstn (Z.to_nat i) l ++ v :: skipn (S (Z.to_nat i)) l).
Proof. intros. unfold setb. replace ((0 <=? i) && (i <? len l)) with true by lia. auto. Qed.

Lemma upd_len {A} (l : list A) i v : 0 <= i < len l ->
  len (firstn (Z.to_nat i) l ++ v :: skipn (S (Z.to_nat i)) l) = len l.
Proof.
  intros. unfold len in *. rewrite app_length, firstn_length. cbn [length]. rewrite skipn_length. lia.
Qed.

Lemma upd_nth {A} (l : list A) (i j : nat) v d : (i < length l)%nat ->
  nth j (firstn i l ++ v :: skipn (S i) l) d = if (j =? i)%nat then v else nth j l d.
Proof.
  revert i j; induction l as [|x l IH]; intros i j H; simpl in H; [lia|].
  destruct i as [|i]; destruct j as [|j]; cbn [firstn app skipn nth Nat.eqb]; auto.
  apply (IH i j). lia.
Qed.

Lemma upd_znth l i j v : 0 <= i < len l -> 0 <= j ->
  znth (firstn (Z.to_nat i) l ++ v :: skipn (S (Z.to_nat i)) l) j = if j =? i then v else znth l j.
Proof.
  intros. unfold znth. unfold len in *. rewrite upd_nth by lia.
  destruct (j =? i) eqn:E; [replace (Z.to_nat j =? Z.to_nat i)%nat with true by lia|
    replace (Z.to_nat j =? Z.to_nat i)%nat with false by lia]; auto.
Qed.

Lemma zeros_znth n i : znth (zeros n) i = 0.
Proof. unfold znth, zeros. apply nth_repeat. Qed.

(* ---- counting ---- *)

Lemma cnt_cons c l b : cnt (c :: l) b = (if c =? b then 1 else 0) + cnt l b.
Proof. unfold cnt. cbn [filter]. destruct (c =? b); [rewrite len_cons|]; lia. Qed.
Lemma cnt_nil b : cnt [] b = 0.
Proof. reflexivity. Qed.
Lemma cnt_nonneg l b : 0 <= cnt l b.
Proof. apply len_nonneg. Qed.
Lemma cnt_app a l b : cnt (a ++ l) b = cnt a b + cnt l b.
Proof. unfold cnt. rewrite filter_app, len_app. auto. Qed.
Lemma cnt_le l b : cnt l b <= len l.
Proof. induction l as [|c l IH]; [unfold cnt; simpl; lia|]. rewrite cnt_cons, len_cons. destruct (c =? b); lia. Qed.

Lemma huff_count_spec max : 0 <= max -> forall sizes counts, Forall (fun c => 0 <= c) sizes ->
  len counts = max + 1 ->
  (Forall (fun c => c <= max) sizes /\
   exists r, huff_count max sizes counts = Ok r /\ len r = max + 1 /\
     forall b, 0 <= b <= max -> znth r b = znth counts b + cnt sizes b) \/
  (~ Forall (fun c => c <= max) sizes /\ huff_count max sizes counts = Fail).
Proof.
  intros Hm. induction sizes as [|c sizes IH]; intros counts Hp Hl.
  - left. split; [constructor|]. exists counts. cbn [huff_count]. repeat split; auto.
    intros. rewrite cnt_nil. lia.
  - apply Forall_cons_iff in Hp. destruct Hp as (Hc & Hp). cbn [huff_count].
    destruct (c <=? max) eqn:E; cbn [check bind].
    2:{ right. split; auto. intros F; inversion F; subst; lia. }
    rewrite getb_znth by lia. cbn [bind]. rewrite setb_in by lia. cbn [bind].
    set (counts' := firstn _ _ ++ _).
    assert (Hl' : len counts' = max + 1) by (unfold counts'; rewrite upd_len by lia; auto).
    destruct (IH counts' Hp Hl') as [(F & r & E1 & E2 & E3)|(F & E1)].
    + left. split; [constructor; [lia|auto]|]. exists r. repeat split; auto.
      intros b Hb. rewrite E3 by auto. unfold counts'. rewrite upd_znth, cnt_cons by lia.
      destruct (b =? c) eqn:?; destruct (c =? b) eqn:?; try lia.
      assert (b = c) as -> by lia. lia.
    + right. split; auto. intros F'; inversion F'; auto.
Qed.

Lemma cnt_zero_all l : cnt l 0 = len l <-> Forall (fun c => c = 0) l.
Proof.
  induction l as [|c l IH]; [split; intros; [constructor|reflexivity]|].
  rewrite cnt_cons, len_cons. pose proof (cnt_le l 0). split.
  - intros. destruct (c =? 0) eqn:E; [|lia]. constructor; [lia|apply IH; lia].
  - intros F. apply Forall_cons_iff in F. destruct F as (-> & F). apply IH in F. rewrite Z.eqb_refl. lia.
Qed.

(* ---- the Kraft sum ---- *)

Definition cnt' (lens : list Z) (m : nat) : Z := if (m =? 0)%nat then 0 else cnt lens (Z.of_nat m).

Definition kr (b : Z) (lens : list Z) : Z :=
  fold_right (fun c acc => (if (0 <? c) && (c <=? b) then 2 ^ (b - c) else 0) + acc) 0 lens.

Lemma kr_succ b lens : 0 <= b -> kr (b + 1) lens = 2 * kr b lens + cnt lens (b + 1).
Proof.
  intros Hb. induction lens as [|c l IH]; [reflexivity|].
  cbn [kr fold_right]. fold (kr (b + 1) l). fold (kr b l). rewrite cnt_cons, IH.
  destruct (c =? b + 1) eqn:E1.
  - assert (c = b + 1) as -> by lia. replace ((0 <? b + 1) && (b + 1 <=? b + 1)) with true by lia.
    replace ((0 <? b + 1) && (b + 1 <=? b)) with false by lia. rewrite Z.sub_diag. lia.
  - destruct ((0 <? c) && (c <=? b)) eqn:E2.
    + replace ((0 <? c) && (c <=? b + 1)) with true by lia.
      replace (b + 1 - c) with (Z.succ (b - c)) by lia. rewrite Z.pow_succ_r by lia. lia.
    + replace ((0 <? c) && (c <=? b + 1)) with false by lia. lia.
Qed.

Lemma kr_next lens m : next_code lens m + cnt' lens m = kr (Z.of_nat m) lens.
Proof.
  induction m.
  - cbn [next_code cnt' Nat.eqb]. unfold cnt'. simpl.
    induction lens as [|c l IH]; [reflexivity|].
    cbn [kr fold_right]. fold (kr 0 l). rewrite <- IH.
    replace ((0 <? c) && (c <=? 0)) with false by lia. lia.
  - replace (Z.of_nat (S m)) with (Z.of_nat m + 1) by lia. rewrite kr_succ by lia.
    cbn [next_code]. fold (cnt' lens m). rewrite IHm.
    unfold cnt'. cbn [Nat.eqb]. replace (Z.of_nat m + 1) with (Z.of_nat (S m)) by lia. lia.
Qed.

Lemma kraft_kr max lens : Forall (fun c => 0 <= c <= max) lens -> kraft max lens = kr max lens.
Proof.
  induction lens as [|c l IH]; [reflexivity|]. intros F. apply Forall_cons_iff in F. destruct F as (H & F).
  cbn [kraft kr fold_right]. fold (kraft max l) (kr max l). rewrite IH by auto.
  destruct (c =? 0) eqn:E; destruct ((0 <? c) && (c <=? max)) eqn:E2; auto; lia.
Qed.

Lemma next_code_S lens m : next_code lens (S m) = 2 * (next_code lens m + cnt' lens m).
Proof. reflexivity. Qed.
Lemma cnt'_nonneg lens m : 0 <= cnt' lens m.
Proof. unfold cnt'. destruct (m =? 0)%nat; [lia|apply cnt_nonneg]. Qed.
Lemma next_code_nonneg lens m : 0 <= next_code lens m.
Proof. induction m; [simpl; lia|]. rewrite next_code_S. pose proof (cnt'_nonneg lens m). lia. Qed.

Lemma next_code_mono lens i j : (i < j)%nat ->
  2 ^ Z.of_nat (j - i) * (next_code lens i + cnt' lens i) <= next_code lens j.
Proof.
  induction j; intros H; [lia|].
  destruct (Nat.eq_dec i j) as [->|].
  - rewrite next_code_S. replace (S j - j)%nat with 1%nat by lia. change (2 ^ Z.of_nat 1) with 2. lia.
  - rewrite next_code_S. replace (S j - i)%nat with (S (j - i)) by lia. rewrite pow2_succ.
    pose proof (cnt'_nonneg lens j). specialize (IHj ltac:(lia)). lia.
Qed.

(* number of free codes of m bits *)
Definition lft (lens : list Z) (m : nat) : Z := 2 ^ Z.of_nat m - (next_code lens m + cnt' lens m).

Lemma lft_S lens m : lft lens (S m) = 2 * lft lens m - cnt lens (Z.of_nat (S m)).
Proof.
  unfold lft. rewrite next_code_S, pow2_succ. unfold cnt' at 2. cbn [Nat.eqb]. lia.
Qed.
Lemma lft_down lens i j : (i <= j)%nat -> 0 <= lft lens j -> 0 <= lft lens i.
Proof.
  induction j; intros H H1; [replace i with O by lia; auto|].
  destruct (Nat.eq_dec i (S j)) as [->|]; auto. apply IHj; [lia|].
  rewrite lft_S in H1. pose proof (cnt_nonneg lens (Z.of_nat (S j))). lia.
Qed.

Lemma huff_left_spec lens counts max : len counts = max + 1 -> 
  (forall b, 0 <= b <= max -> znth counts b = cnt lens b) ->
  forall n m, Z.of_nat (m + n) = max ->
  0 <= lft lens m ->
  (0 <= lft lens (m + n) /\ exists v, huff_left n (Z.of_nat (S m)) (lft lens m) counts = Ok v) \/
  (lft lens (m + n) < 0 /\ huff_left n (Z.of_nat (S m)) (lft lens m) counts = Fail).
Proof.
  intros Hl Hc. induction n; intros m Hm H0.
  - left. rewrite Nat.add_0_r. cbn [huff_left]. eauto.
  - cbn [huff_left]. rewrite getb_znth by lia. cbn [bind]. rewrite Hc by lia. rewrite <- lft_S.
    replace (m + S n)%nat with (S m + n)%nat in * by lia.
    destruct (0 <=? lft lens (S m)) eqn:E; cbn [check bind].
    + replace (Z.of_nat (S m) + 1) with (Z.of_nat (S (S m))) by lia. apply IHn; lia.
    + right. split; auto.
      destruct (Z.lt_ge_cases (lft lens (S m + n)) 0); auto.
      pose proof (lft_down lens (S m) (S m + n) ltac:(lia) ltac:(lia)). lia.
Qed.

(* ---- positions in the sorted symbol table ---- *)

Definition start (lens : list Z) (b : Z) : Z := len (filter (fun c => (0 <? c) && (c <? b)) lens).

Lemma start_cons c l b : start (c :: l) b = (if (0 <? c) && (c <? b) then 1 else 0) + start l b.
Proof. unfold start. cbn [filter]. destruct (_ && _); [rewrite len_cons|]; lia. Qed.
Lemma start_nonneg l b : 0 <= start l b.
Proof. apply len_nonneg. Qed.
Lemma start_1 l : start l 1 = 0.
Proof.
  induction l as [|c l IH]; [reflexivity|]. rewrite start_cons, IH.
  replace ((0 <? c) && (c <? 1)) with false by lia. auto.
Qed.
Lemma start_succ l b : 1 <= b -> start l (b + 1) = start l b + cnt l b.
Proof.
  intros H. induction l as [|c l IH]; [reflexivity|]. rewrite !start_cons, cnt_cons, IH.
  destruct ((0 <? c) && (c <? b + 1)) eqn:?; destruct ((0 <? c) && (c <? b)) eqn:?; destruct (c =? b) eqn:?; lia.
Qed.
Lemma start_bound l b : 1 <= b -> start l b + cnt l b <= len l.
Proof.
  intros H. induction l as [|c l IH]; [reflexivity|]. rewrite start_cons, cnt_cons, len_cons.
  destruct ((0 <? c) && (c <? b)) eqn:?; destruct (c =? b) eqn:?; lia.
Qed.
Lemma start_mono l i j : 1 <= i -> i < j -> start l i + cnt l i <= start l j.
Proof.
  intros Hi Hj. induction l as [|c l IH]; [reflexivity|]. rewrite !start_cons, cnt_cons.
  destruct ((0 <? c) && (c <? i)) eqn:?; destruct ((0 <? c) && (c <? j)) eqn:?; destruct (c =? i) eqn:?; lia.
Qed.

Definition pos (lens : list Z) (s : nat) : Z :=
  start lens (code_len lens s) + cnt (firstn s lens) (code_len lens s).

Lemma firstn_S_nth {A} (l : list A) s d : (s < length l)%nat -> firstn (S s) l = firstn s l ++ [nth s l d].
Proof.
  revert l; induction s; intros [|x l] H; simpl in *; try lia; auto. f_equal. apply IHs. lia.
Qed.

Lemma cnt_firstn_lt lens s t b : (s < t <= length lens)%nat -> code_len lens s = b ->
  cnt (firstn s lens) b < cnt (firstn t lens) b.
Proof.
  intros H E. 
  assert (cnt (firstn (S s) lens) b = cnt (firstn s lens) b + 1).
  { rewrite (firstn_S_nth lens s 0) by lia. rewrite cnt_app, cnt_cons. unfold code_len in E.
    rewrite E, Z.eqb_refl. rewrite cnt_nil. lia. }
  assert (firstn (S s) lens ++ firstn (t - S s) (skipn (S s) lens) = firstn t lens).
  { rewrite <- (firstn_skipn (S s) (firstn t lens)). rewrite firstn_firstn.
    replace (Nat.min (S s) t) with (S s) by lia. f_equal. rewrite firstn_skipn_comm.
    f_equal. f_equal. lia. }
  rewrite <- H1, cnt_app. pose proof (cnt_nonneg (firstn (t - S s) (skipn (S s) lens)) b). lia.
Qed.

Lemma rank_lt lens s : (s < length lens)%nat -> cnt (firstn s lens) (code_len lens s) < cnt lens (code_len lens s).
Proof.
  intros. rewrite <- (firstn_all lens) at 3. apply cnt_firstn_lt; auto; lia.
Qed.

Lemma rank_exists lens b r : 0 <= r < cnt lens b ->
  exists s, (s < length lens)%nat /\ code_len lens s = b /\ cnt (firstn s lens) b = r.
Proof.
  revert r; induction lens as [|c l IH]; intros r H.
  - rewrite cnt_nil in H. lia.
  - rewrite cnt_cons in H. destruct (c =? b) eqn:E.
    + destruct (Z.eq_dec r 0) as [->|].
      * exists O. simpl. repeat split; try lia. unfold code_len; simpl. lia.
      * destruct (IH (r - 1) ltac:(lia)) as (s & H1 & H2 & H3). exists (S s). simpl length. cbn [firstn].
        rewrite cnt_cons, E. repeat split; auto; lia.
    + destruct (IH r ltac:(lia)) as (s & H1 & H2 & H3). exists (S s). simpl length. cbn [firstn].
      rewrite cnt_cons, E. repeat split; auto; lia.
Qed.

Lemma code_len_range max lens s : 0 <= max -> Forall (fun c => 0 <= c <= max) lens -> 0 <= code_len lens s <= max.
Proof.
  intros Hm F. unfold code_len. destruct (Nat.lt_ge_cases s (length lens)).
  - rewrite Forall_forall in F. apply F. apply nth_In; auto.
  - rewrite nth_overflow by lia. lia.
Qed.

Lemma pos_range max lens s : 0 <= max -> Forall (fun c => 0 <= c <= max) lens -> coded lens s ->
  0 <= pos lens s < len lens.
Proof.
  intros Hm F (H1 & H2). pose proof (code_len_range max lens s Hm F).
  unfold pos. pose proof (rank_lt lens s H1). pose proof (start_bound lens (code_len lens s) ltac:(lia)).
  pose proof (start_nonneg lens (code_len lens s)). pose proof (cnt_nonneg (firstn s lens) (code_len lens s)). lia.
Qed.

Lemma pos_inj max lens s t : 0 <= max -> Forall (fun c => 0 <= c <= max) lens -> coded lens s -> coded lens t ->
  (s < t)%nat -> pos lens s <> pos lens t.
Proof.
  intros Hm F (A1 & A2) (B1 & B2) H. pose proof (code_len_range max lens s Hm F).
  pose proof (code_len_range max lens t Hm F). unfold pos.
  pose proof (rank_lt lens s A1). pose proof (rank_lt lens t B1).
  pose proof (cnt_nonneg (firstn s lens) (code_len lens s)).
  pose proof (cnt_nonneg (firstn t lens) (code_len lens t)).
  destruct (Z.lt_trichotomy (code_len lens s) (code_len lens t)) as [L|[L|L]].
  - pose proof (start_mono lens (code_len lens s) (code_len lens t) ltac:(lia) L). lia.
  - pose proof (cnt_firstn_lt lens s t (code_len lens s) ltac:(lia) eq_refl). rewrite <- L. lia.
  - pose proof (start_mono lens (code_len lens t) (code_len lens s) ltac:(lia) L). lia.
Qed.

Lemma huff_offsets_spec lens counts max : len counts = max + 1 ->
  (forall b, 0 <= b <= max -> znth counts b = cnt lens b) ->
  forall n bit offs, 1 <= bit -> bit + Z.of_nat n = max -> len offs = max + 1 ->
  (forall b, 1 <= b <= bit -> znth offs b = start lens b) ->
  exists r, huff_offsets n bit counts offs = Ok r /\ len r = max + 1 /\
    forall b, 1 <= b <= max -> znth r b = start lens b.
Proof.
  intros Hl Hc. induction n; intros bit offs Hb Hm Ho Hs.
  - exists offs. cbn [huff_offsets]. repeat split; auto. intros. apply Hs. lia.
  - cbn [huff_offsets]. rewrite !getb_znth by lia. cbn [bind]. rewrite setb_in by lia. cbn [bind].
    apply IHn; try lia.
    + rewrite upd_len by lia. auto.
    + intros b Hb'. rewrite upd_znth by lia. destruct (b =? bit + 1) eqn:E.
      * assert (b = bit + 1) as -> by lia. rewrite start_succ by lia. rewrite Hs, Hc by lia. lia.
      * apply Hs. lia.
Qed.

Lemma huff_fill_spec max lens : 1 <= max -> Forall (fun c => 0 <= c <= max) lens -> len lens <= 32767 ->
  forall rest pre offs syms, lens = pre ++ rest -> len offs = max + 1 -> len lens <= len syms ->
  (forall b, 1 <= b <= max -> znth offs b = start lens b + cnt pre b) ->
  (forall s, (s < length pre)%nat -> coded lens s -> znth syms (pos lens s) = Z.of_nat s) ->
  exists r, huff_fill (len lens) (len pre) rest offs syms = Ok r /\ len r = len syms /\
    (forall s, coded lens s -> znth r (pos lens s) = Z.of_nat s).
Proof.
  intros Hm F HL. induction rest as [|c rest IH]; intros pre offs syms E Ho Hsy Hof Hs.
  - exists syms. cbn [huff_fill]. repeat split; auto. intros s Hc. apply Hs; auto.
    destruct Hc. rewrite app_nil_r in E. subst; auto.
  - cbn [huff_fill].
    assert (E' : lens = (pre ++ [c]) ++ rest) by (rewrite <- app_assoc; auto).
    assert (LP : len (pre ++ [c]) = len pre + 1) by (rewrite len_app; reflexivity).
    assert (LE : len lens = len pre + 1 + len rest) by (rewrite E', len_app, LP; auto).
    assert (Hcl : code_len lens (length pre) = c).
    { unfold code_len. rewrite E, app_nth2, Nat.sub_diag by lia. auto. }
    assert (Hfp : firstn (length pre) lens = pre).
    { rewrite E, firstn_app, Nat.sub_diag, firstn_O, app_nil_r, firstn_all. auto. }
    pose proof (len_nonneg rest). pose proof (len_nonneg pre).
    destruct (c =? 0) eqn:C0.
    + rewrite <- LP. apply IH; auto.
      * intros b Hb. rewrite Hof by auto. rewrite cnt_app, cnt_cons. replace (c =? b) with false by lia.
        rewrite cnt_nil. lia.
      * intros s Hlt Hc. destruct (Nat.eq_dec s (length pre)) as [->|].
        { destruct Hc as (_ & Hc). rewrite Hcl in Hc. lia. }
        apply Hs; auto. rewrite app_length in Hlt. simpl in Hlt. lia.
    + assert (Hcr : 1 <= c <= max).
      { pose proof (code_len_range max lens (length pre) ltac:(lia) F). lia. }
      assert (Hcd : coded lens (length pre)).
      { split; [unfold len in *; lia|lia]. }
      assert (Hpos : pos lens (length pre) = start lens c + cnt pre c).
      { unfold pos. rewrite Hcl, Hfp. auto. }
      pose proof (pos_range max lens (length pre) ltac:(lia) F Hcd) as Hpr.
      rewrite getb_znth by lia. cbn [bind]. rewrite Hof by lia. rewrite <- Hpos.
      replace ((0 <=? pos lens (length pre)) && (pos lens (length pre) <=? len lens)) with true by lia.
      cbn [check bind]. rewrite setb_in by lia. cbn [bind]. rewrite setb_in by lia. cbn [bind].
      rewrite <- LP.
      match goal with |- context [huff_fill _ _ _ ?o ?y] => destruct (IH (pre ++ [c]) o y) as (r & R1 & R2 & R3) end.
      * auto.
      * rewrite upd_len by lia; auto.
      * rewrite upd_len by lia; auto.
      * intros b Hb. rewrite upd_znth by lia. rewrite cnt_app, cnt_cons.
        rewrite cnt_nil.
        destruct (Z.eqb_spec b c) as [->|B].
        -- rewrite Z.eqb_refl. lia.
        -- replace (c =? b) with false by lia. rewrite Hof by lia. lia.
      * intros s Hlt Hc. pose proof (pos_range max lens s ltac:(lia) F Hc).
        rewrite upd_znth by lia. rewrite app_length in Hlt; simpl in Hlt.
        destruct (Nat.eq_dec s (length pre)) as [->|].
        -- rewrite Z.eqb_refl. unfold w16. rewrite Z.mod_small; unfold len in *; lia.
        -- pose proof (pos_inj max lens s (length pre) ltac:(lia) F Hc Hcd ltac:(lia)).
           replace (pos lens s =? pos lens (length pre)) with false by lia. apply Hs; auto. lia.
      * exists r. rewrite R1. split; auto. split; auto. rewrite R2, upd_len by lia. auto.
Qed.

(* ---- building a tree ---- *)

(* A tree that represents the code lengths lens. *)
Definition tree_of (max : Z) (lens : list Z) (h : huffman) : Prop :=
  h_max h = max /\ len (h_counts h) = max + 1 /\
  (forall b, 0 <= b <= max -> znth (h_counts h) b = cnt lens b) /\
  len lens <= len (h_syms h) /\
  (forall s, coded lens s -> znth (h_syms h) (pos lens s) = Z.of_nat s) /\
  prefix_code max lens.

Lemma huff_build_spec max nsyms lens : 1 <= max <= 32 -> Forall (fun c => 0 <= c) lens ->
  len lens <= 32767 -> len lens <= nsyms ->
  (prefix_code max lens /\ exists h, huff_build (huff_init nsyms max) lens = Ok (1, h) /\ tree_of max lens h) \/
  (Forall (fun c => c = 0) lens /\ exists h, huff_build (huff_init nsyms max) lens = Ok (0, h)) \/
  (~ prefix_code max lens /\ Exists (fun c => c <> 0) lens /\ huff_build (huff_init nsyms max) lens = Fail).
Proof.
  intros Hm Hp HL HN. unfold huff_build. cbn [huff_init h_max h_syms].
  pose proof (len_nonneg lens).
  replace (negb (max =? 0)) with true by lia. replace (len lens <=? 32767) with true by lia. cbn [check bind].
  assert (L0 : len (zeros (max + 1)) = max + 1) by (apply zeros_len; lia).
  destruct (huff_count_spec max ltac:(lia) lens (zeros (max + 1)) Hp L0) as [(F & counts & E & Lc & Hc)|(F & E)].
  2:{ rewrite E. cbn [bind]. right. right. split; [|split; auto].
      - intros (A & _). apply F. eapply Forall_impl; [|exact A]. intros; simpl in *; lia.
      - apply Exists_exists. rewrite <- Exists_Forall_neg in F. 2:{ intros x; lia. }
        apply Exists_exists in F. destruct F as (x & I & X). exists x. split; auto. lia. }
  rewrite E. cbn [bind].
  assert (F' : Forall (fun c => 0 <= c <= max) lens).
  { rewrite Forall_forall in *. intros x I. split; auto. }
  assert (Hc' : forall b, 0 <= b <= max -> znth counts b = cnt lens b).
  { intros. rewrite Hc by auto. rewrite zeros_znth. lia. }
  rewrite getb_znth by lia. cbn [bind]. rewrite Hc' by lia.
  destruct (cnt lens 0 =? len lens) eqn:Z0.
  { right; left. split; [apply cnt_zero_all; lia|eauto]. }
  assert (NZ : Exists (fun c => c <> 0) lens).
  { assert (~ Forall (fun c => c = 0) lens) as N by (rewrite <- cnt_zero_all; lia).
    rewrite <- Exists_Forall_neg in N; auto. intros; lia. }
  assert (L1 : lft lens 0 = 1) by reflexivity.
  assert (KR : lft lens (Z.to_nat max) = 2 ^ max - kraft max lens).
  { unfold lft. rewrite kr_next. rewrite Z2Nat.id by lia. rewrite kraft_kr; auto. }
  destruct (huff_left_spec lens counts max Lc Hc' (Z.to_nat max) 0) as [(G & v & G')|(G & G')]; try lia.
  2:{ change (Z.of_nat 1) with 1 in G'. rewrite L1 in G'. rewrite G'. cbn [bind]. right. right.
      split; [|split; auto]. intros (_ & _ & K). simpl Nat.add in G. lia. }
  change (Z.of_nat 1) with 1 in G'. rewrite L1 in G'. rewrite G'. cbn [bind].
  destruct (huff_offsets_spec lens counts max Lc Hc' (Z.to_nat (max - 1)) 1 (zeros (max + 1))) as (offs & O1 & O2 & O3); try lia; auto.
  { intros b Hb. assert (b = 1) as -> by lia. rewrite start_1. apply zeros_znth. }
  rewrite O1. cbn [bind].
  destruct (huff_fill_spec max lens ltac:(lia) F' HL lens [] offs (zeros nsyms)) as (syms & S1 & S2 & S3); auto.
  { rewrite zeros_len; lia. }
  { intros. rewrite O3 by auto. rewrite cnt_nil. lia. }
  { simpl. intros; lia. }
  change (len (@nil Z)) with 0 in S1. rewrite S1. cbn [bind]. left.
  assert (PC : prefix_code max lens).
  { split; auto. split; auto. simpl Nat.add in G. lia. }
  split; auto. eexists. split; [reflexivity|].
  split; [reflexivity|]. split; [exact Lc|]. split; [exact Hc'|].
  split; [cbn [h_syms]; rewrite S2, zeros_len; lia|]. split; auto.
Qed.

(* ---- decoding ---- *)

Lemma msb_bits_len n v : len (msb_bits n v) = Z.of_nat n.
Proof. unfold msb_bits, len. rewrite rev_length, lsb_bits_length. auto. Qed.

Lemma lsb_bits_snoc n v : lsb_bits (S n) v = lsb_bits n v ++ [Z.odd (v / 2 ^ Z.of_nat n)].
Proof.
  revert v; induction n; intros v.
  - simpl. rewrite Z.div_1_r. auto.
  - cbn [lsb_bits app]. f_equal. change (Z.odd (v / 2) :: lsb_bits n (v / 2 / 2)) with (lsb_bits (S n) (v / 2)).
    rewrite IHn. rewrite pow2_succ. rewrite Z.div_div; [auto|lia|apply pow2_pos; lia].
Qed.
Lemma msb_bits_S n v : msb_bits (S n) v = Z.odd (v / 2 ^ Z.of_nat n) :: msb_bits n v.
Proof. unfold msb_bits. rewrite lsb_bits_snoc, rev_app_distr. auto. Qed.

Lemma div_pow_S v n : v / 2 ^ Z.of_nat n = 2 * (v / 2 ^ Z.of_nat (S n)) + b2z (Z.odd (v / 2 ^ Z.of_nat n)).
Proof.
  rewrite b2z_odd, pow2_succ, (Z.mul_comm 2 (2 ^ Z.of_nat n)), <- Z.div_div by (pose proof (pow2_pos (Z.of_nat n)); lia).
  generalize (v / 2 ^ Z.of_nat n). intros x. lia.
Qed.

Lemma lor_bit c v : 0 <= c -> v = 0 \/ v = 1 -> Z.lor (2 * c) v = 2 * c + v.
Proof. intros Hc [->| ->]; destruct c; try lia; reflexivity. Qed.

Lemma lsb_val_1 b : lsb_val [b] = b2z b.
Proof. simpl. destruct b; auto. Qed.

Definition code_of (lens : list Z) (s : nat) : Z :=
  next_code lens (Z.to_nat (code_len lens s)) + cnt (firstn s lens) (code_len lens s).

Lemma huff_loop_complete max lens h sym : tree_of max lens h -> 1 <= max <= 32 -> coded lens sym ->
  forall n k s rest m, (m + S k)%nat = S (Z.to_nat (code_len lens sym)) -> (m + n)%nat = S (Z.to_nat max) -> (1 <= m)%nat ->
  bs_inv s -> bs_rem s = msb_bits (S k) (code_of lens sym) ++ rest ->
  exists s', huff_loop n h (Z.of_nat m) (code_of lens sym / 2 ^ Z.of_nat (S k)) (next_code lens m)
      (start lens (Z.of_nat m)) s = Ok (Z.of_nat sym, s') /\
    bs_inv s' /\ bs_data s' = bs_data s /\ bs_rem s' = rest.
Proof.
  intros (T1 & T2 & T3 & T4 & T5 & T6) Hm Hc.
  pose proof T6 as (F & _).
  pose proof (code_len_range max lens sym ltac:(lia) F) as Hcr.
  induction n; intros k s rest m Hk Hn Hm1 I R; [lia|].
  cbn [huff_loop].
  rewrite msb_bits_S in R. cbn [app] in R.
  destruct (bs_get_app s 1 [Z.odd (code_of lens sym / 2 ^ Z.of_nat k)] (msb_bits k (code_of lens sym) ++ rest) I) as (s1 & E1 & I1 & D1 & R1); auto.
  { apply width25; auto; lia. }
  rewrite E1. cbn [bind]. rewrite lsb_val_1.
  assert (C0 : 0 <= code_of lens sym).
  { unfold code_of. pose proof (next_code_nonneg lens (Z.to_nat (code_len lens sym))).
    pose proof (cnt_nonneg (firstn sym lens) (code_len lens sym)). lia. }
  rewrite lor_bit.
  2:{ apply Z.div_pos; [auto|apply pow2_pos; lia]. }
  2:{ destruct (Z.odd _); auto. }
  rewrite <- div_pow_S. rewrite getb_znth by lia. cbn [bind]. rewrite T3 by lia.
  destruct k as [|k].
  - change (2 ^ Z.of_nat 0) with 1. rewrite Z.div_1_r.
    assert (EM : m = Z.to_nat (code_len lens sym)) by lia.
    assert (EM' : Z.of_nat m = code_len lens sym) by lia.
    destruct Hc as (Hc1 & Hc2). pose proof (rank_lt lens sym Hc1).
    unfold code_of. rewrite EM', <- EM.
    replace (next_code lens m + cnt (firstn sym lens) (code_len lens sym) - cnt lens (code_len lens sym) <? next_code lens m)
      with true by lia.
    replace (start lens (code_len lens sym) + (next_code lens m + cnt (firstn sym lens) (code_len lens sym) - next_code lens m))
      with (pos lens sym) by (unfold pos; lia).
    pose proof (pos_range max lens sym ltac:(lia) F (conj Hc1 Hc2)).
    rewrite getb_znth by lia. cbn [bind]. rewrite T5 by (split; auto).
    exists s1. auto.
  - assert (NM : next_code lens m + cnt lens (Z.of_nat m) <= code_of lens sym / 2 ^ Z.of_nat (S k)).
    { apply Z.div_le_lower_bound; [apply pow2_pos; lia|].
      pose proof (next_code_mono lens m (Z.to_nat (code_len lens sym)) ltac:(lia)) as MN.
      unfold cnt' in MN. replace (m =? 0)%nat with false in MN by lia.
      replace (Z.to_nat (code_len lens sym) - m)%nat with (S k) in MN by lia.
      unfold code_of. pose proof (cnt_nonneg (firstn sym lens) (code_len lens sym)). lia. }
    replace (code_of lens sym / 2 ^ Z.of_nat (S k) - cnt lens (Z.of_nat m) <? next_code lens m) with false by lia.
    replace (Z.of_nat m + 1) with (Z.of_nat (S m)) by lia.
    replace (2 * (next_code lens m + cnt lens (Z.of_nat m))) with (next_code lens (S m)).
    2:{ rewrite next_code_S. unfold cnt'. replace (m =? 0)%nat with false by lia. auto. }
    replace (start lens (Z.of_nat m) + cnt lens (Z.of_nat m)) with (start lens (Z.of_nat (S m))).
    2:{ rewrite <- start_succ by lia. f_equal. lia. }
    destruct (IHn k s1 rest (S m)) as (s' & E & I' & D' & R'); auto; try lia.
    exists s'. rewrite E. repeat split; auto; try apply I'. congruence.
Qed.

Lemma code_bound max lens s : 0 <= max -> prefix_code max lens -> coded lens s ->
  0 <= code_of lens s < 2 ^ code_len lens s.
Proof.
  intros Hm (F & _ & K) (H1 & H2). pose proof (code_len_range max lens s Hm F) as R.
  rewrite kraft_kr in K by auto. 
  assert (L : 0 <= lft lens (Z.to_nat max)).
  { unfold lft. rewrite kr_next, Z2Nat.id by lia. lia. }
  pose proof (lft_down lens (Z.to_nat (code_len lens s)) (Z.to_nat max) ltac:(lia) L) as L2.
  unfold lft in L2. unfold cnt' in L2. replace (Z.to_nat (code_len lens s) =? 0)%nat with false in L2 by lia.
  rewrite Z2Nat.id in L2 by lia. pose proof (rank_lt lens s H1).
  pose proof (next_code_nonneg lens (Z.to_nat (code_len lens s))). pose proof (cnt_nonneg (firstn s lens) (code_len lens s)).
  unfold code_of. lia.
Qed.

Lemma huff_get_complete max lens h sym s rest : tree_of max lens h -> 1 <= max <= 32 -> coded lens sym ->
  bs_inv s -> bs_rem s = codeword lens sym ++ rest ->
  exists s', huff_get h s = Ok (Z.of_nat sym, s') /\ bs_inv s' /\ bs_data s' = bs_data s /\ bs_rem s' = rest.
Proof.
  intros T Hm Hc I R. pose proof T as (T1 & _ & _ & _ & _ & T6).
  pose proof (code_bound max lens sym ltac:(lia) T6 Hc) as CB.
  pose proof Hc as (H1 & H2). pose proof T6 as (F & _).
  pose proof (code_len_range max lens sym ltac:(lia) F) as Hcr.
  unfold huff_get. rewrite T1.
  destruct (huff_loop_complete max lens h sym T Hm Hc (Z.to_nat max) (Z.to_nat (code_len lens sym) - 1) s rest 1) as (s' & E & X); auto; try lia.
  { replace (S (Z.to_nat (code_len lens sym) - 1)) with (Z.to_nat (code_len lens sym)) by lia.
    unfold codeword in R. exact R. }
  exists s'. rewrite <- E. split; auto. f_equal.
  - replace (S (Z.to_nat (code_len lens sym) - 1)) with (Z.to_nat (code_len lens sym)) by lia.
    rewrite Z2Nat.id by lia. symmetry. apply Z.div_small. auto.
  - change (Z.of_nat 1) with 1. rewrite start_1. auto.
Qed.

Lemma huff_loop_sound max lens h : tree_of max lens h -> 1 <= max <= 32 ->
  forall n m s code, (m + n)%nat = S (Z.to_nat max) -> (1 <= m)%nat -> bs_inv s -> 0 <= code ->
  next_code lens m <= 2 * code ->
  let r := huff_loop n h (Z.of_nat m) code (next_code lens m) (start lens (Z.of_nat m)) s in
  r = Fail \/ exists sym s' k, r = Ok (Z.of_nat sym, s') /\ coded lens sym /\
    (m + S k)%nat = S (Z.to_nat (code_len lens sym)) /\ code = code_of lens sym / 2 ^ Z.of_nat (S k) /\
    bs_rem s = msb_bits (S k) (code_of lens sym) ++ bs_rem s' /\ bs_inv s' /\ bs_data s' = bs_data s.
Proof.
  intros (T1 & T2 & T3 & T4 & T5 & T6) Hm.
  pose proof T6 as (F & _).
  induction n; intros m s code Hn Hm1 I C0 C1 r; [left; reflexivity|].
  unfold r; clear r. cbn [huff_loop].
  assert (WO : width_ok (bs_size s) 1) by (apply width25; auto; lia).
  destruct (bs_get s 1) as [[v s1]| | |] eqn:E.
  2:{ left; auto. }
  2:{ destruct (bs_get_safe s 1 I WO); congruence. }
  2:{ destruct (bs_get_safe s 1 I WO); congruence. }
  cbn [bind]. apply bs_get_inv in E; auto. destruct E as (a & La & -> & R & I1 & D1).
  destruct a as [|b [|b2 a]]; [rewrite len_nil in La; lia| |rewrite !len_cons in La; pose proof (len_nonneg a); lia].
  rewrite lsb_val_1. rewrite lor_bit; [|lia|destruct b; auto].
  rewrite getb_znth by lia. cbn [bind]. rewrite T3 by lia.
  set (code' := 2 * code + b2z b).
  assert (0 <= b2z b <= 1) by (destruct b; simpl; lia).
  destruct (code' - cnt lens (Z.of_nat m) <? next_code lens m) eqn:E.
  - destruct (rank_exists lens (Z.of_nat m) (code' - next_code lens m)) as (sym & S1 & S2 & S3); [lia|].
    assert (Hc : coded lens sym) by (split; [auto|lia]).
    pose proof (pos_range max lens sym ltac:(lia) F Hc).
    assert (P : start lens (Z.of_nat m) + (code' - next_code lens m) = pos lens sym).
    { unfold pos. rewrite S2, S3. auto. }
    rewrite P, getb_znth by lia. cbn [bind]. rewrite T5 by auto.
    right. exists sym, s1, O. 
    assert (CO : code_of lens sym = code').
    { unfold code_of. rewrite S2, S3, Nat2Z.id. lia. }
    rewrite CO. split; auto. split; auto. split; [rewrite S2; lia|]. split.
    { change (2 ^ Z.of_nat 1) with 2. lia. }
    split; [|auto]. rewrite R. rewrite msb_bits_S. change (2 ^ Z.of_nat 0) with 1. rewrite Z.div_1_r.
    cbn [msb_bits lsb_bits rev app]. f_equal.
    unfold code'. rewrite Z.odd_add, Z.odd_mul. simpl. destruct b; auto.
  - replace (Z.of_nat m + 1) with (Z.of_nat (S m)) by lia.
    replace (2 * (next_code lens m + cnt lens (Z.of_nat m))) with (next_code lens (S m)).
    2:{ rewrite next_code_S. unfold cnt'. replace (m =? 0)%nat with false by lia. auto. }
    replace (start lens (Z.of_nat m) + cnt lens (Z.of_nat m)) with (start lens (Z.of_nat (S m))).
    2:{ rewrite <- start_succ by lia. f_equal. lia. }
    destruct (IHn (S m) s1 code') as [X|(sym & s' & k & X1 & X2 & X3 & X4 & X5 & X6 & X7)]; auto; try lia.
    { rewrite next_code_S. unfold cnt'. replace (m =? 0)%nat with false by lia. lia. }
    right. exists sym, s', (S k). split; auto. split; auto. split; [lia|].
    pose proof (pow2_pos (Z.of_nat (S k)) ltac:(lia)).
    split.
    { rewrite (pow2_succ (S k)). rewrite Z.mul_comm, <- Z.div_div by lia.
      rewrite <- X4. unfold code'. lia. }
    split; [|split; [auto|congruence]].
    rewrite R, X5. rewrite (msb_bits_S (S k)). cbn [app]. f_equal.
    rewrite <- X4. unfold code'. rewrite Z.odd_add, Z.odd_mul. simpl. destruct b; auto.
Qed.

Lemma huff_get_sound max lens h s : tree_of max lens h -> 1 <= max <= 32 -> bs_inv s ->
  huff_get h s = Fail \/ exists sym s', huff_get h s = Ok (Z.of_nat sym, s') /\ coded lens sym /\
    bs_rem s = codeword lens sym ++ bs_rem s' /\ bs_inv s' /\ bs_data s' = bs_data s.
Proof.
  intros T Hm I. pose proof T as (T1 & _).
  pose proof (huff_loop_sound max lens h T Hm (Z.to_nat max) 1 s 0 ltac:(lia) ltac:(lia) I ltac:(lia)) as L.
  change (next_code lens 1) with 0 in L. change (Z.of_nat 1) with 1 in L. rewrite start_1 in L.
  specialize (L ltac:(lia)). unfold huff_get. rewrite T1. cbv zeta in L.
  destruct L as [L|(sym & s' & k & X1 & X2 & X3 & X4 & X5 & X6 & X7)]; auto.
  right. exists sym, s'. split; auto. split; auto. split; [|auto].
  rewrite X5. unfold codeword. fold (code_of lens sym).
  replace (Z.to_nat (code_len lens sym)) with (S k) by lia. auto.
Qed.

Lemma codeword_len max lens s : 0 <= max -> prefix_code max lens -> coded lens s -> 1 <= len (codeword lens s) <= max.
Proof.
  intros Hm (F & _) (H1 & H2). pose proof (code_len_range max lens s Hm F).
  unfold codeword. rewrite msb_bits_len. lia.
Qed.

Lemma huff_get_list_complete max lens h : tree_of max lens h -> 1 <= max <= 32 ->
  forall syms s rest, Forall (coded lens) syms ->
  bs_inv s -> bs_rem s = flat_map (codeword lens) syms ++ rest ->
  exists s', huff_get_list h (length syms) s = Ok (map Z.of_nat syms, s') /\ bs_inv s' /\
    bs_data s' = bs_data s /\ bs_rem s' = rest.
Proof.
  intros T Hm. induction syms as [|y syms IH]; intros s rest F I R; cbn [length huff_get_list map flat_map] in *.
  - exists s. auto.
  - apply Forall_cons_iff in F. destruct F as (F1 & F2). rewrite <- app_assoc in R.
    destruct (huff_get_complete max lens h y s _ T Hm F1 I R) as (s1 & E & I1 & D1 & R1).
    rewrite E. cbn [bind].
    destruct (IH s1 rest F2 I1 R1) as (s2 & E2 & I2 & D2 & R2). rewrite E2. cbn [bind].
    exists s2. repeat split; auto; try congruence; apply I2.
Qed.

(* Reading [len a] <= 24 bits, then the symbols. *)
Lemma huff_decode_list max nsyms lens : 1 <= max <= 32 -> len lens <= 32767 -> len lens <= nsyms ->
  prefix_code max lens ->
  exists h, huff_build (huff_init nsyms max) lens = Ok (1, h) /\
  forall data a syms rest, bytes data -> len a <= 24 -> Forall (coded lens) syms ->
    bits_of data = a ++ flat_map (codeword lens) syms ++ rest ->
    exists v s0 s, bs_get (bs_init data 0) (len a) = Ok (v, s0) /\
      huff_get_list h (length syms) s0 = Ok (map Z.of_nat syms, s) /\
      8 * bs_off s - bs_size s = len (a ++ flat_map (codeword lens) syms).
Proof.
  intros Hm HL HN P. pose proof P as (F & EX & K).
  assert (F0 : Forall (fun c => 0 <= c) lens) by (eapply Forall_impl; [|exact F]; simpl; intros; lia).
  destruct (huff_build_spec max nsyms lens Hm F0 HL HN) as [(_ & h & E & T)|[(Z0 & _)|(N & _)]].
  3: tauto.
  2:{ exfalso. apply Exists_exists in EX. destruct EX as (x & I & X). rewrite Forall_forall in Z0. apply X, Z0, I. }
  exists h. split; auto. intros data a syms rest Hb La Fs E1. pose proof (len_nonneg data). pose proof (len_nonneg a).
  assert (I0 : bs_inv (bs_init data 0)) by (apply bs_init_inv; auto; lia).
  destruct (bs_get_app (bs_init data 0) (len a) a (flat_map (codeword lens) syms ++ rest) I0) as (s0 & E0 & I1 & D1 & R1); auto.
  { unfold width_ok. cbn [bs_init bs_size]. cbn. lia. }
  destruct (huff_get_list_complete max lens h T Hm syms s0 rest Fs I1 R1) as (s & E2 & I2 & D2 & R2).
  exists (lsb_val a), s0, s. split; auto. split; auto.
  pose proof (bs_rem_len s (proj1 I2)) as LR. rewrite R2, D2, D1 in LR. cbn [bs_init bs_data] in LR.
  pose proof (bits_of_len data) as LB. rewrite E1 in LB. rewrite !len_app in *. lia.
Qed.

Lemma huff_decode_sound max nsyms lens h : 1 <= max <= 32 -> len lens <= 32767 -> len lens <= nsyms ->
  Forall (fun c => 0 <= c) lens ->
  huff_build (huff_init nsyms max) lens = Ok (1, h) ->
  forall data, bytes data ->
    huff_get h (bs_init data 0) = Fail \/
    exists sym s rest, huff_get h (bs_init data 0) = Ok (Z.of_nat sym, s) /\ coded lens sym /\
      bits_of data = codeword lens sym ++ rest.
Proof.
  intros Hm HL HN F0 E data Hb. pose proof (len_nonneg data).
  destruct (huff_build_spec max nsyms lens Hm F0 HL HN) as [(_ & h' & E' & T)|[(Z0 & h' & E')|(N & _ & E')]];
    rewrite E in E'; try discriminate.
  assert (h' = h) as -> by congruence.
  destruct (huff_get_sound max lens h (bs_init data 0) T Hm) as [X|(sym & s & X1 & X2 & X3 & _)]; auto.
  { apply bs_init_inv; auto; lia. }
  right. exists sym, s, (bs_rem s). auto.
Qed.

Lemma huff_build_oversubscribed max nsyms lens : 1 <= max <= 32 -> len lens <= 32767 -> len lens <= nsyms ->
  Forall (fun c => 0 <= c) lens -> Exists (fun c => c <> 0) lens -> ~ prefix_code max lens ->
  huff_build (huff_init nsyms max) lens = Fail.
Proof.
  intros Hm HL HN F0 EX P.
  destruct (huff_build_spec max nsyms lens Hm F0 HL HN) as [(P' & _)|[(Z0 & _)|(_ & _ & E)]]; auto.
  - tauto.
  - exfalso. apply Exists_exists in EX. destruct EX as (x & I & X). rewrite Forall_forall in Z0. apply X, Z0, I.
Qed.
