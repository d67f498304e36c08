(* Proofs about the dynamic and fixed code tables of the DEFLATE decoder. *)
From Verif Require Import Base BaseLemmas BitStream Huffman Deflate DeflateSpec BitProofs HuffProofs DeflateProofs.
Ltac Zify.zify_post_hook ::= Z.div_mod_to_equations.

(* ---- the code-length code ---- *)

Definition ord (k : nat) : Z := Z.of_nat (nth k cl_order 0%nat).

Lemma ord_seq k : (k < 19)%nat -> getb code_sizes_sequence (Z.of_nat k) = Ok (ord k) /\ 0 <= ord k < 19.
Proof.
  intros. do 19 (destruct k as [|k]; [split; [reflexivity|unfold ord; simpl; lia]|]). lia.
Qed.

Lemma ord_inj j k : (j < 19)%nat -> (k < 19)%nat -> ord j = ord k -> j = k.
Proof.
  intros Hj Hk H.
  assert (D : forallb (fun j => forallb (fun k => implb (ord j =? ord k) (j =? k)%nat) (seq 0 19)) (seq 0 19) = true) by (vm_compute; reflexivity).
  rewrite forallb_forall in D. specialize (D j (proj2 (in_seq 19 0 j) ltac:(lia))).
  rewrite forallb_forall in D. specialize (D k (proj2 (in_seq 19 0 k) ltac:(lia))).
  rewrite H, Z.eqb_refl in D. simpl in D. lia.
Qed.

Lemma ord_surj c : 0 <= c < 19 -> exists k, (k < 19)%nat /\ ord k = c.
Proof.
  intros H.
  assert (D : forallb (fun c => existsb (fun k => ord k =? Z.of_nat c) (seq 0 19)) (seq 0 19) = true) by (vm_compute; reflexivity).
  rewrite forallb_forall in D. specialize (D (Z.to_nat c) (proj2 (in_seq 19 0 (Z.to_nat c)) ltac:(lia))).
  apply existsb_exists in D. destruct D as (k & K1 & K2). apply in_seq in K1. exists k. split; lia.
Qed.

(* code lengths k = i .. nc-1 in stored order *)
Definition cl_bits (arr : list Z) (i nc : nat) : list bool :=
  flat_map (fun k => lsb_bits 3 (znth arr (ord k))) (seq i (nc - i)).

Lemma cl_bits_step arr i nc : (i < nc)%nat -> cl_bits arr i nc = lsb_bits 3 (znth arr (ord i)) ++ cl_bits arr (S i) nc.
Proof. intros. unfold cl_bits. replace (nc - i)%nat with (S (nc - S i)) by lia. reflexivity. Qed.
Lemma cl_bits_end arr i nc : (nc <= i)%nat -> cl_bits arr i nc = [].
Proof. intros. unfold cl_bits. replace (nc - i)%nat with O by lia. reflexivity. Qed.

Lemma cl_bits_len arr : forall m i nc, (nc - i = m)%nat -> len (cl_bits arr i nc) = 3 * Z.of_nat m.
Proof.
  induction m; intros i nc H.
  - rewrite cl_bits_end by lia. reflexivity.
  - rewrite cl_bits_step, len_app, lsb_bits_len, (IHm (S i) nc) by lia. lia.
Qed.

Lemma read_code_sizes_sound nc : (nc <= 19)%nat -> forall n i arr s, (i + n = 19)%nat -> len arr = 316 -> bs_inv s ->
  read_code_sizes n (Z.of_nat i) (Z.of_nat nc) arr s = Fail /\ len (bs_rem s) < 3 * (Z.of_nat nc - Z.of_nat i) \/
  exists arr' s', read_code_sizes n (Z.of_nat i) (Z.of_nat nc) arr s = Ok (arr', s') /\
    len arr' = 316 /\ bs_inv s' /\ bs_data s' = bs_data s /\
    bs_rem s = cl_bits arr' i nc ++ bs_rem s' /\
    (forall k, (k < i)%nat -> znth arr' (ord k) = znth arr (ord k)) /\
    (forall k, (i <= k < 19)%nat -> 0 <= znth arr' (ord k) <= 7 /\ ((nc <= k)%nat -> znth arr' (ord k) = 0)).
Proof.
  intros Hnc. induction n; intros i arr s Hi La I.
  - right. exists arr, s. cbn [read_code_sizes]. rewrite cl_bits_end by lia.
    split; auto. split; auto. split; auto. split; auto. split; auto. split; auto. intros; lia.
  - cbn [read_code_sizes].
    destruct (ord_seq i ltac:(lia)) as (O1 & O2).
    assert (STEP : forall v s1, 0 <= v <= 7 -> ((nc <= i)%nat -> v = 0) -> bs_inv s1 -> bs_data s1 = bs_data s ->
      bs_rem s = (if Nat.ltb i nc then lsb_bits 3 v else []) ++ bs_rem s1 ->
      (let! q := getb code_sizes_sequence (Z.of_nat i) in
       let! arr := setb arr q (w8 v) in
       read_code_sizes n (Z.of_nat i + 1) (Z.of_nat nc) arr s1) = Fail /\ len (bs_rem s) < 3 * (Z.of_nat nc - Z.of_nat i) \/
      exists arr' s', (let! q := getb code_sizes_sequence (Z.of_nat i) in
       let! arr := setb arr q (w8 v) in
       read_code_sizes n (Z.of_nat i + 1) (Z.of_nat nc) arr s1) = Ok (arr', s') /\
        len arr' = 316 /\ bs_inv s' /\ bs_data s' = bs_data s /\
        bs_rem s = cl_bits arr' i nc ++ bs_rem s' /\
        (forall k, (k < i)%nat -> znth arr' (ord k) = znth arr (ord k)) /\
        (forall k, (i <= k < 19)%nat -> 0 <= znth arr' (ord k) <= 7 /\ ((nc <= k)%nat -> znth arr' (ord k) = 0))).
    { intros v s1 V1 V2 I1 D1 R1. rewrite O1. cbn [bind]. rewrite setb_in by lia. cbn [bind].
      assert (W : w8 v = v) by (unfold w8; apply Z.mod_small; change (2 ^ 8) with 256; lia). rewrite W.
      set (arr1 := firstn _ _ ++ _).
      assert (L1 : len arr1 = 316) by (unfold arr1; rewrite upd_len by lia; auto).
      assert (N1 : forall k, (k < 19)%nat -> znth arr1 (ord k) = if (k =? i)%nat then v else znth arr (ord k)).
      { intros k Hk. destruct (ord_seq k Hk) as (_ & O3). unfold arr1. rewrite upd_znth by lia.
        destruct (Nat.eqb_spec k i) as [->|Q]; [rewrite Z.eqb_refl; auto|].
        destruct (Z.eqb_spec (ord k) (ord i)) as [E|E]; auto. apply ord_inj in E; try lia; auto. }
      replace (Z.of_nat i + 1) with (Z.of_nat (S i)) by lia.
      destruct (IHn (S i) arr1 s1) as [(E & L)|(arr' & s' & E & X1 & X2 & X3 & X4 & X5 & X6)]; auto; try lia.
      - left. split; auto. rewrite R1, len_app. destruct (Nat.ltb_spec i nc); [rewrite lsb_bits_len|rewrite len_nil]; try lia.
      - right. exists arr', s'. split; auto. split; auto. split; auto. split; [congruence|].
        assert (V : znth arr' (ord i) = v).
        { rewrite X5 by lia. rewrite N1 by lia. rewrite Nat.eqb_refl. auto. }
        split; [|split].
        + destruct (Nat.ltb_spec i nc) as [Q|Q].
          * rewrite cl_bits_step, V, <- app_assoc, <- X4 by lia. auto.
          * rewrite cl_bits_end in * by lia. rewrite R1, X4. auto.
        + intros k Hk. rewrite X5 by lia. rewrite N1 by lia. replace (k =? i)%nat with false by lia. auto.
        + intros k Hk. destruct (Nat.eq_dec k i) as [->|]; [rewrite V; auto|apply X6; lia]. }
    replace (Z.of_nat i <? Z.of_nat nc) with (Nat.ltb i nc) by (destruct (Nat.ltb_spec i nc); lia).
    destruct (Nat.ltb_spec i nc) as [Q|Q].
    + destruct (bs_get_spec s 3 I ltac:(apply width25; auto; lia)) as [(L & E)|(L & s1 & E & I1 & D1 & R1)].
      { left. rewrite E. cbn [bind]. split; auto. lia. }
      rewrite E. cbn [bind].
      set (a := firstn (Z.to_nat 3) (bs_rem s)) in *.
      assert (La3 : len a = 3). { unfold a, len in *. rewrite firstn_length. lia. }
      destruct (bits_as_lsb a 3 La3 ltac:(lia)) as (Ea & Ra).
      apply STEP; auto; try lia.
      rewrite <- (firstn_skipn (Z.to_nat 3) (bs_rem s)). fold a. rewrite R1. f_equal. exact Ea.
    + cbn [bind]. apply STEP; auto; lia.
Qed.

(* ---- writing to the code-length array ---- *)

Lemma firstn_upd {A} (arr : list A) i v : 0 <= i < len arr ->
  firstn (Z.to_nat (i + 1)) (firstn (Z.to_nat i) arr ++ v :: skipn (S (Z.to_nat i)) arr) = firstn (Z.to_nat i) arr ++ [v].
Proof.
  intros. replace (Z.to_nat (i + 1)) with (length (firstn (Z.to_nat i) arr) + 1)%nat.
  2:{ rewrite firstn_length. unfold len in *. lia. }
  rewrite firstn_app_2. reflexivity.
Qed.

Lemma repeat_snoc {A} (x : A) n : repeat x (S n) = repeat x n ++ [x].
Proof. induction n; simpl in *; auto. f_equal. auto. Qed.

Lemma repeat_code_size_spec v : forall k i arr, 0 <= i -> i + Z.of_nat k <= len arr ->
  exists arr', repeat_code_size k i v arr = Ok arr' /\ len arr' = len arr /\
    firstn (Z.to_nat (i + Z.of_nat k)) arr' = firstn (Z.to_nat i) arr ++ repeat v k.
Proof.
  induction k; intros i arr Hi Hl.
  - exists arr. cbn [repeat_code_size]. rewrite app_nil_r. replace (i + Z.of_nat 0) with i by lia. auto.
  - cbn [repeat_code_size]. rewrite setb_in by lia. cbn [bind].
    match goal with |- context [repeat_code_size k (i + 1) v ?a] => set (arr1 := a) end.
    assert (L1 : len arr1 = len arr) by (unfold arr1; apply upd_len; lia).
    destruct (IHk (i + 1) arr1) as (arr' & E & X1 & X2); try lia.
    exists arr'. split; auto. split; [lia|].
    replace (i + Z.of_nat (S k)) with (i + 1 + Z.of_nat k) by lia. rewrite X2.
    unfold arr1. rewrite firstn_upd by lia. rewrite <- app_assoc. auto.
Qed.

Lemma firstn_znth_last arr i : 0 < i <= len arr -> last (firstn (Z.to_nat i) arr) 0 = znth arr (i - 1).
Proof.
  intros. unfold znth. replace (Z.to_nat i) with (S (Z.to_nat (i - 1))) by lia.
  rewrite (firstn_S_nth arr (Z.to_nat (i - 1)) 0) by (unfold len in *; lia). apply last_last.
Qed.

Lemma cl_expand_len ts : forall acc, len acc <= len (cl_expand acc ts).
Proof.
  induction ts as [|[c|n|n|n] ts IH]; intros acc; cbn [cl_expand]; [lia| | | |];
  (match goal with |- _ <= len (cl_expand ?a ts) => specialize (IH a) end; rewrite len_app in IH;
   match type of IH with _ + len ?x <= _ => pose proof (len_nonneg x) end; lia).
Qed.

Lemma repeat_len {A} (x : A) n : len (repeat x n) = Z.of_nat n.
Proof. unfold len. rewrite repeat_length. auto. Qed.

Lemma read_sizes_complete cl codes n : tree_of 15 cl codes -> length cl = 19%nat ->
  forall first cts clb, cl_enc cl first cts clb -> forall f i arr s rest,
  (first = false -> 0 < i) -> 0 <= i -> n <= len arr -> bs_inv s -> bs_rem s = clb ++ rest ->
  len (cl_expand (firstn (Z.to_nat i) arr) cts) = n -> n - i < Z.of_nat f -> i <= n ->
  exists arr' s', read_sizes f codes i n arr s = Ok (arr', s') /\ len arr' = len arr /\
    firstn (Z.to_nat n) arr' = cl_expand (firstn (Z.to_nat i) arr) cts /\
    bs_inv s' /\ bs_data s' = bs_data s /\ bs_rem s' = rest.
Proof.
  intros T HL.
  assert (FL : forall arr i, 0 <= i <= len arr -> len (firstn (Z.to_nat i) (arr : list Z)) = i).
  { intros. unfold len in *. rewrite firstn_length. lia. }
  induction 1 as [fi|fi c ts bs Hc Hcd Henc IH|k ts bs Hk Hcd Henc IH|fi k ts bs Hk Hcd Henc IH|fi k ts bs Hk Hcd Henc IH];
    intros f i arr s rest Hfi Hi Hn I R HE Hf Hin.
  - cbn [cl_expand] in HE. rewrite FL in HE by lia. subst i. destruct f as [|f]; [lia|].
    cbn [read_sizes]. rewrite Z.ltb_irrefl. exists arr, s. cbn [cl_expand]. repeat split; auto; try apply I.
  - destruct f as [|f]; [lia|]. cbn [read_sizes].
    cbn [cl_expand] in HE. pose proof (cl_expand_len ts (firstn (Z.to_nat i) arr ++ [c])) as EL.
    rewrite len_app, FL in EL by lia. change (len [c]) with 1 in EL.
    replace (i <? n) with true by lia. rewrite <- app_assoc in R.
    destruct (huff_get_complete 15 cl codes _ s _ T ltac:(lia) Hcd I R) as (s1 & E1 & I1 & D1 & R1).
    rewrite E1. cbn [bind]. rewrite Z2Nat.id by lia. replace (c <? 16) with true by lia.
    assert (W : w8 c = c) by (unfold w8; apply Z.mod_small; change (2 ^ 8) with 256; lia). rewrite W.
    rewrite setb_in by lia. cbn [bind].
    match goal with |- context [read_sizes f codes (i + 1) n ?a s1] => set (arr1 := a) end.
    assert (L1 : len arr1 = len arr) by (unfold arr1; apply upd_len; lia).
    assert (F1 : firstn (Z.to_nat (i + 1)) arr1 = firstn (Z.to_nat i) arr ++ [c]) by (unfold arr1; apply firstn_upd; lia).
    destruct (IH f (i + 1) arr1 s1 rest) as (arr' & s' & E & X1 & X2 & X3 & X4 & X5); auto; try lia.
    { rewrite F1. auto. }
    exists arr', s'. rewrite E. cbn [cl_expand]. rewrite X2, F1. repeat split; auto; try apply X3; congruence.
  - destruct f as [|f]; [lia|]. cbn [read_sizes].
    cbn [cl_expand] in HE. match type of HE with len (cl_expand ?a ts) = _ => pose proof (cl_expand_len ts a) as EL end.
    rewrite len_app, FL, repeat_len in EL by lia. rewrite Z2Nat.id in EL by lia.
    replace (i <? n) with true by lia. rewrite <- !app_assoc in R.
    destruct (huff_get_complete 15 cl codes _ s _ T ltac:(lia) Hcd I R) as (s1 & E1 & I1 & D1 & R1).
    rewrite E1. cbn [bind]. change (Z.of_nat 16) with 16. cbn [Z.ltb Z.compare Z.eqb Pos.compare Pos.compare_cont Pos.eqb].
    specialize (Hfi eq_refl). replace (negb (i =? 0)) with true by lia. cbn [check bind].
    rewrite getb_znth by lia. cbn [bind].
    destruct (bs_get_app s1 2 _ _ I1 ltac:(apply width25; auto; lia) R1 eq_refl) as (s2 & E2 & I2 & D2 & R2).
    rewrite E2. cbn [bind]. rewrite lsb_val_bits. change (2 ^ Z.of_nat 2) with 4.
    rewrite (Z.mod_small (k - 3)) by lia. replace (k - 3 + 3) with k by lia.
    replace (i + k <=? n) with true by lia. cbn [check bind].
    destruct (repeat_code_size_spec (znth arr (i - 1)) (Z.to_nat k) i arr) as (arr1 & P1 & P2 & P3); try lia.
    rewrite P1. cbn [bind]. rewrite Z2Nat.id in P3 by lia.
    rewrite firstn_znth_last in HE, EL by lia.
    destruct (IH f (i + k) arr1 s2 rest) as (arr' & s' & E & X1 & X2 & X3 & X4 & X5); auto; try lia.
    { rewrite P3. auto. }
    exists arr', s'. rewrite E. cbn [cl_expand]. rewrite X2, P3, firstn_znth_last by lia.
    repeat split; auto; try apply X3; congruence.
  - destruct f as [|f]; [lia|]. cbn [read_sizes].
    cbn [cl_expand] in HE. match type of HE with len (cl_expand ?a ts) = _ => pose proof (cl_expand_len ts a) as EL end.
    rewrite len_app, FL, repeat_len in EL by lia. rewrite Z2Nat.id in EL by lia.
    replace (i <? n) with true by lia. rewrite <- !app_assoc in R.
    destruct (huff_get_complete 15 cl codes _ s _ T ltac:(lia) Hcd I R) as (s1 & E1 & I1 & D1 & R1).
    rewrite E1. cbn [bind]. change (Z.of_nat 17) with 17. cbn [Z.ltb Z.compare Z.eqb Pos.compare Pos.compare_cont Pos.eqb].
    destruct (bs_get_app s1 3 _ _ I1 ltac:(apply width25; auto; lia) R1 eq_refl) as (s2 & E2 & I2 & D2 & R2).
    rewrite E2. cbn [bind]. rewrite lsb_val_bits. change (2 ^ Z.of_nat 3) with 8.
    rewrite (Z.mod_small (k - 3)) by lia. replace (k - 3 + 3) with k by lia.
    replace (i + k <=? n) with true by lia. cbn [check bind].
    destruct (repeat_code_size_spec 0 (Z.to_nat k) i arr) as (arr1 & P1 & P2 & P3); try lia.
    rewrite P1. cbn [bind]. rewrite Z2Nat.id in P3 by lia.
    destruct (IH f (i + k) arr1 s2 rest) as (arr' & s' & E & X1 & X2 & X3 & X4 & X5); auto; try lia.
    { rewrite P3. auto. }
    exists arr', s'. rewrite E. cbn [cl_expand]. rewrite X2, P3.
    repeat split; auto; try apply X3; congruence.
  - destruct f as [|f]; [lia|]. cbn [read_sizes].
    cbn [cl_expand] in HE. match type of HE with len (cl_expand ?a ts) = _ => pose proof (cl_expand_len ts a) as EL end.
    rewrite len_app, FL, repeat_len in EL by lia. rewrite Z2Nat.id in EL by lia.
    replace (i <? n) with true by lia. rewrite <- !app_assoc in R.
    destruct (huff_get_complete 15 cl codes _ s _ T ltac:(lia) Hcd I R) as (s1 & E1 & I1 & D1 & R1).
    rewrite E1. cbn [bind]. change (Z.of_nat 18) with 18. cbn [Z.ltb Z.compare Z.eqb Pos.compare Pos.compare_cont Pos.eqb].
    destruct (bs_get_app s1 7 _ _ I1 ltac:(apply width25; auto; lia) R1 eq_refl) as (s2 & E2 & I2 & D2 & R2).
    rewrite E2. cbn [bind]. rewrite lsb_val_bits. change (2 ^ Z.of_nat 7) with 128.
    rewrite (Z.mod_small (k - 11)) by lia. replace (k - 11 + 11) with k by lia.
    replace (i + k <=? n) with true by lia. cbn [check bind].
    destruct (repeat_code_size_spec 0 (Z.to_nat k) i arr) as (arr1 & P1 & P2 & P3); try lia.
    rewrite P1. cbn [bind]. rewrite Z2Nat.id in P3 by lia.
    destruct (IH f (i + k) arr1 s2 rest) as (arr' & s' & E & X1 & X2 & X3 & X4 & X5); auto; try lia.
    { rewrite P3. auto. }
    exists arr', s'. rewrite E. cbn [cl_expand]. rewrite X2, P3.
    repeat split; auto; try apply X3; congruence.
Qed.

Lemma read_sizes_sound cl codes n : tree_of 15 cl codes -> length cl = 19%nat -> 
  forall f i arr s, 0 <= i <= n -> n <= len arr -> bs_inv s -> n - i < Z.of_nat f ->
  Forall (fun c => 0 <= c <= 15) (firstn (Z.to_nat i) arr) ->
  read_sizes f codes i n arr s = Fail \/
  exists arr' s' cts clb, read_sizes f codes i n arr s = Ok (arr', s') /\ len arr' = len arr /\
    firstn (Z.to_nat n) arr' = cl_expand (firstn (Z.to_nat i) arr) cts /\
    Forall (fun c => 0 <= c <= 15) (firstn (Z.to_nat n) arr') /\
    cl_enc cl (i =? 0) cts clb /\
    bs_rem s = clb ++ bs_rem s' /\ bs_inv s' /\ bs_data s' = bs_data s.
Proof.
  intros T HL.
  induction f as [|f IH]; intros i arr s Hi Hn I Hf HF; [lia|].
  cbn [read_sizes]. destruct (i <? n) eqn:Hlt.
  2:{ assert (i = n) by lia. subst i. right. exists arr, s, [], []. cbn [cl_expand].
      split; auto. split; auto. split; auto. split; auto. split; [constructor|]. auto. }
  destruct (huff_get_sound 15 cl codes s T ltac:(lia) I) as [E1|(sym & s1 & E1 & C1 & R1 & I1 & D1)]; rewrite E1; cbn [bind]; [auto|].
  assert (Hsym : (sym < 19)%nat) by (destruct C1; lia).
  assert (RUN : forall v k s2 tok bits, bs_inv s2 -> bs_data s2 = bs_data s1 -> bs_rem s1 = bits ++ bs_rem s2 -> 1 <= k ->
     0 <= v <= 15 ->
     (forall acc ts, acc = firstn (Z.to_nat i) arr -> cl_expand acc (tok :: ts) = cl_expand (acc ++ repeat v (Z.to_nat k)) ts) ->
     (forall ts bs, cl_enc cl false ts bs -> cl_enc cl (i =? 0) (tok :: ts) (codeword cl sym ++ bits ++ bs)) ->
     let r := (let! _ := check (i + k <=? n) in let! arr := repeat_code_size (Z.to_nat k) i v arr in read_sizes f codes (i + k) n arr s2) in
     r = Fail \/ exists arr' s' cts clb, r = Ok (arr', s') /\ len arr' = len arr /\
        firstn (Z.to_nat n) arr' = cl_expand (firstn (Z.to_nat i) arr) cts /\
        Forall (fun c => 0 <= c <= 15) (firstn (Z.to_nat n) arr') /\
        cl_enc cl (i =? 0) cts clb /\ bs_rem s = clb ++ bs_rem s' /\ bs_inv s' /\ bs_data s' = bs_data s).
  { intros v k s2 tok bits J1 J2 J3 Hk Hv HX HY r. unfold r; clear r.
    destruct (i + k <=? n) eqn:B; cbn [check bind]; auto.
    destruct (repeat_code_size_spec v (Z.to_nat k) i arr) as (arr1 & P1 & P2 & P3); try lia.
    rewrite P1. cbn [bind]. rewrite Z2Nat.id in P3 by lia.
    destruct (IH (i + k) arr1 s2) as [E|(arr' & s' & cts & clb & E & X1 & X2 & X3 & X4 & X5 & X6 & X7)]; auto; try lia.
    { rewrite P3. apply Forall_app. split; auto. apply Forall_forall. intros x Hx. apply repeat_spec in Hx. subst; auto. }
    right. exists arr', s', (tok :: cts), (codeword cl sym ++ bits ++ clb). split; auto. split; [lia|].
    split. { rewrite HX by auto. rewrite X2, P3. auto. }
    split; auto. split. { apply HY. replace (i + k =? 0) with false in X4 by lia. auto. }
    split. { rewrite R1, J3, X5, <- !app_assoc. auto. } split; auto. congruence. }
  destruct (Z.of_nat sym <? 16) eqn:B1.
  { assert (W : w8 (Z.of_nat sym) = Z.of_nat sym) by (unfold w8; apply Z.mod_small; change (2 ^ 8) with 256; lia). rewrite W.
    rewrite setb_in by lia. cbn [bind].
    match goal with |- context [read_sizes f codes (i + 1) n ?a s1] => set (arr1 := a) end.
    assert (L1 : len arr1 = len arr) by (unfold arr1; apply upd_len; lia).
    assert (F1 : firstn (Z.to_nat (i + 1)) arr1 = firstn (Z.to_nat i) arr ++ [Z.of_nat sym]) by (unfold arr1; apply firstn_upd; lia).
    destruct (IH (i + 1) arr1 s1) as [E|(arr' & s' & cts & clb & E & X1 & X2 & X3 & X4 & X5 & X6 & X7)]; auto; try lia.
    { rewrite F1. apply Forall_app. split; auto. constructor; [lia|constructor]. }
    right. exists arr', s', (Len (Z.of_nat sym) :: cts), (codeword cl sym ++ clb). split; auto. split; [lia|].
    cbn [cl_expand]. split; [rewrite X2, F1; auto|]. split; auto. split.
    { rewrite <- (Nat2Z.id sym) at 2. constructor; [lia|rewrite Nat2Z.id; auto|].
      replace (i + 1 =? 0) with false in X4 by lia. auto. }
    split; [rewrite R1, X5, app_assoc; auto|]. split; auto. congruence. }
  assert (Hs : sym = 16%nat \/ sym = 17%nat \/ sym = 18%nat) by lia.
  destruct Hs as [->|[->| ->]].
  - change (Z.of_nat 16) with 16. cbn [Z.eqb Pos.eqb].
    destruct (i =? 0) eqn:I0; cbn [negb check bind]; [auto|].
    rewrite getb_znth by lia. cbn [bind].
    destruct (bs_get_cases s1 2 I1 ltac:(lia)) as [E2|(a & s2 & E2 & La & R2 & I2 & D2)]; rewrite E2; cbn [bind]; [auto|].
    destruct (bits_as_lsb a 2 La ltac:(lia)) as (Ea & Ra). change (2 ^ 2) with 4 in Ra.
    apply (RUN _ _ s2 (Rep (lsb_val a + 3)) a); auto; try lia.
    + rewrite <- firstn_znth_last by lia. rewrite Forall_forall in HF. apply HF.
      replace (Z.to_nat i) with (S (Z.to_nat (i - 1))) by lia.
      rewrite (firstn_S_nth arr _ 0) by (unfold len in *; lia). rewrite last_last. apply in_or_app. right; left; auto.
    + intros acc ts ->. cbn [cl_expand]. rewrite firstn_znth_last by lia. auto.
    + intros ts bs H. rewrite Ea at 2. change (Z.to_nat 2) with 2%nat. 
      replace (lsb_val a) with (lsb_val a + 3 - 3) at 2 by lia. constructor; auto; lia.
  - change (Z.of_nat 17) with 17. cbn [Z.eqb Pos.eqb].
    destruct (bs_get_cases s1 3 I1 ltac:(lia)) as [E2|(a & s2 & E2 & La & R2 & I2 & D2)]; rewrite E2; cbn [bind]; [auto|].
    destruct (bits_as_lsb a 3 La ltac:(lia)) as (Ea & Ra). change (2 ^ 3) with 8 in Ra.
    apply (RUN _ _ s2 (Zrep3 (lsb_val a + 3)) a); auto; try lia.
    + intros ts bs H. rewrite Ea at 2. change (Z.to_nat 3) with 3%nat. 
      replace (lsb_val a) with (lsb_val a + 3 - 3) at 2 by lia. constructor; auto; lia.
  - change (Z.of_nat 18) with 18. cbn [Z.eqb Pos.eqb].
    destruct (bs_get_cases s1 7 I1 ltac:(lia)) as [E2|(a & s2 & E2 & La & R2 & I2 & D2)]; rewrite E2; cbn [bind]; [auto|].
    destruct (bits_as_lsb a 7 La ltac:(lia)) as (Ea & Ra). change (2 ^ 7) with 128 in Ra.
    apply (RUN _ _ s2 (Zrep11 (lsb_val a + 11)) a); auto; try lia.
    + intros ts bs H. rewrite Ea at 2. change (Z.to_nat 7) with 7%nat. 
      replace (lsb_val a) with (lsb_val a + 11 - 11) at 2 by lia. constructor; auto; lia.
Qed.

(* ---- the trees of a block ---- *)

Lemma land31 v : 0 <= v -> Z.land v 31 = v mod 32.
Proof. intros. change 31 with (Z.ones 5). rewrite Z.land_ones by lia. reflexivity. Qed.

Lemma header14 a : len a = 14 -> exists h d c, 0 <= h < 32 /\ 0 <= d < 32 /\ 0 <= c < 16 /\
  a = lsb_bits 5 h ++ lsb_bits 5 d ++ lsb_bits 4 c /\
  Z.land (lsb_val a) 31 = h /\ Z.land (Z.shiftr (lsb_val a) 5) 31 = d /\ Z.shiftr (lsb_val a) 10 = c.
Proof.
  intros L. set (v := lsb_val a). destruct (bits_as_lsb a 14 L ltac:(lia)) as (Ea & Ra).
  fold v in Ea, Ra. change (2 ^ 14) with 16384 in Ra.
  exists (v mod 32), ((v / 32) mod 32), (v / 1024).
  rewrite !land31 by (try apply Z.shiftr_nonneg; lia). rewrite !Z.shiftr_div_pow2 by lia.
  change (2 ^ 5) with 32. change (2 ^ 10) with 1024.
  repeat split; try lia. rewrite Ea. change (Z.to_nat 14) with (5 + (5 + 4))%nat.
  replace v with (v mod 32 + 2 ^ Z.of_nat 5 * (((v / 32) mod 32) + 2 ^ Z.of_nat 5 * (v / 1024))) at 1.
  2:{ change (2 ^ Z.of_nat 5) with 32. lia. }
  rewrite lsb_bits_app, lsb_bits_app; auto; change (2 ^ Z.of_nat 5) with 32; lia.
Qed.

Lemma header14_enc h d c : 0 <= h < 32 -> 0 <= d < 32 -> 0 <= c < 16 ->
  let v := lsb_val (lsb_bits 5 h ++ lsb_bits 5 d ++ lsb_bits 4 c) in
  Z.land v 31 = h /\ Z.land (Z.shiftr v 5) 31 = d /\ Z.shiftr v 10 = c.
Proof.
  intros H1 H2 H3 v.
  assert (V : v = h + 32 * (d + 32 * c)).
  { unfold v. rewrite !lsb_val_app, !lsb_val_bits, !lsb_bits_len.
    change (2 ^ Z.of_nat 5) with 32. change (2 ^ Z.of_nat 4) with 16.
    rewrite !Z.mod_small by lia. lia. }
  rewrite !land31 by (try apply Z.shiftr_nonneg; lia). rewrite !Z.shiftr_div_pow2 by lia.
  change (2 ^ 5) with 32. change (2 ^ 10) with 1024. rewrite V. lia.
Qed.

Lemma cl_bits_spec arr nc : (nc <= 19)%nat ->
  cl_bits arr 0 nc = flat_map (fun k => lsb_bits 3 (code_len (firstn 19 arr) (nth k cl_order 0%nat))) (seq 0 nc).
Proof.
  intros H. unfold cl_bits. rewrite Nat.sub_0_r. rewrite !flat_map_concat_map. f_equal.
  apply map_ext_in. intros k Hk. apply in_seq in Hk. f_equal. unfold code_len, znth, ord. rewrite Nat2Z.id.
  assert (O : 0 <= ord k < 19) by (apply ord_seq; lia). unfold ord in O.
  revert O. generalize (nth k cl_order 0%nat). intros j Hj.
  rewrite <- (firstn_skipn 19 arr) at 1.
  destruct (Nat.lt_ge_cases j (length (firstn 19 arr))).
  - rewrite app_nth1; auto.
  - rewrite firstn_length in H0. rewrite app_nth2 by (rewrite firstn_length; lia).
    rewrite skipn_all2 by lia. rewrite (nth_overflow (firstn 19 arr)) by (rewrite firstn_length; lia).
    destruct (j - length (firstn 19 arr))%nat; auto.
Qed.

Lemma cl_bits_spec' cl nc : length cl = 19%nat -> (nc <= 19)%nat ->
  cl_bits cl 0 nc = flat_map (fun k => lsb_bits 3 (code_len cl (nth k cl_order 0%nat))) (seq 0 nc).
Proof.
  intros H Hn. pose proof (cl_bits_spec cl nc Hn) as E. rewrite <- H, firstn_all in E. exact E.
Qed.

Lemma cl_bits_inj a b nc : forall m i, (nc - i = m)%nat -> (nc <= 19)%nat -> cl_bits a i nc = cl_bits b i nc ->
  (forall k, (i <= k < nc)%nat -> 0 <= znth a (ord k) <= 7 /\ 0 <= znth b (ord k) <= 7) ->
  forall k, (i <= k < nc)%nat -> znth a (ord k) = znth b (ord k).
Proof.
  induction m; intros i Hm Hnc E Hr k Hk; [lia|].
  rewrite (cl_bits_step a), (cl_bits_step b) in E by lia. apply app_eq_len in E; [|rewrite !lsb_bits_length; auto].
  destruct E as (E1 & E2). destruct (Nat.eq_dec k i) as [->|].
  - apply (f_equal lsb_val) in E1. rewrite !lsb_val_bits in E1. change (2 ^ Z.of_nat 3) with 8 in E1.
    specialize (Hr i ltac:(lia)). rewrite !Z.mod_small in E1; lia.
  - apply (IHm (S i)); auto; try lia. intros; apply Hr; lia.
Qed.

Lemma firstn_znth arr i n : 0 <= i < Z.of_nat n -> Z.of_nat n <= len arr -> znth (firstn n arr) i = znth arr i.
Proof.
  intros. unfold znth. rewrite <- (firstn_skipn n arr) at 2. rewrite app_nth1; auto.
  rewrite firstn_length. unfold len in *. lia.
Qed.

Lemma Forall_znth (P : Z -> Prop) l : (forall i, 0 <= i < len l -> P (znth l i)) -> Forall P l.
Proof.
  intros H. apply Forall_forall. intros x Hx. apply In_nth with (d := 0) in Hx. destruct Hx as (n & Hn & <-).
  specialize (H (Z.of_nat n)). unfold znth in H. rewrite Nat2Z.id in H. apply H. unfold len. lia.
Qed.

Lemma znth_ext a b : len a = len b -> (forall i, 0 <= i < len a -> znth a i = znth b i) -> a = b.
Proof.
  intros L H. apply nth_ext with (d := 0) (d' := 0); [unfold len in L; lia|].
  intros n Hn. specialize (H (Z.of_nat n)). unfold znth in H. rewrite !Nat2Z.id in H. apply H. unfold len; lia.
Qed.

Lemma slice_firstn {A} (l : list A) n : slice l 0 (Z.of_nat n) = firstn n l.
Proof. unfold slice. rewrite Nat2Z.id. reflexivity. Qed.

Lemma build_tree n lens : Forall (fun c => 0 <= c) lens -> len lens <= n <= 1024 ->
  ((let! (r, t) := huff_build (huff_init n 15) lens in let! _ := check (r =? 1) in Ok t) = Fail /\ ~ prefix_code 15 lens) \/
  exists t, huff_build (huff_init n 15) lens = Ok (1, t) /\ tree_of 15 lens t /\ prefix_code 15 lens.
Proof.
  intros F H.
  destruct (huff_build_spec 15 n lens ltac:(lia) F ltac:(lia) ltac:(lia)) as [(P & t & E & T)|[(Z0 & t & E)|(NP & X & E)]].
  - right. eauto.
  - left. rewrite E. cbn [bind]. split; auto. intros (_ & X & _). apply Exists_exists in X.
    destruct X as (x & I & N). rewrite Forall_forall in Z0. auto.
  - left. rewrite E. auto.
Qed.

Lemma build_dynamic_complete s ll dl hb rest : bs_inv s -> bs_rem s = hb ++ rest -> dyn_header ll dl hb ->
  prefix_code 15 ll -> prefix_code 15 dl -> coded ll 256 ->
  exists lit dist s', build_dynamic s = Ok (lit, dist, s') /\ tree_of 15 ll lit /\ tree_of 15 dl dist /\
    bs_inv s' /\ bs_data s' = bs_data s /\ bs_rem s' = rest.
Proof.
  intros I R (cl & nc & cts & clb & H1 & H2 & H3 & H4 & H5 & H6 & H7 & H8 & H9 & HB) PL PD C256.
  subst hb. rewrite <- !app_assoc in R. unfold build_dynamic.
  assert (R' : bs_rem s = (lsb_bits 5 (len ll - 257) ++ lsb_bits 5 (len dl - 1) ++ lsb_bits 4 (Z.of_nat nc - 4)) ++
     flat_map (fun k => lsb_bits 3 (code_len cl (nth k cl_order 0%nat))) (seq 0 nc) ++ clb ++ rest).
  { rewrite R, <- !app_assoc. auto. }
  clear R. destruct (bs_get_app s 14 _ _ I ltac:(apply width25; auto; lia) R') as (s1 & E1 & I1 & D1 & R1).
  { rewrite !len_app, !lsb_bits_len. lia. }
  rewrite E1. cbn [bind].
  destruct (header14_enc (len ll - 257) (len dl - 1) (Z.of_nat nc - 4)) as (V1 & V2 & V3); try lia.
  rewrite V1, V2, V3. clear V1 V2 V3.
  replace (len ll - 257 + 257) with (len ll) by lia. replace (len dl - 1 + 1) with (len dl) by lia.
  replace (Z.of_nat nc - 4 + 4) with (Z.of_nat nc) by lia.
  replace (len ll <=? 286) with true by lia. replace (len dl <=? 30) with true by lia. cbn [check bind].
  assert (L316 : len (zeros 316) = 316) by (apply zeros_len; lia).
  pose proof (read_code_sizes_sound nc ltac:(lia) 19 0 (zeros 316) s1 eq_refl L316 I1) as RCS.
  change (Z.of_nat 0) with 0 in RCS. destruct RCS
    as [(E2 & L2)|(arr & s2 & E2 & X1 & X2 & X3 & X4 & _ & X6)].
  { exfalso. rewrite R1, len_app in L2. pose proof (len_nonneg (clb ++ rest)).
    assert (K : len (flat_map (fun k => lsb_bits 3 (code_len cl (nth k cl_order 0%nat))) (seq 0 nc)) = 3 * Z.of_nat nc).
    { rewrite <- (cl_bits_spec' cl nc H4) by lia. rewrite (cl_bits_len cl nc 0 nc); lia. }
    lia. }
  rewrite E2. cbn [bind].
  rewrite rd_in by lia. cbn [bind]. change (slice arr 0 19) with (firstn 19 arr).
  (* the code-length code read is cl *)
  assert (CL : firstn 19 arr = cl /\ bs_rem s2 = clb ++ rest).
  { rewrite X4 in R1. rewrite <- (cl_bits_spec' cl nc H4) in R1 by lia.
    apply app_eq_len in R1.
    2:{ pose proof (cl_bits_len arr nc 0 nc ltac:(lia)). pose proof (cl_bits_len cl nc 0 nc ltac:(lia)).
        unfold len in *. lia. }
    destruct R1 as (R1 & R1'). split; auto.
    assert (L19 : len (firstn 19 arr) = 19) by (unfold len in *; rewrite firstn_length; lia).
    apply znth_ext. { rewrite L19. unfold len. rewrite H4. auto. }
    rewrite L19. intros i Hi. rewrite (firstn_znth arr i 19) by lia.
    destruct (ord_surj i Hi) as (k & K1 & K2). rewrite <- K2.
    assert (CR : forall k, 0 <= znth cl (ord k) <= 7).
    { intros k0. apply (code_len_range 7 cl _ ltac:(lia) H5). }
    destruct (Nat.lt_ge_cases k nc).
    - apply (cl_bits_inj arr cl nc nc 0); auto; try lia. intros k0 K0. split; [apply X6; lia|auto].
    - destruct (X6 k ltac:(lia)) as (_ & Z0). rewrite Z0 by lia. symmetry.
      specialize (H7 k ltac:(lia)). unfold znth, ord. rewrite Nat2Z.id. exact H7. }
  destruct CL as (CL & R2). rewrite CL.
  destruct (build_tree 19 cl) as [(_ & NP)|(t & E3 & T3 & _)].
  { eapply Forall_impl; [|exact H5]. cbv beta; intros; lia. }
  { unfold len. rewrite H4. lia. }
  { contradiction. }
  rewrite E3. cbn [bind]. rewrite Z.eqb_refl. cbn [check bind].
  assert (LE : len (cl_expand (firstn (Z.to_nat 0) arr) cts) = len ll + len dl).
  { change (firstn (Z.to_nat 0) arr) with (@nil Z). rewrite H8, len_app. auto. }
  destruct (read_sizes_complete cl t (len ll + len dl) T3 H4 true cts clb H9 317 0 arr s2 rest) as
    (arr' & s3 & E4 & Y1 & Y2 & Y3 & Y4 & Y5); auto; try lia; try discriminate.
  rewrite E4. cbn [bind]. change (firstn (Z.to_nat 0) arr) with (@nil Z) in Y2. rewrite H8 in Y2.
  assert (G256 : getb arr' 256 = Ok (code_len ll 256)).
  { rewrite getb_znth by lia. f_equal.
    rewrite <- (firstn_znth arr' 256 (Z.to_nat (len ll + len dl))) by lia. rewrite Y2.
    unfold znth, code_len. change (Z.to_nat 256) with 256%nat. rewrite app_nth1; auto. unfold len in H1. lia. }
  rewrite G256. cbn [bind]. destruct C256 as (_ & C256).
  replace (negb (code_len ll 256 =? 0)) with true by lia. cbn [check bind].
  rewrite rd_in by lia. cbn [bind].
  assert (SL : slice arr' 0 (len ll) = ll /\ slice arr' (len ll) (len dl) = dl).
  { assert (Q : arr' = ll ++ dl ++ skipn (Z.to_nat (len ll + len dl)) arr').
    { rewrite app_assoc, <- Y2, firstn_skipn. auto. }
    rewrite Q. split.
    - rewrite slice_app_l by lia. apply slice_0_all.
    - apply slice_exact; auto. }
  destruct SL as (SL1 & SL2). rewrite SL1.
  destruct (build_tree 288 ll) as [(_ & NP)|(lt & E5 & T5 & _)]; [..|contradiction|].
  { destruct PL as (F & _). eapply Forall_impl; [|exact F]. cbv beta; intros; lia. } { lia. }
  rewrite E5. cbn [bind]. rewrite Z.eqb_refl. cbn [check bind].
  rewrite rd_in by lia. cbn [bind]. rewrite SL2.
  destruct (build_tree 30 dl) as [(_ & NP)|(dt & E6 & T6 & _)]; [..|contradiction|].
  { destruct PD as (F & _). eapply Forall_impl; [|exact F]. cbv beta; intros; lia. } { lia. }
  rewrite E6. cbn [bind]. rewrite Z.eqb_refl. cbn [check bind].
  exists lt, dt, s3. split; auto. split; auto. split; auto. split; auto. split; [congruence|auto].
Qed.

Lemma build_dynamic_sound s : bs_inv s ->
  build_dynamic s = Fail \/
  exists ll dl hb lit dist s', build_dynamic s = Ok (lit, dist, s') /\ dyn_header ll dl hb /\
    prefix_code 15 ll /\ prefix_code 15 dl /\ coded ll 256 /\ len dl <= 30 /\
    tree_of 15 ll lit /\ tree_of 15 dl dist /\ bs_rem s = hb ++ bs_rem s' /\ bs_inv s' /\ bs_data s' = bs_data s.
Proof.
  intros I. unfold build_dynamic.
  destruct (bs_get_cases s 14 I ltac:(lia)) as [E1|(a & s1 & E1 & La & R1 & I1 & D1)]; rewrite E1; cbn [bind]; [auto|].
  destruct (header14 a La) as (h & d & c & Hh & Hd & Hc & Ea & V1 & V2 & V3). rewrite V1, V2, V3.
  destruct (h + 257 <=? 286) eqn:B1; cbn [check bind]; [|auto].
  destruct (d + 1 <=? 30) eqn:B2; cbn [check bind]; [|auto].
  set (nc := Z.to_nat (c + 4)). replace (c + 4) with (Z.of_nat nc) by (unfold nc; lia).
  assert (Hnc : (4 <= nc <= 19)%nat) by (unfold nc; lia).
  assert (L316 : len (zeros 316) = 316) by (apply zeros_len; lia).
  pose proof (read_code_sizes_sound nc ltac:(lia) 19 0 (zeros 316) s1 eq_refl L316 I1) as RCS.
  change (Z.of_nat 0) with 0 in RCS. destruct RCS
    as [(E2 & L2)|(arr & s2 & E2 & X1 & X2 & X3 & X4 & _ & X6)]; rewrite E2; cbn [bind]; [auto|].
  rewrite rd_in by lia. cbn [bind]. change (slice arr 0 19) with (firstn 19 arr).
  set (cl := firstn 19 arr).
  assert (L19 : len cl = 19) by (unfold cl, len in *; rewrite firstn_length; lia).
  assert (C7 : Forall (fun c => 0 <= c <= 7) cl).
  { apply Forall_znth. rewrite L19. intros i Hi. unfold cl. rewrite firstn_znth by lia.
    destruct (ord_surj i Hi) as (k & K1 & <-). apply X6. lia. }
  destruct (build_tree 19 cl) as [(E3 & _)|(t & E3 & T3 & P3)].
  { eapply Forall_impl; [|exact C7]. cbv beta; intros; lia. } { lia. }
  { left. destruct (huff_build (huff_init 19 15) cl) as [[r t]| | |]; cbn [bind] in *; auto; try discriminate.
    destruct (r =? 1); cbn [check bind] in *; [discriminate|auto]. }
  rewrite E3. cbn [bind]. rewrite Z.eqb_refl. cbn [check bind].
  set (n := h + 257 + (d + 1)).
  destruct (read_sizes_sound cl t n T3 ltac:(unfold len in L19; lia) 317 0 arr s2) as
    [E4|(arr' & s3 & cts & clb & E4 & Y1 & Y2 & Y3 & Y4 & Y5 & Y6 & Y7)]; auto; try (unfold n; lia).
  { constructor. }
  { rewrite E4. auto. }
  rewrite E4. cbn [bind]. change (firstn (Z.to_nat 0) arr) with (@nil Z) in Y2.
  rewrite getb_znth by lia. cbn [bind].
  destruct (znth arr' 256 =? 0) eqn:B3; cbn [negb check bind]; [auto|].
  rewrite rd_in by lia. cbn [bind].
  set (ll := slice arr' 0 (h + 257)). set (dl := slice arr' (h + 257) (d + 1)).
  assert (Lll : len ll = h + 257) by (unfold ll; apply len_slice; lia).
  assert (Ldl : len dl = d + 1) by (unfold dl; apply len_slice; lia).
  assert (SP : firstn (Z.to_nat n) arr' = ll ++ dl).
  { unfold ll, dl, n. pose proof (slice_split arr' 0 (h + 257) (d + 1) ltac:(lia) ltac:(lia) ltac:(lia)) as Q.
    rewrite Z.add_0_l in Q. rewrite <- Q. reflexivity. }
  rewrite SP in Y3. apply Forall_app in Y3. destruct Y3 as (FL & FD).
  assert (EXT : forall A B (r : res (Z * A)) (k : A -> res B),
    (let! (x, t) := r in let! _ := check (x =? 1) in Ok t) = Fail -> (let! (x, t) := r in let! _ := check (x =? 1) in k t) = Fail).
  { intros A B [[x u]| | |] k; cbn [bind]; auto; try discriminate. destruct (x =? 1); cbn [check bind]; auto. discriminate. }
  destruct (build_tree 288 ll) as [(E5 & _)|(lt & E5 & T5 & P5)].
  { eapply Forall_impl; [|exact FL]. cbv beta; intros; lia. } { lia. }
  { left. apply EXT. exact E5. }
  rewrite E5. cbn [bind]. rewrite Z.eqb_refl. cbn [check bind].
  rewrite rd_in by lia. cbn [bind]. fold dl.
  destruct (build_tree 30 dl) as [(E6 & _)|(dt & E6 & T6 & P6)].
  { eapply Forall_impl; [|exact FD]. cbv beta; intros; lia. } { lia. }
  { left. apply EXT. exact E6. }
  rewrite E6. cbn [bind]. rewrite Z.eqb_refl. cbn [check bind].
  right. exists ll, dl, (a ++ cl_bits arr 0 nc ++ clb), lt, dt, s3.
  split; auto. split.
  { exists cl, nc, cts, clb. split; [lia|]. split; [lia|]. split; [lia|].
    split; [unfold len in L19; lia|]. split; auto. split; auto. split.
    { intros k Hk. destruct (X6 k ltac:(lia)) as (_ & Z0). specialize (Z0 ltac:(lia)).
      assert (O : 0 <= ord k < 19) by (apply ord_seq; lia).
      rewrite <- (firstn_znth arr (ord k) 19) in Z0 by lia. fold cl in Z0.
      unfold znth, ord in Z0. rewrite Nat2Z.id in Z0. exact Z0. }
    split. { rewrite <- Y2. auto. }
    split; auto.
    rewrite cl_bits_spec by lia. fold cl. rewrite Lll, Ldl.
    replace (h + 257 - 257) with h by lia. replace (d + 1 - 1) with d by lia.
    replace (Z.of_nat nc - 4) with c by (unfold nc; lia).
    rewrite Ea at 1. rewrite <- !app_assoc. auto. }
  split; auto. split; auto. split.
  { split; [unfold len in Lll; lia|].
    assert (Q : znth (ll ++ dl) 256 = znth arr' 256).
    { rewrite <- SP. apply firstn_znth; unfold n; lia. }
    unfold znth in Q. change (Z.to_nat 256) with 256%nat in Q. rewrite app_nth1 in Q by (unfold len in Lll; lia).
    unfold code_len. rewrite Q. unfold znth in B3. change (Z.to_nat 256) with 256%nat in B3. lia. }
  split; [lia|]. split; auto. split; auto. split; [|split; [auto|congruence]].
  rewrite R1, X4, Y5, <- !app_assoc. auto.
Qed.

(* ---- fixed trees ---- *)

Lemma fixed_prefix : prefix_code 15 fixed_ll /\ prefix_code 15 fixed_dl.
Proof.
  assert (D : forall l, forallb (fun c => (0 <=? c) && (c <=? 15)) l = true -> Forall (fun c => 0 <= c <= 15) l).
  { intros l H. rewrite forallb_forall in H. apply Forall_forall. intros x Hx. specialize (H x Hx). lia. }
  split; (split; [apply D; vm_compute; reflexivity|split; [constructor; lia|]]); vm_compute; discriminate.
Qed.

Lemma build_fixed_ok : exists lit dist, build_fixed = Ok (lit, dist) /\ tree_of 15 fixed_ll lit /\ tree_of 15 fixed_dl dist.
Proof.
  destruct fixed_prefix as (P1 & P2). unfold build_fixed.
  assert (E1 : rd fixed_sizes 0 288 = Ok fixed_ll) by (vm_compute; reflexivity).
  assert (E2 : rd fixed_sizes 288 30 = Ok fixed_dl) by (vm_compute; reflexivity).
  rewrite E1, E2. cbn [bind].
  assert (L1 : len fixed_ll = 288) by reflexivity. assert (L2 : len fixed_dl = 30) by reflexivity.
  destruct (build_tree 288 fixed_ll) as [(_ & NP)|(lt & E5 & T5 & _)]; [..|contradiction|].
  { destruct P1 as (F & _). eapply Forall_impl; [|exact F]. cbv beta; intros; lia. } { lia. }
  rewrite E5. cbn [bind]. rewrite Z.eqb_refl. cbn [check bind].
  destruct (build_tree 30 fixed_dl) as [(_ & NP)|(dt & E6 & T6 & _)]; [..|contradiction|].
  { destruct P2 as (F & _). eapply Forall_impl; [|exact F]. cbv beta; intros; lia. } { lia. }
  rewrite E6. cbn [bind]. rewrite Z.eqb_refl. cbn [check bind]. eauto.
Qed.
