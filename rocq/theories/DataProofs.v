(* Proofs about reading the data of a file. *)
From Coq Require Import Lia.
From Verif Require Import Base BaseLemmas BTreeProofs Walk Omap OmapSpec FsTree Crypt CryptSpec CryptProofs PropCrypt DataRead DataSpec.
Ltac Zify.zify_post_hook ::= Z.div_mod_to_equations.

(* ---- windows ---- *)
Lemma window_len c o n : 0 <= n -> len (window c o n) = n.
Proof. intros H. unfold window, len. rewrite map_length, seq_length. lia. Qed.
Lemma window_seq (c : Z -> Z) o : forall m a, map (fun j => c (o + Z.of_nat j)) (seq a m) = map (fun j => c (o + Z.of_nat a + Z.of_nat j)) (seq 0 m).
Proof.
  intros m a. assert (G : forall b, map (fun j => c (o + Z.of_nat j)) (seq (a + b) m) = map (fun j => c (o + Z.of_nat a + Z.of_nat j)) (seq b m)).
  { induction m as [|m IH]; intros b; [reflexivity|]. cbn [seq map]. f_equal; [f_equal; lia|]. rewrite <- (IH (S b)). f_equal. f_equal. lia. }
  rewrite <- (G 0%nat). rewrite Nat.add_0_r. reflexivity.
Qed.
Lemma window_app c o a b : 0 <= a -> 0 <= b -> window c o (a + b) = window c o a ++ window c (o + a) b.
Proof.
  intros Ha Hb. unfold window. rewrite Z2Nat.inj_add, seq_app, map_app by lia. f_equal. rewrite window_seq. apply map_ext. intros j. f_equal. lia.
Qed.
Lemma window_nil c o n : n <= 0 -> window c o n = [].
Proof. intros H. unfold window. replace (Z.to_nat n) with 0%nat by lia. reflexivity. Qed.
Lemma window_slice c o n a m : 0 <= a -> 0 <= m -> a + m <= n -> slice (window c o n) a m = window c (o + a) m.
Proof.
  intros Ha Hm H. replace n with (a + (m + (n - a - m))) by lia. rewrite window_app, window_app by lia.
  rewrite slice_app_r by (rewrite window_len; lia). rewrite window_len by lia. replace (a - a) with 0 by lia.
  rewrite slice_app_l by (rewrite ?window_len; lia). apply slice_all. rewrite window_len; lia.
Qed.
Lemma window_ext c c' o n : (forall j, 0 <= j < n -> c (o + j) = c' (o + j)) -> window c o n = window c' o n.
Proof. intros H. unfold window. apply map_ext_in. intros j Hj. apply in_seq in Hj. apply H. lia. Qed.
Lemma window_zero c o n : (forall j, 0 <= j < n -> c (o + j) = 0) -> window c o n = zeros n.
Proof.
  intros H. rewrite (window_ext c (fun _ => 0)) by exact H. unfold window, zeros. generalize (Z.to_nat n) as m. intros m. generalize 0%nat as a.
  induction m as [|m IH]; intros a; [reflexivity|]. cbn [seq map repeat]. f_equal. apply IH.
Qed.

(* ---- the vector ---- *)
Definition in_range (e : extent) : Prop := 0 <= ex_block e /\ ex_block e + ex_size e / 4096 <= 2 ^ 51.
Definition seg_of (sparse : bool) (i : Z) (e : extent) : segment := mk_seg i (ex_block e * 4096) (ex_size e) (sparse && (ex_block e =? 0)).
Fixpoint segs_of (sparse : bool) (i : Z) (l : list extent) : list segment :=
  match l with
  | [] => []
  | e :: l => seg_of sparse i e :: segs_of sparse (i + 1) l
  end.
Lemma total_nonneg o l : contiguous o l -> 0 <= total l.
Proof.
  revert o. induction l as [|e l IH]; intros o H; [cbn; lia|]. cbn [contiguous] in H. change (total (e :: l)) with (ex_size e + total l).
  destruct H as (_ & H1 & _ & H2). apply IH in H2. lia.
Qed.
Lemma segments_ok sparse : forall l i o, contiguous o l -> Forall in_range l -> 0 <= o -> o + total l < 2 ^ 63 ->
  segments sparse i o l = Ok (segs_of sparse i l).
Proof.
  induction l as [|e l IH]; intros i o H F Ho HT; [reflexivity|]. change (total (e :: l)) with (ex_size e + total l) in HT. cbn [contiguous] in H.
  destruct H as (H1 & H2 & H3 & H4). pose proof (total_nonneg _ _ H4) as T. pose proof (Forall_inv F) as (R1 & R2). cbn [segments segs_of].
  replace (ex_off e =? o) with true by lia. rewrite orb_true_r. cbn [check bind]. unfold w64. rewrite (Z.mod_small (ex_block e * 4096)) by lia.
  replace ((ex_block e * 4096 <? 2 ^ 63) && (ex_size e <? 2 ^ 63)) with true by lia. cbn [check bind].
  rewrite Z.mod_small by lia. rewrite (IH (i + 1) (o + ex_size e) H4 (Forall_inv_tail F)) by lia. reflexivity.
Qed.
Lemma vector_size_of sparse : forall l i, vector_size (segs_of sparse i l) = total l.
Proof. induction l as [|e l IH]; intros i; [reflexivity|]. cbn [segs_of vector_size]. rewrite IH. reflexivity. Qed.
Lemma find_of sparse : forall l i o x, contiguous o l -> o mod 4096 = 0 -> 0 <= x < total l ->
  exists j e so, nth_error l j = Some e /\ 0 <= so < ex_size e /\ ex_off e + so = o + x /\ ex_off e mod 4096 = 0 /\ ex_size e mod 4096 = 0 /\
  find_segment (segs_of sparse i l) x = Some (seg_of sparse (i + Z.of_nat j) e, so).
Proof.
  induction l as [|e l IH]; intros i o x H Ho Hx; [cbn in Hx; lia|]. change (total (e :: l)) with (ex_size e + total l) in Hx. cbn [contiguous] in H.
  destruct H as (H1 & H2 & H3 & H4). cbn [segs_of find_segment]. cbn [seg_of sg_size]. destruct (x <? ex_size e) eqn:C.
  - exists 0%nat, e, x. split; [reflexivity|]. split; [lia|]. split; [lia|]. split; [lia|]. split; [exact H3|]. rewrite Z.add_0_r. reflexivity.
  - destruct (IH (i + 1) (o + ex_size e) (x - ex_size e) H4 ltac:(lia) ltac:(lia)) as (j & e' & so & N & HS & E & M & M2 & G).
    exists (S j), e', so. split; [exact N|]. split; [exact HS|]. split; [lia|]. split; [exact M|]. split; [exact M2|]. rewrite G. do 3 f_equal. lia.
Qed.

(* ---- blocks ---- *)
Lemma read_bytes_block img b d : 0 <= b -> img b = Some d -> len d = 4096 -> read_bytes img (b * 4096) 4096 = Ok d.
Proof.
  intros Hb E L. unfold read_bytes. rewrite Z.div_mul, Z.mod_mul by lia. unfold read_block. rewrite E. cbn [bind].
  replace (0 <=? len d) with true by lia. cbn [check bind]. rewrite rd_in by lia. cbn [bind]. rewrite slice_all by lia. replace (len d =? 4096) with true by lia. reflexivity.
Qed.
Section Blocks.
  Variables (img : image) (ctx : option (list Z -> list Z -> list Z)) (block : extent -> Z -> list Z -> Prop).
  Variables (sparse : bool) (l : list extent) (content : Z -> Z).
  Hypothesis block_ok : forall e k d, In e l -> 0 <= k < ex_size e / 4096 -> block e k d ->
    data_block_read img ctx (ex_block e * 4096 + k * 4096) (w64 (ex_crypto e + k)) = Ok d.
  Hypothesis HC : contiguous 0 l.
  Hypothesis HR : Forall in_range l.
  Hypothesis HT : total l < 2 ^ 43.
  Hypothesis HD : content_of block sparse l content.

  Lemma read_block_ok i : 0 <= i * 4096 < total l -> read_data_block img ctx l (segs_of sparse 0 l) i = Ok (window content (i * 4096) 4096).
  Proof.
    intros Hi. unfold read_data_block. destruct (find_of sparse l 0 0 (i * 4096) HC eq_refl Hi) as (j & e & so & N & Hs & E & M & M2 & ->).
    cbn [seg_of sg_sparse sg_off sg_index]. pose proof (nth_error_In _ _ N) as I. pose proof (HD e (so / 4096) I ltac:(lia)) as D.
    rewrite Forall_forall in HR. pose proof (HR e I) as (R1 & R2).
    destruct (sparse && (ex_block e =? 0)) eqn:C.
    - f_equal. symmetry. apply window_zero. intros j' Hj. replace (i * 4096 + j') with (ex_off e + 4096 * (so / 4096) + j') by lia. apply D. lia.
    - replace (ex_block e * 4096 + so <? 2 ^ 63) with true by lia. cbn [check bind].
      assert (G : getb l (0 + Z.of_nat j) = Ok e).
      { pose proof (nth_error_Some l j) as X. rewrite N in X. assert ((j < length l)%nat) by (apply X; discriminate). unfold getb, len.
        replace ((0 <=? 0 + Z.of_nat j) && (0 + Z.of_nat j <? Z.of_nat (length l))) with true by lia. rewrite Z.add_0_l, Nat2Z.id, N. reflexivity. }
      rewrite G. cbn [bind]. replace ((ex_block e * 4096 + so) / 4096 - ex_block e) with (so / 4096) by lia.
      replace (ex_block e * 4096 + so) with (ex_block e * 4096 + so / 4096 * 4096) by lia.
      rewrite (block_ok e (so / 4096) _ I ltac:(lia) D). f_equal. unfold window. apply map_ext. intros j'. f_equal. lia.
  Qed.
  Lemma read_loop_ok : forall fuel cur n, 0 <= cur < total l -> 0 <= n -> (0 < n -> cur mod 4096 + n <= 4096 * Z.of_nat fuel) ->
    read_loop img ctx l (segs_of sparse 0 l) fuel cur n = Ok (window content cur (Z.min n (total l - cur))).
  Proof.
    induction fuel as [|fuel IH]; intros cur n Hc Hn HF; cbn [read_loop].
    - replace (n <=? 0) with true by lia. rewrite window_nil by lia. reflexivity.
    - destruct (n <=? 0) eqn:C; [rewrite window_nil by lia; reflexivity|]. unfold int_max.
      replace (cur / 4096 <=? 2 ^ 31 - 1) with true by lia. cbn [check bind]. rewrite read_block_ok by lia. cbn [bind]. rewrite window_len by lia.
      replace (cur mod 4096 <? 4096) with true by lia. cbn [check bind]. rewrite rd_in by (rewrite ?window_len; lia). cbn [bind].
      rewrite window_slice by lia. replace (cur / 4096 * 4096 + cur mod 4096) with cur by lia. rewrite vector_size_of.
      assert (TM : total l mod 4096 = 0).
      { clear - HC. assert (G : forall l o, contiguous o l -> total l mod 4096 = 0).
        { induction l0 as [|e l0 IH]; intros o H; [reflexivity|]. change (total (e :: l0)) with (ex_size e + total l0). cbn [contiguous] in H. destruct H as (_ & _ & H1 & H2).
          apply IH in H2. lia. } exact (G l 0 HC). }
      destruct (total l <=? cur + Z.min (4096 - cur mod 4096) n) eqn:CE.
      + do 2 f_equal. lia.
      + rewrite IH by lia. cbn [bind]. rewrite <- window_app by lia. do 2 f_equal. lia.
  Qed.
  Lemma handle_read_ok cur n : 0 <= cur -> 0 <= n <= 2 ^ 63 - 1 ->
    handle_read img ctx l (segs_of sparse 0 l) cur n = Ok (window content cur (Z.min n (total l - cur))).
  Proof.
    intros Hc Hn. unfold handle_read. replace ((0 <=? cur) && (n <=? 2 ^ 63 - 1)) with true by lia. cbn [check bind]. rewrite vector_size_of.
    destruct (total l <=? cur) eqn:C; [rewrite window_nil by lia; reflexivity|]. apply read_loop_ok; lia.
  Qed.
  Lemma stream_read_ok size off n : size <= total l -> 0 <= off -> 0 <= n <= 2 ^ 63 - 1 ->
    exists s, stream_of_extents img ctx l size sparse = Ok s /\ st_size s = size /\ stream_read s off n = Ok (window content off (Z.min n (size - off))).
  Proof.
    intros HS Ho Hn. unfold stream_of_extents. rewrite segments_ok by (assumption || lia). cbn [bind]. eexists. split; [reflexivity|]. split; [reflexivity|].
    unfold stream_read. replace ((0 <=? off) && (0 <=? n) && (n <=? 2 ^ 63 - 1)) with true by lia. cbn [check bind st_size st_read].
    destruct (size <=? off) eqn:C; [rewrite window_nil by lia; reflexivity|]. rewrite handle_read_ok by lia. do 2 f_equal. lia.
  Qed.
End Blocks.

Lemma plain_read img e k d : 0 <= ex_block e -> 0 <= k -> plain_block img e k d -> forall i, data_block_read img None (ex_block e * 4096 + k * 4096) i = Ok d.
Proof.
  intros H1 H2 (E & L) i. unfold data_block_read. replace (ex_block e * 4096 + k * 4096) with ((ex_block e + k) * 4096) by lia.
  rewrite (read_bytes_block img _ d) by (assumption || lia). reflexivity.
Qed.
Lemma sectors_len n ss : Forall (fun s => bytes s /\ len s = n) ss -> len (concat ss) = n * len ss.
Proof. intros HF. induction ss as [|s l IH]; [change (len (concat (@nil (list Z)))) with 0; change (len (@nil (list Z))) with 0; lia|]. cbn [concat]. rewrite len_app, len_cons. pose proof (Forall_inv HF) as (_ & ?). rewrite (IH (Forall_inv_tail HF)). lia. Qed.
Lemma encrypted_read enc dec img e k d : unit_cipher 512 enc dec -> 0 <= ex_block e -> 0 <= k -> 0 <= ex_crypto e -> ex_crypto e + k < 2 ^ 52 ->
  encrypted_block enc img e k d -> data_block_read img (Some dec) (ex_block e * 4096 + k * 4096) (w64 (ex_crypto e + k)) = Ok d.
Proof.
  intros HC H1 H2 H3 H4 (ss & -> & L & F & E). unfold data_block_read. replace (ex_block e * 4096 + k * 4096) with ((ex_block e + k) * 4096) by lia.
  destruct (enc_sectors_len (fun n => enc (data_unit n)) 512 ltac:(intros n s B Ls; apply (HC n s B Ls)) ss (8 * (ex_crypto e + k)) F) as (_ & LE).
  pose proof (sectors_len 512 ss F) as LC. rewrite L in LC.
  rewrite (read_bytes_block img (ex_block e + k) _ ltac:(lia) E) by lia. cbn [bind]. unfold w64. rewrite (Z.mod_small (ex_crypto e + k)), (Z.mod_small ((ex_crypto e + k) * 4096)) by lia.
  replace ((ex_crypto e + k) * 4096 / 512) with (8 * (ex_crypto e + k)) by lia.
  rewrite (C36_decrypt_encrypted_partial enc dec 512 HC) by (try assumption; rewrite ?zeros_len; lia).
  rewrite skipn_all2 by (pose proof (zeros_len 4096 ltac:(lia)); unfold len in *; lia). rewrite app_nil_r. reflexivity.
Qed.
