(* Reading compressed data from a stream that may do anything but write more than asked: the
   block table and the blocks stay within their buffers. Generalizes the part of CompressedTop.v
   about C13 from streams with a content to any source. *)
From Verif Require Import Base BaseLemmas BTree BTreeProofs Walk Omap OmapProofs DataRead Deflate Compressed PropDeflate DataSplit.
Ltac Zify.zify_post_hook ::= Z.div_mod_to_equations.

(* A source that ends, gives bytes, no more than asked for and no more than it has. *)
Definition safe_source (src : source) : Prop := forall off n,
  fine (src_read src off n) /\
  forall d, src_read src off n = Ok d -> bytes d /\ len d <= n <= 2 ^ 63 - 1 /\ 0 <= off /\ len d <= Z.max 0 (src_size src - off).
(* The number of blocks in the table of a resource fork, as the source gives it, is less than
   8160, or the source has at most 65537 bytes. *)
Definition table_fits (src : source) : Prop :=
  src_size src <= 65537 \/ forall d, src_read src 4 268 = Ok d -> le_val (slice d 256 4) < 8160.

Lemma store_ok buf off data b : store buf off data = Ok b -> 0 <= off /\ off + len data <= len buf /\
  b = firstn (Z.to_nat off) buf ++ data ++ skipn (Z.to_nat (off + len data)) buf.
Proof. unfold store. destruct (_ && _) eqn:E; [|discriminate]. intros H. apply Ok_eq in H. subst b. apply andb_true_iff in E. destruct E. repeat split; lia. Qed.
Lemma store_len buf off data b : store buf off data = Ok b -> len b = len buf.
Proof. intros H. apply store_ok in H. destruct H as (H1 & H2 & ->). rewrite !len_app. unfold len in *. rewrite firstn_length, skipn_length. lia. Qed.
Lemma store_bytes buf off data b : bytes buf -> bytes data -> store buf off data = Ok b -> bytes b.
Proof.
  intros B1 B2 H. apply store_ok in H. destruct H as (H1 & H2 & ->). apply bytes_app. split; [apply Forall_firstn', B1|]. apply bytes_app. split; [exact B2|apply Forall_skipn', B1].
Qed.
Lemma store_fine buf off data : 0 <= off -> off + len data <= len buf -> fine (store buf off data).
Proof. intros H1 H2. unfold store. replace ((0 <=? off) && (off + len data <=? len buf)) with true by lia. exact I. Qed.

Section Source.
  Variable src : source.
  Hypothesis HS : safe_source src.

  Definition seg (buf : list Z) : Prop := bytes buf /\ len buf = 65537.
  Lemma seg_zeros : seg (zeros (BLOCK + 1)).
  Proof. split; [apply zeros_bytes|apply zeros_len; unfold BLOCK; lia]. Qed.
  Lemma read_into_seg buf pos off n b : seg buf -> read_into src buf pos off n = Ok b -> seg b /\ n <= 2 ^ 63 - 1 /\ 0 <= n /\ n <= Z.max 0 (src_size src - off) /\ 0 <= pos /\ pos + n <= 65537.
  Proof.
    intros (B & L) H. unfold read_into in H. apply bind_ok in H. destruct H as (d & E & H). apply bind_ok in H. destruct H as (b' & E2 & H).
    apply bind_ok in H. destruct H as (u & C & H). apply check_ok in C. apply Ok_eq in H. subst b'. destruct (HS off n) as (_ & X). specialize (X d E). destruct X as (X1 & X2 & X3 & X4).
    pose proof (len_nonneg d). split; [split; [eapply store_bytes; [exact B|exact X1|exact E2]|rewrite (store_len _ _ _ _ E2); exact L]|]. apply store_ok in E2. lia.
  Qed.
  Lemma read_into_fine buf pos off n : seg buf -> 0 <= pos -> (pos + n <= 65537 \/ 2 ^ 63 - 1 < n \/ pos + Z.max 0 (src_size src - off) <= 65537) -> fine (read_into src buf pos off n).
  Proof.
    intros (B & L) Hp Hn. unfold read_into. destruct (HS off n) as (F & X). apply fine_bind; [exact F|]. intros d E. specialize (X d E).
    apply fine_bind; [apply store_fine; lia|]. intros b _. apply fine_bind; [apply fine_check|]. intros. exact I.
  Qed.
  Lemma rd_le_range n buf off v : bytes buf -> rd_le n buf off = Ok v -> 0 <= v < 2 ^ (8 * n).
  Proof.
    intros B H. unfold rd_le in H. apply bind_ok in H. destruct H as (d & E & H). apply Ok_eq in H. subst v. apply rd_ok in E. destruct E as (H1 & H2 & H3 & ->).
    pose proof (le_val_range (slice buf off n) (bytes_slice _ _ _ B)) as R. rewrite len_slice in R by lia. rewrite Z.pow_mul_r by lia. exact R.
  Qed.
  Lemma rd_le_fine n buf off : 0 <= n -> 0 <= off -> off + n <= len buf -> fine (rd_le n buf off).
  Proof. intros. unfold rd_le. apply fine_bind; [apply fine_rd; lia|]. intros. exact I. Qed.

  (* ---- the table ---- *)
  (* Offsets that follow each other: from p by l to q. *)
  Fixpoint chain (p : Z) (l : list Z) (q : Z) : Prop :=
    match l with
    | [] => q = p
    | x :: l => p <= x <= p + 65537 /\ x < 2 ^ 32 /\ chain x l q
    end.
  Lemma chain_snoc : forall l p q x, chain p l q -> q <= x <= q + 65537 -> x < 2 ^ 32 -> chain p (l ++ [x]) x.
  Proof. induction l as [|y l IH]; intros p q x; cbn [chain app]; [intros ->; auto|]. intros (H1 & H2 & H3) H4 H5. split; [exact H1|]. split; [exact H2|]. eapply IH; eassumption. Qed.
  Lemma table_loop_fine buf skip add : seg buf -> 0 <= skip -> forall k pos prev acc, 0 <= pos -> (k <> O -> pos + (Z.of_nat k - 1) * (4 + skip) + 4 <= 65537) ->
    fine (table_loop k buf pos skip add prev acc).
  Proof.
    intros (B & L) Hs. induction k as [|k IH]; intros pos prev acc Hp Hk; cbn [table_loop]; [exact I|]. specialize (Hk ltac:(discriminate)).
    apply fine_bind; [apply rd_le_fine; nia|]. intros o _. cbv zeta. fine_step; [fine_step|]. apply IH; [lia|]. intros K. nia.
  Qed.
  Lemma table_loop_chain buf skip add : bytes buf -> forall k pos prev p acc l acc' prev', acc = rev (p :: l) -> chain p l prev ->
    table_loop k buf pos skip add prev acc = Ok (acc', prev') -> exists l', acc' = rev (p :: l') /\ chain p l' prev'.
  Proof.
    intros B. induction k as [|k IH]; intros pos prev p acc l acc' prev' EA HC; cbn [table_loop]; intros H.
    - apply Ok_eq in H. injection H as <- <-. exists l. auto.
    - apply bind_ok in H. destruct H as (o & E & H). cbv zeta in H. apply bind_ok in H. destruct H as (u & C & H). apply check_ok in C.
      change (BLOCK + 1) with 65537 in C. pose proof (w_range 32 (o + add) ltac:(lia)) as R. fold (w32 (o + add)) in R. set (x := w32 (o + add)) in *.
      apply (IH _ _ p _ (l ++ [x])) in H; [exact H| |].
      + rewrite EA. change (p :: l ++ [x]) with ((p :: l) ++ [x]). rewrite rev_app_distr. reflexivity.
      + eapply chain_snoc; [exact HC|lia|lia].
  Qed.
  (* What is accepted: a chain that ends near the size of the source. *)
  Definition accepted (offs : list Z) : Prop := exists p l q, offs = p :: l ++ [w32 (src_size src)] /\ 0 <= p < 2 ^ 32 /\ chain p l q /\ q <= src_size src <= q + 65537.
  Lemma accepted_chain : forall l p q e, 0 <= p < 2 ^ 32 -> chain p l q -> q <= src_size src <= q + 65537 -> e = w32 (src_size src) ->
    forall i o e', nth_error (p :: l ++ [e]) i = Some o -> nth_error (p :: l ++ [e]) (S i) = Some e' -> 0 <= o /\ (w64 (e' - o) <= 65537 \/ 2 ^ 63 - 1 < w64 (e' - o)).
  Proof.
    induction l as [|x l IH]; intros p q e Hp HC HQ He i o e' H1 H2; cbn [chain app] in *.
    - subst q. destruct i as [|i]; [|destruct i; discriminate]. cbn in H1, H2. injection H1 as <-. injection H2 as <-. split; [lia|]. subst e. unfold w32, w64. lia.
    - destruct HC as (C1 & C2 & C3). destruct i as [|i]; [|eapply (IH x q e); [lia|exact C3|exact HQ|exact He|exact H1|exact H2]].
      cbn in H1, H2. injection H1 as <-. injection H2 as <-. split; [lia|]. left. unfold w64. rewrite Z.mod_small; lia.
  Qed.
  Lemma accepted_block offs i : accepted offs -> 0 <= i < len offs - 1 ->
    exists o e, getb offs i = Ok o /\ getb offs (i + 1) = Ok e /\ 0 <= o /\ (w64 (e - o) <= 65537 \/ 2 ^ 63 - 1 < w64 (e - o)).
  Proof.
    intros (p & l & q & -> & H1 & H2 & H3) Hi. set (offs := p :: l ++ [_]) in *. destruct (getb_in offs i ltac:(lia)) as (o & Eo & No).
    destruct (getb_in offs (i + 1) ltac:(lia)) as (e & Ee & Ne). exists o, e. split; [exact Eo|]. split; [exact Ee|].
    replace (Z.to_nat (i + 1)) with (S (Z.to_nat i)) in Ne by lia. eapply accepted_chain; eauto.
  Qed.
  Definition good (r : res (list Z)) : Prop := match r with Ok offs => accepted offs | Fail => True | Oob | Fuel => False end.
  Lemma good_bind {A} (r : res A) (k : A -> res (list Z)) : fine r -> (forall a, r = Ok a -> good (k a)) -> good (bind r k).
  Proof. intros F K. destruct r; cbn [bind]; try exact I; try contradiction. apply K. reflexivity. Qed.
  Lemma sig_fine buf : seg buf -> fine (rd buf 0 4).
  Proof. intros (B & L). apply fine_rd; lia. Qed.
  Lemma offsets_good method : In method [METHOD_DEFLATE; METHOD_LZVN; METHOD_UNKNOWN5] -> (method = METHOD_DEFLATE -> table_fits src) -> good (get_block_offsets method src).
  Proof.
    intros HM HT. unfold get_block_offsets. cbv zeta. apply good_bind; [apply read_into_fine; [exact seg_zeros|lia|lia]|]. intros buf E0.
    apply (read_into_seg _ _ _ _ _ seg_zeros) in E0. destruct E0 as (G0 & _). apply good_bind; [apply sig_fine, G0|]. intros sig _.
    change (BLOCK + 1) with 65537. destruct (le_val sig =? 0x636d7066).
    - (* the data are in the stream itself *)
      destruct (negb (65537 <? src_size src)) eqn:CS; cbn [check bind]; [|exact I]. change (negb (134217728 / 4 - 1 <? 1)) with true. cbn [check bind].
      destruct (negb ((src_size src <? 16) || (65537 <? src_size src - 16))) eqn:C1; cbn [check bind]; [|exact I].
      assert (G : accepted (rev [w32 (src_size src); 16])) by (exists 16, [], 16; repeat split; lia).
      apply good_bind; [|intros u _; exact G].
      destruct (method =? METHOD_UNKNOWN5); [|exact I]. apply fine_bind; [apply fine_check|]. intros u _. apply fine_bind; [|intros; exact I].
      apply read_into_fine; [exact G0|lia|]. left. unfold w64. lia.
    - destruct HM as [<-|[<-|[<-|[]]]].
      + change (METHOD_DEFLATE =? METHOD_DEFLATE) with true. change (METHOD_DEFLATE =? METHOD_UNKNOWN5) with false. cbv iota. specialize (HT eq_refl).
        apply good_bind.
        { apply fine_bind; [apply fine_bind; [apply fine_rd; destruct G0; lia|intros; exact I]|]. intros doff _. apply fine_bind; [apply fine_check|]. intros u C. apply check_ok in C.
          apply fine_bind; [apply read_into_fine; [exact G0|lia|lia]|]. intros b E. apply (read_into_seg _ _ _ _ _ G0) in E. destruct E as ((_ & L) & _).
          apply fine_bind; [apply rd_le_fine; lia|]. intros n _. apply fine_bind; [apply fine_check|]. intros u1 _. apply fine_bind; [apply rd_le_fine; lia|]. intros; exact I. }
        intros ((((( buf1 & n) & first) & pos) & dsize) & add) E.
        apply bind_ok in E. destruct E as (doff & _ & E). apply bind_ok in E. destruct E as (u & C & E). apply check_ok in C. apply Z.eqb_eq in C. subst doff.
        apply bind_ok in E. destruct E as (b & EB & E). apply bind_ok in E. destruct E as (n' & EN & E). apply bind_ok in E. destruct E as (u1 & C1 & E). apply check_ok in C1.
        apply bind_ok in E. destruct E as (f' & EF & E). apply Ok_eq in E. injection E as -> -> -> <- <- <-.
        assert (HN : src_size src <= 65537 \/ n < 8160).
        { destruct HT as [HT|HT]; [left; exact HT|right]. unfold read_into in EB. change (256 + 16 - 4) with 268 in EB. apply bind_ok in EB. destruct EB as (d & ED & EB).
          apply bind_ok in EB. destruct EB as (b' & ES & EB). apply bind_ok in EB. destruct EB as (u2 & CL & EB). apply check_ok in CL. apply Ok_eq in EB. subst b'.
          specialize (HT d ED). apply store_ok in ES. destruct ES as (_ & _ & ES). unfold rd_le in EN. apply bind_ok in EN. destruct EN as (x & EX & EN). apply Ok_eq in EN. subst n.
          apply rd_ok in EX. destruct EX as (_ & _ & _ & EX). replace x with (slice d 256 4); [exact HT|]. rewrite EX, ES. destruct G0 as (_ & L).
          assert (LF : len (firstn (Z.to_nat 4) buf) = 4) by (unfold len in *; rewrite firstn_length; lia).
          rewrite slice_app_r by lia. rewrite LF. change (260 - 4) with 256. symmetry. apply slice_app_l; lia. }
        apply (read_into_seg _ _ _ _ _ G0) in EB. destruct EB as (G1 & _). pose proof (rd_le_range _ _ _ _ (proj1 G1) EN) as RN. pose proof (rd_le_range _ _ _ _ (proj1 G1) EF) as RF.
        apply good_bind; [apply fine_check|]. intros u2 C2. apply check_ok in C2.
        apply good_bind.
        { apply fine_bind.
          - apply read_into_fine; [exact G1|lia|]. unfold w64. destruct (Z.eq_dec n 0) as [->|N0]; [right; left; reflexivity|]. rewrite !Z.mod_small; lia.
          - intros b2 E2. apply (read_into_seg _ _ _ _ _ G1) in E2. destruct E2 as (G2 & X1 & X2 & X3 & X4 & X5).
            apply fine_bind; [apply fine_check|]. intros u3 _. apply fine_bind; [|intros (a1, p1) _; exact I].
            apply table_loop_fine; [exact G2|lia|lia|]. intros K. unfold w64 in X5. rewrite !Z.mod_small in X5 by lia. lia. }
        intros ((acc & prev) & b3) E. apply bind_ok in E. destruct E as (b2 & E2 & E). apply (read_into_seg _ _ _ _ _ G1) in E2. destruct E2 as (G2 & _).
        apply bind_ok in E. destruct E as (u3 & C3 & E). apply check_ok in C3. apply bind_ok in E. destruct E as ((acc2 & prev2) & ET & E). apply Ok_eq in E. injection E as -> -> ->.
        pose proof (w_range 32 (first + (256 + 4)) ltac:(lia)) as RW. fold (w32 (first + (256 + 4))) in RW. set (p := w32 (first + (256 + 4))) in *.
        apply (table_loop_chain b3 4 _ (proj1 G2) _ _ _ p _ [] _ _ eq_refl) in ET; [|reflexivity]. destruct ET as (l & -> & HC).
        apply good_bind; [apply fine_check|]. intros u4 C4. apply check_ok in C4. cbn [bind good]. exists p, l, prev.
        split; [cbn [rev]; rewrite rev_app_distr, rev_involutive; reflexivity|]. split; [lia|]. split; [exact HC|lia].
      + change (METHOD_LZVN =? METHOD_DEFLATE) with false. change (METHOD_LZVN =? METHOD_LZVN) with true. change (METHOD_LZVN =? METHOD_UNKNOWN5) with false. cbv iota.
        apply good_bind.
        { apply fine_bind; [apply rd_le_fine; destruct G0; lia|]. intros f _. apply fine_bind; [apply fine_check|]. intros; exact I. }
        intros ((((( buf1 & n) & first) & pos) & dsize) & add) E.
        apply bind_ok in E. destruct E as (f & _ & E). apply bind_ok in E. destruct E as (u & C & E). apply check_ok in C. apply Ok_eq in E. injection E as <- <- <- <- <- <-.
        apply good_bind; [apply fine_check|]. intros u2 C2. apply check_ok in C2.
        assert (EW : w64 (w64 (f / 4 - 1) * 4) = (f / 4 - 1) * 4) by (unfold w64; rewrite !Z.mod_small; lia). rewrite EW.
        apply good_bind.
        { apply fine_bind; [apply read_into_fine; [exact G0|lia|lia]|].
          intros b2 E2. apply (read_into_seg _ _ _ _ _ G0) in E2. destruct E2 as (G2 & X1 & X2 & X3 & X4 & X5).
          apply fine_bind; [apply fine_check|]. intros u3 _. apply fine_bind; [|intros (a1, p1) _; exact I].
          apply table_loop_fine; [exact G2|lia|lia|]. lia. }
        intros ((acc & prev) & b3) E. apply bind_ok in E. destruct E as (b2 & E2 & E). apply (read_into_seg _ _ _ _ _ G0) in E2. destruct E2 as (G2 & _).
        apply bind_ok in E. destruct E as (u3 & C3 & E). apply check_ok in C3. apply bind_ok in E. destruct E as ((acc2 & prev2) & ET & E). apply Ok_eq in E. injection E as -> -> ->.
        pose proof (w_range 32 (f + 0) ltac:(lia)) as RW. fold (w32 (f + 0)) in RW. set (p := w32 (f + 0)) in *.
        apply (table_loop_chain b3 0 _ (proj1 G2) _ _ _ p _ [] _ _ eq_refl) in ET; [|reflexivity]. destruct ET as (l & -> & HC).
        apply good_bind; [apply fine_check|]. intros u4 C4. apply check_ok in C4. cbn [bind good]. exists p, l, prev.
        split; [cbn [rev]; rewrite rev_app_distr, rev_involutive; reflexivity|]. split; [lia|]. split; [exact HC|lia].
      + change (METHOD_UNKNOWN5 =? METHOD_DEFLATE) with false. change (METHOD_UNKNOWN5 =? METHOD_LZVN) with false. cbv iota. cbn [bind].
        change (negb (134217728 / 4 - 1 <? 0)) with true. cbn [check bind]. change (w64 (w64 (0 - 1) * 0)) with 0.
        apply good_bind; [|intros (b & ?) E; apply bind_ok in E; destruct E as (? & _ & E); discriminate E].
        apply fine_bind; [apply read_into_fine; [exact G0|lia|lia]|]. intros b _. exact I.
  Qed.
End Source.

(* ---- reading ---- *)
Section Reads.
  Variable dec : list Z -> Z -> res (list Z).
  Variable junk : list Z -> list Z -> list Z.
  Variable method : Z.
  Variable src : source.
  Variable usize : Z.
  Hypothesis junk_len : forall d s, len (junk d s) = len s.
  Hypothesis dec_safe : forall d, bytes d -> dec d 65536 = Fail \/ exists out, dec d 65536 = Ok out /\ len out <= 65536.
  Hypothesis HS : safe_source src.
  Hypothesis HM : In method [METHOD_DEFLATE; METHOD_LZVN; METHOD_UNKNOWN5].
  Hypothesis HT : method = METHOD_DEFLATE -> table_fits src.

  Definition source_safe (h : chandle) : Prop :=
    len (ch_seg h) = 65536 /\ 0 <= ch_size h <= 65536 /\ match ch_offs h with None => True | Some o => accepted src o end.

  Lemma block_data_safe offs i : accepted src offs -> 0 <= i < len offs - 1 -> fine (block_data src offs i) /\ forall d, block_data src offs i = Ok d -> bytes d.
  Proof.
    intros HA Hi. destruct (accepted_block src offs i HA Hi) as (o & e & E1 & E2 & Ho & HN). unfold block_data. rewrite E1, E2. cbn [bind]. cbv zeta.
    destruct (HS o (w64 (e - o))) as (F & X). destruct (src_read src o (w64 (e - o))) as [d| | |]; cbn [bind]; try contradiction; [|split; [exact I|discriminate]].
    specialize (X d eq_refl). destruct X as (X1 & X2 & X3 & X4). change (BLOCK + 1) with 65537. replace (65537 <? len d) with false by lia. cbn [bind].
    destruct (len d =? w64 (e - o)); cbn [check bind]; (split; [exact I|]); [|discriminate]. intros d' E. apply Ok_eq in E. subst d'. exact X1.
  Qed.
  Lemma source_load_safe h offs i : source_safe h -> accepted src offs -> 0 <= i < len offs - 1 ->
    fine (fst (load_block dec junk src usize h offs i)) /\ source_safe (snd (load_block dec junk src usize h offs i)).
  Proof.
    intros (S1 & S2 & S3) HA Hi. unfold load_block. destruct (ch_idx h =? i); [cbn; unfold source_safe; auto|].
    destruct (block_data_safe offs i HA Hi) as (F & B). destruct (block_data src offs i) as [d| | |]; try contradiction; [|cbn; unfold source_safe; auto].
    specialize (B d eq_refl). change BLOCK with 65536. destruct (dec_safe d B) as [->|(out & -> & Lo)].
    - cbn. split; [exact I|]. unfold source_safe. cbn. rewrite junk_len. split; [exact S1|]. split; [lia|exact S3].
    - assert (LS : len (out ++ skipn (length out) (ch_seg h)) = 65536) by (rewrite len_app; unfold len in *; rewrite skipn_length; lia).
      pose proof (len_nonneg out). unfold set_seg. cbn [ch_offs ch_cur ch_idx ch_seg ch_size].
      destruct (_ && _); unfold source_safe; cbn [fst snd ch_offs ch_seg ch_size]; (split; [exact I|]); (split; [exact LS|]); (split; [lia|exact S3]).
  Qed.
  Lemma source_loop_safe : forall fuel h offs i doff n acc, source_safe h -> accepted src offs -> 0 <= i -> 0 <= doff -> n <= Z.of_nat fuel ->
    fine (fst (Compressed.read_loop dec junk src usize fuel h offs i doff n acc)) /\
    source_safe (snd (Compressed.read_loop dec junk src usize fuel h offs i doff n acc)).
  Proof.
    induction fuel as [|fuel IH]; intros h offs i doff n acc G HA Hi Hd Hf; cbn [Compressed.read_loop].
    - replace (0 <? n) with false by lia. cbn. auto.
    - destruct (0 <? n) eqn:E; [|cbn; auto]. destruct (len offs - 1 <=? i) eqn:E2; [cbn; auto|].
      destruct (source_load_safe h offs i G HA ltac:(lia)) as (F1 & F2).
      destruct (load_block dec junk src usize h offs i) as [r h']. cbn [fst snd] in *.
      destruct r; try (destruct F1; fail); [|cbn; auto].
      destruct (ch_size h' <=? doff) eqn:E3; [cbn; auto|]. pose proof F2 as (F3 & F4 & F5). rewrite rd_in by lia.
      apply IH; auto; try lia. apply (w_range 32). lia.
  Qed.
  Theorem source_read_safe h off n : source_safe h -> 0 <= off ->
    fine (fst (file_read dec junk method src usize h off n)) /\ source_safe (snd (file_read dec junk method src usize h off n)).
  Proof.
    intros G Ho. unfold file_read. destruct (usize <=? off) eqn:E; [cbn; auto|]. unfold ch_read. cbn [ch_seek ch_offs ch_cur ch_idx ch_seg ch_size].
    pose proof (offsets_good src HS method HM HT) as HG.
    assert (X : good src (match ch_offs h with Some o => Ok o | None => get_block_offsets method src end)).
    { destruct G as (_ & _ & G). destruct (ch_offs h); [exact G|exact HG]. }
    destruct (match ch_offs h with Some o => Ok o | None => get_block_offsets method src end) as [offs| | |]; cbn [good] in X; try contradiction.
    - rewrite E. set (h1 := mk_ch (Some offs) off (ch_idx h) (ch_seg h) (ch_size h)).
      assert (G1 : source_safe h1) by (destruct G as (A & B & _); unfold source_safe, h1; cbn [ch_seg ch_size ch_offs]; auto).
      destruct (method =? METHOD_UNKNOWN5); [cbn [fst snd fine]; split; auto|].
      destruct (source_loop_safe (Z.to_nat (Z.min n (usize - off))) h1 offs (w32 (off / BLOCK)) (off mod BLOCK) (Z.min n (usize - off)) [] G1 X) as (A & B); try lia.
      + apply (w_range 32). lia.
      + unfold BLOCK. lia.
      + destruct (Compressed.read_loop _ _ _ _ _ _ _ _ _ _ _) as [r h2]. cbn [fst snd] in *. destruct r; cbn [fst snd]; split; auto.
    - destruct G as (A & B & D). cbn [fst snd fine]. split; [exact I|]. unfold source_safe. cbn [ch_seek ch_offs ch_seg ch_size]. auto.
  Qed.
  Lemma source_init_safe : source_safe ch_init.
  Proof. unfold source_safe. cbn [ch_init ch_seg ch_size ch_offs]. rewrite zeros_len by (unfold BLOCK; lia). unfold BLOCK. split; [reflexivity|]. split; [lia|exact I]. Qed.
End Reads.

(* libfsapfs_decompress_data ends within its buffers if the LZVN decompressor does. *)
Lemma decompress_safe lzvn method : (forall d, bytes d -> lzvn d 65536 = Fail \/ exists out, lzvn d 65536 = Ok out /\ len out <= 65536) ->
  forall d, bytes d -> decompress_data lzvn method d 65536 = Fail \/ exists out, decompress_data lzvn method d 65536 = Ok out /\ len out <= 65536.
Proof.
  intros HL d B. unfold decompress_data. pose proof (len_nonneg d).
  assert (R : (1 <=? len d) = true -> (let! _ := check (negb (65536 <? len d - 1)) in rd d 1 (len d - 1)) = Fail \/
    exists out, (let! _ := check (negb (65536 <? len d - 1)) in rd d 1 (len d - 1)) = Ok out /\ len out <= 65536).
  { intros L. destruct (65536 <? len d - 1) eqn:C; cbn [negb check bind]; [left; reflexivity|]. right. rewrite rd_in by lia. eexists. split; [reflexivity|]. rewrite len_slice by lia. lia. }
  destruct (method =? METHOD_DEFLATE).
  - destruct ((1 <=? len d) && (nth 0 d 0 =? 255)) eqn:C; [apply andb_true_iff in C; apply R, C|].
    destruct (C08_zlib_safe d 65536 B ltac:(lia)) as (N1 & N2 & N3). destruct (zlib_decompress d 65536) as [out| | |]; try congruence; [right; exists out; split; [reflexivity|auto]|left; reflexivity].
  - destruct (method =? METHOD_LZVN); [|left; reflexivity]. destruct ((1 <=? len d) && (nth 0 d 0 =? 6)) eqn:C; [apply andb_true_iff in C; apply R, C|apply HL, B].
Qed.

(* ---- the streams of files and attributes are such sources ---- *)
