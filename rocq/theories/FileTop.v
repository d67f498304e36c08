(* An open file entry against its specification: the invariant of the fields that are filled in
   when first needed. *)
From Verif Require Import Base BaseLemmas Walk Omap TreeSpec OmapSpec RecordsSpec Records FsTree FsSpec FsLookup PropFs
  CryptSpec Crypt DataSpec DataRead DataProofs Compressed CompressedSpec CompressedTop FileEntry FileSpec FileProofs.
Ltac Zify.zify_post_hook ::= Z.div_mod_to_equations.

Lemma bindM_ok {S A B} (m : M S A) (k : A -> M S B) st a st' : m st = (Ok a, st') -> bindM m k st = k a st'.
Proof. intros H. unfold bindM. rewrite H. reflexivity. Qed.
Lemma onM_ok {S A B} (r : res A) (k : A -> M S B) st a : r = Ok a -> onM r k st = k a st.
Proof. intros ->. reflexivity. Qed.
Lemma method_of_range m m' : method_of m = Ok m' -> m = 3 \/ m = 4 \/ m = 5 \/ m = 7 \/ m = 8.
Proof. unfold method_of. destruct ((m =? 3) || (m =? 4)) eqn:C1; [lia|]. destruct (m =? 5) eqn:C2; [lia|]. destruct ((m =? 7) || (m =? 8)) eqn:C3; [lia|discriminate]. Qed.

(* The states in which an open entry is the file f at a position; A: its attributes. *)
Definition follows lzvn junk (e : fentry) (A : fattrs) (f : file) (I : fstate -> Z -> Prop) : Prop :=
  I f_init 0 /\
  (forall c st pos, I st pos -> exists st', entry_call lzvn junk e c st = Ok (fst (file_step f pos c), st') /\ I st' (snd (file_step f pos c))) /\
  (forall st pos l, I st pos -> I (set_dir st l) pos) /\ (forall st pos, I st pos -> exists st', get_attrs e st = (Ok A, st')).
Lemma steps_ok lzvn junk e A f I : follows lzvn junk e A f I -> forall cs st pos, I st pos -> exists st' pos', entry_calls lzvn junk e cs st = Ok (file_steps f pos cs, st') /\ I st' pos'.
Proof.
  intros (_ & HS & _). induction cs as [|c cs IH]; intros st pos HI; cbn [entry_calls file_steps]; [eauto|].
  destruct (HS c st pos HI) as (st1 & G & I1). rewrite G. cbn [bind]. destruct (file_step f pos c) as (a & pos'). cbn [fst snd] in *.
  destruct (IH st1 pos' I1) as (st2 & pos2 & G2 & I2). rewrite G2. cbn [bind]. eauto.
Qed.

(* Reading the compressed data src gives the bytes of the file, in every history of reads. *)
Definition reads_packed lzvn junk (data : list Z) (method : Z) (src : source) : Prop := forall ops, Forall (fun op => 0 <= fst op) ops ->
  fst (file_reads (decompress_data lzvn method) junk method src (len data) ch_init ops) = map (read_slice data) ops.
(* What the tree and the device hold of a file: its attributes A, the header hdr of its compressed
   data, its extents, bytes and link target. *)
Record file_facts lzvn junk (e : fentry) (A : fattrs) (hdr : option (Z * Z)) (exts : list extent) (data : list Z) (link : option (list Z)) : Prop := mk_ff {
  ff_attrs : (let! l := fs_attrs (fe_tree e) (fe_id e) in classify l (mk_fa l None None None)) = Ok A;
  ff_extents : fs_extents (fe_tree e) (in_stream (fe_inode e)) = Ok exts;
  ff_blocks : Forall (fun x => 0 <= ex_block x < 2 ^ 52) exts;
  ff_header : match fa_comp A with
    | None => hdr = None
    | Some x => (let! s := attr_stream e x in let! d := read_all s 0 16 in read_compressed_header d) = Ok hdr
    end;
  ff_size : match hdr with None => in_size (fe_inode e) | Some (_, z) => z end = len data;
  ff_len : len data < 2 ^ 63;
  ff_body : match hdr with
    | None => exists s, stream_of_extents (fe_img e) (fe_ctx e) exts (len data) (Z.testbit (in_flags (fe_inode e)) 9) = Ok s /\ agrees s data
    | Some (m, _) => exists method x s, method_of m = Ok method /\ (if (m =? 4) || (m =? 8) then fa_fork A else fa_comp A) = Some x /\
        attr_stream e x = Ok (Some s) /\ reads_packed lzvn junk data method (mk_src (st_size s) (DataRead.stream_read s))
    end;
  ff_link : match fa_link A with
    | None => link = None
    | Some x => exists w s, link = Some w /\ attr_size x = len w /\ 1 <= len w <= 2 ^ 27 /\ attr_stream e x = Ok (Some s) /\ agrees s w
    end }.

Section Entry.
  Variables (lzvn : list Z -> Z -> res (list Z)) (junk : list Z -> list Z -> list Z).
  Variables (e : fentry) (A : fattrs) (hdr : option (Z * Z)) (exts : list extent) (data : list Z) (link : option (list Z)).
  Hypothesis HA : (let! l := fs_attrs (fe_tree e) (fe_id e) in classify l (mk_fa l None None None)) = Ok A.
  Hypothesis HX : fs_extents (fe_tree e) (in_stream (fe_inode e)) = Ok exts.
  Hypothesis HXB : Forall (fun x => 0 <= ex_block x < 2 ^ 52) exts.
  Hypothesis HH : match fa_comp A with
    | None => hdr = None
    | Some x => (let! s := attr_stream e x in let! d := read_all s 0 16 in read_compressed_header d) = Ok hdr
    end.
  Hypothesis HZ : match hdr with None => in_size (fe_inode e) | Some (_, z) => z end = len data.
  Hypothesis HL : len data < 2 ^ 63.
  Hypothesis HB : match hdr with
    | None => exists s, stream_of_extents (fe_img e) (fe_ctx e) exts (len data) (Z.testbit (in_flags (fe_inode e)) 9) = Ok s /\ agrees s data
    | Some (m, _) => exists method x s, method_of m = Ok method /\ (if (m =? 4) || (m =? 8) then fa_fork A else fa_comp A) = Some x /\
        attr_stream e x = Ok (Some s) /\ reads_packed lzvn junk data method (mk_src (st_size s) (DataRead.stream_read s))
    end.
  Hypothesis HK : match fa_link A with
    | None => link = None
    | Some x => exists w s, link = Some w /\ attr_size x = len w /\ 1 <= len w <= 2 ^ 27 /\ attr_stream e x = Ok (Some s) /\ agrees s w
    end.
  Notation reads_packed := (reads_packed lzvn junk data).

  Definition body_ok (b : body) : Prop :=
    match b with
    | Plain s => agrees s data
    | Packed method src usize h => usize = len data /\ reads_packed method src /\ exists ops, Forall (fun op => 0 <= fst op) ops /\
        h = snd (file_reads (decompress_data lzvn method) junk method src (len data) ch_init ops)
    end.
  Lemma body_size_ok b : body_ok b -> body_size b = len data.
  Proof. destruct b; cbn; [intros (H & _); exact H|tauto]. Qed.
  Lemma body_read_ok b o n : body_ok b -> 0 <= o -> exists b', body_read lzvn junk b o n = (Compressed.stream_read data o n, b') /\ body_ok b'.
  Proof.
    intros Hb Ho. destruct b as [s|method src usize h]; cbn [body_read].
    - exists (Plain s). split; [|exact Hb]. destruct Hb as (_ & R). rewrite R. reflexivity.
    - unfold Compressed.stream_read. destruct ((0 <=? o) && (0 <=? n) && (n <=? 2 ^ 63 - 1)); [|eexists; split; [reflexivity|exact Hb]].
      destruct Hb as (-> & R & ops & F & ->).
      destruct (next_read (decompress_data lzvn method) junk method src (len data) data R ops o n F Ho) as (h & E & EH).
      rewrite E. eexists. split; [reflexivity|]. split; [reflexivity|]. split; [exact R|]. exists (ops ++ [(o, n)]). split; [|exact EH].
      apply Forall_app. split; [exact F|]. constructor; [exact Ho|constructor].
  Qed.

  Record inv (st : fstate) (pos : Z) : Prop := mk_inv {
    i_attrs : f_attrs st = None \/ f_attrs st = Some A;
    i_size : f_header st = None /\ f_size st = unset \/ f_header st = hdr /\ f_size st = len data /\ f_attrs st = Some A;
    i_extents : f_extents st = None \/ f_extents st = Some exts;
    i_body : f_body st = None /\ pos = 0 \/ exists b, f_body st = Some b /\ body_ok b;
    i_cur : f_cur st = pos; i_pos : 0 <= pos;
    i_link : f_link st = None \/ exists w, f_link st = Some w /\ link = Some w }.
  Ltac inv_auto I := destruct I; constructor; cbn [set_attrs set_size set_extents set_body set_link set_dir f_attrs f_header f_size f_extents f_body f_cur f_link f_dir]; auto.

  Lemma inv_init : inv f_init 0.
  Proof. constructor; cbn; auto. lia. Qed.
  Lemma get_attrs_ok st pos : inv st pos -> exists st', get_attrs e st = (Ok A, st') /\ inv st' pos /\ f_attrs st' = Some A /\
    f_header st' = f_header st /\ f_size st' = f_size st /\ f_link st' = f_link st.
  Proof.
    intros I. unfold get_attrs. destruct (i_attrs st pos I) as [E|E]; rewrite E.
    - rewrite (onM_ok _ _ _ A HA). eexists. split; [reflexivity|]. split; [|cbn; auto]. inv_auto I. destruct i_size0 as [?|(? & ? & ?)]; auto.
    - eexists. split; [reflexivity|]. auto.
  Qed.
  Lemma need_size_ok st pos : inv st pos -> exists st', need_size e st = (Ok (len data), st') /\ inv st' pos /\
    f_header st' = hdr /\ f_size st' = len data /\ f_attrs st' = Some A.
  Proof.
    intros I. unfold need_size. destruct (i_size st pos I) as [(E1 & E2)|(E1 & E2 & E3)]; rewrite E2.
    - rewrite Z.eqb_refl. destruct (get_attrs_ok st pos I) as (st1 & G & I1 & A1 & _).
      assert (X : exists st', get_data_size e st = (Ok tt, st') /\ inv st' pos /\ f_header st' = hdr /\ f_size st' = len data /\ f_attrs st' = Some A).
      { unfold get_data_size. rewrite E1. rewrite (bindM_ok _ _ _ _ _ G). destruct (fa_comp A) as [x|].
        - rewrite (onM_ok _ _ _ hdr HH). exists (set_size st1 hdr (len data)). split; [rewrite <- HZ; clear; destruct hdr as [(m & z)|]; reflexivity|].
          split; [|cbn; auto]. inv_auto I1.
        - exists (set_size st1 hdr (len data)). split; [rewrite <- HZ, HH; reflexivity|]. split; [|cbn; auto]. inv_auto I1. }
      destruct X as (st' & X & I' & X1 & X2 & X3). rewrite (bindM_ok _ _ _ _ _ X), X2. eauto 8.
    - pose proof (len_nonneg data). unfold unset. replace (len data =? 2 ^ 64 - 1) with false by lia. exists st. auto.
  Qed.
  Lemma get_extents_ok st pos : inv st pos -> exists st', get_extents e st = (Ok exts, st') /\ inv st' pos /\
    f_header st' = f_header st /\ f_size st' = f_size st /\ f_attrs st' = f_attrs st /\ f_body st' = f_body st.
  Proof.
    intros I. unfold get_extents. destruct (i_extents st pos I) as [E|E]; rewrite E.
    - rewrite (onM_ok _ _ _ exts HX). eexists. split; [reflexivity|]. split; [|cbn; auto]. inv_auto I.
    - eexists. split; [reflexivity|]. auto.
  Qed.
  Lemma set_body_inv st pos b o : inv st pos -> body_ok b -> 0 <= o -> inv (set_body st b o) o.
  Proof. intros I Hb Ho. inv_auto I. right. eauto. Qed.
  Lemma need_stream_ok st pos : inv st pos -> exists b st', need_stream e st = (Ok b, st') /\ inv st' pos /\ f_body st' = Some b /\ body_ok b.
  Proof.
    intros I. unfold need_stream. destruct (i_body st pos I) as [(E & ->)|(b & E & Hb)]; rewrite E; [|exists b, st; auto].
    assert (X : exists b st', get_data_stream e st = (Ok tt, st') /\ inv st' 0 /\ f_body st' = Some b /\ body_ok b).
    { destruct (need_size_ok st 0 I) as (st1 & G & I1 & H1 & H2 & H3). unfold get_data_stream. rewrite (bindM_ok _ _ _ _ _ G), H1.
      revert HB. generalize HZ. destruct hdr as [(m & z)|].
      - intros _ (method & x & s & M1 & M2 & M3 & M4).
        rewrite (onM_ok _ _ _ (Packed method (mk_src (st_size s) (DataRead.stream_read s)) (len data) ch_init)).
        + eexists _, _. split; [reflexivity|]. assert (Hb : body_ok (Packed method (mk_src (st_size s) (DataRead.stream_read s)) (len data) ch_init)).
          { split; [reflexivity|]. split; [exact M4|]. exists []. split; [constructor|reflexivity]. }
          split; [apply (set_body_inv st1 0); auto; lia|]. split; [reflexivity|exact Hb].
        + rewrite M1, H3. cbn [bind]. rewrite M2. cbn [bind]. rewrite M3. cbn [bind]. replace (len data <? 2 ^ 63) with true by lia. reflexivity.
      - intros EZ (s & S1 & S2). rewrite EZ. destruct (get_extents_ok st1 0 I1) as (st2 & G2 & I2 & _). rewrite (bindM_ok _ _ _ _ _ G2).
        rewrite (onM_ok _ _ _ s S1). eexists _, _. split; [reflexivity|]. split; [apply (set_body_inv st2 0); auto; lia|]. split; [reflexivity|exact S2]. }
    destruct X as (b & st' & X & I' & X1 & X2). rewrite (bindM_ok _ _ _ _ _ X), X1. eauto 8.
  Qed.

  Let F := mk_file data exts (len (fa_all A)) link.
  Lemma step_ok c st pos : inv st pos -> exists st', entry_call lzvn junk e c st = Ok (fst (file_step F pos c), st') /\ inv st' (snd (file_step F pos c)).
  Proof.
    intros I. pose proof (i_pos _ _ I) as P0.
    assert (READ : forall off o n, o = match off with Some x => x | None => pos end ->
      exists st', answer_of RBytes (entry_read lzvn junk e off n) st = Ok (fst (if (0 <=? o) && (0 <=? n) && (n <=? 2 ^ 63 - 1)
        then let d := slice data o (Z.min n (len data - o)) in (RBytes d, o + len d) else (RError, if 0 <=? o then o else pos)), st') /\
        inv st' (snd (if (0 <=? o) && (0 <=? n) && (n <=? 2 ^ 63 - 1)
        then let d := slice data o (Z.min n (len data - o)) in (RBytes d, o + len d) else (RError, if 0 <=? o then o else pos)))).
    { intros off o n EO. destruct (need_stream_ok st pos I) as (b & st1 & G & I1 & B1 & B2). unfold answer_of, entry_read. rewrite (bindM_ok _ _ _ _ _ G).
      rewrite (i_cur _ _ I1). rewrite <- EO. destruct (o <? 0) eqn:CO.
      - replace (0 <=? o) with false by lia. cbn [andb fst snd]. eauto.
      - destruct (body_read_ok b o n B2 ltac:(lia)) as (b' & R & Hb'). rewrite R. unfold Compressed.stream_read.
        replace (0 <=? o) with true by lia. destruct (true && (0 <=? n) && (n <=? 2 ^ 63 - 1)); cbn [check bind fst snd].
        + eexists. split; [reflexivity|]. eapply set_body_inv; eauto. pose proof (len_nonneg (slice data o (Z.min n (len data - o)))). lia.
        + eexists. split; [reflexivity|]. eapply set_body_inv; eauto. lia. }
    destruct c as [|n|o n|o w| | |j| |]; unfold file_step; cbn [entry_call fl_data F].
    - destruct (need_size_ok st pos I) as (st1 & G & I1 & _). unfold answer_of, entry_size. rewrite G. cbn [fst snd]. eauto.
    - apply READ. reflexivity.
    - apply (READ (Some o) o n). reflexivity.
    - destruct (need_stream_ok st pos I) as (b & st1 & G & I1 & B1 & B2). unfold answer_of, entry_seek. rewrite (bindM_ok _ _ _ _ _ G).
      rewrite (i_cur _ _ I1), (body_size_ok b B2).
      destruct (if w =? 0 then Some 0 else if w =? 1 then Some pos else if w =? 2 then Some (len data) else None) as [x|]; [|cbn [fst snd]; eauto].
      destruct (x + o <? 0) eqn:C; cbn [fst snd]; [eauto|]. eexists. split; [reflexivity|]. eapply set_body_inv; eauto. lia.
    - destruct (need_stream_ok st pos I) as (b & st1 & G & I1 & B1 & B2). unfold answer_of, entry_offset. rewrite (bindM_ok _ _ _ _ _ G).
      rewrite (i_cur _ _ I1). cbn [fst snd]. eauto.
    - destruct (get_extents_ok st pos I) as (st1 & G & I1 & _). unfold answer_of, entry_extents. rewrite (bindM_ok _ _ _ _ _ G). cbn [retM fst snd fl_extents F]. eauto.
    - destruct (get_extents_ok st pos I) as (st1 & G & I1 & _). unfold answer_of, entry_extent. rewrite (bindM_ok _ _ _ _ _ G). cbn [retM fst snd fl_extents F].
      exists st1. split; [|exact I1]. f_equal. f_equal. unfold retM.
      destruct (nth_error exts (Z.to_nat j)) as [x|] eqn:N.
      + pose proof (nth_error_In _ _ N) as IN. assert (LT : (Z.to_nat j < length exts)%nat) by (apply nth_error_Some; rewrite N; discriminate).
        rewrite Forall_forall in HXB. pose proof (HXB x IN) as Hx. destruct (0 <=? j) eqn:CJ; cbn [andb].
        * assert (GE : getb exts j = Ok x).
          { unfold getb, len. replace ((0 <=? j) && (j <? Z.of_nat (length exts))) with true by lia. rewrite N. reflexivity. }
          unfold len. replace (j <? Z.of_nat (length exts)) with true by lia. rewrite GE. cbn [bind fst snd]. unfold w64. rewrite Z.mod_small by lia. reflexivity.
        * reflexivity.
      + apply nth_error_None in N. unfold len. replace ((0 <=? j) && (j <? Z.of_nat (length exts))) with false by lia. reflexivity.
    - destruct (get_attrs_ok st pos I) as (st1 & G & I1 & _). unfold answer_of, entry_attrs. rewrite (bindM_ok _ _ _ _ _ G). cbn [retM fst snd fl_attrs F]. eauto.
    - unfold answer_of, entry_link. cbn [fst snd fl_link F]. destruct (i_link st pos I) as [E|(w & E & ->)]; rewrite E; [|eauto].
      destruct (get_attrs_ok st pos I) as (st1 & G & I1 & _ & _ & _ & EL). rewrite (bindM_ok _ _ _ _ _ G).
      destruct (fa_link A) as [x|].
      + destruct HK as (w & s & -> & Z1 & Z2 & Z3 & Z4). rewrite (onM_ok _ _ _ w).
        * eexists. split; [reflexivity|]. inv_auto I1. right. eauto.
        * rewrite Z1. replace (negb ((len w =? 0) || (134217728 <? len w))) with true by lia. cbn [check bind]. rewrite Z3. cbn [bind].
          rewrite (read_all_ok s w 0 (len w) Z4) by lia. rewrite slice_all by lia. reflexivity.
      + exists st1. split; [|exact I1]. rewrite HK. reflexivity.
  Qed.
  Lemma inv_dir st pos l : inv st pos -> inv (set_dir st l) pos.
  Proof. intros I. inv_auto I. Qed.
  Lemma steps_attrs : exists I, follows lzvn junk e A (mk_file data exts (len (fa_all A)) link) I.
  Proof.
    exists inv. split; [exact inv_init|]. split; [exact step_ok|]. split; [exact inv_dir|]. intros st pos I. destruct (get_attrs_ok st pos I) as (st' & G & _). exists st'. exact G.
  Qed.
End Entry.

Lemma facts_follow lzvn junk e A hdr exts data link : file_facts lzvn junk e A hdr exts data link ->
  exists I, follows lzvn junk e A (mk_file data exts (len (fa_all A)) link) I.
Proof. intros [F1 F2 F3 F4 F5 F6 F7 F8]. exact (steps_attrs lzvn junk e A hdr exts data link F1 F2 F3 F4 F5 F6 F7 F8). Qed.

(* ---- a file on a volume meets these conditions ---- *)
Lemma header_ok m size rest : 0 <= m < 2 ^ 32 -> 0 <= size < 2 ^ 64 ->
  read_compressed_header (slice (inline_data m size rest) 0 16) = Ok (Some (m, size)).
Proof.
  intros Hm Hs. assert (E : slice (inline_data m size rest) 0 16 = [0x66; 0x70; 0x6d; 0x63] ++ le_enc 4 m ++ le_enc 8 size).
  { unfold inline_data. rewrite !app_assoc. rewrite slice_app_l; [apply slice_all| |]; rewrite ?len_app, ?le_enc_len; try reflexivity; lia. }
  rewrite E. clear E. unfold read_compressed_header.
  assert (L : len ([0x66; 0x70; 0x6d; 0x63] ++ le_enc 4 m ++ le_enc 8 size) = 16) by (rewrite !len_app, !le_enc_len; reflexivity).
  rewrite L. change (16 <=? 16) with true. cbn [check bind]. rewrite rd_in by lia. cbn [bind].
  pose proof (slice_exact [] [0x66; 0x70; 0x6d; 0x63] (le_enc 4 m ++ le_enc 8 size) 0 4 eq_refl eq_refl) as X0. change ([] ++ ?x) with x in X0. rewrite X0. clear X0.
  change (le_val [0x66; 0x70; 0x6d; 0x63] =? 0x636d7066) with true. cbn [negb].
  rewrite !rd_le_in by lia. cbn [bind].
  rewrite (slice_exact [0x66; 0x70; 0x6d; 0x63] (le_enc 4 m) (le_enc 8 size) 4 4) by (rewrite ?le_enc_len; reflexivity).
  pose proof (slice_exact ([0x66; 0x70; 0x6d; 0x63] ++ le_enc 4 m) (le_enc 8 size) [] 8 8) as X. rewrite app_nil_r, <- app_assoc in X.
  rewrite X by (rewrite ?len_app, ?le_enc_len; reflexivity). rewrite !le_val_enc by (change (256 ^ Z.of_nat 4) with (2 ^ 32); change (256 ^ Z.of_nat 8) with (2 ^ 64); lia). reflexivity.
Qed.
Lemma header_none v : bytes v -> 16 <= len v -> slice v 0 4 <> [0x66; 0x70; 0x6d; 0x63] -> read_compressed_header (slice v 0 16) = Ok None.
Proof.
  intros B L N. unfold read_compressed_header. rewrite len_slice by lia. change (16 <=? 16) with true. cbn [check bind].
  rewrite rd_in by (rewrite ?len_slice; lia). cbn [bind]. rewrite slice_slice by lia. change (0 + 0) with 0.
  destruct (le_val (slice v 0 4) =? 0x636d7066) eqn:C; [|reflexivity]. exfalso. apply N.
  rewrite <- (le_enc_val (slice v 0 4)) by (apply bytes_slice, B).
  assert (LL : length (slice v 0 4) = 4%nat) by (pose proof (len_slice v 0 4 ltac:(lia) ltac:(lia) ltac:(lia)) as X; unfold len in X; lia).
  rewrite LL. replace (le_val (slice v 0 4)) with 0x636d7066 by lia. reflexivity.
Qed.
Lemma attr_len block recs id r a v : attr_rec id r a -> attr_holds block recs a v -> len v < 2 ^ 43.
Proof.
  intros (_ & _ & _ & HV) HH. unfold attr_holds in HH. destruct (at_data a) as [sid size|w|].
  - destruct HH as (_ & l & content & _ & _ & HL & _). lia.
  - subst w. lia.
  - destruct HH as (_ & ->). cbn. lia.
Qed.
Lemma blocks_size bs n : file_blocks bs -> len bs <= n -> len (concat bs) <= n * 65536.
Proof.
  intros HB H. pose proof (file_blocks_small bs HB) as F. clear HB. assert (G : len (concat bs) <= len bs * 65536); [|lia].
  clear H. induction F as [|b bs Hb F IH]; [cbn; lia|]. cbn [concat]. rewrite len_app, len_cons. lia.
Qed.
Lemma forall2_len {A B} (R : A -> B -> Prop) l m : Forall2 R l m -> len l = len m.
Proof. induction 1; rewrite ?len_cons; [reflexivity|lia]. Qed.
Lemma faithful_volume dev ctx block : volume_data dev ctx block -> faithful dev ctx block.
Proof. intros []; [apply faithful_plain|eapply faithful_sealed; eauto]. Qed.

Lemma attributes_read (tie : list Z -> list Z -> Prop) h t recs id l r : (forall a b c, tie a b -> tie b c -> tie a c) -> fs_tree tie h t recs -> 0 <= id < 2 ^ 60 ->
  In r recs -> has 3 id r = true -> attributes recs id l ->
  fs_attrs t id = Ok (map fst l) /\ Forall well_named l /\ (forall p, In p l -> exists r, attr_rec id r (fst p)).
Proof.
  intros HTR HT Hid Hr Hh (F & ND).
  destruct (C19_attributes_of_existing_file tie h t recs id r HTR HT Hid Hr Hh) as (l' & E & F' & _).
  - intros r' Hr' Hh'. assert (I : In r' (filter (has 4 id) recs)) by (apply filter_In; auto). clear - F I.
    induction F as [|a b l m R F IH]; [destruct I|]. destruct I as [<-|I]; [exists (fst b); apply R|auto].
  - split; [|split].
    + rewrite E. f_equal. eapply (forall2_fun read_attr (attr_rec id)); [apply attr_rec_read|exact F'|].
      clear - F. induction F as [|a b l m R F IH]; cbn [map]; constructor; [apply R|exact IH].
    + eapply forall2_right; [exact F|]. intros a b (_ & H). exact H.
    + clear - F. induction F as [|a b l m R F IH]; [contradiction|]. intros p [<-|I]; [exists a; apply R|auto].
Qed.

Theorem file_entry_facts (tie : list Z -> list Z -> Prop) h t recs dev ctx block lzvn junk id i rec r l f :
  (forall a b c, tie a b -> tie b c -> tie a c) -> fs_tree tie h t recs -> 0 <= id < 2 ^ 60 -> In r recs -> has 3 id r = true ->
  volume_data dev ctx block -> (forall d s, len (junk d s) = len s) -> is_file lzvn block recs id i l f ->
  exists hdr, file_facts lzvn junk (mk_fe t dev ctx id i rec) (mk_fa (map fst l) (attr_named decmpfs_name l) (attr_named fork_name l) (attr_named symlink_name l))
    hdr (fl_extents f) (fl_data f) (fl_link f) /\ fl_attrs f = len l.
Proof.
  intros HTR HT Hid Hr Hh HV HJ (HA & HD & HX & HXB & HK & HN). apply faithful_volume in HV.
  destruct (attributes_read tie h t recs id l r HTR HT Hid Hr Hh HA) as (EA & HW & HR). destruct HA as (_ & ND).
  set (e := mk_fe t dev ctx id i rec). set (A := mk_fa (map fst l) (attr_named decmpfs_name l) (attr_named fork_name l) (attr_named symlink_name l)).
  assert (S1 : (let! l := fs_attrs (fe_tree e) (fe_id e) in classify l (mk_fa l None None None)) = Ok A).
  { change (fe_tree e) with t. change (fe_id e) with id. rewrite EA. cbn [bind]. rewrite classify_ok by assumption.
    unfold A, or_else. destruct (attr_named decmpfs_name l), (attr_named fork_name l), (attr_named symlink_name l); reflexivity. }
  assert (S2 : fs_extents (fe_tree e) (in_stream (fe_inode e)) = Ok (fl_extents f)) by (exact (extents_read tie h t recs HTR HT _ _ HX)).
  assert (S3 : Forall (fun x => 0 <= ex_block x < 2 ^ 52) (fl_extents f)).
  { destruct HX as (_ & _ & HX). assert (B : Forall (fun x => 0 <= ex_block x /\ 0 <= ex_crypto x) (fl_extents f)) by (eapply forall2_right; [exact HX|]; intros; eapply extent_rec_bounds; eauto).
    clear - B HXB. induction B as [|x y Hx B IH]; [constructor|]. pose proof (Forall_inv HXB) as HX0. cbn beta in HX0, Hx. constructor; [cbn beta; lia|apply IH, (Forall_inv_tail HXB)]. }
  assert (AS : forall s a v, attr_named s l = Some a -> attr_holds block recs a v ->
     attr_size a = len v /\ len v < 2 ^ 43 /\ exists s, attr_stream e a = Ok (Some s) /\ agrees s v).
  { intros s a v NA HH. apply named_in in NA. destruct (HR _ NA) as (ra & RA). cbn [fst] in RA.
    destruct (attr_stream_ok tie h t recs HTR HT dev ctx block HV id i rec ra a v RA HH) as (Z1 & Z2). split; [exact Z1|]. split; [eapply attr_len; eauto|exact Z2]. }
  assert (PK : forall s v method, agrees s v ->
    (forall ops, Forall (fun op => 0 <= fst op) ops -> fst (file_reads (decompress_data lzvn method) junk method (mem v) (len (fl_data f)) ch_init ops) = map (read_slice (fl_data f)) ops) ->
    reads_packed lzvn junk (fl_data f) method (mk_src (st_size s) (DataRead.stream_read s))).
  { intros s v method (G1 & G2) H ops Hops. rewrite (file_reads_ext _ (mem v)); [apply H, Hops|exact G1|exact G2]. }
  assert (S4 : match fa_link A with
    | None => fl_link f = None
    | Some x => exists w s, fl_link f = Some w /\ attr_size x = len w /\ 1 <= len w <= 2 ^ 27 /\ attr_stream e x = Ok (Some s) /\ agrees s w
    end).
  { unfold link_is in HK. change (fa_link A) with (attr_named symlink_name l). destruct (attr_named symlink_name l) as [a|] eqn:NA; [|exact HK].
    destruct HK as (w & -> & HH & HL). destruct (AS _ _ _ NA HH) as (Z1 & _ & s & Z2 & Z3). eauto 8. }
  destruct HD as [(HC & HZ & HS)|HP].
  - assert (LD : len (fl_data f) < 2 ^ 63) by (destruct HS as (? & ? & _ & _ & ? & _); lia).
    exists None. split; [constructor|exact HN]; try assumption.
    + change (fa_comp A) with (attr_named decmpfs_name l). destruct HC as [->|(a & v & NA & HH & B & L & N)]; [reflexivity|]. rewrite NA.
      destruct (AS _ _ _ NA HH) as (_ & Z0 & s & Z1 & Z2). rewrite Z1. cbn [bind]. rewrite (read_all_ok s v 0 16 Z2) by lia. cbn [bind]. apply header_none; assumption.
    + exact (stream_ok tie h t recs HTR HT dev ctx block HV (in_stream i) (fl_extents f) _ (fl_data f) HX HS).
  - assert (HDR : forall a m rest, attr_named decmpfs_name l = Some a -> attr_holds block recs a (inline_data m (len (fl_data f)) rest) -> 0 <= m < 2 ^ 32 -> len (fl_data f) < 2 ^ 63 ->
      match fa_comp A with
      | None => Some (m, len (fl_data f)) = None
      | Some x => (let! s := attr_stream e x in let! d := read_all s 0 16 in read_compressed_header d) = Ok (Some (m, len (fl_data f)))
      end).
    { intros a m rest NA HH Hm HL. change (fa_comp A) with (attr_named decmpfs_name l). rewrite NA. destruct (AS _ _ _ NA HH) as (_ & Z0 & s & Z1 & Z2). rewrite Z1. cbn [bind].
      destruct (inline_layout m (len (fl_data f)) rest) as (_ & L & _). pose proof (len_nonneg rest). pose proof (len_nonneg (fl_data f)).
      rewrite (read_all_ok s _ 0 16 Z2) by lia. cbn [bind]. apply header_ok; lia. }
    revert HDR PK. destruct f as [data exts na lk]. cbn [fl_data fl_extents fl_link] in *. intros HDR PK.
    destruct HP as [a m comp data NA HH Bc Lc Ld M|a x rest hdr dsize comps rmap bs NA NF HH HHF Bh Lh Bcs Br Lcs Fcs Lt Lf FB F2 RM|a x rest comps bs NA NF HH HHF Bcs Lcs Fcs Lf FB F2].
    + exists (Some (m, len data)). split; [constructor|exact HN]; try assumption; try reflexivity; try lia.
      * eapply HDR; eauto; destruct M as [(-> & _)|(-> & _)]; lia.
      * destruct (AS _ _ _ NA HH) as (_ & _ & s & Z1 & Z2). destruct M as [(-> & M)|(-> & M)].
        -- exists METHOD_DEFLATE, a, s. split; [reflexivity|]. split; [exact NA|]. split; [exact Z1|]. eapply PK; [exact Z2|].
           intros ops Hops. apply inline_file; auto.
        -- exists METHOD_LZVN, a, s. split; [reflexivity|]. split; [exact NA|]. split; [exact Z1|]. eapply PK; [exact Z2|].
           intros ops Hops. apply inline_file; auto.
    + assert (LD : len (concat bs) < 2 ^ 63).
      { pose proof (blocks_size bs 8159 FB) as X. pose proof (forall2_len _ _ _ F2). lia. }
      exists (Some (4, len (concat bs))). split; [constructor|exact HN]; try assumption; try reflexivity.
      * eapply HDR; eauto; lia.
      * destruct (AS _ _ _ NF HHF) as (_ & _ & s & Z1 & Z2). exists METHOD_DEFLATE, x, s. split; [reflexivity|]. split; [exact NF|]. split; [exact Z1|].
        eapply PK; [exact Z2|]. intros ops Hops. apply deflate_file; auto.
    + assert (LD : len (concat bs) < 2 ^ 63).
      { pose proof (blocks_size bs 16383 FB) as X. pose proof (forall2_len _ _ _ F2). lia. }
      exists (Some (8, len (concat bs))). split; [constructor|exact HN]; try assumption; try reflexivity.
      * eapply HDR; eauto; lia.
      * destruct (AS _ _ _ NF HHF) as (_ & _ & s & Z1 & Z2). exists METHOD_LZVN, x, s. split; [reflexivity|]. split; [exact NF|]. split; [exact Z1|].
        eapply PK; [exact Z2|]. intros ops Hops. apply lzvn_file; auto.
Qed.
Theorem file_entry_follows (tie : list Z -> list Z -> Prop) h t recs dev ctx block lzvn junk id i rec r l f :
  (forall a b c, tie a b -> tie b c -> tie a c) -> fs_tree tie h t recs -> 0 <= id < 2 ^ 60 -> In r recs -> has 3 id r = true ->
  volume_data dev ctx block -> (forall d s, len (junk d s) = len s) -> is_file lzvn block recs id i l f ->
  exists I, follows lzvn junk (mk_fe t dev ctx id i rec) (mk_fa (map fst l) (attr_named decmpfs_name l) (attr_named fork_name l) (attr_named symlink_name l)) f I.
Proof.
  intros H1 H2 H3 H4 H5 H6 H7 H8. destruct (file_entry_facts tie h t recs dev ctx block lzvn junk id i rec r l f H1 H2 H3 H4 H5 H6 H7 H8) as (hdr & FF & N).
  destruct (facts_follow _ _ _ _ _ _ _ _ FF) as (I & HI). exists I. cbn [fa_all] in HI. rewrite OmapTop.len_map, <- N in HI. destruct f; exact HI.
Qed.
Theorem file_entry_ok (tie : list Z -> list Z -> Prop) h t recs dev ctx block lzvn junk id i rec r l f cs :
  (forall a b c, tie a b -> tie b c -> tie a c) -> fs_tree tie h t recs -> 0 <= id < 2 ^ 60 -> In r recs -> has 3 id r = true ->
  volume_data dev ctx block -> (forall d s, len (junk d s) = len s) -> is_file lzvn block recs id i l f ->
  exists st, entry_calls lzvn junk (mk_fe t dev ctx id i rec) cs f_init = Ok (file_steps f 0 cs, st) /\
    exists st', get_attrs (mk_fe t dev ctx id i rec) st = (Ok (mk_fa (map fst l) (attr_named decmpfs_name l) (attr_named fork_name l) (attr_named symlink_name l)), st').
Proof.
  intros H1 H2 H3 H4 H5 H6 H7 H8. destruct (file_entry_follows tie h t recs dev ctx block lzvn junk id i rec r l f H1 H2 H3 H4 H5 H6 H7 H8) as (I & HI).
  destruct (steps_ok _ _ _ _ _ _ HI cs f_init 0 (proj1 HI)) as (st & pos & E & I'). exists st. split; [exact E|]. exact (proj2 (proj2 (proj2 HI)) st pos I').
Qed.
