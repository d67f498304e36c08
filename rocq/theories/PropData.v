(* C33-C35, C60: reading the data of files. *)
From Coq Require Import Lia.
From Verif Require Import Base BaseLemmas BTreeProofs BTreeSpec Walk Omap OmapSpec OmapProofs FsTree FsSpec PropFs Crypt CryptSpec CryptProofs DataRead DataSpec DataProofs DataSplit.
Ltac Zify.zify_post_hook ::= Z.div_mod_to_equations.

(* ---- C33 ---- *)
(* The extents cover the file from its start: reading gives its bytes, holes as zeros, cut at
   the size of the file. Files are of less than 2^43 bytes, on devices of up to 2^51 blocks. *)
Theorem C33_read_window_partial : forall img sparse l content size off n,
  contiguous 0 l -> total l < 2 ^ 43 -> Forall (fun e => 0 <= ex_block e /\ ex_block e + ex_size e / 4096 <= 2 ^ 51) l ->
  content_of (plain_block img) sparse l content -> size <= total l -> 0 <= off -> 0 <= n <= 2 ^ 63 - 1 ->
  exists s, stream_of_extents img None l size sparse = Ok s /\ st_size s = size /\ stream_read s off n = Ok (window content off (Z.min n (size - off))).
Proof.
  intros img sparse l content size off n HC HT HR HD Hs Ho Hn. apply (stream_read_ok img None (plain_block img)); try assumption.
  intros e k d I Hk B. rewrite Forall_forall in HR. apply plain_read; [apply (HR e I)|lia|exact B].
Qed.
Print Assumptions C33_read_window_partial.
(* with the extents as found in the file system tree *)
Theorem C33_read_from_tree_partial : forall (tie : list Z -> list Z -> Prop) h t recs id img sparse content size off n,
  (forall a b c, tie a b -> tie b c -> tie a c) -> fs_tree tie h t recs -> 0 <= id < 2 ^ 60 -> h = O \/ not_below 8 id recs ->
  (forall r, In r recs -> has 8 id r = true -> exists e, extent_rec id r e) ->
  (forall l, Forall2 (extent_rec id) (filter (has 8 id) recs) l ->
    contiguous 0 l /\ size <= total l < 2 ^ 43 /\ Forall (fun e => ex_block e + ex_size e / 4096 <= 2 ^ 51) l /\ content_of (plain_block img) sparse l content) ->
  0 <= off -> 0 <= n <= 2 ^ 63 - 1 ->
  exists l s, fs_extents t id = Ok l /\ stream_of_extents img None l size sparse = Ok s /\ stream_read s off n = Ok (window content off (Z.min n (size - off))).
Proof.
  intros tie h t recs id img sparse content size off n H1 H2 H3 H4 H5 HL Ho Hn.
  destruct (C20_extent_enumeration_partial tie h t recs id H1 H2 H3 H5 H4) as (l & E & F & _). destruct (HL l F) as (HC & HT & HR & HD).
  assert (R : Forall (fun e => 0 <= ex_block e /\ ex_block e + ex_size e / 4096 <= 2 ^ 51) l).
  { apply Forall_forall. intros e He. rewrite Forall_forall in HR. split; [|apply HR; exact He]. apply in_split in He. destruct He as (l1 & l2 & El). rewrite El in F.
    apply Forall2_app_inv_r in F. destruct F as (a & b & _ & F & _). inversion F as [|r ? ? ? X _]; subst. destruct X as (f & _ & _ & _ & _ & _ & X & _). lia. }
  destruct (C33_read_window_partial img sparse l content size off n HC ltac:(lia) R HD ltac:(lia) Ho Hn) as (s & S1 & _ & S2). exists l, s. auto.
Qed.
Print Assumptions C33_read_from_tree_partial.

(* a file of three extents, the second a hole, on a small device *)
Fixpoint ramp (n : nat) (k : Z) : list Z := match n with O => [] | S n => Z.land k 127 :: ramp n (k + 1) end.
Definition block_a : list Z := ramp (Z.to_nat 4096) 5.
Definition block_b : list Z := ramp (Z.to_nat 4096) 11.
Lemma ramp_len n : forall k, length (ramp n k) = n.
Proof. induction n as [|n IH]; intros k; cbn [ramp length]; [reflexivity|]. rewrite IH. reflexivity. Qed.
Lemma ramp_bytes n : forall k, bytes (ramp n k).
Proof. induction n as [|n IH]; intros k; cbn [ramp]; [constructor|]. constructor; [|apply IH]. unfold is_byte. change 127 with (Z.ones 7). rewrite Z.land_ones by lia. change (2 ^ 7) with 128. lia. Qed.
Definition file_content (o : Z) : Z := if (4096 <=? o) && (o <? 12288) then 0 else nth (Z.to_nat (o mod 4096)) (if o <? 4096 then block_a else block_b) 0.
Lemma window_nth (c : Z -> Z) o blk : (forall j, (j < length blk)%nat -> c (o + Z.of_nat j) = nth j blk 0) -> window c o (len blk) = blk.
Proof.
  intros H. unfold window, len. rewrite Nat2Z.id. apply (nth_ext _ _ 0 0); [rewrite map_length, seq_length; reflexivity|].
  intros j Hj. rewrite map_length, seq_length in Hj. rewrite (nth_indep _ 0 (c (o + Z.of_nat 0))) by (rewrite map_length, seq_length; exact Hj).
  rewrite (map_nth (fun j => c (o + Z.of_nat j))). rewrite seq_nth by exact Hj. apply H. exact Hj.
Qed.
Lemma block_len : len block_a = 4096 /\ len block_b = 4096.
Proof. unfold len, block_a, block_b. rewrite !ramp_len. rewrite Z2Nat.id by lia. split; reflexivity. Qed.
Lemma content_a : window file_content 0 4096 = block_a.
Proof.
  rewrite <- (proj1 block_len) at 1. apply window_nth. intros j Hj. pose proof (proj1 block_len) as L. unfold len in L. unfold file_content.
  replace ((4096 <=? 0 + Z.of_nat j) && (0 + Z.of_nat j <? 12288)) with false by lia. replace (0 + Z.of_nat j <? 4096) with true by lia. f_equal. lia.
Qed.
Lemma content_b : window file_content 12288 4096 = block_b.
Proof.
  rewrite <- (proj2 block_len) at 1. apply window_nth. intros j Hj. pose proof (proj2 block_len) as L. unfold len in L. unfold file_content.
  replace ((4096 <=? 12288 + Z.of_nat j) && (12288 + Z.of_nat j <? 12288)) with false by lia. replace (12288 + Z.of_nat j <? 4096) with false by lia. f_equal. lia.
Qed.
Definition content_to (n o : Z) : Z := if (0 <=? o) && (o <? n) then file_content o else 0.
Lemma content_window (c : Z -> Z) o : map (fun j => c (o + Z.of_nat j)) (seq 0 (Z.to_nat 4096)) = window c o 4096.
Proof. reflexivity. Qed.
Definition file_extents : list extent := [mk_ex 0 4096 900 0; mk_ex 4096 8192 0 0; mk_ex 12288 4096 901 0].
Definition file_dev : device := fun b => if b =? 900 then Some block_a else if b =? 901 then Some block_b else None.
Lemma file_ok : content_of (plain_block file_dev) true file_extents file_content.
Proof.
  intros e k He Hk. unfold file_extents in He. cbn [In] in He. destruct He as [He|[He|[He|[]]]]; subst e; cbn [ex_size ex_block ex_off] in *.
  - replace k with 0 by lia. rewrite content_window. cbn [ex_off andb Z.eqb]. change (0 + 4096 * 0) with 0. rewrite content_a. split; [reflexivity|exact (proj1 block_len)].
  - change (true && (0 =? 0)) with true. cbv iota. intros j Hj. unfold file_content. replace ((4096 <=? 4096 + 4096 * k + j) && (4096 + 4096 * k + j <? 12288)) with true by lia. reflexivity.
  - replace k with 0 by lia. rewrite content_window. cbn [ex_off andb Z.eqb]. change (12288 + 4096 * 0) with 12288. rewrite content_b. split; [reflexivity|exact (proj2 block_len)].
Qed.
Example C33_example : contiguous 0 file_extents /\ total file_extents = 16384 /\
  (let! s := stream_of_extents file_dev None file_extents 14000 true in
   let! a := stream_read s 4094 4 in let! b := stream_read s 13998 100 in let! c := stream_read s 14000 1 in Ok (a, b, c)) =
  Ok ([3; 4; 0; 0], [57; 58], []).
Proof.
  split; [|split; vm_compute; reflexivity]. cbn [contiguous file_extents ex_off ex_size]. split; [reflexivity|]. split; [reflexivity|]. split; [reflexivity|].
  split; [reflexivity|]. split; [reflexivity|]. split; [reflexivity|]. split; [reflexivity|]. split; [reflexivity|]. split; [reflexivity|exact I].
Qed.

(* A hole of a sparse file that has no extent of its own: the file cannot be read; one at the
   end is missing from the data. *)
Definition holes (sparse : bool) (l : list extent) (content : Z -> Z) : Prop :=
  sparse = true /\ forall o, (forall e, In e l -> ~ ex_off e <= o < ex_off e + ex_size e) -> content o = 0.
Theorem C33_unrecorded_hole_refuted : exists img l content size, content_of (plain_block img) true l content /\ holes true l content /\
  stream_of_extents img None l size true = Fail.
Proof.
  exists file_dev, [mk_ex 0 4096 900 0; mk_ex 12288 4096 901 0], (content_to 16384), 16384. split; [|split].
  - intros e k He Hk. cbn [In] in He. destruct He as [He|[He|[]]]; subst e; cbn [ex_size ex_block ex_off] in *; (replace k with 0 by lia); rewrite content_window; cbn [ex_off andb Z.eqb].
    + rewrite (window_ext _ file_content) by (intros j Hj; unfold content_to; replace ((0 <=? _) && (_ <? 16384)) with true by lia; reflexivity).
      change (0 + 4096 * 0) with 0. rewrite content_a. split; [reflexivity|exact (proj1 block_len)].
    + rewrite (window_ext _ file_content) by (intros j Hj; unfold content_to; replace ((0 <=? _) && (_ <? 16384)) with true by lia; reflexivity).
      change (12288 + 4096 * 0) with 12288. rewrite content_b. split; [reflexivity|exact (proj2 block_len)].
  - split; [reflexivity|]. intros o H. pose proof (H _ (or_introl eq_refl)) as A. pose proof (H _ (or_intror (or_introl eq_refl))) as B. cbn [ex_off ex_size] in *.
    unfold content_to. destruct ((0 <=? o) && (o <? 16384)) eqn:C; [|reflexivity]. unfold file_content. replace ((4096 <=? o) && (o <? 12288)) with true by lia. reflexivity.
  - vm_compute. reflexivity.
Qed.
Print Assumptions C33_unrecorded_hole_refuted.
Theorem C33_trailing_hole_refuted : exists img l content size s d, content_of (plain_block img) true l content /\ holes true l content /\ contiguous 0 l /\
  stream_of_extents img None l size true = Ok s /\ stream_read s 0 size = Ok d /\ len d < size /\ stream_read s (len d) 1 = Ok [].
Proof.
  exists file_dev, [mk_ex 0 4096 900 0], (content_to 4096), 5000.
  exists (mk_stream 5000 (handle_read file_dev None [mk_ex 0 4096 900 0] [mk_seg 0 3686400 4096 false])), block_a. split; [|split; [|split; [|split]]].
  - intros e k He Hk. cbn [In] in He. destruct He as [He|[]]; subst e; cbn [ex_size ex_block ex_off] in *; (replace k with 0 by lia); rewrite content_window; cbn [ex_off andb Z.eqb].
    rewrite (window_ext _ file_content) by (intros j Hj; unfold content_to; replace ((0 <=? _) && (_ <? 4096)) with true by lia; reflexivity).
    change (0 + 4096 * 0) with 0. rewrite content_a. split; [reflexivity|exact (proj1 block_len)].
  - split; [reflexivity|]. intros o H. pose proof (H _ (or_introl eq_refl)) as A. cbn [ex_off ex_size] in *. unfold content_to. replace ((0 <=? o) && (o <? 4096)) with false by lia. reflexivity.
  - cbn [contiguous ex_off ex_size]. split; [reflexivity|]. split; [reflexivity|]. split; [reflexivity|exact I].
  - reflexivity.
  - split; [vm_compute; reflexivity|]. split; [rewrite (proj1 block_len); reflexivity|]. vm_compute. reflexivity.
Qed.
Print Assumptions C33_trailing_hole_refuted.

(* ---- C34 ---- *)
(* Any sequence of reads gives the bytes of one read: for any device, any key and any extents
   of whole blocks, well formed or not, and for data stored in a record. *)
Theorem C34_split_reads_partial : forall img ctx l size sparse s, stream_of_extents img ctx l size sparse = Ok s -> 0 <= size < 2 ^ 63 ->
  (forall segs, segments sparse 0 0 l = Ok segs -> vector_size segs mod 4096 = 0 \/ size <= vector_size segs) ->
  forall ns cur d, 0 <= cur -> Forall (fun n => 0 <= n) ns -> fold_right Z.add 0 ns <= 2 ^ 63 - 1 ->
  stream_read s cur (fold_right Z.add 0 ns) = Ok d ->
  exists ds, calls s cur (map Read ns) = Ok (map Bytes ds, cur + len d) /\ concat ds = d /\ Forall2 (fun n x => len x <= n) ns ds.
Proof. intros img ctx l size sparse s H Hs HV. apply reads_split; [eapply extents_split; eauto|eapply extents_bounded; eauto]. Qed.
Print Assumptions C34_split_reads_partial.
Theorem C34_split_buffer : forall data, len data < 2 ^ 63 ->
  forall ns cur d, 0 <= cur -> Forall (fun n => 0 <= n) ns -> fold_right Z.add 0 ns <= 2 ^ 63 - 1 ->
  stream_read (stream_of_data data) cur (fold_right Z.add 0 ns) = Ok d ->
  exists ds, calls (stream_of_data data) cur (map Read ns) = Ok (map Bytes ds, cur + len d) /\ concat ds = d /\ Forall2 (fun n x => len x <= n) ns ds.
Proof. intros data HL. apply reads_split; apply data_split; exact HL. Qed.
Print Assumptions C34_split_buffer.
(* never more than requested, never more than remain *)
Theorem C34_read_bounded : forall img ctx l size sparse s off n d, stream_of_extents img ctx l size sparse = Ok s -> stream_read s off n = Ok d ->
  len d <= n /\ len d <= Z.max 0 (size - off).
Proof.
  intros img ctx l size sparse s off n d H E. pose proof (extents_bounded _ _ _ _ _ _ H off n d E) as X.
  unfold stream_of_extents in H. apply bind_ok in H. destruct H as (segs & _ & H). apply Ok_eq in H. subst s. exact X.
Qed.
Print Assumptions C34_read_bounded.
(* Extents of broken blocks that end before the file: reading at once gives bytes that reading in
   pieces does not. *)
Theorem C34_broken_block_refuted : exists img l size s n1 n2 d a, stream_of_extents img None l size false = Ok s /\
  stream_read s 0 (n1 + n2) = Ok d /\ len d = n1 + n2 /\ calls s 0 [Read n1; Read n2] = Ok ([Bytes a; Bytes []], n1) /\ len a = n1 /\ 0 < n2.
Proof.
  exists (fun b => if (b =? 900) || (b =? 901) then Some block_a else None), [mk_ex 0 5000 900 0], 8192.
  eexists. exists 5000, 3192, (block_a ++ block_a), (block_a ++ slice block_a 0 904). split; [reflexivity|]. split; [vm_compute; reflexivity|]. split; [vm_compute; reflexivity|].
  split; [vm_compute; reflexivity|]. split; vm_compute; reflexivity.
Qed.
Print Assumptions C34_broken_block_refuted.
Example C34_example : (let! s := stream_of_extents file_dev None file_extents 14000 true in
   let! (r, cur) := calls s 4090 (map Read [3; 5000; 0; 6000]) in Ok (map (fun a => match a with Bytes d => len d | _ => -1 end) r, cur)) = Ok ([3; 5000; 0; 4907], 14000).
Proof. vm_compute. reflexivity. Qed.

(* ---- C35 ---- *)
(* Encrypted files: for every cipher. *)
Theorem C35_encrypted_read_partial : forall enc dec, unit_cipher 512 enc dec -> forall img sparse l content size off n,
  contiguous 0 l -> total l < 2 ^ 43 -> Forall (fun e => 0 <= ex_block e /\ ex_block e + ex_size e / 4096 <= 2 ^ 51) l ->
  Forall (fun e => 0 <= ex_crypto e /\ ex_crypto e + ex_size e / 4096 <= 2 ^ 52) l ->
  content_of (encrypted_block enc img) sparse l content -> size <= total l -> 0 <= off -> 0 <= n <= 2 ^ 63 - 1 ->
  exists s, stream_of_extents img (Some dec) l size sparse = Ok s /\ st_size s = size /\ stream_read s off n = Ok (window content off (Z.min n (size - off))).
Proof.
  intros enc dec HE img sparse l content size off n HC HT HR HX HD Hs Ho Hn. apply (stream_read_ok img (Some dec) (encrypted_block enc img)); try assumption.
  intros e k d I Hk B. rewrite Forall_forall in HR, HX. pose proof (HR e I). pose proof (HX e I). apply (encrypted_read enc); try assumption; lia.
Qed.
Print Assumptions C35_encrypted_read_partial.
(* the sector numbers, for every extent *)
Theorem C35_sector_numbers_partial : forall img xts sparse l segs i e k, segments sparse 0 0 l = Ok segs -> contiguous 0 l -> total l < 2 ^ 43 ->
  Forall (fun e => 0 <= ex_block e /\ ex_block e + ex_size e / 4096 <= 2 ^ 51) l -> In e l -> sparse && (ex_block e =? 0) = false ->
  0 <= ex_crypto e -> 0 <= k < ex_size e / 4096 -> ex_crypto e + k < 2 ^ 52 -> ex_off e + 4096 * k = 4096 * i ->
  read_data_block img (Some xts) l segs i = let! d := read_bytes img ((ex_block e + k) * 4096) 4096 in crypt xts true d (zeros 4096) (8 * (ex_crypto e + k)) 512.
Proof.
  intros img xts sparse l segs i e k ES HC HT HR He HH Hc Hk Hx Hi. rewrite segments_ok in ES by (assumption || lia). apply Ok_eq in ES. subst segs.
  assert (G : forall l o, contiguous o l -> forall e, In e l -> o <= ex_off e /\ ex_off e + ex_size e <= o + total l).
  { clear. induction l as [|x l IH]; intros o H e He; [contradiction|]. change (total (x :: l)) with (ex_size x + total l). cbn [contiguous] in H. destruct H as (H1 & H2 & H3 & H4).
    pose proof (total_nonneg _ _ H4). destruct He as [->|He]; [lia|]. specialize (IH _ H4 e He). lia. }
  assert (U : forall l o, contiguous o l -> forall e e' x, In e l -> In e' l -> ex_off e <= x < ex_off e + ex_size e -> ex_off e' <= x < ex_off e' + ex_size e' -> e = e').
  { clear - G. induction l as [|y l IH]; intros o H e e' x He He' Hx Hx'; [contradiction|]. cbn [contiguous] in H. destruct H as (H1 & H2 & H3 & H4).
    destruct He as [<-|He], He' as [<-|He']; [reflexivity| | |eapply IH; eauto].
    - pose proof (G _ _ H4 e' He'). lia.
    - pose proof (G _ _ H4 e He). lia. }
  pose proof (G l 0 HC e He) as B. unfold read_data_block. destruct (find_of sparse l 0 0 (i * 4096) HC eq_refl ltac:(lia)) as (j & e' & so & N & Hs & E & M & M2 & ->).
  pose proof (nth_error_In _ _ N) as I'. assert (e' = e) by (apply (U l 0 HC e' e (i * 4096)); try assumption; lia). subst e'.
  cbn [seg_of sg_sparse sg_off sg_index]. rewrite HH. rewrite Forall_forall in HR. pose proof (HR e He) as (R1 & R2).
  replace (ex_block e * 4096 + so <? 2 ^ 63) with true by lia. cbn [check bind].
  assert (GB : getb l (0 + Z.of_nat j) = Ok e).
  { pose proof (nth_error_Some l j) as X. rewrite N in X. assert ((j < length l)%nat) by (apply X; discriminate). unfold getb, len.
    replace ((0 <=? 0 + Z.of_nat j) && (0 + Z.of_nat j <? Z.of_nat (length l))) with true by lia. rewrite Z.add_0_l, Nat2Z.id, N. reflexivity. }
  rewrite GB. cbn [bind]. assert (so = k * 4096) by lia. subst so. replace ((ex_block e * 4096 + k * 4096) / 4096 - ex_block e) with k by lia.
  unfold data_block_read. replace (ex_block e * 4096 + k * 4096) with ((ex_block e + k) * 4096) by lia. destruct (read_bytes img ((ex_block e + k) * 4096) 4096); try reflexivity. cbn [bind].
  unfold w64. rewrite (Z.mod_small (ex_crypto e + k)), (Z.mod_small ((ex_crypto e + k) * 4096)) by lia. f_equal. lia.
Qed.
Print Assumptions C35_sector_numbers_partial.
(* a cipher that adds the number of the sector to every byte *)
Definition shift_enc (t s : list Z) : list Z := let k := (le_val t / 2 ^ 52 + le_val t) mod 256 in map (fun b => (b + k) mod 256) s.
Definition shift_dec (t s : list Z) : list Z := let k := (le_val t / 2 ^ 52 + le_val t) mod 256 in map (fun b => (b - k) mod 256) s.
Lemma shift_cipher : unit_cipher 512 shift_enc shift_dec.
Proof.
  assert (LM : forall (f : Z -> Z) s, len (map f s) = len s) by (intros f s; unfold len; rewrite map_length; reflexivity).
  assert (BM : forall (k : Z -> Z) s, bytes (map (fun b => k b mod 256) s)).
  { intros k s. apply Forall_forall. intros x Hx. apply in_map_iff in Hx. destruct Hx as (y & <- & _). unfold is_byte. lia. }
  intros m s B L. unfold shift_enc, shift_dec. cbv zeta. rewrite !LM. split; [split; [apply BM|exact L]|]. split; [split; [apply BM|exact L]|].
  rewrite map_map. clear L LM BM. induction s as [|x s IH]; [reflexivity|]. cbn [map]. pose proof (Forall_inv B) as X. f_equal; [|apply IH; exact (Forall_inv_tail B)].
  unfold is_byte in X. generalize ((le_val (data_unit m) / 2 ^ 52 + le_val (data_unit m)) mod 256). intros a. lia.
Qed.
Definition sectors_a : list (list Z) := map (fun j => slice block_a (512 * Z.of_nat j) 512) (seq 0 8).
Definition enc_dev (x : Z) : device := fun b => if b =? 900 then Some (concat (enc_sectors (fun n => shift_enc (data_unit n)) (8 * x) sectors_a)) else None.
Lemma enc_dev_ok x : content_of (encrypted_block shift_enc (enc_dev x)) false [mk_ex 0 4096 900 x] file_content.
Proof.
  intros e k He Hk. cbn [In] in He. destruct He as [<-|[]]. cbn [ex_size ex_block ex_off ex_crypto] in *. replace k with 0 by lia. cbn [andb].
  rewrite content_window. cbn [ex_off andb Z.eqb]. change (0 + 4096 * 0) with 0. rewrite content_a. exists sectors_a. split; [vm_compute; reflexivity|]. split; [reflexivity|]. split.
  - apply Forall_forall. intros s Hs. unfold sectors_a in Hs. apply in_map_iff in Hs. destruct Hs as (j & <- & Hj). apply in_seq in Hj. split; [apply bytes_slice, ramp_bytes|].
    apply len_slice; [lia|lia|]. rewrite (proj1 block_len). lia.
  - cbn [ex_block ex_crypto]. rewrite !Z.add_0_r. reflexivity.
Qed.
Example C35_example : (let! s := stream_of_extents (enc_dev 77) (Some shift_dec) [mk_ex 0 4096 900 77] 4096 false in stream_read s 510 5) = Ok (slice block_a 510 5) /\
  enc_dev 77 900 <> Some block_a.
Proof. split; [vm_compute; reflexivity|]. intros H. assert (X : match enc_dev 77 900 with Some d => slice d 510 5 | None => [] end = slice block_a 510 5) by (rewrite H; reflexivity). vm_compute in X. discriminate. Qed.
(* Encryption identifiers of 2^52 and more: the sector number is cut to 64 bits before the
   division, the data is not what was encrypted. *)
Theorem C35_large_identifier_refuted : exists enc dec img l content d s, unit_cipher 512 enc dec /\ contiguous 0 l /\
  Forall (fun e => 0 <= ex_crypto e < 2 ^ 64) l /\ content_of (encrypted_block enc img) false l content /\
  stream_of_extents img (Some dec) l 4096 false = Ok s /\ stream_read s 0 4 = Ok d /\ d <> window content 0 4.
Proof.
  exists shift_enc, shift_dec, (enc_dev (2 ^ 52)), [mk_ex 0 4096 900 (2 ^ 52)], file_content. eexists. eexists. split; [exact shift_cipher|].
  split; [cbn [contiguous ex_off ex_size]; split; [reflexivity|]; split; [reflexivity|]; split; [reflexivity|exact I]|].
  split; [apply Forall_cons; [cbn [ex_crypto]; lia|constructor]|]. split; [apply enc_dev_ok|]. split; [reflexivity|]. split; [vm_compute; reflexivity|]. vm_compute. discriminate.
Qed.
Print Assumptions C35_large_identifier_refuted.

(* ---- C60 ---- *)
(* Any extents at all, any device of bytes, any cipher that keeps the length of a sector. *)
Definition keeps_length (ctx : option (list Z -> list Z -> list Z)) : Prop :=
  match ctx with None => True | Some xts => forall t s, bytes s -> len s = 512 -> len (xts t s) = 512 end.
Lemma read_bytes_fine img off n : 0 <= n -> fine (read_bytes img off n).
Proof.
  intros Hn. unfold read_bytes. cbv zeta. apply fine_bind; [apply read_block_fine|]. intros d Hd. apply fine_bind; [apply fine_check|]. intros u C. apply check_ok in C.
  apply fine_bind; [apply fine_rd; lia|]. intros x E. apply rd_ok in E. destruct E as (H1 & H2 & H3 & ->). rewrite len_slice by lia. destruct (_ =? n); [exact I|]. apply fine_bind; [apply fine_check|]. intros u1 _.
  apply fine_bind; [apply read_block_fine|]. intros d2 _. apply fine_bind; [apply fine_check|]. intros u2 C2. apply check_ok in C2. apply fine_bind; [|intros; exact I].
  apply fine_rd; lia.
Qed.
Lemma read_bytes_bytes img off n d : bytes_image img -> read_bytes img off n = Ok d -> bytes d.
Proof.
  intros HB H. unfold read_bytes in H. cbv zeta in H. apply bind_ok in H. destruct H as (b & E & H). unfold read_block in E. destruct (img (off / 4096)) eqn:I1; [|discriminate]. apply Ok_eq in E. subst l.
  apply HB in I1. apply bind_ok in H. destruct H as (u & C & H). apply check_ok in C.
  apply bind_ok in H. destruct H as (x & E & H). apply rd_ok in E. destruct E as (_ & _ & _ & Ex). destruct (len x =? n); [apply Ok_eq in H; subst; apply bytes_slice; exact I1|].
  apply bind_ok in H. destruct H as (u1 & _ & H). apply bind_ok in H. destruct H as (d2 & E & H). unfold read_block in E. destruct (img (off / 4096 + 1)) eqn:I2; [|discriminate]. apply Ok_eq in E. subst l.
  apply HB in I2. apply bind_ok in H. destruct H as (u2 & _ & H).
  apply bind_ok in H. destruct H as (y & E2 & H). apply Ok_eq in H. subst d. apply rd_ok in E2. destruct E2 as (_ & _ & _ & E2). subst y x. apply bytes_app. split; apply bytes_slice; assumption.
Qed.
Lemma segments_fine sparse : forall l index logical, fine (segments sparse index logical l).
Proof.
  induction l as [|e l IH]; intros index logical; cbn [segments]; [exact I|]. cbv zeta. apply fine_bind; [apply fine_check|]. intros _ _.
  apply fine_bind; [apply fine_check|]. intros _ _. apply fine_bind; [apply IH|]. intros; exact I.
Qed.
Lemma segments_index sparse : forall l index logical segs, segments sparse index logical l = Ok segs -> Forall (fun s => index <= sg_index s < index + len l) segs.
Proof.
  induction l as [|e l IH]; intros index logical segs; cbn [segments]; intros H; [apply Ok_eq in H; subst; constructor|]. cbv zeta in H.
  apply bind_ok in H. destruct H as (u & _ & H). apply bind_ok in H. destruct H as (u1 & _ & H). apply bind_ok in H. destruct H as (r & E & H). apply Ok_eq in H. subst segs.
  apply IH in E. pose proof (len_nonneg l). constructor; [cbn [sg_index]; rewrite len_cons; lia|]. eapply Forall_impl; [|exact E]. intros s. cbn beta. rewrite len_cons. lia.
Qed.
Lemma find_in : forall l o s so, find_segment l o = Some (s, so) -> In s l.
Proof. induction l as [|x l IH]; intros o s so; cbn [find_segment]; [discriminate|]. destruct (o <? sg_size x); intros H; [injection H as -> _; left; reflexivity|right; eapply IH; exact H]. Qed.
Lemma data_block_fine img ctx extents segs i : bytes_image img -> keeps_length ctx -> Forall (fun s => 0 <= sg_index s < 0 + len extents) segs -> fine (read_data_block img ctx extents segs i).
Proof.
  intros HB HK HS. unfold read_data_block. destruct (find_segment segs (i * 4096)) as [(s, so)|] eqn:F; [|exact I]. destruct (sg_sparse s); [exact I|]. cbv zeta.
  apply fine_bind; [apply fine_check|]. intros _ _. apply find_in in F. rewrite Forall_forall in HS. specialize (HS s F). destruct (getb_in extents (sg_index s)) as (e & EG & _); [lia|]. rewrite EG. clear EG. cbn [bind].
  unfold data_block_read. apply fine_bind; [apply read_bytes_fine; lia|]. intros d E. assert (L : len d = 4096) by (apply (read_bytes_len img _ 4096) in E; [exact E|lia]). pose proof (read_bytes_bytes _ _ _ _ HB E) as Bd.
  destruct ctx as [xts|]; [|exact I]. unfold crypt. cbn [check bind]. rewrite zeros_len by lia. replace (len d <=? 4096) with true by lia. cbn [check bind].
  edestruct (crypt_loop_fine xts 512) as (o & -> & _); [lia|intros; apply HK; assumption|exact Bd|rewrite L; reflexivity|lia|reflexivity|unfold len; lia|rewrite zeros_len by lia; lia|exact I].
Qed.
Theorem C60_read_any_extents : forall img ctx l size sparse, bytes_image img -> keeps_length ctx ->
  fine (stream_of_extents img ctx l size sparse) /\
  forall s off n, stream_of_extents img ctx l size sparse = Ok s -> fine (stream_read s off n).
Proof.
  intros img ctx l size sparse HB HK. split; [apply fine_bind; [apply segments_fine|intros; exact I]|]. intros s off n H.
  unfold stream_of_extents in H. apply bind_ok in H. destruct H as (segs & E & H). apply Ok_eq in H. subst s. apply segments_index in E.
  unfold stream_read. apply fine_bind; [apply fine_check|]. intros u C. apply check_ok in C. cbn [st_size st_read]. destruct (size <=? off) eqn:CS; [exact I|].
  unfold handle_read. apply fine_bind; [apply fine_check|]. intros u2 C2. destruct (vector_size segs <=? off); [exact I|].
  assert (G : forall f cur m, enough f cur m -> fine (read_loop img ctx l segs f cur m)).
  { induction f as [|f IH]; intros cur m Hf; unfold enough in Hf; (destruct (Z.le_gt_cases m 0) as [M|M]; [rewrite loop_stop by lia; exact I|]); [lia|].
    rewrite loop_round by lia. unfold round. apply fine_bind; [apply fine_check|]. intros _ _. apply fine_bind; [apply data_block_fine; assumption|]. intros b _. cbv zeta.
    destruct (vector_size segs <=? _); [exact I|]. apply fine_bind; [apply IH; unfold enough; lia|]. intros; exact I. }
  apply G. unfold enough. lia.
Qed.
Print Assumptions C60_read_any_extents.
Theorem C60_calls_any_extents : forall img ctx l size sparse s cur cs, bytes_image img -> keeps_length ctx -> stream_of_extents img ctx l size sparse = Ok s ->
  exists r, calls s cur cs = Ok r.
Proof.
  intros img ctx l size sparse s cur cs HB HK H. pose proof (proj2 (C60_read_any_extents img ctx l size sparse HB HK) s) as R. revert cur. induction cs as [|c cs IH]; intros cur; [eexists; reflexivity|].
  cbn [calls]. assert (X : exists a, call_step s cur c = Ok a).
  { unfold call_step. cbv zeta. destruct c as [n|o n|o w|].
    - pose proof (R cur n H) as F. destruct (stream_read s cur n); cbn in F; try contradiction; eexists; reflexivity.
    - destruct (o <? 0); [eexists; reflexivity|]. pose proof (R o n H) as F. destruct (stream_read s o n); cbn in F; try contradiction; eexists; reflexivity.
    - repeat match goal with |- context [if ?b then _ else _] => destruct b end; eexists; reflexivity.
    - eexists; reflexivity. }
  destruct X as ((a, cur2) & ->). cbn [bind]. destruct (IH cur2) as ((r, c2) & ->). cbn [bind]. eexists. reflexivity.
Qed.
Print Assumptions C60_calls_any_extents.
(* extents that overlap, wrap, lie out of order or off the device *)
Example C60_example : (let! s := stream_of_extents file_dev None [mk_ex 0 100 (2 ^ 51 - 1) 5; mk_ex 100 4096 900 (2 ^ 64 - 1)] 5000 false in
   let! (r, cur) := calls s 0 [Read 4096; Seek 4200 0; Read 10; ReadAt 4096 200; Offset] in Ok (map (fun a => match a with Bytes d => len d | Position o => o | Error => -1 end) r, cur)) =
   Ok ([-1; 4200; 0; 200; 4296], 4296).
Proof. vm_compute. reflexivity. Qed.
