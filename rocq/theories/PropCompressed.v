(* C11-C13: compressed files. *)
From Verif Require Import Base BaseLemmas Checksum ChecksumSpec Deflate DeflateSpec DeflateTop
  Compressed CompressedSpec CompressedProofs CompressedRead CompressedTop.

(* C11. The full statement is false: the table of a well-formed DEFLATE resource fork of
   8160 or more blocks (a file of 510 MiB) does not fit the 65537-byte buffer, and
   reading the file writes past it. *)
Theorem C11_compressed_read_slice_refuted : exists hdr dsize comps rmap bs,
  bytes hdr /\ len hdr = 252 /\ Forall bytes comps /\ bytes rmap /\
  Forall (fun c => len c <= 65537) comps /\ file_blocks bs /\ Forall2 deflate_stored comps bs /\
  forall lzvn junk off n, off < len (concat bs) ->
    fst (file_read (decompress_data lzvn METHOD_DEFLATE) junk METHOD_DEFLATE
           (mem (deflate_fork hdr dsize comps rmap)) (len (concat bs)) ch_init off n) = Oob.
Proof.
  set (b := repeat 65 (Z.to_nat 65536)). set (n := Z.to_nat 8160).
  assert (Lb : len b = 65536) by (unfold b, len; rewrite repeat_length; lia).
  assert (Bb : bytes b).
  { apply Forall_forall. intros x Hx. apply repeat_spec in Hx. subst. unfold is_byte. lia. }
  assert (Hn : n = S (Z.to_nat 8159)) by (unfold n; lia).
  exists (repeat 0 (Z.to_nat 252)), 0, (repeat (0xff :: b) n), [], (repeat b n).
  assert (bytes (repeat 0 (Z.to_nat 252))).
  { apply Forall_forall. intros x Hx. apply repeat_spec in Hx. subst. unfold is_byte. lia. }
  assert (len (repeat 0 (Z.to_nat 252)) = 252) by reflexivity.
  assert (Forall bytes (repeat (0xff :: b) n)).
  { apply Forall_forall. intros x Hx. apply repeat_spec in Hx. subst. constructor; auto. unfold is_byte. lia. }
  assert (bytes []) by constructor.
  split; [auto|]. split; [auto|]. split; [auto|]. split; [auto|]. split.
  { apply Forall_forall. intros x Hx. apply repeat_spec in Hx. subst. rewrite len_cons. lia. }
  split.
  { exists (repeat b (Z.to_nat 8159)), b. split.
    - rewrite Hn. apply (repeat_cons (Z.to_nat 8159) b).
    - split; [|lia]. apply Forall_forall. intros x Hx. apply repeat_spec in Hx. subst. auto. }
  split.
  { clear - b. clearbody n. induction n; cbn; constructor; auto. left. reflexivity. }
  intros lzvn junk off k Ho. apply large_fork; auto.
  unfold n, len. rewrite repeat_length. lia.
Qed.
Print Assumptions C11_compressed_read_slice_refuted.

(* What holds: DEFLATE forks of up to 8159 blocks, LZVN forks of up to 16383 blocks and
   data in the attribute; every history of reads. The last raw block must not be
   followed by a resource map. *)
Theorem C11_deflate_fork_read_slice_partial : forall lzvn junk hdr dsize comps rmap bs ops,
  (forall d s, len (junk d s) = len s) ->
  bytes hdr -> len hdr = 252 -> Forall bytes comps -> bytes rmap ->
  1 <= len comps <= 8159 -> Forall (fun c => len c <= 65537) comps ->
  len (last comps []) + len rmap <= 65537 -> len (deflate_fork hdr dsize comps rmap) < 2 ^ 32 ->
  file_blocks bs -> Forall2 deflate_stored comps bs ->
  (rmap = [] \/ zlib_stream has_distances (adler_ref 1 0) (last comps []) (last bs [])) ->
  Forall (fun op => 0 <= fst op) ops ->
  fst (file_reads (decompress_data lzvn METHOD_DEFLATE) junk METHOD_DEFLATE (mem (deflate_fork hdr dsize comps rmap))
         (len (concat bs)) ch_init ops) = map (read_slice (concat bs)) ops.
Proof. exact deflate_file. Qed.
Print Assumptions C11_deflate_fork_read_slice_partial.

Theorem C11_lzvn_fork_read_slice_partial : forall lzvn junk comps bs ops,
  (forall d s, len (junk d s) = len s) -> Forall bytes comps -> 1 <= len comps <= 16383 ->
  Forall (fun c => len c <= 65537) comps -> len (lzvn_fork comps) < 2 ^ 32 ->
  file_blocks bs -> Forall2 (lzvn_stored lzvn) comps bs ->
  Forall (fun op => 0 <= fst op) ops ->
  fst (file_reads (decompress_data lzvn METHOD_LZVN) junk METHOD_LZVN (mem (lzvn_fork comps))
         (len (concat bs)) ch_init ops) = map (read_slice (concat bs)) ops.
Proof. exact lzvn_file. Qed.
Print Assumptions C11_lzvn_fork_read_slice_partial.

Theorem C11_inline_read_slice_partial : forall lzvn junk method m size comp b ops,
  (forall d s, len (junk d s) = len s) -> method = METHOD_DEFLATE \/ method = METHOD_LZVN ->
  bytes comp -> len comp <= 65521 -> 1 <= len b <= 65536 ->
  (method = METHOD_DEFLATE /\ deflate_stored comp b \/ method = METHOD_LZVN /\ lzvn_stored lzvn comp b) ->
  Forall (fun op => 0 <= fst op) ops ->
  fst (file_reads (decompress_data lzvn method) junk method (mem (inline_data m size comp)) (len b) ch_init ops) =
  map (read_slice b) ops.
Proof. exact inline_file. Qed.
Print Assumptions C11_inline_read_slice_partial.

(* A fork of two blocks read backwards across the block boundary. *)
Definition C11_fork : list Z :=
  deflate_fork (zeros 252) 0 [0xff :: repeat 65 (Z.to_nat 65536); [0xff; 66; 67]] [].
Definition no_lzvn : list Z -> Z -> res (list Z) := fun _ _ => Fail.
Definition no_junk : list Z -> list Z -> list Z := fun _ s => s.
Example C11_example :
  fst (file_reads (decompress_data no_lzvn METHOD_DEFLATE) no_junk METHOD_DEFLATE (mem C11_fork) 65538 ch_init
         [(65537, 5); (65534, 4); (0, 2); (65536, 1); (70000, 3)]) =
  [Ok [67]; Ok [65; 65; 66; 67]; Ok [65; 65]; Ok [66]; Ok []].
Proof. vm_compute. reflexivity. Qed.
Example C11_inline_example :
  fst (file_reads (decompress_data no_lzvn METHOD_DEFLATE) no_junk METHOD_DEFLATE
         (mem (inline_data 3 1 [120; 156; 75; 4; 0; 0; 98; 0; 98])) 1 ch_init [(0, 10)]) = [Ok [97]].
Proof. vm_compute. reflexivity. Qed.

(* C12. The full statement is false: block 1 decompresses to one byte although more data
   follows; after its read failed, reading block 0, which was read before, gives the
   byte of block 1. *)
Definition C12_fork : list Z :=
  deflate_fork (zeros 252) 0 [0xff :: repeat 65 (Z.to_nat 65536); [0xff; 66]; [0xff; 67]] [].
Theorem C12_failed_read_no_corruption_refuted : exists C size off n good bad,
  forall lzvn junk, fst (file_reads (decompress_data lzvn METHOD_DEFLATE) junk METHOD_DEFLATE (mem C) size ch_init
      [(off, n); (65536, 1); (off, n)]) = [Ok good; Fail; Ok bad] /\ good <> bad.
Proof.
  exists C12_fork, 131073, 0, 1, [65], [66]. intros. split; [vm_compute; reflexivity|congruence].
Qed.
Print Assumptions C12_failed_read_no_corruption_refuted.

(* What holds: with any number of damaged blocks, every read gives the bytes of the file
   or an error (exactly when it touches a damaged block), as long as no read after a
   failure starts in the block delivered last. *)
Theorem C12_failed_read_no_corruption_partial : forall dec junk method C usize offs sts ops l,
  (forall d s, len (junk d s) = len s) -> bytes C -> len C < 2 ^ 32 ->
  In method [METHOD_DEFLATE; METHOD_LZVN] ->
  get_block_offsets method (mem C) = Ok offs ->
  block_states dec usize 0 (cut C offs) sts ->
  65536 * (len sts - 1) < usize <= 65536 * len sts ->
  Forall (fun op => 0 <= fst op) ops ->
  predict sts usize (2 ^ 32 - 1) false ops = Some l ->
  fst (file_reads dec junk method (mem C) usize ch_init ops) = map outcome l.
Proof. exact damaged_history. Qed.
Print Assumptions C12_failed_read_no_corruption_partial.

Example C12_example :
  fst (file_reads (decompress_data no_lzvn METHOD_DEFLATE) no_junk METHOD_DEFLATE (mem C12_fork) 131073 ch_init
         [(65536, 1); (0, 3); (131072, 9); (65536, 1); (0, 2); (65535, 2)]) =
  [Fail; Ok [65; 65; 65]; Ok [67]; Fail; Ok [65; 65]; Fail].
Proof. vm_compute. reflexivity. Qed.
Example C12_predict_example :
  predict [Some (repeat 65 (Z.to_nat 65536)); None; Some [67]] 131073 (2 ^ 32 - 1) false
    [(65536, 1); (0, 3); (131072, 9); (65536, 1); (0, 2); (65535, 2)] =
  Some [None; Some [65; 65; 65]; Some [67]; None; Some [65; 65]; None] /\
  predict [Some (repeat 65 (Z.to_nat 65536)); None; Some [67]] 131073 (2 ^ 32 - 1) false
    [(0, 3); (65536, 1); (0, 3)] = None.
Proof. split; vm_compute; reflexivity. Qed.

(* C13. The full statement is false: a table of 8160 entries overflows the buffer. *)
Theorem C13_block_table_safe_refuted : exists C, bytes C /\ get_block_offsets METHOD_DEFLATE (mem C) = Oob.
Proof.
  exists (be_enc 4 0x100 ++ zeros 256 ++ le_enc 4 8160 ++ zeros 65536).
  split; [|vm_compute; reflexivity].
  rewrite !bytes_app. repeat split; auto using be_enc_bytes, le_enc_bytes, zeros_bytes.
Qed.
Print Assumptions C13_block_table_safe_refuted.

(* What holds: parsing is safe for every other fork (fewer than 8160 declared blocks, or
   a stream of at most 65537 bytes), an empty table included; accepted tables are in
   order and no block is larger than the 65537-byte buffer; no read of the file leaves
   its buffers. *)
Theorem C13_block_table_safe_partial : forall method C,
  bytes C -> In method [METHOD_DEFLATE; METHOD_LZVN; METHOD_UNKNOWN5] ->
  (method = METHOD_DEFLATE -> le_val (slice C 260 4) < 8160 \/ len C <= 65537) ->
  get_block_offsets method (mem C) <> Oob /\ get_block_offsets method (mem C) <> Fuel.
Proof. exact offsets_safe. Qed.
Print Assumptions C13_block_table_safe_partial.

Theorem C13_block_sizes_partial : forall method C offs, bytes C -> len C < 2 ^ 32 ->
  In method [METHOD_DEFLATE; METHOD_LZVN; METHOD_UNKNOWN5] -> get_block_offsets method (mem C) = Ok offs ->
  len offs <= 16385 /\
  forall i o e, nth_error offs i = Some o -> nth_error offs (S i) = Some e -> 0 <= o <= e /\ e <= len C /\ e - o <= 65537.
Proof.
  intros method C offs HB HL HM HO. destruct (offsets_bounded _ _ _ HB HL HM HO) as (OK & OL). split; [lia|].
  intros i o e Ho He. destruct offs as [|p r]; [cbn in OL; lia|]. destruct OK as (P & ST).
  pose proof (steps_nth r p _ o e ST Ho He). pose proof (steps_nonneg r p _ o P ST Ho).
  pose proof (offsets_all_le _ _ _ HB HL HM HO e (nth_error_In _ _ He)). lia.
Qed.
Print Assumptions C13_block_sizes_partial.

Theorem C13_reads_safe_partial : forall dec junk method C usize ops,
  (forall d s, len (junk d s) = len s) ->
  (forall d, bytes d -> dec d 65536 = Fail \/ exists out, dec d 65536 = Ok out /\ len out <= 65536) ->
  bytes C -> len C < 2 ^ 32 -> In method [METHOD_DEFLATE; METHOD_LZVN; METHOD_UNKNOWN5] ->
  (method = METHOD_DEFLATE -> le_val (slice C 260 4) < 8160 \/ len C <= 65537) ->
  Forall (fun op => 0 <= fst op) ops ->
  Forall (fun r => r <> Oob /\ r <> Fuel) (fst (file_reads dec junk method (mem C) usize ch_init ops)).
Proof.
  intros. eapply Forall_impl; [|apply (reads_safe dec junk method C usize); auto].
  intros [] F; cbn in F; [split; discriminate..|contradiction|contradiction].
Qed.
Print Assumptions C13_reads_safe_partial.

Example C13_example : get_block_offsets METHOD_DEFLATE
    (mem (deflate_fork (zeros 252) 0 [[0xff; 65]; [0xff; 66; 67]; [0xff; 68]] [])) = Ok [288; 290; 293; 295] /\
  get_block_offsets METHOD_DEFLATE (mem (deflate_fork (zeros 252) 0 [] (zeros 20))) = Fail /\
  get_block_offsets METHOD_LZVN (mem (lzvn_fork [[6; 65]; [6; 66; 67]])) = Ok [12; 14; 17; 17].
Proof. vm_compute. auto. Qed.
