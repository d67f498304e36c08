(* Properties C05-C10: bit reader, Huffman decoding, DEFLATE and zlib. *)
From Verif Require Import Base BaseLemmas Checksum ChecksumSpec BitStream Huffman Deflate DeflateSpec
  BitProofs HuffProofs DeflateTop.

(* C05. False in general: after reading 1 bit, a read of 32 bits needs bits of five
   bytes and the two pieces are joined in the wrong order. *)
Theorem C05_bit_reader_delivers_stream_bits_refuted : exists data ns vs vs' s,
  bytes data /\ Forall (fun n => 0 <= n <= 32) ns /\
  split_bits (bits_of data) ns = Some vs /\
  bs_get_list (bs_init data 0) ns = Ok (vs', s) /\ vs <> vs'.
Proof.
  exists [1; 0; 0; 0; 1; 0; 0; 0], [1; 32],
    [1; 2147483648], [1; 1], (mk_bs [1; 0; 0; 0; 1; 0; 0; 0] 5 0 7).
  split; [repeat (constructor; [unfold is_byte; lia|]); constructor|].
  split; [repeat (constructor; [lia|]); constructor|].
  split; [vm_compute; reflexivity|]. split; [vm_compute; reflexivity|]. congruence.
Qed.
Print Assumptions C05_bit_reader_delivers_stream_bits_refuted.

(* What holds: widths up to 25 in any order, and wider ones as far as they end in the
   fourth byte after the current one (so 32 bits at a byte boundary). Missing from the
   full statement: wide reads at other positions (false, above). *)
Theorem C05_bit_reader_delivers_stream_bits_partial : forall data ns,
  bytes data -> widths_ok 0 ns ->
  match split_bits (bits_of data) ns with
  | Some vs => exists s, bs_get_list (bs_init data 0) ns = Ok (vs, s)
  | None => bs_get_list (bs_init data 0) ns = Fail
  end.
Proof.
  intros data ns Hb W. apply (bs_get_list_spec ns (bs_init data 0) 0); auto.
  - apply bs_init_inv; auto. pose proof (len_nonneg data). lia.
  - rewrite init_rem0, bits_of_len. rewrite Z.add_0_r, Z.mul_comm. apply Z_mod_mult.
Qed.
Print Assumptions C05_bit_reader_delivers_stream_bits_partial.

(* The part about memory: for every sequence of widths no read outside the data. *)
Theorem C05_bit_reader_stays_in_bounds : forall data ns,
  bytes data -> Forall (fun n => 0 <= n) ns ->
  bs_get_list (bs_init data 0) ns <> Oob /\ bs_get_list (bs_init data 0) ns <> Fuel.
Proof.
  intros data ns Hb F. apply bs_get_list_safe; auto.
  apply bs_init_inv; auto. pose proof (len_nonneg data). lia.
Qed.
Print Assumptions C05_bit_reader_stays_in_bounds.

Example C05_example : let data := [0xa5; 0x3c; 0xff; 0x01; 0x80] in
  widths_ok 0 [3; 7; 0; 13; 17] /\
  split_bits (bits_of data) [3; 7; 0; 13; 17] = Some [5; 20; 0; 8143; 65539] /\
  (exists s, bs_get_list (bs_init data 0) [3; 7; 0; 13; 17] = Ok ([5; 20; 0; 8143; 65539], s)) /\
  bs_get_list (bs_init data 0) [3; 7; 0; 13; 17; 1] = Fail.
Proof.
  cbv zeta. split; [cbn; repeat split; vm_compute; congruence|].
  split; [vm_compute; reflexivity|]. split; [eexists; vm_compute; reflexivity|vm_compute; reflexivity].
Qed.

(* C06. [a] stands for whatever was read before (any bit position in a byte). *)
Theorem C06_huffman_decodes_canonical_code : forall max nsyms lens,
  1 <= max <= 15 -> len lens <= nsyms -> nsyms <= 1024 -> prefix_code max lens ->
  exists h, huff_build (huff_init nsyms max) lens = Ok (1, h) /\
  forall data a syms rest, bytes data -> len a <= 24 -> Forall (coded lens) syms ->
    bits_of data = a ++ flat_map (codeword lens) syms ++ rest ->
    exists v s0 s, bs_get (bs_init data 0) (len a) = Ok (v, s0) /\
      huff_get_list h (length syms) s0 = Ok (map Z.of_nat syms, s) /\
      8 * bs_off s - bs_size s = len (a ++ flat_map (codeword lens) syms).
Proof. intros; apply huff_decode_list; auto; lia. Qed.
Print Assumptions C06_huffman_decodes_canonical_code.

Theorem C06_oversubscribed_rejected : forall max nsyms lens,
  1 <= max <= 15 -> len lens <= nsyms -> nsyms <= 1024 ->
  Forall (fun c => 0 <= c) lens -> Exists (fun c => c <> 0) lens -> ~ prefix_code max lens ->
  huff_build (huff_init nsyms max) lens = Fail.
Proof. intros; apply huff_build_oversubscribed; auto; lia. Qed.
Print Assumptions C06_oversubscribed_rejected.

(* On arbitrary input decoding either fails or returns a symbol whose code word is
   really there; in particular no access outside the symbol table. *)
Theorem C06_huffman_decoding_sound : forall max nsyms lens h,
  1 <= max <= 15 -> len lens <= nsyms -> nsyms <= 1024 -> Forall (fun c => 0 <= c) lens ->
  huff_build (huff_init nsyms max) lens = Ok (1, h) ->
  forall data, bytes data ->
    huff_get h (bs_init data 0) = Fail \/
    exists sym s rest, huff_get h (bs_init data 0) = Ok (Z.of_nat sym, s) /\ coded lens sym /\
      bits_of data = codeword lens sym ++ rest.
Proof. intros; eapply huff_decode_sound; eauto; lia. Qed.
Print Assumptions C06_huffman_decoding_sound.

(* RFC 1951, 3.2.2: lengths (3,3,3,3,3,2,4,4). *)
Example C06_example : let lens := [3; 3; 3; 3; 3; 2; 4; 4] in
  prefix_code 15 lens /\ map (codeword lens) [0; 5; 6; 7]%nat =
    [[false; true; false]; [false; false]; [true; true; true; false]; [true; true; true; true]] /\
  (exists h, huff_build (huff_init 8 15) lens = Ok (1, h) /\
     exists s, huff_get_list h 4 (bs_init [226; 30] 0) = Ok ([0; 5; 6; 7], s)) /\
  huff_build (huff_init 8 15) [1; 1; 1] = Fail.
Proof.
  cbv zeta. split.
  - split; [repeat (constructor; [lia|]); constructor|]. split; [constructor; lia|]. vm_compute; congruence.
  - split; [vm_compute; reflexivity|]. split; [|vm_compute; reflexivity].
    eexists. split; [vm_compute; reflexivity|]. eexists. vm_compute. reflexivity.
Qed.

(* C07 *)
Theorem C07_inflate_reproduces_data : forall data cap out,
  bytes data -> deflate_stream has_distances data out -> len out <= cap ->
  deflate_decompress data cap = Ok out.
Proof. exact deflate_complete. Qed.
Print Assumptions C07_inflate_reproduces_data.

Theorem C07_zlib_reproduces_data : forall data cap out,
  zlib_stream has_distances (adler_ref 1 0) data out -> len out <= cap ->
  zlib_decompress data cap = Ok out.
Proof. exact zlib_complete. Qed.
Print Assumptions C07_zlib_reproduces_data.

(* Conversely what is returned is what the blocks of the stream expand to. *)
Theorem C07_inflate_returns_nothing_else : forall data cap out,
  bytes data -> 0 <= cap -> deflate_decompress data cap = Ok out ->
  deflate_stream has_distances data out \/
  exists bs rest, open_enc has_distances 0 [] out bs /\ bits_of data = bs ++ rest /\ len rest < 8.
Proof.
  intros data cap out Hb Hc E. destruct (deflate_sound data cap Hb Hc) as [X|(o & X & _ & _ & Y)].
  - congruence.
  - assert (o = out) as -> by congruence. exact Y.
Qed.
Print Assumptions C07_inflate_returns_nothing_else.

(* A stream with an overlapping match, fixed code. *)
Example C07_example_spec : deflate_stream has_distances [75; 4; 129; 36; 16; 1; 0] [97; 97; 97; 97; 97; 98; 97; 97; 97; 97].
Proof.
  assert (S1 : stream_enc has_distances 0 [] (block_out [] (Fixed [Lit 97; Match (4 + 0) (1 + 0); Lit 98; Match (4 + 0) (5 + 0)]))
     ([true; true; false] ++
      codeword fixed_ll (Z.to_nat 97) ++
      (codeword fixed_ll (257 + 1) ++ lsb_bits (Z.to_nat 0) 0 ++ codeword fixed_dl 0 ++ lsb_bits (Z.to_nat 0) 0) ++
      codeword fixed_ll (Z.to_nat 98) ++
      (codeword fixed_ll (257 + 1) ++ lsb_bits (Z.to_nat 0) 0 ++ codeword fixed_dl 4 ++ lsb_bits (Z.to_nat 1) 0) ++
      codeword fixed_ll 256)).
  { apply enc_last.
    - exact I.
    - cbn. repeat split; vm_compute; congruence.
    - apply enc_fixed.
      apply enc_tok; [apply enc_lit; [lia|split; [vm_compute; lia|vm_compute; congruence]]|].
      apply enc_tok; [apply (enc_match _ _ 1%nat 0%nat 0 4 0 1 0 0); try reflexivity; try (vm_compute; split; congruence);
        (split; [vm_compute; lia|vm_compute; congruence])|].
      apply enc_tok; [apply enc_lit; [lia|split; [vm_compute; lia|vm_compute; congruence]]|].
      apply enc_tok; [apply (enc_match _ _ 1%nat 4%nat 0 4 1 5 0 0); try reflexivity; try (vm_compute; split; congruence);
        (split; [vm_compute; lia|vm_compute; congruence])|].
      apply enc_end. split; [vm_compute; lia|vm_compute; congruence]. }
  unfold deflate_stream.
  eexists. eexists. split; [exact S1|]. vm_compute. reflexivity.
Qed.

Example C07_example :
  deflate_decompress [75; 4; 129; 36; 16; 1; 0] 10 = Ok [97; 97; 97; 97; 97; 98; 97; 97; 97; 97] /\
  deflate_decompress [75; 4; 129; 36; 16; 1; 0] 9 = Fail /\
  zlib_decompress [120; 218; 75; 76; 74; 78; 68; 69; 17; 0; 72; 185; 7; 61] 65536 =
    Ok [97; 98; 99; 97; 98; 99; 97; 98; 99; 97; 98; 99; 97; 98; 99; 97; 98; 99; 88] /\
  (exists o, zlib_decompress [120; 218; 181; 202; 193; 17; 0; 48; 8; 2; 176; 217; 240; 80; 65; 246; 223; 167; 83; 52;
     239; 64; 123; 68; 117; 46; 68; 74; 221; 102; 81; 228; 196; 134; 102; 241; 39; 60; 192; 214; 32; 204] 65536 = Ok o /\
     len o = 120 /\ firstn 8 o = [65; 72; 71; 74; 68; 65; 66; 69]).
Proof.
  split; [vm_compute; reflexivity|]. split; [vm_compute; reflexivity|]. split; [vm_compute; reflexivity|].
  eexists. split; [vm_compute; reflexivity|]. split; vm_compute; reflexivity.
Qed.

(* C08: [Oob] is an access outside the input, a table or the output (including a match
   reaching before its start), [Fuel] is running on past the bits of the input. *)
Theorem C08_inflate_safe : forall data cap,
  bytes data -> 0 <= cap ->
  deflate_decompress data cap <> Oob /\ deflate_decompress data cap <> Fuel /\
  (forall out, deflate_decompress data cap = Ok out -> len out <= cap /\ bytes out).
Proof.
  intros data cap Hb Hc. destruct (deflate_sound data cap Hb Hc) as [X|(o & X & L & B & _)]; rewrite X.
  - repeat split; discriminate.
  - split; [discriminate|]. split; [discriminate|]. intros out E. assert (o = out) as -> by congruence. auto.
Qed.
Print Assumptions C08_inflate_safe.

Theorem C08_zlib_safe : forall data cap,
  bytes data -> 0 <= cap ->
  zlib_decompress data cap <> Oob /\ zlib_decompress data cap <> Fuel /\
  (forall out, zlib_decompress data cap = Ok out -> len out <= cap).
Proof.
  intros data cap Hb Hc. destruct (zlib_sound data cap Hb Hc) as [X|(o & X & L & _)]; rewrite X.
  - repeat split; discriminate.
  - split; [discriminate|]. split; [discriminate|]. intros out E. assert (o = out) as -> by congruence. auto.
Qed.
Print Assumptions C08_zlib_safe.

(* Distance reaching before the start of the output; output full in a match. *)
Example C08_example :
  deflate_decompress [75; 4; 193; 0] 100 = Fail /\ deflate_decompress [75; 4; 129; 36; 16; 1; 0] 3 = Fail /\
  zlib_decompress [0x78] 10 = Fail /\ zlib_decompress [0x78; 0xbb; 1; 2; 3; 4] 10 = Fail.
Proof. repeat split; vm_compute; reflexivity. Qed.

(* C09. False: a stream cut off after a non-final block is accepted, and so is one
   without checksum. *)
Theorem C09_truncated_zlib_reported_refuted : exists data out,
  bytes data /\ zlib_decompress data 65536 = Ok out /\
  ~ (exists off bs rest, 2 <= off /\ stream_enc (fun _ => True) 0 [] out bs /\
       bits_of (skipn (Z.to_nat off) data) = bs ++ rest) /\
  ~ (exists off, 2 <= off /\ 0 <= off + 4 <= len data /\ be_val (slice data off 4) = adler_ref 1 0 out).
Proof.
  exists [0x78; 0x9c; 2; 0], [].
  split; [repeat (constructor; [unfold is_byte; lia|]); constructor|].
  split; [vm_compute; reflexivity|].
  assert (LE : forall off, 2 <= off -> len (skipn (Z.to_nat off) [120; 156; 2; 0]) <= 2).
  { intros. unfold len. rewrite skipn_length. cbn [length]. lia. }
  split.
  - intros (off & bs & rest & Ho & ST & E).
    pose proof (f_equal len E) as EL. rewrite len_app, bits_of_len in EL.
    pose proof (LE off Ho). pose proof (len_nonneg rest).
    pose proof (stream_nonempty _ _ _ _ _ ST).
    assert (HF : exists rest', bits_of (skipn (Z.to_nat off) [120; 156; 2; 0]) = false :: rest').
    { destruct (Z.to_nat off) as [|[|[|n]]] eqn:N; try lia; [eexists; reflexivity|].
      exfalso. unfold len in *. rewrite skipn_length in *. cbn [length] in *. lia. }
    destruct HF as (rest' & HF). rewrite HF in E.
    assert (B1 : forall b bs0 r, block_enc 0 true b bs0 -> false :: rest' = bs0 ++ r -> False).
    { intros b bs0 r B Q. destruct B; cbn [app] in Q; discriminate. }
    inversion ST as [b bs0 _ _ B|b bs0 out' bs' _ _ B ST']; subst.
    + eapply B1; eauto.
    + pose proof (block_enc_len _ _ _ _ B). pose proof (stream_nonempty _ _ _ _ _ ST').
      rewrite len_app in EL. lia.
  - intros (off & Ho & Hl & _). change (len [120; 156; 2; 0]) with 4 in Hl. lia.
Qed.
Print Assumptions C09_truncated_zlib_reported_refuted.

(* What holds. The blocks returned are well formed; the data ended at the final block,
   or it was cut off at a block boundary; and when at least four bytes follow, they are
   the Adler-32 of the returned data. Missing: cut-off streams are not reported. *)
Theorem C09_damaged_zlib_reported_partial : forall data cap out,
  bytes data -> 0 <= cap -> zlib_decompress data cap = Ok out ->
  exists off bs rest,
    (off = 2 \/ off = 6) /\ off <= len data /\
    bits_of (skipn (Z.to_nat off) data) = bs ++ rest /\
    (stream_enc has_distances 0 [] out bs \/ (open_enc has_distances 0 [] out bs /\ len rest < 8)) /\
    (4 <= len rest / 8 -> be_val (slice data (len data - len rest / 8) 4) = adler_ref 1 0 out).
Proof.
  intros data cap out Hb Hc E. destruct (zlib_sound data cap Hb Hc) as [X|(o & X & _ & Y)].
  - congruence.
  - assert (o = out) as -> by congruence. exact Y.
Qed.
Print Assumptions C09_damaged_zlib_reported_partial.

(* A stored block cut off, and a wrong checksum. *)
Example C09_example :
  zlib_decompress [0x78; 0x9c; 0; 1; 0; 0xfe; 0xff; 65] 65536 = Ok [65] /\
  zlib_decompress [120; 218; 75; 76; 74; 78; 68; 69; 17; 0; 72; 185; 7; 62] 65536 = Fail.
Proof. split; vm_compute; reflexivity. Qed.

(* C10. False: a dynamic block whose only distance length is zero (no matches used;
   RFC 1951, 3.2.7) is rejected. *)
Definition C10_ll : list Z := repeat 0 65 ++ [1] ++ repeat 0 190 ++ [1].
Definition C10_cl : list Z := [2; 2] ++ repeat 0 16 ++ [1].
Definition C10_cts : list cl_token := [Zrep11 65; Len 1; Zrep11 138; Zrep11 52; Len 1; Len 0].

Lemma C10_header : exists hb, dyn_header C10_ll [0] hb /\
  hb = firstn 98 (skipn 3 (bits_of [5; 192; 129; 8; 0; 0; 0; 0; 32; 182; 253; 165; 142])).
Proof.
  eexists. split.
  - exists C10_cl, 18%nat, C10_cts. eexists.
    split; [vm_compute; split; congruence|]. split; [vm_compute; split; congruence|].
    split; [lia|]. split; [reflexivity|].
    split; [apply Forall_forall; intros x Hx; vm_compute in Hx; repeat destruct Hx as [<-|Hx]; try lia; contradiction|].
    split; [split; [apply Forall_forall; intros x Hx; vm_compute in Hx; repeat destruct Hx as [<-|Hx]; try lia; contradiction
                   |split; [constructor; lia|vm_compute; congruence]]|].
    split; [intros k Hk; assert (k = 18%nat) as -> by lia; reflexivity|].
    split; [vm_compute; reflexivity|]. split; [|reflexivity].
    assert (CC : forall n, In n [0; 1; 18]%nat -> coded C10_cl n).
    { intros n [<-|[<-|[<-|[]]]]; split; try (vm_compute; congruence); vm_compute; lia. }
    unfold C10_cts.
    apply cl_z11; [lia|apply CC; cbn; auto|].
    apply cl_len; [lia|apply (CC 1%nat); cbn; auto|].
    apply cl_z11; [lia|apply CC; cbn; auto|].
    apply cl_z11; [lia|apply CC; cbn; auto|].
    apply cl_len; [lia|apply (CC 1%nat); cbn; auto|].
    apply cl_len; [lia|apply (CC 0%nat); cbn; auto|].
    apply cl_nil.
  - vm_compute. reflexivity.
Qed.

Theorem C10_rfc1951_stream_accepted_refuted : exists data out,
  bytes data /\ deflate_stream (fun _ => True) data out /\
  forall cap, cap <= 2 ^ 32 -> deflate_decompress data cap = Fail.
Proof.
  exists [5; 192; 129; 8; 0; 0; 0; 0; 32; 182; 253; 165; 142], [65; 65].
  split; [repeat (constructor; [unfold is_byte; lia|]); constructor|]. split.
  - destruct C10_header as (hb & DH & EH).
    assert (ST : stream_enc (fun _ => True) 0 [] (block_out [] (Dynamic C10_ll [0] [Lit 65; Lit 65]))
      ([true; false; true] ++ hb ++ codeword C10_ll (Z.to_nat 65) ++ codeword C10_ll (Z.to_nat 65) ++ codeword C10_ll 256)).
    { apply enc_last; [exact I|exact I|]. apply enc_dynamic.
      - exact DH.
      - split; [|split].
        + apply Forall_forall. intros x Hx. unfold C10_ll in Hx. rewrite !in_app_iff in Hx.
          destruct Hx as [Hx|[Hx|[Hx|Hx]]]; try (apply repeat_spec in Hx); cbn in Hx; lia.
        + unfold C10_ll. rewrite !Exists_app. right. left. constructor. lia.
        + vm_compute. congruence.
      - assert (coded C10_ll 65 /\ coded C10_ll 256) as (? & ?) by (repeat split; try (vm_compute; congruence); vm_compute; lia).
        apply enc_tok; [apply enc_lit; [lia|assumption]|].
        apply enc_tok; [apply enc_lit; [lia|assumption]|].
        apply enc_end. assumption.
      - right. repeat constructor. }
    eexists. eexists. split; [exact ST|]. rewrite EH. vm_compute. reflexivity.
  - intros cap _. vm_compute. reflexivity.
Qed.
Print Assumptions C10_rfc1951_stream_accepted_refuted.

(* What holds: every stream whose dynamic blocks have at least one distance code
   (one is enough) is accepted. *)
Theorem C10_rfc1951_stream_accepted_partial : forall data out,
  bytes data -> deflate_stream has_distances data out ->
  forall cap, len out <= cap -> is_ok (deflate_decompress data cap) = true.
Proof. intros data out Hb D cap Hc. rewrite (deflate_complete data cap out); auto. Qed.
Print Assumptions C10_rfc1951_stream_accepted_partial.

(* One distance code of one bit. *)
Example C10_example : deflate_decompress [5; 192; 129; 8; 0; 0; 0; 0; 32; 182; 253; 165; 158] 10 = Ok [65; 65].
Proof. vm_compute. reflexivity. Qed.
