(* Objects with their checksum in the first 8 bytes. *)
From Coq Require Import Lia.
From Verif Require Import Base BaseLemmas Checksum ChecksumSpec ChecksumProofs.
Ltac Zify.zify_post_hook ::= Z.div_mod_to_equations.

(* Specification: the checksum that closes the words after it. 92680 words are about 370 kB;
   blocks have at most 64 kB. *)
Definition checksummed (data : list Z) : Prop :=
  exists c0 c1 ws, data = le_enc 4 c0 ++ le_enc 4 c1 ++ words_bytes ws /\ Forall is_word ws /\ len ws <= 92680 /\ fletcher_closes 0 0 ws c0 c1.

Lemma closes_calc ws c0 c1 : Forall is_word ws -> len ws <= 92680 -> fletcher_closes 0 0 ws c0 c1 ->
  calculate_fletcher64 (words_bytes ws) 0 = Ok (c0 + 2 ^ 32 * c1).
Proof.
  intros HF HL HC. destruct (calc_fletcher_words ws 0 HF HL ltac:(lia)) as (d0 & d1 & E & C). change (0 mod 2 ^ 32) with 0 in C. change (0 / 2 ^ 32) with 0 in C.
  destruct (fletcher_closes_unique _ _ _ _ _ _ _ HC C) as (-> & ->). exact E.
Qed.
Lemma checksummed_ok data : checksummed data -> exists s b, 8 <= len data /\ rd_le 8 data 0 = Ok s /\ rd data 8 (len data - 8) = Ok b /\ calculate_fletcher64 b 0 = Ok s.
Proof.
  intros (c0 & c1 & ws & -> & HF & HL & HC). exists (c0 + 2 ^ 32 * c1), (words_bytes ws). pose proof HC as (R0 & R1 & _). unfold fl_modulus in *.
  pose proof (len_nonneg (words_bytes ws)). split; [rewrite !len_app, !le_enc_len; lia|].
  assert (E : le_enc 4 c0 ++ le_enc 4 c1 ++ words_bytes ws = le_enc 8 (c0 + 2 ^ 32 * c1) ++ words_bytes ws).
  { rewrite app_assoc. f_equal. cbn [le_enc app]. rewrite !Z.div_div by lia. cbn [Z.mul Pos.mul].
    repeat (apply (f_equal2 cons); [clear - R0 R1; lia|]). reflexivity. }
  rewrite E. split; [|split; [|apply closes_calc; assumption]].
  - unfold rd_le. rewrite rd_in by (rewrite ?len_app, ?le_enc_len; lia). cbn [bind]. rewrite slice_app_l by (rewrite ?le_enc_len; lia).
    rewrite slice_all by (rewrite le_enc_len; lia). rewrite le_val_enc; [reflexivity|]. change (256 ^ Z.of_nat 8) with (2 ^ 64). lia.
  - rewrite rd_in by (rewrite ?len_app, ?le_enc_len; lia). f_equal. rewrite slice_app_r by (rewrite ?le_enc_len; lia).
    rewrite len_app, le_enc_len. apply slice_all. lia.
Qed.
