(* C36, C37, C38: sector decryption, key unwrapping and key derivation. *)
From Coq Require Import Lia.
From Verif Require Import Base BaseLemmas Crypt CryptSpec CryptProofs Sha256 Aes AesProofs.

Lemma enc_sectors_inv k enc dec : unit_cipher k enc dec -> forall l n, Forall (fun s => bytes s /\ len s = k) l ->
  enc_sectors (fun n => dec (data_unit n)) n (enc_sectors (fun n => enc (data_unit n)) n l) = l.
Proof.
  intros H l. induction l as [|s l IH]; intros n HF; [reflexivity|]. cbn [enc_sectors]. pose proof (Forall_inv HF) as (B & L). rewrite (IH _ (Forall_inv_tail HF)).
  destruct (H n s B L) as (_ & _ & ->). reflexivity.
Qed.
Lemma enc_sectors_len (f : Z -> list Z -> list Z) k : (forall n s, bytes s -> len s = k -> bytes (f n s) /\ len (f n s) = k) -> forall l n, Forall (fun s => bytes s /\ len s = k) l ->
  Forall (fun s => bytes s /\ len s = k) (enc_sectors f n l) /\ len (concat (enc_sectors f n l)) = len (concat l).
Proof.
  intros H l. induction l as [|s l IH]; intros n HF; [split; [constructor|reflexivity]|]. pose proof (Forall_inv HF) as (B & L). cbn [enc_sectors concat].
  destruct (IH (n + 1) (Forall_inv_tail HF)) as (I1 & I2). destruct (H n s B L) as (B' & L'). rewrite !len_app, L', L, I2. split; [constructor; [split; assumption|exact I1]|reflexivity].
Qed.
Lemma enc_sectors_ext (f g : Z -> list Z -> list Z) : (forall n s, f n s = g n s) -> forall l n, enc_sectors f n l = enc_sectors g n l.
Proof. intros H l. induction l as [|s l IH]; intros n; [reflexivity|]. cbn [enc_sectors]. rewrite H, IH. reflexivity. Qed.

(* C36: for every cipher on sectors, whole sectors are decrypted to what was encrypted; the
   rest of the output buffer is unchanged. *)
Theorem C36_decrypt_encrypted_partial : forall enc dec bps, unit_cipher bps enc dec ->
  forall sectors sector out, 16 <= bps -> Forall (fun s => bytes s /\ len s = bps) sectors -> len (concat sectors) <= len out ->
  crypt dec true (concat (enc_sectors (fun n => enc (data_unit n)) sector sectors)) out sector bps =
  Ok (concat sectors ++ skipn (length (concat sectors)) out).
Proof.
  intros enc dec bps HC sectors sector out Hb HF HL.
  destruct (enc_sectors_len (fun n => enc (data_unit n)) bps ltac:(intros n s B L; apply (HC n s B L)) sectors sector HF) as (L1 & L2).
  rewrite (crypt_ok dec bps Hb ltac:(intros t s B L; rewrite tweak_data_unit; apply (HC t s B L)) _ out sector L1) by lia.
  rewrite (enc_sectors_ext (fun n s => dec (tweak n) s) (fun n => dec (data_unit n))) by (intros; rewrite tweak_data_unit; reflexivity).
  rewrite (enc_sectors_inv bps enc dec HC) by exact HF. do 3 f_equal. unfold len in L2. lia.
Qed.
Print Assumptions C36_decrypt_encrypted_partial.

(* in particular for AES-XTS *)
Theorem C36_decrypt_aes_xts_partial : forall key1 key2, bytes key1 -> len key1 = 16 \/ len key1 = 32 -> bytes key2 -> len key2 = 16 \/ len key2 = 32 ->
  forall bps sectors sector out, 16 <= bps -> bps mod 16 = 0 -> Forall (fun s => bytes s /\ len s = bps) sectors -> len (concat sectors) <= len out ->
  crypt (xts_dec key1 key2) true (concat (enc_sectors (fun n => xts_enc key1 key2 (data_unit n)) sector sectors)) out sector bps =
  Ok (concat sectors ++ skipn (length (concat sectors)) out).
Proof. intros. apply C36_decrypt_encrypted_partial; try assumption. apply xts_cipher; assumption. Qed.
Print Assumptions C36_decrypt_aes_xts_partial.

(* C36: each sector depends only on its own number and content. *)
Theorem C36_sector_by_sector : forall enc dec bps, unit_cipher bps enc dec ->
  forall before s after sector out, 16 <= bps -> Forall (fun s => bytes s /\ len s = bps) (before ++ s :: after) ->
  len (concat (before ++ s :: after)) <= len out ->
  exists o, crypt dec true (concat (before ++ s :: after)) out sector bps = Ok o /\ len o = len out /\
  slice o (len (concat before)) bps = dec (data_unit (sector + len before)) s.
Proof.
  intros enc dec bps HC before s after sector out Hb HF HL.
  assert (HD : forall t s, bytes s -> len s = bps -> bytes (dec (tweak t) s) /\ len (dec (tweak t) s) = bps) by (intros t x B L; rewrite tweak_data_unit; apply (HC t x B L)).
  rewrite (crypt_ok dec bps Hb ltac:(intros t x B L; apply (HD t x B L)) _ out sector HF HL).
  destruct (enc_sectors_len (fun n s => dec (tweak n) s) bps ltac:(intros; apply HD; assumption) (before ++ s :: after) sector HF) as (L1 & L2).
  eexists. split; [reflexivity|]. split; [rewrite len_app, L2; unfold len in *; rewrite skipn_length; lia|].
  assert (E : forall l n l', enc_sectors (fun n s => dec (tweak n) s) n (l ++ l') = enc_sectors (fun n s => dec (tweak n) s) n l ++ enc_sectors (fun n s => dec (tweak n) s) (n + len l) l').
  { induction l as [|x l IH]; intros n l'; [cbn [app enc_sectors]; change (len (@nil (list Z))) with 0; rewrite Z.add_0_r; reflexivity|].
    cbn [app enc_sectors]. rewrite IH, len_cons. do 3 f_equal. lia. }
  apply Forall_app in HF. destruct HF as (HF1 & HF2). pose proof (Forall_inv HF2) as (BS & HS).
  destruct (enc_sectors_len (fun n s => dec (tweak n) s) bps ltac:(intros; apply HD; assumption) before sector HF1) as (_ & L3).
  rewrite E. cbn [enc_sectors]. rewrite concat_app. cbn [concat]. rewrite <- !app_assoc. rewrite <- tweak_data_unit.
  apply slice_exact; [lia|]. symmetry. apply HD; assumption.
Qed.
Print Assumptions C36_sector_by_sector.

(* C36: no access outside of the buffers, for sizes that are a multiple of the sector size. *)
Theorem C36_within_buffers_partial : forall enc dec bps, unit_cipher bps enc dec ->
  forall decrypt input out sector, bytes input -> 16 <= bps -> len input mod bps = 0 ->
  crypt dec decrypt input out sector bps = Fail \/ exists o, crypt dec decrypt input out sector bps = Ok o /\ len o = len out.
Proof.
  intros enc dec bps HC decrypt input out sector HB Hb HM. unfold crypt. destruct decrypt; [|left; reflexivity]. cbn [check bind].
  destruct (len input <=? len out) eqn:E; [|left; reflexivity]. cbn [check bind]. right. apply Z.leb_le in E.
  apply crypt_loop_fine; try assumption; try lia; try apply Zmod_0_l; [|unfold len; lia]. intros t s B L; rewrite tweak_data_unit; apply (HC t s B L).
Qed.
Print Assumptions C36_within_buffers_partial.

(* C36 is false: a size that is not a multiple of the sector size is accepted and the last
   sector is read and written beyond the buffers (here with AES-XTS itself). *)
Theorem C36_within_buffers_refuted : exists key1 key2 input sector bps,
  bps = 512 /\ len input = 48 /\ crypt (xts_dec key1 key2) true input input sector bps = Oob.
Proof. exists (zeros 16), (zeros 16), (zeros 48), 0, 512. vm_compute. auto. Qed.
Print Assumptions C36_within_buffers_refuted.

(* two sectors of 16 bytes with AES-XTS *)
Example C36_example :
  let sectors := [seqz 16; rev (seqz 16)] in
  let c := concat (enc_sectors (fun n => xts_enc (seqz 16) (zeros 16) (data_unit n)) 7 sectors) in
  crypt (xts_dec (seqz 16) (zeros 16)) true c (zeros 34) 7 16 = Ok (concat sectors ++ [0; 0]) /\ c <> concat sectors.
Proof. vm_compute. split; [reflexivity|discriminate]. Qed.

(* C37: for every block cipher, unwrapping inverts RFC 3394 wrapping. *)
Theorem C37_unwrap_wrapped : forall enc dec, block_cipher enc dec ->
  forall key_bits iv rs, In key_bits [128; 192; 256] -> bytes iv /\ len iv = 8 -> Forall (fun r => bytes r /\ len r = 8) rs -> rs <> [] -> len rs < 2 ^ 60 ->
  key_unwrap dec key_bits (key_wrap enc iv rs) = Ok (iv ++ concat rs).
Proof. intros enc dec HC. apply key_unwrap_ok; intros b B L; apply (HC b B L). Qed.
Print Assumptions C37_unwrap_wrapped.

(* in particular for AES *)
Theorem C37_unwrap_wrapped_aes : forall key, bytes key -> len key = 16 \/ len key = 24 \/ len key = 32 ->
  forall iv rs, bytes iv /\ len iv = 8 -> Forall (fun r => bytes r /\ len r = 8) rs -> rs <> [] -> len rs < 2 ^ 60 ->
  key_unwrap (aes_dec key) (8 * len key) (key_wrap (aes_enc key) iv rs) = Ok (iv ++ concat rs).
Proof.
  intros key B L iv rs. apply C37_unwrap_wrapped; [apply aes_cipher; assumption|]. destruct L as [E|[E|E]]; rewrite E; cbn; auto.
Qed.
Print Assumptions C37_unwrap_wrapped_aes.

(* C37: unwrapping accesses nothing outside of its buffers, whatever the input. *)
Theorem C37_unwrap_safe : forall enc dec, block_cipher enc dec ->
  forall key_bits wrapped, bytes wrapped -> key_unwrap dec key_bits wrapped = Fail \/
  exists o, key_unwrap dec key_bits wrapped = Ok o /\ len o = len wrapped.
Proof.
  intros enc dec HC kb w HB. destruct ((kb =? 128) || (kb =? 192) || (kb =? 256)) eqn:E1; [|left; unfold key_unwrap; rewrite E1; reflexivity].
  destruct (8 <? len w) eqn:E2; [|left; unfold key_unwrap; rewrite E1, E2; reflexivity].
  destruct (len w mod 8 =? 0) eqn:E3; [|left; unfold key_unwrap; rewrite E1, E2, E3; reflexivity].
  right. destruct (key_unwrap_safe dec ltac:(intros b B L; apply (HC b B L)) kb w HB) as (o & O1 & _ & O2); [cbn [In]; lia|lia|lia|eauto].
Qed.
Print Assumptions C37_unwrap_safe.

(* RFC 3394 4.1 and 4.6 with AES *)
Example C37_rfc3394_128 : key_unwrap (aes_dec (seqz 16)) 128 (be_enc 24 0x1fa68b0a8112b447aef34bd8fb5a7b829d3e862371d2cfe5) =
  Ok (be_enc 24 0xa6a6a6a6a6a6a6a600112233445566778899aabbccddeeff).
Proof. vm_compute. reflexivity. Qed.
Example C37_rfc3394_256 : be_val (key_wrap (aes_enc (seqz 32)) (repeat 166 8)
    (split 8 4 (be_enc 32 0x00112233445566778899aabbccddeeff000102030405060708090a0b0c0d0e0f))) =
  0x28c9f404c4b810f4cbccb35cfb87f8263f5786e2d80ed326cbc7f0e71a99f43bfb988b9b7a02dd21.
Proof. vm_compute. reflexivity. Qed.

(* C38: for every pseudorandom function of 32 bytes, in particular HMAC-SHA256. *)
Theorem C38_pbkdf2 : forall (prf : list Z -> list Z -> list Z), (forall k d, len (prf k d) = 32) ->
  forall password salt iterations size, 1 <= iterations < 2 ^ 32 -> 0 <= size <= 32 * (2 ^ 32 - 1) ->
  pbkdf2 prf password salt iterations size = Ok (dk prf password salt iterations size) /\ len (dk prf password salt iterations size) = size.
Proof.
  intros prf HP p s c size Hc Hs. split; [apply pbkdf2_ok; assumption|].
  unfold dk. pose proof (blocks_len prf HP p s c (seq 0 (Z.to_nat ((size + 31) / 32)))) as BL. unfold len in *. rewrite seq_length in BL. rewrite firstn_length.
  remember (concat _) as l eqn:E. clear E. assert (32 * ((size + 31) / 32) >= size) by (pose proof (Z.div_mod (size + 31) 32); pose proof (Z.mod_pos_bound (size + 31) 32); lia).
  assert (0 <= (size + 31) / 32) by (apply Z.div_pos; lia). lia.
Qed.
Print Assumptions C38_pbkdf2.
Theorem C38_pbkdf2_hmac_sha256 : forall password salt iterations size, 1 <= iterations < 2 ^ 32 -> 0 <= size <= 32 * (2 ^ 32 - 1) ->
  pbkdf2 hmac_sha256 password salt iterations size = Ok (dk hmac_sha256 password salt iterations size).
Proof. intros. apply C38_pbkdf2; auto using hmac_sha256_len. Qed.
Print Assumptions C38_pbkdf2_hmac_sha256.
Theorem C38_no_iterations : forall prf password salt size, pbkdf2 prf password salt 0 size = Fail.
Proof. reflexivity. Qed.
Print Assumptions C38_no_iterations.

(* RFC 7914 section 11 *)
Example C38_rfc7914 : pbkdf2 hmac_sha256 [112; 97; 115; 115; 119; 100] [115; 97; 108; 116] 1 64 =
  Ok (be_enc 64 0x55ac046e56e3089fec1691c22544b605f94185216dde0465e68b9d57c20dacbc49ca9cccf179b645991664b39d77ef317c71b845b1e30bd509112041d3a19783).
Proof. vm_compute. reflexivity. Qed.
(* two iterations, a size that is not a multiple of 32 (RFC 6070 inputs) *)
Example C38_two_iterations : pbkdf2 hmac_sha256 [112; 97; 115; 115; 119; 111; 114; 100] [115; 97; 108; 116] 2 20 =
  Ok (be_enc 20 0xae4d0c95af6b46d32d0adff928f06dd02a303f8e).
Proof. vm_compute. reflexivity. Qed.
