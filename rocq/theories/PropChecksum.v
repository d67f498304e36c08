(* Properties C01-C04. *)
From Verif Require Import Base Checksum ChecksumSpec ChecksumProofs.

(* C01 *)
Theorem C01_fletcher64_is_apfs_checksum : forall b init,
  bytes b -> len b mod 4 = 0 -> len b <= 4 * 92680 -> 0 <= init < 2 ^ 64 ->
  exists ws c0 c1, b = words_bytes ws /\ Forall is_word ws /\
    calculate_fletcher64 b init = Ok (c0 + 2 ^ 32 * c1) /\
    fletcher_closes (init mod 2 ^ 32) (init / 2 ^ 32) ws c0 c1 /\
    (forall d0 d1, fletcher_closes (init mod 2 ^ 32) (init / 2 ^ 32) ws d0 d1 -> d0 = c0 /\ d1 = c1).
Proof. exact fletcher64_correct. Qed.
Print Assumptions C01_fletcher64_is_apfs_checksum.

Theorem C01_misaligned_rejected : forall b init,
  len b mod 4 <> 0 -> calculate_fletcher64 b init = Fail.
Proof. exact fletcher64_misaligned. Qed.
Print Assumptions C01_misaligned_rejected.

Example C01_example :
  calculate_fletcher64 [1;0;0;0;2;0;0;0;255;255;255;255] 0 = Ok 0x7fffffff5 /\
  fletcher_closes 0 0 [1;2;0xffffffff] 0xfffffff5 7.
Proof. split; [vm_compute; reflexivity|]. unfold fletcher_closes, fl_modulus; repeat split; vm_compute; congruence. Qed.

(* C02: full statement is false (a word of all zeros and a word of all ones are congruent
   modulo 2^32-1). *)
Theorem C02_single_word_corruption_detected_refuted : exists pre post w v,
  Forall is_word pre /\ Forall is_word post /\ is_word w /\ is_word v /\ w <> v /\
  calculate_fletcher64 (words_bytes (pre ++ [w] ++ post)) 0 =
  calculate_fletcher64 (words_bytes (pre ++ [v] ++ post)) 0.
Proof.
  exists [17; 0x4e585342], [3], 0, 0xffffffff.
  repeat split; try (repeat constructor; vm_compute; congruence); try (vm_compute; congruence).
Qed.
Print Assumptions C02_single_word_corruption_detected_refuted.

(* What holds: every other single-word change is detected. *)
Theorem C02_single_word_corruption_detected_partial : forall pre post w v init,
  Forall is_word pre -> Forall is_word post -> is_word w -> is_word v ->
  len pre + 1 + len post <= 92680 -> 0 <= init < 2 ^ 64 ->
  calculate_fletcher64 (words_bytes (pre ++ [w] ++ post)) init =
  calculate_fletcher64 (words_bytes (pre ++ [v] ++ post)) init ->
  w = v \/ (w = 0 /\ v = 2 ^ 32 - 1) \/ (w = 2 ^ 32 - 1 /\ v = 0).
Proof. exact fletcher_word_change. Qed.
Print Assumptions C02_single_word_corruption_detected_partial.

Example C02_example :
  calculate_fletcher64 (words_bytes ([5] ++ [7] ++ [9])) 0 <>
  calculate_fletcher64 (words_bytes ([5] ++ [8] ++ [9])) 0.
Proof. vm_compute. congruence. Qed.

(* C03 *)
Theorem C03_crc32c_is_bitwise_castagnoli : forall data reg, bytes data -> 0 <= reg ->
  calculate_weak_crc32 data reg = Ok (crc_bitwise castagnoli_reflected reg data).
Proof. exact weak_crc32_correct. Qed.
Print Assumptions C03_crc32c_is_bitwise_castagnoli.

Theorem C03_crc32c_incremental : forall a b reg, bytes a -> bytes b -> 0 <= reg ->
  calculate_weak_crc32 (a ++ b) reg =
  bind (calculate_weak_crc32 a reg) (fun c => calculate_weak_crc32 b c).
Proof. exact weak_crc32_split. Qed.
Print Assumptions C03_crc32c_incremental.

(* The standard check value of CRC-32C ("123456789" gives 0xe3069283). *)
Example C03_check_value :
  match calculate_weak_crc32 [49;50;51;52;53;54;55;56;57] 0xffffffff with
  | Ok c => Z.lxor c 0xffffffff = 0xe3069283 | _ => False end.
Proof. vm_compute. reflexivity. Qed.

(* C04 *)
Theorem C04_adler32_is_rfc1950 : forall data init, bytes data ->
  init mod 65536 < 65521 -> 0 <= init / 65536 < 65521 ->
  calculate_adler32 data init = Ok (adler_ref (init mod 65536) (init / 65536) data).
Proof. exact adler32_correct. Qed.
Print Assumptions C04_adler32_is_rfc1950.

(* "Wikipedia" has Adler-32 0x11e60398. *)
Example C04_check_value :
  calculate_adler32 [87;105;107;105;112;101;100;105;97] 1 = Ok 0x11e60398.
Proof. vm_compute. reflexivity. Qed.
