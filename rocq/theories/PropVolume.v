(* Properties C42-C45, C58. *)
From Coq Require Import Lia.
From Verif Require Import Base BaseLemmas At Crypt CryptSpec CryptProofs KeyBag KeyBagSpec KekProofs Volume VolumeSpec UnlockProofs VolumeProofs Sha256 Aes AesProofs.

(* C42: full statement is false. A key record that the library does not support (here of
   method 1) makes unlock fail with an error although a later record is of the password. *)
Definition sample_key (method : Z) (wrapped : Z) : kek :=
  {| k_hmac := zeros 32; k_id := repeat 2 16; k_method := method; k_wrapped := be_enc 24 wrapped ++ zeros 16; k_iterations := 1; k_salt := repeat 4 16 |}.
Definition sample_entry (ty method wrapped : Z) : bag_entry :=
  {| be_id := repeat 7 16; be_type := ty; be_data := packed_key (sample_key method wrapped) [1] (zeros 4) (zeros 8) |}.
Definition entry_pw := sample_entry 3 2 0x8ddb6127288a7ba2e8998a64fa7bd1e45f5fda72982720bd.
Definition entry_r := sample_entry 3 2 0xccef8f849385938c64b27fc76b50ebf8a72259cd07157a22.
Definition entry_old := sample_entry 3 1 0.
Definition entry_master := sample_entry 2 2 0xd161425862545308cb548e3fe44fa35f05a11d6e83032126.
Definition sample_bags (l : list bag_entry) : bags := {| b_volume := Some l; b_container := [entry_master]; b_id := repeat 7 16 |}.
Definition locked (user recovery : option (list Z)) : volume := {| v_locked := true; v_user := user; v_recovery := recovery; v_keys := None |}.

Theorem C42_correct_password_refuted : exists v v', v_locked v = true /\ v_locked v' = false /\
  record [1] entry_old (sample_key 1 0) /\
  unlock aes_dec sha256 hmac_sha256 (sample_bags [entry_pw]) v (zeros 32) (zeros 32) = Ok (1, v') /\
  unlock aes_dec sha256 hmac_sha256 (sample_bags [entry_old; entry_pw]) v (zeros 32) (zeros 32) = Ok (-1, v).
Proof.
  exists (locked (Some [112; 119]) None), {| v_locked := false; v_user := Some [112; 119]; v_recovery := None; v_keys := Some (rev (seqz 16), be_enc 16 0xfa59fa1264da84297d39bfd37aa917e6) |}.
  split; [reflexivity|]. split; [reflexivity|]. split; [|split; vm_compute; reflexivity].
  split; [|split; [left; reflexivity|vm_compute; repeat (constructor; [split; congruence|]); constructor]]. exists [1], (zeros 4), (zeros 8). split; [reflexivity|].
  unfold kek_ok. repeat split; try reflexivity; try (vm_compute; congruence). repeat constructor; vm_compute; congruence.
Qed.
Print Assumptions C42_correct_password_refuted.

(* What holds: when the records before it are of supported methods, the record of the
   password is found whatever its position; the volume key of the container key bag is
   unwrapped with its key. The content of the buffers on the stack does not matter. *)
Theorem C42_correct_password_partial : forall enc dec sha hmac, primitives enc dec sha hmac ->
  forall b v before e after cbefore ce cafter key master j1 j2,
  v_locked v = true -> b_volume b = Some (before ++ e :: after) -> b_container b = cbefore ++ ce :: cafter ->
  Forall (entry_closed enc hmac (v_user v) (v_recovery v)) before -> entry_opens enc hmac (v_user v) (v_recovery v) e key ->
  Forall (key_entry_closed enc sha (b_id b) key) cbefore -> key_entry_opens enc sha (b_id b) key ce master ->
  len j1 = 32 -> len j2 = 32 ->
  unlock dec sha hmac b v j1 j2 =
  Ok (1, {| v_locked := false; v_user := v_user v; v_recovery := v_recovery v; v_keys := Some (firstn 16 master, skipn 16 master) |}).
Proof. intros enc dec sha hmac (H1 & H2 & H3). exact (unlock_ok enc dec sha hmac H1 H2 H3). Qed.
Print Assumptions C42_correct_password_partial.
Theorem C42_wrong_password_partial : forall enc dec sha hmac, primitives enc dec sha hmac ->
  forall b v l j1 j2, v_locked v = true -> b_volume b = Some l -> Forall (entry_closed enc hmac (v_user v) (v_recovery v)) l ->
  unlock dec sha hmac b v j1 j2 = Ok (0, v).
Proof. intros enc dec sha hmac (H1 & H2 & H3). exact (unlock_wrong enc dec sha hmac H1 H2 H3). Qed.
Print Assumptions C42_wrong_password_partial.

(* The assumptions on the cryptographic functions hold for AES, SHA-256 and HMAC-SHA256. *)
Theorem C42_primitives : primitives aes_enc aes_dec sha256 hmac_sha256.
Proof.
  split; [intros key B L; apply aes_cipher; [exact B|lia]|]. split; [|exact sha256_len]. intros k d. split; [apply hmac_sha256_bytes|apply hmac_sha256_len].
Qed.
Print Assumptions C42_primitives.

(* AES-128, the record of the recovery password first, and an entry of another type *)
Example C42_example :
  unlock aes_dec sha256 hmac_sha256 (sample_bags [entry_master; entry_r; entry_pw]) (locked (Some [112; 119]) None) (zeros 32) (zeros 32) =
  Ok (1, {| v_locked := false; v_user := Some [112; 119]; v_recovery := None; v_keys := Some (rev (seqz 16), be_enc 16 0xfa59fa1264da84297d39bfd37aa917e6) |}).
Proof. vm_compute. reflexivity. Qed.
Example C42_recovery_example :
  unlock aes_dec sha256 hmac_sha256 (sample_bags [entry_r]) (locked None (Some [114])) (zeros 32) (zeros 32) =
  Ok (1, {| v_locked := false; v_user := None; v_recovery := Some [114]; v_keys := Some (rev (seqz 16), be_enc 16 0xfa59fa1264da84297d39bfd37aa917e6) |}).
Proof. vm_compute. reflexivity. Qed.
Example C42_wrong_example :
  unlock aes_dec sha256 hmac_sha256 (sample_bags [entry_r]) (locked (Some [112; 119]) None) (zeros 32) (zeros 32) = Ok (0, locked (Some [112; 119]) None).
Proof. vm_compute. reflexivity. Qed.

(* C43 *)
Definition last_user (cs : list call) : option (list Z) :=
  fold_left (fun p c => match c with SetUser q => q | _ => p end) cs None.
Definition last_recovery (cs : list call) : option (list Z) :=
  fold_left (fun p c => match c with SetRecovery q => q | _ => p end) cs None.

Lemma run_app aes sha hmac b : forall cs cs' v rs v', run aes sha hmac b v (cs ++ cs') = Ok (rs, v') ->
  exists rs1 v1 rs2, run aes sha hmac b v cs = Ok (rs1, v1) /\ run aes sha hmac b v1 cs' = Ok (rs2, v') /\ rs = rs1 ++ rs2.
Proof.
  induction cs as [|c cs IH]; intros cs' v rs v' H; [exists [], v, rs; auto|]. cbn [app run] in *.
  destruct (step aes sha hmac b v c) as [[r v1]| | |]; cbn [bind] in *; try discriminate.
  destruct (run aes sha hmac b v1 (cs ++ cs')) as [[rs1 v2]| | |] eqn:E; cbn [bind] in H; try discriminate. injection H as <- <-.
  destruct (IH _ _ _ _ E) as (x & y & z & E1 & E2 & E3). rewrite E1. cbn [bind]. exists (r :: x), y, z. subst rs1. auto.
Qed.
Lemma run_app_ok aes sha hmac b : forall cs cs' v rs1 v1, run aes sha hmac b v cs = Ok (rs1, v1) ->
  run aes sha hmac b v (cs ++ cs') = let! (rs2, v2) := run aes sha hmac b v1 cs' in Ok (rs1 ++ rs2, v2).
Proof.
  induction cs as [|c cs IH]; intros cs' v rs1 v1 H.
  - cbn [run] in H. injection H as <- <-. cbn [app]. destruct (run aes sha hmac b v cs') as [[rs2 v2]| | |]; reflexivity.
  - cbn [run app] in *. destruct (step aes sha hmac b v c) as [[r v2]| | |]; cbn [bind] in *; try discriminate.
    destruct (run aes sha hmac b v2 cs) as [[rs v3]| | |] eqn:E; cbn [bind] in H; try discriminate. injection H as <- <-.
    rewrite (IH cs' v2 rs v3 E). destruct (run aes sha hmac b v3 cs') as [[rs2 v4]| | |]; reflexivity.
Qed.
Lemma unlock_state aes sha hmac b v j1 j2 r v' : unlock aes sha hmac b v j1 j2 = Ok (r, v') ->
  v_user v' = v_user v /\ v_recovery v' = v_recovery v /\
  (v' = v /\ (r = 1 -> v_locked v = false) \/ v_locked v' = false /\ r = 1 /\ v_locked v = true /\ (b_volume b = None -> v_keys v' = v_keys v)).
Proof.
  unfold unlock. destruct (v_locked v) eqn:EL; cbn [negb]; [|intros H; injection H as <- <-; auto 6].
  destruct (b_volume b) as [l|]; [|intros H; injection H as <- <-; cbn; auto 8].
  destruct (get_volume_key aes hmac l (v_user v) (v_recovery v) j1) as [[key|]| | |]; intros H; try discriminate;
    try (injection H as <- <-; split; [reflexivity|split; [reflexivity|left; split; [reflexivity|lia]]]).
  destruct (get_master_key aes sha (b_container b) (b_id b) key j2) as [[m|]| | |]; try discriminate;
    try (injection H as <- <-; split; [reflexivity|split; [reflexivity|left; split; [reflexivity|lia]]]).
  destruct (rd m 0 16) as [k1| | |]; cbn [bind] in H; try discriminate. destruct (rd m 16 16) as [k2| | |]; cbn [bind] in H; try discriminate.
  injection H as <- <-. cbn. split; [reflexivity|]. split; [reflexivity|]. right. repeat split; congruence.
Qed.

(* After any calls the passwords are the last that were set, and as long as it is locked a
   volume has no keys: what unlock does is what it does on a freshly opened volume. *)
Theorem C43_history : forall aes sha hmac cl b cs rs v, run aes sha hmac b (opened cl b) cs = Ok (rs, v) ->
  v_user v = last_user cs /\ v_recovery v = last_recovery cs /\ (v_locked v = true -> v_keys v = None /\ v_locked (opened cl b) = true).
Proof.
  intros aes sha hmac cl b. induction cs as [|c cs IH] using rev_ind; intros rs v H.
  - cbn [run] in H. injection H as <- <-. split; [reflexivity|]. split; [reflexivity|]. intros HL. split; [reflexivity|exact HL].
  - apply run_app in H. destruct H as (rs1 & v1 & rs2 & H1 & H2 & _). destruct (IH _ _ H1) as (U & R & K).
    unfold last_user, last_recovery in *. rewrite !fold_left_app. cbn [fold_left]. cbn [run] in H2.
    destruct (step aes sha hmac b v1 c) as [[r v2]| | |] eqn:E; cbn [bind] in H2; try discriminate. injection H2 as <- <-.
    destruct c as [p|p|j1 j2]; cbn [step] in E.
    + injection E as <- <-. cbn. auto.
    + injection E as <- <-. cbn. auto.
    + apply unlock_state in E. destruct E as (E1 & E2 & E3). split; [congruence|]. split; [congruence|]. intros HL.
      destruct E3 as [(-> & _)|(F & _)]; [exact (K HL)|congruence].
Qed.
Print Assumptions C43_history.
Theorem C43_like_fresh : forall aes sha hmac cl b cs rs v p j1 j2, run aes sha hmac b (opened cl b) cs = Ok (rs, v) -> v_locked v = true ->
  run aes sha hmac b v [SetUser (Some p); Unlock j1 j2] =
  let! (rs, v) := run aes sha hmac b (opened cl b) [SetRecovery (last_recovery cs); SetUser (Some p); Unlock j1 j2] in Ok (tl rs, v).
Proof.
  intros aes sha hmac cl b cs rs v p j1 j2 H HL. destruct (C43_history aes sha hmac cl b cs rs v H) as (U & R & K). destruct (K HL) as (K1 & K2).
  cbn [run step bind]. rewrite HL, K1, R, K2. cbn [opened v_locked v_user v_recovery v_keys].
  destruct (unlock aes sha hmac b _ j1 j2) as [[r v2]| | |]; reflexivity.
Qed.
Print Assumptions C43_like_fresh.
(* After any failed attempts the correct password unlocks. *)
Theorem C43_correct_after_failures : forall enc dec sha hmac, primitives enc dec sha hmac ->
  forall cl b cs rs v p before e after cbefore ce cafter key master j1 j2,
  run dec sha hmac b (opened cl b) cs = Ok (rs, v) -> v_locked v = true ->
  b_volume b = Some (before ++ e :: after) -> b_container b = cbefore ++ ce :: cafter ->
  Forall (entry_closed enc hmac (Some p) (last_recovery cs)) before -> entry_opens enc hmac (Some p) (last_recovery cs) e key ->
  Forall (key_entry_closed enc sha (b_id b) key) cbefore -> key_entry_opens enc sha (b_id b) key ce master ->
  len j1 = 32 -> len j2 = 32 ->
  exists v', run dec sha hmac b (opened cl b) (cs ++ [SetUser (Some p); Unlock j1 j2]) = Ok (rs ++ [1; 1], v') /\
  v_locked v' = false /\ v_keys v' = Some (firstn 16 master, skipn 16 master).
Proof.
  intros enc dec sha hmac HP cl b cs rs v p before e after cbefore ce cafter key master j1 j2 H HL E1 E2 F1 O1 F2 O2 J1 J2.
  destruct (C43_history dec sha hmac cl b cs rs v H) as (U & R & K). rewrite (run_app_ok _ _ _ _ _ _ _ _ _ H). cbn [run step bind].
  rewrite (C42_correct_password_partial enc dec sha hmac HP b _ before e after cbefore ce cafter key master j1 j2); cbn [v_locked v_user v_recovery]; try assumption; [|rewrite R; exact F1|rewrite R; exact O1].
  cbn [bind]. eexists. split; [reflexivity|]. split; reflexivity.
Qed.
Print Assumptions C43_correct_after_failures.
(* An unlocked volume stays unlocked, with its keys, and says so when it is unlocked again. *)
Theorem C43_stays_unlocked : forall aes sha hmac b cs v rs v', v_locked v = false -> run aes sha hmac b v cs = Ok (rs, v') ->
  v_locked v' = false /\ v_keys v' = v_keys v /\ Forall2 (fun c r => match c with Unlock _ _ => r = 1 | _ => True end) cs rs.
Proof.
  intros aes sha hmac b. induction cs as [|c cs IH]; intros v rs v' HL H; cbn [run] in H; [injection H as <- <-; auto|].
  destruct (step aes sha hmac b v c) as [[r v1]| | |] eqn:E; cbn [bind] in H; try discriminate.
  destruct (run aes sha hmac b v1 cs) as [[rs1 v2]| | |] eqn:E2; cbn [bind] in H; try discriminate. injection H as <- <-.
  assert (S : v_locked v1 = false /\ v_keys v1 = v_keys v /\ match c with Unlock _ _ => r = 1 | _ => True end).
  { destruct c as [p|p|j1 j2]; cbn [step] in E; [injection E as <- <-; auto..|]. unfold unlock in E. rewrite HL in E. cbn [negb] in E. injection E as <- <-. auto. }
  destruct S as (S1 & S2 & S3). rewrite <- S2. destruct (IH _ _ _ S1 E2) as (I1 & I2 & I3). split; [exact I1|]. split; [exact I2|]. constructor; assumption.
Qed.
Print Assumptions C43_stays_unlocked.
(* two failed attempts and a success *)
Example C43_example : exists v,
  run aes_dec sha256 hmac_sha256 (sample_bags [entry_pw]) (opened false (sample_bags [entry_pw]))
    [Unlock (zeros 32) (zeros 32); SetRecovery (Some [114]); Unlock (zeros 32) (zeros 32); SetUser (Some [112; 119]); Unlock (zeros 32) (zeros 32); Unlock (zeros 32) (zeros 32)] =
  Ok ([0; 1; 0; 1; 1; 1], v).
Proof. eexists. vm_compute. reflexivity. Qed.

(* C44: full statement is false. The size of the buffer is the length of the string up to its
   NUL character, not the given length: a longer length writes outside of the buffer, with a
   shorter one the password ends with uninitialised bytes, a string without NUL is read
   beyond its end. *)
Theorem C44_overflow_refuted : exists mem n fresh, bytes mem /\ len mem = n /\ len fresh = n + 1 /\ set_utf8 mem n fresh = Oob.
Proof. exists [97; 0; 98; 99], 4, (zeros 5). split; [repeat constructor; unfold is_byte; lia|]. auto. Qed.
Print Assumptions C44_overflow_refuted.
Theorem C44_exact_length_refuted : exists mem n fresh1 fresh2 p1 p2, 0 < n < len mem /\ set_utf8 mem n fresh1 = Ok p1 /\ set_utf8 mem n fresh2 = Ok p2 /\
  p1 <> p2 /\ p1 <> firstn (Z.to_nat n) mem /\ p2 <> firstn (Z.to_nat n) mem.
Proof. exists [97; 98; 99; 0], 2, (repeat 1 4), (repeat 2 4), [97; 98; 1], [97; 98; 2]. vm_compute. repeat split; congruence. Qed.
Print Assumptions C44_exact_length_refuted.
Theorem C44_unterminated_refuted : exists mem fresh, set_utf8 mem (len mem) fresh = Oob.
Proof. exists [97; 98], (zeros 3). reflexivity. Qed.
Print Assumptions C44_unterminated_refuted.
(* What holds: a string without NUL characters that is followed by one is stored exactly. *)
Lemma strlen_ok s rest : Forall (fun c => c <> 0) s -> strlen (s ++ 0 :: rest) = Ok (len s).
Proof.
  induction 1 as [|c s C F IH]; [reflexivity|]. cbn [app strlen]. replace (c =? 0) with false by lia. rewrite IH. cbn [bind]. rewrite len_cons. f_equal. lia.
Qed.
Theorem C44_terminated_partial : forall s rest fresh, Forall (fun c => c <> 0) s -> s <> [] -> len s < 2 ^ 27 -> len s < len fresh ->
  set_utf8 (s ++ 0 :: rest) (len s) fresh = Ok s.
Proof.
  intros s rest fresh HF HN HL Hf. unfold set_utf8. rewrite strlen_ok by exact HF. cbn [bind].
  assert (0 < len s) by (destruct s; [congruence|rewrite len_cons; pose proof (len_nonneg s); lia]).
  replace (negb (len s =? 0) && (len s <=? 128 * 1024 * 1024 - 1)) with true by lia. cbn [check bind].
  replace (rd (s ++ 0 :: rest) 0 (len s)) with (Ok s) by (symmetry; apply (rd_mid [] s (0 :: rest)); reflexivity). cbn [bind].
  rewrite wr_front by (rewrite len_slice by lia; lia). cbn [bind].
  assert (LK : exists x, skipn (length s) (slice fresh 0 (len s + 1)) = [x]).
  { assert (L : length (skipn (length s) (slice fresh 0 (len s + 1))) = 1%nat).
    { pose proof (len_slice fresh 0 (len s + 1)) as LS. unfold len in *. rewrite skipn_length. lia. }
    destruct (skipn (length s) (slice fresh 0 (len s + 1))) as [|x [|]]; try discriminate. eauto. }
  destruct LK as (x & ->). replace (len s + 1 - 1) with (len s) by lia.
  pose proof (wr_at s [x] [] [0] eq_refl) as W. cbn [app] in W. rewrite W. cbn [bind]. rewrite slice_app_l by lia. rewrite slice_all by reflexivity. reflexivity.
Qed.
Print Assumptions C44_terminated_partial.
(* An empty password is refused, and one of 128 MiB. *)
Theorem C44_refused : (forall s rest n fresh, Forall (fun c => c <> 0) s -> s = [] \/ 2 ^ 27 <= len s -> set_utf8 (s ++ 0 :: rest) n fresh = Fail) /\
  (forall u fresh, 2 ^ 27 - 1 <= len u -> set_utf16 u fresh = Fail).
Proof.
  split.
  - intros s rest n fresh HF HL. unfold set_utf8. rewrite strlen_ok by exact HF. cbn [bind].
    replace (negb (len s =? 0) && (len s <=? 128 * 1024 * 1024 - 1)) with false by (destruct HL as [->|HL]; [reflexivity|change (2 ^ 27) with (128 * 1024 * 1024) in HL; lia]). reflexivity.
  - intros u fresh HL. unfold set_utf16. cbv zeta. replace (negb (len u + 1 =? 0) && (len u + 1 <=? 128 * 1024 * 1024 - 1)) with false by (change (2 ^ 27) with (128 * 1024 * 1024) in HL; lia). reflexivity.
Qed.
Print Assumptions C44_refused.
Example C44_example : set_utf8 [112; 119; 0; 33] 2 [9; 9; 9; 9] = Ok [112; 119].
Proof. reflexivity. Qed.

(* C45: full statement is false for passwords of 64 bytes and more: the end-of-string
   character becomes part of the UTF-16 password. *)
Lemma set_utf16_ok s fresh : len s + 2 <= 128 * 1024 * 1024 -> len s + 2 <= len fresh -> set_utf16 s fresh = Ok (s ++ [0]).
Proof.
  intros H1 H2. pose proof (len_nonneg s). unfold set_utf16. replace (negb (len s + 1 =? 0) && (len s + 1 <=? 128 * 1024 * 1024 - 1)) with true by lia. cbn [check bind].
  assert (L0 : len (s ++ [0]) = len s + 1) by (rewrite len_app; reflexivity).
  rewrite wr_front by (rewrite len_slice by lia; lia). cbn [bind].
  assert (LK : exists x, skipn (length (s ++ [0])) (slice fresh 0 (len s + 1 + 1)) = [x]).
  { assert (L : length (skipn (length (s ++ [0])) (slice fresh 0 (len s + 1 + 1))) = 1%nat).
    { pose proof (len_slice fresh 0 (len s + 1 + 1)) as LS. unfold len in *. rewrite skipn_length. lia. }
    destruct (skipn (length (s ++ [0])) (slice fresh 0 (len s + 1 + 1))) as [|x [|]]; try discriminate. eauto. }
  destruct LK as (x & ->). replace (len s + 1 + 1 - 1) with (len (s ++ [0])) by lia.
  pose proof (wr_at (s ++ [0]) [x] [] [0] eq_refl) as W. change ([x] ++ []) with [x] in W. change ([0] ++ []) with [0] in W. rewrite W. cbn [bind]. rewrite slice_app_l by lia. rewrite slice_all by reflexivity. reflexivity.
Qed.
Theorem C45_utf16_refuted : exists s p8 p16, set_utf8 (s ++ [0]) (len s) (zeros 80) = Ok p8 /\ set_utf16 s (zeros 80) = Ok p16 /\
  pbkdf2 hmac_sha256 p8 (repeat 4 16) 1 32 <> pbkdf2 hmac_sha256 p16 (repeat 4 16) 1 32.
Proof.
  exists (repeat 97 64), (repeat 97 64), (repeat 97 64 ++ [0]). split; [reflexivity|]. split; [reflexivity|].
  intros E. apply (f_equal (fun r => match r with Ok (x :: _) => x | _ => 0 end)) in E. vm_compute in E. discriminate E.
Qed.
Print Assumptions C45_utf16_refuted.
(* What holds: up to 63 bytes both give the same keys, with HMAC over any hash function. *)
Lemma hmac_nul hash p d : len p <= 63 -> hmac hash (p ++ [0]) d = hmac hash p d.
Proof.
  intros H. unfold hmac. assert (E : hmac_key hash (p ++ [0]) = hmac_key hash p); [|rewrite E; reflexivity].
  pose proof (len_nonneg p). unfold hmac_key. rewrite len_app. change (len [0]) with 1. replace (64 <? len p + 1) with false by lia. replace (64 <? len p) with false by lia.
  rewrite <- app_assoc. f_equal. rewrite len_app. change (len [0]) with 1. unfold zeros. replace (Z.to_nat (64 - len p)) with (S (Z.to_nat (64 - (len p + 1)))) by lia. reflexivity.
Qed.
Theorem C45_utf16_partial : forall hash s rest fresh8 fresh16, Forall (fun c => c <> 0) s -> 1 <= len s <= 63 -> 65 <= len fresh8 -> 65 <= len fresh16 ->
  exists p8 p16, set_utf8 (s ++ 0 :: rest) (len s) fresh8 = Ok p8 /\ set_utf16 s fresh16 = Ok p16 /\
  (forall d, hmac hash p16 d = hmac hash p8 d) /\
  (forall salt iterations size, pbkdf2 (hmac hash) p16 salt iterations size = pbkdf2 (hmac hash) p8 salt iterations size) /\
  forall aes k out, unlock_with_password aes (hmac hash) k p16 out = unlock_with_password aes (hmac hash) k p8 out.
Proof.
  intros hash s rest fresh8 fresh16 HF HL H8 H16. exists s, (s ++ [0]).
  split; [apply C44_terminated_partial; try assumption; try lia; intros ->; cbn in HL; lia|]. split; [apply set_utf16_ok; lia|].
  assert (EH : forall d, hmac hash (s ++ [0]) d = hmac hash s d) by (intros; apply hmac_nul; lia). split; [exact EH|].
  assert (EI : forall k h out, iterate (hmac hash) (s ++ [0]) k h out = iterate (hmac hash) s k h out).
  { induction k as [|k IH]; intros h out; [reflexivity|]. cbn [iterate]. rewrite EH, IH. reflexivity. }
  assert (EB : forall salt it i size, block (hmac hash) (s ++ [0]) salt it i size = block (hmac hash) s salt it i size).
  { intros. unfold block. rewrite EH, EI. reflexivity. }
  assert (EBs : forall salt it n i, blocks (hmac hash) (s ++ [0]) salt it i n = blocks (hmac hash) s salt it i n).
  { intros salt it. induction n as [|n IH]; intros i; [reflexivity|]. cbn [blocks]. rewrite EB, IH. reflexivity. }
  assert (EP : forall salt iterations size, pbkdf2 (hmac hash) (s ++ [0]) salt iterations size = pbkdf2 (hmac hash) s salt iterations size).
  { intros. unfold pbkdf2. rewrite EBs, EB. reflexivity. }
  split; [exact EP|]. intros. unfold unlock_with_password.
  destruct (if (k_method k =? 0) || (k_method k =? 16) then Ok (40, 32) else if k_method k =? 2 then Ok (24, 16) else Fail) as [[a c]| | |]; [|reflexivity..].
  cbn [bind]. rewrite EP. reflexivity.
Qed.
Print Assumptions C45_utf16_partial.
Example C45_example : set_utf16 [112; 119] (zeros 80) = Ok [112; 119; 0].
Proof. reflexivity. Qed.

(* C58: full statement is false. When the key bag of the container could not be read, an
   encrypted volume is locked and has no key bag; unlock then succeeds without keys. *)
Theorem C58_unlocked_with_keys_refuted : forall aes sha hmac j1 j2, exists b v, v_locked (opened true b) = true /\
  unlock aes sha hmac b (opened true b) j1 j2 = Ok (1, v) /\ v_locked v = false /\ v_keys v = None.
Proof. intros. exists {| b_volume := None; b_container := []; b_id := zeros 16 |}. eexists. repeat split. Qed.
Print Assumptions C58_unlocked_with_keys_refuted.
(* What holds: with a key bag, a volume that was locked and is not any more has its keys. *)
Theorem C58_unlocked_with_keys_partial : forall aes sha hmac cl b cs rs v, b_volume b <> None ->
  run aes sha hmac b (opened cl b) cs = Ok (rs, v) -> v_locked v = false -> exists k1 k2, v_keys v = Some (k1, k2) /\ len k1 = 16 /\ len k2 = 16.
Proof.
  intros aes sha hmac cl b cs rs v HB. revert rs v. induction cs as [|c cs IH] using rev_ind; intros rs v H HL.
  - cbn [run] in H. injection H as <- <-. unfold opened in HL. cbn in HL. destruct (b_volume b); congruence.
  - apply run_app in H. destruct H as (rs1 & v1 & rs2 & H1 & H2 & _). cbn [run] in H2.
    destruct (step aes sha hmac b v1 c) as [[r v2]| | |] eqn:E; cbn [bind] in H2; try discriminate. injection H2 as <- <-.
    destruct c as [p|p|j1 j2]; cbn [step] in E; [injection E as <- <-; cbn in *; eauto..|].
    unfold unlock in E. destruct (v_locked v1) eqn:EL; cbn [negb] in E; [|injection E as <- <-; eauto].
    destruct (b_volume b) as [l|]; [|congruence].
    destruct (get_volume_key aes hmac l (v_user v1) (v_recovery v1) j1) as [[key|]| | |]; try discriminate; try (injection E as <- <-; congruence).
    destruct (get_master_key aes sha (b_container b) (b_id b) key j2) as [[m|]| | |]; try discriminate; try (injection E as <- <-; congruence).
    destruct (rd m 0 16) as [k1| | |] eqn:E1; cbn [bind] in E; try discriminate. destruct (rd m 16 16) as [k2| | |] eqn:E2; cbn [bind] in E; try discriminate.
    injection E as <- <-. cbn. exists k1, k2. split; [reflexivity|]. apply rd_ok in E1. apply rd_ok in E2.
    destruct E1 as (? & ? & ? & ->), E2 as (? & ? & ? & ->). split; apply len_slice; lia.
Qed.
Print Assumptions C58_unlocked_with_keys_partial.
