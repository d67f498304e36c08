(* Property C116: passwords and keys do not stay behind in memory. *)
From Coq Require Import Lia.
From Verif Require Import Base BaseLemmas Crypt CryptSpec CryptProofs KeyBag KeyBagSpec Volume VolumeSpec Walk FileEntry Secrets SecretsSpec SecretsProofs SecretsTop PropVolume Sha256 Aes AesProofs.
Ltac Zify.zify_post_hook ::= Z.div_mod_to_equations.

(* What holds: whatever is on the medium, whatever the calls and whatever they give, the arrays
   of passwords, of the key of a password, of unwrapped keys, of the volume key and of the volume
   master key are cleared when they are given back (or were never written). *)
Theorem C116_cleared_partial : forall aes sha hmac, (forall k d, len (hmac k d) = 32) -> (forall d, len (sha d) = 32) ->
  forall before, frames before -> forall b v cs answers left,
  session_l aes sha hmac before b v cs [] = (answers, left) -> Forall (kept_clean before) left.
Proof. intros aes sha hmac HH HS before HF b v cs r s H. exact (clean_session aes sha hmac before HH HS HF b v cs r s H). Qed.
Print Assumptions C116_cleared_partial.

(* Every password that was set is given back, with its terminator: also those that were replaced. *)
Theorem C116_passwords_freed : forall aes sha hmac, (forall k d, len (hmac k d) = 32) -> (forall d, len (sha d) = 32) ->
  forall before, frames before -> forall locked b cs answers left,
  session_l aes sha hmac before b (opened locked b) cs [] = (Ok answers, left) ->
  given is_user left = map (fun p => len p + 1) (users cs) /\ given is_recovery left = map (fun p => len p + 1) (recoveries cs).
Proof. intros aes sha hmac HH HS before HF cl b cs rs s H. exact (session_given aes sha hmac before HH HS HF cl b cs rs s H). Qed.
Print Assumptions C116_passwords_freed.

(* The functions with leftovers give the answers of those of C42-C45. *)
Theorem C116_same_answers : forall aes sha hmac, (forall k d, len (hmac k d) = 32) -> (forall d, len (sha d) = 32) ->
  forall before, frames before -> forall b v cs left,
  fst (run_l aes sha hmac before b v cs left) = run aes sha hmac b v (map (with_stack before) cs).
Proof.
  intros aes sha hmac HH HS before HF b v cs s.
  destruct (run_does aes sha hmac before HH HS HF (fun _ => True)) with (b := b) (cs := cs) (v := v) (s := s) as (d & E & _); auto. rewrite E. reflexivity.
Qed.
Print Assumptions C116_same_answers.

(* AES gives blocks. *)
Lemma xor_bytes_length a b n : length a = n -> length b = n -> length (xor_bytes a b) = n.
Proof. intros H1 H2. unfold xor_bytes. rewrite map_length, combine_length. lia. Qed.
Lemma mix_length p1 p2 p3 p4 : forall k s, length s = (4 * k)%nat -> length (mix p1 p2 p3 p4 s) = (4 * k)%nat.
Proof.
  induction k as [|k IH]; intros s H.
  - destruct s; [reflexivity|cbn [length] in H; lia].
  - destruct s as [|w [|x [|y [|z s]]]]; cbn [length] in H; try lia. cbn [mix length]. rewrite (IH s); lia.
Qed.
Lemma split_length n : forall k l, length l = (k * n)%nat -> Forall (fun x => length x = n) (split n k l) /\ length (split n k l) = k.
Proof.
  induction k as [|k IH]; intros l H; [split; [constructor|reflexivity]|]. cbn [split length]. destruct (IH (skipn n l)) as (I1 & I2); [rewrite skipn_length; lia|].
  split; [constructor; [rewrite firstn_length; lia|exact I1]|lia].
Qed.
Lemma expand_length nk : forall fuel i rcon w, (1 <= nk)%nat -> (nk <= length w)%nat -> Forall (fun x => length x = 4%nat) w ->
  Forall (fun x => length x = 4%nat) (expand nk fuel i rcon w) /\ length (expand nk fuel i rcon w) = (fuel + length w)%nat.
Proof.
  induction fuel as [|fuel IH]; intros i rcon w H1 H2 F; [auto|]. cbn [expand].
  assert (N : forall k, (k < length w)%nat -> length (nth k w []) = 4%nat) by (intros k Hk; exact (proj1 (Forall_nth _ _) F k [] Hk)).
  assert (L0 : length (hd [] w) = 4%nat) by (destruct w as [|x w]; [cbn [length] in H2; lia|exact (Forall_inv F)]).
  edestruct IH as (I1 & I2); [exact H1| | |split; [exact I1|rewrite I2; cbn [length]; lia]]; [cbn [length]; lia|].
  constructor; [|exact F]. apply xor_bytes_length; [apply N; lia|].
  destruct (Nat.modulo i nk =? 0)%nat; [apply xor_bytes_length; [rewrite map_length, app_length, skipn_length, firstn_length; lia|reflexivity]|].
  destruct ((6 <? nk)%nat && (Nat.modulo i nk =? 4)%nat); [rewrite map_length|]; exact L0.
Qed.
Lemma concat_length4 l : Forall (fun x : list Z => length x = 4%nat) l -> length (concat l) = (4 * length l)%nat.
Proof. induction 1 as [|x l H F IH]; [reflexivity|]. cbn [concat length]. rewrite app_length. lia. Qed.
Lemma dec_rounds_length : forall keys s, Forall (fun x => length x = 16%nat) keys -> length s = 16%nat -> length (dec_rounds keys s) = 16%nat.
Proof.
  induction keys as [|k keys IH]; intros s F H; [exact H|]. cbn [dec_rounds].
  assert (LX : length (xor_bytes (map inv_sub (inv_shift_rows s)) k) = 16%nat) by (apply xor_bytes_length; [reflexivity|exact (Forall_inv F)]).
  destruct keys as [|k' keys]; [exact LX|]. apply IH; [exact (Forall_inv_tail F)|]. apply (mix_length 14 11 13 9 4). exact LX.
Qed.
Lemma aes_dec_len key x : len key = 16 \/ len key = 32 -> len x = 16 -> len (aes_dec key x) = 16.
Proof.
  intros HK HX. assert (EX : length x = 16%nat) by (unfold len in HX; lia). assert (EN : exists nk, length key = (nk * 4)%nat /\ (1 <= nk)%nat).
  { destruct HK as [HK|HK]; [exists 4%nat|exists 8%nat]; unfold len in HK; lia. }
  destruct EN as (nk & EN & HN). assert (RK : Forall (fun x => length x = 16%nat) (round_keys key) /\ length (round_keys key) = (nk + 7)%nat).
  { unfold round_keys. rewrite EN, Nat.div_mul by lia. destruct (split_length 4 nk key EN) as (S1 & S2).
    destruct (expand_length nk (4 * (nk + 7) - nk) nk 1 (rev (split 4 nk key))) as (X1 & X2); [exact HN|rewrite rev_length; lia|apply Forall_rev, S1|].
    apply split_length. rewrite concat_length4 by (apply Forall_rev, X1). rewrite rev_length, X2, rev_length. lia. }
  destruct RK as (R1 & R2). unfold aes_dec. destruct (rev (round_keys key)) as [|k keys] eqn:E.
  - apply (f_equal (@length _)) in E. rewrite rev_length in E. cbn [length] in E. lia.
  - assert (F : Forall (fun x => length x = 16%nat) (k :: keys)) by (rewrite <- E; apply Forall_rev, R1).
    unfold len. rewrite dec_rounds_length; [reflexivity|exact (Forall_inv_tail F)|]. apply xor_bytes_length; [exact EX|exact (Forall_inv F)].
Qed.

(* The claim is false: whenever a volume is unlocked, the first 8 bytes of the key that decrypts
   its files stay on the stack (block_data of libfsapfs_encryption_aes_key_unwrap is not
   cleared). *)
Theorem C116_key_left : forall sha hmac, (forall k d, len (hmac k d) = 32) -> (forall d, len (sha d) = 32) ->
  forall before, frames before -> forall b v s v' s',
  unlock_l aes_dec sha hmac before b v s = (Ok (1, v'), s') -> v_locked v = true -> b_volume b <> None ->
  exists key1 key2, v_keys v' = Some (key1, key2) /\ len key1 = 16 /\ left_behind s' (firstn 8 key1).
Proof.
  intros sha hmac HH HS before HF b v s v' s' H HL HB.
  exact (unlock_left aes_dec sha hmac before HH HS HF aes_dec_len b v s 1 v' s' H HL HB eq_refl).
Qed.
Print Assumptions C116_key_left.

(* And with a record of one iteration every attempt, right or wrong, leaves the whole key that is
   derived from the password (hash_buffer of libfsapfs_password_pbkdf2 is not cleared). *)
Theorem C116_password_key_left : forall hmac, (forall k d, len (hmac k d) = 32) ->
  forall before, frames before -> forall k p out s r s',
  unlock_with_password_l aes_dec hmac before k p out s = (Ok r, s') -> k_iterations k = 1 ->
  left_behind s' (dk hmac p (k_salt k) 1 (method_size (k_method k))).
Proof.
  intros hmac HH before HF k p out s r s' H.
  exact (proj2 (unlock_with_password_left aes_dec sha256 hmac before HH sha256_len HF aes_dec_len k p out s r s' H)).
Qed.
Print Assumptions C116_password_key_left.

Definition zero_stack (a : array) : list Z := match a with Wrapped => zeros 40 | _ => zeros 32 end.
Lemma zero_frames : frames zero_stack.
Proof. repeat split. Qed.

Lemma two_calls aes sha hmac before cl b l p j1 j2 s r w s1 : b_volume b = Some l -> unlock_l aes sha hmac before b (locked None (Some p)) s = (Ok (r, w), s1) -> v_user w = None -> v_recovery w = Some p ->
  session_l aes sha hmac before b (opened cl b) [SetRecovery (Some p); Unlock j1 j2] s = (Ok [1; r], (RecoveryPassword, wipe (p ++ [0]) (len p + 1)) :: s1).
Proof.
  intros EB E U R. replace (opened cl b) with (locked None None) by (unfold opened, locked; rewrite EB; reflexivity). unfold session_l. unfold bindM at 1. cbn [run_l]. unfold bindM at 1.
  change (step_l aes sha hmac before b (locked None None) (SetRecovery (Some p)) s) with (Ok (1, locked None (Some p)), s). cbv beta iota. cbn [snd fst].
  unfold bindM at 1. unfold bindM at 1. change (step_l aes sha hmac before b (locked None (Some p)) (Unlock j1 j2)) with (unlock_l aes sha hmac before b (locked None (Some p))).
  rewrite E. unfold bindM, retM, free_l. cbn [fst snd]. unfold bindM. rewrite U, R. reflexivity.
Qed.
Lemma session_of aes sha hmac cl b l p w k1 k2 : (forall k d, len (hmac k d) = 32) -> (forall d, len (sha d) = 32) -> (forall key x, len key = 16 \/ len key = 32 -> len x = 16 -> len (aes key x) = 16) ->
  unlock aes sha hmac b (locked None (Some p)) (zeros 32) (zeros 32) = Ok (1, w) -> b_volume b = Some l -> v_user w = None -> v_recovery w = Some p -> v_keys w = Some (k1, k2) ->
  exists left, session_l aes sha hmac zero_stack b (opened cl b) [SetRecovery (Some p); Unlock [] []] [] = (Ok [1; 1], left) /\ left_behind left (firstn 8 k1) /\
    Forall (kept_clean zero_stack) left /\ given is_recovery left = [len p + 1] /\ given is_user left = [].
Proof.
  intros HH HS HA H HB HU HR HK.
  destruct (unlock_does aes sha hmac zero_stack HH HS zero_frames (fun _ => True)) with (b := b) (v := locked None (Some p)) (s := @nil (array * list Z)) as (d & E & _); auto.
  change (zero_stack VolumeKey) with (zeros 32) in E. change (zero_stack MasterKey) with (zeros 32) in E. rewrite H in E.
  destruct (unlock_left aes sha hmac zero_stack HH HS zero_frames HA b _ _ _ _ _ E eq_refl ltac:(congruence) eq_refl) as (k1' & k2' & EK & _ & L).
  rewrite HK in EK. injection EK as <- <-.
  pose proof (two_calls aes sha hmac zero_stack cl b l p [] [] _ _ _ _ HB E HU HR) as T. eexists. split; [exact T|].
  split; [apply (left_more (d ++ [])); [intros y I; right; exact I|exact L]|].
  split; [exact (C116_cleared_partial _ _ _ HH HS _ zero_frames _ _ _ _ _ T)|].
  destruct (C116_passwords_freed _ _ _ HH HS _ zero_frames _ _ _ _ _ T) as (H1 & H2). split; [exact H2|exact H1].
Qed.
(* the volume of C42: its key is 15, 14, ..., 0 *)
Theorem C116_secrets_refuted : exists b v key1 key2 left,
  unlock aes_dec sha256 hmac_sha256 b (locked None (Some [114])) (zeros 32) (zeros 32) = Ok (1, v) /\ v_keys v = Some (key1, key2) /\
  session_l aes_dec sha256 hmac_sha256 zero_stack b (opened true b) [SetRecovery (Some [114]); Unlock [] []] [] = (Ok [1; 1], left) /\
  left_behind left (firstn 8 key1) /\ firstn 8 key1 = [15; 14; 13; 12; 11; 10; 9; 8].
Proof.
  destruct (session_of _ _ _ true _ [entry_r] _ _ _ _ hmac_sha256_len sha256_len aes_dec_len C42_recovery_example eq_refl eq_refl eq_refl eq_refl) as (left & E & L & _).
  do 4 eexists. exists left. split; [exact C42_recovery_example|]. split; [reflexivity|]. split; [exact E|]. split; [exact L|]. reflexivity.
Qed.
Print Assumptions C116_secrets_refuted.

(* the same session: what the theorems say of its memory *)
Example C116_example : exists left, session_l aes_dec sha256 hmac_sha256 zero_stack (sample_bags [entry_r]) (opened true (sample_bags [entry_r])) [SetRecovery (Some [114]); Unlock [] []] [] = (Ok [1; 1], left) /\
  Forall (kept_clean zero_stack) left /\ given is_recovery left = [2] /\ given is_user left = [].
Proof.
  destruct (session_of _ _ _ true _ [entry_r] _ _ _ _ hmac_sha256_len sha256_len aes_dec_len C42_recovery_example eq_refl eq_refl eq_refl eq_refl) as (left & E & _ & K & R & U).
  exists left. split; [exact E|]. split; [exact K|]. split; [exact R|exact U].
Qed.
(* passwords only: no volume key bag, the first password is replaced *)
Example C116_replaced_example : session_l aes_dec sha256 hmac_sha256 zero_stack {| b_volume := None; b_container := []; b_id := [] |} (opened true {| b_volume := None; b_container := []; b_id := [] |})
  [SetUser (Some [112; 119]); SetUser (Some [120]); Unlock [] []] [] =
  (Ok [1; 1; 1], [(UserPassword, [0; 0]); (MasterKey, zeros 32); (VolumeKey, zeros 32); (UserPassword, [0; 0; 0])]).
Proof. reflexivity. Qed.
