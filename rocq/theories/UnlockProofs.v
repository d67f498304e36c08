(* Which records a password or a key opens. *)
From Coq Require Import Lia.
From Verif Require Import Base BaseLemmas Crypt CryptSpec CryptProofs KeyBag KeyBagSpec KekProofs Volume VolumeSpec.
Ltac Zify.zify_post_hook ::= Z.div_mod_to_equations.

Notation word r := (bytes r /\ len r = 8).

Lemma concat8' (rs : list (list Z)) : Forall (fun r => word r) rs -> len (concat rs) = 8 * len rs.
Proof. induction 1 as [|r l (_ & R) F IH]; [reflexivity|]. cbn [concat]. rewrite len_app, len_cons. lia. Qed.
Lemma default_word : word default_iv.
Proof. split; [unfold default_iv; cbn [repeat]; repeat (constructor; [unfold is_byte; lia|]); constructor|reflexivity]. Qed.
Section Wrap.
  Variables (enc dec : list Z -> list Z).
  Hypothesis BC : block_cipher enc dec.
  Lemma wrap_passes_len : forall j t a l, word a -> Forall (fun r => word r) l ->
    match wrap_passes enc j t a l with (a', l') => word a' /\ Forall (fun r => word r) l' /\ length l' = length l end.
  Proof.
    induction j as [|j IH]; intros t a l A1 A2; cbn [wrap_passes]; [auto|].
    pose proof (wrap_pass_len enc dec ltac:(intros b B L; apply (BC b B L)) ltac:(intros b B L; apply (BC b B L)) l t a A1 A2) as W.
    destruct (wrap_pass enc t a l) as [a1 l1]. destruct W as (W1 & W2 & W3). specialize (IH (t + len l1) a1 l1 W1 W2).
    destruct (wrap_passes enc j (t + len l1) a1 l1) as [a2 l2]. destruct IH as (I1 & I2 & I3). split; [exact I1|]. split; [exact I2|]. lia.
  Qed.
  Lemma key_wrap_len iv rs : word iv -> Forall (fun r => word r) rs -> len (key_wrap enc iv rs) = 8 + 8 * len rs.
  Proof.
    intros H1 H2. unfold key_wrap. pose proof (wrap_passes_len 6 1 iv rs H1 H2) as W. destruct (wrap_passes enc 6 1 iv rs) as [a l].
    destruct W as ((_ & W1) & W2 & W3). rewrite len_app, concat8' by exact W2. unfold len in *. lia.
  Qed.
  Lemma words8_ok : forall n x, bytes x -> len x = 8 * Z.of_nat n -> Forall (fun r => word r) (words8 n x) /\ concat (words8 n x) = x /\ length (words8 n x) = n.
  Proof.
    induction n as [|n IH]; intros x B L; [cbn [words8]; split; [constructor|]; split; [|reflexivity]; destruct x; [reflexivity|unfold len in L; cbn [length] in L; lia]|].
    cbn [words8 concat length]. destruct (IH (skipn 8 x)) as (I1 & I2 & I3); [apply bytes_skipn, B|unfold len in *; rewrite skipn_length; lia|].
    split; [constructor; [split; [apply bytes_firstn, B|unfold len in *; rewrite firstn_length; lia]|exact I1]|].
    split; [rewrite I2; apply firstn_skipn|lia].
  Qed.
  (* blocks of 8 bytes are a wrapping of something *)
  Lemma unwrap_surj kb n w : In kb [128; 192; 256] -> (1 <= n < 1000)%nat -> bytes w -> len w = 8 * Z.of_nat n + 8 ->
    exists iv x, word iv /\ bytes x /\ len x = 8 * Z.of_nat n /\ key_unwrap dec kb w = Ok (iv ++ x) /\ w = key_wrap enc iv (words8 n x).
  Proof.
    intros HK Hn HB HL.
    destruct (words8_ok n (skipn 8 w)) as (I1 & I2 & I3); [apply bytes_skipn, HB|unfold len in *; rewrite skipn_length; lia|].
    destruct (wrap_passes_surj enc dec BC 6 (words8 n (skipn 8 w)) 1 (firstn 8 w)) as (a & rs & W1 & W2 & W3 & W4);
      [split; [apply bytes_firstn, HB|unfold len in *; rewrite firstn_length; lia]|exact I1|].
    assert (EW : w = key_wrap enc a rs) by (unfold key_wrap; rewrite W4, I2; symmetry; apply firstn_skipn).
    assert (Brs : bytes (concat rs)) by (clear - W2; induction W2 as [|r l (B & _) F IH]; [constructor|cbn [concat]; apply bytes_app; auto]).
    assert (Lrs : len (concat rs) = 8 * Z.of_nat n) by (rewrite concat8' by exact W2; unfold len; lia).
    assert (E8 : forall l : list (list Z), Forall (fun r => word r) l -> words8 (length l) (concat l) = l).
    { induction l as [|r l IH]; intros F; [reflexivity|]. cbn [length words8 concat]. pose proof (Forall_inv F) as (_ & Lr).
      rewrite firstn_app, skipn_app. replace (8 - length r)%nat with 0%nat by (unfold len in Lr; lia).
      rewrite (firstn_all2 (n := 8) r) by (unfold len in Lr; lia). rewrite (skipn_all2 (n := 8) r) by (unfold len in Lr; lia).
      rewrite firstn_O, skipn_O, app_nil_r, app_nil_l, IH by (apply (Forall_inv_tail F)). reflexivity. }
    exists a, (concat rs). split; [exact W1|]. split; [exact Brs|]. split; [exact Lrs|].
    replace n with (length rs) by lia. rewrite E8 by exact W2. split; [|exact EW]. rewrite EW.
    apply (key_unwrap_ok enc dec); try assumption; [intros b B L; apply (BC b B L)..| |unfold len; lia].
    intros ->. cbn [length] in *. lia.
  Qed.
  Lemma unwrap_wrapped kb n key : In kb [128; 192; 256] -> (1 <= n < 1000)%nat -> bytes key -> len key = 8 * Z.of_nat n ->
    key_unwrap dec kb (key_wrap enc default_iv (words8 n key)) = Ok (default_iv ++ key).
  Proof.
    intros HK Hn HB HL. destruct (words8_ok n key HB HL) as (I1 & I2 & I3).
    rewrite (key_unwrap_ok enc dec); try assumption; [rewrite I2; reflexivity|intros b B L; apply (BC b B L)..| | |unfold len; lia].
    - exact default_word.
    - intros E. rewrite E in I3. cbn [length] in I3. lia.
  Qed.
End Wrap.

Lemma list_eqb_eq : forall a b, list_eqb a b = true <-> a = b.
Proof.
  induction a as [|x a IH]; intros [|y b]; cbn [list_eqb]; try (split; congruence).
  rewrite andb_true_iff, Z.eqb_eq, IH. split; [intros (-> & ->); reflexivity|intros E; split; congruence].
Qed.
Lemma list_eqb_neq a b : list_eqb a b = false <-> a <> b.
Proof. rewrite <- not_true_iff_false, list_eqb_eq. reflexivity. Qed.

(* the common part of unlocking: unwrap w, compare, take the key *)
Definition open_wrapped (dec : list Z -> list Z) (ks : Z) (w : list Z) : res (option (list Z)) :=
  let! u := key_unwrap dec (ks * 8) w in
  let! head := rd u 0 8 in
  if negb (list_eqb head kek_iv) then Ok None else
  let! x := rd u 8 ks in Ok (Some x).

Section Open.
  Variables (enc dec : list Z -> list Z).
  Hypothesis BC : block_cipher enc dec.
  Lemma wraps_iff ks key w : ks = 16 \/ ks = 32 -> bytes key -> len key = ks -> ks + 8 <= len w ->
    wraps enc key w <-> slice w 0 (ks + 8) = key_wrap enc default_iv (words8 (Z.to_nat (ks / 8)) key).
  Proof.
    intros HK HB HL Hw.
    destruct (words8_ok (Z.to_nat (ks / 8)) key HB ltac:(lia)) as (I1 & I2 & I3).
    assert (N : Nat.div (length key) 8 = Z.to_nat (ks / 8)) by (unfold len in HL; destruct HK; subst ks; [replace (length key) with 16%nat by lia|replace (length key) with 32%nat by lia]; reflexivity).
    unfold wraps. rewrite N.
    assert (LK : len (key_wrap enc default_iv (words8 (Z.to_nat (ks / 8)) key)) = ks + 8).
    { rewrite (key_wrap_len enc dec BC) by (try exact default_word; exact I1). unfold len in *. rewrite I3. lia. }
    split.
    - intros (rest & ->). rewrite slice_app_l by lia. apply slice_all. lia.
    - intros E. exists (slice w (ks + 8) (len w - (ks + 8))). rewrite <- E. unfold slice.
      change (Z.to_nat 0) with 0%nat. rewrite skipn_O. rewrite (firstn_all2 (skipn _ w)); [symmetry; apply firstn_skipn|unfold len in *; rewrite skipn_length; lia].
  Qed.
  Lemma open_wrapped_ok ks key w : ks = 16 \/ ks = 32 -> bytes key -> len key = ks -> ks + 8 <= len w -> wraps enc key w ->
    open_wrapped dec ks (slice w 0 (ks + 8)) = Ok (Some key).
  Proof.
    intros HK HB HL Hw W. rewrite (wraps_iff ks key w HK HB HL Hw) in W. unfold open_wrapped. rewrite W.
    rewrite (unwrap_wrapped enc dec BC); [|cbn [In]; lia|lia|exact HB|lia]. cbn [bind].
    pose proof default_word as (_ & D). replace (rd (default_iv ++ key) 0 8) with (Ok default_iv) by (symmetry; apply (rd_mid [] default_iv key); lia). cbn [bind].
    change (list_eqb default_iv kek_iv) with true. cbn [negb].
    pose proof (rd_mid default_iv key [] ks ltac:(lia)) as R. rewrite app_nil_r, D in R. rewrite R. reflexivity.
  Qed.
  Lemma open_wrapped_none ks w : ks = 16 \/ ks = 32 -> bytes w -> ks + 8 <= len w -> (forall key, bytes key -> len key = ks -> ~ wraps enc key w) ->
    open_wrapped dec ks (slice w 0 (ks + 8)) = Ok None.
  Proof.
    intros HK HB Hw N.
    destruct (unwrap_surj enc dec BC (ks * 8) (Z.to_nat (ks / 8)) (slice w 0 (ks + 8))) as (iv & x & (B1 & L1) & B2 & L2 & E1 & E2);
      [cbn [In]; lia|lia|apply bytes_slice, HB|rewrite len_slice by lia; lia|].
    unfold open_wrapped. rewrite E1. cbn [bind]. replace (rd (iv ++ x) 0 8) with (Ok iv) by (symmetry; rewrite <- (app_nil_l (iv ++ x)); apply (rd_mid [] iv x); lia). cbn [bind].
    replace (list_eqb iv kek_iv) with false; [reflexivity|]. symmetry. apply list_eqb_neq. intros ->.
    apply (N x B2 ltac:(lia)). apply (wraps_iff ks x w HK B2 ltac:(lia) Hw). exact E2.
  Qed.
  Lemma open_wrapped_cases ks w : ks = 16 \/ ks = 32 -> bytes w -> ks + 8 <= len w ->
    (open_wrapped dec ks (slice w 0 (ks + 8)) = Ok None /\ forall key, bytes key -> len key = ks -> ~ wraps enc key w) \/
    exists key, open_wrapped dec ks (slice w 0 (ks + 8)) = Ok (Some key) /\ bytes key /\ len key = ks /\ wraps enc key w.
  Proof.
    intros HK HB Hw.
    destruct (unwrap_surj enc dec BC (ks * 8) (Z.to_nat (ks / 8)) (slice w 0 (ks + 8))) as (iv & x & (B1 & L1) & B2 & L2 & E1 & E2);
      [cbn [In]; lia|lia|apply bytes_slice, HB|rewrite len_slice by lia; lia|].
    destruct (list_eqb iv kek_iv) eqn:EI.
    - right. exists x. apply list_eqb_eq in EI. subst iv. assert (W : wraps enc x w) by (apply (wraps_iff ks x w HK B2 ltac:(lia) Hw); exact E2).
      split; [apply open_wrapped_ok; try assumption; lia|]. split; [exact B2|]. split; [lia|exact W].
    - left. assert (N : forall key, bytes key -> len key = ks -> ~ wraps enc key w).
      { intros key B L W. pose proof (open_wrapped_ok ks key w HK B L Hw W) as O. unfold open_wrapped in O. rewrite E1 in O. cbn [bind] in O.
        replace (rd (iv ++ x) 0 8) with (Ok iv) in O by (symmetry; rewrite <- (app_nil_l (iv ++ x)); apply (rd_mid [] iv x); lia). cbn [bind] in O.
        rewrite EI in O. cbn [negb] in O. congruence. }
      split; [apply open_wrapped_none; assumption|exact N].
  Qed.
End Open.

Lemma wr_front out x : len x <= len out -> wr out 0 x = Ok (x ++ skipn (length x) out).
Proof.
  intros H. rewrite <- (firstn_skipn (length x) out) at 1. apply (wr_at [] (firstn (length x) out) (skipn (length x) out) x).
  unfold len in *. rewrite firstn_length. lia.
Qed.
Lemma dk_bytes hmac p s c n : (forall k d, bytes (hmac k d)) -> bytes (dk hmac p s c n).
Proof.
  intros H. unfold dk. apply bytes_firstn. remember (seq 0 _) as l eqn:El. clear El. induction l as [|i l IH]; [constructor|].
  cbn [map concat]. apply bytes_app. split; [|exact IH]. clear IH. induction (Z.to_nat c) as [|k IK]; [apply zeros_bytes|].
  cbn [t]. rewrite <- xor_eq. apply xor_bytes_bytes; [exact IK|]. destruct k; apply H.
Qed.

Section Volume.
  Variables (enc dec : list Z -> list Z -> list Z) (sha : list Z -> list Z) (hmac : list Z -> list Z -> list Z).
  Hypothesis BC : forall key, bytes key -> len key = 16 \/ len key = 32 -> block_cipher (enc key) (dec key).
  Hypothesis HM : forall k d, bytes (hmac k d) /\ len (hmac k d) = 32.
  Hypothesis SH : forall d, len (sha d) = 32.

  Lemma dk_len p s c n : 0 <= n -> len (dk hmac p s c n) = n.
  Proof.
    intros Hn. unfold dk. pose proof (blocks_len hmac (fun k d => proj2 (HM k d)) p s c (seq 0 (Z.to_nat ((n + 31) / 32)))) as BL. unfold len in *. rewrite seq_length in BL. rewrite firstn_length. lia.
  Qed.
  Lemma password_ks k p : block_cipher (enc (dk hmac p (k_salt k) (k_iterations k) (method_size (k_method k)))) (dec (dk hmac p (k_salt k) (k_iterations k) (method_size (k_method k)))).
  Proof.
    apply BC; [apply dk_bytes; intros; apply HM|]. unfold method_size. destruct (k_method k =? 2); rewrite dk_len; lia.
  Qed.
  Lemma method_size_cases m : method_size m = 16 \/ method_size m = 32.
  Proof. unfold method_size. destruct (m =? 2); lia. Qed.
  Lemma unlock_password_eq k p out : In (k_method k) [0; 2; 16] -> 1 <= k_iterations k < 2 ^ 32 -> len (k_wrapped k) = 40 ->
    let ks := method_size (k_method k) in
    unlock_with_password dec hmac k p out =
    let! r := open_wrapped (dec (dk hmac p (k_salt k) (k_iterations k) ks)) ks (slice (k_wrapped k) 0 (ks + 8)) in
    match r with None => Ok None | Some x => let! o := wr out 0 x in Ok (Some o) end.
  Proof.
    intros HI Hi HL ks. unfold unlock_with_password, open_wrapped, ks, method_size.
    assert (EM : (if (k_method k =? 0) || (k_method k =? 16) then Ok (40, 32) else if k_method k =? 2 then Ok (24, 16) else Fail) =
      Ok ((if k_method k =? 2 then 16 else 32) + 8, if k_method k =? 2 then 16 else 32)) by (destruct HI as [<-|[<-|[<-|[]]]]; reflexivity).
    rewrite EM. cbn [bind]. replace (w32 (k_iterations k)) with (k_iterations k) by (unfold w32; rewrite Z.mod_small; lia).
    rewrite (pbkdf2_ok hmac (fun k d => proj2 (HM k d))) by (destruct (k_method k =? 2); lia). cbn [bind].
    pose proof (rd_in (k_wrapped k) 0 ((if k_method k =? 2 then 16 else 32) + 8) ltac:(destruct (k_method k =? 2); lia) ltac:(destruct (k_method k =? 2); lia) ltac:(destruct (k_method k =? 2); lia)) as R.
    rewrite R. cbn [bind]. destruct (key_unwrap _ _ _) as [u| | |]; cbn [bind]; try reflexivity.
    destruct (rd u 0 8) as [h| | |]; cbn [bind]; try reflexivity. destruct (negb (list_eqb h kek_iv)); [reflexivity|].
    destruct (rd u 8 _) as [x| | |]; cbn [bind]; reflexivity.
  Qed.
  Lemma unlock_password_opens k p key out : In (k_method k) [0; 2; 16] -> 1 <= k_iterations k < 2 ^ 32 -> len (k_wrapped k) = 40 -> len out = 32 ->
    password_opens enc hmac k p key -> unlock_with_password dec hmac k p out = Ok (Some (key ++ skipn (length key) out)).
  Proof.
    intros HI Hi HL HO (B & L & W). rewrite unlock_password_eq by assumption. cbv zeta. pose proof (method_size_cases (k_method k)).
    rewrite (open_wrapped_ok _ _ (password_ks k p) _ key) by (try assumption; lia). cbn [bind]. rewrite wr_front by lia. reflexivity.
  Qed.
  Lemma unlock_password_closed k p out : In (k_method k) [0; 2; 16] -> 1 <= k_iterations k < 2 ^ 32 -> bytes (k_wrapped k) -> len (k_wrapped k) = 40 ->
    (forall key, ~ password_opens enc hmac k p key) -> unlock_with_password dec hmac k p out = Ok None.
  Proof.
    intros HI Hi HB HL N. rewrite unlock_password_eq by assumption. cbv zeta. pose proof (method_size_cases (k_method k)).
    rewrite (open_wrapped_none _ _ (password_ks k p)); try assumption; [reflexivity|lia|]. intros key B L W. apply (N key). split; [exact B|]. split; [exact L|exact W].
  Qed.

  (* ---- a key opens a record of the container key bag ---- *)
  Lemma unlock_key_eq k key out : In (k_method k) [0; 2] -> len (k_wrapped k) = 40 -> method_size (k_method k) <= len key ->
    let ks := method_size (k_method k) in
    unlock_with_key dec sha k key out =
    let! r := open_wrapped (dec (slice key 0 ks)) ks (slice (k_wrapped k) 0 (ks + 8)) in
    match r with None => Ok None | Some x => let! o := wr out 0 x in
      if k_method k =? 2 then
        let! o := wr o 16 (k_id k) in let! h := rd o 0 32 in let! o := wr o 16 (slice (sha h) 0 16) in Ok (Some o)
      else Ok (Some o) end.
  Proof.
    intros HI HL HK ks. unfold unlock_with_key, open_wrapped, ks. unfold method_size in *.
    assert (EM : (if k_method k =? 0 then Ok (40, 32) else if k_method k =? 2 then Ok (24, 16) else Fail) =
      Ok ((if k_method k =? 2 then 16 else 32) + 8, if k_method k =? 2 then 16 else 32)) by (destruct HI as [<-|[<-|[]]]; reflexivity).
    rewrite EM. cbn [bind].
    pose proof (rd_in (k_wrapped k) 0 ((if k_method k =? 2 then 16 else 32) + 8) ltac:(destruct (k_method k =? 2); lia) ltac:(destruct (k_method k =? 2); lia) ltac:(destruct (k_method k =? 2); lia)) as R.
    rewrite R. cbn [bind].
    pose proof (rd_in key 0 (if k_method k =? 2 then 16 else 32) ltac:(destruct (k_method k =? 2); lia) ltac:(destruct (k_method k =? 2); lia) ltac:(destruct (k_method k =? 2); lia)) as R2.
    rewrite R2. cbn [bind]. destruct (key_unwrap _ _ _) as [u| | |]; cbn [bind]; try reflexivity.
    destruct (rd u 0 8) as [h| | |]; cbn [bind]; try reflexivity. destruct (negb (list_eqb h kek_iv)); [reflexivity|].
    destruct (rd u 8 _) as [x| | |]; cbn [bind]; reflexivity.
  Qed.
  Lemma key_ks k key : bytes (firstn (Z.to_nat (method_size (k_method k))) key) -> method_size (k_method k) <= len key ->
    block_cipher (enc (slice key 0 (method_size (k_method k)))) (dec (slice key 0 (method_size (k_method k)))).
  Proof.
    intros HB HL. apply BC; [exact HB|]. pose proof (method_size_cases (k_method k)). rewrite len_slice by lia. lia.
  Qed.
  Lemma unlock_key_opens k key master out : In (k_method k) [0; 2] -> len (k_wrapped k) = 40 -> len (k_id k) = 16 -> len out = 32 ->
    bytes (firstn (Z.to_nat (method_size (k_method k))) key) -> method_size (k_method k) <= len key ->
    key_opens enc sha k key master -> unlock_with_key dec sha k key out = Ok (Some master).
  Proof.
    intros HI HL Hid HO HB HK (m & B & L & W & E). rewrite unlock_key_eq by assumption. cbv zeta. pose proof (method_size_cases (k_method k)).
    rewrite (open_wrapped_ok _ _ (key_ks k key HB HK) _ m) by (try assumption; lia). cbn [bind]. rewrite wr_front by lia. cbn [bind].
    unfold method_size in L. rewrite E. destruct (k_method k =? 2).
    - assert (LS : length (skipn (length m) out) = 16%nat) by (rewrite skipn_length; unfold len in *; lia).
      pose proof (wr_at m (skipn (length m) out) [] (k_id k) ltac:(unfold len in *; lia)) as W1. rewrite !app_nil_r, L in W1. rewrite W1. cbn [bind].
      assert (R : rd (m ++ k_id k) 0 32 = Ok (m ++ k_id k)) by (pose proof (rd_mid [] (m ++ k_id k) [] 32 ltac:(rewrite len_app; lia)) as R; rewrite app_nil_r in R; exact R).
      rewrite R. cbn [bind]. pose proof (wr_at m (k_id k) [] (slice (sha (m ++ k_id k)) 0 16) ltac:(rewrite len_slice by (rewrite ?SH; lia); lia)) as W2.
      rewrite !app_nil_r, L in W2. rewrite W2. cbn [bind]. reflexivity.
    - rewrite skipn_all2 by (unfold len in *; lia). rewrite app_nil_r. reflexivity.
  Qed.
  Lemma unlock_key_closed k key out : In (k_method k) [0; 2] -> bytes (k_wrapped k) -> len (k_wrapped k) = 40 ->
    bytes (firstn (Z.to_nat (method_size (k_method k))) key) -> method_size (k_method k) <= len key ->
    (forall master, ~ key_opens enc sha k key master) -> unlock_with_key dec sha k key out = Ok None.
  Proof.
    intros HI HB HL HBk HK N. rewrite unlock_key_eq by assumption. cbv zeta. pose proof (method_size_cases (k_method k)).
    rewrite (open_wrapped_none _ _ (key_ks k key HBk HK)); try assumption; [reflexivity|lia|]. intros m B L W. eapply N.
    exists m. split; [exact B|]. split; [exact L|]. split; [exact W|reflexivity].
  Qed.
End Volume.
