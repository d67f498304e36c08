From Coq Require Import Lia.
From Verif Require Import Base BaseLemmas Crypt CryptSpec CryptProofs KeyBag KeyBagSpec KekProofs Volume VolumeSpec UnlockProofs VolumeProofs PropVolume ToolOpt ToolOptSpec ToolMain ToolMainSpec PropToolMain ToolPass ToolPassSpec.
Ltac Zify.zify_post_hook ::= Z.div_mod_to_equations.

(* ---- options ---- *)
Lemma variable_keeps c : forall b v, (forall d w, In (d, w) b -> ~ In d [c]) -> fold_left (fun v (o : Z * option (list Z)) => if fst o =? c then snd o else v) b v = v.
Proof.
  induction b as [|[d w] b IH]; intros v H; [reflexivity|]. cbn [fold_left fst snd].
  assert (d <> c) by (intros ->; apply (H c w); [left; reflexivity|left; reflexivity]). replace (d =? c) with false by lia. apply IH. intros d' w' I. apply (H d' w'). right. exact I.
Qed.
Lemma variable_given c o p : password_given c o p -> option_variable c o = p.
Proof.
  unfold option_variable. intros [L|s L _ _ _]; inversion L as [l N E1 E2|a c' v' b I N E1 E2]; subst; [apply variable_keeps, N|].
  rewrite fold_left_app. cbn [fold_left fst snd]. rewrite Z.eqb_refl. apply variable_keeps, N.
Qed.
Lemma chosen_run o n i : chosen o n i -> mount_run n o = Ok i /\ 0 <= i < n.
Proof.
  intros (N & [(A & L)|(A & -> & ->)]); unfold mount_run, one_volume.
  - rewrite (index_asked o _ A). destruct A as (_ & _ & _ & _ & K). replace (i + 1 =? 0) with false by lia. cbn [andb].
    replace (negb ((i + 1 <=? 0) || (n <? i + 1))) with true by lia. cbn [check bind]. split; [f_equal; lia|lia].
  - rewrite (index_none o A). split; [reflexivity|lia].
Qed.

Section Passwords.
  Variable mem : Z -> list Z.
  Hypothesis MEM : forall n, 0 <= n -> len (mem n) = n.
  Lemma set_given c o p : password_given c o p -> set_password mem p = Ok p.
  Proof.
    intros [L|s L F N B]; [reflexivity|]. cbn [set_password]. rewrite (C44_terminated_partial s [] (mem (len s + 1)) F N B); [reflexivity|].
    pose proof (len_nonneg s). rewrite MEM; lia.
  Qed.
  Lemma info_copy s : wr (mem (len s + 1)) 0 (slice (s ++ [0]) 0 (len s + 1)) = Ok (s ++ [0]).
  Proof.
    pose proof (len_nonneg s). assert (LS : len (s ++ [0]) = len s + 1) by (rewrite len_app; reflexivity).
    assert (E : slice (s ++ [0]) 0 (len s + 1) = s ++ [0]).
    { unfold slice. change (Z.to_nat 0) with 0%nat. rewrite skipn_O. apply firstn_all2. unfold len in LS |- *. lia. }
    rewrite E, wr_front by (rewrite LS, MEM; lia). rewrite skipn_all2; [rewrite app_nil_r; reflexivity|].
    pose proof (MEM (len s + 1) ltac:(lia)) as M. unfold len in *. lia.
  Qed.
  Lemma info_set s : info_set_password mem s = set_password mem s.
  Proof. destruct s as [s|]; [|reflexivity]. cbn [info_set_password set_password]. rewrite info_copy. cbn [bind]. replace (len s + 1 - 1) with (len s) by lia. reflexivity. Qed.
End Passwords.

Section Decide.
  Variables (enc dec : list Z -> list Z -> list Z) (sha : list Z -> list Z) (hmac : list Z -> list Z -> list Z).
  Hypothesis BC : forall key, bytes key -> len key = 16 \/ len key = 32 -> block_cipher (enc key) (dec key).
  Hypothesis HM : forall k d, bytes (hmac k d) /\ len (hmac k d) = 32.
  Hypothesis SH : forall d, len (sha d) = 32.

  Lemma password_decided e k p : password_record e k -> closed_for enc hmac k p \/ exists pw key, p = Some pw /\ password_opens enc hmac k pw key.
  Proof.
    intros (_ & R & _). destruct (record_read _ _ _ R) as (_ & _ & HB & HL & _). destruct p as [p|]; [|left; exact Logic.I].
    pose proof (method_size_cases (k_method k)) as MS.
    destruct (open_wrapped_cases _ _ (password_ks enc dec sha hmac BC HM SH k p) (method_size (k_method k)) (k_wrapped k) MS HB ltac:(lia)) as [(_ & N)|(key & _ & B & L & W)].
    - left. intros key (B & L & W). exact (N key B L W).
    - right. exists p, key. split; [reflexivity|]. split; [exact B|]. split; [exact L|exact W].
  Qed.
  Lemma entry_decided u r e : (be_type e = 3 -> exists k, password_record e k) -> entry_closed enc hmac u r e \/ exists key, entry_opens enc hmac u r e key.
  Proof.
    intros C. destruct (Z.eq_dec (be_type e) 3) as [T|T]; [|left; left; exact T]. destruct (C T) as (k & R).
    destruct (password_decided e k u R) as [CU|(p & key & -> & O)].
    - destruct (password_decided e k r R) as [CR|(p & key & -> & O)]; [left; right; exists k; auto|].
      right. exists key, k. split; [exact R|]. right. split; [exact CU|]. exists p. auto.
    - right. exists key, k. split; [exact R|]. left. exists p. auto.
  Qed.
  Lemma volume_key_decided u r : forall l, (forall e, In e l -> be_type e = 3 -> exists k, password_record e k) ->
    Forall (entry_closed enc hmac u r) l \/ exists key, volume_key_of enc hmac l u r key.
  Proof.
    induction l as [|e l IH]; intros C; [left; constructor|].
    destruct (entry_decided u r e (C e (or_introl eq_refl))) as [EC|(key & O)]; [|right; exists key, [], e, l; auto].
    destruct IH as [F|(key & a & x & c & -> & F & O)]; [intros e' I; apply C; right; exact I|left; constructor; assumption|].
    right. exists key, (e :: a), x, c. split; [reflexivity|]. split; [constructor; assumption|exact O].
  Qed.
  Lemma key_decided id e k key : key_record id e k -> bytes key -> method_size (k_method k) <= len key ->
    (forall m, ~ key_opens enc sha k key m) \/ exists m, key_opens enc sha k key m.
  Proof.
    intros (_ & _ & R) HK L. destruct (record_read _ _ _ R) as (_ & _ & HB & HL & _). pose proof (method_size_cases (k_method k)) as MS.
    assert (BK : bytes (firstn (Z.to_nat (method_size (k_method k))) key)) by (apply bytes_firstn, HK).
    destruct (open_wrapped_cases _ _ (key_ks enc dec sha hmac BC HM SH k key BK L) (method_size (k_method k)) (k_wrapped k) MS HB ltac:(lia)) as [(_ & N)|(m & _ & B & LM & W)].
    - left. intros m (x & B & LX & W & _). exact (N x B LX W).
    - right. eexists. exists m. split; [exact B|]. split; [exact LM|]. split; [exact W|reflexivity].
  Qed.
  Lemma master_key_decided id key : bytes key -> forall l,
    (forall e, In e l -> be_type e = 2 -> be_id e = id -> exists k, key_record id e k /\ method_size (k_method k) <= len key) ->
    Forall (key_entry_closed enc sha id key) l \/ exists m, master_key_of enc sha l id key m.
  Proof.
    intros HK. induction l as [|e l IH]; intros C; [left; constructor|].
    assert (D : key_entry_closed enc sha id key e \/ exists m, key_entry_opens enc sha id key e m).
    { destruct (Z.eq_dec (be_type e) 2) as [T|T]; [|left; left; exact T]. destruct (list_eq_dec Z.eq_dec (be_id e) id) as [I|I]; [|left; right; left; exact I].
      destruct (C e (or_introl eq_refl) T I) as (k & R & L). destruct (key_decided id e k key R HK L) as [N|(m & O)]; [left; right; right; exists k; auto|right; exists m, k; auto]. }
    destruct D as [EC|(m & O)]; [|right; exists m, [], e, l; auto].
    destruct IH as [F|(m & a & x & c & -> & F & O)]; [intros e' I; apply C; right; exact I|left; constructor; assumption|].
    right. exists m, (e :: a), x, c. split; [reflexivity|]. split; [constructor; assumption|exact O].
  Qed.

  Lemma key_size_of l u r key : volume_key_of enc hmac l u r key -> exists e k, In e l /\ password_record e k /\ len key = method_size (k_method k) /\ bytes key.
  Proof.
    intros (a & e & c & -> & _ & k & R & O). exists e, k. split; [apply in_or_app; right; left; reflexivity|]. split; [exact R|].
    destruct O as [(p & _ & B & L & _)|(_ & p & _ & B & L & _)]; auto.
  Qed.

  Variables j1 j2 : list Z.
  Hypothesis J1 : len j1 = 32.
  Hypothesis J2 : len j2 = 32.
  Lemma unlock_unlockable b v keys : v_locked v = true -> unlockable enc sha hmac b (v_user v) (v_recovery v) keys ->
    unlock dec sha hmac b v j1 j2 = Ok (1, {| v_locked := false; v_user := v_user v; v_recovery := v_recovery v; v_keys := Some keys |}).
  Proof.
    intros HL (l & key & m & EB & (a & e & c & -> & F & O) & (a' & e' & c' & EC & F' & O') & ->).
    exact (unlock_ok enc dec sha hmac BC HM SH b v a e c a' e' c' key m j1 j2 HL EB EC F O F' O' J1 J2).
  Qed.
  Lemma unlock_decided b v l : v_locked v = true -> b_volume b = Some l -> complete b ->
    (exists keys, unlockable enc sha hmac b (v_user v) (v_recovery v) keys) \/
    (unlock dec sha hmac b v j1 j2 = Ok (0, v) /\ Forall (entry_closed enc hmac (v_user v) (v_recovery v)) l) \/ unlock dec sha hmac b v j1 j2 = Ok (-1, v).
  Proof.
    intros HL EB (C1 & C2). destruct (volume_key_decided (v_user v) (v_recovery v) l) as [F|(key & K)]; [intros e I; exact (C1 l e EB I)| |].
    - right. left. split; [exact (unlock_wrong enc dec sha hmac BC HM SH b v l j1 j2 HL EB F)|exact F].
    - destruct (key_size_of _ _ _ _ K) as (e0 & k0 & I0 & R0 & L0 & B0).
      destruct (master_key_decided (b_id b) key B0 (b_container b)) as [F|(m & M)].
      + intros e I T E. destruct (C2 e I T E) as (k & R & H). exists k. split; [exact R|]. rewrite L0. exact (H l e0 k0 EB I0 R0).
      + right. right. destruct K as (a & e & c & -> & FA & O). unfold unlock. rewrite HL, EB. cbn [negb].
        rewrite (volume_key_ok enc dec sha hmac BC HM SH a e c _ _ key j1 FA O J1). rewrite (master_key_none enc dec sha hmac BC HM SH _ _ key _ j2 B0 F). reflexivity.
      + left. eexists. exists l, key, m. split; [exact EB|]. split; [exact K|]. split; [exact M|reflexivity].
  Qed.
End Decide.
