(* C117: the passwords of a command line. *)
From Coq Require Import Lia.
From Verif Require Import Base BaseLemmas Crypt CryptSpec CryptProofs KeyBag KeyBagSpec Volume VolumeSpec UnlockProofs VolumeProofs PropVolume Sha256 Aes AesProofs ToolOpt ToolOptSpec ToolMain ToolMainSpec PropToolMain ToolPass ToolPassSpec ToolPassProofs.
Ltac Zify.zify_post_hook ::= Z.div_mod_to_equations.

Definition unlocked_with (u r : option (list Z)) (keys : option (list Z * list Z)) : volume :=
  {| v_locked := false; v_user := u; v_recovery := r; v_keys := keys |}.
Definition allocates (mem : Z -> list Z) : Prop := forall n, 0 <= n -> len (mem n) = n.

Lemma mount_asked aes sha hmac mem j1 j2 vs o i x u r : allocates mem -> chosen o (len vs) i -> nth_error vs (Z.to_nat i) = Some x ->
  password_given opt_p o u -> password_given opt_r o r ->
  mount_main aes sha hmac mem j1 j2 vs o =
  let! v := (let v := {| v_locked := v_locked (opened (fst x) (snd x)); v_user := u; v_recovery := r; v_keys := None |} in
    if v_locked v then let! (n, v) := unlock aes sha hmac (snd x) v j1 j2 in let! _ := check (negb (n =? -1)) in Ok v else Ok v) in
  let! _ := check (negb (v_locked v)) in Ok (i, v).
Proof.
  intros HM C HX HU HR. unfold mount_main. destruct (chosen_run _ _ _ C) as (-> & _). cbn [bind]. rewrite HX.
  rewrite (variable_given _ _ _ HU), (variable_given _ _ _ HR). destruct x as [cl b]. unfold mount_volume.
  rewrite (set_given mem HM _ _ _ HU), (set_given mem HM _ _ _ HR). reflexivity.
Qed.

(* fsapfsmount mounts an encrypted volume exactly when one of the passwords that were given last
   opens it, and with the keys of the volume. *)
Theorem C117_mount_partial : forall enc dec sha hmac, primitives enc dec sha hmac ->
  forall mem j1 j2, allocates mem -> len j1 = 32 -> len j2 = 32 ->
  forall vs o i cl b u r, chosen o (len vs) i -> nth_error vs (Z.to_nat i) = Some (cl, b) -> b_volume b <> None -> complete b ->
  password_given opt_p o u -> password_given opt_r o r ->
  forall k v, mount_main dec sha hmac mem j1 j2 vs o = Ok (k, v) <->
    k = i /\ exists keys, unlockable enc sha hmac b u r keys /\ v = unlocked_with u r (Some keys).
Proof.
  intros enc dec sha hmac (H1 & H2 & H3) mem j1 j2 HM J1 J2 vs o i cl b u r C HX HB HC HU HR k v.
  rewrite (mount_asked dec sha hmac mem j1 j2 vs o i (cl, b) u r HM C HX HU HR). cbn [fst snd].
  destruct (b_volume b) as [l|] eqn:EB; [|congruence]. replace (v_locked (opened cl b)) with true by (unfold opened; rewrite EB; reflexivity). cbv zeta. cbn [v_locked].
  set (v0 := {| v_locked := true; v_user := u; v_recovery := r; v_keys := None |}). split.
  - intros H. destruct (unlock_decided enc dec sha hmac H1 H2 H3 j1 j2 J1 b v0 l eq_refl EB HC) as [(keys & U)|[(E & _)|E]].
    + rewrite (unlock_unlockable enc dec sha hmac H1 H2 H3 j1 j2 J1 J2 b v0 keys eq_refl U) in H. change (1 =? -1) with false in H. cbn [bind negb check v_locked v_user v_recovery v0] in H.
      injection H as <- <-. split; [reflexivity|]. exists keys. split; [exact U|reflexivity].
    + rewrite E in H. discriminate H.
    + rewrite E in H. discriminate H.
  - intros (-> & keys & U & ->). rewrite (unlock_unlockable enc dec sha hmac H1 H2 H3 j1 j2 J1 J2 b v0 keys eq_refl U). reflexivity.
Qed.
Print Assumptions C117_mount_partial.

(* A volume without encryption is mounted, with any passwords. *)
Theorem C117_plain : forall aes sha hmac mem j1 j2, allocates mem -> forall vs o i b u r,
  chosen o (len vs) i -> nth_error vs (Z.to_nat i) = Some (false, b) -> b_volume b = None ->
  password_given opt_p o u -> password_given opt_r o r -> mount_main aes sha hmac mem j1 j2 vs o = Ok (i, unlocked_with u r None).
Proof.
  intros aes sha hmac mem j1 j2 HM vs o i b u r C HX HB HU HR. rewrite (mount_asked aes sha hmac mem j1 j2 vs o i (false, b) u r HM C HX HU HR). cbn [fst snd].
  unfold opened. rewrite HB. reflexivity.
Qed.
Print Assumptions C117_plain.

(* Whatever is in the key bags and on the command line, a volume that is mounted is the one that was
   asked for, it is not locked, and it has its keys if it has a key bag. *)
Theorem C117_mounted_unlocked : forall aes sha hmac mem j1 j2 vs o i v, mount_main aes sha hmac mem j1 j2 vs o = Ok (i, v) ->
  mount_run (len vs) o = Ok i /\ exists cl b, nth_error vs (Z.to_nat i) = Some (cl, b) /\ v_locked v = false /\
  (b_volume b <> None -> exists k1 k2, v_keys v = Some (k1, k2) /\ len k1 = 16 /\ len k2 = 16).
Proof.
  intros aes sha hmac mem j1 j2 vs o i v H. unfold mount_main in H. destruct (mount_run (len vs) o) as [i'| | |]; cbn [bind] in H; try discriminate.
  destruct (nth_error vs (Z.to_nat i')) as [[cl b]|] eqn:EX; [|discriminate]. unfold mount_volume in H.
  destruct (set_password mem (option_variable opt_p o)) as [u| | |]; cbn [bind] in H; try discriminate.
  destruct (set_password mem (option_variable opt_r o)) as [r| | |]; cbn [bind v_locked] in H; try discriminate.
  set (v0 := {| v_locked := v_locked (opened cl b); v_user := u; v_recovery := r; v_keys := v_keys (opened cl b) |}) in H.
  assert (G : exists n w, unlock aes sha hmac b v0 j1 j2 = Ok (n, w) /\ i' = i /\ w = v /\ v_locked v = false).
  { destruct (v_locked (opened cl b)) eqn:EL.
    - destruct (unlock aes sha hmac b v0 j1 j2) as [[n w]| | |]; cbn [bind] in H; try discriminate. destruct (n =? -1); cbn [negb check bind] in H; [discriminate|].
      destruct (v_locked w) eqn:EW; cbn [negb check bind] in H; [discriminate|]. injection H as <- <-. exists n, w. auto.
    - cbn [bind v_locked v0 negb check] in H. injection H as <- <-. exists 1, v0. split; [reflexivity|auto]. }
  destruct G as (n & w & E & -> & -> & EW). split; [reflexivity|]. exists cl, b. split; [exact EX|]. split; [exact EW|]. intros HB.
  apply (C58_unlocked_with_keys_partial aes sha hmac cl b [SetUser u; SetRecovery r; Unlock j1 j2] [match u with Some _ => 1 | None => -1 end; match r with Some _ => 1 | None => -1 end; n] v HB); [|exact EW].
  cbn [run step bind v_locked v_user v_recovery v_keys]. change {| v_locked := v_locked (opened cl b); v_user := u; v_recovery := r; v_keys := v_keys (opened cl b) |} with v0. rewrite E. reflexivity.
Qed.
Print Assumptions C117_mounted_unlocked.

(* fsapfsinfo reads an encrypted volume with the keys of the volume if one of the passwords opens it;
   if none opens any record the volume stays locked. *)
Theorem C117_info_partial : forall enc dec sha hmac, primitives enc dec sha hmac ->
  forall mem j1 j2, allocates mem -> len j1 = 32 -> len j2 = 32 ->
  forall hardware m cl b l o u r, b_volume b = Some l -> complete b -> m <> MContainer \/ hardware = false ->
  password_given opt_p o u -> password_given opt_r o r ->
  let shown := info_volume dec sha hmac mem j1 j2 hardware m (cl, b) (option_variable opt_p o) (option_variable opt_r o) in
  (forall keys, unlockable enc sha hmac b u r keys -> shown = Ok (unlocked_with u r (Some keys))) /\
  (Forall (entry_closed enc hmac u r) l -> shown = Ok (locked u r)) /\
  (forall v, shown = Ok v -> v_locked v = false -> exists keys, unlockable enc sha hmac b u r keys /\ v_keys v = Some keys).
Proof.
  intros enc dec sha hmac (H1 & H2 & H3) mem j1 j2 HM J1 J2 hw m cl b l o u r EB HC HW HU HR shown.
  assert (E : shown = let! (n, v) := unlock dec sha hmac b (locked u r) j1 j2 in let! _ := check (negb (n =? -1)) in Ok v).
  { unfold shown, info_volume. rewrite (variable_given _ _ _ HU), (variable_given _ _ _ HR), !(info_set mem HM), (set_given mem HM _ _ _ HU), (set_given mem HM _ _ _ HR). cbn [bind].
    unfold opened. rewrite EB. cbn [v_locked v_keys]. assert (X : match m with MContainer => hw | _ => false end = false) by (destruct m; destruct HW; congruence). rewrite X. reflexivity. }
  rewrite E. clear E shown. split; [|split].
  - intros keys U. rewrite (unlock_unlockable enc dec sha hmac H1 H2 H3 j1 j2 J1 J2 b (locked u r) keys eq_refl U). reflexivity.
  - intros F. rewrite (unlock_wrong enc dec sha hmac H1 H2 H3 b (locked u r) l j1 j2 eq_refl EB F). reflexivity.
  - intros v H HL. destruct (unlock_decided enc dec sha hmac H1 H2 H3 j1 j2 J1 b (locked u r) l eq_refl EB HC) as [(keys & U)|[(E & _)|E]].
    + rewrite (unlock_unlockable enc dec sha hmac H1 H2 H3 j1 j2 J1 J2 b (locked u r) keys eq_refl U) in H. change (1 =? -1) with false in H. cbn [bind negb check] in H. injection H as <-.
      exists keys. split; [exact U|reflexivity].
    + rewrite E in H. change (0 =? -1) with false in H. cbn [bind negb check] in H. injection H as <-. discriminate HL.
    + rewrite E in H. discriminate H.
Qed.
Print Assumptions C117_info_partial.

(* A volume that is locked since the container key bag cannot be read (hardware encryption) is mounted
   without any password and without keys; fsapfsinfo leaves it locked when it shows the container
   and not otherwise. *)
Theorem C117_hardware_refuted : exists vs o b, chosen o (len vs) 0 /\ nth_error vs 0 = Some (true, b) /\ v_locked (opened true b) = true /\
  password_given opt_p o None /\ password_given opt_r o None /\
  forall aes sha hmac mem j1 j2,
    mount_main aes sha hmac mem j1 j2 vs o = Ok (0, unlocked_with None None None) /\
    info_volume aes sha hmac mem j1 j2 true MHierarchy (true, b) None None = Ok (unlocked_with None None None) /\
    info_volume aes sha hmac mem j1 j2 true MContainer (true, b) None None = Ok (locked None None).
Proof.
  exists [(true, {| b_volume := None; b_container := []; b_id := zeros 16 |})], [], {| b_volume := None; b_container := []; b_id := zeros 16 |}.
  split; [split; [vm_compute; split; discriminate|]; right; split; [apply last_none; intros c v []|split; reflexivity]|].
  split; [reflexivity|]. split; [reflexivity|]. split; [apply password_none, last_none; intros c v []|]. split; [apply password_none, last_none; intros c v []|].
  intros. split; [reflexivity|]. split; reflexivity.
Qed.
Print Assumptions C117_hardware_refuted.

(* An empty password is an error, although the recovery password is right. *)
Lemma mount_recovery aes sha hmac mem j1 j2 b l p w : allocates mem -> b_volume b = Some l -> Forall (fun x => x <> 0) p -> p <> [] -> len p < 2 ^ 27 ->
  unlock aes sha hmac b (locked None (Some p)) j1 j2 = Ok (1, w) -> v_locked w = false ->
  mount_main aes sha hmac mem j1 j2 [(false, b)] [(opt_r, Some p)] = Ok (0, w) /\
  mount_main aes sha hmac mem j1 j2 [(false, b)] [(opt_p, Some []); (opt_r, Some p)] = Fail.
Proof.
  intros HM HB F N B H HW. split; [|reflexivity].
  rewrite (mount_asked aes sha hmac mem j1 j2 [(false, b)] [(opt_r, Some p)] 0 (false, b) None (Some p) HM).
  - cbn [fst snd]. replace (v_locked (opened false b)) with true by (unfold opened; rewrite HB; reflexivity). cbv zeta. cbn [v_locked]. change {| v_locked := true; v_user := None; v_recovery := Some p; v_keys := None |} with (locked None (Some p)). rewrite H.
    destruct w as [wl wu wr' wk]. cbn [v_locked] in HW. subst wl. reflexivity.
  - split; [vm_compute; split; discriminate|]. right. split; [apply last_none; intros c v [E|[]]; injection E as <- <-; vm_compute; intuition discriminate|split; reflexivity].
  - reflexivity.
  - apply password_none, last_none. intros c v [E|[]]. injection E as <- <-. vm_compute. intuition discriminate.
  - apply password_some; try assumption. apply (last_some [opt_r] [] opt_r (Some p) []); [left; reflexivity|intros d w' []].
Qed.
Lemma zeros_allocate : allocates zeros.
Proof. intros n H. unfold zeros, len. rewrite repeat_length. lia. Qed.
Theorem C117_empty_password_refuted : exists b p v, v_locked v = false /\ v_keys v <> None /\
  mount_main aes_dec sha256 hmac_sha256 zeros (zeros 32) (zeros 32) [(false, b)] [(opt_r, Some p)] = Ok (0, v) /\
  mount_main aes_dec sha256 hmac_sha256 zeros (zeros 32) (zeros 32) [(false, b)] [(opt_p, Some []); (opt_r, Some p)] = Fail.
Proof.
  destruct (mount_recovery aes_dec sha256 hmac_sha256 zeros (zeros 32) (zeros 32) (sample_bags [entry_r]) [entry_r] [114] _ zeros_allocate eq_refl
    ltac:(constructor; [discriminate|constructor]) ltac:(discriminate) ltac:(reflexivity) C42_recovery_example eq_refl) as (A & B).
  exists (sample_bags [entry_r]), [114]. eexists. split; [|split; [|split; [exact A|exact B]]]; [reflexivity|discriminate].
Qed.
Print Assumptions C117_empty_password_refuted.

(* The right user password, given after a wrong one. *)
Example C117_example : mount_main aes_dec sha256 hmac_sha256 zeros (zeros 32) (zeros 32) [(false, sample_bags [entry_r]); (false, sample_bags [entry_master; entry_r; entry_pw])]
    [(opt_p, Some [120]); (opt_f, Some [50]); (opt_p, Some [112; 119])] =
  Ok (1, unlocked_with (Some [112; 119]) None (Some (rev (seqz 16), be_enc 16 0xfa59fa1264da84297d39bfd37aa917e6))).
Proof.
  assert (X : forall aes sha hmac b0 b w, b_volume b <> None -> unlock aes sha hmac b (locked (Some [112; 119]) None) (zeros 32) (zeros 32) = Ok (1, w) -> v_locked w = false ->
    mount_main aes sha hmac zeros (zeros 32) (zeros 32) [(false, b0); (false, b)] [(opt_p, Some [120]); (opt_f, Some [50]); (opt_p, Some [112; 119])] = Ok (1, w)).
  { intros aes sha hmac b0 b w HB H HW. unfold mount_main. change (mount_run (len [(false, b0); (false, b)]) [(opt_p, Some [120]); (opt_f, Some [50]); (opt_p, Some [112; 119])]) with (Ok 1). cbn [bind].
    change (nth_error [(false, b0); (false, b)] (Z.to_nat 1)) with (Some (false, b)). cbv iota. unfold mount_volume.
    change (set_password zeros (option_variable opt_p [(opt_p, Some [120]); (opt_f, Some [50]); (opt_p, Some [112; 119])])) with (Ok (Some [112; 119])).
    change (set_password zeros (option_variable opt_r [(opt_p, Some [120]); (opt_f, Some [50]); (opt_p, Some [112; 119])])) with (@Ok (option (list Z)) None). cbn [bind].
    unfold opened. destruct (b_volume b); [|congruence]. cbn [v_locked v_keys]. change {| v_locked := true; v_user := Some [112; 119]; v_recovery := None; v_keys := None |} with (locked (Some [112; 119]) None).
    rewrite H. destruct w as [wl wu wr' wk]. cbn [v_locked] in HW. subst wl. reflexivity. }
  apply (X aes_dec sha256 hmac_sha256 (sample_bags [entry_r]) (sample_bags [entry_master; entry_r; entry_pw])); [discriminate|exact C42_example|reflexivity].
Qed.
(* The key bags of the example are as the theorems want them. *)
Lemma sample_record ms ty m w : In m ms -> m = 0 \/ m = 2 -> 0 <= w < 2 ^ 192 -> record ms (sample_entry ty m w) (sample_key m w).
Proof.
  intros HI HM HW. split; [|split; [exact HI|]].
  - exists [1], (zeros 4), (zeros 8). split; [reflexivity|]. unfold kek_ok. destruct HM as [-> | ->]; repeat split; try reflexivity; try (vm_compute; congruence); repeat constructor; vm_compute; congruence.
  - unfold sample_key. cbn [k_wrapped]. apply bytes_app. split; [apply be_enc_bytes|apply zeros_bytes].
Qed.
Example C117_complete_example : complete (sample_bags [entry_master; entry_r; entry_pw]).
Proof.
  assert (P : forall w, 0 <= w < 2 ^ 192 -> password_record (sample_entry 3 2 w) (sample_key 2 w)).
  { intros w W. split; [reflexivity|]. split; [apply sample_record; [cbn; auto|auto|exact W]|]. cbn [sample_key k_iterations]. lia. }
  split.
  - intros l e E I T. cbn [sample_bags b_volume] in E. injection E as <-. destruct I as [<-|[<-|[<-|[]]]]; [discriminate T| |]; eexists; apply P; split; reflexivity || (vm_compute; congruence).
  - intros e I T E. destruct I as [<-|[]]. exists (sample_key 2 0xd161425862545308cb548e3fe44fa35f05a11d6e83032126). split; [split; [reflexivity|split; [reflexivity|apply sample_record; [cbn; auto|auto|split; reflexivity || (vm_compute; congruence)]]]|].
    intros l e' k' _ _ _. change (method_size (k_method (sample_key 2 0xd161425862545308cb548e3fe44fa35f05a11d6e83032126))) with 16. destruct (method_size_cases (k_method k')); lia.
Qed.
