(* What a session on a volume leaves behind. *)
From Coq Require Import Lia.
From Verif Require Import Base BaseLemmas Crypt CryptSpec CryptProofs KeyBag KeyBagSpec Volume VolumeSpec UnlockProofs Walk FileEntry Secrets SecretsSpec SecretsProofs PropVolume Sha256 Aes PropCrypt.
Ltac Zify.zify_post_hook ::= Z.div_mod_to_equations.

(* the same calls with the contents of the stack *)
Definition with_stack (before : array -> list Z) (c : call) : call :=
  match c with Unlock _ _ => Unlock (before VolumeKey) (before MasterKey) | c => c end.

Section Session.
  Variable aes : list Z -> list Z -> list Z.
  Variable sha : list Z -> list Z.
  Variable hmac : list Z -> list Z -> list Z.
  Variable before : array -> list Z.
  Hypothesis HH : forall k d, len (hmac k d) = 32.
  Hypothesis HS : forall d, len (sha d) = 32.
  Hypothesis HF : frames before.

  Section Clean.
    Variable P : array * list Z -> Prop.
    Hypothesis HP1 : forall a c, In a [PasswordKey; Wrapped; Digest; VolumeKey; MasterKey] -> cleared c \/ c = before a -> P (a, c).
    Hypothesis HP2 : forall a c, In a [Iterate; Salt; Block; Vector] -> P (a, c).
    Hypothesis HP3 : forall a c, In a [UserPassword; RecoveryPassword] -> cleared c -> P (a, c).
    Lemma free_password_does a p : In a [UserPassword; RecoveryPassword] -> does P (free_password a p) (Ok tt).
    Proof.
      intros I. destruct p as [p|]; [|apply does_ret]. apply does_give. apply HP3; [exact I|]. apply wipe_cleared. rewrite len_app. reflexivity.
    Qed.
    Lemma step_does b v c : does P (step_l aes sha hmac before b v c) (step aes sha hmac b v (with_stack before c)).
    Proof.
      destruct c as [p|p|j1 j2]; cbn [step_l step with_stack].
      - apply does_after; [apply free_password_does; cbn [In]; auto|apply does_ret].
      - apply does_after; [apply free_password_does; cbn [In]; auto|apply does_ret].
      - apply unlock_does; assumption.
    Qed.
    Lemma run_does b : forall cs v, does P (run_l aes sha hmac before b v cs) (run aes sha hmac b v (map (with_stack before) cs)).
    Proof.
      induction cs as [|c cs IH]; intros v; [apply does_ret|]. cbn [run_l run map].
      apply (does_eq _ _ (bind (step aes sha hmac b v (with_stack before c)) (fun p => bind (run aes sha hmac b (snd p) (map (with_stack before) cs)) (fun q => Ok (fst p :: fst q, snd q))))).
      { destruct (step aes sha hmac b v (with_stack before c)) as [[r w]| | |]; cbn [bind fst snd]; try reflexivity.
        destruct (run aes sha hmac b w (map (with_stack before) cs)) as [[rs w']| | |]; reflexivity. }
      apply does_bind; [apply step_does|]. intros p _. apply does_bind; [apply IH|]. intros q _. apply does_ret.
    Qed.
    Lemma session_does b v cs : does P (session_l aes sha hmac before b v cs) (let! p := run aes sha hmac b v (map (with_stack before) cs) in Ok (fst p)).
    Proof.
      apply does_bind; [apply run_does|]. intros p _. apply does_after; [|apply does_ret]. apply does_after; apply free_password_does; cbn [In]; auto.
    Qed.
  End Clean.

  Lemma clean_session b v cs r s' : session_l aes sha hmac before b v cs [] = (r, s') -> Forall (kept_clean before) s'.
  Proof.
    intros H. destruct (session_does (kept_clean before)) with (b := b) (v := v) (cs := cs) (s := @nil (array * list Z)) as (d & E & F).
    - intros a c I D. unfold kept_clean. cbn [fst snd]. cbn [In] in I. destruct a; tauto || (exfalso; intuition discriminate).
    - intros a c I. unfold kept_clean. cbn [fst snd]. cbn [In] in I. destruct a; tauto || (exfalso; intuition discriminate).
    - intros a c I D. unfold kept_clean. cbn [fst snd]. cbn [In] in I. destruct a; tauto || (exfalso; intuition discriminate).
    - rewrite E in H. injection H as _ <-. rewrite app_nil_r. exact F.
  Qed.

  (* how much memory of passwords is given back *)
  Definition pend (p : option (list Z)) : list Z := match p with Some p => [len p + 1] | None => [] end.
  Lemma given_app f d s : given f (d ++ s) = given f s ++ given f d.
  Proof. unfold given. rewrite filter_app, map_app, rev_app_distr. reflexivity. Qed.
  Lemma given_none f d : Forall (fun x => f (fst x) = false) d -> given f d = [].
  Proof. intros F. unfold given. replace (filter (fun x => f (fst x)) d) with (@nil (array * list Z)); [reflexivity|]. symmetry. induction F as [|x d H F IH]; [reflexivity|]. cbn [filter]. rewrite H. exact IH. Qed.
  Lemma free_password_given a p s r s' f : free_password a p s = (r, s') -> r = Ok tt /\ given f s' = given f s ++ (if f a then pend p else []).
  Proof.
    destruct p as [p|]; cbn [free_password pend]; intros H.
    - injection H as <- <-. split; [reflexivity|]. unfold given. cbn [filter fst]. destruct (f a); [|rewrite app_nil_r; reflexivity].
      cbn [map rev snd]. rewrite wipe_len by (rewrite len_app; reflexivity). reflexivity.
    - injection H as <- <-. split; [reflexivity|]. destruct (f a); rewrite app_nil_r; reflexivity.
  Qed.
  Lemma run_given f pick sets : (forall a, f a = true -> In a [UserPassword; RecoveryPassword]) ->
    f UserPassword = true /\ pick = v_user /\ sets = users /\ f RecoveryPassword = false \/
    f RecoveryPassword = true /\ pick = v_recovery /\ sets = recoveries /\ f UserPassword = false ->
    forall b cs v s rs v' s', run_l aes sha hmac before b v cs s = (Ok (rs, v'), s') ->
    given f s' ++ pend (pick v') = given f s ++ pend (pick v) ++ map (fun p => len p + 1) (sets cs).
  Proof.
    intros HA HB b. induction cs as [|c cs IH]; intros v s rs v' s' H; cbn [run_l] in H.
    { unfold retM in H. injection H as <- <- <-. destruct HB as [(_ & _ & -> & _)|(_ & _ & -> & _)]; cbn [users recoveries map]; rewrite app_nil_r; reflexivity. }
    unfold bindM at 1 in H. destruct (step_l aes sha hmac before b v c s) as [[[r w]| | |] s1] eqn:E1; try discriminate. cbn [snd fst] in H.
    unfold bindM at 1 in H. destruct (run_l aes sha hmac before b w cs s1) as [[[rs1 w1]| | |] s2] eqn:E2; try discriminate. unfold retM in H. cbn [fst snd] in H. injection H as _ <- <-.
    apply IH in E2. rewrite E2. clear E2 IH.
    destruct c as [p|p|j1 j2]; cbn [step_l] in E1.
    - unfold bindM in E1. destruct (free_password UserPassword (v_user v) s) as [r1 s3] eqn:EF. destruct (free_password_given _ _ _ _ _ f EF) as (-> & G).
      unfold retM in E1. injection E1 as _ <- <-. rewrite G.
      destruct HB as [(-> & -> & -> & _)|(_ & -> & -> & ->)]; cbn [v_user v_recovery users recoveries].
      + destruct p as [p|]; cbn [pend map app]; rewrite <- !app_assoc; reflexivity.
      + rewrite <- !app_assoc. reflexivity.
    - unfold bindM in E1. destruct (free_password RecoveryPassword (v_recovery v) s) as [r1 s3] eqn:EF. destruct (free_password_given _ _ _ _ _ f EF) as (-> & G).
      unfold retM in E1. injection E1 as _ <- <-. rewrite G.
      destruct HB as [(_ & -> & -> & ->)|(-> & -> & -> & _)]; cbn [v_user v_recovery users recoveries].
      + rewrite <- !app_assoc. reflexivity.
      + destruct p as [p|]; cbn [pend map app]; rewrite <- !app_assoc; reflexivity.
    - destruct (unlock_does aes sha hmac before HH HS HF (fun x => f (fst x) = false)) with (b := b) (v := v) (s := s) as (d & E & F).
      + intros a c I _. cbn [fst]. destruct (f a) eqn:Ef; [|reflexivity]. apply HA in Ef. cbn [In] in I, Ef. intuition congruence.
      + intros a c I. cbn [fst]. destruct (f a) eqn:Ef; [|reflexivity]. apply HA in Ef. cbn [In] in I, Ef. intuition congruence.
      + rewrite E in E1. injection E1 as E1 <-. rewrite given_app, (given_none f d F), app_nil_r. apply unlock_state in E1. destruct E1 as (U1 & U2 & _).
        destruct HB as [(_ & -> & -> & _)|(_ & -> & -> & _)]; cbn [users recoveries]; rewrite ?U1, ?U2; reflexivity.
  Qed.
  Lemma session_given cl b cs rs s' : session_l aes sha hmac before b (opened cl b) cs [] = (Ok rs, s') ->
    given is_user s' = map (fun p => len p + 1) (users cs) /\ given is_recovery s' = map (fun p => len p + 1) (recoveries cs).
  Proof.
    unfold session_l. unfold bindM at 1. destruct (run_l aes sha hmac before b (opened cl b) cs []) as [[[rs1 v1]| | |] s1] eqn:E; try discriminate. cbn [fst snd].
    unfold bindM at 1, free_l, bindM at 1. destruct (free_password UserPassword (v_user v1) s1) as [r2 s2] eqn:E2.
    pose proof (free_password_given _ _ _ _ _ is_user E2) as (-> & U2). pose proof (free_password_given _ _ _ _ _ is_recovery E2) as (_ & R2).
    destruct (free_password RecoveryPassword (v_recovery v1) s2) as [r3 s3] eqn:E3.
    pose proof (free_password_given _ _ _ _ _ is_user E3) as (-> & U3). pose proof (free_password_given _ _ _ _ _ is_recovery E3) as (_ & R3).
    unfold retM. intros H. injection H as _ <-. cbn [is_user is_recovery] in *. rewrite app_nil_r in U3, R2. split.
    - rewrite U3, U2. refine (eq_trans (run_given is_user v_user users _ _ b cs (opened cl b) [] rs1 v1 s1 E) _); [intros [] I; try discriminate I; cbn [In]; auto|left; auto|reflexivity].
    - rewrite R3, R2. refine (eq_trans (run_given is_recovery v_recovery recoveries _ _ b cs (opened cl b) [] rs1 v1 s1 E) _); [intros [] I; try discriminate I; cbn [In]; auto|right; auto|reflexivity].
  Qed.

  (* what stays of the keys *)
  Hypothesis HA : forall key x, len key = 16 \/ len key = 32 -> len x = 16 -> len (aes key x) = 16.
  Definition grows {A} (m : M leftovers A) : Prop := forall s r s', m s = (r, s') -> incl s s'.
  Lemma does_grows {A} P (m : M leftovers A) r : does P m r -> grows m.
  Proof. intros D s r' s' E. destruct (D s) as (d & E' & _). rewrite E in E'. injection E' as _ ->. intros x I. apply in_or_app. auto. Qed.
  Lemma left_more st st' x : incl st st' -> left_behind st x -> left_behind st' x.
  Proof. intros I (a & c & H & HC). exists a, c. auto. Qed.
  Lemma front_of out x o : wr out 0 x = Ok o -> 8 <= len x -> firstn 8 o = slice x 0 8.
  Proof.
    intros H L. unfold wr in H. destruct ((0 <=? 0) && (0 + len x <=? len out)); [|discriminate]. injection H as <-. change (Z.to_nat 0) with 0%nat. rewrite ?firstn_O, ?app_nil_l.
    rewrite firstn_app. replace (8 - length x)%nat with 0%nat by (unfold len in L; lia). rewrite firstn_O, app_nil_r. reflexivity.
  Qed.
  Lemma Ok_inj {A} (a b : A) : Ok a = Ok b -> a = b.
  Proof. congruence. Qed.
  Lemma front_keep out x o : wr out 16 x = Ok o -> firstn 8 o = firstn 8 out.
  Proof.
    intros H. unfold wr in H. destruct ((0 <=? 16) && (16 + len x <=? len out)) eqn:E; [|discriminate]. apply Ok_inj in H. subst o. apply andb_prop in E. destruct E as (_ & E). apply Z.leb_le in E.
    change (Z.to_nat 16) with 16%nat. pose proof (len_nonneg x). rewrite firstn_app, firstn_firstn. replace (8 - length (firstn 16 out))%nat with 0%nat by (rewrite firstn_length; unfold len in *; lia).
    rewrite firstn_O, app_nil_r. reflexivity.
  Qed.
  Lemma slice_slice (u : list Z) n : 8 <= n -> 8 + n <= len u -> slice (slice u 8 n) 0 8 = slice u 8 8.
  Proof. intros H1 H2. unfold slice. change (Z.to_nat 0) with 0%nat. rewrite skipn_O, firstn_firstn. f_equal. lia. Qed.

  Lemma give_two_grows a c a' c' : grows (bindM (give_back a c) (fun _ => give_back a' c')).
  Proof. intros s r s' H. unfold bindM, give_back in H. injection H as _ <-. intros x I. right. right. exact I. Qed.

  Lemma unlock_with_key_left k key out s x s' : unlock_with_key_l aes sha before k key out s = (Ok (Some x), s') -> left_behind s' (firstn 8 x).
  Proof.
    unfold unlock_with_key_l. intros H. unfold bindM at 1, on_error at 1, retM at 1 in H.
    destruct (if k_method k =? 0 then Ok (40, 32) else if k_method k =? 2 then Ok (24, 16) else Fail) as [[ds ks]| | |] eqn:E; try discriminate.
    assert (EE : ds = ks + 8 /\ (ks = 16 \/ ks = 32)).
    { destruct (k_method k =? 0); [injection E as <- <-; auto|]. destruct (k_method k =? 2); [injection E as <- <-; auto|discriminate]. }
    destruct EE as (-> & EK). clear E. cbv beta iota zeta in H.
    unfold bindM at 1, on_error at 1, onM at 1, bindM at 1, retM at 1 in H.
    destruct (rd (k_wrapped k) 0 (ks + 8)) as [w| | |] eqn:EW; cbn [bind] in H; try discriminate. 
    destruct (rd key 0 ks) as [used| | |] eqn:EU; cbn [bind fst snd] in H; try discriminate.
    apply rd_ok in EU. destruct EU as (_ & _ & LU & EU). assert (LK : len used = ks) by (rewrite EU; apply len_slice; lia). clear EU LU.
    destruct (key_unwrap_l (aes used) (ks * 8) w (before Vector) (before Block) s) as [[u| | |] s1] eqn:EN; try discriminate.
    pose proof (key_unwrap_left (aes used) (ks * 8) w (before Vector) (before Block) s u s1 ltac:(intros y Ly; apply HA; [rewrite LK; exact EK|exact Ly]) EN) as (c & IC & HC).
    destruct (key_unwrap_does (aes used) (fun _ => True) (ks * 8) w (before Vector) (before Block) (fun _ => Logic.I) (fun _ => Logic.I) s) as (d & ED & _). rewrite EN in ED. injection ED as ED _.
    symmetry in ED. apply key_unwrap_len in ED. apply rd_ok in EW. destruct EW as (_ & _ & LW & EW). assert (LU : len u = ks + 8) by (rewrite ED, EW; apply len_slice; lia).
    assert (LB : left_behind s1 (slice u 8 8)) by (exists Block, c; auto). clear IC HC ED EW LW EN.
    unfold onM at 1, bindM at 1, retM at 1 in H. destruct HF as (_ & F2 & _). rewrite wr_front in H by lia. cbn [bind] in H. rewrite rd_front in H by lia. rewrite (rd_in u 0 8) in H by lia. cbn [bind] in H.
    destruct (negb (list_eqb (slice u 0 8) kek_iv)); [unfold bindM, give_back, retM in H; discriminate|].
    unfold onM at 1, bindM at 1, retM at 1 in H. rewrite rd_front in H by lia. rewrite (rd_in u 8 ks) in H by lia. cbn [bind] in H.
    destruct (wr out 0 (slice u 8 ks)) as [o| | |] eqn:EO; try discriminate. apply front_of in EO; [|rewrite len_slice; lia]. rewrite slice_slice in EO by lia.
    destruct (k_method k =? 2).
    - unfold onM at 1, bindM at 1, retM at 1 in H. destruct (wr o 16 (k_id k)) as [o1| | |] eqn:E1; cbn [bind] in H; try discriminate. destruct (rd o1 0 32) as [h| | |]; cbn [bind] in H; try discriminate.
      destruct (wr o1 16 (slice (sha h) 0 16)) as [o2| | |] eqn:E2; cbn [bind] in H; try discriminate. apply front_keep in E1. apply front_keep in E2.
      unfold bindM at 1, bindM at 1, give_back, retM in H. injection H as <- <-. rewrite E2, E1, EO. apply (left_more s1); [intros y I; right; right; exact I|exact LB].
    - unfold bindM at 1, bindM at 1, give_back, retM in H. injection H as <- <-. rewrite EO. apply (left_more s1); [intros y I; right; right; exact I|exact LB].
  Qed.
  Lemma unlock_with_password_left k p out s r s' : unlock_with_password_l aes hmac before k p out s = (Ok r, s') ->
    (forall x, r = Some x -> left_behind s' (firstn 8 x)) /\ (k_iterations k = 1 -> left_behind s' (dk hmac p (k_salt k) 1 (method_size (k_method k)))).
  Proof.
    unfold unlock_with_password_l. intros H. unfold bindM at 1, on_error at 1, retM at 1 in H.
    destruct (if (k_method k =? 0) || (k_method k =? 16) then Ok (40, 32) else if k_method k =? 2 then Ok (24, 16) else Fail) as [[ds ks]| | |] eqn:E; try discriminate.
    assert (EE : ds = ks + 8 /\ (ks = 16 \/ ks = 32) /\ method_size (k_method k) = ks).
    { unfold method_size. destruct ((k_method k =? 0) || (k_method k =? 16)) eqn:E0; [injection E as <- <-|destruct (k_method k =? 2); [injection E as <- <-; auto|discriminate]].
      split; [reflexivity|]. split; [auto|]. apply orb_prop in E0. destruct E0 as [E0|E0]; apply Z.eqb_eq in E0; rewrite E0; reflexivity. }
    destruct EE as (-> & EK & ->). clear E. cbv beta iota zeta in H.
    unfold bindM at 1, on_error at 1 in H.
    destruct (pbkdf2_l hmac p (k_salt k) (w32 (k_iterations k)) ks (before Iterate) s) as [[used| | |] s1] eqn:EP; try discriminate.
    destruct (pbkdf2_does hmac (fun _ => True) p (k_salt k) (w32 (k_iterations k)) ks (before Iterate) (fun _ => Logic.I) (fun _ => Logic.I) s) as (d & ED & _). rewrite EP in ED. injection ED as ED _. symmetry in ED.
    pose proof (pbkdf2_len hmac HH p _ _ _ _ EK ED) as LK.
    assert (LP : k_iterations k = 1 -> left_behind s1 (dk hmac p (k_salt k) 1 ks)).
    { intros K1. rewrite K1 in EP, ED. change (w32 1) with 1 in *. destruct (C38_pbkdf2 hmac HH p (k_salt k) 1 ks) as (E38 & _); [lia|lia|]. rewrite E38 in ED. injection ED as ED. rewrite ED.
      destruct (pbkdf2_left hmac HH p (k_salt k) ks (before Iterate) s used s1 EK EP) as (c & I & HC). exists Iterate, c. auto. }
    clear EP ED. destruct HF as (F1 & F2 & _). unfold onM at 1, bindM at 1, retM at 1 in H. rewrite wr_front in H by lia.
    unfold bindM at 1, on_error at 1, onM at 1, bindM at 1, retM at 1 in H.
    destruct (rd (k_wrapped k) 0 (ks + 8)) as [w| | |] eqn:EW; cbn [bind] in H; try discriminate. rewrite rd_front in H by lia. rewrite rd_whole in H by lia. cbn [bind fst snd] in H.
    destruct (key_unwrap_l (aes used) (ks * 8) w (before Vector) (before Block) s1) as [[u| | |] s2] eqn:EN; try discriminate.
    pose proof (key_unwrap_left (aes used) (ks * 8) w (before Vector) (before Block) s1 u s2 ltac:(intros y Ly; apply HA; [rewrite LK; exact EK|exact Ly]) EN) as (c & IC & HC).
    pose proof (key_unwrap_does (aes used) (fun _ => True) (ks * 8) w (before Vector) (before Block) (fun _ => Logic.I) (fun _ => Logic.I)) as DN. pose proof (does_grows _ _ _ DN _ _ _ EN) as I12.
    destruct (DN s1) as (d2 & ED & _). rewrite EN in ED. injection ED as ED _.
    symmetry in ED. apply key_unwrap_len in ED. apply rd_ok in EW. destruct EW as (_ & _ & LW & EW). assert (LU : len u = ks + 8) by (rewrite ED, EW; apply len_slice; lia).
    assert (LB : left_behind s2 (slice u 8 8)) by (exists Block, c; auto). clear IC HC ED EW LW EN DN.
    unfold onM at 1, bindM at 1, retM at 1 in H. rewrite wr_front in H by lia. unfold onM at 1, bindM at 1, retM at 1 in H. rewrite rd_front in H by lia. rewrite (rd_in u 0 8) in H by lia.
    assert (grown : forall s3, incl s2 s3 -> k_iterations k = 1 -> left_behind s3 (dk hmac p (k_salt k) 1 ks)).
    { intros s3 I3 K1. apply (left_more s1); [|exact (LP K1)]. intros y Iy. apply I3, I12, Iy. }
    destruct (negb (list_eqb (slice u 0 8) kek_iv)).
    { unfold bindM, give_back, retM in H. injection H as <- <-. split; [intros y Hy; discriminate Hy|]. apply grown. intros y I. right. right. exact I. }
    unfold onM at 1, bindM at 1, retM at 1 in H. rewrite rd_front in H by lia. rewrite (rd_in u 8 ks) in H by lia. cbn [bind] in H.
    destruct (wr out 0 (slice u 8 ks)) as [o| | |] eqn:EO; try discriminate. apply front_of in EO; [|rewrite len_slice; lia]. rewrite slice_slice in EO by lia.
    unfold bindM, give_back, retM in H. injection H as <- <-. split; [|apply grown; intros y I; right; right; exact I].
    intros x Hx. injection Hx as <-. rewrite EO. apply (left_more s2); [intros y I; right; right; exact I|exact LB].
  Qed.
  Lemma get_volume_key_left user recovery out : forall l s x s', get_volume_key_l aes hmac before l user recovery out s = (Ok (Some x), s') -> left_behind s' (firstn 8 x).
  Proof.
    induction l as [|e l IH]; intros s x s' H; [discriminate|]. cbn [get_volume_key_l] in H. destruct (negb (be_type e =? 3)); [exact (IH _ _ _ H)|].
    unfold onM, bindM at 1, retM at 1 in H. destruct (kek_read (be_data e)) as [k| | |]; try discriminate.
    unfold bindM at 1 in H. destruct (try_password_l aes hmac before k user out s) as [[r| | |] s1] eqn:E1; try discriminate.
    unfold bindM at 1 in H. destruct r as [y|].
    - unfold retM in H. injection H as <- <-. destruct user as [p|]; [|discriminate]. exact (proj1 (unlock_with_password_left _ _ _ _ _ _ E1) _ eq_refl).
    - destruct (try_password_l aes hmac before k recovery out s1) as [[r| | |] s2] eqn:E2; try discriminate. destruct r as [y|]; [|exact (IH _ _ _ H)].
      unfold retM in H. injection H as <- <-. destruct recovery as [p|]; [|discriminate]. exact (proj1 (unlock_with_password_left _ _ _ _ _ _ E2) _ eq_refl).
  Qed.
  Lemma get_master_key_left id key out : forall l s x s', get_master_key_l aes sha before l id key out s = (Ok (Some x), s') -> left_behind s' (firstn 8 x).
  Proof.
    induction l as [|e l IH]; intros s x s' H; [discriminate|]. cbn [get_master_key_l] in H. destruct (negb (be_type e =? 2) || negb (list_eqb (be_id e) id)); [exact (IH _ _ _ H)|].
    unfold onM, bindM at 1, retM at 1 in H. destruct (kek_read (be_data e)) as [k| | |]; try discriminate.
    unfold bindM at 1 in H. destruct (unlock_with_key_l aes sha before k key out s) as [[r| | |] s1] eqn:E1; try discriminate.
    destruct r as [y|]; [|exact (IH _ _ _ H)]. unfold retM in H. injection H as <- <-. exact (unlock_with_key_left _ _ _ _ _ _ E1).
  Qed.
  Lemma unlock_left b v s r v' s' : unlock_l aes sha hmac before b v s = (Ok (r, v'), s') -> v_locked v = true -> b_volume b <> None -> r = 1 ->
    exists k1 k2, v_keys v' = Some (k1, k2) /\ len k1 = 16 /\ left_behind s' (firstn 8 k1).
  Proof.
    intros H HL HB HR. unfold unlock_l in H. rewrite HL in H. cbn [negb] in H. destruct (b_volume b) as [l|]; [|congruence].
    destruct (get_volume_key_l aes hmac before l (v_user v) (v_recovery v) (before VolumeKey) s) as [[[vk|]| | |] s1] eqn:E1; try discriminate;
      try (unfold bindM, give_back, retM in H; injection H as H _ _; lia).
    destruct (get_master_key_l aes sha before (b_container b) (b_id b) vk (before MasterKey) s1) as [[[mk|]| | |] s2] eqn:E2; try discriminate;
      try (unfold bindM, give_back, retM in H; injection H as H _ _; lia).
    apply get_master_key_left in E2. unfold onM, bindM at 1, retM at 1 in H.
    destruct (rd mk 0 16) as [k1| | |] eqn:R1; cbn [bind] in H; try discriminate. destruct (rd mk 16 16) as [k2| | |]; cbn [bind] in H; try discriminate.
    unfold bindM, give_back, retM in H. injection H as _ <- <-. exists k1, k2. cbn [v_keys]. split; [reflexivity|]. apply rd_ok in R1. destruct R1 as (_ & _ & L & ->).
    split; [apply len_slice; lia|]. apply (left_more s2); [intros y I; right; right; exact I|]. unfold slice. change (Z.to_nat 0) with 0%nat. rewrite skipn_O, firstn_firstn.
    change (Nat.min 8 (Z.to_nat 16)) with 8%nat. exact E2.
  Qed.
End Session.
