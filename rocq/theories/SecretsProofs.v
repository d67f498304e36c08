(* The functions with leftovers give the same answers and clear their arrays. *)
From Coq Require Import Lia.
From Verif Require Import Base BaseLemmas Crypt CryptProofs KeyBag Volume UnlockProofs Walk FileEntry Secrets SecretsSpec.
Ltac Zify.zify_post_hook ::= Z.div_mod_to_equations.

Lemma wipe_cleared buf n : len buf = n -> cleared (wipe buf n).
Proof.
  intros H. unfold wipe. rewrite skipn_all2 by (unfold len in H; lia). rewrite app_nil_r. unfold zeros, cleared.
  apply Forall_forall. intros x I. symmetry. exact (repeat_spec _ _ _ I).
Qed.
Lemma wipe_len buf n : len buf = n -> len (wipe buf n) = n.
Proof. intros H. unfold wipe. rewrite len_app, zeros_len by (pose proof (len_nonneg buf); lia). unfold len in *. rewrite skipn_length. lia. Qed.
Lemma wr_len l off x l' : wr l off x = Ok l' -> len l' = len l.
Proof.
  unfold wr. destruct ((0 <=? off) && (off + len x <=? len l)) eqn:E; [|discriminate]. apply andb_prop in E. destruct E as (E1 & E2).
  intros H. injection H as <-. rewrite !len_app. unfold len in *. rewrite firstn_length, skipn_length. lia.
Qed.

Lemma xor_len_min : forall a b, len a <= len b -> len (xor a b) = len a.
Proof.
  induction a as [|x a IH]; intros [|y b] H; [reflexivity..| |].
  - rewrite len_cons in H. pose proof (len_nonneg a). change (len (@nil Z)) with 0 in H. lia.
  - cbn [xor]. rewrite !len_cons in *. rewrite IH; lia.
Qed.

Section Does.
  Variable P : array * list Z -> Prop.
  (* gives r, and only memory that satisfies P is given back *)
  Definition does {A} (m : M leftovers A) (r : res A) : Prop := forall s, exists d, m s = (r, d ++ s) /\ Forall P d.
  Lemma does_ret {A} (r : res A) : does (retM r) r.
  Proof. intros s. exists []. split; [reflexivity|constructor]. Qed.
  Lemma does_bind {A B} (m : M leftovers A) (f : A -> M leftovers B) r g :
    does m r -> (forall a, r = Ok a -> does (f a) (g a)) -> does (bindM m f) (bind r g).
  Proof.
    intros H1 H2 s. destruct (H1 s) as (d & E & F). unfold bindM. rewrite E. destruct r as [a| | |]; cbn [bind]; try (exists d; auto; fail).
    destruct (H2 a eq_refl (d ++ s)) as (d' & E' & F'). exists (d' ++ d). rewrite <- app_assoc. split; [exact E'|]. apply Forall_app. auto.
  Qed.
  Lemma does_on {A B} (r : res A) (f : A -> M leftovers B) g : (forall a, r = Ok a -> does (f a) (g a)) -> does (onM r f) (bind r g).
  Proof. intros H. apply does_bind; [apply does_ret|exact H]. Qed.
  Lemma does_give a c : P (a, c) -> does (give_back a c) (Ok tt).
  Proof. intros H s. exists [(a, c)]. split; [reflexivity|auto]. Qed.
  Lemma does_error {A} (m : M leftovers A) e r : does m r -> does e (Ok tt) -> does (on_error m e) r.
  Proof.
    intros H1 H2 s. destruct (H1 s) as (d & E & F). unfold on_error. rewrite E. destruct r as [a| | |]; try (exists d; auto; fail).
    destruct (H2 (d ++ s)) as (d' & E' & F'). rewrite E'. cbn [snd]. exists (d' ++ d). rewrite <- app_assoc. split; [reflexivity|]. apply Forall_app. auto.
  Qed.
  (* after something was given back *)
  Lemma does_after {A} (m : M leftovers unit) (n : M leftovers A) r : does m (Ok tt) -> does n r -> does (bindM m (fun _ => n)) r.
  Proof. intros H1 H2. apply (does_bind m (fun _ => n) (Ok tt) (fun _ => r) H1). auto. Qed.
  Lemma does_eq {A} (m : M leftovers A) r r' : r = r' -> does m r -> does m r'.
  Proof. intros ->. auto. Qed.
End Does.

Section Unwrap.
  Variable dec : list Z -> list Z.
  Definition bufs (r : res (list Z * list Z * list Z)) : res (list Z) := let! x := r in Ok (fst (fst x)).
  Lemma step_bufs n round i buf : bufs (unwrap_step_l dec n round i buf) = unwrap_step dec n round i buf.
  Proof.
    unfold bufs, unwrap_step_l, unwrap_step. destruct (rd buf 0 8) as [iv| | |]; try reflexivity. cbn [bind].
    destruct (rd buf (i * 8) 8) as [r| | |]; try reflexivity. cbn [bind].
    destruct (wr buf 0 _) as [b1| | |]; try reflexivity. cbn [bind]. destruct (wr b1 _ _) as [b2| | |]; reflexivity.
  Qed.
  Lemma blocks_bufs n round : forall i x, bufs (unwrap_blocks_l dec n round i x) = unwrap_blocks dec n round i (fst (fst x)).
  Proof.
    induction i as [|i IH]; intros x; [reflexivity|]. cbn [unwrap_blocks_l unwrap_blocks]. rewrite <- step_bufs.
    destruct (unwrap_step_l dec n round (Z.of_nat (S i)) (fst (fst x))) as [y| | |]; try reflexivity. cbn [bufs bind]. apply IH.
  Qed.
  Lemma rounds_bufs n : forall r x, bufs (unwrap_rounds_l dec n r x) = unwrap_rounds dec n r (fst (fst x)).
  Proof.
    induction r as [|r IH]; intros x; [reflexivity|]. cbn [unwrap_rounds_l unwrap_rounds]. rewrite <- blocks_bufs.
    destruct (unwrap_blocks_l dec n (Z.of_nat r) (Z.to_nat (n - 1)) x) as [y| | |]; try reflexivity. cbn [bufs bind]. apply IH.
  Qed.
  Lemma key_unwrap_does (P : array * list Z -> Prop) kb w v b : (forall c, P (Block, c)) -> (forall c, P (Vector, c)) -> does P (key_unwrap_l dec kb w v b) (key_unwrap dec kb w).
  Proof.
    intros H1 H2. unfold key_unwrap_l, key_unwrap.
    destruct (check ((kb =? 128) || (kb =? 192) || (kb =? 256))) as [[]| | |]; cbn [bind]; try apply does_ret.
    destruct (check (8 <? len w)) as [[]| | |]; cbn [bind]; try apply does_ret.
    destruct (check (len w mod 8 =? 0)) as [[]| | |]; cbn [bind]; try apply does_ret.
    change w with (fst (fst (w, v, b))) at 4. rewrite <- rounds_bufs. unfold bufs. apply does_on. intros x _.
    apply does_after; [apply does_give, H1|]. apply does_after; [apply does_give, H2|]. apply does_ret.
  Qed.
  (* the length of the buffer stays *)
  Lemma step_len n round i buf buf' : unwrap_step dec n round i buf = Ok buf' -> len buf' = len buf.
  Proof.
    unfold unwrap_step. destruct (rd buf 0 8) as [iv| | |]; try discriminate. cbn [bind]. destruct (rd buf (i * 8) 8) as [r| | |]; try discriminate. cbn [bind].
    destruct (wr buf 0 _) as [b1| | |] eqn:E1; try discriminate. cbn [bind]. intros E2. rewrite (wr_len _ _ _ _ E2). exact (wr_len _ _ _ _ E1).
  Qed.
  Lemma blocks_len n round : forall i buf buf', unwrap_blocks dec n round i buf = Ok buf' -> len buf' = len buf.
  Proof.
    induction i as [|i IH]; intros buf buf' H; [injection H as <-; reflexivity|]. cbn [unwrap_blocks] in H.
    apply bind_ok in H. destruct H as (y & E & H). rewrite (IH _ _ H). exact (step_len _ _ _ _ _ E).
  Qed.
  Lemma rounds_len n : forall r buf buf', unwrap_rounds dec n r buf = Ok buf' -> len buf' = len buf.
  Proof.
    induction r as [|r IH]; intros buf buf' H; [injection H as <-; reflexivity|]. cbn [unwrap_rounds] in H.
    apply bind_ok in H. destruct H as (y & E & H). rewrite (IH _ _ H). exact (blocks_len _ _ _ _ _ E).
  Qed.
  Lemma key_unwrap_len kb w u : key_unwrap dec kb w = Ok u -> len u = len w.
  Proof. unfold key_unwrap. intros H. apply bind_ok in H. destruct H as (_ & _ & H). apply bind_ok in H. destruct H as (_ & _ & H). apply bind_ok in H. destruct H as (_ & _ & H). exact (rounds_len _ _ _ _ H). Qed.
  (* what stays of the last step *)
  Lemma blocks_block n round : (forall x, len x = 16 -> len (dec x) = 16) -> forall i x y, unwrap_blocks_l dec n round (S i) x = Ok y -> slice (fst (fst y)) 8 8 = slice (snd y) 8 8 /\ len (snd y) = 16.
  Proof.
    intros HD. induction i as [|i IH]; intros x y H; cbn [unwrap_blocks_l] in H; apply bind_ok in H; destruct H as (z & E & H); [|exact (IH z y H)].
    injection H as <-. unfold unwrap_step_l in E. apply bind_ok in E. destruct E as (iv & R1 & E). apply bind_ok in E. destruct E as (r & R2 & E).
    apply rd_ok in R1. destruct R1 as (_ & _ & R1 & ->). apply rd_ok in R2. destruct R2 as (A1 & _ & R2 & ->).
    set (bl := dec _) in E. assert (LB : len bl = 16).
    { apply HD. rewrite len_app, (len_slice _ (Z.of_nat 1 * 8) 8) by lia. rewrite xor_len_min; rewrite be_enc_len; try rewrite len_slice; lia. }
    clearbody bl.
    apply bind_ok in E. destruct E as (b1 & _ & E). apply bind_ok in E. destruct E as (b2 & E2 & E). injection E as <-. cbn [fst snd]. split; [|exact LB].
    change (Z.of_nat 1 * 8) with 8 in E2. unfold wr in E2. assert (LS : len (slice bl 8 8) = 8) by (apply len_slice; lia).
    destruct ((0 <=? 8) && (8 + len (slice bl 8 8) <=? len b1)) eqn:EE; [|discriminate]. apply andb_prop in EE. destruct EE as (_ & EE). injection E2 as <-.
    set (z := slice bl 8 8) in *. assert (LF : len (firstn (Z.to_nat 8) b1) = 8) by (unfold len in *; rewrite firstn_length; lia).
    pose proof (rd_mid (firstn (Z.to_nat 8) b1) z (skipn (Z.to_nat (8 + len z)) b1) 8 (eq_sym LS)) as R. rewrite LF in R.
    apply rd_ok in R. symmetry. apply R.
  Qed.
  Lemma rounds_block n : (forall x, len x = 16 -> len (dec x) = 16) -> 2 <= n -> forall r x y, unwrap_rounds_l dec n (S r) x = Ok y -> slice (fst (fst y)) 8 8 = slice (snd y) 8 8 /\ len (snd y) = 16.
  Proof.
    intros HD Hn. induction r as [|r IH]; intros x y H; cbn [unwrap_rounds_l] in H; apply bind_ok in H; destruct H as (z & E & H); [|exact (IH z y H)].
    injection H as <-. destruct (Z.to_nat (n - 1)) as [|m] eqn:EM; [lia|]. exact (blocks_block n _ HD m _ _ E).
  Qed.
  Lemma key_unwrap_left kb w v b s u s' : (forall x, len x = 16 -> len (dec x) = 16) -> key_unwrap_l dec kb w v b s = (Ok u, s') ->
    exists c, In (Block, c) s' /\ holds c (slice u 8 8).
  Proof.
    intros HD. unfold key_unwrap_l, onM, bindM, retM.
    destruct (check ((kb =? 128) || (kb =? 192) || (kb =? 256))) as [[]| | |]; cbn [bind]; try discriminate.
    destruct (check (8 <? len w)) as [[]| | |] eqn:C1; cbn [bind]; try discriminate.
    destruct (check (len w mod 8 =? 0)) as [[]| | |] eqn:C2; cbn [bind]; try discriminate.
    apply check_ok in C1. apply check_ok in C2. apply Z.ltb_lt in C1. apply Z.eqb_eq in C2.
    destruct (unwrap_rounds_l dec (len w / 8) 6 (w, v, b)) as [x| | |] eqn:E; try discriminate.
    cbn [give_back]. intros H. injection H as <- <-. apply rounds_block in E; [|exact HD|lia]. destruct E as (E1 & E2).
    exists (snd x). split; [right; left; reflexivity|]. rewrite E1. exists (firstn 8 (snd x)), [].
    rewrite app_nil_r. unfold slice. rewrite (firstn_all2 (n := Z.to_nat 8) (skipn (Z.to_nat 8) (snd x))) by (rewrite skipn_length; unfold len in E2; lia). symmetry. apply (firstn_skipn 8).
  Qed.
End Unwrap.

Section Password.
  Variable hmac : list Z -> list Z -> list Z.
  Lemma iterate_fst p : forall k h out, fst (iterate_l hmac p k h out) = iterate hmac p k h out.
  Proof. induction k as [|k IH]; intros h out; [reflexivity|]. cbn [iterate_l iterate]. apply IH. Qed.
  Lemma blocks_fst p salt it : forall n i h, fst (blocks_l hmac p salt it i n h) = blocks hmac p salt it i n.
  Proof.
    induction n as [|n IH]; intros i h; [reflexivity|]. cbn [blocks_l blocks]. unfold block. rewrite <- iterate_fst.
    unfold block_l. destruct (iterate_l hmac p _ _ _) as [o h1]. cbn [fst]. specialize (IH (i + 1) h1). destruct (blocks_l hmac p salt it (i + 1) n h1) as [os h2]. cbn [fst] in *. congruence.
  Qed.
  Lemma pbkdf2_does (P : array * list Z -> Prop) p salt it size h : (forall c, P (Iterate, c)) -> (forall c, P (Salt, c)) -> does P (pbkdf2_l hmac p salt it size h) (pbkdf2 hmac p salt it size).
  Proof.
    intros H1 H2. unfold pbkdf2_l, pbkdf2. apply does_on. intros _ _. rewrite <- (blocks_fst p salt it _ 0 h).
    destruct (blocks_l hmac p salt it 0 (Z.to_nat (w32 (size / 32))) h) as [full h1]. cbn [fst].
    set (r := size - w32 (size / 32) * 32). destruct (r =? 0) eqn:E0.
    - apply Z.eqb_eq in E0. rewrite E0. cbn [Z.ltb Z.compare]. apply does_after; [apply does_give, H1|]. apply does_after; [apply does_give, H2|]. rewrite app_nil_r. apply does_ret.
    - destruct (32 <? r); [apply does_ret|]. unfold block, block_l. rewrite <- iterate_fst. destruct (iterate_l hmac p _ _ _) as [o h2]. cbn [fst].
      apply does_after; [apply does_give, H1|]. apply does_after; [apply does_give, H2|]. apply does_ret.
  Qed.
  Hypothesis HH : forall k d, len (hmac k d) = 32.
  Lemma iterate_len p : forall k h out, len out <= 32 -> len (iterate hmac p k h out) = len out.
  Proof. induction k as [|k IH]; intros h out H; [reflexivity|]. cbn [iterate]. rewrite IH; rewrite xor_len_min; try rewrite HH; lia. Qed.
  Lemma block_len p salt it i size : 0 <= size <= 32 -> len (block hmac p salt it i size) = size.
  Proof. intros H. unfold block. rewrite iterate_len; rewrite len_slice; try rewrite HH; lia. Qed.
  Lemma pbkdf2_len p salt it size used : size = 16 \/ size = 32 -> pbkdf2 hmac p salt it size = Ok used -> len used = size.
  Proof.
    intros HS H. unfold pbkdf2 in H. apply bind_ok in H. destruct H as (_ & _ & H).
    destruct HS as [-> | ->]; cbv [w32] in H.
    - change (16 / 32 mod 2 ^ 32) with 0 in H. cbn [Z.to_nat blocks] in H. change (16 - 0 * 32 =? 0) with false in H. change (32 <? 16 - 0 * 32) with false in H. injection H as <-. rewrite ?app_nil_l, block_len; lia.
    - change (32 / 32 mod 2 ^ 32) with 1 in H. change (32 - 1 * 32 =? 0) with true in H. injection H as <-. change (Z.to_nat 1) with 1%nat. cbn [blocks]. rewrite app_nil_r, block_len; lia.
  Qed.
  (* one iteration: the hash is the key *)
  Lemma pbkdf2_left p salt size h s used s' : size = 16 \/ size = 32 -> pbkdf2_l hmac p salt 1 size h s = (Ok used, s') ->
    exists c, In (Iterate, c) s' /\ holds c used.
  Proof.
    intros HS. unfold pbkdf2_l, onM, bindM, retM. change (check (negb (1 =? 0))) with (Ok tt). cbv beta iota.
    destruct HS as [-> | ->].
    - change (w32 (16 / 32)) with 0. cbn [Z.to_nat blocks_l]. change (16 - 0 * 32 =? 0) with false. change (32 <? 16 - 0 * 32) with false. cbv beta iota zeta.
      unfold block_l. change (Z.to_nat (w32 (1 - 1))) with 0%nat. cbn [iterate_l]. cbn [give_back]. intros H. injection H as <- <-.
      eexists. split; [right; left; reflexivity|]. exists [], (skipn 16 (hmac p (salt ++ be_enc 4 (w32 (0 + 1))))). unfold slice. change (Z.to_nat (16 - 0 * 32)) with 16%nat.
      change (Z.to_nat 0) with 0%nat. rewrite skipn_O. cbn [app]. symmetry. apply firstn_skipn.
    - change (w32 (32 / 32)) with 1. change (Z.to_nat 1) with 1%nat. cbn [blocks_l]. unfold block_l. change (Z.to_nat (w32 (1 - 1))) with 0%nat. cbn [iterate_l].
      change (32 - 1 * 32 =? 0) with true. change (32 <? 32 - 1 * 32) with false. cbv beta iota zeta. cbn [give_back]. intros H. injection H as <- <-.
      eexists. split; [right; left; reflexivity|]. exists [], []. unfold slice. change (Z.to_nat 0) with 0%nat. rewrite skipn_O, !app_nil_r. cbn [app].
      set (h1 := hmac p _). assert (L1 : len h1 = 32) by apply HH. symmetry. apply firstn_all2. unfold len in L1. lia.
  Qed.
End Password.

Lemma rd_front (u c : list Z) off n : 0 <= off -> 0 <= n -> off + n <= len u -> rd (u ++ c) off n = rd u off n.
Proof.
  intros H1 H2 H3. rewrite !rd_in by (try rewrite len_app; pose proof (len_nonneg c); lia). f_equal. unfold slice.
  rewrite skipn_app, firstn_app. replace (Z.to_nat n - length (skipn (Z.to_nat off) u))%nat with 0%nat by (rewrite skipn_length; unfold len in *; lia).
  rewrite firstn_O, app_nil_r. reflexivity.
Qed.
Lemma rd_whole (u : list Z) n : n = len u -> rd u 0 n = Ok u.
Proof. intros ->. rewrite rd_in by (pose proof (len_nonneg u); lia). f_equal. unfold slice. change (Z.to_nat 0) with 0%nat. rewrite skipn_O. apply firstn_all2. unfold len. lia. Qed.

Section Unlock.
  Variable aes : list Z -> list Z -> list Z.
  Variable sha : list Z -> list Z.
  Variable hmac : list Z -> list Z -> list Z.
  Variable before : array -> list Z.
  Hypothesis HH : forall k d, len (hmac k d) = 32.
  Hypothesis HS : forall d, len (sha d) = 32.
  Hypothesis HF : frames before.
  Variable P : array * list Z -> Prop.
  Hypothesis HP1 : forall a c, In a [PasswordKey; Wrapped; Digest; VolumeKey; MasterKey] -> cleared c \/ c = before a -> P (a, c).
  Hypothesis HP2 : forall a c, In a [Iterate; Salt; Block; Vector] -> P (a, c).

  Lemma two_does a a' c c' : In a [PasswordKey; Wrapped; Digest; VolumeKey; MasterKey] -> In a' [PasswordKey; Wrapped; Digest; VolumeKey; MasterKey] ->
    cleared c \/ c = before a -> cleared c' \/ c' = before a' -> does P (bindM (give_back a c) (fun _ => give_back a' c')) (Ok tt).
  Proof. intros. apply does_after; apply does_give; apply HP1; assumption. Qed.

  Lemma unlock_with_key_does k key out : does P (unlock_with_key_l aes sha before k key out) (unlock_with_key aes sha k key out).
  Proof.
    destruct HF as (F1 & F2 & F3 & F4 & F5). unfold unlock_with_key_l, unlock_with_key.
    apply does_bind; [apply does_error; [apply does_ret|apply two_does; cbn [In]; auto]|]. intros [ds ks] E.
    assert (EE : ds = ks + 8 /\ (ks = 16 \/ ks = 32)).
    { destruct (k_method k =? 0); [injection E as <- <-; auto|]. destruct (k_method k =? 2); [injection E as <- <-; auto|discriminate]. }
    destruct EE as (-> & EK). clear E. cbv beta zeta.
    apply (does_eq _ _ (bind (let! p := (let! w := rd (k_wrapped k) 0 (ks + 8) in let! used := rd key 0 ks in Ok (w, used)) in key_unwrap (aes (snd p)) (ks * 8) (fst p))
      (fun u => let! head := rd u 0 8 in
        if negb (list_eqb head kek_iv) then Ok None else
        let! x := rd u 8 ks in let! out := wr out 0 x in
        if k_method k =? 2 then
          let! out := wr out 16 (k_id k) in let! h := rd out 0 32 in let! out := wr out 16 (slice (sha h) 0 16) in Ok (Some out)
        else Ok (Some out)))).
    { destruct (rd (k_wrapped k) 0 (ks + 8)) as [w| | |]; cbn [bind]; try reflexivity. destruct (rd key 0 ks) as [used| | |]; reflexivity. }
    apply does_bind.
    { apply does_error.
      - apply does_on. intros p _. apply key_unwrap_does; intros c; apply HP2; cbn [In]; auto.
      - apply two_does; cbn [In]; auto; left; apply wipe_cleared; assumption. }
    intros u E. apply bind_ok in E. destruct E as ([w used] & E1 & E2). apply bind_ok in E1. destruct E1 as (w' & E1 & E3).
    apply rd_ok in E1. destruct (rd key 0 ks) as [used'| | |]; cbn [bind] in E3; try discriminate. injection E3 as -> ->. cbn [fst snd] in E2. apply key_unwrap_len in E2.
    assert (LU : len u = ks + 8) by (rewrite E2; destruct E1 as (_ & _ & G & ->); apply len_slice; lia). clear E1 E2.
    rewrite wr_front by (rewrite F2; lia). cbn [bind]. set (wk := u ++ skipn (length u) (before Wrapped)).
    assert (LW : len wk = 40) by (unfold wk; rewrite len_app; unfold len in *; rewrite skipn_length; lia).
    unfold wk at 1. rewrite rd_front by lia. rewrite (rd_in u 0 8) by lia. cbn [bind].
    intros s. unfold onM at 1, bindM at 1, retM at 1. revert s.
    change (does P (if negb (list_eqb (slice u 0 8) kek_iv) then bindM (bindM (give_back Wrapped (wipe wk 40)) (fun _ => give_back Digest (before Digest))) (fun _ => retM (Ok None)) else
      onM (let! x := rd wk 8 ks in wr out 0 x) (fun out0 =>
      if k_method k =? 2 then
        onM (let! out1 := wr out0 16 (k_id k) in let! h := rd out1 0 32 in let! out2 := wr out1 16 (slice (sha h) 0 16) in Ok (out2, sha h))
          (fun p => let (out1, dg) := p in bindM (bindM (give_back Wrapped (wipe wk 40)) (fun _ => give_back Digest (wipe dg 32))) (fun _ => retM (Ok (Some out1))))
      else bindM (bindM (give_back Wrapped (wipe wk 40)) (fun _ => give_back Digest (before Digest))) (fun _ => retM (Ok (Some out0)))))
      (if negb (list_eqb (slice u 0 8) kek_iv) then Ok None else
        let! x := rd u 8 ks in let! out := wr out 0 x in
        if k_method k =? 2 then
          let! out := wr out 16 (k_id k) in let! h := rd out 0 32 in let! out := wr out 16 (slice (sha h) 0 16) in Ok (Some out)
        else Ok (Some out))).
    destruct (negb (list_eqb (slice u 0 8) kek_iv)).
    { apply does_after; [|apply does_ret]. apply two_does; cbn [In]; auto. left. apply wipe_cleared, LW. }
    unfold wk at 1. rewrite rd_front by lia. rewrite (rd_in u 8 ks) by lia. cbn [bind].
    apply does_on. intros out1 _. destruct (k_method k =? 2).
    - apply (does_eq _ _ (bind (let! out1 := wr out1 16 (k_id k) in let! h := rd out1 0 32 in let! out2 := wr out1 16 (slice (sha h) 0 16) in Ok (out2, sha h)) (fun p => Ok (Some (fst p))))).
      { destruct (wr out1 16 (k_id k)) as [o| | |]; cbn [bind]; try reflexivity. destruct (rd o 0 32) as [h| | |]; cbn [bind]; try reflexivity.
        destruct (wr o 16 (slice (sha h) 0 16)) as [o2| | |]; reflexivity. }
      apply does_on. intros [o dg] E. cbn [fst]. apply does_after; [|apply does_ret]. apply bind_ok in E. destruct E as (o1 & _ & E). apply bind_ok in E. destruct E as (h & _ & E).
      apply bind_ok in E. destruct E as (o2 & _ & E). injection E as _ <-.
      apply two_does; cbn [In]; auto; left; apply wipe_cleared; [exact LW|apply HS].
    - apply does_after; [|apply does_ret]. apply two_does; cbn [In]; auto. left. apply wipe_cleared, LW.
  Qed.

  Lemma unlock_with_password_does k p out : does P (unlock_with_password_l aes hmac before k p out) (unlock_with_password aes hmac k p out).
  Proof.
    destruct HF as (F1 & F2 & F3 & F4 & F5). unfold unlock_with_password_l, unlock_with_password.
    apply does_bind; [apply does_error; [apply does_ret|apply two_does; cbn [In]; auto]|]. intros [ds ks] E.
    assert (EE : ds = ks + 8 /\ (ks = 16 \/ ks = 32)).
    { destruct ((k_method k =? 0) || (k_method k =? 16)); [injection E as <- <-; auto|]. destruct (k_method k =? 2); [injection E as <- <-; auto|discriminate]. }
    destruct EE as (-> & EK). clear E. cbv beta zeta.
    apply does_bind.
    { apply does_error; [apply pbkdf2_does; intros c; apply HP2; cbn [In]; auto|]. apply two_does; cbn [In]; auto; left; apply wipe_cleared; assumption. }
    intros used E. apply pbkdf2_len in E; [|exact HH|exact EK].
    rewrite wr_front by lia. intros s. unfold onM at 1, bindM at 1, retM at 1. revert s.
    set (pk := used ++ skipn (length used) (before PasswordKey)). assert (LP : len pk = 32) by (unfold pk; rewrite len_app; unfold len in *; rewrite skipn_length; lia).
    match goal with |- forall s, exists d, ?m s = (?r, _) /\ _ => change (does P m r) end.
    apply (does_eq _ _ (bind (let! p := (let! w := rd (k_wrapped k) 0 (ks + 8) in let! used := rd pk 0 ks in Ok (w, used)) in key_unwrap (aes (snd p)) (ks * 8) (fst p))
      (fun u => let! head := rd u 0 8 in
        if negb (list_eqb head kek_iv) then Ok None else
        let! x := rd u 8 ks in let! out := wr out 0 x in Ok (Some out)))).
    { destruct (rd (k_wrapped k) 0 (ks + 8)) as [w| | |]; cbn [bind]; try reflexivity. unfold pk. rewrite rd_front by lia. rewrite rd_whole by lia. reflexivity. }
    apply does_bind.
    { apply does_error.
      - apply does_on. intros q _. apply key_unwrap_does; intros c; apply HP2; cbn [In]; auto.
      - apply two_does; cbn [In]; auto; left; apply wipe_cleared; assumption. }
    intros u E2. apply bind_ok in E2. destruct E2 as ([w used'] & E1 & E2). apply bind_ok in E1. destruct E1 as (w' & E1 & E3).
    apply rd_ok in E1. destruct (rd pk 0 ks) as [used2| | |]; cbn [bind] in E3; try discriminate. injection E3 as -> ->. cbn [fst snd] in E2. apply key_unwrap_len in E2.
    assert (LU : len u = ks + 8) by (rewrite E2; destruct E1 as (_ & _ & G & ->); apply len_slice; lia). clear E1 E2.
    rewrite wr_front by lia. intros s. unfold onM at 1, bindM at 1, retM at 1. revert s. set (wk := u ++ skipn (length u) (before Wrapped)).
    assert (LW : len wk = 40) by (unfold wk; rewrite len_app; unfold len in *; rewrite skipn_length; lia).
    match goal with |- forall s, exists d, ?m s = (?r, _) /\ _ => change (does P m r) end.
    assert (ER : rd wk 0 8 = rd u 0 8) by (unfold wk; apply rd_front; lia). rewrite ER. apply does_on. intros head _.
    assert (two : does P (bindM (give_back PasswordKey (wipe pk 32)) (fun _ => give_back Wrapped (wipe wk 40))) (Ok tt)).
    { apply two_does; cbn [In]; auto; left; apply wipe_cleared; assumption. }
    destruct (negb (list_eqb head kek_iv)); [apply does_after; [exact two|apply does_ret]|].
    assert (ER8 : rd wk 8 ks = rd u 8 ks) by (unfold wk; apply rd_front; lia). rewrite ER8.
    apply (does_eq _ _ (bind (let! x := rd u 8 ks in wr out 0 x) (fun out => Ok (Some out)))).
    { destruct (rd u 8 ks) as [x| | |]; reflexivity. }
    apply does_on. intros o _. apply does_after; [exact two|apply does_ret].
  Qed.
  Lemma try_password_does k p out : does P (try_password_l aes hmac before k p out) (try_password aes hmac k p out).
  Proof. destruct p as [p|]; [apply unlock_with_password_does|apply does_ret]. Qed.
  Lemma get_volume_key_does user recovery out : forall l, does P (get_volume_key_l aes hmac before l user recovery out) (get_volume_key aes hmac l user recovery out).
  Proof.
    induction l as [|e l IH]; [apply does_ret|]. cbn [get_volume_key_l get_volume_key]. destruct (negb (be_type e =? 3)); [exact IH|].
    apply does_on. intros k _. apply does_bind; [apply try_password_does|]. intros r _. apply does_bind; [destruct r; [apply does_ret|apply try_password_does]|].
    intros [x|] _; [apply does_ret|exact IH].
  Qed.
  Lemma get_master_key_does id key out : forall l, does P (get_master_key_l aes sha before l id key out) (get_master_key aes sha l id key out).
  Proof.
    induction l as [|e l IH]; [apply does_ret|]. cbn [get_master_key_l get_master_key]. destruct (negb (be_type e =? 2) || negb (list_eqb (be_id e) id)); [exact IH|].
    apply does_on. intros k _. apply does_bind; [apply unlock_with_key_does|]. intros [x|] _; [apply does_ret|exact IH].
  Qed.
  Lemma unlock_with_password_len k p out x : unlock_with_password aes hmac k p out = Ok (Some x) -> len x = len out.
  Proof.
    unfold unlock_with_password. intros H. apply bind_ok in H. destruct H as ([ds ks] & _ & H). apply bind_ok in H. destruct H as (u & _ & H).
    apply bind_ok in H. destruct H as (w & _ & H). apply bind_ok in H. destruct H as (u' & _ & H). apply bind_ok in H. destruct H as (h & _ & H).
    destruct (negb (list_eqb h kek_iv)); [discriminate|]. apply bind_ok in H. destruct H as (y & _ & H). apply bind_ok in H. destruct H as (o & E & H). injection H as <-. exact (wr_len _ _ _ _ E).
  Qed.
  Lemma get_volume_key_len user recovery out x : forall l, get_volume_key aes hmac l user recovery out = Ok (Some x) -> len x = len out.
  Proof.
    induction l as [|e l IH]; [discriminate|]. cbn [get_volume_key]. destruct (negb (be_type e =? 3)); [exact IH|]. intros H.
    apply bind_ok in H. destruct H as (k & _ & H). apply bind_ok in H. destruct H as (r & E1 & H). apply bind_ok in H. destruct H as (r' & E2 & H).
    destruct r' as [y|]; [|exact (IH H)]. injection H as <-. destruct r as [z|].
    - injection E2 as <-. destruct user as [p|]; [|discriminate]. exact (unlock_with_password_len _ _ _ _ E1).
    - destruct recovery as [p|]; [|discriminate]. exact (unlock_with_password_len _ _ _ _ E2).
  Qed.
  Lemma unlock_with_key_len k key out x : unlock_with_key aes sha k key out = Ok (Some x) -> len x = len out.
  Proof.
    unfold unlock_with_key. intros H. apply bind_ok in H. destruct H as ([ds ks] & _ & H). apply bind_ok in H. destruct H as (w & _ & H).
    apply bind_ok in H. destruct H as (u & _ & H). apply bind_ok in H. destruct H as (u' & _ & H). apply bind_ok in H. destruct H as (h & _ & H).
    destruct (negb (list_eqb h kek_iv)); [discriminate|]. apply bind_ok in H. destruct H as (y & _ & H). apply bind_ok in H. destruct H as (o & E & H). apply wr_len in E.
    destruct (k_method k =? 2); [|injection H as <-; exact E]. apply bind_ok in H. destruct H as (o1 & E1 & H). apply wr_len in E1. apply bind_ok in H. destruct H as (h1 & _ & H).
    apply bind_ok in H. destruct H as (o2 & E2 & H). apply wr_len in E2. injection H as <-. lia.
  Qed.
  Lemma get_master_key_len id key out x : forall l, get_master_key aes sha l id key out = Ok (Some x) -> len x = len out.
  Proof.
    induction l as [|e l IH]; [discriminate|]. cbn [get_master_key]. destruct (negb (be_type e =? 2) || negb (list_eqb (be_id e) id)); [exact IH|]. intros H.
    apply bind_ok in H. destruct H as (k & _ & H). apply bind_ok in H. destruct H as (r & E1 & H).
    destruct r as [y|]; [|exact (IH H)]. injection H as <-. exact (unlock_with_key_len _ _ _ _ E1).
  Qed.

  Lemma unlock_does b v : does P (unlock_l aes sha hmac before b v) (unlock aes sha hmac b v (before VolumeKey) (before MasterKey)).
  Proof.
    pose proof HF as (F1 & F2 & F3 & F4 & F5). unfold unlock_l, unlock. destruct (negb (v_locked v)); [apply does_ret|]. destruct (b_volume b) as [l|].
    2: { apply does_after; [apply two_does; cbn [In]; auto 8|apply does_ret]. }
    intros s. destruct (get_volume_key_does (v_user v) (v_recovery v) (before VolumeKey) l s) as (d & E & F). rewrite E.
    assert (after : forall A (m : M leftovers A) r d, Forall P d -> does P m r -> exists d', m (d ++ s) = (r, d' ++ s) /\ Forall P d').
    { intros A m r d0 F0 D. destruct (D (d0 ++ s)) as (d1 & E1 & G1). exists (d1 ++ d0). rewrite <- app_assoc. split; [exact E1|apply Forall_app; auto]. }
    destruct (get_volume_key aes hmac l (v_user v) (v_recovery v) (before VolumeKey)) as [[vk|]| | |] eqn:EV; try (exists d; auto; fail).
    - apply get_volume_key_len in EV. rewrite F4 in EV.
      destruct (get_master_key_does (b_id b) vk (before MasterKey) (b_container b) (d ++ s)) as (d1 & E1 & G1). rewrite E1. rewrite app_assoc.
      assert (G2 : Forall P (d1 ++ d)) by (apply Forall_app; auto).
      destruct (get_master_key aes sha (b_container b) (b_id b) vk (before MasterKey)) as [[mk|]| | |] eqn:EM; try (exists (d1 ++ d); auto; fail).
      + apply get_master_key_len in EM. rewrite F5 in EM. apply after; [exact G2|].
        apply (does_eq _ _ (bind (let! k1 := rd mk 0 16 in let! k2 := rd mk 16 16 in Ok (k1, k2)) (fun p => Ok (1, {| v_locked := false; v_user := v_user v; v_recovery := v_recovery v; v_keys := Some p |})))).
        { destruct (rd mk 0 16) as [k1| | |]; cbn [bind]; try reflexivity. destruct (rd mk 16 16) as [k2| | |]; reflexivity. }
        apply does_on. intros p _. apply does_after; [|apply does_ret]. apply two_does; cbn [In]; auto 8; left; apply wipe_cleared; assumption.
      + apply after; [exact G2|]. apply does_after; [|apply does_ret]. apply two_does; cbn [In]; auto 8; left; apply wipe_cleared; assumption.
      + apply after; [exact G2|]. apply does_after; [|apply does_ret]. apply two_does; cbn [In]; auto 8; left; apply wipe_cleared; assumption.
    - apply after; [exact F|]. apply does_after; [|apply does_ret]. apply two_does; cbn [In]; auto 8.
    - apply after; [exact F|]. apply does_after; [|apply does_ret]. apply two_does; cbn [In]; auto 8; left; apply wipe_cleared; assumption.
  Qed.
End Unlock.
