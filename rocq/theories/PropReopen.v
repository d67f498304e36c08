(* C104: a container object can be opened, closed and opened again; C105: signalling abort. *)
From Verif Require Import Base BaseLemmas KeyBag Walk Omap OmapSpec Container ContainerSpec CryptSpec VolumeSuper Support PropContainer Reopen ReopenSpec ReopenProofs.

Lemma lookup_nothing : forall img rb oid t, img rb = None -> omap_lookup img rb oid t = Fail.
Proof.
  intros img rb oid t E. unfold omap_lookup, plain_walk, Walk.walk, bindM, plain_root, retM. unfold omap_load_root, read_block. rewrite E. destruct (int_max <? rb); reflexivity.
Qed.

Section Any.
  Variables (xts : list Z -> list Z -> list Z -> list Z) (user : nat -> handle) (own : handle) (cs : list call).
  Let w := snd (run xts (fresh user own) cs).
  Let now := in_use (files user) None (combine cs (fst (run xts (fresh user own) cs))).
  Hypothesis L : Forall locks_work cs.

  Lemma reached : reads_files (files user) w /\ about xts w now.
  Proof. apply run_about; [exact L|intros i; reflexivity|]. repeat split. Qed.

  Lemma answers_now : forall q,
    match now with
    | None => forall a, told_closed q = Some a -> fst (step xts w q) = a
    | Some dev => forall a, told xts dev q = Some a ->
        fst (step xts w q) = a \/ fst (step xts w q) = Fail /\ ~ Forall no_user_close cs /\ (exists i, q = Volume i)
    end.
  Proof.
    intros q. destruct reached as (_ & A). fold w now. destruct now as [dev|]; cbn [about] in A.
    - destruct A as (c & s & O & K & R1 & R2 & R3 & R4 & R5 & R6 & R7 & R8). intros a T. destruct q; cbn [told] in T; inversion T; clear T; cbn [step fst]; rewrite ?O; cbn [bind].
      + left. rewrite R3, R2. reflexivity.
      + left. rewrite R3. reflexivity.
      + left. rewrite R7. reflexivity.
      + left. rewrite R3. reflexivity.
      + unfold get_volume. rewrite R3, R6, K, R7, R2. replace (match s with Own => k_freed (w_kept w) | User _ => false end) with false by (destruct s; [symmetry; apply R8|]; reflexivity).
        unfold volume_by_index. cbn [c_sb c_size c_root c_bag].
        destruct ((0 <=? i) && (i <? sb_count (c_sb c))); [|left; reflexivity]. cbn [check bind].
        destruct (h_open (handle_of w s)) eqn:HO; [left; rewrite (bytes_open _ dev HO R1); reflexivity|].
        destruct (getb (sb_volumes (c_sb c)) i) as [oid| | |]; cbn [bind]; [right|left; reflexivity|left; reflexivity|left; reflexivity].
        split; [|split; [|exists i; reflexivity]].
        * rewrite lookup_nothing; [reflexivity|]. unfold within, bytes_of. rewrite HO. destruct (c_root c <? c_size c / 4096); reflexivity.
        * intros NC. assert (AB := run_able xts cs (fresh user own) NC). fold w in AB. rewrite (AB (fun s E => ltac:(discriminate E)) s K) in HO. discriminate HO.
    - destruct A as (K & _ & _ & R1 & R2 & R3 & R4 & R5). intros a T. destruct q; cbn [told_closed] in T; inversion T; clear T; cbn [step fst].
      + rewrite R1. reflexivity.
      + rewrite R1. reflexivity.
      + rewrite R5. reflexivity.
      + rewrite R1. reflexivity.
      + unfold get_volume. rewrite R1. reflexivity.
  Qed.

  Lemma flags_spec : forall f, flags_ok f = true <-> Z.testbit f 0 = true /\ Z.testbit f 1 = false.
  Proof.
    intros f. unfold flags_ok. rewrite andb_true_iff, negb_true_iff, Z.eqb_neq, Z.eqb_eq.
    assert (A : forall n, 0 <= n -> Z.land f (2 ^ n) = 0 <-> Z.testbit f n = false).
    { intros n N. split; intros H.
      - assert (X : Z.testbit (Z.land f (2 ^ n)) n = false) by (rewrite H; apply Z.bits_0). rewrite Z.land_spec, Z.pow2_bits_true, andb_true_r in X by exact N. exact X.
      - apply Z.bits_inj'. intros m M. rewrite Z.bits_0, Z.land_spec, Z.pow2_bits_eqb by exact N. destruct (Z.eqb_spec n m); [subst; rewrite H; reflexivity|apply andb_false_r]. }
    assert (A0 := A 0 ltac:(lia)). assert (A1 := A 1 ltac:(lia)). change (2 ^ 0) with 1 in A0. change (2 ^ 1) with 2 in A1. rewrite A0, A1. rewrite not_false_iff_true. reflexivity.
  Qed.

  (* when an open works *)
  Definition can (f : option device) (flags : Z) : Prop := Z.testbit flags 0 = true /\ Z.testbit flags 1 = false /\ exists dev c, f = Some dev /\ open xts dev = Ok c.
  Lemma handle_can : forall (v : world) s flags, empty (w_kept v) ->
    is_ok (fst (open_handle xts v s flags true)) = true <-> can (h_file (handle_of v s)) flags.
  Proof.
    intros v s flags E. assert (H := open_handle_about xts v s flags E). destruct (open_handle xts v s flags true) as (r, v'). cbn [fst]. unfold can.
    assert (B : flags_ok flags = false \/ h_open (handle_of v s) = false /\ h_file (handle_of v s) = None \/ (forall dev, h_file (handle_of v s) = Some dev -> forall c, open xts dev <> Ok c) ->
       is_ok (@Fail answer) = true <-> can (h_file (handle_of v s)) flags).
    { intros X. split; [discriminate|]. intros (F0 & F1 & dev & c & ED & O). exfalso. destruct X as [X|[(_ & X)|X]].
      - assert (Y : flags_ok flags = true) by (apply flags_spec; split; assumption). congruence.
      - congruence.
      - exact (X dev ED c O). }
    destruct r as [a| | |].
    - destruct H as (F & dev & ED & _ & (c & O & _) & _). apply flags_spec in F. split; [|reflexivity]. intros _. split; [apply F|]. split; [apply F|]. exists dev, c. split; assumption.
    - destruct H as (_ & X & _). exact (B X).
    - destruct H as (_ & X & _). exact (B X).
    - destruct H as (_ & X & _). exact (B X).
  Qed.

  Lemma opens_now :
    match now with
    | None => (forall f flags, is_ok (fst (step xts w (OpenName f flags true true))) = true <-> can f flags) /\
              (forall i flags, is_ok (fst (step xts w (OpenHandle i flags true))) = true <-> can (files user i) flags) /\
              fst (step xts w (Close true)) = Fail
    | Some _ => (forall f flags, fst (step xts w (OpenName f flags true true)) = Fail) /\
                (forall i flags, fst (step xts w (OpenHandle i flags true)) = Fail)
    end.
  Proof.
    destruct reached as (F & A). fold w now in A. destruct now as [dev|]; cbn [about] in A; cbn [step].
    - destruct A as (c & s & O & K & _). split.
      + intros f flags. unfold open_name. destruct (flags_ok flags); [|reflexivity]. cbn [negb]. unfold open_handle. cbn [set_handle w_kept]. rewrite K. reflexivity.
      + intros i flags. unfold open_handle. rewrite K. reflexivity.
    - split; [|split].
      + intros f flags. rewrite <- (handle_can (set_handle w Own (mk_handle false f true)) Own flags A). unfold open_name. destruct (flags_ok flags) eqn:FL.
        * cbn [negb]. destruct (open_handle xts (set_handle w Own (mk_handle false f true)) Own flags true) as (r, w1). destruct r; reflexivity.
        * unfold open_handle. destruct A as (K & _). cbn [set_handle w_kept]. rewrite K, FL. reflexivity.
      + intros i flags. rewrite (handle_can w (User i) flags A). cbn [handle_of]. rewrite (F i). reflexivity.
      + unfold close. destruct A as (K & _). rewrite K. reflexivity.
  Qed.

  Lemma as_new_now : now = None -> forall own' cs', fst (run xts w cs') = fst (run xts (fresh (w_user w) own') cs').
  Proof.
    intros N own' cs'. destruct reached as (_ & A). fold w now in A. rewrite N in A. destruct A as (K & K1 & K2 & R1 & R2 & R3 & R4 & R5).
    apply alike_run. split; [reflexivity|]. cbn [fresh w_kept w_own new_kept k_io k_opened k_created k_sb k_map k_vector k_root k_bag k_size k_freed]. split_and.
    - intros X. rewrite R1 in X. contradiction.
    - intros X. rewrite K in X. discriminate X.
  Qed.

  Lemma open_again : forall v s flags dev, about xts v (Some dev) -> open_handle xts v s flags true = (Fail, v).
  Proof. intros v s flags dev (c & s' & O & K & _). unfold open_handle. rewrite K. reflexivity. Qed.

  Definition opening (c : call) : Prop := match c with OpenName _ _ _ _ | OpenHandle _ _ _ => True | _ => False end.
  Lemma failed_now : forall c, opening c -> locks_work c -> is_ok (fst (step xts w c)) = false -> (forall i, h_closes (w_user w i) = true) ->
    (forall i, w_user (snd (step xts w c)) i = w_user w i) /\ forall cs', fst (run xts (snd (step xts w c)) cs') = fst (run xts w cs').
  Proof.
    intros c OC LC NO CL. destruct reached as (_ & A). fold w now in A.
    assert (G : alike (snd (step xts w c)) w).
    2:{ split; [apply G|]. intros cs'. apply alike_run. exact G. }
    assert (EE : forall v k', alike v w -> empty (w_kept w) -> empty k' -> alike (set_kept v k') w).
    { intros v k' AV (E1 & E2 & E3 & E4 & E5 & E6 & E7 & E8) (Q1 & Q2 & Q3 & Q4 & Q5 & Q6 & Q7 & Q8). split; [apply AV|]. cbn [set_kept w_kept w_own]. split_and; congruence. }
    destruct c as [f flags l1 l2|i flags l|l| | | | | |i|i|i]; try contradiction.
    - destruct LC as (-> & ->). cbn [step] in *. unfold open_name in *. destruct (flags_ok flags); [|apply alike_refl]. cbn [negb] in *. destruct now as [dev|].
      + destruct A as (c & s & O & K & _). unfold open_handle. cbn [set_handle w_kept]. rewrite K. apply (alike_refl w).
      + cbn [about] in A. assert (H := open_handle_about xts (set_handle w Own (mk_handle false f true)) Own flags A).
        destruct (open_handle xts (set_handle w Own (mk_handle false f true)) Own flags true) as (r, w1).
        assert (B : empty (w_kept w1) -> (w1 = set_handle w Own (mk_handle false f true) \/ (exists h, w1 = set_kept (set_handle (set_handle w Own (mk_handle false f true)) Own h) (w_kept w1) /\ h_file h = h_file (handle_of (set_handle w Own (mk_handle false f true)) Own) /\ (h_open (handle_of (set_handle w Own (mk_handle false f true)) Own) = true \/ h_closes (handle_of (set_handle w Own (mk_handle false f true)) Own) = true -> h = handle_of (set_handle w Own (mk_handle false f true)) Own))) -> alike (set_handle w1 Own (w_own w)) w).
        { intros E1 X. apply (EE (set_handle w1 Own (w_own w)) (w_kept w1)); [|exact A|exact E1]. destruct X as [->|(h & -> & _)]; [apply (alike_refl w)|].
          apply (EE w (w_kept w1)); [apply alike_refl|exact A|exact E1]. }
        destruct r as [a| | |]; [discriminate NO| | |]; destruct H as (E & _ & W); exact (B E W).
    - cbn [locks_work] in LC. subst l. cbn [step] in *. destruct now as [dev|]; [rewrite (open_again w (User i) flags dev A); apply alike_refl|].
      cbn [about] in A. assert (H := open_handle_about xts w (User i) flags A). destruct (open_handle xts w (User i) flags true) as (r, w1).
      assert (B : empty (w_kept w1) -> (w1 = w \/ (exists h, w1 = set_kept (set_handle w (User i) h) (w_kept w1) /\ h_file h = h_file (handle_of w (User i)) /\ (h_open (handle_of w (User i)) = true \/ h_closes (handle_of w (User i)) = true -> h = handle_of w (User i)))) -> alike w1 w).
      { intros E [->|(h & -> & _ & EH)]; [apply alike_refl|]. apply EE; [|exact A|exact E]. rewrite EH by (right; apply CL). split; [|exact (proj2 (alike_refl w))].
        intros j. cbn. unfold set_user. destruct (Nat.eqb j i) eqn:J; [|reflexivity]. apply Nat.eqb_eq in J. subst. reflexivity. }
      destruct r as [a| | |]; [discriminate NO| | |]; destruct H as (E & _ & W); exact (B E W).
  Qed.
End Any.

(* ---- C104 ---- *)
(* After any calls, a container that is asked answers for the file of the last open that worked.
   Only a volume can be refused, after the caller closed a handle of its own. *)
Theorem C104_answers : forall xts user own cs q, Forall locks_work cs ->
  match in_use (files user) None (combine cs (fst (run xts (fresh user own) cs))) with
  | None => forall a, told_closed q = Some a -> fst (step xts (snd (run xts (fresh user own) cs)) q) = a
  | Some dev => forall a, told xts dev q = Some a ->
      fst (step xts (snd (run xts (fresh user own) cs)) q) = a \/
      fst (step xts (snd (run xts (fresh user own) cs)) q) = Fail /\ ~ Forall no_user_close cs /\ (exists i, q = Volume i)
  end.
Proof. intros xts user own cs q L. exact (answers_now xts user own cs L q). Qed.
Print Assumptions C104_answers.
(* After any calls, opening works if the container is closed, the flags ask for reading only and
   the file is a container; not otherwise. A closed container cannot be closed. *)
Theorem C104_opens : forall xts user own cs, Forall locks_work cs ->
  match in_use (files user) None (combine cs (fst (run xts (fresh user own) cs))) with
  | None => (forall f flags, is_ok (fst (step xts (snd (run xts (fresh user own) cs)) (OpenName f flags true true))) = true <-> can xts f flags) /\
            (forall i flags, is_ok (fst (step xts (snd (run xts (fresh user own) cs)) (OpenHandle i flags true))) = true <-> can xts (files user i) flags) /\
            fst (step xts (snd (run xts (fresh user own) cs)) (Close true)) = Fail
  | Some _ => (forall f flags, fst (step xts (snd (run xts (fresh user own) cs)) (OpenName f flags true true)) = Fail) /\
              (forall i flags, fst (step xts (snd (run xts (fresh user own) cs)) (OpenHandle i flags true)) = Fail)
  end.
Proof. intros xts user own cs L. exact (opens_now xts user own cs L). Qed.
Print Assumptions C104_opens.
(* A container that is closed, whatever was done with it, is as good as a new one. *)
Theorem C104_as_new : forall xts user own cs, Forall locks_work cs ->
  in_use (files user) None (combine cs (fst (run xts (fresh user own) cs))) = None ->
  forall own' cs', fst (run xts (snd (run xts (fresh user own) cs)) cs') =
                   fst (run xts (fresh (w_user (snd (run xts (fresh user own) cs))) own') cs').
Proof. intros xts user own cs L. exact (as_new_now xts user own cs L). Qed.
Print Assumptions C104_as_new.
(* An open that fails leaves the handles of the caller as they were, and no trace in the
   container. *)
Theorem C104_failed_open : forall xts user own cs, Forall locks_work cs ->
  forall c, opening c -> locks_work c -> is_ok (fst (step xts (snd (run xts (fresh user own) cs)) c)) = false ->
  (forall i, h_closes (w_user (snd (run xts (fresh user own) cs)) i) = true) ->
  (forall i, w_user (snd (step xts (snd (run xts (fresh user own) cs)) c)) i = w_user (snd (run xts (fresh user own) cs)) i) /\
  forall cs', fst (run xts (snd (step xts (snd (run xts (fresh user own) cs)) c)) cs') = fst (run xts (snd (run xts (fresh user own) cs)) cs').
Proof. intros xts user own cs L. exact (failed_now xts user own cs L). Qed.
Print Assumptions C104_failed_open.

Lemma keeps_handle : forall xts w i c, leaves i c -> k_io (w_kept w) = Some (User i) ->
  k_io (w_kept (snd (step xts w c))) = Some (User i) /\ k_opened (w_kept (snd (step xts w c))) = k_opened (w_kept w) /\ w_user (snd (step xts w c)) i = w_user w i.
Proof.
  intros xts w i c LV K. destruct c as [f flags l1 l2|j flags l|l| | | | | |j|j|j]; cbn [step]; try (repeat split; exact K).
  - unfold open_name. destruct (flags_ok flags); [|repeat split; exact K]. cbn [negb]. unfold open_handle. cbn [set_handle w_kept]. rewrite K. repeat split; exact K.
  - unfold open_handle. rewrite K. repeat split; exact K.
  - destruct LV.
  - destruct (handle_open (w_user w j)) as (r, h). cbn [fst snd set_handle w_kept w_user]. split; [exact K|]. split; [reflexivity|]. unfold set_user. destruct (Nat.eqb i j) eqn:J; [|reflexivity]. apply Nat.eqb_eq in J. cbn [leaves] in LV. congruence.
  - destruct (handle_close (w_user w j)) as (r, h). cbn [fst snd set_handle w_kept w_user]. split; [exact K|]. split; [reflexivity|]. unfold set_user. destruct (Nat.eqb i j) eqn:J; [|reflexivity]. apply Nat.eqb_eq in J. cbn [leaves] in LV. congruence.
Qed.
Lemma run_keeps_handle : forall xts i cs w, Forall (leaves i) cs -> k_io (w_kept w) = Some (User i) ->
  k_io (w_kept (snd (run xts w cs))) = Some (User i) /\ k_opened (w_kept (snd (run xts w cs))) = k_opened (w_kept w) /\ w_user (snd (run xts w cs)) i = w_user w i.
Proof.
  intros xts i cs. induction cs as [|c cs H]; intros w L K; [repeat split; exact K|]. inversion L as [|? ? L1 L2]; subst. cbn [run].
  destruct (keeps_handle xts w i c L1 K) as (A & B & C). destruct (step xts w c) as (r, w1). cbn [snd] in A, B, C. destruct (H w1 L2 A) as (A2 & B2 & C2).
  destruct (run xts w1 cs) as (l, w2). cbn [snd] in *. split; [exact A2|]. split; congruence.
Qed.
(* A handle of the caller is open after closing the container exactly if it was before opening
   it. *)
Theorem C104_gives_back : forall xts user own cs, Forall locks_work cs ->
  forall i flags cs', let w := snd (run xts (fresh user own) cs) in
  is_ok (fst (step xts w (OpenHandle i flags true))) = true -> h_closes (w_user w i) = true -> Forall (leaves i) cs' ->
  let w' := snd (run xts (snd (step xts w (OpenHandle i flags true))) cs') in
  h_open (w_user w' i) = true /\ fst (step xts w' (Close true)) = Ok Done /\ w_user (snd (step xts w' (Close true))) i = w_user w i.
Proof.
  intros xts user own cs L i flags cs' w OK CL LV. destruct (reached xts user own cs L) as (_ & A). fold w in A.
  destruct (in_use (files user) None (combine cs (fst (run xts (fresh user own) cs)))) as [dev|].
  { cbn [step] in OK. rewrite (open_again xts w (User i) flags dev A) in OK. discriminate OK. }
  cbn [about] in A. assert (H := open_handle_about xts w (User i) flags A). cbn [step] in OK |- *. destruct (open_handle xts w (User i) flags true) as (r, w1). cbn [fst] in OK. destruct r as [a| | |]; try discriminate OK.
  destruct H as (_ & dev & EF & KK & _ & h & W & Eh). cbn [snd].
  assert (K1 : k_io (w_kept w1) = Some (User i)) by (rewrite KK; reflexivity).
  assert (K2 : k_opened (w_kept w1) = negb (h_open (w_user w i))) by (rewrite KK; reflexivity).
  assert (K3 : w_user w1 i = set_open (w_user w i) true) by (rewrite W; subst h; cbn; unfold set_user; rewrite Nat.eqb_refl; reflexivity).
  destruct (run_keeps_handle xts i cs' w1 LV K1) as (A1 & A2 & A3). set (w2 := snd (run xts w1 cs')) in *. cbv zeta. rewrite A3, K3. split; [reflexivity|].
  unfold close. rewrite A1. cbn [negb andb handle_of]. rewrite A2, K2, A3, K3. destruct (w_user w i) as [op f cl] eqn:E. cbn [h_closes] in CL. subst cl.
  destruct op; cbn; unfold set_user; rewrite Nat.eqb_refl; split; reflexivity.
Qed.
Print Assumptions C104_gives_back.

(* Two files that open, and an answer from each. *)
Lemma two_files : forall enc dec, (forall id, unit_cipher 512 (enc id) (dec id)) -> exists c c', open dec dev5 = Ok c /\ open dec dev_out = Ok c' /\ c_sb c <> c_sb c'.
Proof.
  intros enc dec HC. destruct (C46_opens_newest_partial enc dec HC dev5 0 sb5 (dev5_ok enc)) as (c & m & E & (S1 & _) & _).
  destruct (C46_opens_newest_partial enc dec HC dev_out 4 sb6 (dev_out_ok enc)) as (c' & m' & E' & (S2 & _) & _). exists c, c'. split; [exact E|]. split; [exact E'|].
  rewrite S1, S2. intros X. apply (f_equal sb_xid) in X. vm_compute in X. discriminate X.
Qed.
Definition two_handles (a b : device) (i : nat) : handle := match i with O => mk_handle true (Some a) true | _ => mk_handle false (Some b) true end.
Example C104_example : forall enc dec, (forall id, unit_cipher 512 (enc id) (dec id)) -> exists c c', open dec dev5 = Ok c /\ open dec dev_out = Ok c' /\ c_sb c <> c_sb c' /\
  forall own, let r := run dec (fresh (two_handles dev5 dev_out) own)
     [OpenName None 1 true true; OpenHandle 1 3 true; OpenHandle 1 1 true; Count; OpenHandle 0 1 true; Close true; GetSize; IsLocked; OpenHandle 0 1 true; Count; GetSize; Close true; Close true] in
  fst r = [Fail; Fail; Ok Done; Ok (Number (sb_count (c_sb c'))); Fail; Ok Done; Fail; Ok (Locked false); Ok Done; Ok (Number (sb_count (c_sb c))); Ok (Size (c_size c)); Ok Done; Fail] /\
  h_open (w_user (snd r) 0%nat) = true /\ h_open (w_user (snd r) 1%nat) = false.
Proof.
  intros enc dec HC. destruct (two_files enc dec HC) as (c & c' & E & E' & NE). exists c, c'. split; [exact E|]. split; [exact E'|]. split; [exact NE|]. intros own r. subst r.
  revert E E'. generalize dev5 dev_out. intros a b E E'.
  cbn -[open superblock_at]. unfold open_handle, open_read, bytes_of. cbn -[open superblock_at]. change (fun z => b z) with b. change (fun z => a z) with a. rewrite E'. cbn.
  destruct (superblock_at b 0); cbn -[open superblock_at]; unfold open_handle, open_read, bytes_of; cbn -[open superblock_at]; change (fun z => a z) with a; rewrite E; cbn -[open superblock_at]; destruct (superblock_at a 0); repeat split.
Qed.

(* If the lock of line 739 cannot be grabbed, the members stay set without a handle: the container
   says it is not open, and can be neither opened nor closed again. *)
Definition stuck (w : world) : Prop := k_io (w_kept w) = None /\ occupied (w_kept w) = true.
Lemma stuck_open : forall xts w s flags l, stuck w -> fst (open_handle xts w s flags l) = Fail /\ stuck (snd (open_handle xts w s flags l)).
Proof.
  intros xts w s flags l (K & O). assert (ST : stuck w) by (split; assumption). unfold open_handle. rewrite K. destruct (flags_ok flags); [|split; [reflexivity|exact ST]]. cbn [negb].
  destruct (if h_open (handle_of w s) then _ else _) as (o, h1). destruct o; try (split; [reflexivity|exact ST]).
  unfold open_read. rewrite O. split; [reflexivity|]. split; [exact K|exact O].
Qed.
Lemma stuck_step : forall xts w c, stuck w -> stuck (snd (step xts w c)) /\ (opening c \/ (exists l, c = Close l) -> fst (step xts w c) = Fail).
Proof.
  intros xts w c ST. assert (ST' := ST). destruct ST' as (K & O). destruct c as [f flags l1 l2|j flags l|l| | | | | |j|j|j]; cbn [step]; try (split; [exact ST|intros [[]|(l & X)]; discriminate X]).
  - unfold open_name. destruct (flags_ok flags); [|split; [exact ST|reflexivity]]. cbn [negb].
    destruct (stuck_open xts (set_handle w Own (mk_handle false f true)) Own flags l1 ST) as (A & B). destruct (open_handle xts (set_handle w Own _) Own flags l1) as (r, w1). cbn [fst snd] in A, B. subst r. split; [exact B|reflexivity].
  - destruct (stuck_open xts w (User j) flags l ST) as (A & B). split; [exact B|intros _; exact A].
  - unfold close. rewrite K. split; [exact ST|reflexivity].
  - destruct (handle_open (w_user w j)) as (r, h). split; [exact ST|intros [[]|(l & X)]; discriminate X].
  - destruct (handle_close (w_user w j)) as (r, h). split; [exact ST|intros [[]|(l & X)]; discriminate X].
Qed.
Lemma stuck_run : forall xts cs w, stuck w -> forall c a, In (c, a) (combine cs (fst (run xts w cs))) -> opening c \/ (exists l, c = Close l) -> a = Fail.
Proof.
  intros xts cs. induction cs as [|c cs H]; intros w ST c' a I OC; [destruct I|]. cbn [run] in I. destruct (stuck_step xts w c ST) as (A & B).
  destruct (step xts w c) as (r, w1). specialize (H w1 A). destruct (run xts w1 cs) as (l, w2). cbn [fst snd combine In] in *. destruct I as [I|I]; [|exact (H c' a I OC)]. inversion I. subst. apply B. exact OC.
Qed.
Theorem C104_lock_fails_refuted : exists dev, forall enc dec, (forall id, unit_cipher 512 (enc id) (dec id)) -> forall user own,
  (exists c, open dec dev = Ok c) /\
  let w := snd (step dec (fresh user own) (OpenName (Some dev) 1 false true)) in
  fst (step dec (fresh user own) (OpenName (Some dev) 1 false true)) = Fail /\ is_ok (fst (step dec w GetSize)) = true /\
  forall cs c a, In (c, a) (combine cs (fst (run dec w cs))) -> opening c \/ (exists l, c = Close l) -> a = Fail.
Proof.
  exists dev5. intros enc dec HC user own. destruct (two_files enc dec HC) as (c & _ & E & _). revert E. generalize dev5. intros d E. split; [exists c; exact E|].
  intros w. assert (ST : fst (step dec (fresh user own) (OpenName (Some d) 1 false true)) = Fail /\ is_ok (fst (step dec w GetSize)) = true /\ stuck w).
  { subst w. cbn -[open superblock_at]. unfold open_name, open_handle, open_read, bytes_of. cbn -[open superblock_at]. change (fun z => d z) with d. rewrite E. cbn -[open superblock_at]. destruct (superblock_at d 0); repeat split. }
  destruct ST as (A & B & ST). split; [exact A|]. split; [exact B|]. exact (fun cs => stuck_run dec cs w ST).
Qed.
Print Assumptions C104_lock_fails_refuted.
(* If the lock of line 394 cannot be grabbed, the open fails, but the container is open, with a
   handle that is freed: closing it uses freed memory. *)
Theorem C104_freed_handle_refuted : exists dev, forall enc dec, (forall id, unit_cipher 512 (enc id) (dec id)) -> forall user own,
  fst (run dec (fresh user own) [OpenName (Some dev) 1 true false; Close true]) = [Fail; Oob].
Proof.
  exists dev5. intros enc dec HC user own. destruct (two_files enc dec HC) as (c & _ & E & _). revert E. generalize dev5. intros d E.
  cbn -[open superblock_at]. unfold open_name, open_handle, open_read, bytes_of. cbn -[open superblock_at]. change (fun z => d z) with d. rewrite E. cbn -[open superblock_at]. destruct (superblock_at d 0); reflexivity.
Qed.
Print Assumptions C104_freed_handle_refuted.

(* ---- C105 ---- *)
(* Signalling abort has no effect: the answers to all other calls are those without it. *)
Theorem C105_no_effect : forall xts cs w,
  fst (run xts w (filter (fun c => negb (is_abort c)) cs)) =
  map snd (filter (fun e => negb (is_abort (fst e))) (combine cs (fst (run xts w cs)))).
Proof.
  intros xts cs. induction cs as [|c cs H]; intros w; [reflexivity|]. cbn [filter run]. destruct (is_abort c) eqn:E.
  - destruct c; try discriminate E. cbn [negb step]. destruct (run xts (set_kept w (set_abort (w_kept w) true)) cs) as (l, w2) eqn:R. cbn [fst combine filter is_abort negb].
    rewrite H. destruct (alike_run xts cs w (set_kept w (set_abort (w_kept w) true)) (alike_refl w)) as (X & _). rewrite X, R. reflexivity.
  - cbn [negb run]. destruct (step xts w c) as (r, w1). specialize (H w1). destruct (run xts w1 cs) as (l, w2). destruct (run xts w1 (filter (fun c0 => negb (is_abort c0)) cs)) as (l', w3).
    cbn [fst combine filter map snd] in *. rewrite E. cbn [negb map snd]. rewrite H. reflexivity.
Qed.
Print Assumptions C105_no_effect.
(* Signalling abort stops nothing: what is done next, or was being done, works as before. *)
Theorem C105_stops_refuted : exists dev, forall enc dec, (forall id, unit_cipher 512 (enc id) (dec id)) -> forall user own, exists c,
  fst (run dec (fresh user own) [Abort; OpenName (Some dev) 1 true true; Abort; Count]) = [Ok Done; Ok Done; Ok Done; Ok (Number c)] /\ 0 < c.
Proof.
  exists dev5. intros enc dec HC user own. destruct (C46_opens_newest_partial enc dec HC dev5 0 sb5 (dev5_ok enc)) as (c & m & E & (S1 & _) & _). exists (sb_count (c_sb c)). split.
  - revert E. generalize dev5. intros d E. cbn -[open superblock_at]. unfold open_name, open_handle, open_read, bytes_of. cbn -[open superblock_at]. change (fun z => d z) with d. rewrite E. cbn -[open superblock_at]. destruct (superblock_at d 0); reflexivity.
  - rewrite S1. vm_compute. reflexivity.
Qed.
Print Assumptions C105_stops_refuted.
