(* Proofs about the life of a container object. *)
From Verif Require Import Base BaseLemmas KeyBag Walk Omap OmapSpec Container VolumeSuper Support Reopen ReopenSpec.

Ltac split_and := repeat match goal with |- _ /\ _ => split end; try assumption; try reflexivity.

Section Machine.
  Variable xts : list Z -> list Z -> list Z -> list Z.

  Lemma run_app : forall a b w, run xts w (a ++ b) =
    (fst (run xts w a) ++ fst (run xts (snd (run xts w a)) b), snd (run xts (snd (run xts w a)) b)).
  Proof.
    intros a. induction a as [|c a H]; intros b w; cbn [run app fst snd].
    - destruct (run xts w b); reflexivity.
    - destruct (step xts w c) as (r, w1). rewrite H. destruct (run xts w1 a) as (l, w2). cbn [fst snd]. reflexivity.
  Qed.

  (* Nothing is left of an earlier life, but a size nobody is told. *)
  Definition empty (k : kept) : Prop :=
    k_io k = None /\ k_opened k = false /\ k_created k = false /\
    k_sb k = None /\ k_map k = None /\ k_vector k = false /\ k_root k = None /\ k_bag k = None.
  Definition about (w : world) (now : option device) : Prop :=
    match now with
    | None => empty (w_kept w)
    | Some dev => exists c s, open xts dev = Ok c /\ k_io (w_kept w) = Some s /\ h_file (handle_of w s) = Some dev /\
        k_size (w_kept w) = c_size c /\ k_sb (w_kept w) = Some (c_sb c) /\ k_map (w_kept w) = Some (c_map_block c, c_map c) /\
        k_vector (w_kept w) = true /\ k_root (w_kept w) = Some (c_root c) /\ k_bag (w_kept w) = c_bag c /\
        (s = Own -> k_freed (w_kept w) = false /\ h_open (w_own w) = true)
    end.

  Lemma empty_occupied : forall k, empty k -> occupied k = false.
  Proof. intros k (A & B & C & D & E & F & G & H). unfold occupied. rewrite D, E, F, G, H. reflexivity. Qed.

  Lemma open_read_empty : forall img k, empty k ->
    match open xts img with
    | Ok c => open_read xts img k = (Ok tt, mk_kept None false false (k_freed k) (c_size c) (k_abort k) (Some (c_sb c)) (Some (c_map_block c, c_map c)) true (Some (c_root c)) (c_bag c))
    | r => exists k', open_read xts img k = (match r with Oob => Oob | Fuel => Fuel | _ => Fail end, k') /\ empty k'
    end.
  Proof.
    intros img k E. assert (O := empty_occupied k E). destruct E as (A & B & C & D & E & F & G & H).
    unfold open_read. rewrite O. destruct (open xts img).
    - f_equal. destruct (superblock_at img 0); cbn; rewrite ?A, ?B, ?C; reflexivity.
    - eexists. split; [reflexivity|]. destruct (superblock_at img 0); repeat split; assumption.
    - eexists. split; [reflexivity|]. destruct (superblock_at img 0); repeat split; assumption.
    - eexists. split; [reflexivity|]. destruct (superblock_at img 0); repeat split; assumption.
  Qed.

  (* An image without blocks is no container. *)
  Lemma no_blocks : open xts (fun _ => None) = Fail.
  Proof. reflexivity. Qed.

  Lemma files_set : forall w s h i, h_file h = h_file (handle_of w s) -> h_file (w_user (set_handle w s h) i) = h_file (w_user w i).
  Proof.
    intros w s h i E. destruct s; [reflexivity|]. cbn. unfold set_user. destruct (Nat.eqb i i0) eqn:N; [|reflexivity]. apply Nat.eqb_eq in N. subst. exact E.
  Qed.
  Lemma handle_set : forall w s h, handle_of (set_handle w s h) s = h.
  Proof. intros w s h. destruct s; [reflexivity|]. cbn. unfold set_user. rewrite Nat.eqb_refl. reflexivity. Qed.
  Lemma close_file : forall h, h_file (snd (handle_close h)) = h_file h.
  Proof. intros h. unfold handle_close. destruct (h_open h && h_closes h); reflexivity. Qed.
  Lemma open_file : forall h, h_file (snd (handle_open h)) = h_file h.
  Proof. intros h. unfold handle_open. destruct (h_file h) eqn:E; cbn; [exact E|exact E]. Qed.
  Lemma bytes_open : forall h dev, h_open h = true -> h_file h = Some dev -> bytes_of h = dev.
  Proof. intros [o f c] dev A B. cbn in A, B. subst. reflexivity. Qed.

  (* Opening through a handle *)
  Lemma open_handle_about : forall w s flags, empty (w_kept w) ->
    match open_handle xts w s flags true with
    | (Ok _, w') => flags_ok flags = true /\ exists dev, h_file (handle_of w s) = Some dev /\
        w_kept w' = mk_kept (Some s) (negb (h_open (handle_of w s))) false false (k_size (w_kept w')) (k_abort (w_kept w))
                      (k_sb (w_kept w')) (k_map (w_kept w')) (k_vector (w_kept w')) (k_root (w_kept w')) (k_bag (w_kept w')) /\
        (exists c, open xts dev = Ok c /\ k_size (w_kept w') = c_size c /\ k_sb (w_kept w') = Some (c_sb c) /\ k_map (w_kept w') = Some (c_map_block c, c_map c) /\
          k_vector (w_kept w') = true /\ k_root (w_kept w') = Some (c_root c) /\ k_bag (w_kept w') = c_bag c) /\
        exists h, w' = set_kept (set_handle w s h) (w_kept w') /\ h = set_open (handle_of w s) true
    | (_, w') => empty (w_kept w') /\ (flags_ok flags = false \/ h_open (handle_of w s) = false /\ h_file (handle_of w s) = None \/ forall dev, h_file (handle_of w s) = Some dev -> forall c, open xts dev <> Ok c) /\
        (w' = w \/ exists h, w' = set_kept (set_handle w s h) (w_kept w') /\ h_file h = h_file (handle_of w s) /\
          (h_open (handle_of w s) = true \/ h_closes (handle_of w s) = true -> h = handle_of w s))
    end.
  Proof.
    intros w s flags E. unfold open_handle. assert (E' := E). destruct E' as (A & _). rewrite A.
    destruct (flags_ok flags); cbn [negb].
    2:{ split; [exact E|]. split; [left; reflexivity|left; reflexivity]. }
    destruct (handle_of w s) as [op f cl] eqn:EH. cbn [h_open].
    assert (HO : (exists h1, (if op then (Ok tt, mk_handle op f cl) else handle_open (mk_handle op f cl)) = (Ok tt, h1) /\ h1 = mk_handle true f cl /\ (op = true \/ f <> None)) \/
      (op = false /\ f = None /\ (if op then (Ok tt, mk_handle op f cl) else handle_open (mk_handle op f cl)) = (Fail, mk_handle op f cl))).
    { destruct op; [left; eexists; split; [reflexivity|split; [reflexivity|left; reflexivity]]|].
      destruct f as [img|]; [left; eexists; split; [reflexivity|split; [reflexivity|right; discriminate]]|right; repeat split; reflexivity]. }
    destruct HO as [(h1 & -> & -> & U)|(-> & -> & ->)].
    2:{ split; [exact E|]. split; [right; left; split; reflexivity|left; reflexivity]. }
    assert (R := open_read_empty (bytes_of (mk_handle true f cl)) (w_kept w) E).
    assert (N : forall c, open xts (bytes_of (mk_handle true f cl)) = Ok c -> exists dev, f = Some dev /\ open xts dev = Ok c).
    { intros c O. destruct f as [img|]; [exists img; split; [reflexivity|exact O]|]. discriminate O. }
    assert (B : forall k', empty k' -> (forall c, open xts (bytes_of (mk_handle true f cl)) <> Ok c) ->
      empty (w_kept (set_kept (set_handle w s (if negb op then snd (handle_close (mk_handle true f cl)) else mk_handle true f cl)) k')) /\
      (true = false \/ op = false /\ f = None \/ forall dev, f = Some dev -> forall c, open xts dev <> Ok c) /\
      (set_kept (set_handle w s (if negb op then snd (handle_close (mk_handle true f cl)) else mk_handle true f cl)) k' = w \/
       exists h, set_kept (set_handle w s (if negb op then snd (handle_close (mk_handle true f cl)) else mk_handle true f cl)) k' = set_kept (set_handle w s h) k' /\ h_file h = f /\ (op = true \/ cl = true -> h = mk_handle op f cl))).
    { intros k' K NO. split; [exact K|]. split; [right; right; intros dev -> c O; exact (NO c O)|]. right. eexists. split; [reflexivity|].
      destruct op; cbn; [split; [reflexivity|intros _; reflexivity]|]. destruct cl; cbn; split; try reflexivity. intros [X|X]; discriminate X. }
    destruct (open xts (bytes_of (mk_handle true f cl))) as [c| | |] eqn:O.
    - rewrite R. destruct (N c eq_refl) as (dev & -> & OD). split; [reflexivity|]. exists dev. cbn [h_file]. split; [reflexivity|].
      split; [reflexivity|]. split; [exists c; cbn; repeat split; exact OD|]. eexists. split; [|reflexivity]. reflexivity.
    - destruct R as (k' & -> & K). destruct (B k' K) as (X & Y & Q); [intros c X; discriminate X|]. split; [exact X|]. split; [exact Y|exact Q].
    - destruct R as (k' & -> & K). destruct (B k' K) as (X & Y & Q); [intros c X; discriminate X|]. split; [exact X|]. split; [exact Y|exact Q].
    - destruct R as (k' & -> & K). destruct (B k' K) as (X & Y & Q); [intros c X; discriminate X|]. split; [exact X|]. split; [exact Y|exact Q].
  Qed.

  Lemma in_use_app : forall file a b now, in_use file now (a ++ b) = in_use file (in_use file now a) b.
  Proof. intros file a. induction a as [|(c, r) a H]; intros b now; [reflexivity|]. cbn [app in_use]. destruct c; try apply H; destruct r; apply H. Qed.

  Definition reads_files (file : nat -> option device) (w : world) : Prop := forall i, h_file (w_user w i) = file i.

  Lemma files_kept : forall file w s h k, reads_files file w -> h_file h = h_file (handle_of w s) -> reads_files file (set_kept (set_handle w s h) k).
  Proof. intros file w s h k F E i. cbn [set_kept w_user]. rewrite <- (F i). apply files_set. exact E. Qed.

  (* One call *)
  Lemma step_about : forall file w now c, locks_work c -> reads_files file w -> about w now ->
    reads_files file (snd (step xts w c)) /\ about (snd (step xts w c)) (in_use file now [(c, fst (step xts w c))]).
  Proof.
    intros file w now c L F A. destruct c as [f flags l1 l2|i flags l|l| | | | | |i|i|i]; cbn [step]; try (split; [exact F|]; cbn [in_use snd]; exact A).
    - destruct L as (-> & ->). unfold open_name. destruct (flags_ok flags) eqn:FL; cbn [negb]; [|split; [exact F|exact A]].
      destruct now as [dev|].
      + destruct A as (c & s & O & K & R). unfold open_handle. cbn [set_handle w_kept]. rewrite K. cbn [fst snd].
        split; [exact F|]. cbn [in_use]. exists c, s. split; [exact O|]. split; [exact K|]. destruct s; exact R.
      + set (w0 := set_handle w Own (mk_handle false f true)). assert (H := open_handle_about w0 Own flags A).
        destruct (open_handle xts w0 Own flags true) as (r, w1).
        assert (B : forall h : handle, w1 = w0 \/ (exists h, w1 = set_kept (set_handle w0 Own h) (w_kept w1) /\ h_file h = h_file (handle_of w0 Own) /\ (h_open (handle_of w0 Own) = true \/ h_closes (handle_of w0 Own) = true -> h = handle_of w0 Own)) -> reads_files file (set_handle w1 Own h)).
        { intros h [->|(h' & -> & _)]; exact F. }
        destruct r as [a| | |].
        * destruct H as (_ & dev & EF & KK & (c & O & R1 & R2 & R3 & R4 & R5 & R6) & h & W & Eh). cbn [handle_of w0 set_handle w_own h_file] in EF. subst f. cbn [fst snd]. split.
          { rewrite W. exact F. }
          cbn [in_use about]. exists c, Own. split; [exact O|]. rewrite KK. rewrite W. cbn [set_kept w_kept set_created k_io k_size k_sb k_map k_vector k_root k_bag k_freed handle_of set_handle w_own].
          split; [reflexivity|]. subst h. repeat split; assumption.
        * destruct H as (E & _ & W). cbn [fst snd]. split; [apply B; exact W|exact E].
        * destruct H as (E & _ & W). cbn [fst snd]. split; [apply B; exact W|exact E].
        * destruct H as (E & _ & W). cbn [fst snd]. split; [apply B; exact W|exact E].
    - cbn [locks_work] in L. subst l. destruct now as [dev|].
      + destruct A as (c & s & O & K & R). unfold open_handle. rewrite K. split; [exact F|]. exists c, s. split; [exact O|]. split; [exact K|exact R].
      + assert (H := open_handle_about w (User i) flags A). destruct (open_handle xts w (User i) flags true) as (r, w1).
        assert (B : w1 = w \/ (exists h, w1 = set_kept (set_handle w (User i) h) (w_kept w1) /\ h_file h = h_file (handle_of w (User i)) /\ (h_open (handle_of w (User i)) = true \/ h_closes (handle_of w (User i)) = true -> h = handle_of w (User i))) -> reads_files file w1).
        { intros [->|(h' & -> & E & _)]; [exact F|]. apply files_kept; [exact F|exact E]. }
        destruct r as [a| | |].
        * destruct H as (_ & dev & EF & KK & (c & O & R1 & R2 & R3 & R4 & R5 & R6) & h & W & Eh). cbn [fst snd]. split.
          { rewrite W. apply files_kept; [exact F|]. subst h. reflexivity. }
          cbn [in_use]. rewrite <- (F i). cbn [handle_of] in EF. rewrite EF. exists c, (User i). split; [exact O|]. rewrite KK. cbn [k_io k_size k_sb k_map k_vector k_root k_bag k_freed]. split; [reflexivity|].
          split; [rewrite W; subst h; cbn; unfold set_user; rewrite Nat.eqb_refl; exact EF|]. repeat split; try assumption; discriminate.
        * destruct H as (E & _ & W). cbn [fst snd]. split; [apply B; exact W|exact E].
        * destruct H as (E & _ & W). cbn [fst snd]. split; [apply B; exact W|exact E].
        * destruct H as (E & _ & W). cbn [fst snd]. split; [apply B; exact W|exact E].
    - cbn [locks_work] in L. subst l. unfold close. destruct now as [dev|].
      + destruct A as (c & s & O & K & R1 & R2 & R3 & R4 & R5 & R6 & R7 & R8). rewrite K. cbn [negb].
        replace (match s with Own => k_freed (w_kept w) | User _ => false end) with false by (destruct s; [symmetry; apply R8|]; reflexivity). cbn [andb].
        destruct (if k_opened (w_kept w) then handle_close (handle_of w s) else (Ok tt, handle_of w s)) as (r, h) eqn:EC.
        assert (EF : h_file h = h_file (handle_of w s)).
        { destruct (k_opened (w_kept w)); [|inversion EC; reflexivity]. rewrite <- (close_file (handle_of w s)), EC. reflexivity. }
        cbn [fst snd]. split; [apply files_kept; [exact F|exact EF]|]. cbn. repeat split; reflexivity.
      + assert (A' := A). destruct A' as (E & _). rewrite E. split; [exact F|exact A].
    - destruct (handle_open (w_user w i)) as (r, h) eqn:EO. cbn [fst snd]. assert (EF : h_file h = h_file (w_user w i)) by (rewrite <- (open_file (w_user w i)), EO; reflexivity).
      split; [intros j; rewrite files_set by exact EF; apply F|]. cbn [in_use]. destruct now as [dev|]; [|exact A]. destruct A as (c & s & O & K & R1 & R). exists c, s. split; [exact O|]. split; [exact K|].
      split; [|exact R]. destruct s as [|j]; [exact R1|]. cbn [handle_of]. rewrite files_set by exact EF. exact R1.
    - destruct (handle_close (w_user w i)) as (r, h) eqn:EO. cbn [fst snd]. assert (EF : h_file h = h_file (w_user w i)) by (rewrite <- (close_file (w_user w i)), EO; reflexivity).
      split; [intros j; rewrite files_set by exact EF; apply F|]. cbn [in_use]. destruct now as [dev|]; [|exact A]. destruct A as (c & s & O & K & R1 & R). exists c, s. split; [exact O|]. split; [exact K|].
      split; [|exact R]. destruct s as [|j]; [exact R1|]. cbn [handle_of]. rewrite files_set by exact EF. exact R1.
  Qed.

  Lemma run_about : forall file cs w now, Forall locks_work cs -> reads_files file w -> about w now ->
    reads_files file (snd (run xts w cs)) /\ about (snd (run xts w cs)) (in_use file now (combine cs (fst (run xts w cs)))).
  Proof.
    intros file cs. induction cs as [|c cs H]; intros w now L F A; [split; [exact F|exact A]|]. inversion L as [|? ? L1 L2]; subst.
    destruct (step_about file w now c L1 F A) as (F1 & A1). cbn [run]. destruct (step xts w c) as (r, w1). cbn [fst snd] in F1, A1.
    destruct (H w1 _ L2 F1 A1) as (F2 & A2). destruct (run xts w1 cs) as (l, w2). cbn [fst snd combine] in *. split; [exact F2|].
    change ((c, r) :: combine cs l) with ([(c, r)] ++ combine cs l). rewrite in_use_app. exact A2.
  Qed.

  (* The handle in use stays open unless the caller closes it. *)
  Definition able (w : world) : Prop := forall s, k_io (w_kept w) = Some s -> h_open (handle_of w s) = true.
  Lemma open_handle_able : forall w s flags l, able w -> able (snd (open_handle xts w s flags l)).
  Proof.
    intros w s flags l A. unfold open_handle. destruct (k_io (w_kept w)) eqn:K; [exact A|]. destruct (flags_ok flags); [|exact A]. cbn [negb].
    destruct (handle_of w s) as [op f cl] eqn:EH. cbn [h_open].
    assert (NK : forall img, k_io (snd (open_read xts img (w_kept w))) = None).
    { intros img. unfold open_read. destruct (occupied (w_kept w)); [exact K|]. destruct (open xts img); cbn; destruct (superblock_at img 0); exact K. }
    destruct (if op then (Ok tt, mk_handle op f cl) else handle_open (mk_handle op f cl)) as (o, h1) eqn:EO.
    assert (H1 : is_ok o = true -> h_open h1 = true).
    { destruct op; [inversion EO; reflexivity|]. unfold handle_open in EO. cbn in EO. destruct f; inversion EO; [reflexivity|discriminate]. }
    destruct o as [u| | |]; try exact A. specialize (NK (bytes_of h1)).
    destruct (open_read xts (bytes_of h1) (w_kept w)) as (r, k). cbn [snd] in NK.
    assert (B : forall h, able (set_kept (set_handle w s h) k)).
    { intros h s' E. cbn in E. rewrite NK in E. discriminate E. }
    destruct r as [u'| | |]; try apply B. destruct l; [|apply B]. intros s' E. cbn in E. inversion E. subst s'.
    assert (G : forall x k', handle_of (set_kept x k') s = handle_of x s) by (intros; destruct s; reflexivity). cbn [snd]. rewrite G, handle_set. apply H1. reflexivity.
  Qed.
  Lemma able_kept : forall w k, k_io k = k_io (w_kept w) -> able w -> able (set_kept w k).
  Proof. intros w k E A s H. cbn in H. rewrite E in H. destruct s; apply (A _ H). Qed.
  Lemma step_able : forall w c, no_user_close c -> able w -> able (snd (step xts w c)).
  Proof.
    intros w c N A. destruct c as [f flags l1 l2|i flags l|l| | | | | |i|i|i]; cbn [step]; try exact A.
    - unfold open_name. destruct (flags_ok flags); [|exact A]. cbn [negb].
      destruct (k_io (w_kept w)) as [s|] eqn:K.
      + unfold open_handle. cbn [set_handle w_kept]. rewrite K. intros s' E. cbn in E. destruct s'; apply (A _ E).
      + assert (A0 : able (set_handle w Own (mk_handle false f true))) by (intros s E; cbn in E; rewrite K in E; discriminate E).
        assert (H := open_handle_able _ Own flags l1 A0).
        assert (G : is_ok (fst (open_handle xts (set_handle w Own (mk_handle false f true)) Own flags l1)) = false -> k_io (w_kept (snd (open_handle xts (set_handle w Own (mk_handle false f true)) Own flags l1))) = None).
        { unfold open_handle. cbn [set_handle w_kept]. rewrite K. destruct (flags_ok flags); [|intros _; exact K]. cbn [negb handle_of w_own h_open h_file h_closes].
          destruct (handle_open (mk_handle false f true)) as (o, h1). destruct o; try (intros _; exact K).
          assert (NK : k_io (snd (open_read xts (bytes_of h1) (w_kept w))) = None).
          { unfold open_read. destruct (occupied (w_kept w)); [exact K|]. destruct (open xts (bytes_of h1)); cbn; destruct (superblock_at (bytes_of h1) 0); exact K. }
          destruct (open_read xts (bytes_of h1) (w_kept w)) as (r, k). cbn [snd] in NK. destruct r; try (intros _; exact NK). destruct l1; [intros X; discriminate X|intros _; exact NK]. }
        destruct (open_handle xts (set_handle w Own (mk_handle false f true)) Own flags l1) as (r, w1). cbn [fst snd] in H, G.
        assert (B : is_ok r = false -> able (set_handle w1 Own (w_own w))) by (intros X s E; cbn in E; rewrite (G X) in E; discriminate E).
        destruct r; try (apply B; reflexivity). destruct l2; apply able_kept; try exact H; reflexivity.
    - apply open_handle_able. exact A.
    - unfold close. destruct (k_io (w_kept w)) as [s|] eqn:K; [|exact A]. destruct l; [|exact A]. cbn [negb]. destruct (_ && _); [exact A|].
      destruct (if k_opened (w_kept w) then _ else _) as (r, h). intros s' E. discriminate E.
    - destruct (handle_open (w_user w i)) as (r, h) eqn:EO. intros s E. cbn in E. assert (X := A s E). destruct s as [|j]; [exact X|]. cbn. unfold set_user. destruct (Nat.eqb j i) eqn:J; [|exact X].
      apply Nat.eqb_eq in J. subst j. cbn in X. unfold handle_open in EO. destruct (h_file (w_user w i)); inversion EO; [reflexivity|subst; exact X].
    - destruct N.
  Qed.
  Lemma run_able : forall cs w, Forall no_user_close cs -> able w -> able (snd (run xts w cs)).
  Proof.
    intros cs. induction cs as [|c cs H]; intros w L A; [exact A|]. inversion L; subst. cbn [run]. assert (A1 := step_able w c ltac:(assumption) A).
    destruct (step xts w c) as (r, w1). assert (A2 := H w1 ltac:(assumption) A1). destruct (run xts w1 cs) as (l, w2). exact A2.
  Qed.

  (* Two worlds a caller cannot tell apart. *)
  Definition alike (a b : world) : Prop :=
    (forall i, w_user a i = w_user b i) /\
    let k := w_kept a in let q := w_kept b in
    k_io k = k_io q /\ k_opened k = k_opened q /\ k_created k = k_created q /\
    k_sb k = k_sb q /\ k_map k = k_map q /\ k_vector k = k_vector q /\ k_root k = k_root q /\ k_bag k = k_bag q /\
    (k_sb k <> None -> k_size k = k_size q) /\ (k_io k = Some Own -> k_freed k = k_freed q /\ w_own a = w_own b).
  Lemma alike_handle : forall a b s, alike a b -> k_io (w_kept a) = Some s -> handle_of a s = handle_of b s.
  Proof. intros a b s (U & A & R) E. destruct s; [apply R; exact E|apply U]. Qed.
  Lemma alike_set : forall a b s h, alike a b -> alike (set_handle a s h) (set_handle b s h).
  Proof.
    intros a b s h (U & R1 & R2 & R3 & R4 & R5 & R6 & R7 & R8 & R9 & R10). split.
    - intros i. destruct s as [|j]; [apply U|]. cbn. unfold set_user. destruct (Nat.eqb i j); [reflexivity|apply U].
    - destruct s as [|j]; cbn [set_handle w_kept w_own]; split_and. intros X. split; [apply R10; exact X|reflexivity].
  Qed.
  Definition alike_kept (k q : kept) : Prop :=
    k_io k = k_io q /\ k_opened k = k_opened q /\ k_created k = k_created q /\
    k_sb k = k_sb q /\ k_map k = k_map q /\ k_vector k = k_vector q /\ k_root k = k_root q /\ k_bag k = k_bag q /\
    (k_sb k <> None -> k_size k = k_size q) /\ (k_io k = Some Own -> k_freed k = k_freed q).
  Lemma alike_kept_set : forall a b k q, alike a b -> alike_kept k q -> k_io k <> Some Own \/ w_own a = w_own b -> alike (set_kept a k) (set_kept b q).
  Proof.
    intros a b k q (U & _) (R1 & R2 & R3 & R4 & R5 & R6 & R7 & R8 & R9 & R10) O. split; [exact U|]. cbn [set_kept w_kept w_own]. split_and.
    intros X. split; [apply R10; exact X|]. destruct O as [O|O]; [contradiction|exact O].
  Qed.
  Lemma alike_kept_of : forall a b, alike a b -> alike_kept (w_kept a) (w_kept b).
  Proof. intros a b (U & R1 & R2 & R3 & R4 & R5 & R6 & R7 & R8 & R9 & R10). unfold alike_kept. split_and. intros X. apply R10. exact X. Qed.
  Lemma alike_read : forall img k q, alike_kept k q -> fst (open_read xts img k) = fst (open_read xts img q) /\ alike_kept (snd (open_read xts img k)) (snd (open_read xts img q)) /\
    k_io (snd (open_read xts img k)) = k_io k.
  Proof.
    intros img k q A. assert (A' := A). destruct A' as (R1 & R2 & R3 & R4 & R5 & R6 & R7 & R8 & R9 & R10). unfold open_read.
    replace (occupied q) with (occupied k) by (unfold occupied; rewrite R4, R5, R6, R7, R8; reflexivity).
    destruct (occupied k); [split; [reflexivity|split; [exact A|reflexivity]]|].
    destruct (open xts img); (split; [reflexivity|]; destruct (superblock_at img 0); cbn; (split; [unfold alike_kept; cbn; split_and; intros X; congruence|reflexivity])).
  Qed.
  Lemma alike_open : forall a b s flags l, alike a b -> (k_io (w_kept a) = None -> s = Own -> w_own a = w_own b) ->
    fst (open_handle xts a s flags l) = fst (open_handle xts b s flags l) /\ alike (snd (open_handle xts a s flags l)) (snd (open_handle xts b s flags l)) /\
    (is_ok (fst (open_handle xts a s flags l)) = false -> k_io (w_kept (snd (open_handle xts a s flags l))) = k_io (w_kept a)).
  Proof.
    intros a b s flags l A HO. assert (A' := A). destruct A' as (U & R1 & _). unfold open_handle. rewrite <- R1. destruct (k_io (w_kept a)) as [s'|] eqn:K; [split; [reflexivity|split; [exact A|intros _; exact K]]|].
    destruct (flags_ok flags); cbn [negb]; [|split; [reflexivity|split; [exact A|intros _; exact K]]].
    assert (EH : handle_of b s = handle_of a s) by (destruct s; [symmetry; apply HO; reflexivity|symmetry; apply U]). rewrite EH.
    destruct (if h_open (handle_of a s) then _ else _) as (o, h1). destruct o; try (split; [reflexivity|split; [exact A|intros _; exact K]]).
    destruct (alike_read (bytes_of h1) (w_kept a) (w_kept b) (alike_kept_of a b A)) as (X & Y & W).
    destruct (open_read xts (bytes_of h1) (w_kept a)) as (r, k), (open_read xts (bytes_of h1) (w_kept b)) as (r', q). cbn [fst snd] in X, Y, W. subst r'. rewrite K in W.
    assert (B : forall h, alike (set_kept (set_handle a s h) k) (set_kept (set_handle b s h) q)).
    { intros h. apply alike_kept_set; [apply alike_set; exact A|exact Y|]. left. rewrite W. discriminate. }
    destruct r as [u'| | |]; try (split; [reflexivity|split; [apply B|intros _; exact W]]).
    destruct l; [|split; [reflexivity|split; [apply B|intros _; exact W]]]. split; [reflexivity|]. split; [|intros Q; discriminate Q].
    destruct Y as (Y1 & Y2 & Y3 & Y4 & Y5 & Y6 & Y7 & Y8 & Y9 & Y10).
    cbn [snd]. destruct s as [|j].
    - split; [exact U|]. cbn. split_and. intros _. split; reflexivity.
    - split; [intros i; cbn; unfold set_user; destruct (Nat.eqb i j); [reflexivity|apply U]|]. cbn. split_and. intros Q. discriminate Q.
  Qed.
  Lemma alike_user : forall a b i h, alike a b -> alike (set_handle a (User i) h) (set_handle b (User i) h).
  Proof. intros a b i h A. apply alike_set. exact A. Qed.
  Lemma alike_step : forall a b c, alike a b -> fst (step xts a c) = fst (step xts b c) /\ alike (snd (step xts a c)) (snd (step xts b c)).
  Proof.
    intros a b c A. assert (A' := A). destruct A' as (U & R1 & R2 & R3 & R4 & R5 & R6 & R7 & R8 & R9 & R10). destruct c as [f flags l1 l2|i flags l|l| | | | | |i|i|i]; cbn [step].
    - unfold open_name. destruct (flags_ok flags); cbn [negb]; [|split; [reflexivity|exact A]].
      destruct (alike_open (set_handle a Own (mk_handle false f true)) (set_handle b Own (mk_handle false f true)) Own flags l1) as (X & Y & W); [apply alike_set; exact A|intros _ _; reflexivity|].
      destruct (open_handle xts (set_handle a Own _) Own flags l1) as (r, a1), (open_handle xts (set_handle b Own _) Own flags l1) as (r', b1). cbn [fst snd] in X, Y, W. subst r'.
      assert (B : is_ok r = false -> alike (set_handle a1 Own (w_own a)) (set_handle b1 Own (w_own b))).
      { intros NR. specialize (W NR). cbn in W. destruct Y as (Y0 & Y1 & Y2 & Y3 & Y4 & Y5 & Y6 & Y7 & Y8 & Y9 & Y10). split; [exact Y0|]. cbn. split_and. intros Q. split; [apply Y10; exact Q|]. apply R10. rewrite <- W. exact Q. }
      destruct r; try (split; [reflexivity|apply B; reflexivity]). destruct Y as (Y0 & Y1 & Y2 & Y3 & Y4 & Y5 & Y6 & Y7 & Y8 & Y9 & Y10).
      destruct l2; (split; [reflexivity|]); (split; [exact Y0|]); cbn; split_and; intros Q; (split; [reflexivity|apply Y10; exact Q]).
    - destruct (alike_open a b (User i) flags l A) as (X & Y & _); [intros _ Q; discriminate Q|]. split; [exact X|exact Y].
    - unfold close. rewrite <- R1. destruct (k_io (w_kept a)) as [s|] eqn:K; [|split; [reflexivity|exact A]]. destruct l; cbn [negb]; [|split; [reflexivity|exact A]].
      replace (match s with Own => k_freed (w_kept b) | User _ => false end) with (match s with Own => k_freed (w_kept a) | User _ => false end) by (destruct s; [apply R10|]; reflexivity).
      rewrite <- R2. destruct (_ && _); [split; [reflexivity|exact A]|]. rewrite <- (alike_handle a b s A K).
      destruct (if k_opened (w_kept a) then _ else _) as (r, h). split; [reflexivity|]. cbn [snd]. apply alike_kept_set; [apply alike_set; exact A| |left; discriminate].
      unfold alike_kept; cbn; split_and. intros Q. discriminate Q.
    - split; [reflexivity|]. cbn [snd]. split; [exact U|]. cbn. split_and.
    - cbn [fst snd]. split; [|exact A]. rewrite <- R4. destruct (k_sb (w_kept a)) as [x|] eqn:E; [|reflexivity]. rewrite R9; [reflexivity|]. discriminate.
    - cbn [fst snd]. split; [|exact A]. rewrite <- R4. reflexivity.
    - cbn [fst snd]. split; [|exact A]. rewrite <- R8. reflexivity.
    - cbn [fst snd]. split; [|exact A]. rewrite <- R4. reflexivity.
    - cbn [fst snd]. split; [|exact A]. unfold get_volume. rewrite <- R4. destruct (k_sb (w_kept a)) as [sb|] eqn:E; [|reflexivity]. rewrite <- R7, <- R1, <- R8. rewrite <- R9 by discriminate.
      destruct (k_root (w_kept a)) as [root|]; [|reflexivity]. destruct (k_io (w_kept a)) as [s|] eqn:K; [|reflexivity].
      rewrite <- (alike_handle a b s A K). destruct s; [|reflexivity]. rewrite <- (proj1 (R10 eq_refl)). reflexivity.
    - rewrite <- (U i). destruct (handle_open (w_user a i)) as (r, h). split; [reflexivity|apply alike_user; exact A].
    - rewrite <- (U i). destruct (handle_close (w_user a i)) as (r, h). split; [reflexivity|apply alike_user; exact A].
  Qed.
  Lemma alike_run : forall cs a b, alike a b -> fst (run xts a cs) = fst (run xts b cs) /\ alike (snd (run xts a cs)) (snd (run xts b cs)).
  Proof.
    intros cs. induction cs as [|c cs H]; intros a b A; [split; [reflexivity|exact A]|]. cbn [run]. destruct (alike_step a b c A) as (X & Y).
    destruct (step xts a c) as (r, a1), (step xts b c) as (r', b1). cbn [fst snd] in X, Y. subst r'. destruct (H a1 b1 Y) as (X2 & Y2).
    destruct (run xts a1 cs) as (l, a2), (run xts b1 cs) as (l', b2). cbn [fst snd] in *. subst l'. split; [reflexivity|exact Y2].
  Qed.
  Lemma alike_refl : forall a, alike a a.
  Proof. intros a. split; [reflexivity|]. cbn. split_and; intros _; try (split; reflexivity); reflexivity. Qed.
  Lemma alike_abort : forall a b, alike a b -> alike (snd (step xts a Abort)) b.
  Proof. intros a b A. exact A. Qed.
End Machine.
