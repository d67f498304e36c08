(* C112: a volume in Python. *)
From Coq Require Import Lia.
From Verif Require Import Base BaseLemmas BTree Walk Omap OmapSpec OmapProofs Records FsTree Name NameSpec FsName Crypt CryptSpec KeyBag Volume PropVolume Sha256 Aes Container DataRead VolumeSuper Session SessionSpec SessionProofs PropSession PyVol PyVolSpec.
Ltac Zify.zify_post_hook ::= Z.div_mod_to_equations.

Lemma arg_text s : (text s -> arg_str s = Some (utf8 s)) /\ (~ text s -> arg_str s = None).
Proof.
  unfold arg_str. destruct (forallb plain_char s) eqn:E.
  - split; [reflexivity|]. intros N. exfalso. apply N. apply Forall_forall. intros c I. rewrite forallb_forall in E. specialize (E c I). unfold plain_char in E. unfold scalar. lia.
  - split; [|reflexivity]. intros T. exfalso. apply Bool.not_true_iff_false in E. apply E, forallb_forall. intros c I. unfold text in T. rewrite Forall_forall in T. specialize (T c I). unfold plain_char. unfold scalar in T. lia.
Qed.
Lemma text_dec s : text s \/ ~ text s.
Proof.
  destruct (forallb plain_char s) eqn:E.
  - left. apply Forall_forall. intros c I. rewrite forallb_forall in E. specialize (E c I). unfold plain_char in E. unfold scalar. lia.
  - right. intros T. apply Bool.not_true_iff_false in E. apply E, forallb_forall. intros c I. unfold text in T. rewrite Forall_forall in T. specialize (T c I). unfold plain_char. unfold scalar in T. lia.
Qed.
Lemma utf8_char_nul c : scalar c -> c <> 0 -> Forall (fun b => b <> 0) (utf8_char c).
Proof. intros S N. unfold utf8_char, scalar in *. repeat match goal with |- context [if ?b then _ else _] => destruct b eqn:? end; repeat constructor; lia. Qed.
Lemma utf8_nul s : text s -> Forall (fun b => b <> 0) (utf8 s).
Proof. unfold utf8. induction 1 as [|c s (S & N) _ IH]; [constructor|]. cbn [map concat]. apply Forall_app. split; [apply utf8_char_nul; assumption|exact IH]. Qed.
Lemma stored_kind img ov ctx c r : stored_answer img ov ctx c <> AInt r.
Proof. unfold stored_answer, entry_of. destruct (bind _ _); discriminate. Qed.
Lemma or_none_ok img ov ctx c : promised (stored_answer img ov ctx c) (found_or_none (stored_answer img ov ctx c)).
Proof. pose proof (stored_kind img ov ctx c) as K. destruct (stored_answer img ov ctx c) as [r|[x|]|]; [destruct (K r eq_refl)|constructor..]. Qed.

Section Py.
  Variables (P Q : Type) (evn : P -> list (Z * bnode) -> Z -> P * list (Z * bnode)) (evb : Q -> list (Z * list Z) -> Z -> Q * list (Z * list Z)).
  Variables (aes : list Z -> list Z -> list Z) (sha : list Z -> list Z) (hmac : list Z -> list Z -> list Z) (xts : list Z -> list Z -> list Z -> list Z -> list Z).
  Variable unkeyed : option (list Z -> list Z -> list Z).
  Variables (img : image) (ov : open_volume) (bg : bags).
  Notation vstep := (vstep P Q evn evb aes sha hmac xts unkeyed img ov bg).
  Notation vrun := (vrun P Q evn evb aes sha hmac xts unkeyed img ov bg).
  Notation py_vol := (py_vol P Q evn evb aes sha hmac xts unkeyed img ov bg).
  Notation py_vols := (py_vols P Q evn evb aes sha hmac xts unkeyed img ov bg).
  (* a call in Python is at most one call of the library *)
  Lemma py_vol_step h c a h' : py_vol h c = Ok (a, h') -> h' = h \/ exists d x, vstep h d = Ok (x, h').
  Proof.
    assert (G : forall d (f : vanswer -> pvanswer), (let! (x, h) := vstep h d in Ok (f x, h)) = Ok (a, h') -> exists d x, vstep h d = Ok (x, h')).
    { intros d f H. apply bind_ok in H. destruct H as ((x, h1) & E & H). injection H as _ <-. eauto. }
    destruct c as [n j1 j2|j1 j2|s j1 j2|s buf|s buf|j1 j2|]; cbn [PyVol.py_vol]; intros H; try (right; exact (G _ _ H)).
    - destruct (arg_str s); [right; exact (G _ _ H)|]. injection H as _ <-. left. reflexivity.
    - destruct (arg_str s) as [b|]; [|injection H as _ <-; left; reflexivity]. destruct (set_utf8 _ _ _); try discriminate; right; exact (G _ _ H).
    - destruct (arg_str s) as [b|]; [|injection H as _ <-; left; reflexivity]. destruct (set_utf8 _ _ _); try discriminate; right; exact (G _ _ H).
    - injection H as _ <-. left. reflexivity.
  Qed.
  Lemma py_vols_run : forall cs h l h', py_vols h cs = Ok (l, h') -> exists ds xs, vrun h ds = Ok (xs, h').
  Proof.
    induction cs as [|c cs IH]; intros h l h' H; cbn [PyVol.py_vols] in H; [injection H as <- <-; exists [], []; reflexivity|].
    apply bind_ok in H. destruct H as ((a, h1) & E & H). apply bind_ok in H. destruct H as ((l1, h2) & E2 & H). injection H as <- <-.
    destruct (IH _ _ _ E2) as (ds & xs & R). destruct (py_vol_step _ _ _ _ E) as [-> | (d & x & S)]; [eauto|].
    exists (d :: ds), (x :: xs). cbn [Session.vrun]. rewrite S. cbn [bind]. rewrite R. reflexivity.
  Qed.
End Py.

(* What holds of lookups, after any calls: with the decryption that is in force, the answer is as
   promised, unless an integer is no identifier or the identifier of no entry. *)
Definition as_promised (img : image) (ov : open_volume) (ctx : option (list Z -> list Z -> list Z)) (d : pvcall) (a : pvanswer) : Prop :=
  match d with
  | PvId n j1 j2 => identifier n -> (forall x, stored_answer img ov ctx (VId n j1 j2) = AEntry (Some x) -> a = PvEntry x) /\ (forall x, a = PvEntry x -> stored_answer img ov ctx (VId n j1 j2) = AEntry (Some x)) /\
      (a = PvRaise \/ exists x, a = PvEntry x)
  | _ => volume_gives img ov ctx d a
  end.
Theorem C112_lookup_partial : forall P Q evn evb, (forall (p : P) l b, incl (snd (evn p l b)) l) -> (forall (q : Q) l b, incl (snd (evb q l b)) l) ->
  forall aes sha hmac xts, (forall k1 k2, exists enc, unit_cipher 512 enc (xts k1 k2)) ->
  forall dec img c b ov unkeyed, bytes_image img -> volume_open dec img (c_size c) (c_bag c) b = Ok ov -> unkeyed = None \/ ov_bag ov = None ->
  forall p q cs l h, py_vols P Q evn evb aes sha hmac xts unkeyed img ov (bags_of c ov) (fresh P Q ov p q) cs = Ok (l, h) ->
  forall d a h', lookup d -> py_vol P Q evn evb aes sha hmac xts unkeyed img ov (bags_of c ov) h d = Ok (a, h') ->
  (ov_bag ov = None -> as_promised img ov None d a) /\
  (v_locked (h_volume h') = true -> ov_bag ov <> None -> a = PvRaise) /\
  (v_locked (h_volume h') = false -> ov_bag ov <> None -> exists k1 k2, v_keys (h_volume h') = Some (k1, k2) /\ as_promised img ov (Some (xts k1 k2)) d a) \/
  (exists s j1 j2, d = PvPath s j1 j2 /\ ~ text s /\ a = PvRaise /\ h' = h).
Proof.
  intros P Q evn evb H1 H2 aes sha hmac xts HX dec img c b ov unkeyed HB HO HU p q cs l h HR d a h' HL HS.
  destruct (py_vols_run P Q evn evb aes sha hmac xts unkeyed img ov (bags_of c ov) cs _ _ _ HR) as (ds & xs & R).
  pose proof (C71_like_fresh_partial P Q evn evb H1 H2 aes sha hmac xts HX dec img c b ov unkeyed HB HO HU p q ds xs h R) as L.
  assert (G : forall v f, lookup_call v -> f AError = PvRaise -> (let! (x, h) := vstep P Q evn evb aes sha hmac xts unkeyed img ov (bags_of c ov) h v in Ok (f x, h)) = Ok (a, h') ->
    (forall ctx, f (stored_answer img ov ctx v) = a -> as_promised img ov ctx d a) ->
    (ov_bag ov = None -> as_promised img ov None d a) /\ (v_locked (h_volume h') = true -> ov_bag ov <> None -> a = PvRaise) /\
    (v_locked (h_volume h') = false -> ov_bag ov <> None -> exists k1 k2, v_keys (h_volume h') = Some (k1, k2) /\ as_promised img ov (Some (xts k1 k2)) d a)).
  { intros v f LV F H A. apply bind_ok in H. destruct H as ((x, h1) & E & H). injection H as H <-. destruct (L v x h1 LV E) as (L1 & L2 & L3).
    split; [intros N; apply A; rewrite <- (L1 N); exact H|]. split; [intros K N; rewrite (L2 K N) in H; congruence|].
    intros K N. destruct (L3 K N) as (k1 & k2 & EK & X). exists k1, k2. split; [exact EK|]. apply A. rewrite <- X. exact H. }
  destruct d as [n j1 j2|j1 j2|s j1 j2| | | |]; try contradiction; cbn [py_vol] in HS.
  - left. refine (G (VId (arg_K n) j1 j2) found_or_raise Logic.I eq_refl HS _). intros ctx A. cbn [as_promised]. intros ID. unfold arg_K, w64 in A. unfold identifier in ID. rewrite Z.mod_small in A by lia.
    split; [intros x X; rewrite X in A; symmetry; exact A|]. split; [intros x ->|].
    + unfold found_or_raise in A. destruct (stored_answer _ _ _ _) as [r|[y|]|]; congruence.
    + unfold found_or_raise in A. destruct (stored_answer _ _ _ _) as [r|[y|]|]; eauto.
  - left. refine (G (VId 2 j1 j2) found_or_none Logic.I eq_refl HS _). intros ctx <-. cbn [as_promised]. apply gives_root, or_none_ok.
  - destruct (text_dec s) as [T|T].
    + left. rewrite (proj1 (arg_text s) T) in HS. refine (G (VPath false (utf8 s) j1 j2) found_or_none Logic.I eq_refl HS _). intros ctx <-. cbn [as_promised]. apply gives_path; [exact T|apply or_none_ok].
    + right. rewrite (proj2 (arg_text s) T) in HS. injection HS as <- <-. eauto 8.
Qed.
Print Assumptions C112_lookup_partial.

(* What holds of passwords and of the state. *)
Theorem C112_state_partial : forall P Q evn evb aes sha hmac xts unkeyed img ov bg (h h' : handle P Q) a,
  let py := py_vol P Q evn evb aes sha hmac xts unkeyed img ov bg in
  (py h PvLocked = Ok (a, h') -> a = PvBool (v_locked (h_volume h)) /\ h' = h) /\
  (forall j1 j2 r, py h (PvUnlock j1 j2) = Ok (PvBool r, h') -> v_locked (h_volume h') = negb r) /\
  (forall s buf, text s -> s <> [] -> len (utf8 s) < 2 ^ 27 -> len (utf8 s) < len buf ->
     (exists h', py h (PvPassword s buf) = Ok (PvNone, h') /\ v_user (h_volume h') = Some (utf8 s) /\ v_recovery (h_volume h') = v_recovery (h_volume h) /\ v_locked (h_volume h') = v_locked (h_volume h)) /\
     (exists h', py h (PvRecovery s buf) = Ok (PvNone, h') /\ v_recovery (h_volume h') = Some (utf8 s) /\ v_user (h_volume h') = v_user (h_volume h) /\ v_locked (h_volume h') = v_locked (h_volume h))) /\
  (forall s buf, ~ text s -> py h (PvPassword s buf) = Ok (PvRaise, h) /\ py h (PvRecovery s buf) = Ok (PvRaise, h)) /\
  (forall s buf, text s -> s = [] \/ 2 ^ 27 <= len (utf8 s) ->
     (exists h', py h (PvPassword s buf) = Ok (PvRaise, h') /\ v_user (h_volume h') = None) /\ (exists h', py h (PvRecovery s buf) = Ok (PvRaise, h') /\ v_recovery (h_volume h') = None)).
Proof.
  intros P Q evn evb aes sha hmac xts unkeyed img ov bg h h' a. cbv zeta. split; [|split; [|split; [|split]]].
  - cbn [py_vol]. intros E. injection E as <- <-. auto.
  - intros j1 j2 r E. cbn [py_vol] in E. apply bind_ok in E. destruct E as ((x, h1) & E & E1). cbn [vstep Volume.step] in E. apply bind_ok in E. destruct E as ((z, v) & E & E2).
    injection E2 as <- <-. injection E1 as E1 <-. cbn [h_volume]. cbn [truth] in E1. destruct (z =? -1) eqn:Z1; [discriminate|]. injection E1 as <-. rewrite Bool.negb_involutive.
    unfold unlock in E. destruct (v_locked (h_volume h)) eqn:K; cbn [negb] in E; [|injection E as <- <-; rewrite K; reflexivity].
    destruct (b_volume bg); [|injection E as <- <-; reflexivity].
    destruct (get_volume_key _ _ _ _ _ _) as [[key|]| | |]; try discriminate; try (injection E as <- <-; first [discriminate Z1|rewrite K; reflexivity]).
    destruct (get_master_key _ _ _ _ _ _) as [[m|]| | |]; try discriminate; try (injection E as <- <-; first [discriminate Z1|rewrite K; reflexivity]).
    destruct (rd m 0 16); cbn [bind] in E; try discriminate. destruct (rd m 16 16); cbn [bind] in E; try discriminate. injection E as <- <-. reflexivity.
  - intros s buf T N L B. assert (NU : utf8 s <> []).
    { destruct s as [|c s]; [congruence|]. unfold utf8. cbn [map concat]. unfold utf8_char. repeat match goal with |- context [if ?b then _ else _] => destruct b end; discriminate. }
    pose proof (C44_terminated_partial (utf8 s) [] buf (utf8_nul s T) NU L B) as SU. cbn [py_vol]. rewrite (proj1 (arg_text s) T), SU. cbn [vstep Volume.step bind].
    split; eexists; (split; [reflexivity|]); repeat split.
  - intros s buf T. cbn [py_vol]. rewrite (proj2 (arg_text s) T). auto.
  - intros s buf T D. assert (D' : utf8 s = [] \/ 2 ^ 27 <= len (utf8 s)) by (destruct D as [-> | D]; auto).
    pose proof (proj1 C44_refused (utf8 s) [] (len (utf8 s)) buf (utf8_nul s T) D') as SU. cbn [py_vol]. rewrite (proj1 (arg_text s) T), SU. cbn [vstep Volume.step bind].
    split; eexists; (split; [reflexivity|]); repeat split.
Qed.
Print Assumptions C112_state_partial.

(* The volume of PropSession, not encrypted. *)
Definition pv_img : image := fun b => if b =? 20 then Some sx_node else sx_map b.
Definition pv_ov : open_volume := {| ov_size := 409600; ov_super := ss_super; ov_omap := 30; ov_bag := None; ov_locked := false; ov_snapshots := [] |}.
Definition pv_show (a : pvanswer) : option Z := match a with PvEntry (i, _, _) => Some i | PvNone => Some (-1) | PvBool b => Some (if b then -2 else -3) | PvRaise => None end.
Definition pv_answers (img : image) (ov : open_volume) (bg : bags) (cs : list pvcall) : list (option Z) :=
  match py_vols unit unit keep keep aes_dec sha256 hmac_sha256 sx_cipher None img ov bg (fresh unit unit ov tt tt) cs with Ok (l, _) => map pv_show l | _ => [] end.
Definition pv_run := pv_answers pv_img pv_ov (sample_bags []).
(* Full statement is false: an identifier that no entry has is an exception, not None ... *)
Theorem C112_missing_refuted : exists img ov bg n, identifier n /\ promised (stored_answer img ov None (VId n [] [])) PvNone /\ ov_bag ov = None /\
  pv_answers img ov bg [PvId n [] []] = [None].
Proof.
  exists pv_img, pv_ov, (sample_bags []), 99. split; [unfold identifier; lia|]. split; [|split; vm_compute; reflexivity].
  assert (E : stored_answer pv_img pv_ov None (VId 99 [] []) = AEntry None) by (vm_compute; reflexivity). rewrite E. constructor.
Qed.
Print Assumptions C112_missing_refuted.
(* ... and an integer that is no identifier gives the entry with its lowest 64 bits. *)
Theorem C112_no_identifier_refuted : exists img ov bg n m, ~ identifier n /\ ~ identifier m /\ n < 0 < m /\
  pv_answers img ov bg [PvId n [] []; PvId m [] []] = [Some 18; Some 16].
Proof. exists pv_img, pv_ov, (sample_bags []), (18 - 2 ^ 64), (2 ^ 64 + 16). split; [unfold identifier; lia|]. split; [unfold identifier; lia|]. split; [lia|]. vm_compute. reflexivity. Qed.
Print Assumptions C112_no_identifier_refuted.
(* A password that is refused takes the one before it away. *)
Theorem C112_password_refuted : exists img ov bg s t, text s /\ text t /\
  pv_answers img ov bg [PvPassword s (zeros 80); PvUnlock (zeros 32) (zeros 32)] = [Some (-1); Some (-2)] /\
  pv_answers img ov bg [PvPassword s (zeros 80); PvPassword t (zeros 80); PvUnlock (zeros 32) (zeros 32)] = [Some (-1); None; Some (-3)].
Proof.
  exists ss_img, ss_ov, (sample_bags [entry_pw]), [112; 119], []. split; [repeat constructor; unfold scalar; lia|]. split; [constructor|]. split; vm_compute; reflexivity.
Qed.
Print Assumptions C112_password_refuted.
(* The entries by identifier and by path, the root directory, and paths that are not there or no
   text. *)
Example C112_example : pv_run [PvRoot [] []; PvId 16 [] []; PvPath [47; 97; 98] [] []; PvPath [47; 99; 100; 47; 104; 108] [] []; PvPath [47; 120] [] []; PvPath [47; 0] [] []; PvPath [47; 0xd800] [] []; PvLocked; PvUnlock [] []] =
  [Some 2; Some 16; Some 16; Some 16; Some (-1); None; None; Some (-3); Some (-2)].
Proof. vm_compute. reflexivity. Qed.
Example C112_locked_example : pv_answers ss_img ss_ov (sample_bags []) [PvLocked; PvPath [47; 97; 98] (zeros 32) (zeros 32); PvLocked] = [Some (-2); None; Some (-2)].
Proof. vm_compute. reflexivity. Qed.
