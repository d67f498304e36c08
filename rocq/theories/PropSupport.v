(* C92: the signature checks. *)
From Verif Require Import Base BaseLemmas Crypt Walk Omap OmapSpec KeyBag CryptSpec Container ContainerSpec ContainerProofs PropContainer Support SupportSpec.

Lemma handle_read_is dev d n : dev 0 = Some d -> read_at dev 0 n = (let! _ := check (n <=? len d) in rd d 0 n).
Proof. intros E. unfold read_at, seek. change (0 mod 2 ^ 52) with 0. cbv zeta. change (0 <? 2 ^ 51) with true. cbn [check bind]. unfold read_block. rewrite E. reflexivity. Qed.

(* What is read and what is answered. *)
Lemma check_reads dev s h : usable_handle h dev -> right_answer dev s (fst (check_signature s h)) /\ h_open (snd (check_signature s h)) = h_open h.
Proof.
  intros (F & U). destruct h as [o f c]. cbn [h_file h_open h_closes] in *. subst f. unfold check_signature. cbn [h_open].
  assert (HR : forall h', h_file h' = Some dev -> h_open h' = true -> handle_read h' 36 = match dev 0 with Some d => if 36 <=? len d then Ok (slice d 0 36) else Fail | None => Fail end).
  { intros h' E1 E2. unfold handle_read. rewrite E1, E2. destruct (dev 0) as [d|] eqn:E.
    - rewrite (handle_read_is dev d 36 E). destruct (36 <=? len d) eqn:L; [|reflexivity]. cbn [check bind]. apply rd_in; lia.
    - unfold read_at, seek. change (0 mod 2 ^ 52) with 0. cbv zeta. change (0 <? 2 ^ 51) with true. cbn [check bind]. unfold read_block. rewrite E. reflexivity. }
  assert (HA : forall d, 36 <= len d -> (let! x := rd (slice d 0 36) 32 4 in Ok (list_eqb x s)) = Ok (list_eqb (slice d 32 4) s)).
  { intros d L. rewrite rd_in by (rewrite ?len_slice by lia; lia). cbn [bind]. rewrite slice_slice by lia. reflexivity. }
  assert (RA : forall d, dev 0 = Some d -> 36 <= len d -> right_answer dev s (Ok (list_eqb (slice d 32 4) s))).
  { intros d E L. cbn [right_answer]. split; [exists d; auto|]. rewrite list_eqb_iff. split; [intros X; exists d; auto|]. intros (d' & E' & _ & X). congruence. }
  assert (RN : match dev 0 with Some d => len d < 36 | None => True end -> right_answer dev s Fail).
  { cbn [right_answer]. intros X (d & E & L). rewrite E in X. lia. }
  destruct o.
  - rewrite HR by reflexivity. destruct (dev 0) as [d|] eqn:E; [|split; [apply RN; exact I|reflexivity]].
    destruct (36 <=? len d) eqn:L; [|split; [apply RN; lia|reflexivity]]. cbn [fst snd h_open]. rewrite HA by lia. split; [apply RA; [reflexivity|lia]|reflexivity].
  - destruct U as [U|U]; [discriminate|]. subst c. unfold handle_open. cbn [h_file set_open h_closes]. rewrite HR by reflexivity.
    destruct (dev 0) as [d|] eqn:E; [|split; [apply RN; exact I|reflexivity]].
    destruct (36 <=? len d) eqn:L; [|split; [apply RN; lia|reflexivity]]. cbn [handle_close set_open h_open h_closes h_file andb fst snd]. rewrite HA by lia. split; [apply RA; [reflexivity|lia]|reflexivity].
Qed.
(* Both checks look at the same bytes; they answer by them and leave the handle as it was. *)
Theorem C92_signature : forall h dev, usable_handle h dev ->
  (right_answer dev nxsb (fst (check_container_signature h)) /\ h_open (snd (check_container_signature h)) = h_open h) /\
  (right_answer dev apsb (fst (check_volume_signature h)) /\ h_open (snd (check_volume_signature h)) = h_open h).
Proof. intros h dev U. split; apply check_reads; exact U. Qed.
Print Assumptions C92_signature.
(* A file that opens as a container is never said not to be one. *)
Theorem C92_opens_is_marked : forall dec dev c, device_ok dev -> open dec dev = Ok c ->
  check_container_file (Some dev) = Ok true /\ check_volume_file (Some dev) = Ok false.
Proof.
  intros dec dev c D O. unfold open in O. apply bind_ok in O. destruct O as (s & E & _). apply (superblock_at_ok dev 0 s D) in E. destruct E as (d & (E & B) & _ & _). change (0 mod 2 ^ 52) with 0 in E.
  destruct B as (L & _ & _ & _ & _ & M & _).
  destruct (C92_signature (mk_handle false (Some dev) true) dev) as ((A & _) & (B & _)); [split; [reflexivity|right; reflexivity]|].
  fold (check_container_file (Some dev)) in A. fold (check_volume_file (Some dev)) in B. assert (LE : long_enough dev) by (exists d; split; [exact E|lia]). split.
  - destruct (check_container_file (Some dev)) as [b| | |]; cbn [right_answer] in A; try contradiction. f_equal. apply A. exists d. split; [exact E|]. split; [lia|exact M].
  - destruct (check_volume_file (Some dev)) as [b| | |]; cbn [right_answer] in B; try contradiction. f_equal. destruct b; [|reflexivity].
    destruct (proj1 (proj2 B) eq_refl) as (d' & E' & _ & M'). assert (d' = d) as -> by congruence. rewrite M in M'. discriminate.
Qed.
Print Assumptions C92_opens_is_marked.
Example C92_example : check_container_file (Some dev_out) = Ok true /\ check_volume_file (Some dev_out) = Ok false /\
  check_container_file (Some (fun b => if b =? 0 then Some (zeros 35) else None)) = Fail /\ check_container_file None = Fail /\
  check_container_signature (mk_handle true (Some dev_out) true) = (Ok true, mk_handle true (Some dev_out) true).
Proof. vm_compute. auto. Qed.
(* A file with the signature need not open: the file of 36 bytes that ends with it. A container with a
   volume has no volume signature. *)
Theorem C92_marked_opens_refuted : exists dev, check_container_file (Some dev) = Ok true /\ forall dec, open dec dev = Fail.
Proof. exists (fun b => if b =? 0 then Some (zeros 32 ++ nxsb) else None). split; [vm_compute; reflexivity|]. intros dec. vm_compute. reflexivity. Qed.
Print Assumptions C92_marked_opens_refuted.
Theorem C92_volume_signature_refuted : exists dev d v, superblock_in dev 0 d /\ In v (volumes d) /\
  (forall enc dec, (forall id, unit_cipher 512 (enc id) (dec id)) -> exists c, open dec dev = Ok c) /\ check_volume_file (Some dev) = Ok false.
Proof.
  exists dev_out, sb5. destruct (volumes sb5) as [|v l] eqn:V; [vm_compute in V; discriminate|]. exists v. split; [split; [reflexivity|exact sb5_ok]|]. split; [left; reflexivity|].
  split; [|vm_compute; reflexivity]. intros enc dec HC. destruct (C46_opens_newest_partial enc dec HC dev_out 4 sb6 (dev_out_ok enc)) as (c & m & E & _). exists c. exact E.
Qed.
Print Assumptions C92_volume_signature_refuted.
