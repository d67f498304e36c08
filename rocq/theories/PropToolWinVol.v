(* C114: what Windows is told about a mounted volume. *)
From Verif Require Import Base BaseLemmas NameSpec Name PropName OmapSpec Records FsTree TreeSpec FsSpec FsName FileEntry FileNames ToolPath ToolMount ToolExample PropFs PropFile PropEntry PropToolPath PropToolInfo ToolWin ToolWinSpec ToolWinVol.

(* What GetVolumeInformationW says about its buffers, independent of the code: a buffer of size
   units receives the name and its end (NUL) if they are not longer than size units, a buffer is
   not written to behind size units. *)
Definition receives (name : list Z) (size : Z) (before after : list Z) : Prop :=
  len after = len before /\ (forall k, size <= k -> nth_error after (Z.to_nat k) = nth_error before (Z.to_nat k)) /\
  (len name + 1 <= size -> firstn (length name + 1) after = name ++ [0]).
(* The bits of FILE_CASE_SENSITIVE_SEARCH and of the volumes that cannot be written to. *)
Definition case_sensitive (flags : Z) : Prop := Z.testbit flags 0 = true.
Definition read_only (flags : Z) : Prop := Z.testbit flags 19 = true.

Lemma give_name_ok : forall name b size, size <= len b -> exists b', give_name name (Some b) size = Ok (Some b') /\
  len b' = len b /\ (forall k, size <= k -> nth_error b' (Z.to_nat k) = nth_error b (Z.to_nat k)) /\
  (len name + 1 < size -> firstn (length name + 1) b' = name ++ [0] /\ skipn (length name + 1) b' = skipn (length name + 1) b) /\ (size <= len name + 1 -> b' = b).
Proof.
  intros name b size H. unfold give_name, copy_units. destruct (Z.ltb_spec (1 + len name) size) as [L|L].
  - assert (E : len (name ++ [0]) = len name + 1) by (unfold len; rewrite app_length; cbn [length]; lia).
    destruct (Z.ltb_spec (len b) (len (name ++ [0]))) as [X|X]; [lia|]. cbn [bind]. eexists. split; [reflexivity|].
    rewrite E. assert (N : Z.to_nat (len name + 1) = (length name + 1)%nat) by (unfold len; lia). rewrite N.
    assert (LN : length (name ++ [0]) = (length name + 1)%nat) by (rewrite app_length; reflexivity).
    split; [unfold len in *; rewrite app_length, skipn_length, LN; lia|]. split; [|split; [intros _; split|intros; lia]].
    + intros k K. rewrite nth_error_app2 by (rewrite LN; unfold len in *; lia). rewrite LN.
      rewrite <- (firstn_skipn (length name + 1) b) at 2. rewrite nth_error_app2; rewrite firstn_length; unfold len in *; [f_equal|]; lia.
    + rewrite <- LN at 1. rewrite firstn_app, Nat.sub_diag, firstn_O, app_nil_r, firstn_all. reflexivity.
    + rewrite <- LN at 1. rewrite skipn_app, Nat.sub_diag, skipn_all. reflexivity.
  - eexists. split; [reflexivity|]. split; [reflexivity|]. split; [reflexivity|]. split; [lia|reflexivity].
Qed.
(* What holds: the call succeeds for all buffers that are as large as they are said to be and for
   any that are missing. The names are received unless the size is exactly that of the name with
   its end, nothing is written behind the sizes, and the flags say that the volume cannot be
   written to. *)
Theorem C114_volume_information_partial : forall v n m,
  (forall b, vi_name v = Some b -> 0 <= n <= len b) -> (forall b, vi_system v = Some b -> 0 <= m <= len b) ->
  exists w, volume_information n m v = Ok w /\
    (forall b, vi_name v = Some b -> n <> 7 -> exists b', vi_name w = Some b' /\ receives [70; 83; 65; 80; 70; 83] n b b') /\
    (forall b, vi_system v = Some b -> m <> 6 -> exists b', vi_system w = Some b' /\ receives [68; 111; 107; 97; 110] m b b') /\
    (forall x, vi_flags w = Some x -> read_only x) /\
    (vi_name w = None <-> vi_name v = None) /\ (vi_system w = None <-> vi_system v = None) /\ (vi_flags w = None <-> vi_flags v = None) /\
    (vi_serial w = None <-> vi_serial v = None) /\ (vi_longest w = None <-> vi_longest v = None).
Proof.
  intros v n m HN HM. unfold volume_information.
  assert (G : forall name buf size, (forall b, buf = Some b -> 0 <= size <= len b) -> exists r, give_name name buf size = Ok r /\
    (forall b, buf = Some b -> size <> len name + 1 -> exists b', r = Some b' /\ receives name size b b') /\ (r = None <-> buf = None)).
  { intros name [b|] size H.
    - specialize (H b eq_refl). destruct (give_name_ok name b size ltac:(lia)) as (b' & E & L & K & P & N). exists (Some b'). split; [exact E|]. split; [|split; discriminate].
      intros c C NE. injection C as <-. exists b'. split; [reflexivity|]. split; [exact L|]. split; [exact K|]. intros X. exact (proj1 (P ltac:(lia))).
    - exists None. split; [reflexivity|]. split; [discriminate|tauto]. }
  destruct (G volume_label (vi_name v) n HN) as (r1 & -> & A1 & B1). destruct (G system_label (vi_system v) m HM) as (r2 & -> & A2 & B2). cbn [bind].
  eexists. split; [reflexivity|]. cbn [vi_name vi_system vi_flags vi_serial vi_longest].
  split; [exact A1|]. split; [exact A2|]. split; [intros x X; unfold give_number in X; destruct (vi_flags v); [injection X as <-; reflexivity|discriminate]|].
  split; [exact B1|]. split; [exact B2|]. unfold give_number. destruct (vi_flags v), (vi_serial v), (vi_longest v); repeat split; discriminate.
Qed.
Print Assumptions C114_volume_information_partial.

Definition nv (n m : Z) : vinfo := mk_vinfo (Some (zeros n)) (Some 0) (Some 0) (Some 0) (Some (zeros m)).
Example C114_example : volume_information 10 8 (nv 10 8) =
  Ok (mk_vinfo (Some [70; 83; 65; 80; 70; 83; 0; 0; 0; 0]) (Some 0x19831116) (Some 256) (Some 0x80007) (Some [68; 111; 107; 97; 110; 0; 0; 0])) /\
  volume_information 3 0 (mk_vinfo (Some [9; 9; 9]) None None None None) = Ok (mk_vinfo (Some [9; 9; 9]) None None None None).
Proof. split; reflexivity. Qed.

(* Full statement is false: a buffer that is just large enough does not receive the name ... *)
Theorem C114_name_refuted : exists v w b, vi_name v = Some b /\ len b = len volume_label + 1 /\ volume_information (len b) 0 v = Ok w /\
  vi_name w = Some b /\ ~ receives [70; 83; 65; 80; 70; 83] (len b) b b.
Proof.
  exists (nv 7 0). eexists. exists (zeros 7). split; [reflexivity|]. split; [reflexivity|]. split; [reflexivity|]. split; [reflexivity|].
  intros (_ & _ & H). specialize (H ltac:(vm_compute; discriminate)). discriminate.
Qed.
Print Assumptions C114_name_refuted.
(* The flags: names keep their case and are Unicode; and beside case, which see below, and that
   nothing can be written, nothing else is promised (streams, links, quotas, compression ...). *)
Theorem C114_flags : forall v n m w x, volume_information n m v = Ok w -> vi_flags w = Some x ->
  Z.testbit x 1 = true /\ Z.testbit x 2 = true /\ Z.testbit x 19 = true /\
  forall k, 0 <= k -> k <> 0 -> k <> 1 -> k <> 2 -> k <> 19 -> Z.testbit x k = false.
Proof.
  intros v n m w x H X. unfold volume_information in H. destruct (give_name volume_label _ n); try discriminate. destruct (give_name system_label _ m); try discriminate. cbn [bind] in H. injection H as <-.
  cbn [vi_flags] in X. unfold give_number in X. destruct (vi_flags v); [|discriminate]. injection X as <-.
  split; [reflexivity|]. split; [reflexivity|]. split; [reflexivity|]. intros k K0 N0 N1 N2 N19. unfold system_flags.
  rewrite !Z.lor_spec. change 0x1 with (2 ^ 0). change 0x2 with (2 ^ 1). change 0x4 with (2 ^ 2). change 0x80000 with (2 ^ 19).
  rewrite !Z.pow2_bits_false by lia. reflexivity.
Qed.
Print Assumptions C114_flags.
(* ... a volume that does not tell apart letters by their case is said to do so ... *)
Theorem C114_case_refuted : exists (tie : list Z -> list Z -> Prop) h t recs p q e, fs_tree tie h t recs /\ p <> q /\ map upper p = map upper q /\
  win_open (fun _ => None) t true p = Ok (Some e) /\ win_open (fun _ => None) t true q = Ok (Some e) /\
  forall v n m w x, volume_information n m v = Ok w -> vi_flags w = Some x -> case_sensitive x.
Proof.
  exists fx_tie, 0%nat, fi, fi_recs, [92; 97; 92; 98], [92; 65; 92; 66]. eexists. split; [exact fi_tree|]. split; [discriminate|]. split; [reflexivity|].
  split; [vm_compute; reflexivity|]. split; [vm_compute; reflexivity|].
  intros v n m w x H X. unfold volume_information in H. destruct (give_name volume_label _ n); try discriminate. destruct (give_name system_label _ m); try discriminate. cbn [bind] in H. injection H as <-.
  cbn [vi_flags] in X. unfold give_number in X. destruct (vi_flags v); [injection X as <-; reflexivity|discriminate].
Qed.
Print Assumptions C114_case_refuted.
(* ... and a file name (at most 255 bytes on the volume) is shown with more units than names are
   said to have. *)
Theorem C114_longest_refuted : exists s t n, file_name s /\ len (utf8 s) <= 255 /\ win_from (utf16 s) = Ok (t, n) /\
  forall v k m w x, volume_information k m v = Ok w -> vi_longest w = Some x -> x < len t.
Proof.
  exists (repeat 1 65). eexists. eexists. split; [apply Forall_forall; intros x X; apply repeat_spec in X; subst; unfold scalar; lia|].
  split; [vm_compute; discriminate|]. split; [vm_compute; reflexivity|].
  intros v k m w x H X. unfold volume_information in H. destruct (give_name volume_label _ k); try discriminate. destruct (give_name system_label _ m); try discriminate. cbn [bind] in H. injection H as <-.
  cbn [vi_longest] in X. unfold give_number in X. destruct (vi_longest v); [injection X as <-; vm_compute; reflexivity|discriminate].
Qed.
Print Assumptions C114_longest_refuted.
