(* Proofs about the paths of the mounted volume. *)
From Verif Require Import Base BaseLemmas Name NameSpec NameProofs PropName TreeSpec BTreeProofs Walk Records FsTree FsSpec FsNameSpec FsName FsNameProofs FsNameTop PropFsName Snapshot FileEntry EntryName EntrySpec PropEntry EndSpec EndProofs
  ToolPath ToolPathSpec ToolPathProofs ToolMount.
Ltac Zify.zify_post_hook ::= Z.div_mod_to_equations.

Definition plain (s : list Z) : Prop := file_name s /\ s <> [] /\ ~ In 47 s.

(* ---- the text of a name ---- *)
Definition name_chars (s : list Z) : list Z := concat (map (esc_text mount_x (fun c => c =? 92)) s).
Lemma mount_from_chars s : file_name s -> s <> [] -> fits (utf8 s) -> mount_from (utf8 s) = Ok (utf8 (name_chars s)).
Proof.
  intros F N B. rewrite mount_from_ok by assumption. f_equal. apply escs_text; [eapply Forall_impl; [|exact F]; cbn; tauto|]. intros c H. cbn beta in H. lia.
Qed.
Lemma name_chars_shown s : file_name s -> Forall (fun c => scalar c /\ shown c /\ c <> 47) (name_chars s).
Proof.
  induction 1 as [|c s (H1 & H2) H3 IH]; [constructor|]. unfold name_chars. cbn [map concat]. apply Forall_app. split; [|exact IH].
  assert (E : Forall (fun d => scalar d /\ shown d /\ (mount_x d = true -> In d [92; 120; 85] \/ 48 <= d <= 57 \/ 97 <= d <= 102)) (esc_text mount_x (fun c => c =? 92) c)).
  { apply esc_text_shown; [exact H1|intros d H; unfold mount_x; rewrite H; reflexivity|cbn beta; lia]. }
  eapply Forall_impl; [|exact E]. cbn beta. intros d (D1 & D2 & D3). split; [exact D1|]. split; [exact D2|]. intros ->. specialize (D3 eq_refl). cbn [In] in D3. lia.
Qed.
Lemma name_chars_nonempty s : s <> [] -> name_chars s <> [].
Proof.
  destruct s as [|c s]; [congruence|]. intros _ E. apply (f_equal (@length Z)) in E. unfold name_chars in E. cbn [map concat length] in E. rewrite app_length in E.
  assert (1 <= len (esc_text mount_x (fun c => c =? 92) c)); [|unfold len in *; lia].
  unfold esc_text. repeat match goal with |- context [if ?b then _ else _] => destruct b end; rewrite ?len_app, ?hex_len; unfold len; cbn; lia.
Qed.
Lemma utf8_no c s : 0 <= c < 128 -> Forall scalar s -> ~ In c s -> ~ In c (utf8 s).
Proof.
  intros C S. induction S as [|d s H1 H2 IH]; intros N H; [exact H|]. rewrite utf8_cons in H. apply in_app_or in H. destruct H as [H|H].
  - apply N. left. unfold scalar in H1. unfold utf8_char in H. repeat match goal with H : context [if ?b then _ else _] |- _ => destruct b eqn:? end; cbn [In] in H; lia.
  - apply IH; [|exact H]. intros X. apply N. right. exact X.
Qed.

(* ---- paths ---- *)
Lemma path_of_cons s l : path_of (s :: l) = 47 :: s ++ path_of l.
Proof. reflexivity. Qed.
Lemma path_of_app a b : path_of (a ++ b) = path_of a ++ path_of b.
Proof. unfold path_of. rewrite map_app, concat_app. reflexivity. Qed.
Lemma utf8_path l : utf8 (path_of l) = path_of (map utf8 l).
Proof. induction l as [|s l IH]; [reflexivity|]. cbn [map]. rewrite !path_of_cons, utf8_cons, utf8_app, IH. reflexivity. Qed.
Lemma split_sep a p : ~ In 47 a -> split (a ++ 47 :: p) = (a :: fst (split p), snd (split p)).
Proof.
  induction a as [|c a IH]; intros N.
  - cbn [app split]. destruct (split p) as (i, l). reflexivity.
  - cbn [app split]. rewrite IH by (intros X; apply N; right; exact X). cbn [fst snd].
    replace (c =? 47) with false; [reflexivity|]. assert (c <> 47) by (intros ->; apply N; left; reflexivity). lia.
Qed.
Lemma components_path l : Forall plain l -> components (path_of l) = l.
Proof.
  intros H. destruct l as [|s l]; [reflexivity|]. rewrite path_of_cons. unfold components.
  enough (E : (let (init, last) := split (s ++ path_of l) in init ++ match last with [] => [] | _ => [last] end) = s :: l) by exact E.
  revert s H. induction l as [|s' l IH]; intros s H.
  - change (path_of []) with (@nil Z). rewrite app_nil_r. destruct (Forall_inv H) as (_ & N & NI). rewrite split_plain by exact NI. destruct s; [congruence|reflexivity].
  - destruct (Forall_inv H) as (_ & N & NI). rewrite path_of_cons, split_sep by exact NI. specialize (IH s' (Forall_inv_tail H)).
    destruct (split (s' ++ path_of l)) as (i, t). cbn [fst snd app]. f_equal. exact IH.
Qed.
Lemma path_file_name l : Forall file_name l -> file_name (path_of l).
Proof.
  induction 1 as [|s l H1 H2 IH]; [constructor|]. rewrite path_of_cons. constructor; [unfold scalar; lia|]. apply Forall_app. split; assumption.
Qed.
Lemma mount_text_path l : Forall file_name l -> mount_text (path_of (map (fun s => utf8 (name_chars s)) l)) (path_of l).
Proof.
  induction 1 as [|s l H1 H2 IH]; [constructor|]. cbn [map]. rewrite !path_of_cons. constructor. apply mount_text_app; [|exact IH].
  unfold name_chars. rewrite <- escs_text; [apply mount_text_name, H1|eapply Forall_impl; [|exact H1]; cbn; tauto|cbn beta; lia].
Qed.
Lemma mount_to_path bad l : Forall file_name l -> l <> [] -> len (path_of (map (fun s => utf8 (name_chars s)) l)) < 2 ^ 63 - 1 ->
  mount_to bad (path_of (map (fun s => utf8 (name_chars s)) l)) = Ok (utf8 (path_of l)).
Proof.
  intros H N L. pose proof (mount_text_path l H) as T. destruct l as [|s l]; [congruence|]. cbn [map] in *. rewrite !path_of_cons in *. apply mount_to_ok; assumption.
Qed.
Lemma c_string_utf8 s : file_name s -> c_string (utf8 s) = utf8 s.
Proof.
  intros F. assert (N : ~ In 0 (utf8 s)).
  { apply utf8_no; [lia|eapply Forall_impl; [|exact F]; cbn; tauto|]. intros H. unfold file_name in F. rewrite Forall_forall in F. destruct (F 0 H). congruence. }
  induction (utf8 s) as [|c l IH]; [reflexivity|]. cbn [c_string]. replace (c =? 0) with false by (assert (c <> 0) by (intros ->; apply N; left; reflexivity); lia).
  f_equal. apply IH. intros X. apply N. right. exact X.
Qed.

(* ---- the name at the end of a path ---- *)
Lemma last_sep_to a b : ~ In 47 b -> forall n, (n <= length b)%nat -> last_sep (a ++ 47 :: b) (length a + n) = len a.
Proof.
  intros N. assert (G : forall k, 0 <= k < len b -> exists c, getb b k = Ok c /\ c <> 47).
  { intros k K. unfold getb. replace (_ && _) with true by lia. destruct (nth_error b (Z.to_nat k)) as [c|] eqn:E; [|apply nth_error_None in E; unfold len in K; lia].
    exists c. split; [reflexivity|]. intros ->. apply N. eapply nth_error_In. exact E. }
  induction n as [|n IH]; intros L.
  - rewrite Nat.add_0_r. destruct (length a) as [|m] eqn:EA; [destruct a; [reflexivity|discriminate]|]. cbn [last_sep].
    assert (E : getb ((a ++ 47 :: b) ++ [0]) (Z.of_nat (S m)) = Ok 47).
    { unfold getb. rewrite !len_app, len_cons. pose proof (len_nonneg b). assert (len a = Z.of_nat (S m)) by (unfold len; lia). change (len [0]) with 1.
      replace (_ && _) with true by lia. rewrite Nat2Z.id, <- app_assoc, nth_error_app2 by lia. rewrite EA, Nat.sub_diag. reflexivity. }
    rewrite E. unfold len. lia.
  - replace (length a + S n)%nat with (S (length a + n)) by lia. cbn [last_sep]. 
    assert (E : exists c, getb ((a ++ 47 :: b) ++ [0]) (Z.of_nat (S (length a + n))) = Ok c /\ c <> 47).
    { destruct (G (Z.of_nat n) ltac:(unfold len; lia)) as (c & E & C). exists c. split; [|exact C].
      unfold getb in *. rewrite !len_app, len_cons. pose proof (len_nonneg b). change (len [0]) with 1. destruct (_ && _) eqn:B in E; [|discriminate].
      replace (_ && _) with true by (unfold len in *; lia). rewrite Nat2Z.id in *. rewrite <- app_assoc, nth_error_app2 by lia.
      replace (S (length a + n) - length a)%nat with (S n) by lia. cbn [nth_error app]. rewrite nth_error_app1 by (unfold len in B; lia). exact E. }
    destruct E as (c & -> & C). rewrite IH by lia. destruct c as [|q|q]; try reflexivity. repeat (destruct q as [q|q|]; try reflexivity). congruence.
Qed.
Lemma mount_open_path bad t fold a b r q : b <> [] -> ~ In 47 b -> len (a ++ 47 :: b) < 2 ^ 63 - 1 ->
  mount_to bad (a ++ 47 :: b) = Ok q -> fs_by_path t utf8_next fold 2 (c_string q) = Ok r ->
  mount_open bad t fold (a ++ 47 :: b) = Ok (match r with Some x => Some (b, x) | None => None end).
Proof.
  intros NB N L M R. unfold mount_open. pose proof (len_nonneg a). assert (LB : 1 <= len b) by (destruct b; [congruence|rewrite len_cons; pose proof (len_nonneg b); lia]).
  rewrite len_app, len_cons in *. replace (negb (len a + (1 + len b) =? 0)) with true by lia. cbn [check bind].
  assert (E : exists c, getb (a ++ 47 :: b) (len a + (1 + len b) - 1) = Ok c /\ c <> 47).
  { destruct (exists_last NB) as (b' & c & ->). exists c. split; [|intros ->; apply N, in_or_app; right; left; reflexivity].
    unfold getb. rewrite ?len_app, ?len_cons, ?len_app in *. change (len [c]) with 1 in *. change (len (@nil Z)) with 0 in *. change (1 + 0) with 1 in *. pose proof (len_nonneg b').
    replace (_ && _) with true by lia. replace (Z.to_nat (len a + (1 + (len b' + 1)) - 1)) with (length a + S (length b'))%nat by (unfold len; lia).
    rewrite nth_error_app2 by lia. replace (length a + S (length b') - length a)%nat with (S (length b')) by lia. cbn [nth_error]. rewrite nth_error_app2 by lia. rewrite Nat.sub_diag. reflexivity. }
  destruct E as (c & -> & C). replace ((2 <=? len a + (1 + len b)) && (c =? 47)) with false by lia.
  replace (slice (a ++ 47 :: b) 0 (len a + (1 + len b))) with (a ++ 47 :: b).
  2: { unfold slice. change (Z.to_nat 0) with O. cbn [skipn]. symmetry. apply firstn_all2. rewrite app_length. cbn [length]. unfold len. lia. }
  rewrite M. cbn [bind]. rewrite R. cbn [bind]. destruct r as [x|]; [|reflexivity].
  replace (Z.to_nat (len a + (1 + len b))) with (length a + S (length b))%nat by (unfold len; lia).
  assert (LS : last_sep (a ++ 47 :: b) (length a + S (length b)) = len a).
  { replace (length a + S (length b))%nat with (S (length a + length b)) by lia. cbn [last_sep].
    assert (E : getb ((a ++ 47 :: b) ++ [0]) (Z.of_nat (S (length a + length b))) = Ok 0).
    { unfold getb. rewrite !len_app, len_cons. change (len [0]) with 1. replace (_ && _) with true by (unfold len; lia). rewrite Nat2Z.id.
      replace (S (length a + length b)) with (length (a ++ 47 :: b)) by (rewrite app_length; cbn [length]; lia). rewrite nth_error_app2 by lia. rewrite Nat.sub_diag. reflexivity. }
    rewrite E. apply last_sep_to; [exact N|lia]. }
  rewrite LS. unfold w64. rewrite Z.mod_small by lia. unfold ssize_max. replace (_ <=? _) with true by lia. cbn [check bind].
  do 3 f_equal. replace (len a + (1 + len b) - (len a + 1)) with (len b) by lia. unfold slice.
  replace (Z.to_nat (len a + 1)) with (length a + 1)%nat by (unfold len; lia). rewrite skipn_app. replace (length a + 1 - length a)%nat with 1%nat by lia. cbn [skipn].
  rewrite skipn_all2 by lia. cbn [app]. apply firstn_all2. unfold len. lia.
Qed.

Lemma leads_snoc hashed fold recs id d cs i e r e' s : leads hashed fold recs id d cs i e -> named hashed fold i recs r e' s -> s <> [] ->
  leads hashed fold recs id d (cs ++ [s]) (de_inode e') (Some e').
Proof.
  induction 1 as [id d|id d c cs r0 e0 s0 i e0' NN NC S1 S2 HL IH]; intros H N.
  - cbn [app]. eapply leads_down; [exact H|exact N|reflexivity|reflexivity|apply leads_here].
  - cbn [app]. eapply leads_down; [exact NN|exact NC|exact S1|exact S2|exact (IH H N)].
Qed.
Lemma path_long l : Forall plain l -> l <> [] -> 2 <= len (utf16 (path_of l)).
Proof.
  intros H N. destruct l as [|s l]; [congruence|]. destruct (Forall_inv H) as (F & NE & _). destruct s as [|c s]; [congruence|]. rewrite path_of_cons. cbn [app].
  assert (X : forall c, 1 <= len (utf16 [c])) by (intros c0; unfold utf16; cbn [map concat]; rewrite app_nil_r; unfold utf16_char; destruct (_ <? _); unfold len; cbn; lia).
  pose proof (X 47). pose proof (X c). unfold utf16 in *. cbn [map concat] in *. rewrite !len_app in *. change (len []) with 0 in *.
  pose proof (len_nonneg (concat (map utf16_char (s ++ path_of l)))). lia.
Qed.
