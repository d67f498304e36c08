(* C113: names and extended attributes in Python. *)
From Coq Require Import Lia.
From Verif Require Import Base BaseLemmas Name NameSpec CryptSpec PropName Walk TreeSpec OmapSpec RecordsSpec Records FsTree FsName FsNameSpec FsSpec DataSpec Compressed CompressedSpec CompressedTop PropCompressed PropFs Snapshot FileEntry FileNames FileSpec FileProofs FileTop PropFile EntryName EntrySpec PropEntry
  ExtAttr ExtAttrSpec PropAttr ToolInfo PyFile PyFileSpec PropPyFile PyVol PyVolSpec PropPyVol PyAttr.
Ltac Zify.zify_post_hook ::= Z.div_mod_to_equations.

(* ---- what is read from a file-like object ---- *)
Definition io_call (c : fcall) : Prop := match c with CSize | CRead _ | CReadAt _ _ | CSeek _ _ | COffset => True | _ => False end.
Definition file_like {St} (call : fcall -> St -> res (fanswer * St)) (f : file) (I : St -> Z -> Prop) : Prop :=
  forall c st pos, io_call c -> I st pos -> exists st', call c st = Ok (fst (file_step f pos c), st') /\ I st' (snd (file_step f pos c)).
Lemma py_step_like St (call : fcall -> St -> res (fanswer * St)) f I c st pos : file_like call f I -> I st pos -> 0 <= pos -> servable (fl_data f) c ->
  exists st', py_call _ call c st = Ok (fst (file_object (fl_data f) pos c), st') /\ I st' (snd (file_object (fl_data f) pos c)) /\ 0 <= snd (file_object (fl_data f) pos c).
Proof.
  intros HS HI HP SV. set (data := fl_data f). pose proof (len_nonneg data) as LN.
  assert (RD : forall n st, I st pos -> 0 <= n < 2 ^ 31 -> let d := slice data pos (Z.min n (len data - pos)) in
     exists st', py_read_size _ call (CRead n) n st = Ok (PBytes d, st') /\ I st' (pos + len d) /\ 0 <= pos + len d).
  { intros n s HIs Hn d. unfold py_read_size. destruct (n =? 0) eqn:N0.
    - apply Z.eqb_eq in N0. subst n. assert (d = []) as -> by (unfold d; apply slice_none; lia). exists s. change (len (@nil Z)) with 0. rewrite Z.add_0_r. split; [reflexivity|]. split; [exact HIs|exact HP].
    - replace (n <? 0) with false by lia. replace (2 ^ 31 - 1 <? n) with false by lia.
      destruct (HS (CRead n) s pos Logic.I HIs) as (s' & G & I'). rewrite G. cbn [bind]. cbn [file_step] in *. fold data in I', G |- *. replace ((0 <=? pos) && (0 <=? n) && (n <=? 2 ^ 63 - 1)) with true in * by lia. cbn [fst snd bytes_or_raise] in *. exists s'. fold d in I' |- *. pose proof (len_nonneg d). split; [reflexivity|]. split; [exact I'|lia]. }
  destruct c as [[n|]|n off|off w| |]; cbn [servable] in SV; cbn [py_call file_object].
  - unfold int64. replace ((- 2 ^ 63 <=? n) && (n <? 2 ^ 63)) with true by lia. replace (n <? 0) with false by lia. cbn [fst snd]. exact (RD n st HI SV).
  - destruct (HS CSize st pos Logic.I HI) as (s' & G & I'). rewrite G. cbn [bind]. cbn [file_step fst snd] in *. fold data in SV |- *. assert (E : s64 (len data) = len data) by (unfold s64; replace (len data <? 2 ^ 63) with true by lia; reflexivity). rewrite E. exact (RD (len data) s' I' (conj LN SV)).
  - unfold int64. replace (((- 2 ^ 63 <=? n) && (n <? 2 ^ 63)) && ((- 2 ^ 63 <=? off) && (off <? 2 ^ 63))) with true by lia. unfold py_read_size. fold data.
    destruct (n =? 0) eqn:N0; [replace (0 <? n) with false by lia; cbn [andb fst snd]; exists st; split; [reflexivity|]; split; assumption|].
    destruct (n <? 0) eqn:N1; [replace (0 <? n) with false by lia; cbn [andb orb fst snd]; exists st; split; [reflexivity|]; split; assumption|].
    replace (0 <? n) with true by lia. replace (n <=? 2 ^ 31 - 1) with true by lia. cbn [andb orb]. destruct (off <? 0) eqn:N2; [cbn [fst snd]; exists st; split; [reflexivity|]; split; assumption|].
    replace (2 ^ 31 - 1 <? n) with false by lia. destruct (HS (CReadAt off n) st pos Logic.I HI) as (s' & G & I'). rewrite G. cbn [bind]. cbn [file_step] in *. fold data in I', G |- *. replace ((0 <=? off) && (0 <=? n) && (n <=? 2 ^ 63 - 1)) with true in * by lia. cbn [fst snd bytes_or_raise] in *. exists s'. pose proof (len_nonneg (slice data off (Z.min n (len data - off)))). split; [reflexivity|]. split; [exact I'|lia].
  - unfold int64, int32. replace (((- 2 ^ 63 <=? off) && (off <? 2 ^ 63)) && ((- 2 ^ 31 <=? w) && (w <? 2 ^ 31))) with true by lia.
    destruct (HS (CSeek off w) st pos Logic.I HI) as (s' & G & I'). rewrite G. cbn [bind]. cbn [file_step] in *. fold data in I', G |- *.
    destruct (w =? 0); [|destruct (w =? 1); [|destruct (w =? 2)]]; try match goal with |- context [if ?b <? 0 then _ else _] => destruct (b <? 0) eqn:B end; cbn [fst snd] in *; exists s'; (split; [reflexivity|]; split; [exact I'|lia]).
  - destruct (HS COffset st pos Logic.I HI) as (s' & G & I'). rewrite G. cbn [bind file_step fst snd] in *. eauto.
  - destruct (HS CSize st pos Logic.I HI) as (s' & G & I'). rewrite G. cbn [bind file_step fst snd] in *. eauto.
Qed.
Lemma py_steps_like St (call : fcall -> St -> res (fanswer * St)) f I : file_like call f I -> forall cs st pos, I st pos -> 0 <= pos -> Forall (servable (fl_data f)) cs ->
  exists st', py_calls _ call cs st = Ok (file_objects (fl_data f) pos cs, st').
Proof.
  intros HF. induction cs as [|c cs IH]; intros st pos HI HP FA; cbn [py_calls file_objects]; [eauto|].
  destruct (py_step_like St call f I c st pos HF HI HP (Forall_inv FA)) as (s1 & G & I1 & P1). rewrite G. cbn [bind].
  destruct (file_object (fl_data f) pos c) as (a & pos1). cbn [fst snd] in *. destruct (IH s1 pos1 I1 P1 (Forall_inv_tail FA)) as (s2 & G2). rewrite G2. cbn [bind]. eauto.
Qed.

(* ---- strings ---- *)
Lemma take_utf8 c l : scalar c -> take_char (utf8_char c ++ l) = Some (c, l).
Proof.
  unfold scalar, utf8_char. intros S. destruct (c <? 0x80) eqn:E1; [|destruct (c <? 0x800) eqn:E2; [|destruct (c <? 0x10000) eqn:E3]]; cbn [app]; unfold take_char, more.
  - rewrite E1. reflexivity.
  - replace (0xc0 + c / 64 <? 0x80) with false by lia. replace (0xc0 + c / 64 <? 0xc2) with false by lia. replace (0xc0 + c / 64 <? 0xe0) with true by lia.
    replace ((0x80 <=? 0x80 + c mod 64) && (0x80 + c mod 64 <? 0xc0)) with true by lia. do 2 f_equal. lia.
  - replace (0xe0 + c / 4096 <? 0x80) with false by lia. replace (0xe0 + c / 4096 <? 0xc2) with false by lia. replace (0xe0 + c / 4096 <? 0xe0) with false by lia. replace (0xe0 + c / 4096 <? 0xf0) with true by lia. cbv zeta.
    replace (((0xe0 + c / 4096 - 0xe0) * 64 + (0x80 + c / 64 mod 64 - 0x80)) * 64 + (0x80 + c mod 64 - 0x80)) with c by lia.
    replace (0x80 <=? 0x80 + c / 64 mod 64) with true by lia. replace (0x80 + c / 64 mod 64 <? 0xc0) with true by lia. replace (0x80 <=? 0x80 + c mod 64) with true by lia. replace (0x80 + c mod 64 <? 0xc0) with true by lia.
    replace (0x800 <=? c) with true by lia. replace ((0xd800 <=? c) && (c <=? 0xdfff)) with false by lia. reflexivity.
  - replace (0xf0 + c / 262144 <? 0x80) with false by lia. replace (0xf0 + c / 262144 <? 0xc2) with false by lia. replace (0xf0 + c / 262144 <? 0xe0) with false by lia. replace (0xf0 + c / 262144 <? 0xf0) with false by lia. replace (0xf0 + c / 262144 <? 0xf5) with true by lia. cbv zeta.
    replace ((((0xf0 + c / 262144 - 0xf0) * 64 + (0x80 + c / 4096 mod 64 - 0x80)) * 64 + (0x80 + c / 64 mod 64 - 0x80)) * 64 + (0x80 + c mod 64 - 0x80)) with c by lia.
    replace (0x80 <=? 0x80 + c / 4096 mod 64) with true by lia. replace (0x80 + c / 4096 mod 64 <? 0xc0) with true by lia.
    replace (0x80 <=? 0x80 + c / 64 mod 64) with true by lia. replace (0x80 + c / 64 mod 64 <? 0xc0) with true by lia. replace (0x80 <=? 0x80 + c mod 64) with true by lia. replace (0x80 + c mod 64 <? 0xc0) with true by lia.
    replace (0x10000 <=? c) with true by lia. replace (c <=? 0x10ffff) with true by lia. reflexivity.
Qed.
Lemma utf8_char_cons c : exists a l, utf8_char c = a :: l.
Proof. unfold utf8_char. repeat match goal with |- context [if ?b then _ else _] => destruct b end; eauto. Qed.
Lemma decode_utf8 s : Forall scalar s -> forall n, (length (utf8 s) <= n)%nat -> decode n (utf8 s) = Some s.
Proof.
  unfold utf8. induction 1 as [|c s C _ IH]; intros n L; [destruct n; reflexivity|]. cbn [map concat] in *. rewrite app_length in L.
  destruct (utf8_char_cons c) as (a & t & E). assert (T : take_char (utf8_char c ++ concat (map utf8_char s)) = Some (c, concat (map utf8_char s))) by (apply take_utf8, C).
  destruct n as [|n]; [rewrite E in L; cbn [length] in L; lia|]. rewrite E in T, L |- *. cbn [app decode length] in *. rewrite T, IH by lia. reflexivity.
Qed.
Lemma py_decode_utf8 s : Forall scalar s -> py_decode (utf8 s) = Some s.
Proof. intros F. apply decode_utf8; [exact F|lia]. Qed.
(* ... and nothing else is a text for Python *)
Lemma take_strict l c r : bytes l -> take_char l = Some (c, r) -> scalar c /\ l = utf8_char c ++ r.
Proof.
  intros B. destruct l as [|a l]; [discriminate|]. pose proof (Forall_inv B) as BA. unfold is_byte in BA. unfold take_char, more. destruct (a <? 0x80) eqn:E1.
  { intros H. injection H as <- <-. split; [unfold scalar; lia|]. unfold utf8_char. rewrite E1. reflexivity. }
  destruct (a <? 0xc2) eqn:E2; [discriminate|]. destruct (a <? 0xe0) eqn:E3.
  { destruct l as [|b l]; [discriminate|]. destruct (_ && _) eqn:M; [|discriminate]. intros H. injection H as <- <-. split; [unfold scalar; lia|].
    unfold utf8_char. replace ((a - 192) * 64 + (b - 128) <? 0x80) with false by lia. replace ((a - 192) * 64 + (b - 128) <? 0x800) with true by lia. cbn [app]. f_equal; [lia|]. f_equal. lia. }
  destruct (a <? 0xf0) eqn:E4.
  { destruct l as [|b [|d l]]; [discriminate..|]. cbv zeta. destruct (_ && _) eqn:M; [|discriminate]. intros H. injection H as <- <-. split; [unfold scalar; lia|].
    assert (V : 0x800 <= ((a - 224) * 64 + (b - 128)) * 64 + (d - 128) < 0x10000) by lia. remember (((a - 224) * 64 + (b - 128)) * 64 + (d - 128)) as c eqn:C.
    unfold utf8_char. replace (c <? 0x80) with false by lia. replace (c <? 0x800) with false by lia. replace (c <? 0x10000) with true by lia. cbn [app]. f_equal; [lia|]. f_equal; [lia|]. f_equal. lia. }
  destruct (a <? 0xf5) eqn:E5; [|discriminate]. destruct l as [|b [|d [|e l]]]; [discriminate..|]. cbv zeta. destruct (_ && _) eqn:M; [|discriminate]. intros H. injection H as <- <-. split; [unfold scalar; lia|].
  remember ((((a - 240) * 64 + (b - 128)) * 64 + (d - 128)) * 64 + (e - 128)) as c eqn:C.
  unfold utf8_char. replace (c <? 0x80) with false by lia. replace (c <? 0x800) with false by lia. replace (c <? 0x10000) with false by lia. cbn [app]. f_equal; [lia|]. f_equal; [lia|]. f_equal; [lia|]. f_equal. lia.
Qed.
Theorem C113_only_texts : forall l s, bytes l -> (py_decode l = Some s <-> Forall scalar s /\ l = utf8 s).
Proof.
  intros l s B. split; [|intros (F & ->); apply py_decode_utf8, F]. unfold py_decode. generalize (length l) as n. intros n. revert l s B.
  induction n as [|n IH]; intros l s B H; destruct l as [|a l]; cbn [decode] in H; try discriminate; try (injection H as <-; split; [constructor|reflexivity]).
  destruct (take_char (a :: l)) as [[c r]|] eqn:T; [|discriminate]. destruct (decode n r) as [q|] eqn:D; [|discriminate]. injection H as <-.
  destruct (take_strict _ _ _ B T) as (C & E). assert (BR : bytes r) by (rewrite E in B; apply Forall_app in B; apply B).
  destruct (IH _ _ BR D) as (F & ->). split; [constructor; assumption|]. unfold utf8. cbn [map concat]. exact E.
Qed.
Print Assumptions C113_only_texts.
Lemma py_string_ok s (get : Z -> res (list Z)) : Forall scalar s -> get (len (utf8 s) + 1) = Ok (utf8 s ++ [0]) -> py_string (Ok (Some (len (utf8 s) + 1))) get = Ok (PStr s).
Proof.
  intros F G. unfold py_string. pose proof (len_nonneg (utf8 s)). replace (len (utf8 s) + 1 =? 0) with false by lia. rewrite G.
  replace (slice (utf8 s ++ [0]) 0 (len (utf8 s) + 1 - 1)) with (utf8 s); [rewrite py_decode_utf8 by exact F; reflexivity|].
  rewrite Z.add_simpl_r. unfold slice, len. cbn [Z.to_nat skipn]. rewrite Nat2Z.id, firstn_app, Nat.sub_diag, firstn_O, app_nil_r, firstn_all. reflexivity.
Qed.
Lemma name_scalars s : file_name s -> Forall scalar s.
Proof. intros F. eapply Forall_impl; [|exact F]. cbn. tauto. Qed.
Lemma len_snoc {A} (l : list A) a : len (l ++ [a]) = len l + 1.
Proof. unfold len. rewrite app_length. cbn [length]. lia. Qed.

(* ---- C113 ---- *)
(* What holds: an attribute of a file is, through Python, a file object of its value ... *)
Theorem C113_attribute_partial : forall (tie : list Z -> list Z -> Prop) h t recs dev ctx block id i rec l a s v exts cs,
  (forall a b c, tie a b -> tie b c -> tie a c) -> fs_tree tie h t recs -> volume_data dev ctx block ->
  attributes recs id l -> In (a, s) l -> attr_holds block recs a v -> attr_extents recs a exts -> Forall (servable v) cs ->
  (exists st, py_attr_calls (mk_fe t dev ctx id i rec) a cs x_init = Ok (file_objects v 0 cs, st)) /\
  py_attr_name a = Ok (PStr s).
Proof.
  intros tie h t recs dev ctx block id i rec l a s v exts cs HTR HT HV (HA & _) HI HH HX SV.
  assert (P : exists r, attr_rec id r a /\ file_name s /\ spells s (at_name a) /\ hd 0 s <> 0xfeff).
  { clear - HA HI. induction HA as [|r p rs ps R HA IH]; [destruct HI|]. destruct HI as [->|HI]; [exists r; exact R|apply IH, HI]. }
  destruct P as (r & R & N1 & N2 & N3). assert (T : x_text a = Ok s) by (unfold x_text; apply name_text; assumption). split.
  - set (x := mk_xa s v exts). set (f := mk_file v [] 0 None). assert (E0 : xinv a x x_init 0) by (split; reflexivity).
    pose proof (fun c st pos => xstep_ok tie h t recs HTR HT dev ctx block (faithful_volume dev ctx block HV) id i rec r a x R HH HX T c st pos) as ST.
    refine (py_steps_like _ (x_file (mk_fe t dev ctx id i rec) a) f (xinv a x) _ cs x_init 0 E0 (Z.le_refl 0) SV).
    intros c st pos IO G. destruct c as [|n|off n|off w| | | | |]; try contradiction; cbn [x_file].
    + destruct (ST XSize st pos G) as (s1 & E & G1). rewrite E. exists s1. split; [reflexivity|exact G1].
    + destruct (ST (XRead n) st pos G) as (s1 & E & G1). rewrite E. exists s1. cbn [xattr_step file_step x f xa_value fl_data] in *. destruct ((0 <=? pos) && (0 <=? n) && (n <=? 2 ^ 63 - 1)); (split; [reflexivity|exact G1]).
    + destruct (ST (XReadAt off n) st pos G) as (s1 & E & G1). rewrite E. exists s1. cbn [xattr_step file_step x f xa_value fl_data] in *. destruct ((0 <=? off) && (0 <=? n) && (n <=? 2 ^ 63 - 1)); (split; [reflexivity|exact G1]).
    + destruct (ST (XSeek off w) st pos G) as (s1 & E & G1). rewrite E. exists s1. cbn [xattr_step file_step x f xa_value fl_data] in *. destruct (if w =? 0 then _ else _) as [b|]; [|split; [reflexivity|exact G1]]. destruct (b + off <? 0); (split; [reflexivity|exact G1]).
    + destruct (ST XOffset st pos G) as (s1 & E & G1). rewrite E. exists s1. split; [reflexivity|exact G1].
  - unfold py_attr_name, x_units. rewrite T. cbn [bind]. rewrite len_snoc. apply py_string_ok; [apply name_scalars, N1|]. cbn [bind]. rewrite Z.leb_refl. reflexivity.
Qed.
Print Assumptions C113_attribute_partial.

(* ... it is found by its name, and what is found has the name ... *)
Theorem C113_attribute_by_name_partial : forall (tie : list Z -> list Z -> Prop) h t recs dev ctx block lzvn junk id i rec r l f cs answers st,
  (forall a b c, tie a b -> tie b c -> tie a c) -> fs_tree tie h t recs -> 0 <= id < 2 ^ 60 -> In r recs -> has 3 id r = true ->
  volume_data dev ctx block -> (forall d s, len (junk d s) = len s) -> is_file lzvn block recs id i l f ->
  let e := mk_fe t dev ctx id i rec in
  entry_calls lzvn junk e cs f_init = Ok (answers, st) -> forall s,
  (text s -> match attr_named s l with
     | Some a => fst (py_attr_by_name e s st) = Ok (PFound a) /\ fst (py_has_attr e s st) = Ok (PFound tt) /\ In (a, s) l
     | None => fst (py_attr_by_name e s st) = Ok PMissing /\ fst (py_has_attr e s st) = Ok PMissing /\ ~ In s (map snd l)
     end) /\
  (~ text s -> py_attr_by_name e s st = (Ok PFailed, st) /\ py_has_attr e s st = (Ok PFailed, st)).
Proof.
  intros tie h t recs dev ctx block lzvn junk id i rec r l f cs answers st H1 H2 H3 H4 H5 H6 H7 H8 e E s. split; intros T.
  - destruct (C67_extended_attributes_partial tie h t recs dev ctx block lzvn junk id i rec r l f cs answers st H1 H2 H3 H4 H5 H6 H7 H8 E) as (N & _).
    specialize (N s (utf8 s) T (or_introl eq_refl)). unfold py_attr_by_name, py_has_attr. rewrite (proj1 (arg_text s) T). fold e in N.
    destruct (entry_attr_by_name e utf8_next (utf8 s) st) as (x & st1). cbn [fst] in *. rewrite N.
    assert (NI : match attr_named s l with Some a => In (a, s) l | None => ~ In s (map snd l) end).
    { clear. induction l as [|(a, n) l IH]; cbn [attr_named map snd In]; [tauto|]. destruct (list_eq_dec Z.eq_dec s n) as [->|D]; [left; reflexivity|].
      destruct (attr_named s l); [right; exact IH|]. intros [X|X]; [congruence|exact (IH X)]. }
    destruct (attr_named s l); cbn [found bind]; auto.
  - unfold py_attr_by_name, py_has_attr. rewrite (proj2 (arg_text s) T). auto.
Qed.
Print Assumptions C113_attribute_by_name_partial.

(* ... and so are the entries of a directory. *)
Theorem C113_entry_name_partial : forall (tie : list Z -> list Z -> Prop) h t recs dev ctx id i rec ri l hashed fold q,
  (forall a b c, tie a b -> tie b c -> tie a c) -> fs_tree tie h t recs -> 0 <= id < 2 ^ 60 -> In ri recs -> has 3 id ri = true ->
  entries recs id l -> (forall p, In p l -> exists v, inode_is recs (de_inode (fst p)) (Some v)) ->
  (forall p x, In p l -> fe_rec x = Some (fst p) -> py_entry_name x = Ok (PStr (snd p))) /\
  (directory hashed fold id recs -> name_order tie hashed fold id recs ->
   (hashed = true -> name_hash_of fold q <> 0 /\ (forall r e s, named hashed fold id recs r e s -> de_hash e <> 0)) ->
   text q -> ~ In 47 q -> 2 <= len (utf16 q) -> (forall p, In p l -> same_name fold (snd p) q -> same_name false (snd p) q) ->
   exists x, py_sub_by_name (mk_fe t dev ctx id i rec) fold q = Ok x /\
     match x with
     | PFound y => exists d s v, In (d, s) l /\ same_name fold s q /\ inode_is recs (de_inode d) (Some v) /\ y = mk_fe t dev ctx (de_inode d) v (Some d) /\ py_entry_name y = Ok (PStr s)
     | PMissing => forall p, In p l -> ~ same_name fold (snd p) q
     | PFailed => False
     end).
Proof.
  intros tie h t recs dev ctx id i rec ri l hashed fold q H1 H2 H3 H4 H5 H6 H7.
  assert (NM : forall p x, In p l -> fe_rec x = Some (fst p) -> py_entry_name x = Ok (PStr (snd p))).
  { intros p x Ip Ex. assert (F : Forall (fun p => file_name (snd p) /\ spells (snd p) (de_name (fst p)) /\ hd 0 (snd p) <> 0xfeff) l) by (eapply forall2_right; [exact H6|]; cbn beta; tauto).
    rewrite Forall_forall in F. destruct (F p Ip) as (F1 & F2 & F3).
    assert (T : entry_text x = Ok (snd p)) by (unfold entry_text; rewrite Ex; apply name_text; assumption). destruct (entry_name_ok _ _ T) as (N1 & N2).
    unfold py_entry_name. rewrite N1. cbn [bind]. apply py_string_ok; [apply name_scalars, F1|]. rewrite N2. unfold string_of. replace (len (utf8 (snd p)) <? len (utf8 (snd p)) + 1) with true by lia. reflexivity. }
  split; [exact NM|]. intros H8 H9 H10 H11 H12 H13 H14.
  destruct (C69_listed_name_found_partial tie h t recs dev ctx id i rec ri l hashed fold q H1 H2 H3 H4 H5 H6 H7 H8 H9 H10 H11 H12 H13 H14) as (_ & x & E & X).
  unfold py_sub_by_name. rewrite (proj1 (arg_text q) H11), E. destruct x as [y|]; cbn [found].
  - exists (PFound y). split; [reflexivity|]. destruct X as (d & s & v & I1 & I2 & I3 & ->). exists d, s, v. split; [exact I1|]. split; [exact I2|]. split; [exact I3|]. split; [reflexivity|]. apply (NM (d, s)); [exact I1|reflexivity].
  - exists PMissing. split; [reflexivity|exact X].
Qed.
Print Assumptions C113_entry_name_partial.

(* The target of a symbolic link. *)
Theorem C113_link_partial : forall (tie : list Z -> list Z -> Prop) h t recs dev ctx block lzvn junk id i rec r l f cs answers st,
  (forall a b c, tie a b -> tie b c -> tie a c) -> fs_tree tie h t recs -> 0 <= id < 2 ^ 60 -> In r recs -> has 3 id r = true ->
  volume_data dev ctx block -> (forall d s, len (junk d s) = len s) -> is_file lzvn block recs id i l f ->
  let e := mk_fe t dev ctx id i rec in
  entry_calls lzvn junk e cs f_init = Ok (answers, st) ->
  (fl_link f = None -> fst (py_link e st) = Ok PNoStr) /\
  (forall s v, fl_link f = Some v -> text s -> spells s v -> hd 0 s <> 0xfeff -> fst (py_link e st) = Ok (PStr s)).
Proof.
  intros tie h t recs dev ctx block lzvn junk id i rec r l f cs answers st H1 H2 H3 H4 H5 H6 H7 H8 e E.
  assert (L : fst (entry_link e st) = Ok (fl_link f)).
  { destruct (file_entry_follows tie h t recs dev ctx block lzvn junk id i rec r l f H1 H2 H3 H4 H5 H6 H7 H8) as (I & HI). fold e in HI.
    destruct (steps_ok lzvn junk e _ f I HI cs f_init 0 (proj1 HI)) as (st' & pos' & G & I').
    assert (st' = st) as -> by (rewrite G in E; injection E; auto).
    destruct HI as (_ & HS & _). destruct (HS CLink st pos' I') as (st2 & G2 & _). cbn [entry_call file_step fst] in G2. unfold answer_of in G2.
    destruct (entry_link e st) as ([v| | |] & st3); try discriminate G2. injection G2 as -> _. reflexivity. }
  unfold py_link. destruct (entry_link e st) as (x & st1). cbn [fst] in *. rewrite L. cbn [bind]. split.
  - intros ->. reflexivity.
  - intros s v -> T SP HD. rewrite (name_text s v T SP HD). cbn [bind]. rewrite len_snoc. apply py_string_ok; [apply name_scalars, T|]. cbn [bind]. rewrite Z.leb_refl. reflexivity.
Qed.
Print Assumptions C113_link_partial.

(* Attributes a, b and c of file 16 of PropAttr. *)
Definition pa_run (a : attr) (cs : list pcall) : option (list panswer) := match py_attr_calls fa_entry a cs x_init with Ok (l, _) => Some l | _ => None end.
Example C113_example : pa_run fa_a [PySize; PySeek (-6) 2; PyRead None; PyTell; PyRead None; PyReadAt 4 4094; PySeek (-1) 0; PyRead (Some 0); PySeek (2 ^ 63) 0] =
    Some [PInt 4100; PNone; PBytes [78; 79; 80; 81; 82; 83]; PInt 4100; PBytes []; PBytes [78; 79; 80; 81]; PRaise; PBytes []; PRaise] /\
  pa_run fa_b [PyRead None; PySeek 1 0; PyRead (Some 1)] = Some [PBytes [1; 2; 3]; PNone; PBytes [2]] /\ py_attr_name fa_b = Ok (PStr [98]) /\
  py_attr_name (mk_at (utf8 [0xe9; 0x20ac; 0x1f600] ++ [0]) 2 ANone) = Ok (PStr [0xe9; 0x20ac; 0x1f600]) /\ py_decode [0xc0; 0x80] = None /\ py_decode [0xed; 0xa0; 0x80] = None /\ py_decode [0xf4; 0x90; 0x80; 0x80] = None.
Proof. vm_compute. repeat split. Qed.
Example C113_by_name_example : fst (py_attr_by_name fa_entry [98] f_init) = Ok (PFound fa_b) /\ fst (py_has_attr fa_entry [98] f_init) = Ok (PFound tt) /\ fst (py_attr_by_name fa_entry [100] f_init) = Ok PMissing /\
  fst (py_has_attr fa_entry [98; 0] f_init) = Ok PFailed.
Proof. vm_compute. repeat split. Qed.
Definition pa_sub (id : Z) (s : list Z) : option (pfound Z) := match py_sub_by_name (fz_entry id) false s with Ok (PFound x) => Some (PFound (fe_id x)) | Ok PMissing => Some PMissing | Ok PFailed => Some PFailed | _ => None end.
Example C113_sub_example : pa_sub 2 [97; 98] = Some (PFound 16) /\ pa_sub 18 [104; 108] = Some (PFound 16) /\ pa_sub 2 [122; 122] = Some PMissing /\ pa_sub 2 [0xdc80; 122] = Some PFailed.
Proof. vm_compute. repeat split. Qed.

(* Full statement is false: an attribute with neither flag can be sought in, but stays where it is;
   the position after the seek is not that of a file object. *)
Theorem C113_attribute_refuted : exists (tie : list Z -> list Z -> Prop) h t recs dev id i l a s st,
  (forall a b c, tie a b -> tie b c -> tie a c) /\ fs_tree tie h t recs /\ attributes recs id l /\ In (a, s) l /\
  py_attr_calls (mk_fe t dev None id i None) a [PySize; PySeek 7 0; PyTell; PySeek 3 99] x_init = Ok ([PInt 0; PNone; PInt 0; PNone], st) /\
  file_objects [] 0 [PySize; PySeek 7 0; PyTell; PySeek 3 99] = [PInt 0; PNone; PInt 7; PRaise].
Proof.
  exists fx_tie, 0%nat, fa_fs, fa_recs, fy_dev, 16, (fy_value (fy_inode 16 0)), [(fa_a, [97]); (fa_b, [98]); (fa_c, [99])], fa_c, [99], x_init.
  split; [unfold fx_tie; intros; lia|]. split; [exact fa_tree|]. split; [exact fa_attributes|]. split; [do 2 right; left; reflexivity|]. split; reflexivity.
Qed.
Print Assumptions C113_attribute_refuted.
(* Full statement is false: two entries of one directory with different names have the same name
   in Python (a byte order mark is dropped), and by a name of one character the directory itself
   is found, not the entry with that name. *)
Theorem C113_entry_name_refuted : exists (tie : list Z -> list Z -> Prop) h t recs dev id i id' i' p q x y z,
  (forall a b c, tie a b -> tie b c -> tie a c) /\ fs_tree tie h t recs /\
  (exists r, In r recs /\ has 9 id r = true /\ dir_rec id r (fst p)) /\ (exists r, In r recs /\ has 9 id r = true /\ dir_rec id r (fst q)) /\
  file_name (snd p) /\ spells (snd p) (de_name (fst p)) /\ file_name (snd q) /\ spells (snd q) (de_name (fst q)) /\ snd p <> snd q /\
  dir_calls (mk_fe t dev None id i None) [DSub 0; DSub 2] f_init = Ok [AEntry x; AEntry y] /\ fe_rec x = Some (fst p) /\ fe_rec y = Some (fst q) /\
  py_entry_name x = Ok (PStr (snd p)) /\ py_entry_name y = Ok (PStr (snd p)) /\
  fst (entry_sub (mk_fe t dev None id' i' None) 0 f_init) = Ok z /\ py_entry_name z = Ok (PStr [120]) /\ fe_id z <> id' /\
  exists w, py_sub_by_name (mk_fe t dev None id' i' None) false [120] = Ok (PFound w) /\ fe_id w = id'.
Proof.
  exists fx_tie, 0%nat, fz, fz_recs, fz_dev, 2, (fy_value (fy_inode 2 0)), 18, (fy_value (fy_inode 18 0)), (fz_rec [97; 98] 16, [97; 98]), (fz_rec [0xfeff; 97; 98] 17, [0xfeff; 97; 98]),
    (mk_fe fz fz_dev None 16 (fy_value (fy_inode 16 0)) (Some (fz_rec [97; 98] 16))), (mk_fe fz fz_dev None 17 (fy_value (fy_inode 17 0)) (Some (fz_rec [0xfeff; 97; 98] 17))),
    (mk_fe fz fz_dev None 17 (fy_value (fy_inode 17 0)) (Some (fz_rec [120] 17))).
  split; [unfold fx_tie; intros; lia|]. split; [exact fz_tree|]. cbn [fst snd].
  split; [exists (fz_child 2 [97; 98] 16); split; [unfold fz_recs; do 1 right; left; reflexivity|split; [vm_compute; reflexivity|apply fz_dir_rec; [vm_compute; split; discriminate|lia]]]|].
  split; [exists (fz_child 2 [0xfeff; 97; 98] 17); split; [unfold fz_recs; do 3 right; left; reflexivity|split; [vm_compute; reflexivity|apply fz_dir_rec; [vm_compute; split; discriminate|lia]]]|].
  split; [repeat constructor; unfold scalar; lia|]. split; [right; reflexivity|]. split; [repeat constructor; unfold scalar; lia|]. split; [right; reflexivity|]. split; [discriminate|].
  split; [|split; [reflexivity|split; [reflexivity|split; [vm_compute; reflexivity|split; [vm_compute; reflexivity|split; [|split; [vm_compute; reflexivity|split; [discriminate|]]]]]]]].
  - assert (D : fs_dir fz 2 = Ok [fz_rec [97; 98] 16; fz_rec [99; 100] 18; fz_rec [0xfeff; 97; 98] 17]) by (vm_compute; reflexivity).
    assert (A : fs_inode fz 16 = Ok (Some (16, fy_value (fy_inode 16 0)))) by (vm_compute; reflexivity).
    assert (B : fs_inode fz 17 = Ok (Some (17, fy_value (fy_inode 17 0)))) by (vm_compute; reflexivity).
    destruct (sub_call (fz_entry 2) _ f_init 0 _ _ (or_introl (conj eq_refl D)) ltac:(unfold len; cbn; lia) eq_refl A) as (st1 & S1 & D1).
    destruct (sub_call (fz_entry 2) _ st1 2 _ _ (or_intror D1) ltac:(unfold len; cbn; lia) eq_refl B) as (st2 & S2 & D2).
    cbn [dir_calls]. change (mk_fe fz fz_dev None 2 (fy_value (fy_inode 2 0)) None) with (fz_entry 2). cbn [dir_call]. rewrite S1. cbn [bind dir_call]. rewrite S2. reflexivity.
  - assert (D : fs_dir fz 18 = Ok [fz_rec [120] 17; fz_rec [104; 108] 16]) by (vm_compute; reflexivity).
    assert (B : fs_inode fz 17 = Ok (Some (17, fy_value (fy_inode 17 0)))) by (vm_compute; reflexivity).
    destruct (sub_call (fz_entry 18) _ f_init 0 _ _ (or_introl (conj eq_refl D)) ltac:(unfold len; cbn; lia) eq_refl B) as (st1 & S1 & D1).
    change (mk_fe fz fz_dev None 18 (fy_value (fy_inode 18 0)) None) with (fz_entry 18). rewrite S1. reflexivity.
  - exists (fz_entry 18). split; [|reflexivity]. unfold py_sub_by_name, entry_sub_by_name. assert (P : fs_by_path fz utf8_next false 18 [120] = Ok (Some (18, fy_value (fy_inode 18 0), None))) by (vm_compute; reflexivity).
    change (arg_str [120]) with (Some [120]). cbn [fe_tree fe_id]. rewrite P. reflexivity.
Qed.
Print Assumptions C113_entry_name_refuted.
