(* Names: order (C25), canonical equivalence (C26), encodings (C27), hashes (C28). *)
From Coq Require Import Lia.
From Verif Require Import Base BaseLemmas Checksum ChecksumSpec ChecksumProofs NameTables Name NameSpec NameProofs.

(* C25 *)

(* For arbitrary byte strings: whenever the comparisons give a result they are those of a
   total preorder, and what compares equal compares alike with everything else. *)
Theorem C25_reflexive : forall fold a c, compare_utf8 fold a a = Ok c -> c = Eq.
Proof.
  intros fold a c H. destruct a as [|x a]; [discriminate|].
  rewrite compare_utf8_cmp in H by discriminate. exact (cmp_refl fold _ _ H).
Qed.
Print Assumptions C25_reflexive.

Theorem C25_antisymmetric : forall fold a b c, b <> [] ->
  compare_utf8 fold a b = Ok c -> compare_utf8 fold b a = Ok (CompOpp c).
Proof.
  intros fold a b c N H. destruct a as [|x a]; [discriminate|].
  rewrite compare_utf8_cmp in H by discriminate. rewrite compare_utf8_cmp by exact N.
  apply cmp_opp, H.
Qed.
Print Assumptions C25_antisymmetric.

Theorem C25_transitive : forall fold a b c x y,
  compare_utf8 fold b a = Ok x -> compare_utf8 fold c b = Ok y ->
  (x = Eq -> compare_utf8 fold c a = Ok y) /\
  (y = Eq -> compare_utf8 fold c a = Ok x) /\
  (x = y -> compare_utf8 fold c a = Ok x).
Proof.
  intros fold a b c x y H K. destruct b as [|p b]; [discriminate|]. destruct c as [|q c]; [discriminate|].
  rewrite compare_utf8_cmp in H, K |- * by discriminate.
  split; [|split]; intros ->; eapply cmp_then; try eassumption; try (destruct x; reflexivity); destruct y; reflexivity.
Qed.
Print Assumptions C25_transitive.

(* For names, with or without a trailing end-of-string character: the comparison always
   gives a result, which is that of the order of the specification. *)
Definition file_name (s : list Z) : Prop := Forall (fun c => scalar c /\ c <> 0) s.
Definition spells (s b : list Z) : Prop := b = utf8 s \/ b = utf8 s ++ [0].
Lemma file_name_strip : forall s b, file_name s -> spells s b -> strip b = utf8 s /\ Forall scalar s.
Proof.
  intros s b H S. assert (F : Forall scalar s) by (eapply Forall_impl; [|exact H]; cbn; tauto).
  split; [|exact F]. destruct S as [S|S]; subst b; [|apply strip_snoc].
  rewrite strip_utf8 by exact F. f_equal.
  destruct s as [|c s IHs] using rev_ind; [reflexivity|]. apply strip_not.
  apply Forall_app in H. destruct H as [_ H]. apply Forall_inv in H. apply H.
Qed.
Theorem C25_order_of_names : forall fold n name s str,
  file_name n -> spells n name -> name <> [] -> file_name s -> spells s str ->
  exists c, compare_utf8 fold name str = Ok c /\
    (c = Eq <-> name_key fold s = name_key fold n) /\
    (c = Lt <-> key_lt (name_key fold s) (name_key fold n)) /\
    (c = Gt <-> key_lt (name_key fold n) (name_key fold s)).
Proof.
  intros fold n name s str Hn Sn N Hs Ss.
  destruct (file_name_strip n name Hn Sn) as [En Fn]. destruct (file_name_strip s str Hs Ss) as [Es Fs].
  exists (cmp_key (name_key fold s) (name_key fold n)).
  rewrite compare_utf8_cmp by exact N. rewrite En, Es. unfold cmp.
  rewrite (cmp_loop_str _ _ _ _ _ s) by (apply utf8_decodes, Fs).
  rewrite (cmp_str_key _ _ _ n) by (try (apply utf8_decodes, Fn); lia).
  split; [reflexivity|]. split; [apply cmp_key_eq|]. split; [apply cmp_key_lt|].
  rewrite <- cmp_key_lt. rewrite (cmp_key_opp (name_key fold s) (name_key fold n)).
  destruct (cmp_key _ _); cbn [CompOpp]; split; congruence.
Qed.
Print Assumptions C25_order_of_names.

(* "Makefile" and "makefile", and two names that differ in the third character *)
Example C25_makefile :
  let a := [77;97;107;101;102;105;108;101;0] in
  let b := [109;97;107;101;102;105;108;101] in
  compare_utf8 true a b = Ok Eq /\ compare_utf8 false a b = Ok Gt /\ compare_utf8 false b a = Ok Lt.
Proof. vm_compute. repeat split. Qed.
(* "naïve" against "naive": the precomposed letter sorts before the plain one, although its
   decomposition is longer *)
Example C25_diaeresis :
  compare_utf8 false (utf8 [110;97;105;118;101]) (utf8 [110;97;0xef;118;101]) = Ok Lt.
Proof. vm_compute. reflexivity. Qed.

(* C26 *)

(* Spellings of the same name need not compare equal: U+00E9 and U+0065 U+0301. *)
Theorem C26_canonical_equivalence_refuted : exists s t,
  file_name s /\ file_name t /\ same_spelling s t /\
  compare_utf8 false (utf8 s) (utf8 t) = Ok Gt /\ compare_utf8 true (utf8 s) (utf8 t) = Ok Gt.
Proof.
  exists [0xe9], [0x65; 0x301]. split; [|split; [|split; [|split]]].
  - repeat constructor; try discriminate; left; lia.
  - repeat constructor; try discriminate; left; lia.
  - vm_compute. reflexivity.
  - vm_compute. reflexivity.
  - vm_compute. reflexivity.
Qed.
Print Assumptions C26_canonical_equivalence_refuted.

(* Nor have they the same hash: the Hangul syllable U+AC01 and U+1100 U+1161 U+11A8. *)
Theorem C26_hash_refuted : exists s t,
  file_name s /\ file_name t /\ same_spelling s t /\
  forall fold, hash_utf8 fold (utf8 s) <> hash_utf8 fold (utf8 t).
Proof.
  exists [0xac01], [0x1100; 0x1161; 0x11a8]. split; [|split; [|split]].
  - repeat constructor; try discriminate; left; lia.
  - repeat constructor; try discriminate; left; lia.
  - vm_compute. reflexivity.
  - intros []; vm_compute; discriminate.
Qed.
Print Assumptions C26_hash_refuted.

(* What holds: names that have the same decompositions character by character are equal,
   and the hash of a name is that of its decomposition by the tables. *)
Theorem C26_same_decompositions_equal_partial : forall fold n name s str,
  file_name n -> spells n name -> name <> [] -> file_name s -> spells s str ->
  map nfd_of (map (folded fold) n) = map nfd_of (map (folded fold) s) ->
  compare_utf8 fold name str = Ok Eq.
Proof.
  intros fold n name s str Hn Sn N Hs Ss E.
  destruct (C25_order_of_names fold n name s str Hn Sn N Hs Ss) as (c & H & Q & _).
  rewrite H. f_equal. apply Q. unfold name_key. rewrite !map_map in E. symmetry. exact E.
Qed.
Print Assumptions C26_same_decompositions_equal_partial.

Lemma words_bytes_ok : forall s, bytes (words_bytes s).
Proof.
  induction s as [|c s IH]; [constructor|]. unfold words_bytes. cbn [map concat].
  apply bytes_app; split; [apply le_enc_bytes|exact IH].
Qed.
Lemma crc_bitwise_nonneg : forall s r, 0 <= r -> 0 <= crc_bitwise castagnoli_reflected r s.
Proof.
  intros s. unfold crc_bitwise. generalize (flat_map byte_bits s). intro l.
  induction l as [|b l IH]; intros r H; [exact H|]. cbn [fold_left]. apply IH. unfold crc_feed_bit.
  assert (0 <= castagnoli_reflected) by (vm_compute; discriminate).
  assert (0 <= Z.shiftr r 1) by (apply Z.shiftr_nonneg; exact H).
  destruct (xorb _ _); [apply Z.lxor_nonneg; tauto|assumption].
Qed.
Lemma hash_str_crc : forall fold s crc, Forall (fun c => c <> 0) s -> 0 <= crc ->
  hash_str fold s crc = Ok (crc_bitwise castagnoli_reflected crc (words_bytes (concat (map (hash_of fold) s)))).
Proof.
  intros fold s. induction s as [|c s IH]; intros crc H P; [reflexivity|].
  cbn [hash_str]. rewrite (proj2 (Z.eqb_neq c 0)) by exact (Forall_inv H). unfold hash_chars.
  fold (words_bytes (hash_of fold c)).
  rewrite weak_crc32_correct by (try apply words_bytes_ok; exact P). cbn [bind].
  rewrite IH by (try exact (Forall_inv_tail H); apply crc_bitwise_nonneg, P).
  f_equal. cbn [map concat]. unfold words_bytes. rewrite map_app, concat_app.
  unfold crc_bitwise. rewrite flat_map_app, fold_left_app. reflexivity.
Qed.

(* C28: the hash is the low 22 bits of the CRC-32C of the hashed characters in UTF-32. *)
Theorem C28_hash_value : forall fold s str, file_name s -> spells s str ->
  hash_utf8 fold str =
  Ok (Z.land (crc_bitwise castagnoli_reflected 0xffffffff (words_bytes (concat (map (hash_of fold) s)))) 0x3fffff).
Proof.
  intros fold s str H S. destruct (file_name_strip s str H S) as [E F]. unfold hash_utf8.
  rewrite (name_hash_strip _ _ _ s utf8_decoder eq_refl) by (rewrite E; apply utf8_decodes, F).
  rewrite hash_str_crc; [reflexivity| |lia]. eapply Forall_impl; [|exact H]. cbn; tauto.
Qed.
Print Assumptions C28_hash_value.

Theorem C26_decomposed_hash_partial : forall fold s t a b,
  file_name s -> spells s a -> file_name t -> spells t b ->
  decomposed s = decomposed t -> hash_utf8 fold a = hash_utf8 fold b.
Proof.
  intros fold s t a b Hs Sa Ht Sb E. rewrite (C28_hash_value fold s a Hs Sa), (C28_hash_value fold t b Ht Sb).
  assert (D : forall u, concat (map (hash_of fold) u) = concat (map (hash_of fold) (decomposed u))).
  { intro u. unfold decomposed. induction u as [|c u IH]; [reflexivity|]. cbn [map concat].
    rewrite map_app, concat_app, <- IH, hash_decomposed. reflexivity. }
  rewrite (D s), (D t), E. reflexivity.
Qed.
Print Assumptions C26_decomposed_hash_partial.

(* "Ångström" with precomposed letters, and with the letter and the mark *)
Example C26_angstrom :
  hash_utf8 true (utf8 [0xc5;110;103;115;116;114;0xf6;109]) = hash_utf8 true (utf8 [65;0x30a;110;103;115;116;114;111;0x308;109]) /\
  hash_utf8 true (utf8 [0xc5;110]) = hash_utf8 true (utf8 [0x212b;78]) /\
  compare_utf8 true (utf8 [0xc5;110]) (utf8 [0x212b;78]) = Ok Eq.
Proof. vm_compute. repeat split. Qed.

(* C27 *)

Theorem C27_hash_utf16 : forall fold s, Forall scalar s -> hash_utf16 fold (utf16 s) = hash_utf8 fold (utf8 s).
Proof.
  intros fold s H. unfold hash_utf16, hash_utf8.
  rewrite (name_hash_str _ _ _ s utf16_decoder) by (apply utf16_decodes, H).
  rewrite (name_hash_str _ _ _ s utf8_decoder) by (apply utf8_decodes, H). reflexivity.
Qed.
Print Assumptions C27_hash_utf16.

(* for every stored name, well-formed or not *)
Theorem C27_compare_utf16 : forall fold name s, Forall scalar s ->
  compare_utf16 fold name (utf16 s) = compare_utf8 fold name (utf8 s).
Proof.
  intros fold name s H. unfold compare_utf16, compare_utf8, name_compare.
  rewrite strip_utf16, strip_utf8 by exact H. pose proof (strip_scalar s H) as F.
  rewrite (cmp_loop_str _ _ _ _ _ (strip s) (utf16_decodes _ F)).
  rewrite (cmp_loop_str _ _ _ _ _ (strip s) (utf8_decodes _ F)). reflexivity.
Qed.
Print Assumptions C27_compare_utf16.

(* a musical symbol outside of the basic plane *)
Example C27_clef :
  utf16 [0x1d11e; 97] = [0xd834; 0xdd1e; 97] /\ utf8 [0x1d11e; 97] = [0xf0; 0x9d; 0x84; 0x9e; 97] /\
  hash_utf16 false (utf16 [0x1d11e; 97]) = hash_utf8 false (utf8 [0x1d11e; 97]) /\
  compare_utf16 false (utf8 [0x1d11e; 97] ++ [0]) (utf16 [0x1d11e; 97]) = Ok Eq.
Proof. vm_compute. repeat split. Qed.

(* C28 *)

(* for arbitrary strings of bytes *)
Theorem C28_equal_names_equal_hashes : forall fold name str,
  compare_utf8 fold name str = Ok Eq -> hash_utf8 fold name = hash_utf8 fold str.
Proof.
  intros fold name str H. destruct name as [|x name]; [discriminate|].
  rewrite compare_utf8_cmp in H by discriminate. unfold cmp in H.
  apply cmp_eq_decodes in H. destruct H as (n & s & Hn & Hs & K). unfold hash_utf8.
  rewrite (name_hash_strip _ _ _ n utf8_decoder eq_refl Hn), (name_hash_strip _ _ _ s utf8_decoder eq_refl Hs).
  rewrite (hash_str_key fold n s _ K). reflexivity.
Qed.
Print Assumptions C28_equal_names_equal_hashes.
Theorem C28_equal_names_equal_hashes_utf16 : forall fold name str,
  compare_utf16 fold name str = Ok Eq -> hash_utf8 fold name = hash_utf16 fold str.
Proof.
  intros fold name str H. destruct name as [|x name]; [discriminate|].
  unfold compare_utf16, name_compare in H. apply bind_ok in H. destruct H as (u & _ & H).
  apply cmp_eq_decodes in H. destruct H as (n & s & Hn & Hs & K). unfold hash_utf8, hash_utf16.
  rewrite (name_hash_strip _ _ _ n utf8_decoder eq_refl Hn), (name_hash_strip _ _ _ s utf16_decoder eq_refl Hs).
  rewrite (hash_str_key fold n s _ K). reflexivity.
Qed.
Print Assumptions C28_equal_names_equal_hashes_utf16.

(* "ΣΊΣΥΦΟΣ" and "σίσυφος": the final sigma folds like the others *)
Example C28_sigma :
  compare_utf8 true (utf8 [0x3a3;0x38a;0x3a3;0x3a5;0x3a6;0x39f;0x3a3]) (utf8 [0x3c3;0x3af;0x3c3;0x3c5;0x3c6;0x3bf;0x3c2]) = Ok Eq /\
  is_ok (hash_utf8 true (utf8 [0x3a3;0x38a;0x3a3;0x3a5;0x3a6;0x39f;0x3a3])) = true.
Proof. vm_compute. split; reflexivity. Qed.
