(* Lemmas about open file entries. *)
From Verif Require Import Base BaseLemmas Name NameSpec NameProofs PropName Walk Omap TreeSpec OmapSpec RecordsSpec Records RecordsProofs FsTree FsName FsSpec FsLookup PropFs
  CryptSpec Crypt DataSpec DataRead DataProofs Compressed CompressedSpec CompressedTop FileEntry FileSpec.
Ltac Zify.zify_post_hook ::= Z.div_mod_to_equations.

(* ---- streams that agree ---- *)
Lemma bind_ext {A B} (r : res A) (k1 k2 : A -> res B) : (forall a, k1 a = k2 a) -> bind r k1 = bind r k2.
Proof. intros H. destruct r; cbn [bind]; auto. Qed.

Section Ext.
  Variables (s1 s2 : source).
  Hypothesis HS : src_size s1 = src_size s2.
  Hypothesis HR : forall off n, src_read s1 off n = src_read s2 off n.
  Lemma read_into_ext buf pos off n : read_into s1 buf pos off n = read_into s2 buf pos off n.
  Proof. unfold read_into. rewrite HR. reflexivity. Qed.
  Ltac ext := repeat (first [ reflexivity | rewrite read_into_ext | (apply bind_ext; intros) | match goal with |- context [let '(_, _) := ?p in _] => destruct p end ]).
  Lemma offsets_ext method : get_block_offsets method s1 = get_block_offsets method s2.
  Proof.
    unfold get_block_offsets. rewrite <- HS, read_into_ext. apply bind_ext. intros buf. apply bind_ext. intros sig.
    match goal with |- bind ?a _ = bind ?b _ => assert (E : a = b) by (repeat match goal with |- context [if ?c then _ else _] => destruct c end; ext); rewrite E; clear E end.
    apply bind_ext. intros (((((b & n) & first) & pos) & dsize) & add). apply bind_ext. intros _.
    match goal with |- bind ?a _ = bind ?b _ => assert (E : a = b) by (destruct (le_val sig =? 1668116582); ext); rewrite E; clear E end.
    apply bind_ext. intros ((acc & prev) & buf'). apply bind_ext. intros _.
    match goal with |- bind ?a _ = bind ?b _ => assert (E : a = b) by (destruct (method =? METHOD_UNKNOWN5); ext); rewrite E; clear E end.
    reflexivity.
  Qed.
  Variables (dec : list Z -> Z -> res (list Z)) (junk : list Z -> list Z -> list Z) (method usize : Z).
  Lemma load_ext h offs i : load_block dec junk s1 usize h offs i = load_block dec junk s2 usize h offs i.
  Proof.
    unfold load_block. assert (E : block_data s1 offs i = block_data s2 offs i).
    { unfold block_data. apply bind_ext. intros o. apply bind_ext. intros e. rewrite HR. reflexivity. }
    rewrite E. reflexivity.
  Qed.
  Lemma loop_ext : forall fuel h offs i doff n acc,
    Compressed.read_loop dec junk s1 usize fuel h offs i doff n acc = Compressed.read_loop dec junk s2 usize fuel h offs i doff n acc.
  Proof.
    induction fuel as [|fuel IH]; intros; cbn [Compressed.read_loop]; [reflexivity|].
    destruct (0 <? n); [|reflexivity]. destruct (len offs - 1 <=? i); [reflexivity|]. rewrite load_ext.
    destruct (load_block dec junk s2 usize h offs i) as ([[]| | |] & h'); try reflexivity.
    destruct (ch_size h' <=? doff); [reflexivity|]. destruct (rd (ch_seg h') doff (Z.min (ch_size h' - doff) n)); try reflexivity. apply IH.
  Qed.
  Lemma file_read_ext h off n : file_read dec junk method s1 usize h off n = file_read dec junk method s2 usize h off n.
  Proof.
    unfold file_read. destruct (usize <=? off); [reflexivity|]. unfold ch_read. rewrite offsets_ext.
    destruct (match ch_offs (ch_seek h off) with Some o => Ok o | None => get_block_offsets method s2 end) as [offs| | |]; try reflexivity.
    rewrite loop_ext. reflexivity.
  Qed.
  Lemma file_reads_ext : forall ops h, file_reads dec junk method s1 usize h ops = file_reads dec junk method s2 usize h ops.
  Proof.
    induction ops as [|(off & n) ops IH]; intros h; cbn [file_reads]; [reflexivity|]. rewrite file_read_ext.
    destruct (file_read dec junk method s2 usize h off n) as (x & h'). rewrite IH. reflexivity.
  Qed.
End Ext.

Lemma file_reads_app dec junk method src usize : forall a b h,
  file_reads dec junk method src usize h (a ++ b) =
  (fst (file_reads dec junk method src usize h a) ++ fst (file_reads dec junk method src usize (snd (file_reads dec junk method src usize h a)) b),
   snd (file_reads dec junk method src usize (snd (file_reads dec junk method src usize h a)) b)).
Proof.
  induction a as [|(off & n) a IH]; intros b h.
  - cbn [app file_reads fst snd]. destruct (file_reads dec junk method src usize h b); reflexivity.
  - cbn [app file_reads]. destruct (file_read dec junk method src usize h off n) as (x & h'). rewrite IH.
    destruct (file_reads dec junk method src usize h' a) as (xs & h''). reflexivity.
Qed.
(* The next read after a history of reads. *)
Lemma next_read dec junk method src usize data :
  (forall ops, Forall (fun op => 0 <= fst op) ops -> fst (file_reads dec junk method src usize ch_init ops) = map (read_slice data) ops) ->
  forall ops off n, Forall (fun op => 0 <= fst op) ops -> 0 <= off ->
  exists h, file_read dec junk method src usize (snd (file_reads dec junk method src usize ch_init ops)) off n = (read_slice data (off, n), h) /\
    h = snd (file_reads dec junk method src usize ch_init (ops ++ [(off, n)])).
Proof.
  intros H ops off n F Ho. pose proof (H (ops ++ [(off, n)])) as X. rewrite file_reads_app in *. cbn [file_reads] in *.
  destruct (file_read dec junk method src usize (snd (file_reads dec junk method src usize ch_init ops)) off n) as (x & h). cbn [fst snd] in *.
  exists h. split; [|reflexivity]. rewrite (H ops F), map_app in X. cbn [map] in X. apply app_inv_head in X; [congruence|].
  apply Forall_app. split; [exact F|]. constructor; [exact Ho|constructor].
Qed.

(* ---- reading blocks, streams and attributes ---- *)
Definition faithful (img : image) (ctx : option (list Z -> list Z -> list Z)) (block : extent -> Z -> list Z -> Prop) : Prop :=
  forall e k d, 0 <= ex_block e -> 0 <= ex_crypto e -> 0 <= k -> block e k d ->
  data_block_read img ctx (ex_block e * 4096 + k * 4096) (w64 (ex_crypto e + k)) = Ok d.
Lemma faithful_plain img : faithful img None (plain_block img).
Proof. intros e k d H1 H2 H3 H. apply plain_read; auto. Qed.
Lemma faithful_sealed img enc dec : unit_cipher 512 enc dec -> faithful img (Some dec) (sealed_block enc img).
Proof. intros HC e k d H1 H2 H3 (H & L). eapply encrypted_read; eauto. Qed.

Lemma extent_rec_bounds id r e : extent_rec id r e -> 0 <= ex_block e /\ 0 <= ex_crypto e.
Proof. intros (f & _ & _ & _ & _ & _ & H1 & H2). lia. Qed.
Lemma forall2_right {A B} (R : A -> B -> Prop) (P : B -> Prop) l m : Forall2 R l m -> (forall a b, R a b -> P b) -> Forall P m.
Proof. induction 1; constructor; eauto. Qed.
Lemma forall2_fun {A B} (f : A -> res B) (R : A -> B -> Prop) : (forall a b, R a b -> f a = Ok b) -> forall l m m', Forall2 R l m -> Forall2 R l m' -> m = m'.
Proof.
  intros H l m m' F. revert m'. induction F as [|a b l m Hab F IH]; intros m' F'; inversion F' as [|a' b' l' m2 H1 H2]; subst; [reflexivity|].
  rewrite (IH _ H2). apply H in Hab, H1. rewrite Hab in H1. injection H1 as ->. reflexivity.
Qed.

(* the stream s has the content v *)
Definition agrees (s : stream) (v : list Z) : Prop :=
  st_size s = len v /\ forall off n, DataRead.stream_read s off n = Compressed.stream_read v off n.
Lemma agrees_data v : agrees (stream_of_data v) v.
Proof.
  split; [reflexivity|]. intros off n. unfold DataRead.stream_read, Compressed.stream_read.
  destruct ((0 <=? off) && (0 <=? n) && (n <=? 2 ^ 63 - 1)) eqn:C; [|reflexivity]. cbn [check bind]. pose proof (len_nonneg v).
  cbn [stream_of_data st_size st_read]. destruct (len v <=? off) eqn:C1.
  - unfold slice. replace (Z.to_nat (Z.min n (len v - off))) with 0%nat by lia. reflexivity.
  - unfold buffer_read. replace ((0 <=? off) && (Z.min n (len v - off) <=? 2 ^ 63 - 1)) with true by lia. cbn [check bind]. rewrite C1.
    rewrite rd_in by lia. do 2 f_equal. lia.
Qed.

Lemma read_all_ok s v off n : agrees s v -> 0 <= off -> 0 <= n -> off + n <= len v -> len v < 2 ^ 63 -> read_all (Some s) off n = Ok (slice v off n).
Proof.
  intros (_ & A) H1 H2 H3 H4. unfold read_all. rewrite A. unfold Compressed.stream_read.
  replace ((0 <=? off) && (0 <=? n) && (n <=? 2 ^ 63 - 1)) with true by lia. cbn [check bind].
  replace (Z.min n (len v - off)) with n by lia. rewrite len_slice by lia. replace (n =? n) with true by lia. reflexivity.
Qed.

Section Volume.
  Variables (tie : list Z -> list Z -> Prop) (h : nat) (t : fs) (recs : list record).
  Hypothesis HTR : forall a b c, tie a b -> tie b c -> tie a c.
  Hypothesis HT : fs_tree tie h t recs.
  Variables (img : image) (ctx : option (list Z -> list Z -> list Z)) (block : extent -> Z -> list Z -> Prop).
  Hypothesis HF : faithful img ctx block.

  Lemma extents_read sid l : extents_of recs sid l -> fs_extents t sid = Ok l.
  Proof.
    intros (Hs & HN & F). destruct (C20_extent_enumeration_partial tie h t recs sid HTR HT Hs) as (l' & E & F' & _).
    - intros r Hr Hh. assert (I : In r (filter (has 8 sid) recs)) by (apply filter_In; auto). clear - F I.
      induction F as [|a b l m R F IH]; [destruct I|]. destruct I as [<-|I]; eauto.
    - right. exact HN.
    - rewrite E. f_equal. eapply forall2_fun; [|exact F'|exact F]. apply extent_rec_read.
  Qed.
  Lemma stream_ok sid l sparse data : extents_of recs sid l -> stored_stream block recs sid sparse data ->
    exists s, stream_of_extents img ctx l (len data) sparse = Ok s /\ agrees s data.
  Proof.
    intros HE (l' & content & HE' & HC & HL & HB & HD & EW).
    assert (l' = l) as -> by (pose proof (extents_read _ _ HE) as X1; pose proof (extents_read _ _ HE') as X2; rewrite X1 in X2; injection X2 as ->; reflexivity).
    pose proof (len_nonneg data) as L0.
    assert (B : Forall (fun e => 0 <= ex_block e /\ 0 <= ex_crypto e) l).
    { destruct HE as (_ & _ & F). eapply forall2_right; [exact F|]. intros. eapply extent_rec_bounds; eauto. }
    assert (R : Forall in_range l).
    { clear - B HB. induction B as [|e l (B1 & _) B IH]; constructor; [split; [exact B1|exact (Forall_inv HB)]|apply IH, (Forall_inv_tail HB)]. }
    assert (BO : forall e k d, In e l -> 0 <= k < ex_size e / 4096 -> block e k d ->
      data_block_read img ctx (ex_block e * 4096 + k * 4096) (w64 (ex_crypto e + k)) = Ok d).
    { intros e k d I Hk Hb. rewrite Forall_forall in B. destruct (B e I) as (B1 & B2). apply HF; auto; lia. }
    destruct HL as (L1 & L2).
    destruct (stream_read_ok img ctx block sparse l content BO HC R L2 HD (len data) 0 0 L1 ltac:(lia) ltac:(lia)) as (s & E & ES & _).
    exists s. split; [exact E|]. split; [exact ES|]. intros off n.
    unfold Compressed.stream_read. destruct ((0 <=? off) && (0 <=? n) && (n <=? 2 ^ 63 - 1)) eqn:C.
    - destruct (stream_read_ok img ctx block sparse l content BO HC R L2 HD (len data) off n L1 ltac:(lia) ltac:(lia)) as (s' & E' & _ & RD).
      rewrite E in E'. injection E' as <-. rewrite RD. cbn [check bind]. f_equal.
      destruct (Z_le_gt_dec (len data) off).
      + rewrite window_nil by lia. unfold slice. replace (Z.to_nat (Z.min n (len data - off))) with 0%nat by lia. reflexivity.
      + rewrite EW at 2. rewrite window_slice by lia. f_equal.
    - unfold DataRead.stream_read. rewrite C. reflexivity.
  Qed.

  (* The value of an attribute. *)
  Variables (id : Z) (i : inode) (rec : option dentry).
  Let e := mk_fe t img ctx id i rec.
  Lemma attr_stream_ok r a v : attr_rec id r a -> attr_holds block recs a v ->
    attr_size a = len v /\ exists s, attr_stream e a = Ok (Some s) /\ agrees s v.
  Proof.
    intros (_ & _ & _ & HV) HH. unfold attr_holds in HH. unfold attr_size, attr_stream. destruct (at_data a) as [sid size|w|].
    - destruct HV as (F0 & _). destruct HH as (-> & HH). split; [reflexivity|]. rewrite F0. cbn [fe_tree fe_img fe_ctx e].
      destruct HH as (l & content & HE & HR). rewrite (extents_read sid l HE). cbn [bind].
      destruct (stream_ok sid l false v HE) as (s & E & A); [exists l, content; split; assumption|]. rewrite E. cbn [bind]. eauto.
    - destruct HV as (F0 & F1 & _). subst v. split; [reflexivity|]. rewrite F0, F1. eexists. split; [reflexivity|]. apply agrees_data.
    - destruct HV as (F0 & _). destruct HH as (F1 & ->). split; [reflexivity|]. rewrite F0, F1. eexists. split; [reflexivity|]. apply agrees_data.
  Qed.
End Volume.

(* ---- names ---- *)
Lemma una_loop_ok next : forall name n fuel str s, decodes utf8_next name n -> decodes next str s -> (length n <= fuel)%nat ->
  una_loop next fuel str name = Ok (if list_eq_dec Z.eq_dec s n then true else false).
Proof.
  intros name n fuel str s DN. revert fuel str s. induction DN as [|name c r n Hn Hne DN IH]; intros fuel str s DS HF.
  - destruct DS as [|str d q s Hd Hde DS].
    + destruct fuel; cbn [una_loop]; destruct (list_eq_dec Z.eq_dec [] []); congruence.
    + destruct str as [|x str]; [congruence|]. destruct (list_eq_dec Z.eq_dec (d :: s) []); [discriminate|]. destruct fuel; reflexivity.
  - destruct name as [|y name]; [congruence|]. destruct DS as [|str d q s Hd Hde DS].
    + destruct (list_eq_dec Z.eq_dec [] (c :: n)); [discriminate|]. destruct fuel; reflexivity.
    + destruct str as [|x str]; [congruence|]. destruct fuel as [|fuel]; [cbn [length] in HF; lia|]. cbn [una_loop].
      rewrite Hd. cbn [bind]. rewrite Hn. cbn [bind]. destruct (d =? c) eqn:C.
      * rewrite (IH fuel q s DS) by (cbn [length] in HF; lia). f_equal.
        destruct (list_eq_dec Z.eq_dec s n) as [E1|E1], (list_eq_dec Z.eq_dec (d :: s) (c :: n)) as [E2|E2]; try reflexivity; exfalso.
        -- apply E2. f_equal; [lia|assumption].
        -- injection E2. auto.
      * destruct (list_eq_dec Z.eq_dec (d :: s) (c :: n)) as [E|]; [|reflexivity]. exfalso. injection E. intros. lia.
Qed.
Lemma decodes_length next : forall l s, (forall l c r, next l = Ok (c, r) -> (length r < length l)%nat) -> decodes next l s -> (length s <= length l)%nat.
Proof. intros l s H D. induction D; cbn [length]; [lia|]. apply H in H0. lia. Qed.
Lemma drop_bom_name s : Forall scalar s -> hd 0 s <> 0xfeff -> drop_bom (utf8 s) = utf8 s.
Proof.
  intros F H. destruct s as [|c s]; [reflexivity|]. cbn [hd] in H. apply Forall_inv in F. unfold utf8. cbn [map concat].
  generalize (concat (map utf8_char s)) as q. intros q. unfold utf8_char. destruct (c <? 0x80) eqn:C1.
  - cbn [app]. unfold drop_bom. destruct q as [|x [|y r]]; try reflexivity. replace (c =? 0xef) with false by lia. reflexivity.
  - destruct (c <? 0x800) eqn:C2; [|destruct (c <? 0x10000) eqn:C3]; cbn [app]; unfold drop_bom.
    + destruct q as [|x r]; try reflexivity.
      match goal with |- context [?a =? 0xef] => replace (a =? 0xef) with false by lia end. reflexivity.
    + match goal with |- context [if ?b then _ else _] => replace b with false by (unfold scalar in F; lia) end. reflexivity.
    + match goal with |- context [?a =? 0xef] => replace (a =? 0xef) with false by (unfold scalar in F; lia) end. reflexivity.
Qed.

Lemma una_equal_ok next str s name n : file_name s -> decodes next (strip str) s -> file_name n -> spells n name -> hd 0 n <> 0xfeff ->
  una_equal next str name = Ok (if list_eq_dec Z.eq_dec s n then true else false).
Proof.
  intros Hs DS Hn Sn HB. destruct (file_name_strip n name Hn Sn) as (En & Fn). unfold una_equal. rewrite En, drop_bom_name by assumption.
  apply una_loop_ok; [apply utf8_decodes, Fn|exact DS|].
  pose proof (decodes_length utf8_next (utf8 n) n) as L. pose proof (utf8_decodes n Fn) as D.
  assert (length n <= length (utf8 n))%nat by (apply L; [intros l c r E; apply utf8_decoder in E; apply E|exact D]).
  destruct Sn as [->| ->]; [lia|]. rewrite app_length. lia.
Qed.
Definition well_named (p : attr * list Z) : Prop := file_name (snd p) /\ spells (snd p) (at_name (fst p)) /\ hd 0 (snd p) <> 0xfeff.
Lemma named_none s l : ~ In s (map snd l) -> attr_named s l = None.
Proof. induction l as [|(a & n) l IH]; intros H; cbn [attr_named]; [reflexivity|]. cbn in H. destruct (list_eq_dec Z.eq_dec s n); [subst; tauto|]. apply IH. tauto. Qed.
Lemma named_in s l a : attr_named s l = Some a -> In (a, s) l.
Proof. induction l as [|(b & n) l IH]; cbn [attr_named]; [discriminate|]. destruct (list_eq_dec Z.eq_dec s n) as [->|]; intros E; [injection E as ->; left; reflexivity|right; auto]. Qed.
Lemma ascii_name s : forallb (fun c => (0 <? c) && (c <? 0x80)) s = true -> file_name s /\ decodes utf8_next (strip s) s.
Proof.
  intros H. assert (FN : file_name s).
  { rewrite forallb_forall in H. apply Forall_forall. intros c I. apply H in I. unfold scalar. lia. }
  split; [exact FN|]. assert (E : utf8 s = s).
  { clear FN. induction s as [|c s IH]; [reflexivity|]. cbn [forallb] in H. apply andb_true_iff in H. destruct H as (H0 & H). unfold utf8. cbn [map concat]. fold (utf8 s). rewrite (IH H).
    unfold utf8_char. replace (c <? 0x80) with true by lia. reflexivity. }
  destruct (file_name_strip s s FN) as (E' & F); [left; auto|]. rewrite E'. apply utf8_decodes, F.
Qed.
Definition or_else {A} (o d : option A) : option A := match o with Some x => Some x | None => d end.
Lemma classify_ok : forall l A c f k, Forall well_named l -> NoDup (map snd l) ->
  classify (map fst l) (mk_fa A c f k) = Ok (mk_fa A (or_else (attr_named decmpfs_name l) c) (or_else (attr_named fork_name l) f) (or_else (attr_named symlink_name l) k)).
Proof.
  destruct (ascii_name decmpfs_name eq_refl) as (FD & DD). destruct (ascii_name fork_name eq_refl) as (FF & DF). destruct (ascii_name symlink_name eq_refl) as (FL & DL).
  induction l as [|(x & n) l IH]; intros A c f k HW ND; [reflexivity|]. pose proof (Forall_inv HW) as (W1 & W2 & W3). apply Forall_inv_tail in HW. cbn [map fst snd] in *.
  inversion ND as [|? ? N1 N2]; subst. cbn [classify attr_named fa_all fa_comp fa_fork fa_link].
  change decmpfs_key with decmpfs_name. change fork_key with fork_name. change symlink_key with symlink_name.
  rewrite (una_equal_ok utf8_next _ decmpfs_name _ n FD DD W1 W2 W3). cbn [bind].
  destruct (list_eq_dec Z.eq_dec decmpfs_name n) as [<-|H1].
  { rewrite IH by assumption. rewrite (named_none decmpfs_name l N1). destruct (list_eq_dec Z.eq_dec fork_name decmpfs_name); [discriminate|].
    destruct (list_eq_dec Z.eq_dec symlink_name decmpfs_name); [discriminate|]. reflexivity. }
  rewrite (una_equal_ok utf8_next _ fork_name _ n FF DF W1 W2 W3). cbn [bind].
  destruct (list_eq_dec Z.eq_dec fork_name n) as [<-|H2].
  { rewrite IH by assumption. rewrite (named_none fork_name l N1). destruct (list_eq_dec Z.eq_dec symlink_name fork_name); [discriminate|]. reflexivity. }
  rewrite (una_equal_ok utf8_next _ symlink_name _ n FL DL W1 W2 W3). cbn [bind].
  destruct (list_eq_dec Z.eq_dec symlink_name n) as [<-|H3].
  { rewrite IH by assumption. rewrite (named_none symlink_name l N1). reflexivity. }
  rewrite IH by assumption. reflexivity.
Qed.
Lemma by_name_ok next str s : file_name s -> decodes next (strip str) s -> forall l, Forall well_named l ->
  attr_by_name next str (map fst l) = Ok (attr_named s l).
Proof.
  intros Hs DS. induction l as [|(x & n) l IH]; intros HW; [reflexivity|]. pose proof (Forall_inv HW) as (W1 & W2 & W3). apply Forall_inv_tail in HW. cbn [map fst snd] in *.
  cbn [attr_by_name attr_named]. rewrite (una_equal_ok next str s _ n Hs DS W1 W2 W3). cbn [bind].
  destruct (list_eq_dec Z.eq_dec s n); [reflexivity|auto].
Qed.
