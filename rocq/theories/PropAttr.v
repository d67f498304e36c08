(* C107: extended attribute objects. *)
From Coq Require Import Lia.
From Verif Require Import Base BaseLemmas BTreeSpec Name NameSpec NameProofs PropName Walk Omap TreeSpec OmapSpec RecordsSpec Records RecordsProofs FsTree FsName FsSpec FsLookup PropFs
  Crypt CryptSpec DataRead DataSpec DataSplit DataProofs Snapshot FileEntry FileSpec FileProofs FileTop PropFile PropEntry PropCompressed ExtAttr ExtAttrSpec.
Ltac Zify.zify_post_hook ::= Z.div_mod_to_equations.

Section Attr.
  Variables (tie : list Z -> list Z -> Prop) (h : nat) (t : fs) (recs : list record).
  Hypothesis HTR : forall a b c, tie a b -> tie b c -> tie a c.
  Hypothesis HT : fs_tree tie h t recs.
  Variables (dev : image) (ctx : option (list Z -> list Z -> list Z)) (block : extent -> Z -> list Z -> Prop).
  Hypothesis HF : faithful dev ctx block.
  Variables (id : Z) (i : inode) (rec : option dentry) (r : record) (a : attr) (x : extattr).
  Let e := mk_fe t dev ctx id i rec.
  Hypothesis HA : attr_rec id r a.
  Hypothesis HV : attr_holds block recs a (xa_value x).
  Hypothesis HE : attr_extents recs a (xa_extents x).
  Hypothesis HN : x_text a = Ok (xa_name x).

  Definition xinv (st : xstate) (pos : Z) : Prop :=
    match x_stream st with
    | None => pos = 0 /\ x_extents st = None
    | Some s => agrees s (xa_value x) /\ x_cur st = pos /\ 0 <= pos /\ match at_data a with AStream _ _ => x_extents st = Some (xa_extents x) | _ => x_extents st = None end
    end.
  Lemma xneed_ok st pos : xinv st pos -> exists st' s, x_need e a st = (Ok tt, st') /\ xinv st' pos /\ x_stream st' = Some s.
  Proof.
    intros G. unfold x_need. destruct (x_stream st) as [s|] eqn:ES; [exists st, s; auto|]. unfold xinv in G. rewrite ES in G. destruct G as (-> & EX).
    destruct (attr_stream_ok tie h t recs HTR HT dev ctx block HF id i rec r a (xa_value x) HA HV) as (_ & s & EA & AG). fold e in EA. unfold attr_stream in EA.
    unfold x_data_stream. unfold attr_extents in HE. unfold xinv. destruct HA as (_ & _ & _ & W). destruct (at_data a) as [sid size|w|].
    - destruct W as (F0 & _). rewrite F0 in *. rewrite EX. destruct HE as (HX & _). cbn [fe_tree e] in *. rewrite (extents_read tie h t recs HTR HT sid (xa_extents x) HX) in *. cbn [bind] in EA.
      apply bind_ok in EA. destruct EA as (s' & E1 & EA). apply Ok_eq in EA. injection EA as ->. rewrite E1. eexists. eexists. split; [reflexivity|]. cbn [x_stream x_extents x_cur]. split; [|reflexivity]. repeat split; auto; try lia; apply AG.
    - destruct W as (F0 & F1 & _). rewrite F0, F1 in *. apply Ok_eq in EA. injection EA as <-. eexists. eexists. split; [reflexivity|]. cbn [x_stream x_extents x_cur]. split; [|reflexivity]. repeat split; auto; try lia; apply AG.
    - destruct W as (F0 & _). rewrite F0 in *. unfold attr_holds in HV. destruct (Z.testbit (at_flags a) 1); [|discriminate]. apply Ok_eq in EA. injection EA as <-. eexists. eexists.
      split; [reflexivity|]. cbn [x_stream x_extents x_cur]. split; [|reflexivity]. repeat split; auto; try lia; apply AG.
  Qed.
  Lemma xread_ok st pos o n : xinv st pos -> 
    let p := match o with Some p => p | None => pos end in
    exists st', x_answer XBytes (x_read e a o n) st = Ok (fst (xattr_step x pos (XReadAt p n)), st') /\ xinv st' (snd (xattr_step x pos (XReadAt p n))).
  Proof.
    intros G p. destruct (xneed_ok st pos G) as (st1 & s & EN & G1 & ES). unfold x_answer, x_read. rewrite (bindM_ok _ _ _ _ _ EN). rewrite ES.
    assert (EP : match o with Some o => o | None => x_cur st1 end = p). { unfold p. destruct o; [reflexivity|]. unfold xinv in G1. rewrite ES in G1. apply G1. }
    rewrite EP. clear EP. unfold xinv in G1. rewrite ES in G1. destruct G1 as (AG & EC & H0 & EX). cbv zeta. unfold xattr_step. pose proof (len_nonneg (xa_value x)) as L0.
    destruct (p <? 0) eqn:C0.
    - replace (0 <=? p) with false by lia. cbn [andb fst snd]. exists st1. split; [reflexivity|]. unfold xinv. rewrite ES. auto.
    - rewrite (proj2 AG). unfold Compressed.stream_read. replace (0 <=? p) with true by lia. destruct (true && (0 <=? n) && (n <=? 2 ^ 63 - 1)) eqn:C.
      + cbn [check bind fst snd]. eexists. split; [reflexivity|]. unfold xinv. cbn [x_stream x_extents x_cur]. split; [exact AG|]. split; [reflexivity|].
        pose proof (len_nonneg (slice (xa_value x) p (Z.min n (len (xa_value x) - p)))). split; [lia|exact EX].
      + cbn [check bind fst snd]. eexists. split; [reflexivity|]. unfold xinv. cbn [x_stream x_extents x_cur]. split; [exact AG|]. split; [reflexivity|]. split; [lia|exact EX].
  Qed.
  Lemma xstep_ok c st pos : xinv st pos -> exists st', x_call e a c st = Ok (fst (xattr_step x pos c), st') /\ xinv st' (snd (xattr_step x pos c)).
  Proof.
    intros G. assert (EU : forall u, x_units a u = Ok (units u (xa_name x))) by (intros u; unfold x_units; rewrite HN; reflexivity).
    destruct (xneed_ok st pos G) as (st1 & s & EN & G1 & ES). pose proof G1 as G2. unfold xinv in G2. rewrite ES in G2. destruct G2 as (AG & EC & H0 & EX).
    destruct c as [|u|u n| |n|o n|o w| | |k]; cbn [x_call].
    - exists st. split; [reflexivity|exact G].
    - exists st. unfold x_answer, retM. rewrite EU. split; [reflexivity|exact G].
    - exists st. unfold x_answer, retM. rewrite EU. cbn [bind xattr_step]. destruct (_ <=? n); (split; [reflexivity|exact G]).
    - exists st. unfold x_answer, retM. destruct (attr_stream_ok tie h t recs HTR HT dev ctx block HF id i rec r a (xa_value x) HA HV) as (-> & _). split; [reflexivity|exact G].
    - apply (xread_ok st pos None n G).
    - apply (xread_ok st pos (Some o) n G).
    - unfold x_answer, x_seek. rewrite (bindM_ok _ _ _ _ _ EN), ES. cbv zeta. rewrite EC, (proj1 AG). cbn [xattr_step].
      destruct (if w =? 0 then _ else _) as [b|]; [|exists st1; split; [reflexivity|exact G1]].
      destruct (b + o <? 0) eqn:C; [exists st1; split; [reflexivity|exact G1]|]. eexists. split; [reflexivity|]. unfold xinv. cbn [x_stream x_extents x_cur snd]. repeat split; auto; try lia; apply AG.
    - unfold x_answer, x_offset. rewrite (bindM_ok _ _ _ _ _ EN), ES, EC. exists st1. split; [reflexivity|exact G1].
    - unfold x_answer, x_count. rewrite (bindM_ok _ _ _ _ _ EN). exists st1. split; [|exact G1]. cbn [xattr_step fst]. unfold attr_extents in HE.
      destruct (at_data a); rewrite EX; [reflexivity| |]; rewrite HE; reflexivity.
    - unfold x_answer, x_extent. rewrite (bindM_ok _ _ _ _ _ EN). exists st1. cbn [xattr_step fst snd]. split; [|exact G1]. unfold attr_extents in HE.
      destruct (at_data a) as [sid size|w|]; rewrite EX; [|rewrite HE; destruct (Z.to_nat k); reflexivity|rewrite HE; destruct (Z.to_nat k); reflexivity].
      destruct HE as (HX & HB). destruct (nth_error (xa_extents x) (Z.to_nat k)) as [y|] eqn:N.
      + assert (L : (Z.to_nat k < length (xa_extents x))%nat) by (apply nth_error_Some; congruence).
        destruct (0 <=? k) eqn:K; [|reflexivity]. replace (k <? len (xa_extents x)) with true by (unfold len; lia). cbn [andb].
        unfold getb. replace ((0 <=? k) && (k <? len (xa_extents x))) with true by (unfold len; lia). rewrite N. cbn [bind fst snd].
        assert (B : 0 <= ex_block y < 2 ^ 52).
        { rewrite Forall_forall in HB. pose proof (nth_error_In _ _ N) as I. destruct HX as (_ & _ & FX). split; [|apply HB, I].
          assert (FB : Forall (fun e => 0 <= ex_block e /\ 0 <= ex_crypto e) (xa_extents x)) by (eapply forall2_right; [exact FX|]; intros; eapply extent_rec_bounds; eauto).
          rewrite Forall_forall in FB. apply FB, I. }
        unfold w64. rewrite Z.mod_small by lia. reflexivity.
      + assert (L : (length (xa_extents x) <= Z.to_nat k)%nat) by (apply nth_error_None, N).
        replace ((0 <=? k) && (k <? len (xa_extents x))) with false by (unfold len; lia). reflexivity.
  Qed.
  Lemma xsteps_ok : forall cs st pos, xinv st pos -> exists st', x_calls e a cs st = Ok (xattr_steps x pos cs, st').
  Proof.
    induction cs as [|c cs IH]; intros st pos G; cbn [x_calls xattr_steps]; [eauto|]. destruct (xstep_ok c st pos G) as (st1 & E & G1). rewrite E. cbn [bind].
    destruct (xattr_step x pos c) as (an, pos'). cbn [fst snd] in *. destruct (IH st1 pos' G1) as (st2 & ->). cbn [bind]. eauto.
  Qed.
End Attr.

(* ---- C107 ---- *)
(* What holds: an attribute of a regular file, as found by index or by name, answers all
   sequences of calls like its name, bytes with a position and extents do. *)
Theorem C107_attribute_object_partial : forall (tie : list Z -> list Z -> Prop) h t recs dev ctx block id i rec l a s v exts cs,
  (forall a b c, tie a b -> tie b c -> tie a c) -> fs_tree tie h t recs -> volume_data dev ctx block ->
  attributes recs id l -> In (a, s) l -> attr_holds block recs a v -> attr_extents recs a exts ->
  exists st, x_calls (mk_fe t dev ctx id i rec) a cs x_init = Ok (xattr_steps (mk_xa s v exts) 0 cs, st).
Proof.
  intros tie h t recs dev ctx block id i rec l a s v exts cs HTR HT HV (HA & _) HI HH HX.
  assert (P : exists r, attr_rec id r a /\ file_name s /\ spells s (at_name a) /\ hd 0 s <> 0xfeff).
  { clear - HA HI. induction HA as [|r p rs ps R HA IH]; [destruct HI|]. destruct HI as [->|HI]; [exists r; exact R|apply IH, HI]. }
  destruct P as (r & R & N1 & N2 & N3).
  apply (xsteps_ok tie h t recs HTR HT dev ctx block (faithful_volume dev ctx block HV) id i rec r a (mk_xa s v exts) R HH HX); [|split; reflexivity].
  unfold x_text. cbn [xa_name]. apply name_text; assumption.
Qed.
Print Assumptions C107_attribute_object_partial.

(* File 16 with three attributes: a of 4100 bytes in the extents of data stream 17, b of three
   bytes kept with it, c with no flag set. *)
Definition fa_stream : record := (attr_key_bytes 16 [97; 0], attr_stream_bytes 17 4100 8192 0 0 0).
Definition fa_plain : record := fy_attr 16 [98] [1; 2; 3].
Definition fa_none : record := (attr_key_bytes 16 [99; 0], le_enc 2 0 ++ le_enc 2 0).
Definition fa_extent (off block : Z) : record := (extent_key_bytes 17 off, extent_value_bytes 0 4096 block 0).
Definition fa_recs : list record := [fy_inode 2 0; fy_inode 16 0; fa_stream; fa_plain; fa_none; fa_extent 0 900; fa_extent 4096 950].
Definition fa_img : device := fun b => if b =? 20 then Some (node_bytes (fx_node true true fa_recs)) else None.
Definition fa_fs : fs := mk_fs fa_img 20 fx_omap 30 4.
Example fa_tree : fs_tree fx_tie 0 fa_fs fa_recs.
Proof.
  exists 0%nat, fx_orecs. split; [lia|]. split; [exact fx_omap_tree|]. split; [lia|]. split.
  - cbn [subtree]. split.
    + exists 20. split; [reflexivity|]. split; [lia|]. exists (fx_node true true fa_recs). split; [reflexivity|].
      assert (L : len (node_bytes (fx_node true true fa_recs)) = 4096) by (vm_compute; reflexivity).
      assert (LF : (0 <? len (nd_free (fx_node true true fa_recs)) + len (values_area (nd_recs (fx_node true true fa_recs)))) = true) by (vm_compute; reflexivity).
      split; [|split; [exact L|]].
      * unfold node_ok. rewrite L. unfold nd_fixed. change (nd_flags (fx_node true true fa_recs)) with 3.
        change (Z.testbit 3 2) with false. split; [reflexivity|]. cbn [nd_type nd_subtype nd_level nd_lists nd_footer fx_node].
        split; [lia|]. split; [lia|]. split; [lia|]. split; [lia|]. split; [reflexivity|].
        split; [reflexivity|]. split; [lia|]. split; [vm_compute; auto|]. discriminate.
      * split; [discriminate|]. split; [lia|]. split; [cbn; auto|]. split; [reflexivity|].
        split; [reflexivity|]. split; [reflexivity|]. split; [reflexivity|]. split; [reflexivity|reflexivity].
    + unfold fa_recs. fs_sorted.
  - unfold fa_recs. repeat (apply Forall_cons || apply Forall_nil); apply fs_rec_ok_dec; vm_compute; reflexivity.
Qed.
Definition fa_a : attr := mk_at [97; 0] 1 (AStream 17 4100).
Definition fa_b : attr := mk_at [98; 0] 2 (AInline [1; 2; 3]).
Definition fa_c : attr := mk_at [99; 0] 0 ANone.
Definition fa_entry : fentry := mk_fe fa_fs fy_dev None 16 (fy_value (fy_inode 16 0)) None.
Definition fa_exts : list extent := [mk_ex 0 4096 900 0; mk_ex 4096 4096 950 0].
Lemma fa_attributes : attributes fa_recs 16 [(fa_a, [97]); (fa_b, [98]); (fa_c, [99])].
Proof.
  split; [|cbn [map snd]; repeat constructor; cbn [In]; intuition discriminate].
  assert (E : filter (has 4 16) fa_recs = [fa_stream; fa_plain; fa_none]) by (vm_compute; reflexivity). rewrite E.
  repeat (apply Forall2_cons || apply Forall2_nil); cbn [fst snd].
  - split; [|apply (fy_ascii [97]); reflexivity]. unfold attr_rec, fa_a. cbn [at_name at_flags at_data]. split; [reflexivity|]. split; [split; reflexivity || (vm_compute; discriminate)|].
    split; [lia|]. split; [reflexivity|]. split; [lia|]. split; [lia|]. exists (le_enc 8 8192 ++ le_enc 8 0 ++ le_enc 8 0 ++ le_enc 8 0). split; reflexivity.
  - split; [apply (fy_attr_rec 16 [98] [1; 2; 3]); [split; [|reflexivity]; vm_compute; discriminate|reflexivity]|apply (fy_ascii [98]); reflexivity].
  - split; [|apply (fy_ascii [99]); reflexivity]. unfold attr_rec, fa_c. cbn [at_name at_flags at_data]. split; [reflexivity|]. split; [split; reflexivity || (vm_compute; discriminate)|].
    split; [lia|]. split; reflexivity.
Qed.
Lemma fa_extents_ok : extents_of fa_recs 17 fa_exts.
Proof.
  split; [lia|]. split.
  - exists (fy_inode 16 0). split; [right; left; reflexivity|]. left. vm_compute. reflexivity.
  - assert (E : filter (has 8 17) fa_recs = [fa_extent 0 900; fa_extent 4096 950]) by (vm_compute; reflexivity). rewrite E.
    repeat (apply Forall2_cons || apply Forall2_nil); exists 0; cbn [fa_extent fst snd ex_off ex_size ex_block ex_crypto]; repeat split; lia.
Qed.
Example C107_instance : forall cs, exists st, x_calls fa_entry fa_a cs x_init = Ok (xattr_steps (mk_xa [97] (window fy_content 0 4100) fa_exts) 0 cs, st).
Proof.
  intros cs. apply (C107_attribute_object_partial fx_tie 0 fa_fs fa_recs fy_dev None (plain_block fy_dev) 16 _ None [(fa_a, [97]); (fa_b, [98]); (fa_c, [99])]).
  - unfold fx_tie. intros. lia.
  - exact fa_tree.
  - constructor.
  - exact fa_attributes.
  - left. reflexivity.
  - cbn [attr_holds fa_a at_data]. rewrite window_len by lia. split; [reflexivity|]. exists fa_exts, fy_content. rewrite window_len by lia.
    split; [exact fa_extents_ok|]. split; [cbn [contiguous fa_exts ex_off ex_size]; repeat split; lia|]. split; [cbn [total fa_exts fold_right ex_size]; lia|].
    split; [repeat constructor; cbn [ex_block ex_size]; lia|]. split; [|reflexivity].
    intros e k [<-|[<-|[]]] Hk; cbn [ex_size ex_block ex_off andb] in *.
    + assert (k = 0) as -> by lia. split; [reflexivity|]. unfold len. rewrite map_length, seq_length. lia.
    + assert (k = 0) as -> by lia. split; [reflexivity|]. unfold len. rewrite map_length, seq_length. lia.
  - split; [exact fa_extents_ok|]. repeat constructor; cbn [ex_block]; lia.
Qed.
Definition xanswers (r : res (list xanswer * xstate)) : option (list xanswer) := match r with Ok (l, _) => Some l | _ => None end.
Example C107_example : xanswers (x_calls fa_entry fa_a
    [XNameSize true; XName false 2; XName false 1; XSize; XSeek (-6) 2; XRead 100; XOffset; XSeek (-2) 1; XRead 1; XReadAt 4094 4; XReadAt (-1) 4; XSeek 0 3; XExtents; XExtent 1; XExtent 2] x_init) =
  Some [XInt 2; XText [97; 0]; XError; XInt 4100; XInt 4094; XBytes [78; 79; 80; 81; 82; 83]; XInt 4100; XInt 4098; XBytes [82]; XBytes [78; 79; 80; 81]; XError; XError;
    XInt 2; XPlace (950 * 4096) 4096; XError].
Proof. vm_compute. reflexivity. Qed.

(* Full statement is false: the identifier does not identify, all attributes have 0. *)
Theorem C107_identifier_refuted : exists (tie : list Z -> list Z -> Prop) h t recs dev id i l a b s s' st st',
  (forall a b c, tie a b -> tie b c -> tie a c) /\ fs_tree tie h t recs /\ attributes recs id l /\ In (a, s) l /\ In (b, s') l /\ s <> s' /\
  x_calls (mk_fe t dev None id i None) a [XId] x_init = Ok ([XInt 0], st) /\ x_calls (mk_fe t dev None id i None) b [XId] x_init = Ok ([XInt 0], st').
Proof.
  exists fx_tie, 0%nat, fa_fs, fa_recs, fy_dev, 16, (fy_value (fy_inode 16 0)), [(fa_a, [97]); (fa_b, [98]); (fa_c, [99])], fa_a, fa_b, [97], [98], x_init, x_init.
  split; [unfold fx_tie; intros; lia|]. split; [exact fa_tree|]. split; [exact fa_attributes|]. split; [left; reflexivity|]. split; [right; left; reflexivity|].
  split; [discriminate|]. split; reflexivity.
Qed.
Print Assumptions C107_identifier_refuted.
(* Full statement is false: an attribute with neither flag has no data stream. Seeking then
   succeeds from anywhere to anywhere, without effect, and get_offset succeeds without setting
   the offset. *)
Theorem C107_attribute_object_refuted : exists (tie : list Z -> list Z -> Prop) h t recs dev id i l a s st,
  (forall a b c, tie a b -> tie b c -> tie a c) /\ fs_tree tie h t recs /\ attributes recs id l /\ In (a, s) l /\
  x_calls (mk_fe t dev None id i None) a [XSize; XSeek 7 99; XOffset; XSeek 5 0; XOffset] x_init = Ok ([XInt 0; XInt 7; XUnset; XInt 5; XUnset], st).
Proof.
  exists fx_tie, 0%nat, fa_fs, fa_recs, fy_dev, 16, (fy_value (fy_inode 16 0)), [(fa_a, [97]); (fa_b, [98]); (fa_c, [99])], fa_c, [99], x_init.
  split; [unfold fx_tie; intros; lia|]. split; [exact fa_tree|]. split; [exact fa_attributes|]. split; [do 2 right; left; reflexivity|]. reflexivity.
Qed.
Print Assumptions C107_attribute_object_refuted.
