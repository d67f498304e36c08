(* Proofs about object map lookups. *)
From Verif Require Import Base BaseLemmas At BTree BTreeSpec BTreeProofs Walk WalkProofs TreeSpec TreeProofs Omap OmapSpec.
Ltac Zify.zify_post_hook ::= Z.div_mod_to_equations.

Lemma node_fine d : bytes d -> fine (read_node d).
Proof. intros H. apply node_safe; auto. Qed.

Definition bytes_image (img : image) : Prop := forall b d, img b = Some d -> bytes d.

Lemma node_entries_bytes d n : bytes d -> read_node d = Ok n -> Forall (fun e => bytes (fst e) /\ bytes (snd e)) (bn_entries n).
Proof.
  intros HB H. destruct (node_safe d HB) as (_ & S). destruct (S n H) as (_ & F). eapply Forall_impl; [|exact F].
  cbn. intros [k v] ((o & H1 & H2 & ->) & (o' & H3 & H4 & ->)). cbn. split; apply bytes_slice; auto.
Qed.

(* a root node has a footer *)
Lemma node_footer d n : read_node d = Ok n -> negb (Z.land (bh_flags (bn_header n)) 1 =? 0) = true -> bn_footer n <> None.
Proof.
  unfold read_node. intros H HF.
  repeat (apply bind_ok in H; destruct H as (? & _ & H)).
  destruct x0 as (ty & st).
  repeat (apply bind_ok in H; let H' := fresh "B" in destruct H as (? & H' & H)).
  match type of H with Ok ?x = Ok n => assert (EE : x = n) by congruence end. subst n. cbn in *.
  match goal with B : (if negb (Z.land (bh_flags ?h) 1 =? 0) then _ else _) = Ok ?f |- _ => rewrite HF in B; apply bind_ok in B; destruct B as (? & _ & B);
    apply bind_ok in B; destruct B as (? & _ & B) end. congruence.
Qed.

Ltac fine_step := first [apply fine_bind; [|intros ? ?] | apply fine_check | exact I].

Section Safe.
  Variable img : image.
  Hypothesis HI : bytes_image img.

  Lemma read_block_bytes b d : read_block img b = Ok d -> bytes d.
  Proof. unfold read_block. destruct (img b) as [x|] eqn:E; [|discriminate]. intros H. injection H as <-. apply (HI b); auto. Qed.
  Lemma read_block_fine b : fine (read_block img b).
  Proof. unfold read_block. destruct (img b); exact I. Qed.

  Lemma omap_load_root_fine b : fine (omap_load_root img b).
  Proof.
    unfold omap_load_root. apply fine_bind; [apply read_block_fine|]. intros d Hd.
    apply fine_bind; [apply node_fine; eapply read_block_bytes; eauto|]. intros n Hn.
    fine_step; [fine_step|]. fine_step; [fine_step|]. fine_step; [fine_step|].
    apply check_ok in H1. apply andb_prop in H1. destruct H1 as (H1 & _).
    destruct (bn_footer n) eqn:E; [|exfalso; eapply node_footer; eauto].
    repeat fine_step.
  Qed.
  Lemma omap_load_sub_fine b : fine (omap_load_sub img b).
  Proof.
    unfold omap_load_sub. apply fine_bind; [apply read_block_fine|]. intros d Hd.
    apply fine_bind; [apply node_fine; eapply read_block_bytes; eauto|]. intros n Hn. repeat fine_step.
  Qed.
  Lemma omap_load_root_ok b n : omap_load_root img b = Ok (Some n) ->
    exists d, img b = Some d /\ read_node d = Ok n /\ bn_type n = 0x40000002.
  Proof.
    unfold omap_load_root, read_block. intros H. apply bind_ok in H. destruct H as (d & Hd & H).
    apply bind_ok in H. destruct H as (m & Hm & H). apply bind_ok in H. destruct H as ([] & C1 & H).
    apply check_ok in C1.
    apply bind_ok in H. destruct H as (? & _ & H). apply bind_ok in H. destruct H as (? & _ & H).
    destruct (bn_footer m); [|discriminate].
    apply bind_ok in H. destruct H as (? & _ & H). apply bind_ok in H. destruct H as (? & _ & H). apply bind_ok in H. destruct H as (? & _ & H).
    injection H as <-. exists d. destruct (img b); [|discriminate]. injection Hd as <-. repeat split; auto. lia.
  Qed.
  Lemma omap_load_sub_ok b n : omap_load_sub img b = Ok n ->
    exists d, img b = Some d /\ read_node d = Ok n /\ bn_type n = 0x40000003.
  Proof.
    unfold omap_load_sub, read_block. intros H. apply bind_ok in H. destruct H as (d & Hd & H).
    apply bind_ok in H. destruct H as (m & Hm & H). apply bind_ok in H. destruct H as ([] & C1 & H).
    apply check_ok in C1.
    apply bind_ok in H. destruct H as (? & _ & H). apply bind_ok in H. destruct H as (? & _ & H).
    injection H as <-. exists d. destruct (img b); [|discriminate]. injection Hd as <-. repeat split; auto. lia.
  Qed.
  (* a root node is never accepted as a sub node *)
  Lemma omap_disjoint b n : omap_load_root img b = Ok (Some n) -> omap_load_sub img b = Fail.
  Proof.
    intros H. apply omap_load_root_ok in H. destruct H as (d & H1 & H2 & H3).
    unfold omap_load_sub, read_block. rewrite H1. cbn [bind]. rewrite H2. cbn [bind].
    rewrite H3. reflexivity.
  Qed.

  Lemma omap_loop_fine oid t es : forall s, fine (omap_loop oid t es s).
  Proof.
    induction es as [|e es IH]; intros s; cbn [omap_loop]; [exact I|].
    fine_step; [fine_step|]. apply check_ok in H.
    fine_step; [apply fine_rd_le; lia|]. fine_step; [apply fine_rd_le; lia|].
    destruct (_ || _); [exact I|auto].
  Qed.
  Lemma omap_entry_fine oid t n : fine (omap_entry_from_node oid t n).
  Proof.
    unfold omap_entry_from_node. fine_step; [apply omap_loop_fine|]. destruct (is_leaf n); exact I.
  Qed.
  Lemma omap_child_fine e : fine (omap_child e).
  Proof.
    unfold omap_child. destruct e as [e|]; [|exact I]. fine_step; [fine_step|]. apply check_ok in H.
    apply fine_rd_le; lia.
  Qed.
  Lemma omap_walker_fine oid t n : fine (wk_leaf (omap_walker oid t) n) /\ Forall fine (wk_plan (omap_walker oid t) n).
  Proof.
    cbn. split; [apply omap_entry_fine|]. pose proof (omap_entry_fine oid t n) as F.
    destruct (omap_entry_from_node oid t n) as [[e|]| | |]; cbn in F; try contradiction; repeat constructor.
    apply omap_child_fine.
  Qed.
  Lemma omap_finish_fine r : fine (omap_finish r).
  Proof.
    unfold omap_finish. destruct r as [[e|]|]; try exact I. fine_step; [|exact I]. unfold read_odesc.
    fine_step; [fine_step|]. apply check_ok in H. fine_step; [apply fine_rd_le; lia|]. fine_step; [apply fine_rd_le; lia|].
    fine_step; [fine_step|]. apply check_ok in H2. repeat (fine_step; [apply fine_rd_le; lia|]). exact I.
  Qed.

  (* No graph of nodes makes a lookup run on or read outside a buffer. *)
  Theorem omap_lookup_fine rb oid t : fine (omap_lookup img rb oid t).
  Proof.
    unfold omap_lookup. apply fine_bind; [|intros; apply omap_finish_fine].
    apply plain_walk_fine.
    - apply omap_load_root_fine.
    - apply omap_load_sub_fine.
    - intros. apply omap_walker_fine.
    - intros. apply omap_walker_fine.
  Qed.

  Section History.
    Variables (rb : Z) (P : Type) (evict : P -> list (Z * bnode) -> Z -> P * list (Z * bnode)).
    Hypothesis Hevict : forall p l b, incl (snd (evict p l b)) l.
    Notation cons := (consistent (omap_load_root img rb) (omap_load_sub img) rb P).

    Lemma omap_cached_agree oid t c : cons c ->
      cons (snd (omap_lookup_cached img rb evict oid t c)) /\
      fst (omap_lookup_cached img rb evict oid t c) = omap_lookup img rb oid t.
    Proof.
      intros HC. unfold omap_lookup_cached, omap_lookup.
      destruct (walk_agree (omap_load_root img rb) (omap_load_sub img) rb P evict Hevict (omap_disjoint rb) (omap_load_root_fine rb)
        omap_load_sub_fine _ (omap_walker oid t)) with (c := c) as (C' & E); auto.
      - intros. apply omap_walker_fine.
      - intros. apply omap_walker_fine.
      - unfold bindM. destruct (cached_walk _ _ _ _ _ _ _) as [r c'] eqn:E'. cbn [fst snd] in *. rewrite <- E.
        destruct r; cbn; auto.
    Qed.

    (* Any sequence of lookups with a cache gives what single lookups without one give. *)
    Fixpoint omap_session (qs : list (Z * Z)) (c : cache P) : list (res (option odesc)) :=
      match qs with
      | [] => []
      | (oid, t) :: qs => let (r, c') := omap_lookup_cached img rb evict oid t c in r :: omap_session qs c'
      end.
    Theorem omap_session_pure p qs :
      omap_session qs (p, []) = map (fun q => omap_lookup img rb (fst q) (snd q)) qs.
    Proof.
      assert (HC : cons (p, [])) by (intros b n []). revert HC. generalize (p, @nil (Z * bnode)) as c.
      induction qs as [|[oid t] qs IH]; intros c HC; [reflexivity|]. cbn [omap_session map fst snd].
      destruct (omap_cached_agree oid t c HC) as (HC' & E). destruct (omap_lookup_cached img rb evict oid t c) as [r c'].
      cbn [fst snd] in *. subst r. f_equal. apply IH; auto.
    Qed.
  End History.
End Safe.
