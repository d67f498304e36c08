(* C59: opening any device. *)
From Coq Require Import Lia.
From Verif Require Import Base BaseLemmas BTree BTreeProofs Crypt CryptSpec CryptProofs KeyBag KeyBagProofs Omap OmapSpec OmapProofs Container ContainerSpec ContainerProofs ContainerTop PropContainer.
Ltac Zify.zify_post_hook ::= Z.div_mod_to_equations.

Lemma sectors_of n : 0 < n -> forall k l, bytes l -> len l = n * Z.of_nat k -> exists sectors, l = concat sectors /\ Forall (fun s => bytes s /\ len s = n) sectors.
Proof.
  intros Hn. induction k as [|k IH]; intros l B L.
  - exists []. split; [|constructor]. destruct l; [reflexivity|]. rewrite len_cons in L. pose proof (len_nonneg l). lia.
  - destruct (IH (skipn (Z.to_nat n) l)) as (ss & E & F).
    + apply Forall_forall. intros x Hx. unfold bytes in B. rewrite Forall_forall in B. apply B. rewrite <- (firstn_skipn (Z.to_nat n) l). apply in_or_app. auto.
    + unfold len in *. rewrite skipn_length. lia.
    + exists (firstn (Z.to_nat n) l :: ss). cbn [concat]. rewrite <- E. split; [symmetry; apply firstn_skipn|]. constructor; [|exact F]. split.
      * apply Forall_forall. intros x Hx. unfold bytes in B. rewrite Forall_forall in B. apply B. rewrite <- (firstn_skipn (Z.to_nat n) l). apply in_or_app. auto.
      * unfold len in *. rewrite firstn_length. lia.
Qed.
Lemma enc_sectors_bytes (f : Z -> list Z -> list Z) n : (forall m s, bytes s -> len s = n -> bytes (f m s)) ->
  forall ss m, Forall (fun s => bytes s /\ len s = n) ss -> bytes (concat (enc_sectors f m ss)).
Proof.
  intros H. induction ss as [|s ss IH]; intros m F; cbn [enc_sectors concat]; [constructor|]. apply bytes_app. split.
  - apply H; apply (Forall_inv F).
  - apply IH. exact (Forall_inv_tail F).
Qed.

Section Any.
  Variables (dec : list Z -> list Z -> list Z -> list Z) (img : device).
  Hypothesis Hdec : forall id m s, bytes s -> len s = 512 -> bytes (dec id (data_unit m) s) /\ len (dec id (data_unit m) s) = 512.
  Hypothesis D : device_ok img.

  Lemma read_blocks_any : forall n b, fine (read_blocks img b n) /\ forall l, read_blocks img b n = Ok l -> bytes l /\ len l = 4096 * Z.of_nat n.
  Proof.
    induction n as [|n IH]; intros b; cbn [read_blocks].
    - split; [exact I|]. intros l H. assert (l = []) by congruence. subst. split; [constructor|reflexivity].
    - pose proof (read_at_fine img b 4096 ltac:(lia)) as F. destruct (read_at img b 4096) as [d| | |] eqn:E; try contradiction; cbn [bind]; [|split; [exact I|discriminate]].
      destruct (IH (b + 1)) as (F2 & H2). destruct (read_blocks img (b + 1) n) as [l| | |]; try contradiction; cbn [bind]; [|split; [exact I|discriminate]].
      split; [exact I|]. intros l' H. assert (l' = d ++ l) by congruence. subst l'. destruct (H2 l eq_refl) as (B & L).
      apply read_at_ok in E; [|lia]. destruct E as (e & E & _ & Le & ->). destruct (D _ _ E) as (Be & _). split; [apply bytes_app; split; [apply bytes_slice; exact Be|exact B]|].
      rewrite len_app, len_slice by lia. lia.
  Qed.
  Lemma bag_any b n id : fine (container_bag_at dec img b n id).
  Proof.
    unfold container_bag_at. cbv zeta. apply fine_bind; [apply fine_check|]. intros u _.
    apply fine_bind; [unfold seek; apply fine_bind; [apply fine_check|intros; exact I]|]. intros b' _.
    destruct (read_blocks_any (Z.to_nat (w64 (n * 4096) / 4096)) b') as (F & H). apply fine_bind; [exact F|]. intros l E. destruct (H l E) as (B & L).
    destruct (sectors_of 512 ltac:(lia) (8 * Z.to_nat (w64 (n * 4096) / 4096)) l B ltac:(lia)) as (ss & -> & FS).
    rewrite (crypt_ok (dec id) 512 ltac:(lia)); [|intros m s; rewrite tweak_data_unit; intros Bs Ls; apply Hdec; assumption|exact FS|rewrite zeros_len; lia].
    cbn [bind]. apply container_bag_fine. apply bytes_app. split.
    - apply (enc_sectors_bytes _ 512); [|exact FS]. intros m s Bs Ls. rewrite tweak_data_unit. apply Hdec; assumption.
    - assert (X : bytes (zeros (len (concat ss)))) by apply zeros_bytes. unfold bytes in *. rewrite Forall_forall in *. intros x Hx. apply X.
      rewrite <- (firstn_skipn (length (concat ss)) (zeros (len (concat ss)))). apply in_or_app. auto.
  Qed.
  Lemma superblock_at_fine b : fine (superblock_at img b).
  Proof.
    unfold superblock_at. apply fine_bind; [apply read_at_fine; lia|]. intros d E. apply read_at_ok in E; [|lia]. destruct E as (e & E & _ & Le & ->).
    destruct (D _ _ E) as (Be & L4). apply superblock_read_fine; [apply bytes_slice; exact Be|apply len_slice; lia].
  Qed.
  Lemma map_at_fine b : fine (map_at img b).
  Proof.
    unfold map_at. apply fine_bind; [apply read_at_fine; lia|]. intros d E. apply read_at_ok in E; [|lia]. destruct E as (e & E & _ & Le & ->).
    destruct (D _ _ E) as (Be & L4). apply map_read_fine; [apply bytes_slice; exact Be|apply len_slice; lia].
  Qed.
  Lemma omap_at_fine b : fine (omap_at img b).
  Proof.
    unfold omap_at. apply fine_bind; [apply read_at_fine; lia|]. intros d E. apply read_at_ok in E; [|lia]. destruct E as (e & E & _ & Le & ->).
    unfold omap_read. rewrite len_slice by lia. change (88 <=? 88) with true. cbn [check bind].
    rewrite !num_rd by (rewrite ?len_slice by lia; lia). cbn [bind]. apply fine_bind; [apply fine_check|]. intros u _. cbn [bind]. apply fine_bind; [apply fine_check|]. intros; exact I.
  Qed.
  Lemma open_fine : fine (open dec img).
  Proof.
    unfold open. apply fine_bind; [apply superblock_at_fine|]. intros s Es. apply (superblock_at_ok img 0 s D) in Es. destruct Es as (d0 & S0 & _ & ->).
    apply fine_bind; [apply fine_check|]. intros u _. apply fine_bind.
    { apply scan_area_fine; [exact D|]. destruct S0 as (_ & X). unfold superblock_block in X. change (area_size d0 < 2 ^ 31). tauto. }
    intros r _. apply fine_bind; [apply fine_check|]. intros u1 _. apply fine_bind; [apply map_at_fine|]. intros m _. cbv zeta.
    apply fine_bind; [apply fine_check|]. intros u2 _. apply fine_bind; [apply omap_at_fine|]. intros root _. apply fine_bind; [apply fine_check|]. intros u3 _.
    apply fine_bind; [|intros; exact I]. destruct ((0 <? sb_bag (sc_sb r)) && (0 <? sb_bag_size (sc_sb r))); [|exact I].
    apply fine_bind; [apply bag_any|intros; exact I].
  Qed.
End Any.

(* Opening any device ends with a container or an error: no read outside a buffer, no endless
   loop, whatever the blocks contain. *)
Theorem C59_open_any_device : forall dec, (forall id m s, bytes s -> len s = 512 -> bytes (dec id (data_unit m) s) /\ len (dec id (data_unit m) s) = 512) ->
  forall img, device_ok img -> open dec img = Fail \/ exists c, open dec img = Ok c.
Proof. intros dec HD img D. pose proof (open_fine dec img HD D) as F. destruct (open dec img); try contradiction; eauto. Qed.
Print Assumptions C59_open_any_device.
Theorem C59_volume_by_index_any_device : forall dec img c, device_ok img -> open dec img = Ok c ->
  forall i, volume_by_index img c i = Fail \/ exists e, volume_by_index img c i = Ok e.
Proof.
  intros dec img c D E i. destruct (open_selects dec img c D E) as (b & d & (_ & S) & EC).
  assert (F : fine (volume_by_index img c i)).
  { unfold volume_by_index. apply fine_bind; [apply fine_check|]. intros u H. apply check_ok in H.
    assert (L : sb_count (c_sb c) <= len (sb_volumes (c_sb c))).
    { rewrite EC. change (len (volumes d) <= len (slots d)). unfold volumes. generalize (slots d). intros l. unfold len. 
      clear. induction l as [|x l IH]; [reflexivity|]. cbn [filter length]. destruct (negb (x =? 0)); cbn [length]; lia. }
    assert (G : fine (getb (sb_volumes (c_sb c)) i)).
    { unfold getb. replace ((0 <=? i) && (i <? len (sb_volumes (c_sb c)))) with true by lia.
      destruct (nth_error (sb_volumes (c_sb c)) (Z.to_nat i)) eqn:N; [exact I|]. apply nth_error_None in N. unfold len in *. lia. }
    apply fine_bind; [exact G|]. intros oid _. apply fine_bind; [apply omap_lookup_fine|].
    - apply within_bytes. intros b0 d0 X. apply (D b0 d0 X).
    - intros [e|] _; exact I. }
  destruct (volume_by_index img c i); try contradiction; eauto.
Qed.
Print Assumptions C59_volume_by_index_any_device.
(* devices of nonsense, and a container whose descriptor area ends before the device *)
Example C59_example : map (fun img => open (fun _ _ s => s) img) [(fun _ => None); (fun _ => Some []); (fun _ => Some (repeat 255 4096))] = [Fail; Fail; Fail] /\
  open (fun _ _ s => s) (fun b => if b =? 0 then Some sb5 else None) = Fail.
Proof. vm_compute. auto. Qed.
