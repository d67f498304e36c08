(* Proofs about the record parsers. *)
From Verif Require Import Base BaseLemmas At BTreeProofs Records RecordsSpec.
Ltac Zify.zify_post_hook ::= Z.div_mod_to_equations.

(* ---- safety ---- *)

Ltac fstep :=
  match goal with
  | |- fine (bind (check _) _) =>
      let H := fresh "HC" in
      apply fine_bind; [apply fine_check|]; let u := fresh "u" in intros u H; apply check_ok in H
  | |- fine (bind (rd_le _ _ _) _) =>
      let H := fresh "HR" in
      apply fine_bind; [apply fine_rd_le; lia|]; let v := fresh "v" in intros v H
  | |- fine (bind (rd _ _ _) _) =>
      let H := fresh "HR" in
      apply fine_bind; [apply fine_rd; lia|]; let v := fresh "v" in intros v H
  | |- fine (rd_le _ _ _) => apply fine_rd_le; lia
  | |- fine (rd _ _ _) => apply fine_rd; lia
  | |- fine (check _) => apply fine_check
  | |- fine (Ok _) => exact I
  | |- fine Fail => exact I
  | |- fine (if ?b then _ else _) => let E := fresh "E" in destruct b eqn:E
  end.

Lemma land_ones_range x n : 0 <= n -> 0 <= Z.land x (2 ^ n - 1) < 2 ^ n.
Proof. intros H. replace (2 ^ n - 1) with (Z.ones n) by (rewrite Z.ones_equiv; lia). rewrite Z.land_ones by lia. apply Z.mod_pos_bound. lia. Qed.

Lemma dir_key_safe data : bytes data -> fine (dir_key data).
Proof.
  intros HB. unfold dir_key. cbv zeta. fstep. fstep.
  apply fine_bind.
  - repeat fstep.
  - intros ((ns & h) & off) H.
    assert (0 <= ns /\ 0 <= off) as (Hn & Ho).
    { destruct (Z.land v 1023 <? len data - 10).
      - apply bind_ok in H. destruct H as (u1 & H1 & H). apply bind_ok in H. destruct H as (x & H2 & H).
        assert (ns = Z.land x 1023) as -> by congruence. assert (off = 12) as -> by congruence.
        pose proof (land_ones_range x 10). change (2 ^ 10 - 1) with 1023 in H0. lia.
      - assert (ns = Z.land v 1023) as -> by congruence. assert (off = 10) as -> by congruence.
        pose proof (land_ones_range v 10). change (2 ^ 10 - 1) with 1023 in H0. lia. }
    repeat fstep.
Qed.

Lemma fine_getb {A} (l : list A) i : 0 <= i < len l -> fine (getb l i).
Proof. intros H. destruct (getb_in l i H) as (b & -> & _). exact I. Qed.

Lemma xf_next_bounds size voff vs : 18 <= size -> 0 <= voff -> 0 <= vs -> voff + vs <= size ->
  voff + vs <= xf_next size voff vs <= size.
Proof.
  intros. unfold xf_next. cbv zeta. destruct (Z.ltb_spec 0 (vs mod 8)); [|lia].
  destruct (Z.ltb_spec (size - (8 - vs mod 8)) (voff + vs)); lia.
Qed.

Lemma xf_loop_safe {A} (step : A -> Z -> list Z -> res A) empty data :
  18 <= len data -> bytes data -> (forall acc ty v, bytes v -> fine (step acc ty v)) ->
  forall n off voff acc, 0 <= off -> 0 <= voff -> fine (xf_loop step empty data n off voff acc).
Proof.
  intros Hl HB Hs. induction n as [|n IH]; intros off voff acc Ho Hv; [exact I|].
  cbn [xf_loop]. cbv zeta. fstep. apply fine_bind; [apply fine_getb; lia|]. intros ty Hty.
  fstep. pose proof (le2_range _ _ _ HB HR). fstep. fstep. fstep. fstep.
  apply fine_bind.
  - apply Hs. apply rd_ok in HR0. destruct HR0 as (_ & _ & _ & ->). apply bytes_slice; auto.
  - intros acc' _. apply IH; [lia|].
    pose proof (xf_next_bounds (len data) voff v). lia.
Qed.

Lemma xf_parse_safe {A} (step : A -> Z -> list Z -> res A) empty fixed data acc :
  18 <= fixed -> bytes data -> (forall acc ty v, bytes v -> fine (step acc ty v)) ->
  fine (xf_parse step empty fixed data acc).
Proof.
  intros Hf HB Hs. unfold xf_parse. fstep; [|exact I]. fstep. fstep. pose proof (le2_range _ _ _ HB HR).
  apply xf_loop_safe; auto; lia.
Qed.

Lemma dir_value_safe data : bytes data -> fine (dir_value data).
Proof.
  intros HB. unfold dir_value. repeat fstep. apply fine_bind.
  - apply xf_parse_safe; auto; try lia. intros. apply fine_check.
  - intros; exact I.
Qed.

Lemma inode_key_safe data : fine (inode_key data).
Proof. unfold inode_key. repeat fstep. Qed.

Lemma inode_step_safe acc ty v : fine (inode_step acc ty v).
Proof.
  destruct acc as ((name & size) & dev). unfold inode_step.
  destruct (existsb (Z.eqb ty) [1; 2; 3; 5; 7; 10; 11; 13; 15]); [exact I|].
  fstep; [destruct name; exact I|]. repeat fstep.
Qed.

Lemma inode_value_safe data : bytes data -> fine (inode_value data).
Proof.
  intros HB. unfold inode_value. repeat fstep. apply fine_bind.
  - apply xf_parse_safe; auto; try lia. intros. apply inode_step_safe.
  - intros ((x & y) & z) _. exact I.
Qed.

Lemma extent_key_safe data : fine (extent_key data).
Proof. unfold extent_key. repeat fstep. Qed.
Lemma extent_value_safe data : fine (extent_value data).
Proof. unfold extent_value. repeat fstep. Qed.
Lemma attr_key_safe data : bytes data -> fine (attr_key data).
Proof. intros HB. unfold attr_key. fstep. fstep. pose proof (le2_range _ _ _ HB HR). repeat fstep. Qed.
Lemma attr_value_safe data : bytes data -> fine (attr_value data).
Proof.
  intros HB. unfold attr_value. fstep. fstep. fstep. pose proof (le2_range _ _ _ HB HR0). repeat fstep.
Qed.
Lemma snap_key_safe data : fine (snap_key data).
Proof. apply fine_check. Qed.
Lemma snap_value_safe data : bytes data -> fine (snap_value data).
Proof.
  intros HB. unfold snap_value. fstep. fstep. fstep. pose proof (le2_range _ _ _ HB HR0). repeat fstep.
Qed.

(* ---- round trips ---- *)

Lemma check_true b : b = true -> check b = Ok tt.
Proof. intros ->. reflexivity. Qed.

Lemma key_head_len ty id : len (key_head ty id) = 8.
Proof. unfold key_head. rewrite le_enc_len. reflexivity. Qed.

Ltac lens := rewrite ?len_app, ?key_head_len, ?le_enc_len, ?zeros_len; change (Z.of_nat 1) with 1; change (Z.of_nat 2) with 2; change (Z.of_nat 4) with 4; change (Z.of_nat 8) with 8.

(* splits a hypothesis at_ l off (a ++ b ++ ...) into the parts *)
Ltac at_split H :=
  match type of H with
  | at_ _ _ (_ ++ _) =>
      let H1 := fresh "AT" in let H2 := fresh "AT" in
      apply at_app in H; destruct H as (H1 & H2);
      rewrite ?key_head_len, ?le_enc_len in H2;
      at_split H1; at_split H2
  | _ => idtac
  end.
Ltac at_done :=
  match goal with
  | H : at_ ?l ?o ?s |- at_ ?l _ ?s => apply (at_eq _ _ _ _ H); lia
  end.
Ltac rdl k v := rewrite (at_rd_le _ _ k v _); [|at_done|reflexivity|try lia]; cbn [bind].

Lemma dir_key_plain_ok id name : 1 <= len name <= 1023 ->
  dir_key (dir_key_plain id name) = Ok (name, 0).
Proof.
  intros Hn. pose proof (at_self (dir_key_plain id name)) as A.
  assert (L : len (dir_key_plain id name) = 10 + len name) by (unfold dir_key_plain; lens; lia).
  remember (dir_key_plain id name) as d eqn:Ed. rewrite Ed in A at 2. unfold dir_key_plain in A. at_split A.
  unfold dir_key. cbv zeta. rewrite check_true by lia. cbn [bind].
  rdl 2%nat (len name).
  assert (E : Z.land (len name) 1023 = len name).
  { change 1023 with (Z.ones 10). rewrite Z.land_ones by lia. rewrite Z.mod_small; lia. }
  rewrite E. destruct (Z.ltb_spec (len name) (len d - 10)); [lia|]. cbn [bind].
  rewrite check_true by lia. cbn [bind]. rewrite check_true by lia. cbn [bind].
  rewrite (at_rd _ _ name); [reflexivity|at_done|reflexivity].
Qed.

Lemma dir_key_hashed_ok id hash name : 1 <= len name <= 1023 -> 0 <= hash < 2 ^ 22 ->
  dir_key (dir_key_hashed id hash name) = Ok (name, hash).
Proof.
  intros Hn Hh. pose proof (at_self (dir_key_hashed id hash name)) as A.
  assert (L : len (dir_key_hashed id hash name) = 12 + len name) by (unfold dir_key_hashed; lens; lia).
  remember (dir_key_hashed id hash name) as d eqn:Ed. rewrite Ed in A at 2. unfold dir_key_hashed in A. at_split A.
  set (h := hash * 2 ^ 10 + len name) in *.
  assert (Hr : 0 <= h < 256 ^ 4) by (change (256 ^ 4) with (2 ^ 32); subst h; lia).
  assert (E1 : rd_le 2 d 8 = Ok (h mod 2 ^ 16)).
  { replace (le_enc 4 h) with (le_enc 2 (h mod 2 ^ 16) ++ le_enc 2 (h / 2 ^ 16)) in *.
    - apply at_app in AT1. destruct AT1 as (X & _). rewrite (at_rd_le _ _ 2%nat (h mod 2 ^ 16) _); [reflexivity| |reflexivity|].
      + apply (at_eq _ _ _ _ X); lia.
      + change (256 ^ Z.of_nat 2) with (2 ^ 16). lia.
    - cbn [le_enc app]. f_equal; [|f_equal]; try (f_equal; lia).
      all: try lia. f_equal; [lia|f_equal; lia]. }
  assert (E : forall x, Z.land x 1023 = x mod 2 ^ 10).
  { intros x. change 1023 with (Z.ones 10). rewrite Z.land_ones by lia. reflexivity. }
  assert (E2 : (h mod 2 ^ 16) mod 2 ^ 10 = len name) by (subst h; lia).
  assert (E3 : h mod 2 ^ 10 = len name) by (subst h; lia).
  unfold dir_key. cbv zeta. rewrite check_true by lia. cbn [bind]. rewrite E1. cbn [bind].
  rewrite E, E2. destruct (Z.ltb_spec (len name) (len d - 10)); [|lia].
  rewrite check_true by lia. cbn [bind]. rdl 4%nat h. rewrite E, E3.
  rewrite check_true by lia. cbn [bind]. rewrite check_true by lia. cbn [bind].
  rewrite (at_rd _ _ name); [|at_done|reflexivity]. cbn [bind]. do 2 f_equal.
  rewrite Z.shiftr_land. change (Z.shiftr 4294966272 10) with (Z.ones 22). rewrite Z.land_ones by lia.
  rewrite Z.shiftr_div_pow2 by lia. subst h. lia.
Qed.

Fixpoint xf_fold {A} (step : A -> Z -> list Z -> res A) (acc : A) (xs : list xfield) : res A :=
  match xs with
  | [] => Ok acc
  | x :: r => let! a := step acc (xf_type x) (xf_data x) in xf_fold step a r
  end.

Lemma xf_desc_len x : len (xf_desc x) = 4.
Proof. unfold xf_desc. rewrite len_app, le_enc_len. reflexivity. Qed.
Lemma xf_descs_len xs : len (concat (map xf_desc xs)) = 4 * len xs.
Proof.
  induction xs as [|x xs IH]; [reflexivity|]. cbn [map concat]. rewrite len_app, xf_desc_len, IH, len_cons. lia.
Qed.
Lemma xf_padded_len x : len (xf_padded x) = len (xf_data x) + (8 - len (xf_data x) mod 8) mod 8.
Proof. unfold xf_padded, xf_pad. rewrite len_app, zeros_len; lia. Qed.

Lemma xf_next_padded size voff vs : 0 <= vs -> voff + vs + (8 - vs mod 8) mod 8 <= size ->
  xf_next size voff vs = voff + vs + (8 - vs mod 8) mod 8.
Proof.
  intros Hv H. unfold xf_next. cbv zeta. destruct (Z.ltb_spec 0 (vs mod 8)); [|lia].
  destruct (Z.ltb_spec (size - (8 - vs mod 8)) (voff + vs)); lia.
Qed.

Lemma getb_at l off b r : at_ l off (b :: r) -> getb l off = Ok b.
Proof.
  intros (p & q & -> & ->). unfold getb. pose proof (len_nonneg p). pose proof (len_nonneg r). pose proof (len_nonneg q).
  destruct (Z.leb_spec 0 (len p)); [|lia].
  destruct (Z.ltb_spec (len p) (len (p ++ (b :: r) ++ q))) as [|X]; [|rewrite !len_app, len_cons in X; lia].
  cbn [andb]. rewrite nth_error_app2 by (unfold len; lia).
  replace (Z.to_nat (len p) - length p)%nat with 0%nat by (unfold len; lia). reflexivity.
Qed.

Lemma xf_loop_fold {A} (step : A -> Z -> list Z -> res A) empty data full :
  18 <= len data ->
  forall xs off voff acc, Forall xf_ok xs ->
  (empty = true \/ Forall (fun x => xf_data x <> []) xs) ->
  at_ data off (concat (map xf_desc xs)) -> at_ data voff (xf_values full xs) ->
  off + 4 * len xs <= voff ->
  xf_loop step empty data (length xs) off voff acc = xf_fold step acc xs.
Proof.
  intros Hd. induction xs as [|x xs IH]; intros off voff acc Hok He Ha Hv Hle; [reflexivity|].
  pose proof (Forall_inv Hok) as (Ht & Hf & Hl). apply Forall_inv_tail in Hok.
  cbn [map concat] in Ha. apply at_app in Ha. destruct Ha as (Hdesc & Ha). rewrite xf_desc_len in Ha.
  pose proof (len_nonneg (xf_data x)) as Hnn.
  assert (V : at_ data voff (xf_data x) /\
              (xs <> [] -> at_ data (voff + len (xf_padded x)) (xf_values full xs) /\
                voff + len (xf_padded x) <= len data)).
  { cbn [xf_values] in Hv. destruct xs as [|y ys].
    - split; [|congruence]. destruct full; [|exact Hv]. unfold xf_padded in Hv. apply at_app in Hv. tauto.
    - apply at_app in Hv. destruct Hv as (V1 & V2). split.
      + unfold xf_padded in V1. apply at_app in V1. tauto.
      + intros _. split; auto. pose proof (at_bounds _ _ _ V1). lia. }
  destruct V as (V1 & V2). pose proof (at_bounds _ _ _ V1) as BV. pose proof (at_bounds _ _ _ Hdesc) as BD.
  rewrite xf_desc_len in BD.
  cbn [length xf_loop xf_fold]. cbv zeta. rewrite check_true by lia. cbn [bind].
  rewrite (getb_at _ _ (xf_type x) (xf_flags x :: le_enc 2 (len (xf_data x)))) by exact Hdesc. cbn [bind].
  unfold xf_desc in Hdesc. apply at_app in Hdesc. destruct Hdesc as (_ & Hsz). change (len [xf_type x; xf_flags x]) with 2 in Hsz.
  rewrite (at_rd_le _ _ 2%nat (len (xf_data x)) _) by (auto; change (256 ^ Z.of_nat 2) with (2 ^ 16); lia). cbn [bind].
  rewrite check_true by lia. cbn [bind].
  rewrite check_true.
  2:{ destruct He as [->|He]; [reflexivity|]. apply Forall_inv in He. destruct (xf_data x) as [|b0 l0]; [congruence|]. rewrite len_cons. pose proof (len_nonneg l0). lia. }
  cbn [bind]. rewrite check_true by lia. cbn [bind].
  rewrite (at_rd _ _ (xf_data x)) by auto. cbn [bind].
  destruct (step acc (xf_type x) (xf_data x)) as [a| | |]; try reflexivity. cbn [bind].
  destruct xs as [|y ys]; [reflexivity|].
  destruct V2 as (V2 & V3); [congruence|]. rewrite xf_padded_len in V2, V3.
  rewrite xf_next_padded by lia. apply IH; auto.
  - destruct He as [He|He]; [left; auto|right]. apply Forall_inv_tail in He. auto.
  - apply (at_eq _ _ _ _ V2). lia.
  - rewrite len_cons in Hle. lia.
Qed.

Lemma xf_parse_fold {B} (step : B -> Z -> list Z -> res B) empty head used full xs acc :
  18 <= len head -> len xs < 2 ^ 16 -> Forall xf_ok xs ->
  (empty = true \/ Forall (fun x => xf_data x <> []) xs) ->
  xf_parse step empty (len head) (head ++ xf_blob_opt used full xs) acc = xf_fold step acc xs.
Proof.
  intros Hh Hn Hok He. pose proof (len_nonneg xs) as Hxs. unfold xf_parse.
  destruct xs as [|x xs'].
  - cbn [xf_blob_opt]. rewrite app_nil_r, Z.ltb_irrefl. reflexivity.
  - cbn [xf_blob_opt]. remember (x :: xs') as xs eqn:Exs. clear Exs x xs'.
    pose proof (at_self (head ++ xf_blob used full xs)) as A.
    assert (L : len (head ++ xf_blob used full xs) = len head + 4 + 4 * len xs + len (xf_values full xs)).
    { unfold xf_blob. rewrite !len_app, !le_enc_len, xf_descs_len. lia. }
    pose proof (len_nonneg (xf_values full xs)).
    remember (head ++ xf_blob used full xs) as d eqn:Ed. rewrite Ed in A at 2.
    apply at_app in A. destruct A as (_ & A). unfold xf_blob in A.
    apply at_app in A. destruct A as (A1 & A). apply at_app in A. destruct A as (_ & A).
    apply at_app in A. destruct A as (A2 & A3). rewrite !le_enc_len in *. rewrite xf_descs_len in A3.
    destruct (Z.ltb_spec (len head) (len d)); [|lia].
    rewrite check_true by lia. cbn [bind].
    rewrite (at_rd_le _ _ 2%nat (len xs) _) by (auto; change (256 ^ Z.of_nat 2) with (2 ^ 16); lia). cbn [bind].
    replace (Z.to_nat (len xs)) with (length xs) by (unfold len; lia).
    apply (xf_loop_fold step empty d full); auto; try lia.
    + apply (at_eq _ _ _ _ A2). lia.
    + apply (at_eq _ _ _ _ A3). lia.
Qed.

(* directory record values *)

Lemma dir_fold xs : Forall (fun x => xf_type x = 1) xs -> xf_fold dir_step tt xs = Ok tt.
Proof.
  induction xs as [|x xs IH]; intros H; [reflexivity|]. cbn [xf_fold]. unfold dir_step at 1.
  rewrite (Forall_inv H). cbn [check Z.eqb Pos.eqb bind]. apply IH. apply Forall_inv_tail in H. auto.
Qed.

Lemma dir_value_ok id added flags used full xs :
  0 <= id < 2 ^ 64 -> 0 <= added < 2 ^ 64 -> len xs < 2 ^ 16 -> Forall xf_ok xs -> Forall (fun x => xf_type x = 1) xs ->
  dir_value (dir_value_bytes id added flags used full xs) = Ok (id, added).
Proof.
  intros Hi Ha Hn Hok Ht.
  assert (P : forall h, h = le_enc 8 id ++ le_enc 8 added ++ le_enc 2 flags ->
    dir_value_bytes id added flags used full xs = h ++ xf_blob_opt used full xs).
  { intros h ->. unfold dir_value_bytes. rewrite <- !app_assoc. reflexivity. }
  specialize (P _ eq_refl).
  assert (LH : len (le_enc 8 id ++ le_enc 8 added ++ le_enc 2 flags) = 18) by (rewrite !len_app, !le_enc_len; reflexivity).
  pose proof (xf_parse_fold dir_step true _ used full xs tt (Z.eq_le_incl _ _ (eq_sym LH)) Hn Hok (or_introl eq_refl)) as F.
  rewrite LH, <- P in F.
  pose proof (at_self (dir_value_bytes id added flags used full xs)) as A.
  assert (L : 18 <= len (dir_value_bytes id added flags used full xs)).
  { rewrite P, len_app, LH. pose proof (len_nonneg (xf_blob_opt used full xs)). lia. }
  remember (dir_value_bytes id added flags used full xs) as d eqn:Ed. rewrite Ed in A at 2.
  unfold dir_value_bytes in A. at_split A.
  unfold dir_value. rewrite check_true by lia. cbn [bind]. rdl 8%nat id. rdl 8%nat added.
  rewrite F, dir_fold by auto. reflexivity.
Qed.

(* inode values *)

Lemma find_app_none {A} (p : A -> bool) a b : find p a = None -> find p (a ++ b) = find p b.
Proof.
  induction a as [|x a IH]; cbn; auto. destruct (p x); [discriminate|auto].
Qed.

Definition upd (o : option (list Z)) (f : list Z -> Z) (z : Z) : Z := match o with Some v => f v | None => z end.

Lemma inode_fold : forall xs name size dev,
  Forall inode_xf_ok xs -> NoDup (map xf_type xs) ->
  (name = None \/ ~ In 4 (map xf_type xs)) ->
  xf_fold inode_step (name, size, dev) xs =
    Ok (match xf_find 4 xs with Some v => Some v | None => name end,
        upd (xf_find 8 xs) (fun v => le_val (firstn 8 v)) size,
        upd (xf_find 14 xs) le_val dev).
Proof.
  induction xs as [|x xs IH]; intros name size dev Hok Hnd Hname; [reflexivity|].
  pose proof (Forall_inv Hok) as (Hin & Hne & Hb & H8 & H14). apply Forall_inv_tail in Hok.
  cbn [map] in *. apply NoDup_cons_iff in Hnd. destruct Hnd as (Hnin & Hnd).
  assert (NF : forall ty, ty = xf_type x -> xf_find ty xs = None).
  { intros ty ->. unfold xf_find. destruct (find _ xs) as [y|] eqn:E; auto. exfalso. apply find_some in E.
    destruct E as (E1 & E2). apply Hnin. apply in_map_iff. exists y. split; auto. lia. }
  cbn [xf_fold]. unfold xf_find. cbn [find].
  destruct (Z.eq_dec (xf_type x) 4) as [E4|N4].
  - rewrite E4 in *. unfold inode_step at 1. cbn [existsb Z.eqb Pos.eqb orb].
    destruct Hname as [->|Hname]; [|exfalso; apply Hname; left; auto]. cbn [bind].
    rewrite IH by (auto; right; auto). rewrite (NF 4) by auto. reflexivity.
  - destruct (Z.eq_dec (xf_type x) 8) as [E8|N8].
    + rewrite E8 in *. unfold inode_step at 1. cbn [existsb Z.eqb Pos.eqb orb].
      specialize (H8 eq_refl). rewrite check_true by lia. cbn [bind].
      assert (E : rd_le 8 (xf_data x) 0 = Ok (le_val (firstn 8 (xf_data x)))).
      { rewrite rd_le_in by lia. reflexivity. }
      rewrite E. cbn [bind]. rewrite IH; auto.
      * rewrite (NF 8) by auto. reflexivity.
      * destruct Hname as [->|Hname]; [left; auto|right]. intros X. apply Hname. right; auto.
    + destruct (Z.eq_dec (xf_type x) 14) as [E14|N14].
      * rewrite E14 in *. unfold inode_step at 1. cbn [existsb Z.eqb Pos.eqb orb].
        specialize (H14 eq_refl). rewrite check_true by lia. cbn [bind].
        assert (E : rd_le 4 (xf_data x) 0 = Ok (le_val (xf_data x))).
        { rewrite rd_le_in by lia. rewrite <- H14, slice_0_all by lia. reflexivity. }
        rewrite E. cbn [bind]. rewrite IH; auto.
        -- rewrite (NF 14) by auto. reflexivity.
        -- destruct Hname as [->|Hname]; [left; auto|right]. intros X. apply Hname. right; auto.
      * assert (E : inode_step (name, size, dev) (xf_type x) (xf_data x) = Ok (name, size, dev)).
        { unfold inode_step. unfold inode_types in Hin.
          assert (existsb (Z.eqb (xf_type x)) [1; 2; 3; 5; 7; 10; 11; 13; 15] = true) as ->; [|reflexivity].
          apply existsb_exists. exists (xf_type x). split; [|lia]. cbn in Hin |- *. intuition. }
        rewrite E. cbn [bind]. rewrite IH; auto.
        -- unfold xf_find. destruct (Z.eqb_spec (xf_type x) 4); [lia|]. destruct (Z.eqb_spec (xf_type x) 8); [lia|].
           destruct (Z.eqb_spec (xf_type x) 14); [lia|]. reflexivity.
        -- destruct Hname as [->|Hname]; [left; auto|right]. intros X. apply Hname. right; auto.
Qed.

Lemma inode_value_ok s used full xs :
  stored_ok s -> len xs < 2 ^ 16 -> Forall xf_ok xs -> Forall inode_xf_ok xs -> NoDup (map xf_type xs) ->
  inode_value (inode_value_bytes s used full xs) =
    Ok {| in_parent := st_parent_id s; in_stream := st_private_id s;
          in_mtime := st_create_time s; in_created := st_mod_time s;
          in_changed := st_change_time s; in_access := st_access_time s;
          in_flags := st_internal_flags s; in_links := st_nlink s;
          in_owner := st_uid s; in_group := st_gid s; in_mode := st_mode s;
          in_name := xf_find 4 xs; in_size := stored_size xs; in_device := stored_device xs |}.
Proof.
  intros ((R1 & R2 & R3 & R4 & R5 & R6 & R7 & R8) & R9 & R10 & R11) Hn Hok Hix Hnd.
  set (h := le_enc 8 (st_parent_id s) ++ le_enc 8 (st_private_id s) ++
    le_enc 8 (st_create_time s) ++ le_enc 8 (st_mod_time s) ++
    le_enc 8 (st_change_time s) ++ le_enc 8 (st_access_time s) ++
    le_enc 8 (st_internal_flags s) ++ le_enc 4 (st_nlink s) ++
    le_enc 4 (st_protection_class s) ++ le_enc 4 (st_write_generation s) ++
    le_enc 4 (st_bsd_flags s) ++ le_enc 4 (st_uid s) ++ le_enc 4 (st_gid s) ++
    le_enc 2 (st_mode s) ++ le_enc 2 (st_pad1 s) ++ le_enc 8 (st_pad2 s)).
  assert (P : inode_value_bytes s used full xs = h ++ xf_blob_opt used full xs).
  { subst h. unfold inode_value_bytes. rewrite <- !app_assoc. reflexivity. }
  assert (LH : len h = 92) by (subst h; rewrite !len_app, !le_enc_len; reflexivity).
  assert (Hne : Forall (fun x => xf_data x <> []) xs).
  { eapply Forall_impl; [|exact Hix]. intros x X. apply X. }
  assert (F : xf_parse inode_step false 92 (inode_value_bytes s used full xs) (None, 0, 0) =
              Ok (xf_find 4 xs, stored_size xs, stored_device xs)).
  { rewrite P, <- LH, xf_parse_fold by (auto; lia). rewrite inode_fold by auto.
    unfold stored_size, stored_device, upd. destruct (xf_find 4 xs); reflexivity. }
  pose proof (at_self (inode_value_bytes s used full xs)) as A.
  assert (L : 92 <= len (inode_value_bytes s used full xs)).
  { rewrite P, len_app, LH. pose proof (len_nonneg (xf_blob_opt used full xs)). lia. }
  clear P LH h.
  remember (inode_value_bytes s used full xs) as d eqn:Ed. rewrite Ed in A at 2.
  unfold inode_value_bytes in A. at_split A.
  unfold inode_value. rewrite check_true by lia. cbn [bind].
  rdl 8%nat (st_parent_id s). rdl 8%nat (st_private_id s). rdl 8%nat (st_create_time s). rdl 8%nat (st_mod_time s).
  rdl 8%nat (st_change_time s). rdl 8%nat (st_access_time s). rdl 8%nat (st_internal_flags s). rdl 4%nat (st_nlink s).
  rdl 4%nat (st_uid s). rdl 4%nat (st_gid s). rdl 2%nat (st_mode s).
  rewrite F. cbn [bind]. reflexivity.
Qed.

Lemma inode_key_ok ty id rest : 0 <= ty < 16 -> 0 <= id < 2 ^ 60 -> inode_key (key_head ty id ++ rest) = Ok id.
Proof.
  intros Ht Hi. unfold inode_key, key_head. pose proof (len_nonneg rest).
  rewrite check_true by (rewrite len_app, le_enc_len; lia). cbn [bind].
  rewrite (at_rd_le _ _ 8%nat (key_word ty id) _).
  - cbn [bind]. change 1152921504606846975 with (Z.ones 60). rewrite Z.land_ones by lia. unfold key_word. f_equal. lia.
  - exists [], rest. auto.
  - reflexivity.
  - unfold key_word. change (256 ^ Z.of_nat 8) with (2 ^ 64). lia.
Qed.

(* extents *)
Lemma extent_key_ok id off : 0 <= off < 2 ^ 64 -> extent_key (extent_key_bytes id off) = Ok off.
Proof.
  intros H. pose proof (at_self (extent_key_bytes id off)) as A.
  assert (L : len (extent_key_bytes id off) = 16) by (unfold extent_key_bytes; lens; lia).
  remember (extent_key_bytes id off) as d eqn:Ed. rewrite Ed in A at 2. unfold extent_key_bytes in A. at_split A.
  unfold extent_key. rewrite check_true by lia. cbn [bind]. rdl 8%nat off. reflexivity.
Qed.
Lemma extent_value_ok flags size block crypto :
  0 <= flags < 2 ^ 8 -> 0 <= size < 2 ^ 56 -> 0 <= block < 2 ^ 64 -> 0 <= crypto < 2 ^ 64 ->
  extent_value (extent_value_bytes flags size block crypto) = Ok (size, block, crypto).
Proof.
  intros H1 H2 H3 H4. pose proof (at_self (extent_value_bytes flags size block crypto)) as A.
  assert (L : len (extent_value_bytes flags size block crypto) = 24) by (unfold extent_value_bytes; lens; lia).
  remember (extent_value_bytes flags size block crypto) as d eqn:Ed. rewrite Ed in A at 2. unfold extent_value_bytes in A. at_split A.
  unfold extent_value. rewrite check_true by lia. cbn [bind]. rdl 8%nat (flags * 2 ^ 56 + size). rdl 8%nat block. rdl 8%nat crypto.
  change 72057594037927935 with (Z.ones 56). rewrite Z.land_ones by lia. do 3 f_equal. lia.
Qed.

(* extended attributes *)
Lemma attr_key_ok id name : 1 <= len name < 2 ^ 16 -> attr_key (attr_key_bytes id name) = Ok name.
Proof.
  intros Hn. pose proof (at_self (attr_key_bytes id name)) as A.
  assert (L : len (attr_key_bytes id name) = 10 + len name) by (unfold attr_key_bytes; lens; lia).
  remember (attr_key_bytes id name) as d eqn:Ed. rewrite Ed in A at 2. unfold attr_key_bytes in A. at_split A.
  unfold attr_key. rewrite check_true by lia. cbn [bind]. rdl 2%nat (len name).
  rewrite check_true by lia. cbn [bind]. rewrite check_true by lia. cbn [bind].
  rewrite (at_rd _ _ name); [reflexivity|at_done|reflexivity].
Qed.
Lemma attr_inline_ok v : 1 <= len v < 2 ^ 16 -> attr_value (attr_inline_bytes v) = Ok (2, AInline v).
Proof.
  intros Hn. pose proof (at_self (attr_inline_bytes v)) as A.
  assert (L : len (attr_inline_bytes v) = 4 + len v) by (unfold attr_inline_bytes; lens; lia).
  remember (attr_inline_bytes v) as d eqn:Ed. rewrite Ed in A at 2. unfold attr_inline_bytes in A. at_split A.
  unfold attr_value. rewrite check_true by lia. cbn [bind]. rdl 2%nat 2. rdl 2%nat (len v).
  rewrite check_true by lia. cbn [bind]. cbn [Z.land Pos.land Z.eqb negb andb].
  destruct (Z.ltb_spec 0 (len v)); [|lia]. change (if negb (Z.land 2 1 =? 0) then _ else ?x) with x.
  rewrite (at_rd _ _ v); [reflexivity|at_done|reflexivity].
Qed.
Lemma attr_stream_ok id size alloc crypto written read : 0 <= id < 2 ^ 64 -> 0 <= size < 2 ^ 64 ->
  attr_value (attr_stream_bytes id size alloc crypto written read) = Ok (1, AStream id size).
Proof.
  intros H1 H2. pose proof (at_self (attr_stream_bytes id size alloc crypto written read)) as A.
  assert (L : len (attr_stream_bytes id size alloc crypto written read) = 52) by (unfold attr_stream_bytes; lens; lia).
  remember (attr_stream_bytes id size alloc crypto written read) as d eqn:Ed. rewrite Ed in A at 2. unfold attr_stream_bytes in A. at_split A.
  unfold attr_value. rewrite check_true by lia. cbn [bind]. rdl 2%nat 1. rdl 2%nat 48.
  rewrite check_true by lia. cbn [bind]. change (negb (Z.land 1 1 =? 0)) with true. cbv iota.
  rewrite check_true by lia. cbn [bind]. rdl 8%nat id. rdl 8%nat size. reflexivity.
Qed.

(* ---- device numbers ---- *)

Lemma land_0_iff a b : (forall i, 0 <= i -> Z.testbit a i = true -> Z.testbit b i = true -> False) -> Z.land a b = 0.
Proof.
  intros H. apply Z.bits_inj'. intros i Hi. rewrite Z.land_spec, Z.bits_0.
  destruct (Z.testbit a i) eqn:E1, (Z.testbit b i) eqn:E2; auto. exfalso. eapply H; eauto.
Qed.
Lemma file_type_mode mode : Z.land mode 61440 = 2 ^ 12 * file_type mode.
Proof.
  unfold file_type. apply Z.bits_inj'. intros i Hi. rewrite Z.land_spec.
  change 61440 with (Z.shiftl (Z.ones 4) 12). rewrite Z.shiftl_spec by lia.
  rewrite (Z.mul_comm (2 ^ 12)), <- Z.shiftl_mul_pow2 by lia. rewrite Z.shiftl_spec by lia.
  rewrite <- Z.land_ones by lia. rewrite <- Z.shiftr_div_pow2 by lia. rewrite Z.land_spec.
  destruct (Z.ltb_spec i 12).
  - rewrite !(Z.testbit_neg_r _ (i - 12)) by lia. rewrite !andb_false_r. reflexivity.
  - rewrite Z.shiftr_spec by lia. replace (i - 12 + 12) with i by lia. reflexivity.
Qed.
Lemma hi16 d : 0 <= d < 2 ^ 32 -> Z.land d 4294901760 = 2 ^ 16 * (d / 2 ^ 16).
Proof.
  intros H. apply Z.bits_inj'. intros i Hi. rewrite Z.land_spec.
  change 4294901760 with (Z.shiftl (Z.ones 16) 16). rewrite Z.shiftl_spec by lia.
  rewrite (Z.mul_comm (2 ^ 16)), <- Z.shiftl_mul_pow2 by lia. rewrite Z.shiftl_spec by lia.
  rewrite <- Z.shiftr_div_pow2 by lia.
  destruct (Z.ltb_spec i 16).
  - rewrite !(Z.testbit_neg_r _ (i - 16)) by lia. apply andb_false_r.
  - rewrite Z.shiftr_spec by lia. replace (i - 16 + 16) with i by lia.
    destruct (Z.ltb_spec i 32).
    + rewrite Z.ones_spec_low by lia. apply andb_true_r.
    + rewrite Z.ones_spec_high by lia. rewrite andb_false_r. symmetry.
      rewrite <- (Z.mod_small d (2 ^ 32)) by lia. apply Z.mod_pow2_bits_high. lia.
Qed.
Lemma mid16 d : Z.land d 16776960 = 2 ^ 8 * ((d / 2 ^ 8) mod 2 ^ 16).
Proof.
  apply Z.bits_inj'. intros i Hi. rewrite Z.land_spec.
  change 16776960 with (Z.shiftl (Z.ones 16) 8). rewrite Z.shiftl_spec by lia.
  rewrite (Z.mul_comm (2 ^ 8)), <- Z.shiftl_mul_pow2 by lia. rewrite Z.shiftl_spec by lia.
  rewrite <- Z.land_ones by lia. rewrite <- Z.shiftr_div_pow2 by lia. rewrite Z.land_spec.
  destruct (Z.ltb_spec i 8).
  - rewrite !(Z.testbit_neg_r _ (i - 8)) by lia. rewrite !andb_false_r. reflexivity.
  - rewrite Z.shiftr_spec by lia. replace (i - 8 + 8) with i by lia. reflexivity.
Qed.

Lemma device_number_iff i ma mi : 0 <= in_device i < 2 ^ 32 ->
  inode_device_number i = Some (ma, mi) <->
  (file_type (in_mode i) = 2 \/ file_type (in_mode i) = 6) /\ 0 <= ma < 256 /\ 0 <= mi < 256 /\
  (in_device i = dev_16 ma mi \/ in_device i = dev_native ma mi).
Proof.
  intros Hd. unfold inode_device_number. cbv zeta. rewrite file_type_mode, hi16, mid16 by auto.
  change 255 with (Z.ones 8). rewrite !Z.land_ones, !Z.shiftr_div_pow2 by lia. unfold dev_16, dev_native.
  set (d := in_device i) in *. set (t := file_type (in_mode i)).
  destruct (Z.eqb_spec (2 ^ 12 * t) 8192); destruct (Z.eqb_spec (2 ^ 12 * t) 24576); cbn [orb];
    try (split; [discriminate|intros (H & _); lia]).
  all: destruct (Z.eqb_spec (2 ^ 16 * (d / 2 ^ 16)) 0).
  all: try destruct (Z.eqb_spec (2 ^ 8 * ((d / 2 ^ 8) mod 2 ^ 16)) 0).
  all: split; [intros H; try discriminate|intros (H1 & H2 & H3 & H4)].
  all: try (assert (ma = (d / 2 ^ 8) mod 2 ^ 8 /\ mi = d mod 2 ^ 8) as (-> & ->) by (split; congruence); lia).
  all: try (assert (ma = (d / 2 ^ 24) mod 2 ^ 8 /\ mi = d mod 2 ^ 8) as (-> & ->) by (split; congruence); lia).
  all: try (do 2 f_equal; destruct H4; lia).
  all: exfalso; destruct H4; lia.
Qed.
