(* C81 to C83: files, directories and file objects in Python. *)
From Verif Require Import Base BaseLemmas NameSpec CryptSpec PropName TreeSpec OmapSpec RecordsSpec Records FsTree FsSpec DataSpec Compressed CompressedSpec CompressedTop PropCompressed PropFs FileEntry FileSpec FileTop PropFile ToolInfo PyFile PyFileSpec.

(* ---- C81: a file entry as a file object ---- *)
(* The calls that the bindings serve: at most 2^31 - 1 bytes at a time, and no negative size. *)
Definition servable (data : list Z) (c : pcall) : Prop :=
  match c with
  | PyRead (Some n) => 0 <= n < 2 ^ 31
  | PyRead None => len data < 2 ^ 31
  | PyReadAt n off => - 2 ^ 63 <= n < 2 ^ 31 /\ - 2 ^ 63 <= off < 2 ^ 63
  | PySeek off w => - 2 ^ 63 <= off < 2 ^ 63 /\ - 2 ^ 31 <= w < 2 ^ 31
  | _ => True
  end.
Lemma slice_none {A} (l : list A) o n : n <= 0 -> slice l o n = [].
Proof. intros H. unfold slice. replace (Z.to_nat n) with O by lia. reflexivity. Qed.
Lemma py_step_ok lzvn junk e A f I c st pos : follows lzvn junk e A f I -> I st pos -> 0 <= pos -> servable (fl_data f) c ->
  exists st', py_call _ (entry_call lzvn junk e) c st = Ok (fst (file_object (fl_data f) pos c), st') /\ I st' (snd (file_object (fl_data f) pos c)) /\ 0 <= snd (file_object (fl_data f) pos c).
Proof.
  intros (_ & HS & _) HI HP SV. set (data := fl_data f). pose proof (len_nonneg data) as LN.
  assert (RD : forall n st, I st pos -> 0 <= n < 2 ^ 31 -> let d := slice data pos (Z.min n (len data - pos)) in
     exists st', py_read_size _ (entry_call lzvn junk e) (CRead n) n st = Ok (PBytes d, st') /\ I st' (pos + len d) /\ 0 <= pos + len d).
  { intros n s HIs Hn d. unfold py_read_size. destruct (n =? 0) eqn:N0.
    - apply Z.eqb_eq in N0. subst n. assert (d = []) as -> by (unfold d; apply slice_none; lia). exists s. change (len (@nil Z)) with 0. rewrite Z.add_0_r. split; [reflexivity|]. split; [exact HIs|exact HP].
    - replace (n <? 0) with false by lia. replace (2 ^ 31 - 1 <? n) with false by lia.
      destruct (HS (CRead n) s pos HIs) as (s' & G & I'). rewrite G. cbn [bind]. cbn [file_step] in *. fold data in I', G |- *. replace ((0 <=? pos) && (0 <=? n) && (n <=? 2 ^ 63 - 1)) with true in * by lia. cbn [fst snd bytes_or_raise] in *. exists s'. fold d in I' |- *. pose proof (len_nonneg d). split; [reflexivity|]. split; [exact I'|lia]. }
  destruct c as [[n|]|n off|off w| |]; cbn [servable] in SV; cbn [py_call file_object].
  - unfold int64. replace ((- 2 ^ 63 <=? n) && (n <? 2 ^ 63)) with true by lia. replace (n <? 0) with false by lia. cbn [fst snd]. exact (RD n st HI SV).
  - destruct (HS CSize st pos HI) as (s' & G & I'). rewrite G. cbn [bind]. cbn [file_step fst snd] in *. fold data in SV |- *. assert (E : s64 (len data) = len data) by (unfold s64; replace (len data <? 2 ^ 63) with true by lia; reflexivity). rewrite E. exact (RD (len data) s' I' (conj LN SV)).
  - unfold int64. replace (((- 2 ^ 63 <=? n) && (n <? 2 ^ 63)) && ((- 2 ^ 63 <=? off) && (off <? 2 ^ 63))) with true by lia. unfold py_read_size. fold data.
    destruct (n =? 0) eqn:N0; [replace (0 <? n) with false by lia; cbn [andb fst snd]; exists st; split; [reflexivity|]; split; assumption|].
    destruct (n <? 0) eqn:N1; [replace (0 <? n) with false by lia; cbn [andb orb fst snd]; exists st; split; [reflexivity|]; split; assumption|].
    replace (0 <? n) with true by lia. replace (n <=? 2 ^ 31 - 1) with true by lia. cbn [andb orb]. destruct (off <? 0) eqn:N2; [cbn [fst snd]; exists st; split; [reflexivity|]; split; assumption|].
    replace (2 ^ 31 - 1 <? n) with false by lia. destruct (HS (CReadAt off n) st pos HI) as (s' & G & I'). rewrite G. cbn [bind]. cbn [file_step] in *. fold data in I', G |- *. replace ((0 <=? off) && (0 <=? n) && (n <=? 2 ^ 63 - 1)) with true in * by lia. cbn [fst snd bytes_or_raise] in *. exists s'. pose proof (len_nonneg (slice data off (Z.min n (len data - off)))). split; [reflexivity|]. split; [exact I'|lia].
  - unfold int64, int32. replace (((- 2 ^ 63 <=? off) && (off <? 2 ^ 63)) && ((- 2 ^ 31 <=? w) && (w <? 2 ^ 31))) with true by lia.
    destruct (HS (CSeek off w) st pos HI) as (s' & G & I'). rewrite G. cbn [bind]. cbn [file_step] in *. fold data in I', G |- *.
    destruct (w =? 0); [|destruct (w =? 1); [|destruct (w =? 2)]]; try match goal with |- context [if ?b <? 0 then _ else _] => destruct (b <? 0) eqn:B end; cbn [fst snd] in *; exists s'; (split; [reflexivity|]; split; [exact I'|lia]).
  - destruct (HS COffset st pos HI) as (s' & G & I'). rewrite G. cbn [bind file_step fst snd] in *. eauto.
  - destruct (HS CSize st pos HI) as (s' & G & I'). rewrite G. cbn [bind file_step fst snd] in *. eauto.
Qed.
Lemma py_steps_ok lzvn junk e A f I : follows lzvn junk e A f I -> forall cs st pos, I st pos -> 0 <= pos -> Forall (servable (fl_data f)) cs ->
  exists st', py_calls _ (entry_call lzvn junk e) cs st = Ok (file_objects (fl_data f) pos cs, st').
Proof.
  intros HF. induction cs as [|c cs IH]; intros st pos HI HP FA; cbn [py_calls file_objects]; [eauto|].
  destruct (py_step_ok lzvn junk e A f I c st pos HF HI HP (Forall_inv FA)) as (s1 & G & I1 & P1). rewrite G. cbn [bind].
  destruct (file_object (fl_data f) pos c) as (a & pos1). cbn [fst snd] in *. destruct (IH s1 pos1 I1 P1 (Forall_inv_tail FA)) as (s2 & G2). rewrite G2. cbn [bind]. eauto.
Qed.
(* The file of C66, through Python, is a file object of its bytes, whatever the calls. *)
Theorem C81_file_object_partial : forall (tie : list Z -> list Z -> Prop) h t recs dev ctx block lzvn junk id i rec r l f cs,
  (forall a b c, tie a b -> tie b c -> tie a c) -> fs_tree tie h t recs -> 0 <= id < 2 ^ 60 -> In r recs -> has 3 id r = true ->
  volume_data dev ctx block -> (forall d s, len (junk d s) = len s) -> is_file lzvn block recs id i l f ->
  Forall (servable (fl_data f)) cs ->
  exists st, py_calls _ (entry_call lzvn junk (mk_fe t dev ctx id i rec)) cs f_init = Ok (file_objects (fl_data f) 0 cs, st).
Proof.
  intros tie h t recs dev ctx block lzvn junk id i rec r l f cs H1 H2 H3 H4 H5 H6 H7 H8 H9.
  destruct (file_entry_follows tie h t recs dev ctx block lzvn junk id i rec r l f H1 H2 H3 H4 H5 H6 H7 H8) as (I & HI).
  exact (py_steps_ok _ _ _ _ _ _ HI cs f_init 0 (proj1 HI) (Z.le_refl 0) H9).
Qed.
Print Assumptions C81_file_object_partial.
Definition panswers (r : res (list panswer * fstate)) : option (list panswer) := match r with Ok (l, _) => Some l | _ => None end.
Lemma panswers_some r l : panswers r = Some l -> exists st, r = Ok (l, st).
Proof. destruct r as [(x & st)| | |]; cbn [panswers]; try discriminate. intros E. injection E as ->. eauto. Qed.
Definition fpy_calls : list pcall := [PyRead (Some 1); PyTell; PyRead None; PyRead (Some 1); PySeek (-1) 2; PyRead (Some 0); PyRead (Some 7); PyReadAt 5 0; PyReadAt 5 (-1); PySeek (-9) 1; PySize].
Example C81_example : panswers (py_calls _ (entry_call no_lzvn no_junk (fy_entry 17 0)) fpy_calls f_init) =
  Some [PBytes [97]; PInt 1; PBytes [98]; PBytes []; PNone; PBytes []; PBytes [98]; PBytes [97; 98]; PRaise; PRaise; PInt 2].
Proof. vm_compute. reflexivity. Qed.
Example C81_example_servable : Forall (servable [97; 98]) fpy_calls /\ file_objects [97; 98] 0 fpy_calls =
  [PBytes [97]; PInt 1; PBytes [98]; PBytes []; PNone; PBytes []; PBytes [98]; PBytes [97; 98]; PRaise; PRaise; PInt 2].
Proof. split; [|vm_compute; reflexivity]. unfold fpy_calls. repeat (apply Forall_cons; [cbn [servable]; try exact I; try (change (len [97; 98]) with 2); lia|]). apply Forall_nil. Qed.
(* The full statement is false: a negative size is refused, for every file, *)
Theorem C81_read_negative_refuted : exists (tie : list Z -> list Z -> Prop) h t recs dev block id i r l f st,
  (forall a b c, tie a b -> tie b c -> tie a c) /\ fs_tree tie h t recs /\ In r recs /\ has 3 id r = true /\ volume_data dev None block /\ is_file no_lzvn block recs id i l f /\
  file_objects (fl_data f) 0 [PyRead (Some (-1))] = [PBytes [97; 98]] /\
  py_calls _ (entry_call no_lzvn no_junk (mk_fe t dev None id i None)) [PyRead (Some (-1))] f_init = Ok ([PRaise], st).
Proof.
  exists fx_tie, 0%nat, fy, fy_recs, fy_dev, (plain_block fy_dev), 17, (fy_value (fy_inode 17 0)), (fy_inode 17 0), [(mk_at (decmpfs_name ++ [0]) 2 (AInline fy_raw), decmpfs_name)], (mk_file [97; 98] [] 1 None), f_init.
  split; [unfold fx_tie; intros; lia|]. split; [exact fy_tree|]. split; [|split; [vm_compute; reflexivity|split; [constructor|split; [exact C66_instance_compressed|split; [vm_compute; reflexivity|reflexivity]]]]].
  unfold fy_recs. repeat ((left; reflexivity) || right).
Qed.
Print Assumptions C81_read_negative_refuted.
(* and of 2^31 bytes or more nothing is read without a size, wherever the position is. *)
Theorem C81_read_all_refuted : forall lzvn junk e A f I st pos, follows lzvn junk e A f I -> I st pos -> 2 ^ 31 <= len (fl_data f) < 2 ^ 63 ->
  exists st', py_call _ (entry_call lzvn junk e) (PyRead None) st = Ok (PRaise, st') /\ I st' pos.
Proof.
  intros lzvn junk e A f I st pos (_ & HS & _) HI L. cbn [py_call]. destruct (HS CSize st pos HI) as (s' & G & I'). rewrite G. cbn [bind file_step fst snd] in *.
  unfold s64. replace (len (fl_data f) <? 2 ^ 63) with true by lia. unfold py_read_size. replace (len (fl_data f) =? 0) with false by lia. replace (len (fl_data f) <? 0) with false by lia. replace (2 ^ 31 - 1 <? len (fl_data f)) with true by lia. eauto.
Qed.
Print Assumptions C81_read_all_refuted.

(* ---- C82: a Python file object as the source ---- *)
Lemma io_step_ok S data (o : pyobject S) R c s pos : behaves data o R -> R s pos ->
  exists s', io_call S o c s = (Ok (fst (source_step data pos c)), s') /\ R s' (snd (source_step data pos c)).
Proof.
  intros (HL & HB) HR. pose proof (len_nonneg data) as LN. destruct (HB s pos HR) as (HP & HRd & HSk & HTl & HSz).
  assert (SK : forall off w s pos, R s pos -> exists s', match seek_to data pos off w with Some p => obj_seek S o off w s = (Ok tt, s') /\ R s' p | None => obj_seek S o off w s = (Fail, s') /\ R s' pos end).
  { intros off w s0 pos0 R0. destruct (HB s0 pos0 R0) as (_ & _ & K & _). destruct (K off w) as (s1 & K1). unfold obj_seek, seek_to in *.
    destruct (w =? 0) eqn:W0; [cbn [orb]|destruct (w =? 1) eqn:W1; [cbn [orb]|destruct (w =? 2) eqn:W2; cbn [orb]]].
    1-3: match goal with |- context [if ?b then Some _ else None] => destruct b end; destruct K1 as (K1 & K2); exists s1; rewrite K1; split; [reflexivity|exact K2| reflexivity|exact K2].
    exists s0. split; [reflexivity|exact R0]. }
  assert (TL : forall s pos, R s pos -> exists s', obj_tell S o s = (Ok pos, s') /\ R s' pos).
  { intros s0 pos0 R0. destruct (HB s0 pos0 R0) as (P0 & _ & _ & (s1 & K1 & K2) & _). unfold obj_tell. rewrite K1. unfold int64. replace ((- 2 ^ 63 <=? pos0) && (pos0 <? 2 ^ 63)) with true by lia. eauto. }
  destruct c as [n|off w|]; cbn [io_call source_step].
  - unfold io_read. destruct (2 ^ 63 - 1 <? n) eqn:N0; [replace (n <? 2 ^ 63) with false by lia; eauto|]. replace (n <? 2 ^ 63) with true by lia.
    destruct (n <=? 0) eqn:N1.
    + rewrite slice_none by lia. change (len (@nil Z)) with 0. cbn [fst snd]. rewrite Z.add_0_r. eauto.
    + destruct (HRd n ltac:(lia)) as (s' & G & R'). rewrite G. rewrite Z.max_r by lia. cbn [fst snd].
      set (d := slice data pos (Z.min n (len data - pos))) in *. assert (L : len d <= n).
      { unfold d, slice, len. rewrite firstn_length. lia. }
      replace (len d <=? n) with true by lia. eauto.
  - unfold io_seek. destruct (SK off w s pos HR) as (s1 & K). destruct (seek_to data pos off w) as [p|]; destruct K as (K1 & K2); rewrite K1; [|cbn [fst snd]; eauto].
    destruct (TL s1 p K2) as (s2 & T1 & T2). rewrite T1. cbn [fst snd]. eauto.
  - unfold io_size. cbn [fst snd]. destruct (po_size o) as [f|].
    + destruct HSz as (s' & G & R'). rewrite G. replace ((0 <=? len data) && (len data <? 2 ^ 63)) with true by lia. eauto.
    + destruct (TL s pos HR) as (s1 & T1 & T2). rewrite T1. destruct (SK 0 2 s1 pos T2) as (s2 & K). unfold seek_to in K. cbn [Z.eqb Pos.eqb] in K. rewrite Z.add_0_r in K. replace ((0 <=? len data) && (len data <? 2 ^ 63)) with true in K by lia. destruct K as (K1 & K2). rewrite K1.
      destruct (TL s2 _ K2) as (s3 & T3 & T4). rewrite T3. destruct (SK pos 0 s3 _ T4) as (s4 & K). unfold seek_to in K. cbn [Z.eqb] in K. rewrite Z.add_0_l in K. replace ((0 <=? pos) && (pos <? 2 ^ 63)) with true in K by lia. destruct K as (K3 & K4). rewrite K3. cbn [snd].
      exists s4. split; [|exact K4]. unfold w64. rewrite Z.mod_small by lia. reflexivity.
Qed.
(* Through an object that behaves as a file of data, the library reads, seeks in and measures data,
   whatever the calls, and never writes past a buffer. *)
Theorem C82_source_partial : forall S data (o : pyobject S) R s pos cs, behaves data o R -> R s pos ->
  exists s', io_calls S o cs s = (Ok (source_steps data pos cs), s').
Proof.
  intros S data o R s pos cs HB. revert s pos. induction cs as [|c cs IH]; intros s pos HR; cbn [io_calls source_steps]; [eauto|].
  destruct (io_step_ok S data o R c s pos HB HR) as (s1 & G & R1). rewrite G. destruct (source_step data pos c) as (a & p). cbn [fst snd] in *. destruct (IH s1 p R1) as (s2 & G2). rewrite G2. eauto.
Qed.
Print Assumptions C82_source_partial.
(* So the bytes at an offset are those of data. *)
Theorem C82_bytes_at_partial : forall S data (o : pyobject S) R s pos off n, behaves data o R -> R s pos -> 0 <= off -> 0 <= n -> off + n <= len data ->
  exists s', io_calls S o [IoSeek off 0; IoRead n] s = (Ok [IoNum off; IoBytes (slice data off n)], s').
Proof.
  intros S data o R s pos off n HB HR H0 H1 H2. pose proof (proj1 HB) as HL. destruct (C82_source_partial S data o R s pos [IoSeek off 0; IoRead n] HB HR) as (s' & G). exists s'. rewrite G.
  cbn [source_steps source_step]. unfold seek_to. cbn [Z.eqb]. rewrite Z.add_0_l. replace ((0 <=? off) && (off <? 2 ^ 63)) with true by lia. replace (n <? 2 ^ 63) with true by lia. replace (Z.min (Z.max 0 n) (len data - off)) with n by lia. reflexivity.
Qed.
Print Assumptions C82_bytes_at_partial.
(* An object like io.BytesIO: its state is its position. *)
Definition bytes_io (data : list Z) : pyobject Z :=
  mk_po (fun n p => let d := slice data p (Z.min n (len data - p)) in (Some d, p + len d))
    (fun off w p => match seek_to data p off w with Some q => (true, q) | None => (false, p) end) (fun p => (Some p, p)) None.
Example C82_instance : forall data, len data < 2 ^ 63 -> behaves data (bytes_io data) (fun p q => p = q /\ 0 <= p < 2 ^ 63).
Proof.
  intros data HL. split; [exact HL|]. intros s pos (-> & HP). split; [exact HP|]. split; [|split; [|split; [|exact I]]].
  - intros n Hn. eexists. split; [reflexivity|]. split; [reflexivity|]. set (d := slice data pos (Z.min n (len data - pos))). pose proof (len_nonneg d). pose proof (len_nonneg data).
    assert (len d <= Z.max 0 (len data - pos)) by (unfold d, slice, len; rewrite firstn_length, skipn_length; lia). lia.
  - intros off w. cbn [bytes_io po_seek]. destruct (seek_to data pos off w) as [q|] eqn:E.
    + exists q. split; [reflexivity|]. split; [reflexivity|]. unfold seek_to in E. destruct (if w =? 0 then _ else _) as [b|]; [|discriminate]. destruct ((0 <=? b + off) && (b + off <? 2 ^ 63)) eqn:B; [|discriminate]. injection E as <-. lia.
    + exists pos. auto.
  - exists pos. auto.
Qed.
Example C82_example : fst (io_calls Z (bytes_io [1; 2; 3; 4]) [IoSize; IoSeek 1 0; IoRead 2; IoSize; IoRead 9; IoSeek (-1) 0; IoSeek 0 3] 0) =
  Ok [IoNum 4; IoNum 1; IoBytes [2; 3]; IoNum 4; IoBytes [4]; IoError; IoError].
Proof. vm_compute. reflexivity. Qed.
(* The full statement is false. An object whose read gives more than it was asked for makes the
   library write past its buffer, whatever the object gives beyond it; *)
Theorem C82_overrun_refuted : forall S (o : pyobject S) s n d s', 0 < n < 2 ^ 63 -> po_read o n s = (Some d, s') -> n < len d -> io_read S o n s = (Oob, s').
Proof. intros S o s n d s' Hn E L. unfold io_read. replace (2 ^ 63 - 1 <? n) with false by lia. replace (n <=? 0) with false by lia. rewrite E. replace (len d <=? n) with false by lia. reflexivity. Qed.
Print Assumptions C82_overrun_refuted.
Example C82_overrun_example : fst (io_read unit (mk_po (fun _ s => (Some [1; 2; 3; 4], s)) (fun _ _ s => (true, s)) (fun s => (Some 0, s)) None) 2 tt) = Oob.
Proof. reflexivity. Qed.
(* and a size that the object does not give is reported as one that it gives: what the variable of
   the caller had. *)
Theorem C82_no_size_refuted : forall S (o : pyobject S) f s s' old, po_size o = Some f -> f s = (None, s') -> io_size S o old s = (Ok old, s').
Proof. intros S o f s s' old E F. unfold io_size. rewrite E, F. reflexivity. Qed.
Print Assumptions C82_no_size_refuted.

(* ---- C83: the sequence of the entries ---- *)
Lemma loop_from {A} (l : list A) (get : Z -> option A) : (forall i, 0 <= i < len l -> get i = nth_error l (Z.to_nat i)) ->
  forall rest fuel pre, l = pre ++ rest -> (length rest < fuel)%nat -> seq_loop A get fuel (len l) (len pre) (rev pre) = Ok (SAll l, len l).
Proof.
  intros HG. induction rest as [|a rest IH]; intros fuel pre E F; (destruct fuel as [|fuel]; [cbn in F; lia|]); cbn [seq_loop]; unfold seq_next.
  - rewrite app_nil_r in E. subst pre. rewrite Z.leb_refl. rewrite rev_involutive. reflexivity.
  - assert (L : len pre < len l) by (rewrite E; unfold len; rewrite app_length; cbn [length]; lia). replace (len l <=? len pre) with false by lia.
    rewrite HG by (pose proof (len_nonneg pre); lia). assert (N : nth_error l (Z.to_nat (len pre)) = Some a) by (rewrite E; unfold len; rewrite Nat2Z.id, nth_error_app2, Nat.sub_diag by lia; reflexivity). rewrite N.
    replace (len pre + 1) with (len (pre ++ [a])) by (unfold len; rewrite app_length; cbn [length]; lia). replace (a :: rev pre) with (rev (pre ++ [a])) by (rewrite rev_app_distr; reflexivity).
    apply IH; [rewrite <- app_assoc; exact E|cbn [length] in F; lia].
Qed.
Definition in_range {A} (l : list A) (c : scall) : Prop := match c with SLen => True | SItem i => - len l <= i < len l | SLoop => False end.
Lemma item_ok {A} (l : list A) (get : Z -> option A) fuel c idx : (forall i, 0 <= i < len l -> get i = nth_error l (Z.to_nat i)) -> in_range l c -> seq_call A get fuel (len l) c idx = Ok (list_object l c, idx).
Proof.
  intros HG. destruct c as [|i|]; cbn [in_range seq_call list_object]; [reflexivity| |intros []]. intros R. set (j := if i <? 0 then i + len l else i). assert (J : 0 <= j < len l) by (unfold j; destruct (i <? 0) eqn:E; lia). clearbody j.
  replace ((j <? 0) || (len l <=? j)) with false by lia. replace (0 <=? j) with true by lia. rewrite HG by exact J. destruct (nth_error l (Z.to_nat j)) eqn:N; [reflexivity|]. exfalso. apply nth_error_None in N. unfold len in J. lia.
Qed.
(* Lengths, items within range and one loop are those of the list of the entries. *)
Theorem C83_sequence_partial : forall A (l : list A) get fuel before after, (forall i, 0 <= i < len l -> get i = nth_error l (Z.to_nat i)) -> (length l < fuel)%nat ->
  Forall (in_range l) before -> Forall (in_range l) after ->
  seq_calls A get fuel (len l) (before ++ SLoop :: after) 0 = Ok (map (list_object l) (before ++ SLoop :: after)).
Proof.
  intros A l get fuel before after HG F B AF.
  assert (P : forall cs idx rest, Forall (in_range l) cs -> seq_calls A get fuel (len l) (cs ++ rest) idx = (let! r := seq_calls A get fuel (len l) rest idx in Ok (map (list_object l) cs ++ r))).
  { induction cs as [|c cs IH]; intros idx rest FA; cbn [app seq_calls map]; [destruct (seq_calls A get fuel (len l) rest idx); reflexivity|].
    rewrite (item_ok l get fuel c idx HG (Forall_inv FA)). cbn [bind]. rewrite (IH idx rest (Forall_inv_tail FA)). destruct (seq_calls A get fuel (len l) rest idx); reflexivity. }
  rewrite (P before 0 _ B). cbn [seq_calls seq_call]. rewrite (loop_from l get HG l fuel [] eq_refl F : seq_loop A get fuel (len l) 0 [] = _). cbn [bind].
  rewrite <- (app_nil_r after). rewrite (P after _ [] AF). cbn [seq_calls bind]. rewrite !app_nil_r, map_app. reflexivity.
Qed.
Print Assumptions C83_sequence_partial.
Example C83_example : seq_calls Z (fun i => nth_error [7; 8; 9] (Z.to_nat i)) 9 3 [SItem (-1); SLen; SLoop; SItem 0] 0 = Ok [SOne 9; SInt 3; SAll [7; 8; 9]; SOne 7].
Proof. reflexivity. Qed.
(* The full statement is false: a second loop over the same sequence is over at once, *)
Theorem C83_second_loop_refuted : forall A (l : list A) get fuel, (forall i, 0 <= i < len l -> get i = nth_error l (Z.to_nat i)) -> (length l < fuel)%nat ->
  seq_calls A get fuel (len l) [SLoop; SLoop] 0 = Ok [SAll l; SAll []].
Proof.
  intros A l get fuel HG F. cbn [seq_calls seq_call]. rewrite (loop_from l get HG l fuel [] eq_refl F : seq_loop A get fuel (len l) 0 [] = _). cbn [bind].
  destruct fuel as [|fuel]; [lia|]. cbn [seq_loop]. unfold seq_next. rewrite Z.leb_refl. reflexivity.
Qed.
Print Assumptions C83_second_loop_refuted.
(* and an index out of range is a ValueError. *)
Theorem C83_index_refuted : forall A (l : list A) get fuel idx, exists i, seq_call A get fuel (len l) (SItem i) idx = Ok (SExn ValueError, idx) /\ list_object l (SItem i) = SExn IndexError.
Proof.
  intros A l get fuel idx. exists (len l). pose proof (len_nonneg l). cbn [seq_call list_object]. replace (len l <? 0) with false by lia. rewrite Z.leb_refl, orb_true_r. split; [reflexivity|]. replace (0 <=? len l) with true by lia.
  assert (N : nth_error l (Z.to_nat (len l)) = None) by (apply nth_error_None; unfold len; lia). rewrite N. reflexivity.
Qed.
Print Assumptions C83_index_refuted.
