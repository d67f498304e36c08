(* C93, C94: the options of the tools and the wrapped texts. *)
From Verif Require Import Base BaseLemmas ToolOpt ToolOptSpec.
From Coq Require String Ascii.
Import String.StringSyntax.
Delimit Scope string_scope with string.


(* ---- the options string ---- *)
Definition piece (o : option_entry) : list Z := if listed o then oe_identifier o :: match oe_name o with Some _ => [58] | None => [] end else [].
Definition string_of (table : list option_entry) : list Z := concat (map piece table).
Lemma room_len table : room table = 1 + len (string_of table).
Proof.
  induction table as [|o table IH]; [reflexivity|]. unfold string_of. cbn [map concat]. rewrite len_app. fold (string_of table).
  change (room (o :: table)) with ((if listed o then match oe_name o with Some _ => 2 | None => 1 end else 0) + room table). rewrite IH. unfold piece.
  destruct (listed o); [destruct (oe_name o)|].
  1,2: rewrite ?len_cons, ?(@len_nil Z); lia.
  change (len (@nil Z)) with 0. lia.
Qed.
Lemma string_loop table : forall size w, 0 <= len w <= size ->
  options_string_loop table size w = if len w + len (string_of table) <=? size then Ok (w ++ string_of table) else Fail.
Proof.
  induction table as [|o table IH]; intros size w L.
  - cbn [options_string_loop]. change (string_of []) with (@nil Z). rewrite app_nil_r, len_nil. rewrite (proj2 (Z.leb_le _ _)) by lia. reflexivity.
  - cbn [options_string_loop]. unfold string_of. cbn [map concat]. fold (string_of table). unfold piece, listed.
    pose proof (len_nonneg (string_of table)) as LN.
    destruct (oe_identifier o =? 0); cbn [negb orb andb app]; [apply IH; exact L|].
    destruct (oe_help o); cbn [app]; [|apply IH; exact L].
    destruct (size <=? len w) eqn:E; cbn [negb check bind].
    { rewrite len_cons, len_app. match goal with |- context [len ?x + len (string_of table)] => pose proof (len_nonneg x); set (k := x) in * end. rewrite (proj2 (Z.leb_gt _ _)) by lia. reflexivity. }
    destruct (oe_name o).
    + destruct (size <=? len (w ++ [oe_identifier o])) eqn:E1; rewrite len_app, len_cons, len_nil in E1; cbn [negb check bind].
      * rewrite len_cons, len_app, len_cons, len_nil. rewrite (proj2 (Z.leb_gt _ _)) by lia. reflexivity.
      * rewrite IH by (rewrite ?len_app, ?len_cons, ?(@len_nil Z); lia). rewrite <- !app_assoc. cbn [app]. rewrite ?len_app, ?len_cons, ?(@len_nil Z).
        match goal with |- (if ?a <=? _ then _ else _) = (if ?b <=? _ then _ else _) => replace a with b by lia end. reflexivity.
    + cbn [app]. rewrite IH by (rewrite ?len_app, ?len_cons, ?(@len_nil Z); lia). rewrite <- !app_assoc. cbn [app]. rewrite ?len_app, ?len_cons, ?(@len_nil Z).
      match goal with |- (if ?a <=? _ then _ else _) = (if ?b <=? _ then _ else _) => replace a with b by lia end. reflexivity.
Qed.
Lemma options_string_is table size : 0 <= size ->
  options_string table size = if room table <=? size then Ok (string_of table ++ [0]) else Fail.
Proof.
  intros P. unfold options_string. rewrite string_loop by (change (len (@nil Z)) with 0; lia). change (len (@nil Z)) with 0. rewrite room_len. cbn [app]. pose proof (len_nonneg (string_of table)).
  destruct (1 + len (string_of table) <=? size) eqn:E2.
  - rewrite (proj2 (Z.leb_le (0 + _) _)) by lia. cbn [bind]. rewrite (proj2 (Z.leb_gt _ _)) by lia. reflexivity.
  - destruct (0 + len (string_of table) <=? size) eqn:E; [|reflexivity]. cbn [bind]. rewrite (proj2 (Z.leb_le _ _)) by lia. reflexivity.
Qed.

(* ---- one option ---- *)
Lemma search_app_other a b c : ~ In c a -> search_character (a ++ b) c = search_character b c.
Proof. induction a as [|x a IH]; intros N; [reflexivity|]. cbn [app search_character]. destruct (x =? c) eqn:E; [exfalso; apply N; left; lia|]. apply IH. intros X. apply N. right. exact X. Qed.
Lemma search_is table c : fine_table table -> c <> 58 ->
  match takes_of table c with
  | None => search_character (string_of table) c = None
  | Some b => exists r o, search_character (string_of table) c = Some (c :: r) /\ deref (Some r) = Ok o /\ (o =? 58) = b
  end.
Proof.
  intros F N. unfold takes_of. induction table as [|o table IH]; [reflexivity|].
  inversion F as [|? ? F1 F2]; subst. specialize (IH F2). cbn [find]. unfold string_of. cbn [map concat]. fold (string_of table). unfold piece at 1.
  unfold piece. destruct (listed o) eqn:L; cbn [andb app]; [|exact IH]. destruct (oe_identifier o =? c) eqn:E.
  - cbn [search_character]. rewrite E. assert (oe_identifier o = c) as -> by lia. destruct (oe_name o).
    + cbn [app]. exists (58 :: string_of table), 58. auto.
    + cbn [app]. destruct (string_of table) as [|x r] eqn:ES; [exists [], 0; auto|]. exists (x :: r), x. split; [reflexivity|]. split; [reflexivity|].
      (* the next character is an identifier *)
      assert (HX : exists o', In o' table /\ listed o' = true /\ oe_identifier o' = x).
      { clear -ES. induction table as [|y t IH]; [discriminate|]. unfold string_of in ES. cbn [map concat] in ES. unfold piece in ES at 1. destruct (listed y) eqn:Ly; cbn [app] in ES.
        - injection ES as <- _. exists y. split; [left; reflexivity|auto].
        - destruct (IH ES) as (o' & I & A). exists o'. split; [right; exact I|exact A]. }
      destruct HX as (o' & I & Lo & <-). rewrite Forall_forall in F2. specialize (F2 o' I Lo). destruct (oe_identifier o' =? 58) eqn:EE; [|reflexivity]. exfalso. apply F2. cbn [In]. lia.
  - cbn [search_character]. rewrite E. destruct (oe_name o); [|exact IH]. cbn [app search_character]. destruct (58 =? c) eqn:E5; [lia|exact IH].
Qed.
Lemma takes_colon table : fine_table table -> forall c, In c [-1; 45; 58; 63] -> takes_of table c = None.
Proof.
  intros F c I. unfold takes_of. destruct (find _ table) as [o|] eqn:E; [|reflexivity]. apply find_some in E. destruct E as (Io & E). apply andb_true_iff in E. destruct E as (L & E).
  unfold fine_table in F. rewrite Forall_forall in F. specialize (F o Io L). assert (oe_identifier o = c) by lia. subst c. contradiction.
Qed.

Section Run.
  Variable table : list option_entry.
  Variable args : list (list Z).
  Hypothesis FT : fine_table table.
  Let os := string_of table.
  Let takes := takes_of table.

  Definition run (fuel : nat) (r : res (Z * gstate)) : res (given * stop) :=
    let! (c, g) := r in
    if c =? -1 then Ok ([], SEnd (optind g))
    else if c =? 63 then Ok ([], SUnknown)
    else if c =? 58 then Ok ([], SMissing)
    else
      let! (l, s) := options_loop fuel args os g in
      Ok ((c, optarg g) :: l, s).
  Lemma loop_run fuel g : options_loop (S fuel) args os g = run fuel (getopt args os g).
  Proof. reflexivity. Qed.
  Definition put (o : given) (r : res (given * stop)) : res (given * stop) := let! (l, s) := r in Ok (o ++ l, s).
  Lemma put_put a b r : put a (put b r) = put (a ++ b) r.
  Proof. destruct r as [[l s]| | |]; try reflexivity. unfold put. cbn [bind]. rewrite app_assoc. reflexivity. Qed.
  Lemma put_nil r : put [] r = r.
  Proof. destruct r as [[l s]| | |]; reflexivity. Qed.
  Lemma run_put fuel c g : ~ In c [-1; 45; 58; 63] -> run fuel (Ok (c, g)) = put [(c, optarg g)] (options_loop fuel args os g).
  Proof. intros N. cbn [In] in N. unfold run. cbn [bind]. rewrite (proj2 (Z.eqb_neq c (-1))), (proj2 (Z.eqb_neq c 63)), (proj2 (Z.eqb_neq c 58)) by lia. reflexivity. Qed.

  Lemma one_strange c g st : takes c = None -> Forall (fun c => 1 <= c) (c :: g) -> exists st', getopt_at args os (Some (c :: g)) st = Ok (63, st').
  Proof.
    intros T P. unfold getopt_at. cbn [deref bind advance]. assert (HN : (if c =? 58 then None else search_character os c) = None).
    { destruct (c =? 58) eqn:E; [reflexivity|]. pose proof (search_is table c FT) as S1. fold takes in S1. rewrite T in S1. apply S1. lia. }
    rewrite HN. destruct g; cbn [bind]; eexists; reflexivity.
  Qed.
  Lemma known c b : takes c = Some b -> ~ In c [-1; 45; 58; 63].
  Proof. intros T I. pose proof (takes_colon table FT c I) as X. fold takes in X. congruence. Qed.
  Lemma one_known c b g st : takes c = Some b -> exists o, (o =? 58) = b /\
    getopt_at args os (Some (c :: g)) st = (let st := set_optopt st c in
      if negb (o =? 58) then
        let st := set_optarg st None in
        let! x := deref (Some g) in
        let st := if x =? 0 then set_optind st (optind st + 1) else set_next st (Some g) in
        Ok (c, st)
      else
        let! x := deref (Some g) in
        if negb (x =? 0) then Ok (c, set_optind (set_optarg st (Some g)) (optind st + 1))
        else
          let st := set_optind st (optind st + 1) in
          if len args <=? optind st then Ok (58, st)
          else
            let! v := getb args (optind st) in
            Ok (c, set_optind (set_optarg st (Some v)) (optind st + 1))).
  Proof.
    intros T. pose proof (known c b T) as N. pose proof (search_is table c FT) as S1. fold takes os in S1. rewrite T in S1.
    assert (c <> 58) as N5 by (intros ->; apply N; cbn [In]; auto). destruct (S1 N5) as (r & o & E & D & B). exists o. split; [exact B|].
    unfold getopt_at. cbn [deref bind advance]. rewrite (proj2 (Z.eqb_neq c 58) N5), E. cbn [advance]. rewrite D. reflexivity.
  Qed.

  (* ---- one argument ---- *)
  Lemma group_run g o e : group takes g o e -> g <> [] -> Forall (fun c => 1 <= c) g -> forall st f, next_option st = None ->
    match e with
    | Done => exists st', next_option st' = None /\ optind st' = optind st + 1 /\ run (length o + f) (getopt_at args os (Some g) st) = put o (options_loop (S f) args os st')
    | Waits c =>
      (len args <= optind st + 1 -> run (length o + f) (getopt_at args os (Some g) st) = Ok (o, SMissing)) /\
      (forall v, optind st + 1 < len args -> getb args (optind st + 1) = Ok v ->
        exists st', next_option st' = None /\ optind st' = optind st + 2 /\ run (length o + S f) (getopt_at args os (Some g) st) = put (o ++ [(c, Some v)]) (options_loop (S f) args os st'))
    | Strange => run (length o + f) (getopt_at args os (Some g) st) = Ok (o, SUnknown)
    end.
  Proof.
    intros G. induction G as [|c g o e T G IH|c v T NV|c T|c g T]; intros NE P st f NX.
    - contradiction.
    - destruct (one_known c false g st T) as (x & B & E). rewrite E, B. cbn [negb]. cbv zeta. inversion P as [|? ? Pc Pg]; subst.
      destruct g as [|d g].
      + cbn [deref bind Z.eqb]. inversion G; subst. exists (set_optind (set_optarg (set_optopt st c) None) (optind st + 1)). split; [exact NX|]. split; [reflexivity|].
        cbn [length Nat.add]. change (0 =? 0) with true. cbv iota. rewrite run_put by (apply (known c false T)). reflexivity.
      + cbn [deref bind]. inversion Pg as [|? ? Pd Pg']; subst. rewrite (proj2 (Z.eqb_neq d 0)) by lia. set (st1 := set_next _ _).
        specialize (IH ltac:(discriminate) Pg (set_next st1 None)).
        assert (HS : forall n, run (S n) (Ok (c, st1)) = put [(c, None)] (run n (getopt_at args os (Some (d :: g)) (set_next st1 None)))).
        { intros n. rewrite run_put by (apply (known c false T)). rewrite loop_run. reflexivity. }
        destruct e as [|w|].
        * destruct (IH f eq_refl) as (st' & N' & O' & R'). exists st'. split; [exact N'|]. split; [exact O'|]. cbn [length Nat.add]. rewrite HS, R', put_put. reflexivity.
        * destruct (IH f eq_refl) as (A1 & A2). split.
          -- intros L. cbn [length Nat.add]. rewrite HS, A1 by exact L. reflexivity.
          -- intros v L V. destruct (A2 v L V) as (st' & N' & O' & R'). exists st'. split; [exact N'|]. split; [exact O'|]. cbn [length Nat.add]. rewrite HS, R', put_put. reflexivity.
        * cbn [length Nat.add]. rewrite HS, (IH f eq_refl). reflexivity.
    - destruct (one_known c true v st T) as (x & B & E). rewrite E, B. cbn [negb]. cbv zeta. inversion P as [|? ? Pc Pg]; subst. destruct v as [|d v]; [contradiction|].
      inversion Pg as [|? ? Pd Pg']; subst. cbn [deref bind]. rewrite (proj2 (Z.eqb_neq d 0)) by lia. cbn [negb length Nat.add].
      eexists. split; [|split; [|rewrite run_put by (apply (known c true T)); reflexivity]]; [exact NX|reflexivity].
    - destruct (one_known c true [] st T) as (x & B & E). rewrite E, B. cbn [negb]. cbv zeta. cbn [deref bind Z.eqb negb]. cbn [set_optind set_optopt optind length Nat.add app]. split.
      + intros L. rewrite (proj2 (Z.leb_le _ _)) by exact L. reflexivity.
      + intros v L V. rewrite (proj2 (Z.leb_gt _ _)) by exact L. rewrite V. cbn [bind].
        eexists. split; [|split; [|rewrite run_put by (apply (known c true T)); reflexivity]]; [exact NX|cbn [set_optind optind]; lia].
    - destruct (one_strange c g st T P) as (st' & ->). reflexivity.
  Qed.

  Lemma getb_at pre a l : args = pre ++ a :: l -> getb args (len pre) = Ok a.
  Proof.
    intros ->. pose proof (len_nonneg l). pose proof (len_nonneg pre). unfold getb. rewrite len_app, len_cons. rewrite (proj2 (Z.leb_le _ _)), (proj2 (Z.ltb_lt _ _)) by lia. cbn [andb].
    unfold len. rewrite Nat2Z.id, nth_error_app2, Nat.sub_diag by lia. reflexivity.
  Qed.
  Lemma at_group pre g l st : args = pre ++ (dash :: g) :: l -> next_option st = None -> optind st = len pre -> (forall r, g <> dash :: r) -> g <> [] -> Forall (fun c => 1 <= c) g ->
    getopt args os st = getopt_at args os (Some g) st.
  Proof.
    intros A NX O ND NE P. unfold getopt. rewrite NX, O, (getb_at pre _ _ A). assert (L : len args = len pre + 1 + len l) by (rewrite A, len_app, len_cons; lia). pose proof (len_nonneg l).
    rewrite (proj2 (Z.leb_gt _ _)) by lia. cbn [bind deref advance]. change (dash =? 0) with false. change (dash =? 45) with true. cbn [negb]. destruct g as [|d g]; [contradiction|]. cbn [deref bind].
    destruct (d =? 45) eqn:E; [|reflexivity]. exfalso. apply (ND g). f_equal. unfold dash. lia.
  Qed.

  (* ---- all the arguments ---- *)
  Lemma reading_run l r : reading takes l r -> Forall plain l -> forall pre st f, args = pre ++ l -> next_option st = None -> optind st = len pre ->
    options_loop (S (length (opts r) + f)) args os st = Ok (opts r, stops (len args) r).
  Proof.
    intros R. induction R as [|l|c a l N|l|l|g l o r N1 N2 G R IH|g l o c v r G R IH|g o c G|g l o N1 N2 G]; intros P pre st f A NX O.
    - rewrite app_nil_r in A. subst pre. cbn [opts length Nat.add stops]. rewrite loop_run. unfold getopt. rewrite NX, O, Z.leb_refl. unfold run. cbn [bind]. change (-1 =? -1) with true. cbv iota. rewrite ?O, len_nil. do 3 f_equal. lia.
    - assert (L : len args = len pre + 1 + len l) by (rewrite A, len_app, len_cons; lia). pose proof (len_nonneg l). cbn [opts length Nat.add stops]. rewrite loop_run. unfold getopt. rewrite NX, O, (getb_at pre _ _ A), (proj2 (Z.leb_gt _ _)) by lia. unfold run. cbn [bind deref].
      change (0 =? 0) with true. cbv iota. cbn [bind]. change (-1 =? -1) with true. cbv iota. rewrite O, len_cons. do 3 f_equal. lia.
    - assert (L : len args = len pre + 1 + len l) by (rewrite A, len_app, len_cons; lia). pose proof (len_nonneg l). cbn [opts length Nat.add stops]. rewrite loop_run. unfold getopt. rewrite NX, O, (getb_at pre _ _ A), (proj2 (Z.leb_gt _ _)) by lia. unfold run. cbn [bind deref].
      unfold dash in N. destruct (c =? 0); cbn [bind]; [|rewrite (proj2 (Z.eqb_neq c 45) N); cbn [negb bind]]; change (-1 =? -1) with true; cbv iota; rewrite O, len_cons; do 3 f_equal; lia.
    - inversion P as [|? ? (_ & X & _) _]; subst. contradiction.
    - assert (L : len args = len pre + 1 + len l) by (rewrite A, len_app, len_cons; lia). pose proof (len_nonneg l). cbn [opts length Nat.add stops]. rewrite loop_run. unfold getopt. rewrite NX, O, (getb_at pre _ _ A), (proj2 (Z.leb_gt _ _)) by lia. unfold run. cbn [bind deref advance]. change (dash =? 0) with false. change (dash =? 45) with true. cbn [negb bind]. change (-1 =? -1) with true. cbv iota. cbn [set_optind optind]. do 3 f_equal. lia.
    - destruct (Forall_inv P) as (P1 & P2 & P3). pose proof (Forall_inv_tail P) as PL. pose proof (Forall_inv_tail P1) as Pg.
      assert (ND : forall x, g <> dash :: x) by (intros x ->; rewrite (P3 x eq_refl) in N2; contradiction).
      assert (HO : opts (before o r) = o ++ opts r /\ stops (len args) (before o r) = stops (len args) r) by (destruct r; auto). destruct HO as (-> & ->). rewrite app_length.
      rewrite loop_run, (at_group pre g l st A NX O ND N1 Pg).
      destruct (group_run g o Done G N1 Pg st (length (opts r) + f) NX) as (st' & N' & O' & E). rewrite <- Nat.add_assoc, E, (IH PL (pre ++ [dash :: g])).
      + reflexivity.
      + rewrite A, <- app_assoc. reflexivity.
      + exact N'.
      + rewrite O', O, len_app, len_cons, len_nil. lia.
    - destruct (Forall_inv P) as (P1 & P2 & P3). pose proof (Forall_inv_tail P) as PL. pose proof (Forall_inv_tail P1) as Pg. pose proof (Forall_inv_tail PL) as PL'.
      assert (NE : g <> []) by (intros ->; inversion G).
      assert (N2 : g <> [dash]) by (intros ->; inversion G as [|? ? ? ? T G'| |? T|]; subst; [inversion G'|]; apply (known dash true T); cbn [In]; auto).
      assert (ND : forall x, g <> dash :: x) by (intros x ->; rewrite (P3 x eq_refl) in N2; contradiction).
      assert (HO : opts (before (o ++ [(c, Some v)]) r) = (o ++ [(c, Some v)]) ++ opts r /\ stops (len args) (before (o ++ [(c, Some v)]) r) = stops (len args) r) by (destruct r; auto). destruct HO as (-> & ->). rewrite !app_length.
      rewrite loop_run, (at_group pre g (v :: l) st A NX O ND NE Pg).
      destruct (group_run g o (Waits c) G NE Pg st (length (opts r) + f) NX) as (_ & E).
      assert (L : len args = len pre + 2 + len l) by (rewrite A, len_app, !len_cons; lia). pose proof (len_nonneg l).
      assert (A2 : args = (pre ++ [dash :: g]) ++ v :: l) by (rewrite A, <- app_assoc; reflexivity).
      assert (LP : len (pre ++ [dash :: g]) = len pre + 1) by (rewrite len_app, len_cons, len_nil; lia).
      destruct (E v) as (st' & N' & O' & E'); [lia|rewrite O, <- LP; exact (getb_at _ _ _ A2)|].
      replace (length o + length [(c, Some v)] + length (opts r) + f)%nat with (length o + S (length (opts r) + f))%nat by (cbn [length]; lia). rewrite E', (IH PL' (pre ++ [dash :: g; v])).
      + reflexivity.
      + rewrite A, <- app_assoc. reflexivity.
      + exact N'.
      + rewrite O', O, len_app, !len_cons, len_nil. lia.
    - destruct (Forall_inv P) as (P1 & P2 & P3). pose proof (Forall_inv_tail P) as PL. pose proof (Forall_inv_tail P1) as Pg.
      assert (NE : g <> []) by (intros ->; inversion G).
      assert (N2 : g <> [dash]) by (intros ->; inversion G as [|? ? ? ? T G'| |? T|]; subst; [inversion G'|]; apply (known dash true T); cbn [In]; auto).
      assert (ND : forall x, g <> dash :: x) by (intros x ->; rewrite (P3 x eq_refl) in N2; contradiction).
      cbn [opts stops]. rewrite loop_run, (at_group pre g [] st A NX O ND NE Pg).
      destruct (group_run g o (Waits c) G NE Pg st f NX) as (E & _). apply E. rewrite A, O, len_app, len_cons, len_nil. lia.
    - destruct (Forall_inv P) as (P1 & P2 & P3). pose proof (Forall_inv_tail P) as PL. pose proof (Forall_inv_tail P1) as Pg.
      assert (ND : forall x, g <> dash :: x) by (intros x ->; rewrite (P3 x eq_refl) in N2; contradiction).
      cbn [opts stops]. rewrite loop_run, (at_group pre g l st A NX O ND N1 Pg).
      exact (group_run g o Strange G N1 Pg st f NX).
  Qed.
End Run.

(* Every command line has a reading. *)
Lemma group_total takes g : exists o e, group takes g o e.
Proof.
  induction g as [|c g (o & e & IH)]; [exists [], Done; constructor|]. destruct (takes c) as [[|]|] eqn:T.
  - destruct g as [|d g]; [exists [], (Waits c); constructor; exact T|]. exists [(c, Some (d :: g))], Done. constructor; [exact T|discriminate].
  - exists ((c, None) :: o), e. constructor; assumption.
  - exists [], Strange. constructor. exact T.
Qed.
Lemma reading_total takes : forall n l, (length l <= n)%nat -> exists r, reading takes l r.
Proof.
  induction n as [|n IH]; intros l L; [destruct l; [|cbn in L; lia]; eexists; constructor|].
  destruct l as [|a l]; [eexists; constructor|]. cbn [length] in L. destruct a as [|c g]; [eexists; constructor|].
  destruct (Z.eq_dec c dash) as [->|N]; [|eexists; apply r_operand; exact N].
  destruct g as [|d g]; [eexists; apply r_dash|]. assert (HD : {d :: g = [dash]} + {d :: g <> [dash]}) by (apply list_eq_dec; apply Z.eq_dec).
  destruct HD as [E|N2]; [rewrite E; eexists; apply r_dashes|].
  destruct (group_total takes (d :: g)) as (o & e & G). destruct e as [|w|].
  - destruct (IH l) as (r & R); [lia|]. exists (before o r). apply r_group; [discriminate|exact N2|exact G|exact R].
  - destruct l as [|v l]; [exists (Missing o); apply (r_missing takes _ o w); exact G|]. destruct (IH l) as (r & R); [cbn [length] in L; lia|]. eexists. eapply r_waits; [exact G|exact R].
  - eexists. eapply r_strange; [discriminate|exact N2|exact G].
Qed.

(* The options string has room or is refused. A command line without a lone dash and without long
   options is taken apart as the guidelines say: the same options with the same arguments in the same
   order, the operands from the index where the loop stops; or it stops at the first option that is
   unknown or lacks its argument. Every command line has such a reading. *)
Theorem C93_options : forall table program args, fine_table table -> Forall plain args ->
  (forall size, 0 <= size -> (room table <= size -> exists w, options_string table size = Ok (w ++ [0]) /\ len w + 1 = room table) /\ (size < room table -> options_string table size = Fail)) /\
  (exists r, reading (takes_of table) args r) /\
  (forall r fuel, room table <= 32 -> reading (takes_of table) args r -> (length (opts r) < fuel)%nat ->
    command_line fuel table (program :: args) = Ok (opts r, stops (1 + len args) r)).
Proof.
  intros table program args F P. split; [|split; [exact (reading_total (takes_of table) (length args) args (le_n _))|]].
  - intros size S0. rewrite options_string_is by exact S0. split; intros R.
    + exists (string_of table). rewrite (proj2 (Z.leb_le _ _) R), room_len. split; [reflexivity|lia].
    + rewrite (proj2 (Z.leb_gt _ _)) by lia. reflexivity.
  - intros r fuel RM R L. unfold command_line. rewrite options_string_is, (proj2 (Z.leb_le _ _) RM) by lia. cbn [bind].
    replace (firstn _ _) with (string_of table) by (rewrite app_length, Nat.add_sub, firstn_app, Nat.sub_diag, firstn_all; cbn [firstn]; rewrite app_nil_r; reflexivity).
    destruct fuel as [|fuel]; [lia|]. replace (S fuel) with (S (length (opts r) + (fuel - length (opts r))))%nat by lia.
    rewrite (reading_run table (program :: args) F args r R P [program] g_init); [rewrite len_cons; reflexivity|reflexivity|reflexivity|reflexivity].
Qed.
Print Assumptions C93_options.

Definition t (s : String.string) : list Z := map (fun a => Z.of_nat (Ascii.nat_of_ascii a)) (String.list_ascii_of_string s).
Arguments t s%string.
(* fsapfsinfo.c 120-134 *)
Definition info_table : list option_entry :=
  [mk_option 66 (Some (t "bodyfile")) (Some (t "output file system information as a bodyfile"));
   mk_option 100 None (Some (t "calculate a MD5 hash of a file entry to include in the bodyfile"));
   mk_option 69 (Some (t "identifier")) (Some (t "show information about a specific file entry identifier or ""all"""));
   mk_option 102 (Some (t "file_system_index")) (Some (t "show information about a specific file system or ""all"""));
   mk_option 70 (Some (t "path")) (Some (t "show information about a specific file entry path"));
   mk_option 104 None (Some (t "shows this help"));
   mk_option 72 None (Some (t "shows the file system hierarchy"));
   mk_option 111 (Some (t "offset")) (Some (t "specify the container offset in bytes"));
   mk_option 112 (Some (t "password")) (Some (t "specify the password (or passphrase)"));
   mk_option 114 (Some (t "recovery_password")) (Some (t "specify the recovery password (or passphrase)"));
   mk_option 118 None (Some (t "verbose output to stderr"));
   mk_option 86 None (Some (t "print version"));
   mk_option 0 (Some (t "source")) (Some (t "the source container"))].
Example C93_example : fine_table info_table /\ room info_table = 20 /\
  command_line 9 info_table (map t ["fsapfsinfo"; "-vHf2"; "-p"; "-x"; "--"; "-img"]%string) =
    Ok ([(118, None); (72, None); (102, Some (t "2")); (112, Some (t "-x"))], SEnd 5) /\
  command_line 9 info_table (map t ["fsapfsinfo"; "-v"; "-Hxd"; "img"]%string) = Ok ([(118, None); (72, None)], SUnknown) /\
  command_line 9 info_table (map t ["fsapfsinfo"; "-dE"]%string) = Ok ([(100, None)], SMissing).
Proof.
  split; [|vm_compute; auto]. unfold fine_table, info_table.
  repeat (constructor; [intros _; cbn [oe_identifier In]; lia|]). constructor.
Qed.
(* A dash alone is an operand, but the function reads past the end of that argument. *)
Theorem C93_dash_refuted : exists args, (forall takes, reading takes args (Options [] args)) /\ forall fuel, command_line (S fuel) info_table (t "fsapfsinfo" :: args) = Oob.
Proof. exists [t "-"]. split; [intros takes; apply r_dash|]. intros fuel. reflexivity. Qed.
Print Assumptions C93_dash_refuted.
(* A long option is no option of the tools, but it is skipped without a word. *)
Theorem C93_long_option_refuted : exists a b, reading (takes_of info_table) [a; b] (Unknown []) /\
  forall fuel, command_line (S fuel) info_table [t "fsapfsinfo"; a; b] = Ok ([], SEnd 2).
Proof.
  exists (t "--help"), (t "img"). split; [|intros fuel; reflexivity].
  change (t "--help") with (dash :: t "-help"). apply r_strange; [discriminate|discriminate|]. apply g_strange. reflexivity.
Qed.
Print Assumptions C93_long_option_refuted.

(* ---- the wrapped texts ---- *)
Lemma getb_mid {A} (a b : list A) x i : i = len a -> getb (a ++ x :: b) i = Ok x.
Proof.
  intros ->. pose proof (len_nonneg b). pose proof (len_nonneg a). unfold getb. rewrite len_app, len_cons. rewrite (proj2 (Z.leb_le _ _)), (proj2 (Z.ltb_lt _ _)) by lia. cbn [andb].
  unfold len. rewrite Nat2Z.id, nth_error_app2, Nat.sub_diag by lia. reflexivity.
Qed.
Lemma word_scan_is : forall b a fuel text n, text = a ++ b -> n = len text -> (length b < fuel)%nat ->
  exists u r, b = u ++ r /\ Forall (fun x => ~ blank x) u /\ match r with [] => True | c :: _ => blank c end /\ word_scan fuel text n (len a) = Ok (len a + len u).
Proof.
  induction b as [|x b IH]; intros a fuel text n E N L; (destruct fuel as [|fuel]; [lia|]); cbn [word_scan].
  - rewrite app_nil_r in E. subst. rewrite Z.ltb_irrefl. exists [], []. split; [reflexivity|]. split; [constructor|]. split; [exact I|]. rewrite len_nil. f_equal. lia.
  - pose proof (len_nonneg b). assert (LT : len text = len a + (1 + len b)) by (rewrite E, len_app, len_cons; reflexivity). rewrite (proj2 (Z.ltb_lt _ _)) by lia. rewrite E, getb_mid by reflexivity. cbn [bind]. rewrite <- E.
    destruct ((x =? 32) || (x =? 10)) eqn:B.
    + exists [], (x :: b). split; [reflexivity|]. split; [constructor|]. split; [unfold blank; lia|]. rewrite len_nil. f_equal. lia.
    + destruct (IH (a ++ [x]) fuel text n) as (u & r & E1 & F & C & W); [rewrite E, <- app_assoc; reflexivity|exact N|cbn [length] in L; lia|].
      exists (x :: u), r. split; [rewrite E1; reflexivity|]. split; [constructor; [unfold blank; lia|exact F]|]. split; [exact C|].
      rewrite len_app, len_cons, len_nil in W. replace (len a + 1) with (len a + (1 + 0)) by lia. rewrite W, len_cons. f_equal. lia.
Qed.
Definition cut (m : Z) (q : list Z) : Prop := exists a c, q = a ++ [c] /\ blank c /\ line_fits m q.
Lemma line_scan_is : forall fuel b pre cur text n m, text = pre ++ cur ++ b -> n = len text -> n < 2 ^ 64 -> 1 <= m -> (length b < fuel)%nat -> (cur = [] \/ cut m cur) ->
  exists q r, cur ++ b = q ++ r /\ line_scan fuel text n m (len pre) (len pre + len cur) (len pre + len cur) = Ok (len pre + len q, len pre + len q) /\
    ((r = [] /\ (b <> [] \/ cur <> [] -> line_fits m q)) \/ (cut m q /\ m <= len q)).
Proof.
  induction fuel as [|fuel IH]; intros b pre cur text n m E N B M L C; [lia|]. cbn [line_scan].
  pose proof (len_nonneg b). pose proof (len_nonneg cur). pose proof (len_nonneg pre). assert (LT : len text = len pre + (len cur + len b)) by (rewrite E, !len_app; lia).
  assert (W : w64 (len pre + len cur - len pre) = len cur) by (unfold w64; rewrite Z.mod_small; lia). rewrite W. destruct (len cur <? m) eqn:D.
  - destruct (word_scan_is b (pre ++ cur) (S (length text)) text n) as (u & r & E1 & F & R & WS); [rewrite E, <- app_assoc; reflexivity|exact N|rewrite E, !app_length; lia|].
    rewrite len_app in WS. rewrite WS. cbn [bind]. pose proof (len_nonneg r). pose proof (len_nonneg u). assert (LB : len b = len u + len r) by (rewrite E1, len_app; reflexivity).
    destruct r as [|c r].
    + rewrite len_nil in *. rewrite (proj2 (Z.leb_le _ _)) by lia. rewrite app_nil_r in E1. subst u. exists (cur ++ b), []. split; [rewrite app_nil_r; reflexivity|]. split; [rewrite len_app; do 2 f_equal; lia|].
      left. split; [reflexivity|]. intros _. exists cur, b. split; [reflexivity|]. split; [lia|]. destruct (rev b) as [|x v] eqn:RB; [right; rewrite <- (rev_involutive b), RB; reflexivity|].
      left. exists (rev v), x. assert (EB : b = rev v ++ [x]) by (rewrite <- (rev_involutive b), RB; reflexivity). split; [exact EB|]. rewrite EB in F. apply Forall_app in F. apply F.
    + rewrite len_cons in *. pose proof (len_nonneg r). rewrite (proj2 (Z.leb_gt _ _)) by lia.
      destruct (IH r pre (cur ++ u ++ [c]) text n m) as (q & r' & E2 & S2 & Q); [rewrite E, E1, <- !app_assoc; reflexivity|exact N|exact B|exact M|rewrite E1, app_length in L; cbn [length] in L; lia| |].
      { right. exists (cur ++ u), c. split; [rewrite app_assoc; reflexivity|]. split; [exact R|]. exists cur, (u ++ [c]). split; [reflexivity|]. split; [lia|]. left. exists u, c. auto. }
      exists q, r'. split; [rewrite E1, <- E2, <- !app_assoc; reflexivity|].
      rewrite !len_app, len_cons, len_nil in S2. split; [rewrite <- S2; f_equal; lia|]. destruct Q as [(Q1 & Q2)|Q]; [left; split; [exact Q1|]; intros _; apply Q2; right|right; exact Q].
      intros X. apply app_eq_nil in X. destruct X as (_ & X). destruct u; discriminate.
  - exists cur, b. split; [reflexivity|]. split; [reflexivity|]. destruct C as [->|C]; [change (len (@nil Z)) with 0 in D; lia|]. right. split; [exact C|lia].
Qed.
Lemma wraps_concat m x l : wraps m x l -> concat l = x.
Proof. induction 1 as [|p|a c r l B R F W IH1 IH]; [reflexivity|cbn [concat]; apply app_nil_r|]. cbn [concat]. rewrite IH. reflexivity. Qed.
Lemma wrap_is : forall k b, (length b < k)%nat -> forall pre text n m, text = pre ++ b -> n = len text -> n < 2 ^ 64 -> 1 <= m ->
  exists l, wraps m b l /\ forall fuel, (length b < fuel)%nat -> wrap_loop fuel text n m (len pre) (len pre) (len pre) = Ok l.
Proof.
  induction k as [|k IH]; intros b LK pre text n m E N B M; [lia|]. pose proof (len_nonneg b). pose proof (len_nonneg pre). assert (LT : len text = len pre + len b) by (rewrite E, len_app; reflexivity).
  destruct b as [|x b].
  - exists []. split; [constructor|]. intros fuel L. destruct fuel; [lia|]. cbn [wrap_loop]. rewrite (proj2 (Z.ltb_ge _ _)) by (change (len (@nil Z)) with 0 in *; lia). reflexivity.
  - set (bb := x :: b) in *. assert (NB : bb <> []) by discriminate. assert (1 <= len bb) by (unfold bb; rewrite len_cons; pose proof (len_nonneg b); lia). clearbody bb.
    destruct (line_scan_is (S (length text)) bb pre [] text n m) as (q & r & E1 & S1 & Q); [exact E|exact N|exact B|exact M|rewrite E, app_length; lia|left; reflexivity|].
    cbn [app] in E1. change (len (@nil Z)) with 0 in S1. rewrite Z.add_0_r in S1. pose proof (len_nonneg q). pose proof (len_nonneg r). assert (LB : len bb = len q + len r) by (rewrite E1, len_app; reflexivity).
    assert (RD : rd text (len pre) (len pre + len q - len pre) = Ok q).
    { rewrite rd_in by lia. f_equal. rewrite E, E1. apply slice_exact; lia. }
    assert (FQ : line_fits m q) by (destruct Q as [(_ & Q)|((a & c & _ & _ & Q) & _)]; [apply Q; left; exact NB|exact Q]).
    destruct r as [|y r].
    + rewrite app_nil_r in E1. subst q. exists [bb]. split; [apply wraps_last; [exact NB|exact FQ]|]. intros fuel L. destruct fuel as [|fuel]; [lia|]. cbn [wrap_loop].
      rewrite (proj2 (Z.ltb_lt _ _)) by lia. rewrite S1. cbn [bind]. rewrite RD. cbn [bind]. rewrite (proj2 (Z.leb_le _ _)) by lia. reflexivity.
    + set (rr := y :: r) in *. assert (NR : rr <> []) by discriminate. assert (1 <= len rr) by (unfold rr; rewrite len_cons; pose proof (len_nonneg r); lia). clearbody rr.
      destruct Q as [(Q & _)|((a & c & Q1 & Q2 & Q3) & Q4)]; [contradiction|].
      assert (LL : length bb = (length q + length rr)%nat) by (rewrite E1, app_length; reflexivity).
      assert (1 <= length q)%nat by (rewrite Q1, app_length; cbn [length]; lia).
      destruct (IH rr) with (pre := pre ++ q) (text := text) (n := n) (m := m) as (l & Wl & Rl); [lia|rewrite E, E1, <- app_assoc; reflexivity|exact N|exact B|exact M|].
      exists (q :: l). split; [rewrite E1, Q1; apply wraps_more; [exact Q2|exact NR|rewrite <- Q1; exact Q3|rewrite <- Q1; exact Q4|exact Wl]|].
      intros fuel L. destruct fuel as [|fuel]; [lia|]. cbn [wrap_loop]. rewrite (proj2 (Z.ltb_lt _ _)) by lia. rewrite S1. cbn [bind]. rewrite RD. cbn [bind]. rewrite (proj2 (Z.leb_gt _ _)) by lia.
      rewrite len_app in Rl. rewrite Rl by lia. reflexivity.
Qed.
(* The text is printed to its end on lines that break at blanks; a line that is not the last one is as
   wide as it has to be, and no line holds more than one word behind the width. *)
Theorem C94_wrapped : forall width start text, 0 <= start < width -> width < 2 ^ 31 -> len text < 2 ^ 64 ->
  exists l, wraps (width - start) text l /\ concat l = text /\ forall fuel, (length text < fuel)%nat -> wrapped fuel width start text = Ok l.
Proof.
  intros width start text SW W L. destruct (wrap_is (S (length text)) text (le_n _) [] text (len text) (width - start)) as (l & Wl & R); [reflexivity|reflexivity|exact L|lia|].
  exists l. split; [exact Wl|]. split; [exact (wraps_concat _ _ _ Wl)|]. intros fuel F. unfold wrapped. replace (w64 (width - start)) with (width - start) by (unfold w64; rewrite Z.mod_small; lia). exact (R fuel F).
Qed.
Print Assumptions C94_wrapped.
Example C94_example : wrapped 30 20 8 (t "shows the file system hierarchy") = Ok [t "shows the file "; t "system hierarchy"].
Proof. vm_compute. reflexivity. Qed.
(* fsapfsinfo.c 117-118: the first line of the help is wider than the 80 columns it is wrapped for. *)
Definition info_description : list Z := t "Use fsapfsinfo to determine information about an Apple File System (APFS) container.".
Theorem C94_width_refuted : exists width text l, (forall fuel, (length text < fuel)%nat -> wrapped fuel width 0 text = Ok l) /\ exists p, In p l /\ width < len p.
Proof.
  exists 80, info_description, [info_description]. split; [|exists info_description; split; [left; reflexivity|vm_compute; reflexivity]].
  intros fuel F. destruct (C94_wrapped 80 0 info_description) as (l & _ & _ & R); [lia|lia|vm_compute; reflexivity|].
  assert (E : wrapped 100 80 0 info_description = Ok [info_description]) by (vm_compute; reflexivity).
  rewrite (R fuel F). rewrite <- E. symmetry. apply R. vm_compute. lia.
Qed.
Print Assumptions C94_width_refuted.
(* Without any room beside the indentation the function prints empty lines for ever. *)
Theorem C94_no_room_refuted : exists text, forall fuel width, wrapped fuel width width text = Fuel.
Proof.
  exists (t "a b"). intros fuel width. unfold wrapped. replace (width - width) with 0 by lia. change (w64 0) with 0.
  induction fuel as [|fuel IH]; [reflexivity|]. cbn [wrap_loop]. change (0 <? len (t "a b")) with true. cbv iota.
  change (line_scan (S (length (t "a b"))) (t "a b") (len (t "a b")) 0 0 0 0) with (@Ok (Z * Z) (0, 0)). cbn [bind]. change (rd (t "a b") 0 (0 - 0)) with (@Ok (list Z) []). cbn [bind]. change (len (t "a b") <=? 0) with false. cbv iota. rewrite IH. reflexivity.
Qed.
Print Assumptions C94_no_room_refuted.
