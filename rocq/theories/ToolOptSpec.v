(* What a command line means, after the utility syntax guidelines of POSIX; what a wrapped text is. *)
From Verif Require Import Base ToolOpt.

Definition dash : Z := 45.

(* takes c: None, not an option; Some b, an option, b: with an argument. *)
Definition options_of := Z -> option bool.
Definition given := list (Z * option (list Z)).

(* What follows the dash of one argument: the options in it and how it ends: done, with an option
   that waits for its argument, or with a character that is no option. *)
Inductive ending := Done | Waits (c : Z) | Strange.
Inductive group (takes : options_of) : list Z -> given -> ending -> Prop :=
| g_done : group takes [] [] Done
| g_flag c g o e : takes c = Some false -> group takes g o e -> group takes (c :: g) ((c, None) :: o) e
| g_joined c v : takes c = Some true -> v <> [] -> group takes (c :: v) [(c, Some v)] Done
| g_waits c : takes c = Some true -> group takes [c] [] (Waits c)
| g_strange c g : takes c = None -> group takes (c :: g) [] Strange.

Inductive outcome := Options (o : given) (operands : list (list Z)) | Unknown (o : given) | Missing (o : given).
Definition before (o : given) (r : outcome) : outcome :=
  match r with
  | Options p l => Options (o ++ p) l
  | Unknown p => Unknown (o ++ p)
  | Missing p => Missing (o ++ p)
  end.

(* The arguments of a command, its name excluded. *)
Inductive reading (takes : options_of) : list (list Z) -> outcome -> Prop :=
| r_none : reading takes [] (Options [] [])
| r_empty l : reading takes ([] :: l) (Options [] ([] :: l))
| r_operand c a l : c <> dash -> reading takes ((c :: a) :: l) (Options [] ((c :: a) :: l))
| r_dash l : reading takes ([dash] :: l) (Options [] ([dash] :: l))
| r_dashes l : reading takes ([dash; dash] :: l) (Options [] l)
| r_group g l o r : g <> [] -> g <> [dash] -> group takes g o Done -> reading takes l r -> reading takes ((dash :: g) :: l) (before o r)
| r_waits g l o c v r : group takes g o (Waits c) -> reading takes l r -> reading takes ((dash :: g) :: v :: l) (before (o ++ [(c, Some v)]) r)
| r_missing g o c : group takes g o (Waits c) -> reading takes [dash :: g] (Missing o)
| r_strange g l o : g <> [] -> g <> [dash] -> group takes g o Strange -> reading takes ((dash :: g) :: l) (Unknown o).

(* What a program sees of it: the options and where the operands begin among n arguments. *)
Definition opts (r : outcome) : given := match r with Options o _ => o | Unknown o => o | Missing o => o end.
Definition stops (n : Z) (r : outcome) : stop := match r with Options _ l => SEnd (n - len l) | Unknown _ => SUnknown | Missing _ => SMissing end.

(* Arguments without the two forms the function treats in its own way: a dash alone, and words that
   begin with two dashes. *)
Definition plain (a : list Z) : Prop := Forall (fun c => 1 <= c) a /\ a <> [dash] /\ forall r, a = dash :: dash :: r -> r = [].

(* The options of a table of a program: the entries with a character and a help text. *)
Definition listed (o : option_entry) : bool := negb (oe_identifier o =? 0) && match oe_help o with Some _ => true | None => false end.
Definition takes_of (table : list option_entry) : options_of := fun c =>
  match find (fun o => listed o && (oe_identifier o =? c)) table with
  | Some o => Some (match oe_name o with Some _ => true | None => false end)
  | None => None
  end.
Definition room (table : list option_entry) : Z :=
  fold_right (fun o n => (if listed o then match oe_name o with Some _ => 2 | None => 1 end else 0) + n) 1 table.
Definition fine_table (table : list option_entry) : Prop :=
  Forall (fun o => listed o = true -> ~ In (oe_identifier o) [-1; 45; 58; 63]) table.

(* A text on lines: nothing is lost, a line ends at a blank or at the end of the text, and without its
   last word it is shorter than the width. *)
Definition blank (c : Z) : Prop := c = 32 \/ c = 10.
Definition last_word (w : list Z) : Prop := exists u c, w = u ++ [c] /\ Forall (fun x => ~ blank x) u.
Definition line_fits (width : Z) (p : list Z) : Prop := exists a w, p = a ++ w /\ len a < width /\ (last_word w \/ w = []).
Inductive wraps (width : Z) : list Z -> list (list Z) -> Prop :=
| wraps_none : wraps width [] []
| wraps_last p : p <> [] -> line_fits width p -> wraps width p [p]
| wraps_more a c r l : blank c -> r <> [] -> line_fits width (a ++ [c]) -> width <= len (a ++ [c]) -> wraps width r l -> wraps width ((a ++ [c]) ++ r) ((a ++ [c]) :: l).
