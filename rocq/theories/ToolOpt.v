(* Model of the command line of the tools: fsapfstools/fsapfstools_getopt.c 40-187 (getopt, for
   systems without one), 193-272 (wrapped texts), 520-571 (the options string), and of the loop over
   the options in fsapfstools/fsapfsinfo.c 202-309 (the one of fsapfsmount.c is the same).
   A string is the list of its characters before the terminator, a pointer into a string the rest of
   it; None is the pointer past the terminator. system_string_search_character is memchr. An argument
   index and the sizes are not wrapped (they are far below 2^31). Not modelled: the messages. *)
From Verif Require Import Base.

Definition pointer := option (list Z).
(* *p *)
Definition deref (p : pointer) : res Z :=
  match p with
  | Some (c :: _) => Ok c
  | Some [] => Ok 0
  | None => Oob
  end.
(* p + 1 *)
Definition advance (p : pointer) : pointer :=
  match p with
  | Some (_ :: r) => Some r
  | _ => None
  end.

(* fsapfstools_getopt.c 40-52: the variables that live between the calls *)
Record gstate := mk_g { optind : Z; optarg : option (list Z); optopt : Z; next_option : option (list Z) }.
Definition g_init : gstate := mk_g 1 None 0 None.
Definition set_optind (g : gstate) (v : Z) : gstate := mk_g v (optarg g) (optopt g) (next_option g).
Definition set_optarg (g : gstate) (v : option (list Z)) : gstate := mk_g (optind g) v (optopt g) (next_option g).
Definition set_optopt (g : gstate) (v : Z) : gstate := mk_g (optind g) (optarg g) v (next_option g).
Definition set_next (g : gstate) (v : option (list Z)) : gstate := mk_g (optind g) (optarg g) (optopt g) v.

(* memchr: the rest of the string from the character *)
Fixpoint search_character (s : list Z) (c : Z) : pointer :=
  match s with
  | [] => None
  | x :: r => if x =? c then Some s else search_character r c
  end.

(* fsapfstools_getopt.c 105-186, from the pointer to the character of the option *)
Definition getopt_at (args : list (list Z)) (os : list Z) (p : pointer) (g : gstate) : res (Z * gstate) :=
  let! c := deref p in
  let g := set_optopt g c in
  let option_value := search_character os c in
  let p := advance p in
  match (if c =? 58 then None else option_value) with
  | None =>
    let! x := deref p in
    let g := if x =? 0 then set_optind g (optind g + 1) else g in
    Ok (63, g)
  | Some _ =>
    let! o := deref (advance option_value) in
    if negb (o =? 58) then
      let g := set_optarg g None in
      let! x := deref p in
      let g := if x =? 0 then set_optind g (optind g + 1) else set_next g p in
      Ok (c, g)
    else
      let! x := deref p in
      if negb (x =? 0) then Ok (c, set_optind (set_optarg g p) (optind g + 1))
      else
        let g := set_optind g (optind g + 1) in
        if len args <=? optind g then Ok (58, g)
        else
          let! v := getb args (optind g) in
          Ok (c, set_optind (set_optarg g (Some v)) (optind g + 1))
  end.
(* fsapfstools_getopt.c 59-187; args: argument_values, the name of the program first *)
Definition getopt (args : list (list Z)) (os : list Z) (g : gstate) : res (Z * gstate) :=
  match next_option g with
  | Some s => getopt_at args os (Some s) (set_next g None)
  | None =>
    if len args <=? optind g then Ok (-1, g)
    else
      let! a := getb args (optind g) in
      let! x := deref (Some a) in
      if x =? 0 then Ok (-1, g)
      else if negb (x =? 45) then Ok (-1, g)
      else
        let p := advance (Some a) in
        let! x := deref p in
        if x =? 45 then Ok (-1, set_optind g (optind g + 1))
        else getopt_at args os p g
  end.

(* fsapfsinfo.c 202-293, fsapfsmount.c: the calls up to the first -1, '?' or ':'; what comes of the
   options is kept in their order *)
Inductive stop := SEnd (index : Z) | SUnknown | SMissing.
Fixpoint options_loop (fuel : nat) (args : list (list Z)) (os : list Z) (g : gstate) : res (list (Z * option (list Z)) * stop) :=
  match fuel with
  | O => Fuel
  | S fuel =>
    let! (c, g) := getopt args os g in
    if c =? -1 then Ok ([], SEnd (optind g))
    else if c =? 63 then Ok ([], SUnknown)
    else if c =? 58 then Ok ([], SMissing)
    else
      let! (l, s) := options_loop fuel args os g in
      Ok ((c, optarg g) :: l, s)
  end.

(* fsapfstools_getopt.h: an option of the table *)
Record option_entry := mk_option { oe_identifier : Z; oe_name : option (list Z); oe_help : option (list Z) }.

(* fsapfstools_getopt.c 520-571: the characters written to the options string of the given size *)
Fixpoint options_string_loop (l : list option_entry) (size : Z) (written : list Z) : res (list Z) :=
  match l with
  | [] => Ok written
  | o :: l =>
    if (oe_identifier o =? 0) || (match oe_help o with None => true | Some _ => false end) then options_string_loop l size written
    else
      let! _ := check (negb (size <=? len written)) in
      let written := written ++ [oe_identifier o] in
      match oe_name o with
      | None => options_string_loop l size written
      | Some _ =>
        let! _ := check (negb (size <=? len written)) in
        options_string_loop l size (written ++ [58])
      end
  end.
Definition options_string (l : list option_entry) (size : Z) : res (list Z) :=
  let! w := options_string_loop l size [] in
  let! _ := check (negb (size <=? len w)) in
  Ok (w ++ [0]).

(* fsapfsinfo.c 190-293: the options of the arguments *)
Definition command_line (fuel : nat) (table : list option_entry) (args : list (list Z)) : res (list (Z * option (list Z)) * stop) :=
  let! w := options_string table 32 in
  options_loop fuel args (firstn (length w - 1) w) g_init.

(* ---- fsapfstools_getopt.c 193-272 ---- *)
(* 224-232: the offset of the next blank, or the end of the text *)
Fixpoint word_scan (fuel : nat) (text : list Z) (n next : Z) : res Z :=
  match fuel with
  | O => Fuel
  | S fuel =>
    if next <? n then
      let! c := getb text next in
      if (c =? 32) || (c =? 10) then Ok next else word_scan fuel text n (next + 1)
    else Ok next
  end.
(* 222-242: (next_word_offset, word_offset) *)
Fixpoint line_scan (fuel : nat) (text : list Z) (n max line next word : Z) : res (Z * Z) :=
  match fuel with
  | O => Fuel
  | S fuel =>
    if w64 (next - line) <? max then
      let! next := word_scan (S (length text)) text n next in
      if n <=? next then Ok (next, n)
      else line_scan fuel text n max line (next + 1) (next + 1)
    else Ok (next, word)
  end.
(* 218-271: the pieces of the text, one on each line; indentations are left out *)
Fixpoint wrap_loop (fuel : nat) (text : list Z) (n max line next word : Z) : res (list (list Z)) :=
  match fuel with
  | O => Fuel
  | S fuel =>
    if line <? n then
      let! (next, word) := line_scan (S (length text)) text n max line next word in
      let! piece := rd text line (word - line) in
      if n <=? word then Ok [piece]
      else
        let! r := wrap_loop fuel text n max word next next in
        Ok (piece :: r)
    else Ok []
  end.
(* width, start: int *)
Definition wrapped (fuel : nat) (width start : Z) (text : list Z) : res (list (list Z)) :=
  wrap_loop fuel text (len text) (w64 (width - start)) 0 0 0.
