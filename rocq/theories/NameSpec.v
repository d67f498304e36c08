(* Names as sequences of Unicode code points, their encodings, and the order of names.
   Independent of the model except for the mapping tables, which are data. *)
From Verif Require Import Base NameTables.

(* Unicode scalar values *)
Definition scalar (c : Z) : Prop := 0 <= c < 0xd800 \/ 0xdfff < c <= 0x10ffff.

(* RFC 3629, section 3 *)
Definition utf8_char (c : Z) : list Z :=
  if c <? 0x80 then [c]
  else if c <? 0x800 then [0xc0 + c / 64; 0x80 + c mod 64]
  else if c <? 0x10000 then [0xe0 + c / 4096; 0x80 + c / 64 mod 64; 0x80 + c mod 64]
  else [0xf0 + c / 262144; 0x80 + c / 4096 mod 64; 0x80 + c / 64 mod 64; 0x80 + c mod 64].
Definition utf8 (s : list Z) : list Z := concat (map utf8_char s).

(* RFC 2781, section 2.1 *)
Definition utf16_char (c : Z) : list Z :=
  if c <? 0x10000 then [c]
  else [0xd800 + (c - 0x10000) / 1024; 0xdc00 + (c - 0x10000) mod 1024].
Definition utf16 (s : list Z) : list Z := concat (map utf16_char s).

(* The mapping given by a set of tables; a character outside of them maps to [d]. *)
Fixpoint table_value {A} (d : A) (ts : list (Z * Z * list A)) (c : Z) : A :=
  match ts with
  | [] => d
  | (lo, hi, t) :: ts => if (lo <=? c) && (c <=? hi) then nth (Z.to_nat (c - lo)) t d else table_value d ts c
  end.
Definition fold_of (c : Z) : Z := table_value c fold_tables c.
Definition nfd_of (c : Z) : list Z := table_value [c] nfd_tables c.

(* What a name is compared by: for every character its decomposition, after folding of
   case where that is enabled. *)
Definition folded (fold : bool) (c : Z) : Z := if fold then fold_of c else c.
Definition name_key (fold : bool) (s : list Z) : list (list Z) := map (fun c => nfd_of (folded fold c)) s.

(* The order: character by character; the decompositions of two characters are compared
   as sequences in which a longer sequence comes before its prefixes. *)
Inductive char_lt : list Z -> list Z -> Prop :=
| char_longer : forall x l, char_lt (x :: l) []
| char_head : forall x y l m, x < y -> char_lt (x :: l) (y :: m)
| char_tail : forall x l m, char_lt l m -> char_lt (x :: l) (x :: m).
Inductive key_lt : list (list Z) -> list (list Z) -> Prop :=
| key_prefix : forall x l, key_lt [] (x :: l)
| key_head : forall x y l m, char_lt x y -> key_lt (x :: l) (y :: m)
| key_tail : forall x l m, key_lt l m -> key_lt (x :: l) (x :: m).

(* The canonical decomposition of a name by the tables, without Hangul syllables (which
   Unicode decomposes by arithmetic) and without reordering of combining marks. *)
Definition decomposed (s : list Z) : list Z := concat (map nfd_of s).

(* Unicode, section 3.12: the decomposition of a Hangul syllable. *)
Definition hangul (c : Z) : list Z :=
  let i := c - 0xac00 in
  let l := 0x1100 + i / 588 in
  let v := 0x1161 + i mod 588 / 28 in
  let t := i mod 28 in
  if t =? 0 then [l; v] else [l; v; 0x11a7 + t].
Definition canonical (c : Z) : list Z :=
  if (0xac00 <=? c) && (c <=? 0xd7a3) then hangul c else nfd_of c.
(* Two names with the same canonical decomposition are spellings of the same name. *)
Definition same_spelling (s t : list Z) : Prop := concat (map canonical s) = concat (map canonical t).

(* What is hashed for a character: its decomposition, on case-insensitive volumes after
   full case folding (which may give several characters). *)
Definition special (c : Z) : list Z :=
  if (0x1f80 <=? c) && (c <=? 0x1faf) then nth (Z.to_nat (c - 0x1f80)) special_1f80 []
  else match find (fun p => fst p =? c) special_single with Some p => snd p | None => nfd_of c end.
Definition hash_of (fold : bool) (c : Z) : list Z := if fold then special (fold_of c) else nfd_of c.
