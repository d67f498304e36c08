(* What the texts of the tools are, independent of the code. *)
From Verif Require Import Base NameSpec.

(* A character that can be shown in a list with one name per line: none of the control
   characters of Unicode (category Cc), no line or paragraph separator, no noncharacter. *)
Definition shown (c : Z) : Prop :=
  ~ (0 <= c <= 0x1f) /\ ~ (0x7f <= c <= 0x9f) /\ c <> 0x2028 /\ c <> 0x2029 /\ c mod 65536 <> 0xfffe /\ c mod 65536 <> 0xffff.

(* Names s one after another, each preceded by the separator '/' *)
Definition path_of (names : list (list Z)) : list Z := concat (map (cons 47) names).
