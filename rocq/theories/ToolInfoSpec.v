(* What the texts of fsapfsinfo mean, independent of the code. *)
From Verif Require Import Base NameSpec TreeSpec Records FsTree FsSpec FsNameSpec FileSpec ToolPathSpec.

(* Decimal numerals; points in time in nanoseconds, as seconds with nine decimals. *)
Definition digit (c : Z) : Prop := 48 <= c <= 57.
Definition numeral (base : Z) (l : list Z) : Z := fold_left (fun a c => base * a + (if c <=? 57 then c - 48 else c - 87)) l 0.
Definition decimal (l : list Z) (v : Z) : Prop := l <> [] /\ Forall digit l /\ numeral 10 l = v.
Definition moment (l : list Z) (t : Z) : Prop := exists a b s n, l = a ++ 46 :: b /\ decimal a s /\ decimal b n /\ len b = 9 /\ t = s * 1000000000 + n.

(* The text t spells the characters s: the characters in quotes follow a backslash; \xhh and
   \Uhhhhhhhh are characters by their number; all others can be shown and stand for themselves. *)
Definition hexdigit (c : Z) : Prop := 48 <= c <= 57 \/ 97 <= c <= 102.
Inductive spelled (quotes : list Z) : list Z -> list Z -> Prop :=
| sp_nil : spelled quotes [] []
| sp_plain c t s : shown c -> ~ In c quotes -> spelled quotes t s -> spelled quotes (c :: t) (c :: s)
| sp_quote c t s : In c quotes -> spelled quotes t s -> spelled quotes (92 :: c :: t) (c :: s)
| sp_x l t s : len l = 2 -> Forall hexdigit l -> spelled quotes t s -> spelled quotes (92 :: 120 :: l ++ t) (numeral 16 l :: s)
| sp_u l t s : len l = 8 -> Forall hexdigit l -> spelled quotes t s -> spelled quotes (92 :: 85 :: l ++ t) (numeral 16 l :: s).

(* The fields of a line: separated by '|'; a character after a backslash is no separator. *)
Fixpoint fields (quoted : bool) (l : list Z) : list (list Z) :=
  match l with
  | [] => [[]]
  | c :: l =>
    if negb quoted && (c =? 124) then [] :: fields false l
    else match fields (negb quoted && (c =? 92)) l with
         | f :: fs => (c :: f) :: fs
         | [] => []
         end
  end.
(* The lines of a text *)
Fixpoint lines (l : list Z) : list (list Z) :=
  match l with
  | [] => [[]]
  | c :: l =>
    if c =? 10 then [] :: lines l
    else match lines l with
         | f :: fs => (c :: f) :: fs
         | [] => []
         end
  end.

(* A mode as text: the type, then the permissions of the owner, the group and the others. *)
Definition type_letter (k : Z) : Z :=
  match k with 1 => 112 | 2 => 99 | 4 => 100 | 6 => 98 | 10 => 108 | 12 => 115 | _ => 45 end.
Definition mode_means (l : list Z) (m : Z) : Prop :=
  len l = 10 /\ nth 0 l 0 = type_letter (m / 4096) /\
  forall k, (k < 9)%nat -> nth (9 - k) l 0 = if Z.testbit m (Z.of_nat k) then nth (k mod 3) [120; 119; 114] 0 else 45.

(* The entry d of object i is reached from object id (entry e) by the names that are stored. *)
Inductive below (hashed fold : bool) (recs : list record) : Z -> option dentry -> list (list Z) -> Z -> option dentry -> Prop :=
| below_here id e : below hashed fold recs id e [] id e
| below_down id e r d s names i e' : named hashed fold id recs r d s -> below hashed fold recs (de_inode d) (Some d) names i e' ->
    below hashed fold recs id e (s :: names) i e'.
(* Names with separators between them *)
Fixpoint joined (names : list (list Z)) : list Z :=
  match names with
  | [] => []
  | [s] => s
  | s :: names => s ++ 47 :: joined names
  end.

(* The bytes d as hexadecimal digits *)
Definition hex_bytes (l d : list Z) : Prop := Forall hexdigit l /\ len l = 2 * len d /\ numeral 16 l = be_val d.

(* What a line of a bodyfile says (The Sleuth Kit, body file format): the MD5 of the data, the
   path, the identifier, the mode, the owner, the group, the size, and the times of access, change
   of the data, change of the inode, creation. Without calculation the digest is 0; of what is no
   regular file it is all zeros. *)
Definition digest_says (md5 : list Z -> list Z) (calc : bool) (m : Z) (data d : list Z) : Prop :=
  if calc then if m / 4096 =? 8 then hex_bytes d (md5 data) else d = repeat 48 32 else d = [48].
Definition body_says (md5 : list Z -> list Z) (calc : bool) (path : list Z) (id : Z) (i : inode) (data line : list Z) : Prop :=
  lines line = [line] /\
  exists d p n m u g z a b c e, fields false line = [d; utf8 p; n; m; u; g; z; a; b; c; e] /\
    digest_says md5 calc (in_mode i) data d /\ spelled [92; 124] p path /\ decimal n id /\ mode_means m (in_mode i) /\
    decimal u (in_owner i) /\ decimal g (in_group i) /\ decimal z (len data) /\
    moment a (in_access i) /\ moment b (in_mtime i) /\ moment c (in_changed i) /\ moment e (in_created i).
