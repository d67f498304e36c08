(* The Gregorian calendar, day by day, independent of the code. *)
From Verif Require Import Base.

Definition leap_year (y : Z) : Prop := (4 | y) /\ (~ (100 | y) \/ (400 | y)).
(* How many days month m of year y has *)
Definition month_length (y m n : Z) : Prop :=
  1 <= m <= 12 /\ (m = 2 -> (leap_year y /\ n = 29 \/ ~ leap_year y /\ n = 28)) /\
  (m = 4 \/ m = 6 \/ m = 9 \/ m = 11 -> n = 30) /\ (m <> 2 /\ m <> 4 /\ m <> 6 /\ m <> 9 /\ m <> 11 -> n = 31).
(* The day after a day *)
Inductive day_after : Z * Z * Z -> Z * Z * Z -> Prop :=
| same_month y m d n : month_length y m n -> d < n -> day_after (y, m, d) (y, m, d + 1)
| next_month y m n : month_length y m n -> m < 12 -> day_after (y, m, n) (y, m + 1, 1)
| next_year y n : month_length y 12 n -> day_after (y, 12, n) (y + 1, 1, 1).
(* The day n days after 1 January 1970 *)
Inductive date_is : Z -> Z * Z * Z -> Prop :=
| epoch : date_is 0 (1970, 1, 1)
| later n a b : date_is n a -> day_after a b -> date_is (n + 1) b.
