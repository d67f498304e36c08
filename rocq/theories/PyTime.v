(* Model of the dates of pyfsapfs: pyfsapfs/pyfsapfs_datetime.c 31-169 (date of a number of days)
   and 633-690 (POSIX time in microseconds); pyfsapfs/pyfsapfs_file_entry.c 779-836 and the four
   functions like it (the stored nanoseconds). PyDateTime_FromDateAndTime (external) fails for what
   is no date or no time of day, and for years above 9999. Not modelled: allocation failures, the
   functions for other kinds of timestamps, which nothing calls. *)
From Verif Require Import Base ToolInfo.

Record datetime := mk_datetime { dt_year : Z; dt_month : Z; dt_day : Z; dt_hour : Z; dt_minute : Z; dt_second : Z; dt_micro : Z }.

(* pyfsapfs_datetime.c 73-75 *)
Definition py_leap (y : Z) : bool := ((y mod 4 =? 0) && negb (y mod 100 =? 0)) || (y mod 400 =? 0).
(* pyfsapfs_datetime.c 50-67; the year is a uint16_t *)
Fixpoint century_loop (fuel : nat) (year n : Z) : res (Z * Z) :=
  match fuel with
  | O => Fuel
  | S fuel =>
    if n =? 0 then Ok (year, n)
    else
      let days := if year mod 400 =? 0 then 36525 else 36524 in
      if n <=? days then Ok (year, n) else century_loop fuel (w16 (year + 100)) (n - days)
  end.
(* pyfsapfs_datetime.c 68-90 *)
Fixpoint year_loop (fuel : nat) (year n : Z) : res (Z * Z) :=
  match fuel with
  | O => Fuel
  | S fuel =>
    if n =? 0 then Ok (year, n)
    else
      let days := if py_leap year then 366 else 365 in
      if n <=? days then Ok (year, n) else year_loop fuel (w16 (year + 1)) (n - days)
  end.
(* pyfsapfs_datetime.c 93-152 *)
Definition month_days (year month : Z) : res Z :=
  if month =? 2 then Ok (if py_leap year then 29 else 28)
  else if (month =? 4) || (month =? 6) || (month =? 9) || (month =? 11) then Ok 30
  else if (month =? 1) || (month =? 3) || (month =? 5) || (month =? 7) || (month =? 8) || (month =? 10) || (month =? 12) then Ok 31
  else Fail.
Fixpoint month_loop (fuel : nat) (year month n : Z) : res (Z * Z) :=
  match fuel with
  | O => Fuel
  | S fuel =>
    if n =? 0 then Ok (month, n)
    else
      let! days := month_days year month in
      if n <=? days then Ok (month, n) else month_loop fuel year (w8 (month + 1)) (n - days)
  end.
(* PyDateTime_FromDateAndTime (external) *)
Definition new_datetime (year month day hour minute second micro : Z) : res datetime :=
  let! _ := check ((1 <=? year) && (year <=? 9999)) in
  let! _ := check ((1 <=? month) && (month <=? 12)) in
  let! days := month_days year month in
  let! _ := check ((1 <=? day) && (day <=? days)) in
  let! _ := check ((hour <=? 23) && (minute <=? 59) && (second <=? 59) && (0 <=? micro) && (micro <=? 999999)) in
  Ok (mk_datetime year month day hour minute second micro).
(* pyfsapfs_datetime.c 34-169; fuel: how often the loops run *)
Definition time_elements (fuel : nat) (year n hour minute second micro : Z) : res datetime :=
  let! (year, n) := century_loop fuel year n in
  let! (year, n) := year_loop fuel year n in
  let! (month, n) := month_loop fuel year 1 n in
  new_datetime year month (w8 n) hour minute second micro.

(* int *)
Definition s32 (x : Z) : Z := if x <? 2 ^ 31 then x else x - 2 ^ 32.
(* pyfsapfs_datetime.c 636-690: quotients are rounded towards zero, the remainder has the sign of
   the time and is cut to the type of the element *)
Definition posix_micro (fuel : nat) (t : Z) : res datetime :=
  let micro := s32 (w32 (Z.rem t 1000000)) in
  let t := Z.quot t 1000000 in
  let second := w8 (Z.rem t 60) in
  let t := Z.quot t 60 in
  let minute := w8 (Z.rem t 60) in
  let t := Z.quot t 60 in
  let hour := w8 (Z.rem t 24) in
  let t := Z.quot t 24 + 1 in
  if 10957 <=? t then time_elements fuel 2000 (w64 (t - 10957)) hour minute second micro
  else time_elements fuel 1970 (w64 t) hour minute second micro.
(* pyfsapfs_file_entry.c 832-833, of the stored value *)
Definition file_datetime (fuel : nat) (stored : Z) : res datetime := posix_micro fuel (Z.quot (s64 stored) 1000).
