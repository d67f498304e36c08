(* C80: the dates of a file in Python. *)
From Verif Require Import Base BaseLemmas ToolInfo PyTime PyTimeSpec PyTimeProofs.
Ltac Zify.zify_post_hook ::= Z.div_mod_to_equations.

(* The times from 1970 on, in nanoseconds, other than those of 31 December 1999, are the dates of
   the calendar and the times of day. *)
Theorem C80_file_dates_partial : forall fuel t, (200 <= fuel)%nat -> 0 <= t < 2 ^ 63 -> t / 86400000000000 <> 10956 ->
  exists y m d, date_is (t / 86400000000000) (y, m, d) /\
    file_datetime fuel t = Ok (mk_datetime y m d (t / 3600000000000 mod 24) (t / 60000000000 mod 60) (t / 1000000000 mod 60) (t / 1000 mod 1000000)).
Proof.
  intros fuel t F H0 H1. unfold file_datetime, s64. replace (t <? 2 ^ 63) with true by lia. rewrite Z.quot_div_nonneg by lia.
  assert (D : forall k, 0 < k -> t / 1000 / k = t / (1000 * k)) by (intros k K; apply Z.div_div; lia).
  destruct (posix_micro_ok fuel (t / 1000) F) as (y & m & d & X1 & X2).
  - apply Z.div_pos; lia.
  - rewrite D by lia. change (1000 * 86400000000) with 86400000000000. lia.
  - rewrite D by lia. exact H1.
  - exists y, m, d. rewrite D in X1 by lia. rewrite (D 3600000000), (D 60000000), (D 1000000) in X2 by lia. split; [exact X1|exact X2].
Qed.
Print Assumptions C80_file_dates_partial.
(* Of every day there is one date. *)
Theorem C80_one_date : forall n, 0 <= n -> (exists a, date_is n a) /\ forall a b, date_is n a -> date_is n b -> a = b.
Proof.
  intros n H. split; [exact (date_ex n H)|]. intros a b A B. destruct (date_number n a A) as (VA & EA). destruct (date_number n b B) as (VB & EB). apply number_inj; [exact VA|exact VB|lia].
Qed.
Print Assumptions C80_one_date.
(* 2024-02-29 12:34:56.789012 and 2100-03-01 *)
Example C80_example : file_datetime 200 1709210096789012345 = Ok (mk_datetime 2024 2 29 12 34 56 789012) /\ file_datetime 200 4107542400000000000 = Ok (mk_datetime 2100 3 1 0 0 0 0).
Proof. vm_compute. auto. Qed.
(* The full statement is false: all times of 31 December 1999 are an error; *)
Theorem C80_last_day_refuted : forall fuel t, (200 <= fuel)%nat -> t / 86400000000000 = 10956 -> 0 <= t < 2 ^ 63 /\ date_is 10956 (1999, 12, 31) /\ file_datetime fuel t = Fail.
Proof.
  intros fuel t F H. assert (T : 946598400000000000 <= t < 946684800000000000) by lia. split; [lia|]. split; [apply date_of; [lia|vm_compute; repeat split; discriminate|reflexivity]|].
  unfold file_datetime, s64. replace (t <? 2 ^ 63) with true by lia. rewrite Z.quot_div_nonneg by lia. set (u := t / 1000). assert (U : 946598400000000 <= u < 946684800000000) by (unfold u; lia). clearbody u. unfold posix_micro.
  assert (E : Z.quot (Z.quot (Z.quot (Z.quot u 1000000) 60) 60) 24 = 10956).
  { rewrite (Z.quot_div_nonneg u) by lia. rewrite (Z.quot_div_nonneg (u / 1000000)) by lia. rewrite (Z.quot_div_nonneg (u / 1000000 / 60)) by lia. rewrite (Z.quot_div_nonneg (u / 1000000 / 60 / 60)) by lia. lia. }
  rewrite E. change (10957 <=? 10956 + 1) with true. cbv iota. change (w64 (10956 + 1 - 10957)) with 0. unfold time_elements. destruct fuel as [|fuel]; [lia|]. reflexivity.
Qed.
Print Assumptions C80_last_day_refuted.
(* and for a time of 2 days or more before 1970 the first loop runs more than 500 000 000 000 000 times. *)
Theorem C80_before_1970_refuted : forall fuel t, - 2 ^ 63 <= t <= -172800000000000 -> Z.of_nat fuel < 500000000000000 -> file_datetime fuel (t mod 2 ^ 64) = Fuel.
Proof.
  intros fuel t H F. assert (S : s64 (t mod 2 ^ 64) = t) by (unfold s64; replace (t mod 2 ^ 64) with (t + 2 ^ 64) by (apply (Z.mod_unique_pos _ _ (-1)); lia); replace (t + 2 ^ 64 <? 2 ^ 63) with false by lia; lia).
  unfold file_datetime. rewrite S. unfold posix_micro.
  set (u := Z.quot (Z.quot (Z.quot (Z.quot (Z.quot t 1000) 1000000) 60) 60) 24).
  assert (U : -106752 <= u <= -2).
  { unfold u. rewrite (Z.quot_quot t 1000 1000000) by discriminate. rewrite (Z.quot_quot t (1000 * 1000000) 60) by discriminate. rewrite (Z.quot_quot t (1000 * 1000000 * 60) 60) by discriminate. rewrite (Z.quot_quot t (1000 * 1000000 * 60 * 60) 24) by discriminate. change (1000 * 1000000 * 60 * 60 * 24) with 86400000000000. replace t with (- (- t)) by lia. rewrite Z.quot_opp_l by discriminate. rewrite Z.quot_div_nonneg by lia. lia. }
  clearbody u. replace (10957 <=? u + 1) with false by lia. unfold time_elements. rewrite century_endless; [reflexivity|]. unfold w64. replace ((u + 1) mod 2 ^ 64) with (u + 1 + 2 ^ 64) by (apply (Z.mod_unique_pos _ _ (-1)); lia). lia.
Qed.
Print Assumptions C80_before_1970_refuted.
