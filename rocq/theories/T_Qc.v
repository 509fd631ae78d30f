(** The unit tests of test_qc.py, run on the model (generated from the test file; these are tests, not proofs).
    Left out (field read from a file): TestQCMethodsGetHiresSST.test_sst_is_none_at_S_pole_at_all_longitudes, TestQCMethodsGetHiresSST.test_sst_at_N_pole, TestQCMethodsGetSST.test_december, TestQCMethodsGetSST.test_stdev_is_none_at_pole, TestQCMethodsGetSST.test_stdev_known_value, TestQCMethodsGetSST.test_north_pole_is_freezing_in_january, TestQCMethodsGetSST.test_known_value, TestQCMethodsGetSST.test_south_pole_is_missing.
    Left out (zone with a fraction): TestQCMethodsSunangle.test_sunset_in_Zanzibar_City_Jan_31_1995.
    Left out (real-valued): TestQCMethodsPgross.test_prior_probability_is_one, TestQCMethodsPgross.test_prior_probability_is_zero, TestQCMethodsPDataGivenGross.test_simple. *)
Require Import String ZArith QArith List Bool.
Require Import Verif.M_Base Verif.M_Calendar Verif.M_Checks Verif.M_Stats Verif.M_Grid Verif.M_Sun Verif.T_Num Verif.T_Check.
Import ListNotations.
Open Scope string_scope.
Open Scope Z_scope.

Definition TestWindConsistency_test_calm : bool := Eval vm_compute in (all [same (VNum 0) (ofZ (wind_consistency (Some (Fin 0)) (Some (Fin 361)) (Fin 4)));
  same (VNum 1) (ofZ (wind_consistency (Some (Fin 1)) (Some (Fin 361)) (Fin 4)))]).
Example TestWindConsistency_test_calm_is : TestWindConsistency_test_calm = true.
Proof. reflexivity. Qed.
Definition TestWindConsistency_test_variable : bool := Eval vm_compute in (all [same (VNum 0) (ofZ (wind_consistency (Some (Fin 2)) (Some (Fin 362)) (Fin 4)));
  same (VNum 1) (ofZ (wind_consistency (Some (Fin 5)) (Some (Fin 362)) (Fin 4)))]).
Example TestWindConsistency_test_variable_is : TestWindConsistency_test_variable = true.
Proof. reflexivity. Qed.
Definition Testseason_test_all : bool := Eval vm_compute in (all [same (rs (opt VStr) (season 1)) (VStr "DJF"%string);
  same (rs (opt VStr) (season 2)) (VStr "DJF"%string);
  same (rs (opt VStr) (season 3)) (VStr "MAM"%string);
  same (rs (opt VStr) (season 4)) (VStr "MAM"%string);
  same (rs (opt VStr) (season 5)) (VStr "MAM"%string);
  same (rs (opt VStr) (season 6)) (VStr "JJA"%string);
  same (rs (opt VStr) (season 7)) (VStr "JJA"%string);
  same (rs (opt VStr) (season 8)) (VStr "JJA"%string);
  same (rs (opt VStr) (season 9)) (VStr "SON"%string);
  same (rs (opt VStr) (season 10)) (VStr "SON"%string);
  same (rs (opt VStr) (season 11)) (VStr "SON"%string);
  same (rs (opt VStr) (season 12)) (VStr "DJF"%string)]).
Example Testseason_test_all_is : Testseason_test_all = true.
Proof. reflexivity. Qed.
Definition Testseason_test_odd : bool := Eval vm_compute in (all [same (rs (opt VStr) (season 13)) VNone]).
Example Testseason_test_odd_is : Testseason_test_odd = true.
Proof. reflexivity. Qed.
Definition Testyesterday_test_odd : bool := Eval vm_compute in (all [same (opt (fun t => let '(y, m, d) := t in ofZ y) (yesterday 2003 2 30)) VNone;
  same (opt (fun t => let '(y, m, d) := t in ofZ m) (yesterday 2003 2 30)) VNone;
  same (opt (fun t => let '(y, m, d) := t in ofZ d) (yesterday 2003 2 30)) VNone]).
Example Testyesterday_test_odd_is : Testyesterday_test_odd = true.
Proof. reflexivity. Qed.
Definition Testyesterday_test_easy : bool := Eval vm_compute in (all [same (opt (fun t => let '(y, m, d) := t in ofZ y) (yesterday 2003 2 3)) (VNum 2003);
  same (opt (fun t => let '(y, m, d) := t in ofZ m) (yesterday 2003 2 3)) (VNum 2);
  same (opt (fun t => let '(y, m, d) := t in ofZ d) (yesterday 2003 2 3)) (VNum 2)]).
Example Testyesterday_test_easy_is : Testyesterday_test_easy = true.
Proof. reflexivity. Qed.
Definition Testyesterday_test_jan1 : bool := Eval vm_compute in (all [same (opt (fun t => let '(y, m, d) := t in ofZ y) (yesterday 1999 1 1)) (VNum 1998);
  same (opt (fun t => let '(y, m, d) := t in ofZ m) (yesterday 1999 1 1)) (VNum 12);
  same (opt (fun t => let '(y, m, d) := t in ofZ d) (yesterday 1999 1 1)) (VNum 31)]).
Example Testyesterday_test_jan1_is : Testyesterday_test_jan1 = true.
Proof. reflexivity. Qed.
Definition Testyesterday_test_leap : bool := Eval vm_compute in (all [same (opt (fun t => let '(y, m, d) := t in ofZ y) (yesterday 2008 3 1)) (VNum 2008);
  same (opt (fun t => let '(y, m, d) := t in ofZ m) (yesterday 2008 3 1)) (VNum 2);
  same (opt (fun t => let '(y, m, d) := t in ofZ d) (yesterday 2008 3 1)) (VNum 29)]).
Example Testyesterday_test_leap_is : Testyesterday_test_leap = true.
Proof. reflexivity. Qed.
Definition Testyesterday_test_nonleap : bool := Eval vm_compute in (all [same (opt (fun t => let '(y, m, d) := t in ofZ y) (yesterday 2007 3 1)) (VNum 2007);
  same (opt (fun t => let '(y, m, d) := t in ofZ m) (yesterday 2007 3 1)) (VNum 2);
  same (opt (fun t => let '(y, m, d) := t in ofZ d) (yesterday 2007 3 1)) (VNum 28)]).
Example Testyesterday_test_nonleap_is : Testyesterday_test_nonleap = true.
Proof. reflexivity. Qed.
Definition TestPentadToMonth_test_all_ps : bool := Eval vm_compute in (all [same (VNum 1) (rs ofZ (let! (m, d) := pentad_to_month_day 1 in which_pentad m d));
  same (VNum 2) (rs ofZ (let! (m, d) := pentad_to_month_day 2 in which_pentad m d));
  same (VNum 3) (rs ofZ (let! (m, d) := pentad_to_month_day 3 in which_pentad m d));
  same (VNum 4) (rs ofZ (let! (m, d) := pentad_to_month_day 4 in which_pentad m d));
  same (VNum 5) (rs ofZ (let! (m, d) := pentad_to_month_day 5 in which_pentad m d));
  same (VNum 6) (rs ofZ (let! (m, d) := pentad_to_month_day 6 in which_pentad m d));
  same (VNum 7) (rs ofZ (let! (m, d) := pentad_to_month_day 7 in which_pentad m d));
  same (VNum 8) (rs ofZ (let! (m, d) := pentad_to_month_day 8 in which_pentad m d));
  same (VNum 9) (rs ofZ (let! (m, d) := pentad_to_month_day 9 in which_pentad m d));
  same (VNum 10) (rs ofZ (let! (m, d) := pentad_to_month_day 10 in which_pentad m d));
  same (VNum 11) (rs ofZ (let! (m, d) := pentad_to_month_day 11 in which_pentad m d));
  same (VNum 12) (rs ofZ (let! (m, d) := pentad_to_month_day 12 in which_pentad m d));
  same (VNum 13) (rs ofZ (let! (m, d) := pentad_to_month_day 13 in which_pentad m d));
  same (VNum 14) (rs ofZ (let! (m, d) := pentad_to_month_day 14 in which_pentad m d));
  same (VNum 15) (rs ofZ (let! (m, d) := pentad_to_month_day 15 in which_pentad m d));
  same (VNum 16) (rs ofZ (let! (m, d) := pentad_to_month_day 16 in which_pentad m d));
  same (VNum 17) (rs ofZ (let! (m, d) := pentad_to_month_day 17 in which_pentad m d));
  same (VNum 18) (rs ofZ (let! (m, d) := pentad_to_month_day 18 in which_pentad m d));
  same (VNum 19) (rs ofZ (let! (m, d) := pentad_to_month_day 19 in which_pentad m d));
  same (VNum 20) (rs ofZ (let! (m, d) := pentad_to_month_day 20 in which_pentad m d));
  same (VNum 21) (rs ofZ (let! (m, d) := pentad_to_month_day 21 in which_pentad m d));
  same (VNum 22) (rs ofZ (let! (m, d) := pentad_to_month_day 22 in which_pentad m d));
  same (VNum 23) (rs ofZ (let! (m, d) := pentad_to_month_day 23 in which_pentad m d));
  same (VNum 24) (rs ofZ (let! (m, d) := pentad_to_month_day 24 in which_pentad m d));
  same (VNum 25) (rs ofZ (let! (m, d) := pentad_to_month_day 25 in which_pentad m d));
  same (VNum 26) (rs ofZ (let! (m, d) := pentad_to_month_day 26 in which_pentad m d));
  same (VNum 27) (rs ofZ (let! (m, d) := pentad_to_month_day 27 in which_pentad m d));
  same (VNum 28) (rs ofZ (let! (m, d) := pentad_to_month_day 28 in which_pentad m d));
  same (VNum 29) (rs ofZ (let! (m, d) := pentad_to_month_day 29 in which_pentad m d));
  same (VNum 30) (rs ofZ (let! (m, d) := pentad_to_month_day 30 in which_pentad m d));
  same (VNum 31) (rs ofZ (let! (m, d) := pentad_to_month_day 31 in which_pentad m d));
  same (VNum 32) (rs ofZ (let! (m, d) := pentad_to_month_day 32 in which_pentad m d));
  same (VNum 33) (rs ofZ (let! (m, d) := pentad_to_month_day 33 in which_pentad m d));
  same (VNum 34) (rs ofZ (let! (m, d) := pentad_to_month_day 34 in which_pentad m d));
  same (VNum 35) (rs ofZ (let! (m, d) := pentad_to_month_day 35 in which_pentad m d));
  same (VNum 36) (rs ofZ (let! (m, d) := pentad_to_month_day 36 in which_pentad m d));
  same (VNum 37) (rs ofZ (let! (m, d) := pentad_to_month_day 37 in which_pentad m d));
  same (VNum 38) (rs ofZ (let! (m, d) := pentad_to_month_day 38 in which_pentad m d));
  same (VNum 39) (rs ofZ (let! (m, d) := pentad_to_month_day 39 in which_pentad m d));
  same (VNum 40) (rs ofZ (let! (m, d) := pentad_to_month_day 40 in which_pentad m d));
  same (VNum 41) (rs ofZ (let! (m, d) := pentad_to_month_day 41 in which_pentad m d));
  same (VNum 42) (rs ofZ (let! (m, d) := pentad_to_month_day 42 in which_pentad m d));
  same (VNum 43) (rs ofZ (let! (m, d) := pentad_to_month_day 43 in which_pentad m d));
  same (VNum 44) (rs ofZ (let! (m, d) := pentad_to_month_day 44 in which_pentad m d));
  same (VNum 45) (rs ofZ (let! (m, d) := pentad_to_month_day 45 in which_pentad m d));
  same (VNum 46) (rs ofZ (let! (m, d) := pentad_to_month_day 46 in which_pentad m d));
  same (VNum 47) (rs ofZ (let! (m, d) := pentad_to_month_day 47 in which_pentad m d));
  same (VNum 48) (rs ofZ (let! (m, d) := pentad_to_month_day 48 in which_pentad m d));
  same (VNum 49) (rs ofZ (let! (m, d) := pentad_to_month_day 49 in which_pentad m d));
  same (VNum 50) (rs ofZ (let! (m, d) := pentad_to_month_day 50 in which_pentad m d));
  same (VNum 51) (rs ofZ (let! (m, d) := pentad_to_month_day 51 in which_pentad m d));
  same (VNum 52) (rs ofZ (let! (m, d) := pentad_to_month_day 52 in which_pentad m d));
  same (VNum 53) (rs ofZ (let! (m, d) := pentad_to_month_day 53 in which_pentad m d));
  same (VNum 54) (rs ofZ (let! (m, d) := pentad_to_month_day 54 in which_pentad m d));
  same (VNum 55) (rs ofZ (let! (m, d) := pentad_to_month_day 55 in which_pentad m d));
  same (VNum 56) (rs ofZ (let! (m, d) := pentad_to_month_day 56 in which_pentad m d));
  same (VNum 57) (rs ofZ (let! (m, d) := pentad_to_month_day 57 in which_pentad m d));
  same (VNum 58) (rs ofZ (let! (m, d) := pentad_to_month_day 58 in which_pentad m d));
  same (VNum 59) (rs ofZ (let! (m, d) := pentad_to_month_day 59 in which_pentad m d));
  same (VNum 60) (rs ofZ (let! (m, d) := pentad_to_month_day 60 in which_pentad m d));
  same (VNum 61) (rs ofZ (let! (m, d) := pentad_to_month_day 61 in which_pentad m d));
  same (VNum 62) (rs ofZ (let! (m, d) := pentad_to_month_day 62 in which_pentad m d));
  same (VNum 63) (rs ofZ (let! (m, d) := pentad_to_month_day 63 in which_pentad m d));
  same (VNum 64) (rs ofZ (let! (m, d) := pentad_to_month_day 64 in which_pentad m d));
  same (VNum 65) (rs ofZ (let! (m, d) := pentad_to_month_day 65 in which_pentad m d));
  same (VNum 66) (rs ofZ (let! (m, d) := pentad_to_month_day 66 in which_pentad m d));
  same (VNum 67) (rs ofZ (let! (m, d) := pentad_to_month_day 67 in which_pentad m d));
  same (VNum 68) (rs ofZ (let! (m, d) := pentad_to_month_day 68 in which_pentad m d));
  same (VNum 69) (rs ofZ (let! (m, d) := pentad_to_month_day 69 in which_pentad m d));
  same (VNum 70) (rs ofZ (let! (m, d) := pentad_to_month_day 70 in which_pentad m d));
  same (VNum 71) (rs ofZ (let! (m, d) := pentad_to_month_day 71 in which_pentad m d));
  same (VNum 72) (rs ofZ (let! (m, d) := pentad_to_month_day 72 in which_pentad m d));
  same (VNum 73) (rs ofZ (let! (m, d) := pentad_to_month_day 73 in which_pentad m d))]).
Example TestPentadToMonth_test_all_ps_is : TestPentadToMonth_test_all_ps = true.
Proof. reflexivity. Qed.
Definition TestDayInYear_test_janfirst : bool := Eval vm_compute in (all [same (rs ofZ (day_in_year 1 1)) (VNum 1)]).
Example TestDayInYear_test_janfirst_is : TestDayInYear_test_janfirst = true.
Proof. reflexivity. Qed.
Definition TestDayInYear_test_dec31st : bool := Eval vm_compute in (all [same (rs ofZ (day_in_year 12 31)) (VNum 365)]).
Example TestDayInYear_test_dec31st_is : TestDayInYear_test_dec31st = true.
Proof. reflexivity. Qed.
Definition TestDayInYear_test_pesky_leapyear : bool := Eval vm_compute in (all [same (rs ofZ (day_in_year 2 29)) (rs ofZ (day_in_year 3 1))]).
Example TestDayInYear_test_pesky_leapyear_is : TestDayInYear_test_pesky_leapyear = true.
Proof. reflexivity. Qed.
Definition TestDayInYear_test_jan31 : bool := Eval vm_compute in (all [same (rs ofZ (day_in_year 1 31)) (VNum 31)]).
Example TestDayInYear_test_jan31_is : TestDayInYear_test_jan31 = true.
Proof. reflexivity. Qed.
Definition TestDayInYear_test_all_days : bool := Eval vm_compute in (all [same (rs ofZ (day_in_year 1 1)) (VNum 1);
  same (rs ofZ (day_in_year 1 2)) (VNum 2);
  same (rs ofZ (day_in_year 1 3)) (VNum 3);
  same (rs ofZ (day_in_year 1 4)) (VNum 4);
  same (rs ofZ (day_in_year 1 5)) (VNum 5);
  same (rs ofZ (day_in_year 1 6)) (VNum 6);
  same (rs ofZ (day_in_year 1 7)) (VNum 7);
  same (rs ofZ (day_in_year 1 8)) (VNum 8);
  same (rs ofZ (day_in_year 1 9)) (VNum 9);
  same (rs ofZ (day_in_year 1 10)) (VNum 10);
  same (rs ofZ (day_in_year 1 11)) (VNum 11);
  same (rs ofZ (day_in_year 1 12)) (VNum 12);
  same (rs ofZ (day_in_year 1 13)) (VNum 13);
  same (rs ofZ (day_in_year 1 14)) (VNum 14);
  same (rs ofZ (day_in_year 1 15)) (VNum 15);
  same (rs ofZ (day_in_year 1 16)) (VNum 16);
  same (rs ofZ (day_in_year 1 17)) (VNum 17);
  same (rs ofZ (day_in_year 1 18)) (VNum 18);
  same (rs ofZ (day_in_year 1 19)) (VNum 19);
  same (rs ofZ (day_in_year 1 20)) (VNum 20);
  same (rs ofZ (day_in_year 1 21)) (VNum 21);
  same (rs ofZ (day_in_year 1 22)) (VNum 22);
  same (rs ofZ (day_in_year 1 23)) (VNum 23);
  same (rs ofZ (day_in_year 1 24)) (VNum 24);
  same (rs ofZ (day_in_year 1 25)) (VNum 25);
  same (rs ofZ (day_in_year 1 26)) (VNum 26);
  same (rs ofZ (day_in_year 1 27)) (VNum 27);
  same (rs ofZ (day_in_year 1 28)) (VNum 28);
  same (rs ofZ (day_in_year 1 29)) (VNum 29);
  same (rs ofZ (day_in_year 1 30)) (VNum 30);
  same (rs ofZ (day_in_year 1 31)) (VNum 31);
  same (rs ofZ (day_in_year 2 1)) (VNum 32);
  same (rs ofZ (day_in_year 2 2)) (VNum 33);
  same (rs ofZ (day_in_year 2 3)) (VNum 34);
  same (rs ofZ (day_in_year 2 4)) (VNum 35);
  same (rs ofZ (day_in_year 2 5)) (VNum 36);
  same (rs ofZ (day_in_year 2 6)) (VNum 37);
  same (rs ofZ (day_in_year 2 7)) (VNum 38);
  same (rs ofZ (day_in_year 2 8)) (VNum 39);
  same (rs ofZ (day_in_year 2 9)) (VNum 40);
  same (rs ofZ (day_in_year 2 10)) (VNum 41);
  same (rs ofZ (day_in_year 2 11)) (VNum 42);
  same (rs ofZ (day_in_year 2 12)) (VNum 43);
  same (rs ofZ (day_in_year 2 13)) (VNum 44);
  same (rs ofZ (day_in_year 2 14)) (VNum 45);
  same (rs ofZ (day_in_year 2 15)) (VNum 46);
  same (rs ofZ (day_in_year 2 16)) (VNum 47);
  same (rs ofZ (day_in_year 2 17)) (VNum 48);
  same (rs ofZ (day_in_year 2 18)) (VNum 49);
  same (rs ofZ (day_in_year 2 19)) (VNum 50);
  same (rs ofZ (day_in_year 2 20)) (VNum 51);
  same (rs ofZ (day_in_year 2 21)) (VNum 52);
  same (rs ofZ (day_in_year 2 22)) (VNum 53);
  same (rs ofZ (day_in_year 2 23)) (VNum 54);
  same (rs ofZ (day_in_year 2 24)) (VNum 55);
  same (rs ofZ (day_in_year 2 25)) (VNum 56);
  same (rs ofZ (day_in_year 2 26)) (VNum 57);
  same (rs ofZ (day_in_year 2 27)) (VNum 58);
  same (rs ofZ (day_in_year 2 28)) (VNum 59);
  same (rs ofZ (day_in_year 3 1)) (VNum 60);
  same (rs ofZ (day_in_year 3 2)) (VNum 61);
  same (rs ofZ (day_in_year 3 3)) (VNum 62);
  same (rs ofZ (day_in_year 3 4)) (VNum 63);
  same (rs ofZ (day_in_year 3 5)) (VNum 64);
  same (rs ofZ (day_in_year 3 6)) (VNum 65);
  same (rs ofZ (day_in_year 3 7)) (VNum 66);
  same (rs ofZ (day_in_year 3 8)) (VNum 67);
  same (rs ofZ (day_in_year 3 9)) (VNum 68);
  same (rs ofZ (day_in_year 3 10)) (VNum 69);
  same (rs ofZ (day_in_year 3 11)) (VNum 70);
  same (rs ofZ (day_in_year 3 12)) (VNum 71);
  same (rs ofZ (day_in_year 3 13)) (VNum 72);
  same (rs ofZ (day_in_year 3 14)) (VNum 73);
  same (rs ofZ (day_in_year 3 15)) (VNum 74);
  same (rs ofZ (day_in_year 3 16)) (VNum 75);
  same (rs ofZ (day_in_year 3 17)) (VNum 76);
  same (rs ofZ (day_in_year 3 18)) (VNum 77);
  same (rs ofZ (day_in_year 3 19)) (VNum 78);
  same (rs ofZ (day_in_year 3 20)) (VNum 79);
  same (rs ofZ (day_in_year 3 21)) (VNum 80);
  same (rs ofZ (day_in_year 3 22)) (VNum 81);
  same (rs ofZ (day_in_year 3 23)) (VNum 82);
  same (rs ofZ (day_in_year 3 24)) (VNum 83);
  same (rs ofZ (day_in_year 3 25)) (VNum 84);
  same (rs ofZ (day_in_year 3 26)) (VNum 85);
  same (rs ofZ (day_in_year 3 27)) (VNum 86);
  same (rs ofZ (day_in_year 3 28)) (VNum 87);
  same (rs ofZ (day_in_year 3 29)) (VNum 88);
  same (rs ofZ (day_in_year 3 30)) (VNum 89);
  same (rs ofZ (day_in_year 3 31)) (VNum 90);
  same (rs ofZ (day_in_year 4 1)) (VNum 91);
  same (rs ofZ (day_in_year 4 2)) (VNum 92);
  same (rs ofZ (day_in_year 4 3)) (VNum 93);
  same (rs ofZ (day_in_year 4 4)) (VNum 94);
  same (rs ofZ (day_in_year 4 5)) (VNum 95);
  same (rs ofZ (day_in_year 4 6)) (VNum 96);
  same (rs ofZ (day_in_year 4 7)) (VNum 97);
  same (rs ofZ (day_in_year 4 8)) (VNum 98);
  same (rs ofZ (day_in_year 4 9)) (VNum 99);
  same (rs ofZ (day_in_year 4 10)) (VNum 100);
  same (rs ofZ (day_in_year 4 11)) (VNum 101);
  same (rs ofZ (day_in_year 4 12)) (VNum 102);
  same (rs ofZ (day_in_year 4 13)) (VNum 103);
  same (rs ofZ (day_in_year 4 14)) (VNum 104);
  same (rs ofZ (day_in_year 4 15)) (VNum 105);
  same (rs ofZ (day_in_year 4 16)) (VNum 106);
  same (rs ofZ (day_in_year 4 17)) (VNum 107);
  same (rs ofZ (day_in_year 4 18)) (VNum 108);
  same (rs ofZ (day_in_year 4 19)) (VNum 109);
  same (rs ofZ (day_in_year 4 20)) (VNum 110);
  same (rs ofZ (day_in_year 4 21)) (VNum 111);
  same (rs ofZ (day_in_year 4 22)) (VNum 112);
  same (rs ofZ (day_in_year 4 23)) (VNum 113);
  same (rs ofZ (day_in_year 4 24)) (VNum 114);
  same (rs ofZ (day_in_year 4 25)) (VNum 115);
  same (rs ofZ (day_in_year 4 26)) (VNum 116);
  same (rs ofZ (day_in_year 4 27)) (VNum 117);
  same (rs ofZ (day_in_year 4 28)) (VNum 118);
  same (rs ofZ (day_in_year 4 29)) (VNum 119);
  same (rs ofZ (day_in_year 4 30)) (VNum 120);
  same (rs ofZ (day_in_year 5 1)) (VNum 121);
  same (rs ofZ (day_in_year 5 2)) (VNum 122);
  same (rs ofZ (day_in_year 5 3)) (VNum 123);
  same (rs ofZ (day_in_year 5 4)) (VNum 124);
  same (rs ofZ (day_in_year 5 5)) (VNum 125);
  same (rs ofZ (day_in_year 5 6)) (VNum 126);
  same (rs ofZ (day_in_year 5 7)) (VNum 127);
  same (rs ofZ (day_in_year 5 8)) (VNum 128);
  same (rs ofZ (day_in_year 5 9)) (VNum 129);
  same (rs ofZ (day_in_year 5 10)) (VNum 130);
  same (rs ofZ (day_in_year 5 11)) (VNum 131);
  same (rs ofZ (day_in_year 5 12)) (VNum 132);
  same (rs ofZ (day_in_year 5 13)) (VNum 133);
  same (rs ofZ (day_in_year 5 14)) (VNum 134);
  same (rs ofZ (day_in_year 5 15)) (VNum 135);
  same (rs ofZ (day_in_year 5 16)) (VNum 136);
  same (rs ofZ (day_in_year 5 17)) (VNum 137);
  same (rs ofZ (day_in_year 5 18)) (VNum 138);
  same (rs ofZ (day_in_year 5 19)) (VNum 139);
  same (rs ofZ (day_in_year 5 20)) (VNum 140);
  same (rs ofZ (day_in_year 5 21)) (VNum 141);
  same (rs ofZ (day_in_year 5 22)) (VNum 142);
  same (rs ofZ (day_in_year 5 23)) (VNum 143);
  same (rs ofZ (day_in_year 5 24)) (VNum 144);
  same (rs ofZ (day_in_year 5 25)) (VNum 145);
  same (rs ofZ (day_in_year 5 26)) (VNum 146);
  same (rs ofZ (day_in_year 5 27)) (VNum 147);
  same (rs ofZ (day_in_year 5 28)) (VNum 148);
  same (rs ofZ (day_in_year 5 29)) (VNum 149);
  same (rs ofZ (day_in_year 5 30)) (VNum 150);
  same (rs ofZ (day_in_year 5 31)) (VNum 151);
  same (rs ofZ (day_in_year 6 1)) (VNum 152);
  same (rs ofZ (day_in_year 6 2)) (VNum 153);
  same (rs ofZ (day_in_year 6 3)) (VNum 154);
  same (rs ofZ (day_in_year 6 4)) (VNum 155);
  same (rs ofZ (day_in_year 6 5)) (VNum 156);
  same (rs ofZ (day_in_year 6 6)) (VNum 157);
  same (rs ofZ (day_in_year 6 7)) (VNum 158);
  same (rs ofZ (day_in_year 6 8)) (VNum 159);
  same (rs ofZ (day_in_year 6 9)) (VNum 160);
  same (rs ofZ (day_in_year 6 10)) (VNum 161);
  same (rs ofZ (day_in_year 6 11)) (VNum 162);
  same (rs ofZ (day_in_year 6 12)) (VNum 163);
  same (rs ofZ (day_in_year 6 13)) (VNum 164);
  same (rs ofZ (day_in_year 6 14)) (VNum 165);
  same (rs ofZ (day_in_year 6 15)) (VNum 166);
  same (rs ofZ (day_in_year 6 16)) (VNum 167);
  same (rs ofZ (day_in_year 6 17)) (VNum 168);
  same (rs ofZ (day_in_year 6 18)) (VNum 169);
  same (rs ofZ (day_in_year 6 19)) (VNum 170);
  same (rs ofZ (day_in_year 6 20)) (VNum 171);
  same (rs ofZ (day_in_year 6 21)) (VNum 172);
  same (rs ofZ (day_in_year 6 22)) (VNum 173);
  same (rs ofZ (day_in_year 6 23)) (VNum 174);
  same (rs ofZ (day_in_year 6 24)) (VNum 175);
  same (rs ofZ (day_in_year 6 25)) (VNum 176);
  same (rs ofZ (day_in_year 6 26)) (VNum 177);
  same (rs ofZ (day_in_year 6 27)) (VNum 178);
  same (rs ofZ (day_in_year 6 28)) (VNum 179);
  same (rs ofZ (day_in_year 6 29)) (VNum 180);
  same (rs ofZ (day_in_year 6 30)) (VNum 181);
  same (rs ofZ (day_in_year 7 1)) (VNum 182);
  same (rs ofZ (day_in_year 7 2)) (VNum 183);
  same (rs ofZ (day_in_year 7 3)) (VNum 184);
  same (rs ofZ (day_in_year 7 4)) (VNum 185);
  same (rs ofZ (day_in_year 7 5)) (VNum 186);
  same (rs ofZ (day_in_year 7 6)) (VNum 187);
  same (rs ofZ (day_in_year 7 7)) (VNum 188);
  same (rs ofZ (day_in_year 7 8)) (VNum 189);
  same (rs ofZ (day_in_year 7 9)) (VNum 190);
  same (rs ofZ (day_in_year 7 10)) (VNum 191);
  same (rs ofZ (day_in_year 7 11)) (VNum 192);
  same (rs ofZ (day_in_year 7 12)) (VNum 193);
  same (rs ofZ (day_in_year 7 13)) (VNum 194);
  same (rs ofZ (day_in_year 7 14)) (VNum 195);
  same (rs ofZ (day_in_year 7 15)) (VNum 196);
  same (rs ofZ (day_in_year 7 16)) (VNum 197);
  same (rs ofZ (day_in_year 7 17)) (VNum 198);
  same (rs ofZ (day_in_year 7 18)) (VNum 199);
  same (rs ofZ (day_in_year 7 19)) (VNum 200);
  same (rs ofZ (day_in_year 7 20)) (VNum 201);
  same (rs ofZ (day_in_year 7 21)) (VNum 202);
  same (rs ofZ (day_in_year 7 22)) (VNum 203);
  same (rs ofZ (day_in_year 7 23)) (VNum 204);
  same (rs ofZ (day_in_year 7 24)) (VNum 205);
  same (rs ofZ (day_in_year 7 25)) (VNum 206);
  same (rs ofZ (day_in_year 7 26)) (VNum 207);
  same (rs ofZ (day_in_year 7 27)) (VNum 208);
  same (rs ofZ (day_in_year 7 28)) (VNum 209);
  same (rs ofZ (day_in_year 7 29)) (VNum 210);
  same (rs ofZ (day_in_year 7 30)) (VNum 211);
  same (rs ofZ (day_in_year 7 31)) (VNum 212);
  same (rs ofZ (day_in_year 8 1)) (VNum 213);
  same (rs ofZ (day_in_year 8 2)) (VNum 214);
  same (rs ofZ (day_in_year 8 3)) (VNum 215);
  same (rs ofZ (day_in_year 8 4)) (VNum 216);
  same (rs ofZ (day_in_year 8 5)) (VNum 217);
  same (rs ofZ (day_in_year 8 6)) (VNum 218);
  same (rs ofZ (day_in_year 8 7)) (VNum 219);
  same (rs ofZ (day_in_year 8 8)) (VNum 220);
  same (rs ofZ (day_in_year 8 9)) (VNum 221);
  same (rs ofZ (day_in_year 8 10)) (VNum 222);
  same (rs ofZ (day_in_year 8 11)) (VNum 223);
  same (rs ofZ (day_in_year 8 12)) (VNum 224);
  same (rs ofZ (day_in_year 8 13)) (VNum 225);
  same (rs ofZ (day_in_year 8 14)) (VNum 226);
  same (rs ofZ (day_in_year 8 15)) (VNum 227);
  same (rs ofZ (day_in_year 8 16)) (VNum 228);
  same (rs ofZ (day_in_year 8 17)) (VNum 229);
  same (rs ofZ (day_in_year 8 18)) (VNum 230);
  same (rs ofZ (day_in_year 8 19)) (VNum 231);
  same (rs ofZ (day_in_year 8 20)) (VNum 232);
  same (rs ofZ (day_in_year 8 21)) (VNum 233);
  same (rs ofZ (day_in_year 8 22)) (VNum 234);
  same (rs ofZ (day_in_year 8 23)) (VNum 235);
  same (rs ofZ (day_in_year 8 24)) (VNum 236);
  same (rs ofZ (day_in_year 8 25)) (VNum 237);
  same (rs ofZ (day_in_year 8 26)) (VNum 238);
  same (rs ofZ (day_in_year 8 27)) (VNum 239);
  same (rs ofZ (day_in_year 8 28)) (VNum 240);
  same (rs ofZ (day_in_year 8 29)) (VNum 241);
  same (rs ofZ (day_in_year 8 30)) (VNum 242);
  same (rs ofZ (day_in_year 8 31)) (VNum 243);
  same (rs ofZ (day_in_year 9 1)) (VNum 244);
  same (rs ofZ (day_in_year 9 2)) (VNum 245);
  same (rs ofZ (day_in_year 9 3)) (VNum 246);
  same (rs ofZ (day_in_year 9 4)) (VNum 247);
  same (rs ofZ (day_in_year 9 5)) (VNum 248);
  same (rs ofZ (day_in_year 9 6)) (VNum 249);
  same (rs ofZ (day_in_year 9 7)) (VNum 250);
  same (rs ofZ (day_in_year 9 8)) (VNum 251);
  same (rs ofZ (day_in_year 9 9)) (VNum 252);
  same (rs ofZ (day_in_year 9 10)) (VNum 253);
  same (rs ofZ (day_in_year 9 11)) (VNum 254);
  same (rs ofZ (day_in_year 9 12)) (VNum 255);
  same (rs ofZ (day_in_year 9 13)) (VNum 256);
  same (rs ofZ (day_in_year 9 14)) (VNum 257);
  same (rs ofZ (day_in_year 9 15)) (VNum 258);
  same (rs ofZ (day_in_year 9 16)) (VNum 259);
  same (rs ofZ (day_in_year 9 17)) (VNum 260);
  same (rs ofZ (day_in_year 9 18)) (VNum 261);
  same (rs ofZ (day_in_year 9 19)) (VNum 262);
  same (rs ofZ (day_in_year 9 20)) (VNum 263);
  same (rs ofZ (day_in_year 9 21)) (VNum 264);
  same (rs ofZ (day_in_year 9 22)) (VNum 265);
  same (rs ofZ (day_in_year 9 23)) (VNum 266);
  same (rs ofZ (day_in_year 9 24)) (VNum 267);
  same (rs ofZ (day_in_year 9 25)) (VNum 268);
  same (rs ofZ (day_in_year 9 26)) (VNum 269);
  same (rs ofZ (day_in_year 9 27)) (VNum 270);
  same (rs ofZ (day_in_year 9 28)) (VNum 271);
  same (rs ofZ (day_in_year 9 29)) (VNum 272);
  same (rs ofZ (day_in_year 9 30)) (VNum 273);
  same (rs ofZ (day_in_year 10 1)) (VNum 274);
  same (rs ofZ (day_in_year 10 2)) (VNum 275);
  same (rs ofZ (day_in_year 10 3)) (VNum 276);
  same (rs ofZ (day_in_year 10 4)) (VNum 277);
  same (rs ofZ (day_in_year 10 5)) (VNum 278);
  same (rs ofZ (day_in_year 10 6)) (VNum 279);
  same (rs ofZ (day_in_year 10 7)) (VNum 280);
  same (rs ofZ (day_in_year 10 8)) (VNum 281);
  same (rs ofZ (day_in_year 10 9)) (VNum 282);
  same (rs ofZ (day_in_year 10 10)) (VNum 283);
  same (rs ofZ (day_in_year 10 11)) (VNum 284);
  same (rs ofZ (day_in_year 10 12)) (VNum 285);
  same (rs ofZ (day_in_year 10 13)) (VNum 286);
  same (rs ofZ (day_in_year 10 14)) (VNum 287);
  same (rs ofZ (day_in_year 10 15)) (VNum 288);
  same (rs ofZ (day_in_year 10 16)) (VNum 289);
  same (rs ofZ (day_in_year 10 17)) (VNum 290);
  same (rs ofZ (day_in_year 10 18)) (VNum 291);
  same (rs ofZ (day_in_year 10 19)) (VNum 292);
  same (rs ofZ (day_in_year 10 20)) (VNum 293);
  same (rs ofZ (day_in_year 10 21)) (VNum 294);
  same (rs ofZ (day_in_year 10 22)) (VNum 295);
  same (rs ofZ (day_in_year 10 23)) (VNum 296);
  same (rs ofZ (day_in_year 10 24)) (VNum 297);
  same (rs ofZ (day_in_year 10 25)) (VNum 298);
  same (rs ofZ (day_in_year 10 26)) (VNum 299);
  same (rs ofZ (day_in_year 10 27)) (VNum 300);
  same (rs ofZ (day_in_year 10 28)) (VNum 301);
  same (rs ofZ (day_in_year 10 29)) (VNum 302);
  same (rs ofZ (day_in_year 10 30)) (VNum 303);
  same (rs ofZ (day_in_year 10 31)) (VNum 304);
  same (rs ofZ (day_in_year 11 1)) (VNum 305);
  same (rs ofZ (day_in_year 11 2)) (VNum 306);
  same (rs ofZ (day_in_year 11 3)) (VNum 307);
  same (rs ofZ (day_in_year 11 4)) (VNum 308);
  same (rs ofZ (day_in_year 11 5)) (VNum 309);
  same (rs ofZ (day_in_year 11 6)) (VNum 310);
  same (rs ofZ (day_in_year 11 7)) (VNum 311);
  same (rs ofZ (day_in_year 11 8)) (VNum 312);
  same (rs ofZ (day_in_year 11 9)) (VNum 313);
  same (rs ofZ (day_in_year 11 10)) (VNum 314);
  same (rs ofZ (day_in_year 11 11)) (VNum 315);
  same (rs ofZ (day_in_year 11 12)) (VNum 316);
  same (rs ofZ (day_in_year 11 13)) (VNum 317);
  same (rs ofZ (day_in_year 11 14)) (VNum 318);
  same (rs ofZ (day_in_year 11 15)) (VNum 319);
  same (rs ofZ (day_in_year 11 16)) (VNum 320);
  same (rs ofZ (day_in_year 11 17)) (VNum 321);
  same (rs ofZ (day_in_year 11 18)) (VNum 322);
  same (rs ofZ (day_in_year 11 19)) (VNum 323);
  same (rs ofZ (day_in_year 11 20)) (VNum 324);
  same (rs ofZ (day_in_year 11 21)) (VNum 325);
  same (rs ofZ (day_in_year 11 22)) (VNum 326);
  same (rs ofZ (day_in_year 11 23)) (VNum 327);
  same (rs ofZ (day_in_year 11 24)) (VNum 328);
  same (rs ofZ (day_in_year 11 25)) (VNum 329);
  same (rs ofZ (day_in_year 11 26)) (VNum 330);
  same (rs ofZ (day_in_year 11 27)) (VNum 331);
  same (rs ofZ (day_in_year 11 28)) (VNum 332);
  same (rs ofZ (day_in_year 11 29)) (VNum 333);
  same (rs ofZ (day_in_year 11 30)) (VNum 334);
  same (rs ofZ (day_in_year 12 1)) (VNum 335);
  same (rs ofZ (day_in_year 12 2)) (VNum 336);
  same (rs ofZ (day_in_year 12 3)) (VNum 337);
  same (rs ofZ (day_in_year 12 4)) (VNum 338);
  same (rs ofZ (day_in_year 12 5)) (VNum 339);
  same (rs ofZ (day_in_year 12 6)) (VNum 340);
  same (rs ofZ (day_in_year 12 7)) (VNum 341);
  same (rs ofZ (day_in_year 12 8)) (VNum 342);
  same (rs ofZ (day_in_year 12 9)) (VNum 343);
  same (rs ofZ (day_in_year 12 10)) (VNum 344);
  same (rs ofZ (day_in_year 12 11)) (VNum 345);
  same (rs ofZ (day_in_year 12 12)) (VNum 346);
  same (rs ofZ (day_in_year 12 13)) (VNum 347);
  same (rs ofZ (day_in_year 12 14)) (VNum 348);
  same (rs ofZ (day_in_year 12 15)) (VNum 349);
  same (rs ofZ (day_in_year 12 16)) (VNum 350);
  same (rs ofZ (day_in_year 12 17)) (VNum 351);
  same (rs ofZ (day_in_year 12 18)) (VNum 352);
  same (rs ofZ (day_in_year 12 19)) (VNum 353);
  same (rs ofZ (day_in_year 12 20)) (VNum 354);
  same (rs ofZ (day_in_year 12 21)) (VNum 355);
  same (rs ofZ (day_in_year 12 22)) (VNum 356);
  same (rs ofZ (day_in_year 12 23)) (VNum 357);
  same (rs ofZ (day_in_year 12 24)) (VNum 358);
  same (rs ofZ (day_in_year 12 25)) (VNum 359);
  same (rs ofZ (day_in_year 12 26)) (VNum 360);
  same (rs ofZ (day_in_year 12 27)) (VNum 361);
  same (rs ofZ (day_in_year 12 28)) (VNum 362);
  same (rs ofZ (day_in_year 12 29)) (VNum 363);
  same (rs ofZ (day_in_year 12 30)) (VNum 364);
  same (rs ofZ (day_in_year 12 31)) (VNum 365)]).
Example TestDayInYear_test_all_days_is : TestDayInYear_test_all_days = true.
Proof. reflexivity. Qed.
Definition TestQCMethodsGetSST_test_single_field : bool := Eval vm_compute in (all [same (rs (opt ofQ) (get_sst (899 # 10) 0 12 31 {| cn := 1; cny := 180; cnx := 360; cval := fun _ _ _ => (Some (313 # 100)%Q) |})) (VNum (313 # 100))]).
Example TestQCMethodsGetSST_test_single_field_is : TestQCMethodsGetSST_test_single_field = true.
Proof. reflexivity. Qed.
Definition TestQCMethodsGetSST_test_works_with_dummy_arrays : bool := Eval vm_compute in (all [same (rs (opt ofQ) (get_sst 0 0 1 1 {| cn := 73; cny := 180; cnx := 360; cval := fun _ _ _ => (Some (113 # 100)%Q) |})) (VNum (113 # 100))]).
Example TestQCMethodsGetSST_test_works_with_dummy_arrays_is : TestQCMethodsGetSST_test_works_with_dummy_arrays = true.
Proof. reflexivity. Qed.
Definition TestQCMethodsJulDay_test_one_day_difference : bool := Eval vm_compute in (all [same (VNum 1) (minus (rs ofZ (jul_day 2001 1 2)) (rs ofZ (jul_day 2001 1 1)))]).
Example TestQCMethodsJulDay_test_one_day_difference_is : TestQCMethodsJulDay_test_one_day_difference = true.
Proof. reflexivity. Qed.
Definition TestQCMethodsJulDay_test_one_year_difference : bool := Eval vm_compute in (all [same (VNum 365) (minus (rs ofZ (jul_day 2002 1 1)) (rs ofZ (jul_day 2001 1 1)))]).
Example TestQCMethodsJulDay_test_one_year_difference_is : TestQCMethodsJulDay_test_one_year_difference = true.
Proof. reflexivity. Qed.
Definition TestQCMethodsJulDay_test_one_leapyear_difference : bool := Eval vm_compute in (all [same (VNum 366) (minus (rs ofZ (jul_day 2005 1 1)) (rs ofZ (jul_day 2004 1 1)))]).
Example TestQCMethodsJulDay_test_one_leapyear_difference_is : TestQCMethodsJulDay_test_one_leapyear_difference = true.
Proof. reflexivity. Qed.
Definition TestQCMethodsTimeDifference_test_missing_hour : bool := Eval vm_compute in (all [same VNone (rs (opt ofQ) (time_difference 2000 1 7 None 2000 1 7 (Some 5%Q)));
  same VNone (rs (opt ofQ) (time_difference 2000 1 7 (Some 5%Q) 2000 1 7 None));
  same VNone (rs (opt ofQ) (time_difference 2000 1 7 None 2000 1 7 None))]).
Example TestQCMethodsTimeDifference_test_missing_hour_is : TestQCMethodsTimeDifference_test_missing_hour = true.
Proof. reflexivity. Qed.
Definition TestQCMethodsTimeDifference_test_time_difference_one_hour : bool := Eval vm_compute in (all [near (1 # 100000) (VNum 1) (rs (opt ofQ) (time_difference 2000 1 7 (Some 5%Q) 2000 1 7 (Some 6%Q)))]).
Example TestQCMethodsTimeDifference_test_time_difference_one_hour_is : TestQCMethodsTimeDifference_test_time_difference_one_hour = true.
Proof. reflexivity. Qed.
Definition TestQCMethodsTimeDifference_test_time_difference_same_time : bool := Eval vm_compute in (all [same (VNum 0) (rs (opt ofQ) (time_difference 2000 1 7 (Some 5%Q) 2000 1 7 (Some 5%Q)))]).
Example TestQCMethodsTimeDifference_test_time_difference_same_time_is : TestQCMethodsTimeDifference_test_time_difference_same_time = true.
Proof. reflexivity. Qed.
Definition TestQCMethodsTimeDifference_test_time_difference_one_day : bool := Eval vm_compute in (all [near (1 # 100000) (VNum 24) (rs (opt ofQ) (time_difference 2000 1 7 (Some 5%Q) 2000 1 8 (Some 5%Q)))]).
Example TestQCMethodsTimeDifference_test_time_difference_one_day_is : TestQCMethodsTimeDifference_test_time_difference_one_day = true.
Proof. reflexivity. Qed.
Definition TestQCMethodsTimeDifference_test_time_difference_minus_one_day : bool := Eval vm_compute in (all [near (1 # 100000) (VNum (-24)) (rs (opt ofQ) (time_difference 2000 1 8 (Some 5%Q) 2000 1 7 (Some 5%Q)))]).
Example TestQCMethodsTimeDifference_test_time_difference_minus_one_day_is : TestQCMethodsTimeDifference_test_time_difference_minus_one_day = true.
Proof. reflexivity. Qed.
Definition TestQCMethodsTimeDifference_test_time_difference_one_year : bool := Eval vm_compute in (all [same (VNum 8760) (rs (opt ofQ) (time_difference 2001 1 7 (Some 5%Q) 2002 1 7 (Some 5%Q)))]).
Example TestQCMethodsTimeDifference_test_time_difference_one_year_is : TestQCMethodsTimeDifference_test_time_difference_one_year = true.
Proof. reflexivity. Qed.
Definition TestQCMethodsTimeDifference_test_time_difference_two_years : bool := Eval vm_compute in (all [same (VNum 17520) (rs (opt ofQ) (time_difference 2001 1 7 (Some 5%Q) 2003 1 7 (Some 5%Q)))]).
Example TestQCMethodsTimeDifference_test_time_difference_two_years_is : TestQCMethodsTimeDifference_test_time_difference_two_years = true.
Proof. reflexivity. Qed.
Definition TestQCMethodsTimeDifference_test_time_difference_100_years : bool := Eval vm_compute in (all [same (VNum 876576) (rs (opt ofQ) (time_difference 1800 1 1 (Some 0%Q) 1900 1 1 (Some 0%Q)))]).
Example TestQCMethodsTimeDifference_test_time_difference_100_years_is : TestQCMethodsTimeDifference_test_time_difference_100_years = true.
Proof. reflexivity. Qed.
Definition TestQCMethodsWhichPentad_test_second_and_fifth_pentad : bool := Eval vm_compute in (all [same (VNum 2) (rs ofZ (which_pentad 1 6));
  same (VNum 5) (rs ofZ (which_pentad 1 21))]).
Example TestQCMethodsWhichPentad_test_second_and_fifth_pentad_is : TestQCMethodsWhichPentad_test_second_and_fifth_pentad = true.
Proof. reflexivity. Qed.
Definition TestQCMethodsWhichPentad_test_second_to_last_pentad : bool := Eval vm_compute in (all [same (VNum 72) (rs ofZ (which_pentad 12 26))]).
Example TestQCMethodsWhichPentad_test_second_to_last_pentad_is : TestQCMethodsWhichPentad_test_second_to_last_pentad = true.
Proof. reflexivity. Qed.
Definition TestQCMethodsWhichPentad_test_pentad_of_jan_1st : bool := Eval vm_compute in (all [same (VNum 1) (rs ofZ (which_pentad 1 1))]).
Example TestQCMethodsWhichPentad_test_pentad_of_jan_1st_is : TestQCMethodsWhichPentad_test_pentad_of_jan_1st = true.
Proof. reflexivity. Qed.
Definition TestQCMethodsWhichPentad_test_pentad_of_dec_31st : bool := Eval vm_compute in (all [same (VNum 73) (rs ofZ (which_pentad 12 31))]).
Example TestQCMethodsWhichPentad_test_pentad_of_dec_31st_is : TestQCMethodsWhichPentad_test_pentad_of_dec_31st = true.
Proof. reflexivity. Qed.
Definition TestQCMethodsWhichPentad_test_pentad_of_feb_29th : bool := Eval vm_compute in (all [same (VNum 12) (rs ofZ (which_pentad 2 29))]).
Example TestQCMethodsWhichPentad_test_pentad_of_feb_29th_is : TestQCMethodsWhichPentad_test_pentad_of_feb_29th = true.
Proof. reflexivity. Qed.
Definition TestQCMethodsValueCheck_test_value_missing : bool := Eval vm_compute in (all [same (VNum 1) (ofZ (value_check (@None xnum)))]).
Example TestQCMethodsValueCheck_test_value_missing_is : TestQCMethodsValueCheck_test_value_missing = true.
Proof. reflexivity. Qed.
Definition TestQCMethodsValueCheck_test_value_present : bool := Eval vm_compute in (all [same (VNum 0) (ofZ (value_check (Some (Fin (57 # 10)))))]).
Example TestQCMethodsValueCheck_test_value_present_is : TestQCMethodsValueCheck_test_value_present = true.
Proof. reflexivity. Qed.
Definition TestQCMethodsSSTFreezeCheck_test_exactly_freezing : bool := Eval vm_compute in (all [same (VNum 0) (rs ofZ (sst_freeze_check (Some (Fin (-9 # 5))) (Some (Fin 0)) (Some (Fin (-9 # 5))) (Fin 2)));
  same (VNum 0) (rs ofZ (sst_freeze_check (Some (Fin (-9 # 5))) (Some (Fin 0)) (Some (Fin (-9 # 5))) (Fin 2)));
  same (VNum 0) (rs ofZ (sst_freeze_check (Some (Fin (-9 # 5))) (Some (Fin 0)) (Some (Fin (-9 # 5))) (Fin 2)))]).
Example TestQCMethodsSSTFreezeCheck_test_exactly_freezing_is : TestQCMethodsSSTFreezeCheck_test_exactly_freezing = true.
Proof. reflexivity. Qed.
Definition TestQCMethodsSSTFreezeCheck_test_above_freezing : bool := Eval vm_compute in (all [same (VNum 0) (rs ofZ (sst_freeze_check (Some (Fin (19 # 5))) (Some (Fin 0)) (Some (Fin (-9 # 5))) (Fin 2)));
  same (VNum 0) (rs ofZ (sst_freeze_check (Some (Fin (19 # 5))) (Some (Fin 0)) (Some (Fin (-9 # 5))) (Fin 2)));
  same (VNum 0) (rs ofZ (sst_freeze_check (Some (Fin (19 # 5))) (Some (Fin 0)) (Some (Fin (-9 # 5))) (Fin 2)))]).
Example TestQCMethodsSSTFreezeCheck_test_above_freezing_is : TestQCMethodsSSTFreezeCheck_test_above_freezing = true.
Proof. reflexivity. Qed.
Definition TestQCMethodsSSTFreezeCheck_test_below_freezing : bool := Eval vm_compute in (all [same (VNum 1) (rs ofZ (sst_freeze_check (Some (Fin (-19 # 5))) (Some (Fin 0)) (Some (Fin (-9 # 5))) (Fin 2)));
  same (VNum 1) (rs ofZ (sst_freeze_check (Some (Fin (-19 # 5))) (Some (Fin 0)) (Some (Fin (-9 # 5))) (Fin 2)));
  same (VNum 1) (rs ofZ (sst_freeze_check (Some (Fin (-19 # 5))) (Some (Fin 0)) (Some (Fin (-9 # 5))) (Fin 2)))]).
Example TestQCMethodsSSTFreezeCheck_test_below_freezing_is : TestQCMethodsSSTFreezeCheck_test_below_freezing = true.
Proof. reflexivity. Qed.
Definition TestQCMethodsSSTFreezeCheck_test_nonstandard_freezing_point : bool := Eval vm_compute in (all [same (VNum 0) (rs ofZ (sst_freeze_check (Some (Fin (-9 # 5))) (Some (Fin 0)) (Some (Fin (-19 # 10))) (Fin 2)));
  same (VNum 1) (rs ofZ (sst_freeze_check (Some (Fin (-2))) (Some (Fin 0)) (Some (Fin (-19 # 10))) (Fin 2)))]).
Example TestQCMethodsSSTFreezeCheck_test_nonstandard_freezing_point_is : TestQCMethodsSSTFreezeCheck_test_nonstandard_freezing_point = true.
Proof. reflexivity. Qed.
Definition TestQCMethodsHardLimit_test_safe : bool := Eval vm_compute in (all [same (VNum 0) (rs ofZ (hard_limit (Some (Fin 0)) ((Fin (-1)), (Fin 1))))]).
Example TestQCMethodsHardLimit_test_safe_is : TestQCMethodsHardLimit_test_safe = true.
Proof. reflexivity. Qed.
Definition TestQCMethodsHardLimit_test_borderline : bool := Eval vm_compute in (all [same (VNum 0) (rs ofZ (hard_limit (Some (Fin (-1232423 # 1000000))) ((Fin (-1232423 # 1000000)), (Fin (4371 # 2500)))));
  same (VNum 0) (rs ofZ (hard_limit (Some (Fin (4371 # 2500))) ((Fin (-1232423 # 1000000)), (Fin (4371 # 2500)))))]).
Example TestQCMethodsHardLimit_test_borderline_is : TestQCMethodsHardLimit_test_borderline = true.
Proof. reflexivity. Qed.
Definition TestQCMethodsHardLimit_test_a_failure : bool := Eval vm_compute in (all [same (VNum 1) (rs ofZ (hard_limit (Some (Fin (-24432423 # 1000000))) ((Fin (-1232423 # 1000000)), (Fin (4371 # 2500)))));
  same (VNum 1) (rs ofZ (hard_limit (Some (Fin (28121 # 2500))) ((Fin (-1232423 # 1000000)), (Fin (4371 # 2500)))))]).
Example TestQCMethodsHardLimit_test_a_failure_is : TestQCMethodsHardLimit_test_a_failure = true.
Proof. reflexivity. Qed.
Definition TestQCMethodsClimatologyCheck_test_borderline : bool := Eval vm_compute in (all [same (VNum 0) (ofZ (climatology_check (Some (Fin 0)) (Some (Fin 8)) (Some (Fin 8))))]).
Example TestQCMethodsClimatologyCheck_test_borderline_is : TestQCMethodsClimatologyCheck_test_borderline = true.
Proof. reflexivity. Qed.
Definition TestQCMethodsClimatologyCheck_test_negative_borderlines : bool := Eval vm_compute in (all [same (VNum 0) (ofZ (climatology_check (Some (Fin 0)) (Some (Fin (-8))) (Some (Fin 8))))]).
Example TestQCMethodsClimatologyCheck_test_negative_borderlines_is : TestQCMethodsClimatologyCheck_test_negative_borderlines = true.
Proof. reflexivity. Qed.
Definition TestQCMethodsClimatologyCheck_test_should_pass : bool := Eval vm_compute in (all [same (VNum 0) (ofZ (climatology_check (Some (Fin 17)) (Some (Fin (116 # 5))) (Some (Fin 8))))]).
Example TestQCMethodsClimatologyCheck_test_should_pass_is : TestQCMethodsClimatologyCheck_test_should_pass = true.
Proof. reflexivity. Qed.
Definition TestQCMethodsClimatologyCheck_test_should_fail : bool := Eval vm_compute in (all [same (VNum 1) (ofZ (climatology_check (Some (Fin 17)) (Some (Fin (251 # 10))) (Some (Fin 8))))]).
Example TestQCMethodsClimatologyCheck_test_should_fail_is : TestQCMethodsClimatologyCheck_test_should_fail = true.
Proof. reflexivity. Qed.
Definition TestQCMethodsClimatologyCheck_test_should_fail_negative : bool := Eval vm_compute in (all [same (VNum 1) (ofZ (climatology_check (Some (Fin 17)) (Some (Fin (89 # 10))) (Some (Fin 8))))]).
Example TestQCMethodsClimatologyCheck_test_should_fail_negative_is : TestQCMethodsClimatologyCheck_test_should_fail_negative = true.
Proof. reflexivity. Qed.
Definition TestQCMethodsClimatologyCheck_test_should_pass_with_limit : bool := Eval vm_compute in (all [same (VNum 0) (ofZ (climatology_check (Some (Fin 17)) (Some (Fin (173 # 10))) (Some (Fin 1))))]).
Example TestQCMethodsClimatologyCheck_test_should_pass_with_limit_is : TestQCMethodsClimatologyCheck_test_should_pass_with_limit = true.
Proof. reflexivity. Qed.
Definition TestQCMethodsClimatologyCheck_test_should_fail_with_limit : bool := Eval vm_compute in (all [same (VNum 1) (ofZ (climatology_check (Some (Fin 17)) (Some (Fin (173 # 10))) (Some (Fin (1 # 5)))))]).
Example TestQCMethodsClimatologyCheck_test_should_fail_with_limit_is : TestQCMethodsClimatologyCheck_test_should_fail_with_limit = true.
Proof. reflexivity. Qed.
Definition TestQCMethodsClimatologyCheck_test_missing_climatology : bool := Eval vm_compute in (all [same (VNum 1) (ofZ (climatology_check (Some (Fin 20)) None (Some (Fin 8))))]).
Example TestQCMethodsClimatologyCheck_test_missing_climatology_is : TestQCMethodsClimatologyCheck_test_missing_climatology = true.
Proof. reflexivity. Qed.
Definition TestQCMethodsClimatologyCheck_test_missing_value : bool := Eval vm_compute in (all [same (VNum 1) (ofZ (climatology_check None (Some (Fin (73 # 10))) (Some (Fin 8))))]).
Example TestQCMethodsClimatologyCheck_test_missing_value_is : TestQCMethodsClimatologyCheck_test_missing_value = true.
Proof. reflexivity. Qed.
Definition TestQCMethodsClimatologyCheck_test_missing_limit : bool := Eval vm_compute in (all [same (VNum 1) (ofZ (climatology_check (Some (Fin 0)) (Some (Fin 3)) None))]).
Example TestQCMethodsClimatologyCheck_test_missing_limit_is : TestQCMethodsClimatologyCheck_test_missing_limit = true.
Proof. reflexivity. Qed.
Definition TestQCMethodsPositionCheck_test_good_position : bool := Eval vm_compute in (all [same (VNum 0) (rs ofZ (position_check (Some (Fin 0)) (Some (Fin 0))))]).
Example TestQCMethodsPositionCheck_test_good_position_is : TestQCMethodsPositionCheck_test_good_position = true.
Proof. reflexivity. Qed.
Definition TestQCMethodsPositionCheck_test_bad_latitudes : bool := Eval vm_compute in (all [same (VNum 1) (rs ofZ (position_check (Some (Fin 91)) (Some (Fin 0))));
  same (VNum 1) (rs ofZ (position_check (Some (Fin (-91))) (Some (Fin 0))))]).
Example TestQCMethodsPositionCheck_test_bad_latitudes_is : TestQCMethodsPositionCheck_test_bad_latitudes = true.
Proof. reflexivity. Qed.
Definition TestQCMethodsPositionCheck_test_bad_longitudes : bool := Eval vm_compute in (all [same (VNum 1) (rs ofZ (position_check (Some (Fin 0)) (Some (Fin (-1801 # 10)))));
  same (VNum 1) (rs ofZ (position_check (Some (Fin 0)) (Some (Fin (3601 # 10)))))]).
Example TestQCMethodsPositionCheck_test_bad_longitudes_is : TestQCMethodsPositionCheck_test_bad_longitudes = true.
Proof. reflexivity. Qed.
Definition TestQCMethodsDayInYear_test_jan1 : bool := Eval vm_compute in (all [same (VNum 1) (rs ofZ (dayinyear 1999 1 1))]).
Example TestQCMethodsDayInYear_test_jan1_is : TestQCMethodsDayInYear_test_jan1 = true.
Proof. reflexivity. Qed.
Definition TestQCMethodsDayInYear_test_dec31 : bool := Eval vm_compute in (all [same (VNum 365) (rs ofZ (dayinyear 1999 12 31))]).
Example TestQCMethodsDayInYear_test_dec31_is : TestQCMethodsDayInYear_test_dec31 = true.
Proof. reflexivity. Qed.
Definition TestQCMethodsDayInYear_test_dec31_leapyear : bool := Eval vm_compute in (all [same (VNum 366) (rs ofZ (dayinyear 1984 12 31))]).
Example TestQCMethodsDayInYear_test_dec31_leapyear_is : TestQCMethodsDayInYear_test_dec31_leapyear = true.
Proof. reflexivity. Qed.
Definition TestQCMethodsWinsorisedMean_test_all_zeroes : bool := Eval vm_compute in (all [same (VNum 0) (rs ofZ (winsorised_mean_int [0; 0; 0; 0; 0; 0; 0; 0; 0]))]).
Example TestQCMethodsWinsorisedMean_test_all_zeroes_is : TestQCMethodsWinsorisedMean_test_all_zeroes = true.
Proof. reflexivity. Qed.
Definition TestQCMethodsWinsorisedMean_test_all_fours : bool := Eval vm_compute in (all [same (VNum 4) (rs ofQ (winsorised_mean [4; 4; 4; 4; 4; 4; 4]%Q))]).
Example TestQCMethodsWinsorisedMean_test_all_fours_is : TestQCMethodsWinsorisedMean_test_all_fours = true.
Proof. reflexivity. Qed.
Definition TestQCMethodsWinsorisedMean_test_three_fours : bool := Eval vm_compute in (all [same (VNum 4) (rs ofQ (winsorised_mean [4; 4; 4]%Q))]).
Example TestQCMethodsWinsorisedMean_test_three_fours_is : TestQCMethodsWinsorisedMean_test_three_fours = true.
Proof. reflexivity. Qed.
Definition TestQCMethodsWinsorisedMean_test_ascending : bool := Eval vm_compute in (all [same (VNum 4) (rs ofQ (winsorised_mean [3; 4; 5]%Q))]).
Example TestQCMethodsWinsorisedMean_test_ascending_is : TestQCMethodsWinsorisedMean_test_ascending = true.
Proof. reflexivity. Qed.
Definition TestQCMethodsWinsorisedMean_test_longer_ascending_run : bool := Eval vm_compute in (all [same (VNum 4) (rs ofQ (winsorised_mean [1; 2; 3; 4; 5; 6; 7]%Q))]).
Example TestQCMethodsWinsorisedMean_test_longer_ascending_run_is : TestQCMethodsWinsorisedMean_test_longer_ascending_run = true.
Proof. reflexivity. Qed.
Definition TestQCMethodsWinsorisedMean_test_longer_ascending_run_large_outlier : bool := Eval vm_compute in (all [same (VNum 4) (rs ofQ (winsorised_mean [1; 2; 3; 4; 5; 6; 700]%Q))]).
Example TestQCMethodsWinsorisedMean_test_longer_ascending_run_large_outlier_is : TestQCMethodsWinsorisedMean_test_longer_ascending_run_large_outlier = true.
Proof. reflexivity. Qed.
Definition TestQCMethodsWinsorisedMean_test_longer_ascending_run_two_outliers : bool := Eval vm_compute in (all [same (VNum (17 # 2)) (rs ofQ (winsorised_mean [1; 2; 3; 4; 5; 6; 7; 8; 9; 10; 11; 12; 13; 14; 99; 1000]%Q))]).
Example TestQCMethodsWinsorisedMean_test_longer_ascending_run_two_outliers_is : TestQCMethodsWinsorisedMean_test_longer_ascending_run_two_outliers = true.
Proof. reflexivity. Qed.
Definition TestQCMethodsTrimmedMean_test_all_zeroes : bool := Eval vm_compute in (all [same (VNum 0) (ofX (trimmed_mean [0; 0; 0; 0; 0; 0; 0; 0; 0]%Q 10))]).
Example TestQCMethodsTrimmedMean_test_all_zeroes_is : TestQCMethodsTrimmedMean_test_all_zeroes = true.
Proof. reflexivity. Qed.
Definition TestQCMethodsTrimmedMean_test_all_zeroes_one_outlier_trimmed : bool := Eval vm_compute in (all [same (VNum 0) (ofX (trimmed_mean [0; 0; 0; 0; 0; 0; 0; 0; 0; 10]%Q 4))]).
Example TestQCMethodsTrimmedMean_test_all_zeroes_one_outlier_trimmed_is : TestQCMethodsTrimmedMean_test_all_zeroes_one_outlier_trimmed = true.
Proof. reflexivity. Qed.
Definition TestQCMethodsTrimmedMean_test_all_zeroes_one_outlier_not_trimmed : bool := Eval vm_compute in (all [same (VNum 1) (ofX (trimmed_mean [0; 0; 0; 0; 0; 0; 0; 0; 0; 10]%Q 50))]).
Example TestQCMethodsTrimmedMean_test_all_zeroes_one_outlier_not_trimmed_is : TestQCMethodsTrimmedMean_test_all_zeroes_one_outlier_not_trimmed = true.
Proof. reflexivity. Qed.
Definition TestQCMethodsTrimmedMean_test_trim_zero : bool := Eval vm_compute in (all [same (VNum 2) (ofX (trimmed_mean [(13 # 10); (7 # 10); 4]%Q 0))]).
Example TestQCMethodsTrimmedMean_test_trim_zero_is : TestQCMethodsTrimmedMean_test_trim_zero = true.
Proof. reflexivity. Qed.
Definition TestQCMethodsLatToYindex_test_latitude_too_high : bool := Eval vm_compute in (all [same (VNum 0) (ofZ (lat_to_yindex (496 # 5) 1))]).
Example TestQCMethodsLatToYindex_test_latitude_too_high_is : TestQCMethodsLatToYindex_test_latitude_too_high = true.
Proof. reflexivity. Qed.
Definition TestQCMethodsLatToYindex_test_borderline37 : bool := Eval vm_compute in (all [same (VNum 53) (ofZ (lat_to_yindex 37 1));
  same (VNum 11) (ofZ (lat_to_yindex 35 5))]).
Example TestQCMethodsLatToYindex_test_borderline37_is : TestQCMethodsLatToYindex_test_borderline37 = true.
Proof. reflexivity. Qed.
Definition TestQCMethodsLatToYindex_test_latitude_too_low : bool := Eval vm_compute in (all [same (VNum 179) (ofZ (lat_to_yindex (-1993 # 10) 1))]).
Example TestQCMethodsLatToYindex_test_latitude_too_low_is : TestQCMethodsLatToYindex_test_latitude_too_low = true.
Proof. reflexivity. Qed.
Definition TestQCMethodsLatToYindex_test_borderline : bool := Eval vm_compute in (all [same (VNum 0) (ofZ (lat_to_yindex 90 1));
  same (VNum 1) (ofZ (lat_to_yindex 89 1));
  same (VNum 2) (ofZ (lat_to_yindex 88 1));
  same (VNum 3) (ofZ (lat_to_yindex 87 1));
  same (VNum 4) (ofZ (lat_to_yindex 86 1));
  same (VNum 5) (ofZ (lat_to_yindex 85 1));
  same (VNum 6) (ofZ (lat_to_yindex 84 1));
  same (VNum 7) (ofZ (lat_to_yindex 83 1));
  same (VNum 8) (ofZ (lat_to_yindex 82 1));
  same (VNum 9) (ofZ (lat_to_yindex 81 1));
  same (VNum 10) (ofZ (lat_to_yindex 80 1));
  same (VNum 11) (ofZ (lat_to_yindex 79 1));
  same (VNum 12) (ofZ (lat_to_yindex 78 1));
  same (VNum 13) (ofZ (lat_to_yindex 77 1));
  same (VNum 14) (ofZ (lat_to_yindex 76 1));
  same (VNum 15) (ofZ (lat_to_yindex 75 1));
  same (VNum 16) (ofZ (lat_to_yindex 74 1));
  same (VNum 17) (ofZ (lat_to_yindex 73 1));
  same (VNum 18) (ofZ (lat_to_yindex 72 1));
  same (VNum 19) (ofZ (lat_to_yindex 71 1));
  same (VNum 20) (ofZ (lat_to_yindex 70 1));
  same (VNum 21) (ofZ (lat_to_yindex 69 1));
  same (VNum 22) (ofZ (lat_to_yindex 68 1));
  same (VNum 23) (ofZ (lat_to_yindex 67 1));
  same (VNum 24) (ofZ (lat_to_yindex 66 1));
  same (VNum 25) (ofZ (lat_to_yindex 65 1));
  same (VNum 26) (ofZ (lat_to_yindex 64 1));
  same (VNum 27) (ofZ (lat_to_yindex 63 1));
  same (VNum 28) (ofZ (lat_to_yindex 62 1));
  same (VNum 29) (ofZ (lat_to_yindex 61 1));
  same (VNum 30) (ofZ (lat_to_yindex 60 1));
  same (VNum 31) (ofZ (lat_to_yindex 59 1));
  same (VNum 32) (ofZ (lat_to_yindex 58 1));
  same (VNum 33) (ofZ (lat_to_yindex 57 1));
  same (VNum 34) (ofZ (lat_to_yindex 56 1));
  same (VNum 35) (ofZ (lat_to_yindex 55 1));
  same (VNum 36) (ofZ (lat_to_yindex 54 1));
  same (VNum 37) (ofZ (lat_to_yindex 53 1));
  same (VNum 38) (ofZ (lat_to_yindex 52 1));
  same (VNum 39) (ofZ (lat_to_yindex 51 1));
  same (VNum 40) (ofZ (lat_to_yindex 50 1));
  same (VNum 41) (ofZ (lat_to_yindex 49 1));
  same (VNum 42) (ofZ (lat_to_yindex 48 1));
  same (VNum 43) (ofZ (lat_to_yindex 47 1));
  same (VNum 44) (ofZ (lat_to_yindex 46 1));
  same (VNum 45) (ofZ (lat_to_yindex 45 1));
  same (VNum 46) (ofZ (lat_to_yindex 44 1));
  same (VNum 47) (ofZ (lat_to_yindex 43 1));
  same (VNum 48) (ofZ (lat_to_yindex 42 1));
  same (VNum 49) (ofZ (lat_to_yindex 41 1));
  same (VNum 50) (ofZ (lat_to_yindex 40 1));
  same (VNum 51) (ofZ (lat_to_yindex 39 1));
  same (VNum 52) (ofZ (lat_to_yindex 38 1));
  same (VNum 53) (ofZ (lat_to_yindex 37 1));
  same (VNum 54) (ofZ (lat_to_yindex 36 1));
  same (VNum 55) (ofZ (lat_to_yindex 35 1));
  same (VNum 56) (ofZ (lat_to_yindex 34 1));
  same (VNum 57) (ofZ (lat_to_yindex 33 1));
  same (VNum 58) (ofZ (lat_to_yindex 32 1));
  same (VNum 59) (ofZ (lat_to_yindex 31 1));
  same (VNum 60) (ofZ (lat_to_yindex 30 1));
  same (VNum 61) (ofZ (lat_to_yindex 29 1));
  same (VNum 62) (ofZ (lat_to_yindex 28 1));
  same (VNum 63) (ofZ (lat_to_yindex 27 1));
  same (VNum 64) (ofZ (lat_to_yindex 26 1));
  same (VNum 65) (ofZ (lat_to_yindex 25 1));
  same (VNum 66) (ofZ (lat_to_yindex 24 1));
  same (VNum 67) (ofZ (lat_to_yindex 23 1));
  same (VNum 68) (ofZ (lat_to_yindex 22 1));
  same (VNum 69) (ofZ (lat_to_yindex 21 1));
  same (VNum 70) (ofZ (lat_to_yindex 20 1));
  same (VNum 71) (ofZ (lat_to_yindex 19 1));
  same (VNum 72) (ofZ (lat_to_yindex 18 1));
  same (VNum 73) (ofZ (lat_to_yindex 17 1));
  same (VNum 74) (ofZ (lat_to_yindex 16 1));
  same (VNum 75) (ofZ (lat_to_yindex 15 1));
  same (VNum 76) (ofZ (lat_to_yindex 14 1));
  same (VNum 77) (ofZ (lat_to_yindex 13 1));
  same (VNum 78) (ofZ (lat_to_yindex 12 1));
  same (VNum 79) (ofZ (lat_to_yindex 11 1));
  same (VNum 80) (ofZ (lat_to_yindex 10 1));
  same (VNum 81) (ofZ (lat_to_yindex 9 1));
  same (VNum 82) (ofZ (lat_to_yindex 8 1));
  same (VNum 83) (ofZ (lat_to_yindex 7 1));
  same (VNum 84) (ofZ (lat_to_yindex 6 1));
  same (VNum 85) (ofZ (lat_to_yindex 5 1));
  same (VNum 86) (ofZ (lat_to_yindex 4 1));
  same (VNum 87) (ofZ (lat_to_yindex 3 1));
  same (VNum 88) (ofZ (lat_to_yindex 2 1));
  same (VNum 89) (ofZ (lat_to_yindex 1 1));
  same (VNum 90) (ofZ (lat_to_yindex 0 1));
  same (VNum 91) (ofZ (lat_to_yindex (-1) 1));
  same (VNum 92) (ofZ (lat_to_yindex (-2) 1));
  same (VNum 93) (ofZ (lat_to_yindex (-3) 1));
  same (VNum 94) (ofZ (lat_to_yindex (-4) 1));
  same (VNum 95) (ofZ (lat_to_yindex (-5) 1));
  same (VNum 96) (ofZ (lat_to_yindex (-6) 1));
  same (VNum 97) (ofZ (lat_to_yindex (-7) 1));
  same (VNum 98) (ofZ (lat_to_yindex (-8) 1));
  same (VNum 99) (ofZ (lat_to_yindex (-9) 1));
  same (VNum 100) (ofZ (lat_to_yindex (-10) 1));
  same (VNum 101) (ofZ (lat_to_yindex (-11) 1));
  same (VNum 102) (ofZ (lat_to_yindex (-12) 1));
  same (VNum 103) (ofZ (lat_to_yindex (-13) 1));
  same (VNum 104) (ofZ (lat_to_yindex (-14) 1));
  same (VNum 105) (ofZ (lat_to_yindex (-15) 1));
  same (VNum 106) (ofZ (lat_to_yindex (-16) 1));
  same (VNum 107) (ofZ (lat_to_yindex (-17) 1));
  same (VNum 108) (ofZ (lat_to_yindex (-18) 1));
  same (VNum 109) (ofZ (lat_to_yindex (-19) 1));
  same (VNum 110) (ofZ (lat_to_yindex (-20) 1));
  same (VNum 111) (ofZ (lat_to_yindex (-21) 1));
  same (VNum 112) (ofZ (lat_to_yindex (-22) 1));
  same (VNum 113) (ofZ (lat_to_yindex (-23) 1));
  same (VNum 114) (ofZ (lat_to_yindex (-24) 1));
  same (VNum 115) (ofZ (lat_to_yindex (-25) 1));
  same (VNum 116) (ofZ (lat_to_yindex (-26) 1));
  same (VNum 117) (ofZ (lat_to_yindex (-27) 1));
  same (VNum 118) (ofZ (lat_to_yindex (-28) 1));
  same (VNum 119) (ofZ (lat_to_yindex (-29) 1));
  same (VNum 120) (ofZ (lat_to_yindex (-30) 1));
  same (VNum 121) (ofZ (lat_to_yindex (-31) 1));
  same (VNum 122) (ofZ (lat_to_yindex (-32) 1));
  same (VNum 123) (ofZ (lat_to_yindex (-33) 1));
  same (VNum 124) (ofZ (lat_to_yindex (-34) 1));
  same (VNum 125) (ofZ (lat_to_yindex (-35) 1));
  same (VNum 126) (ofZ (lat_to_yindex (-36) 1));
  same (VNum 127) (ofZ (lat_to_yindex (-37) 1));
  same (VNum 128) (ofZ (lat_to_yindex (-38) 1));
  same (VNum 129) (ofZ (lat_to_yindex (-39) 1));
  same (VNum 130) (ofZ (lat_to_yindex (-40) 1));
  same (VNum 131) (ofZ (lat_to_yindex (-41) 1));
  same (VNum 132) (ofZ (lat_to_yindex (-42) 1));
  same (VNum 133) (ofZ (lat_to_yindex (-43) 1));
  same (VNum 134) (ofZ (lat_to_yindex (-44) 1));
  same (VNum 135) (ofZ (lat_to_yindex (-45) 1));
  same (VNum 136) (ofZ (lat_to_yindex (-46) 1));
  same (VNum 137) (ofZ (lat_to_yindex (-47) 1));
  same (VNum 138) (ofZ (lat_to_yindex (-48) 1));
  same (VNum 139) (ofZ (lat_to_yindex (-49) 1));
  same (VNum 140) (ofZ (lat_to_yindex (-50) 1));
  same (VNum 141) (ofZ (lat_to_yindex (-51) 1));
  same (VNum 142) (ofZ (lat_to_yindex (-52) 1));
  same (VNum 143) (ofZ (lat_to_yindex (-53) 1));
  same (VNum 144) (ofZ (lat_to_yindex (-54) 1));
  same (VNum 145) (ofZ (lat_to_yindex (-55) 1));
  same (VNum 146) (ofZ (lat_to_yindex (-56) 1));
  same (VNum 147) (ofZ (lat_to_yindex (-57) 1));
  same (VNum 148) (ofZ (lat_to_yindex (-58) 1));
  same (VNum 149) (ofZ (lat_to_yindex (-59) 1));
  same (VNum 150) (ofZ (lat_to_yindex (-60) 1));
  same (VNum 151) (ofZ (lat_to_yindex (-61) 1));
  same (VNum 152) (ofZ (lat_to_yindex (-62) 1));
  same (VNum 153) (ofZ (lat_to_yindex (-63) 1));
  same (VNum 154) (ofZ (lat_to_yindex (-64) 1));
  same (VNum 155) (ofZ (lat_to_yindex (-65) 1));
  same (VNum 156) (ofZ (lat_to_yindex (-66) 1));
  same (VNum 157) (ofZ (lat_to_yindex (-67) 1));
  same (VNum 158) (ofZ (lat_to_yindex (-68) 1));
  same (VNum 159) (ofZ (lat_to_yindex (-69) 1));
  same (VNum 160) (ofZ (lat_to_yindex (-70) 1));
  same (VNum 161) (ofZ (lat_to_yindex (-71) 1));
  same (VNum 162) (ofZ (lat_to_yindex (-72) 1));
  same (VNum 163) (ofZ (lat_to_yindex (-73) 1));
  same (VNum 164) (ofZ (lat_to_yindex (-74) 1));
  same (VNum 165) (ofZ (lat_to_yindex (-75) 1));
  same (VNum 166) (ofZ (lat_to_yindex (-76) 1));
  same (VNum 167) (ofZ (lat_to_yindex (-77) 1));
  same (VNum 168) (ofZ (lat_to_yindex (-78) 1));
  same (VNum 169) (ofZ (lat_to_yindex (-79) 1));
  same (VNum 170) (ofZ (lat_to_yindex (-80) 1));
  same (VNum 171) (ofZ (lat_to_yindex (-81) 1));
  same (VNum 172) (ofZ (lat_to_yindex (-82) 1));
  same (VNum 173) (ofZ (lat_to_yindex (-83) 1));
  same (VNum 174) (ofZ (lat_to_yindex (-84) 1));
  same (VNum 175) (ofZ (lat_to_yindex (-85) 1));
  same (VNum 176) (ofZ (lat_to_yindex (-86) 1));
  same (VNum 177) (ofZ (lat_to_yindex (-87) 1));
  same (VNum 178) (ofZ (lat_to_yindex (-88) 1));
  same (VNum 179) (ofZ (lat_to_yindex (-89) 1))]).
Example TestQCMethodsLatToYindex_test_borderline_is : TestQCMethodsLatToYindex_test_borderline = true.
Proof. reflexivity. Qed.
Definition TestQCMethodsLatToYindex_test_gridcentres : bool := Eval vm_compute in (all [same (VNum 0) (ofZ (lat_to_yindex (179 # 2) 1));
  same (VNum 1) (ofZ (lat_to_yindex (177 # 2) 1));
  same (VNum 2) (ofZ (lat_to_yindex (175 # 2) 1));
  same (VNum 3) (ofZ (lat_to_yindex (173 # 2) 1));
  same (VNum 4) (ofZ (lat_to_yindex (171 # 2) 1));
  same (VNum 5) (ofZ (lat_to_yindex (169 # 2) 1));
  same (VNum 6) (ofZ (lat_to_yindex (167 # 2) 1));
  same (VNum 7) (ofZ (lat_to_yindex (165 # 2) 1));
  same (VNum 8) (ofZ (lat_to_yindex (163 # 2) 1));
  same (VNum 9) (ofZ (lat_to_yindex (161 # 2) 1));
  same (VNum 10) (ofZ (lat_to_yindex (159 # 2) 1));
  same (VNum 11) (ofZ (lat_to_yindex (157 # 2) 1));
  same (VNum 12) (ofZ (lat_to_yindex (155 # 2) 1));
  same (VNum 13) (ofZ (lat_to_yindex (153 # 2) 1));
  same (VNum 14) (ofZ (lat_to_yindex (151 # 2) 1));
  same (VNum 15) (ofZ (lat_to_yindex (149 # 2) 1));
  same (VNum 16) (ofZ (lat_to_yindex (147 # 2) 1));
  same (VNum 17) (ofZ (lat_to_yindex (145 # 2) 1));
  same (VNum 18) (ofZ (lat_to_yindex (143 # 2) 1));
  same (VNum 19) (ofZ (lat_to_yindex (141 # 2) 1));
  same (VNum 20) (ofZ (lat_to_yindex (139 # 2) 1));
  same (VNum 21) (ofZ (lat_to_yindex (137 # 2) 1));
  same (VNum 22) (ofZ (lat_to_yindex (135 # 2) 1));
  same (VNum 23) (ofZ (lat_to_yindex (133 # 2) 1));
  same (VNum 24) (ofZ (lat_to_yindex (131 # 2) 1));
  same (VNum 25) (ofZ (lat_to_yindex (129 # 2) 1));
  same (VNum 26) (ofZ (lat_to_yindex (127 # 2) 1));
  same (VNum 27) (ofZ (lat_to_yindex (125 # 2) 1));
  same (VNum 28) (ofZ (lat_to_yindex (123 # 2) 1));
  same (VNum 29) (ofZ (lat_to_yindex (121 # 2) 1));
  same (VNum 30) (ofZ (lat_to_yindex (119 # 2) 1));
  same (VNum 31) (ofZ (lat_to_yindex (117 # 2) 1));
  same (VNum 32) (ofZ (lat_to_yindex (115 # 2) 1));
  same (VNum 33) (ofZ (lat_to_yindex (113 # 2) 1));
  same (VNum 34) (ofZ (lat_to_yindex (111 # 2) 1));
  same (VNum 35) (ofZ (lat_to_yindex (109 # 2) 1));
  same (VNum 36) (ofZ (lat_to_yindex (107 # 2) 1));
  same (VNum 37) (ofZ (lat_to_yindex (105 # 2) 1));
  same (VNum 38) (ofZ (lat_to_yindex (103 # 2) 1));
  same (VNum 39) (ofZ (lat_to_yindex (101 # 2) 1));
  same (VNum 40) (ofZ (lat_to_yindex (99 # 2) 1));
  same (VNum 41) (ofZ (lat_to_yindex (97 # 2) 1));
  same (VNum 42) (ofZ (lat_to_yindex (95 # 2) 1));
  same (VNum 43) (ofZ (lat_to_yindex (93 # 2) 1));
  same (VNum 44) (ofZ (lat_to_yindex (91 # 2) 1));
  same (VNum 45) (ofZ (lat_to_yindex (89 # 2) 1));
  same (VNum 46) (ofZ (lat_to_yindex (87 # 2) 1));
  same (VNum 47) (ofZ (lat_to_yindex (85 # 2) 1));
  same (VNum 48) (ofZ (lat_to_yindex (83 # 2) 1));
  same (VNum 49) (ofZ (lat_to_yindex (81 # 2) 1));
  same (VNum 50) (ofZ (lat_to_yindex (79 # 2) 1));
  same (VNum 51) (ofZ (lat_to_yindex (77 # 2) 1));
  same (VNum 52) (ofZ (lat_to_yindex (75 # 2) 1));
  same (VNum 53) (ofZ (lat_to_yindex (73 # 2) 1));
  same (VNum 54) (ofZ (lat_to_yindex (71 # 2) 1));
  same (VNum 55) (ofZ (lat_to_yindex (69 # 2) 1));
  same (VNum 56) (ofZ (lat_to_yindex (67 # 2) 1));
  same (VNum 57) (ofZ (lat_to_yindex (65 # 2) 1));
  same (VNum 58) (ofZ (lat_to_yindex (63 # 2) 1));
  same (VNum 59) (ofZ (lat_to_yindex (61 # 2) 1));
  same (VNum 60) (ofZ (lat_to_yindex (59 # 2) 1));
  same (VNum 61) (ofZ (lat_to_yindex (57 # 2) 1));
  same (VNum 62) (ofZ (lat_to_yindex (55 # 2) 1));
  same (VNum 63) (ofZ (lat_to_yindex (53 # 2) 1));
  same (VNum 64) (ofZ (lat_to_yindex (51 # 2) 1));
  same (VNum 65) (ofZ (lat_to_yindex (49 # 2) 1));
  same (VNum 66) (ofZ (lat_to_yindex (47 # 2) 1));
  same (VNum 67) (ofZ (lat_to_yindex (45 # 2) 1));
  same (VNum 68) (ofZ (lat_to_yindex (43 # 2) 1));
  same (VNum 69) (ofZ (lat_to_yindex (41 # 2) 1));
  same (VNum 70) (ofZ (lat_to_yindex (39 # 2) 1));
  same (VNum 71) (ofZ (lat_to_yindex (37 # 2) 1));
  same (VNum 72) (ofZ (lat_to_yindex (35 # 2) 1));
  same (VNum 73) (ofZ (lat_to_yindex (33 # 2) 1));
  same (VNum 74) (ofZ (lat_to_yindex (31 # 2) 1));
  same (VNum 75) (ofZ (lat_to_yindex (29 # 2) 1));
  same (VNum 76) (ofZ (lat_to_yindex (27 # 2) 1));
  same (VNum 77) (ofZ (lat_to_yindex (25 # 2) 1));
  same (VNum 78) (ofZ (lat_to_yindex (23 # 2) 1));
  same (VNum 79) (ofZ (lat_to_yindex (21 # 2) 1));
  same (VNum 80) (ofZ (lat_to_yindex (19 # 2) 1));
  same (VNum 81) (ofZ (lat_to_yindex (17 # 2) 1));
  same (VNum 82) (ofZ (lat_to_yindex (15 # 2) 1));
  same (VNum 83) (ofZ (lat_to_yindex (13 # 2) 1));
  same (VNum 84) (ofZ (lat_to_yindex (11 # 2) 1));
  same (VNum 85) (ofZ (lat_to_yindex (9 # 2) 1));
  same (VNum 86) (ofZ (lat_to_yindex (7 # 2) 1));
  same (VNum 87) (ofZ (lat_to_yindex (5 # 2) 1));
  same (VNum 88) (ofZ (lat_to_yindex (3 # 2) 1));
  same (VNum 89) (ofZ (lat_to_yindex (1 # 2) 1));
  same (VNum 90) (ofZ (lat_to_yindex (-1 # 2) 1));
  same (VNum 91) (ofZ (lat_to_yindex (-3 # 2) 1));
  same (VNum 92) (ofZ (lat_to_yindex (-5 # 2) 1));
  same (VNum 93) (ofZ (lat_to_yindex (-7 # 2) 1));
  same (VNum 94) (ofZ (lat_to_yindex (-9 # 2) 1));
  same (VNum 95) (ofZ (lat_to_yindex (-11 # 2) 1));
  same (VNum 96) (ofZ (lat_to_yindex (-13 # 2) 1));
  same (VNum 97) (ofZ (lat_to_yindex (-15 # 2) 1));
  same (VNum 98) (ofZ (lat_to_yindex (-17 # 2) 1));
  same (VNum 99) (ofZ (lat_to_yindex (-19 # 2) 1));
  same (VNum 100) (ofZ (lat_to_yindex (-21 # 2) 1));
  same (VNum 101) (ofZ (lat_to_yindex (-23 # 2) 1));
  same (VNum 102) (ofZ (lat_to_yindex (-25 # 2) 1));
  same (VNum 103) (ofZ (lat_to_yindex (-27 # 2) 1));
  same (VNum 104) (ofZ (lat_to_yindex (-29 # 2) 1));
  same (VNum 105) (ofZ (lat_to_yindex (-31 # 2) 1));
  same (VNum 106) (ofZ (lat_to_yindex (-33 # 2) 1));
  same (VNum 107) (ofZ (lat_to_yindex (-35 # 2) 1));
  same (VNum 108) (ofZ (lat_to_yindex (-37 # 2) 1));
  same (VNum 109) (ofZ (lat_to_yindex (-39 # 2) 1));
  same (VNum 110) (ofZ (lat_to_yindex (-41 # 2) 1));
  same (VNum 111) (ofZ (lat_to_yindex (-43 # 2) 1));
  same (VNum 112) (ofZ (lat_to_yindex (-45 # 2) 1));
  same (VNum 113) (ofZ (lat_to_yindex (-47 # 2) 1));
  same (VNum 114) (ofZ (lat_to_yindex (-49 # 2) 1));
  same (VNum 115) (ofZ (lat_to_yindex (-51 # 2) 1));
  same (VNum 116) (ofZ (lat_to_yindex (-53 # 2) 1));
  same (VNum 117) (ofZ (lat_to_yindex (-55 # 2) 1));
  same (VNum 118) (ofZ (lat_to_yindex (-57 # 2) 1));
  same (VNum 119) (ofZ (lat_to_yindex (-59 # 2) 1));
  same (VNum 120) (ofZ (lat_to_yindex (-61 # 2) 1));
  same (VNum 121) (ofZ (lat_to_yindex (-63 # 2) 1));
  same (VNum 122) (ofZ (lat_to_yindex (-65 # 2) 1));
  same (VNum 123) (ofZ (lat_to_yindex (-67 # 2) 1));
  same (VNum 124) (ofZ (lat_to_yindex (-69 # 2) 1));
  same (VNum 125) (ofZ (lat_to_yindex (-71 # 2) 1));
  same (VNum 126) (ofZ (lat_to_yindex (-73 # 2) 1));
  same (VNum 127) (ofZ (lat_to_yindex (-75 # 2) 1));
  same (VNum 128) (ofZ (lat_to_yindex (-77 # 2) 1));
  same (VNum 129) (ofZ (lat_to_yindex (-79 # 2) 1));
  same (VNum 130) (ofZ (lat_to_yindex (-81 # 2) 1));
  same (VNum 131) (ofZ (lat_to_yindex (-83 # 2) 1));
  same (VNum 132) (ofZ (lat_to_yindex (-85 # 2) 1));
  same (VNum 133) (ofZ (lat_to_yindex (-87 # 2) 1));
  same (VNum 134) (ofZ (lat_to_yindex (-89 # 2) 1));
  same (VNum 135) (ofZ (lat_to_yindex (-91 # 2) 1));
  same (VNum 136) (ofZ (lat_to_yindex (-93 # 2) 1));
  same (VNum 137) (ofZ (lat_to_yindex (-95 # 2) 1));
  same (VNum 138) (ofZ (lat_to_yindex (-97 # 2) 1));
  same (VNum 139) (ofZ (lat_to_yindex (-99 # 2) 1));
  same (VNum 140) (ofZ (lat_to_yindex (-101 # 2) 1));
  same (VNum 141) (ofZ (lat_to_yindex (-103 # 2) 1));
  same (VNum 142) (ofZ (lat_to_yindex (-105 # 2) 1));
  same (VNum 143) (ofZ (lat_to_yindex (-107 # 2) 1));
  same (VNum 144) (ofZ (lat_to_yindex (-109 # 2) 1));
  same (VNum 145) (ofZ (lat_to_yindex (-111 # 2) 1));
  same (VNum 146) (ofZ (lat_to_yindex (-113 # 2) 1));
  same (VNum 147) (ofZ (lat_to_yindex (-115 # 2) 1));
  same (VNum 148) (ofZ (lat_to_yindex (-117 # 2) 1));
  same (VNum 149) (ofZ (lat_to_yindex (-119 # 2) 1));
  same (VNum 150) (ofZ (lat_to_yindex (-121 # 2) 1));
  same (VNum 151) (ofZ (lat_to_yindex (-123 # 2) 1));
  same (VNum 152) (ofZ (lat_to_yindex (-125 # 2) 1));
  same (VNum 153) (ofZ (lat_to_yindex (-127 # 2) 1));
  same (VNum 154) (ofZ (lat_to_yindex (-129 # 2) 1));
  same (VNum 155) (ofZ (lat_to_yindex (-131 # 2) 1));
  same (VNum 156) (ofZ (lat_to_yindex (-133 # 2) 1));
  same (VNum 157) (ofZ (lat_to_yindex (-135 # 2) 1));
  same (VNum 158) (ofZ (lat_to_yindex (-137 # 2) 1));
  same (VNum 159) (ofZ (lat_to_yindex (-139 # 2) 1));
  same (VNum 160) (ofZ (lat_to_yindex (-141 # 2) 1));
  same (VNum 161) (ofZ (lat_to_yindex (-143 # 2) 1));
  same (VNum 162) (ofZ (lat_to_yindex (-145 # 2) 1));
  same (VNum 163) (ofZ (lat_to_yindex (-147 # 2) 1));
  same (VNum 164) (ofZ (lat_to_yindex (-149 # 2) 1));
  same (VNum 165) (ofZ (lat_to_yindex (-151 # 2) 1));
  same (VNum 166) (ofZ (lat_to_yindex (-153 # 2) 1));
  same (VNum 167) (ofZ (lat_to_yindex (-155 # 2) 1));
  same (VNum 168) (ofZ (lat_to_yindex (-157 # 2) 1));
  same (VNum 169) (ofZ (lat_to_yindex (-159 # 2) 1));
  same (VNum 170) (ofZ (lat_to_yindex (-161 # 2) 1));
  same (VNum 171) (ofZ (lat_to_yindex (-163 # 2) 1));
  same (VNum 172) (ofZ (lat_to_yindex (-165 # 2) 1));
  same (VNum 173) (ofZ (lat_to_yindex (-167 # 2) 1));
  same (VNum 174) (ofZ (lat_to_yindex (-169 # 2) 1));
  same (VNum 175) (ofZ (lat_to_yindex (-171 # 2) 1));
  same (VNum 176) (ofZ (lat_to_yindex (-173 # 2) 1));
  same (VNum 177) (ofZ (lat_to_yindex (-175 # 2) 1));
  same (VNum 178) (ofZ (lat_to_yindex (-177 # 2) 1));
  same (VNum 179) (ofZ (lat_to_yindex (-179 # 2) 1))]).
Example TestQCMethodsLatToYindex_test_gridcentres_is : TestQCMethodsLatToYindex_test_gridcentres = true.
Proof. reflexivity. Qed.
Definition TestQCMethodsLatToYindex_test_some_points : bool := Eval vm_compute in (all [same (VNum 9) (ofZ (lat_to_yindex (2188 # 25) (1 # 4)));
  same (VNum 18) (ofZ (lat_to_yindex (-5 # 2) 5))]).
Example TestQCMethodsLatToYindex_test_some_points_is : TestQCMethodsLatToYindex_test_some_points = true.
Proof. reflexivity. Qed.
Definition TestQCMethodsLatToYindex_test_latitude_varying_res : bool := Eval vm_compute in (all [same (VNum 0) (ofZ (lat_to_yindex (899 # 10) (1 # 4)));
  same (VNum 0) (ofZ (lat_to_yindex (899 # 10) (1 # 2)));
  same (VNum 0) (ofZ (lat_to_yindex (899 # 10) 1));
  same (VNum 0) (ofZ (lat_to_yindex (899 # 10) 2));
  same (VNum 0) (ofZ (lat_to_yindex (899 # 10) 5));
  same (VNum 719) (ofZ (lat_to_yindex (-899 # 10) (1 # 4)));
  same (VNum 359) (ofZ (lat_to_yindex (-899 # 10) (1 # 2)));
  same (VNum 179) (ofZ (lat_to_yindex (-899 # 10) 1));
  same (VNum 89) (ofZ (lat_to_yindex (-899 # 10) 2));
  same (VNum 35) (ofZ (lat_to_yindex (-899 # 10) 5))]).
Example TestQCMethodsLatToYindex_test_latitude_varying_res_is : TestQCMethodsLatToYindex_test_latitude_varying_res = true.
Proof. reflexivity. Qed.
Definition TestQCMethodsLonToXindex_test_borderline : bool := Eval vm_compute in (all [same (VNum 0) (opt ofZ (lon_to_xindex (-180) 1));
  same (VNum 0) (opt ofZ (lon_to_xindex 180 1))]).
Example TestQCMethodsLonToXindex_test_borderline_is : TestQCMethodsLonToXindex_test_borderline = true.
Proof. reflexivity. Qed.
Definition TestQCMethodsLonToXindex_test_high_negative_long : bool := Eval vm_compute in (all [same (VNum 359) (opt ofZ (lon_to_xindex (-361 # 2) 1));
  same (VNum 358) (opt ofZ (lon_to_xindex (-363 # 2) 1))]).
Example TestQCMethodsLonToXindex_test_high_negative_long_is : TestQCMethodsLonToXindex_test_high_negative_long = true.
Proof. reflexivity. Qed.
Definition TestQCMethodsLonToXindex_test_non180_borderline : bool := Eval vm_compute in (all [same (VNum 106) (opt ofZ (lon_to_xindex (-74) 1))]).
Example TestQCMethodsLonToXindex_test_non180_borderline_is : TestQCMethodsLonToXindex_test_non180_borderline = true.
Proof. reflexivity. Qed.
Definition TestQCMethodsLonToXindex_test_gridcentres : bool := Eval vm_compute in (all [same (VNum 0) (opt ofZ (lon_to_xindex (-359 # 2) 1));
  same (VNum 0) (opt ofZ (lon_to_xindex (361 # 2) 1))]).
Example TestQCMethodsLonToXindex_test_gridcentres_is : TestQCMethodsLonToXindex_test_gridcentres = true.
Proof. reflexivity. Qed.
Definition TestQCMethodsLonToXindex_test_highlong : bool := Eval vm_compute in (all [same (VNum 179) (opt ofZ (lon_to_xindex (719 # 2) 1))]).
Example TestQCMethodsLonToXindex_test_highlong_is : TestQCMethodsLonToXindex_test_highlong = true.
Proof. reflexivity. Qed.
Definition TestQCMethodsLonToXindex_test_highlong_different_res : bool := Eval vm_compute in (all [same (VNum 71) (opt ofZ (lon_to_xindex (359 # 2) 5));
  same (VNum 1439) (opt ofZ (lon_to_xindex (1799 # 10) (1 # 4)))]).
Example TestQCMethodsLonToXindex_test_highlong_different_res_is : TestQCMethodsLonToXindex_test_highlong_different_res = true.
Proof. reflexivity. Qed.
Definition TestQCMethodsLonToXindex_test_oneshift_along_at_hires : bool := Eval vm_compute in (all [same (VNum 1) (opt ofZ (lon_to_xindex (-3593 # 20) (1 # 4)))]).
Example TestQCMethodsLonToXindex_test_oneshift_along_at_hires_is : TestQCMethodsLonToXindex_test_oneshift_along_at_hires = true.
Proof. reflexivity. Qed.
Definition TestQCMethodsLonToXindex_test_lons_ge_180 : bool := Eval vm_compute in (all [same (VNum 180) (opt ofZ (lon_to_xindex 360 1));
  same (VNum 5) (opt ofZ (lon_to_xindex (1851 # 10) 1));
  same (VNum 0) (opt ofZ (lon_to_xindex (-359 # 2) 1));
  same (VNum 1) (opt ofZ (lon_to_xindex (-357 # 2) 1));
  same (VNum 2) (opt ofZ (lon_to_xindex (-355 # 2) 1));
  same (VNum 3) (opt ofZ (lon_to_xindex (-353 # 2) 1));
  same (VNum 4) (opt ofZ (lon_to_xindex (-351 # 2) 1));
  same (VNum 5) (opt ofZ (lon_to_xindex (-349 # 2) 1));
  same (VNum 6) (opt ofZ (lon_to_xindex (-347 # 2) 1));
  same (VNum 7) (opt ofZ (lon_to_xindex (-345 # 2) 1));
  same (VNum 8) (opt ofZ (lon_to_xindex (-343 # 2) 1));
  same (VNum 9) (opt ofZ (lon_to_xindex (-341 # 2) 1));
  same (VNum 10) (opt ofZ (lon_to_xindex (-339 # 2) 1));
  same (VNum 11) (opt ofZ (lon_to_xindex (-337 # 2) 1));
  same (VNum 12) (opt ofZ (lon_to_xindex (-335 # 2) 1));
  same (VNum 13) (opt ofZ (lon_to_xindex (-333 # 2) 1));
  same (VNum 14) (opt ofZ (lon_to_xindex (-331 # 2) 1));
  same (VNum 15) (opt ofZ (lon_to_xindex (-329 # 2) 1));
  same (VNum 16) (opt ofZ (lon_to_xindex (-327 # 2) 1));
  same (VNum 17) (opt ofZ (lon_to_xindex (-325 # 2) 1));
  same (VNum 18) (opt ofZ (lon_to_xindex (-323 # 2) 1));
  same (VNum 19) (opt ofZ (lon_to_xindex (-321 # 2) 1));
  same (VNum 20) (opt ofZ (lon_to_xindex (-319 # 2) 1));
  same (VNum 21) (opt ofZ (lon_to_xindex (-317 # 2) 1));
  same (VNum 22) (opt ofZ (lon_to_xindex (-315 # 2) 1));
  same (VNum 23) (opt ofZ (lon_to_xindex (-313 # 2) 1));
  same (VNum 24) (opt ofZ (lon_to_xindex (-311 # 2) 1));
  same (VNum 25) (opt ofZ (lon_to_xindex (-309 # 2) 1));
  same (VNum 26) (opt ofZ (lon_to_xindex (-307 # 2) 1));
  same (VNum 27) (opt ofZ (lon_to_xindex (-305 # 2) 1));
  same (VNum 28) (opt ofZ (lon_to_xindex (-303 # 2) 1));
  same (VNum 29) (opt ofZ (lon_to_xindex (-301 # 2) 1));
  same (VNum 30) (opt ofZ (lon_to_xindex (-299 # 2) 1));
  same (VNum 31) (opt ofZ (lon_to_xindex (-297 # 2) 1));
  same (VNum 32) (opt ofZ (lon_to_xindex (-295 # 2) 1));
  same (VNum 33) (opt ofZ (lon_to_xindex (-293 # 2) 1));
  same (VNum 34) (opt ofZ (lon_to_xindex (-291 # 2) 1));
  same (VNum 35) (opt ofZ (lon_to_xindex (-289 # 2) 1));
  same (VNum 36) (opt ofZ (lon_to_xindex (-287 # 2) 1));
  same (VNum 37) (opt ofZ (lon_to_xindex (-285 # 2) 1));
  same (VNum 38) (opt ofZ (lon_to_xindex (-283 # 2) 1));
  same (VNum 39) (opt ofZ (lon_to_xindex (-281 # 2) 1));
  same (VNum 40) (opt ofZ (lon_to_xindex (-279 # 2) 1));
  same (VNum 41) (opt ofZ (lon_to_xindex (-277 # 2) 1));
  same (VNum 42) (opt ofZ (lon_to_xindex (-275 # 2) 1));
  same (VNum 43) (opt ofZ (lon_to_xindex (-273 # 2) 1));
  same (VNum 44) (opt ofZ (lon_to_xindex (-271 # 2) 1));
  same (VNum 45) (opt ofZ (lon_to_xindex (-269 # 2) 1));
  same (VNum 46) (opt ofZ (lon_to_xindex (-267 # 2) 1));
  same (VNum 47) (opt ofZ (lon_to_xindex (-265 # 2) 1));
  same (VNum 48) (opt ofZ (lon_to_xindex (-263 # 2) 1));
  same (VNum 49) (opt ofZ (lon_to_xindex (-261 # 2) 1));
  same (VNum 50) (opt ofZ (lon_to_xindex (-259 # 2) 1));
  same (VNum 51) (opt ofZ (lon_to_xindex (-257 # 2) 1));
  same (VNum 52) (opt ofZ (lon_to_xindex (-255 # 2) 1));
  same (VNum 53) (opt ofZ (lon_to_xindex (-253 # 2) 1));
  same (VNum 54) (opt ofZ (lon_to_xindex (-251 # 2) 1));
  same (VNum 55) (opt ofZ (lon_to_xindex (-249 # 2) 1));
  same (VNum 56) (opt ofZ (lon_to_xindex (-247 # 2) 1));
  same (VNum 57) (opt ofZ (lon_to_xindex (-245 # 2) 1));
  same (VNum 58) (opt ofZ (lon_to_xindex (-243 # 2) 1));
  same (VNum 59) (opt ofZ (lon_to_xindex (-241 # 2) 1));
  same (VNum 60) (opt ofZ (lon_to_xindex (-239 # 2) 1));
  same (VNum 61) (opt ofZ (lon_to_xindex (-237 # 2) 1));
  same (VNum 62) (opt ofZ (lon_to_xindex (-235 # 2) 1));
  same (VNum 63) (opt ofZ (lon_to_xindex (-233 # 2) 1));
  same (VNum 64) (opt ofZ (lon_to_xindex (-231 # 2) 1));
  same (VNum 65) (opt ofZ (lon_to_xindex (-229 # 2) 1));
  same (VNum 66) (opt ofZ (lon_to_xindex (-227 # 2) 1));
  same (VNum 67) (opt ofZ (lon_to_xindex (-225 # 2) 1));
  same (VNum 68) (opt ofZ (lon_to_xindex (-223 # 2) 1));
  same (VNum 69) (opt ofZ (lon_to_xindex (-221 # 2) 1));
  same (VNum 70) (opt ofZ (lon_to_xindex (-219 # 2) 1));
  same (VNum 71) (opt ofZ (lon_to_xindex (-217 # 2) 1));
  same (VNum 72) (opt ofZ (lon_to_xindex (-215 # 2) 1));
  same (VNum 73) (opt ofZ (lon_to_xindex (-213 # 2) 1));
  same (VNum 74) (opt ofZ (lon_to_xindex (-211 # 2) 1));
  same (VNum 75) (opt ofZ (lon_to_xindex (-209 # 2) 1));
  same (VNum 76) (opt ofZ (lon_to_xindex (-207 # 2) 1));
  same (VNum 77) (opt ofZ (lon_to_xindex (-205 # 2) 1));
  same (VNum 78) (opt ofZ (lon_to_xindex (-203 # 2) 1));
  same (VNum 79) (opt ofZ (lon_to_xindex (-201 # 2) 1));
  same (VNum 80) (opt ofZ (lon_to_xindex (-199 # 2) 1));
  same (VNum 81) (opt ofZ (lon_to_xindex (-197 # 2) 1));
  same (VNum 82) (opt ofZ (lon_to_xindex (-195 # 2) 1));
  same (VNum 83) (opt ofZ (lon_to_xindex (-193 # 2) 1));
  same (VNum 84) (opt ofZ (lon_to_xindex (-191 # 2) 1));
  same (VNum 85) (opt ofZ (lon_to_xindex (-189 # 2) 1));
  same (VNum 86) (opt ofZ (lon_to_xindex (-187 # 2) 1));
  same (VNum 87) (opt ofZ (lon_to_xindex (-185 # 2) 1));
  same (VNum 88) (opt ofZ (lon_to_xindex (-183 # 2) 1));
  same (VNum 89) (opt ofZ (lon_to_xindex (-181 # 2) 1));
  same (VNum 90) (opt ofZ (lon_to_xindex (-179 # 2) 1));
  same (VNum 91) (opt ofZ (lon_to_xindex (-177 # 2) 1));
  same (VNum 92) (opt ofZ (lon_to_xindex (-175 # 2) 1));
  same (VNum 93) (opt ofZ (lon_to_xindex (-173 # 2) 1));
  same (VNum 94) (opt ofZ (lon_to_xindex (-171 # 2) 1));
  same (VNum 95) (opt ofZ (lon_to_xindex (-169 # 2) 1));
  same (VNum 96) (opt ofZ (lon_to_xindex (-167 # 2) 1));
  same (VNum 97) (opt ofZ (lon_to_xindex (-165 # 2) 1));
  same (VNum 98) (opt ofZ (lon_to_xindex (-163 # 2) 1));
  same (VNum 99) (opt ofZ (lon_to_xindex (-161 # 2) 1));
  same (VNum 100) (opt ofZ (lon_to_xindex (-159 # 2) 1));
  same (VNum 101) (opt ofZ (lon_to_xindex (-157 # 2) 1));
  same (VNum 102) (opt ofZ (lon_to_xindex (-155 # 2) 1));
  same (VNum 103) (opt ofZ (lon_to_xindex (-153 # 2) 1));
  same (VNum 104) (opt ofZ (lon_to_xindex (-151 # 2) 1));
  same (VNum 105) (opt ofZ (lon_to_xindex (-149 # 2) 1));
  same (VNum 106) (opt ofZ (lon_to_xindex (-147 # 2) 1));
  same (VNum 107) (opt ofZ (lon_to_xindex (-145 # 2) 1));
  same (VNum 108) (opt ofZ (lon_to_xindex (-143 # 2) 1));
  same (VNum 109) (opt ofZ (lon_to_xindex (-141 # 2) 1));
  same (VNum 110) (opt ofZ (lon_to_xindex (-139 # 2) 1));
  same (VNum 111) (opt ofZ (lon_to_xindex (-137 # 2) 1));
  same (VNum 112) (opt ofZ (lon_to_xindex (-135 # 2) 1));
  same (VNum 113) (opt ofZ (lon_to_xindex (-133 # 2) 1));
  same (VNum 114) (opt ofZ (lon_to_xindex (-131 # 2) 1));
  same (VNum 115) (opt ofZ (lon_to_xindex (-129 # 2) 1));
  same (VNum 116) (opt ofZ (lon_to_xindex (-127 # 2) 1));
  same (VNum 117) (opt ofZ (lon_to_xindex (-125 # 2) 1));
  same (VNum 118) (opt ofZ (lon_to_xindex (-123 # 2) 1));
  same (VNum 119) (opt ofZ (lon_to_xindex (-121 # 2) 1));
  same (VNum 120) (opt ofZ (lon_to_xindex (-119 # 2) 1));
  same (VNum 121) (opt ofZ (lon_to_xindex (-117 # 2) 1));
  same (VNum 122) (opt ofZ (lon_to_xindex (-115 # 2) 1));
  same (VNum 123) (opt ofZ (lon_to_xindex (-113 # 2) 1));
  same (VNum 124) (opt ofZ (lon_to_xindex (-111 # 2) 1));
  same (VNum 125) (opt ofZ (lon_to_xindex (-109 # 2) 1));
  same (VNum 126) (opt ofZ (lon_to_xindex (-107 # 2) 1));
  same (VNum 127) (opt ofZ (lon_to_xindex (-105 # 2) 1));
  same (VNum 128) (opt ofZ (lon_to_xindex (-103 # 2) 1));
  same (VNum 129) (opt ofZ (lon_to_xindex (-101 # 2) 1));
  same (VNum 130) (opt ofZ (lon_to_xindex (-99 # 2) 1));
  same (VNum 131) (opt ofZ (lon_to_xindex (-97 # 2) 1));
  same (VNum 132) (opt ofZ (lon_to_xindex (-95 # 2) 1));
  same (VNum 133) (opt ofZ (lon_to_xindex (-93 # 2) 1));
  same (VNum 134) (opt ofZ (lon_to_xindex (-91 # 2) 1));
  same (VNum 135) (opt ofZ (lon_to_xindex (-89 # 2) 1));
  same (VNum 136) (opt ofZ (lon_to_xindex (-87 # 2) 1));
  same (VNum 137) (opt ofZ (lon_to_xindex (-85 # 2) 1));
  same (VNum 138) (opt ofZ (lon_to_xindex (-83 # 2) 1));
  same (VNum 139) (opt ofZ (lon_to_xindex (-81 # 2) 1));
  same (VNum 140) (opt ofZ (lon_to_xindex (-79 # 2) 1));
  same (VNum 141) (opt ofZ (lon_to_xindex (-77 # 2) 1));
  same (VNum 142) (opt ofZ (lon_to_xindex (-75 # 2) 1));
  same (VNum 143) (opt ofZ (lon_to_xindex (-73 # 2) 1));
  same (VNum 144) (opt ofZ (lon_to_xindex (-71 # 2) 1));
  same (VNum 145) (opt ofZ (lon_to_xindex (-69 # 2) 1));
  same (VNum 146) (opt ofZ (lon_to_xindex (-67 # 2) 1));
  same (VNum 147) (opt ofZ (lon_to_xindex (-65 # 2) 1));
  same (VNum 148) (opt ofZ (lon_to_xindex (-63 # 2) 1));
  same (VNum 149) (opt ofZ (lon_to_xindex (-61 # 2) 1));
  same (VNum 150) (opt ofZ (lon_to_xindex (-59 # 2) 1));
  same (VNum 151) (opt ofZ (lon_to_xindex (-57 # 2) 1));
  same (VNum 152) (opt ofZ (lon_to_xindex (-55 # 2) 1));
  same (VNum 153) (opt ofZ (lon_to_xindex (-53 # 2) 1));
  same (VNum 154) (opt ofZ (lon_to_xindex (-51 # 2) 1));
  same (VNum 155) (opt ofZ (lon_to_xindex (-49 # 2) 1));
  same (VNum 156) (opt ofZ (lon_to_xindex (-47 # 2) 1));
  same (VNum 157) (opt ofZ (lon_to_xindex (-45 # 2) 1));
  same (VNum 158) (opt ofZ (lon_to_xindex (-43 # 2) 1));
  same (VNum 159) (opt ofZ (lon_to_xindex (-41 # 2) 1));
  same (VNum 160) (opt ofZ (lon_to_xindex (-39 # 2) 1));
  same (VNum 161) (opt ofZ (lon_to_xindex (-37 # 2) 1));
  same (VNum 162) (opt ofZ (lon_to_xindex (-35 # 2) 1));
  same (VNum 163) (opt ofZ (lon_to_xindex (-33 # 2) 1));
  same (VNum 164) (opt ofZ (lon_to_xindex (-31 # 2) 1));
  same (VNum 165) (opt ofZ (lon_to_xindex (-29 # 2) 1));
  same (VNum 166) (opt ofZ (lon_to_xindex (-27 # 2) 1));
  same (VNum 167) (opt ofZ (lon_to_xindex (-25 # 2) 1));
  same (VNum 168) (opt ofZ (lon_to_xindex (-23 # 2) 1));
  same (VNum 169) (opt ofZ (lon_to_xindex (-21 # 2) 1));
  same (VNum 170) (opt ofZ (lon_to_xindex (-19 # 2) 1));
  same (VNum 171) (opt ofZ (lon_to_xindex (-17 # 2) 1));
  same (VNum 172) (opt ofZ (lon_to_xindex (-15 # 2) 1));
  same (VNum 173) (opt ofZ (lon_to_xindex (-13 # 2) 1));
  same (VNum 174) (opt ofZ (lon_to_xindex (-11 # 2) 1));
  same (VNum 175) (opt ofZ (lon_to_xindex (-9 # 2) 1));
  same (VNum 176) (opt ofZ (lon_to_xindex (-7 # 2) 1));
  same (VNum 177) (opt ofZ (lon_to_xindex (-5 # 2) 1));
  same (VNum 178) (opt ofZ (lon_to_xindex (-3 # 2) 1));
  same (VNum 179) (opt ofZ (lon_to_xindex (-1 # 2) 1));
  same (VNum 180) (opt ofZ (lon_to_xindex (1 # 2) 1));
  same (VNum 181) (opt ofZ (lon_to_xindex (3 # 2) 1));
  same (VNum 182) (opt ofZ (lon_to_xindex (5 # 2) 1));
  same (VNum 183) (opt ofZ (lon_to_xindex (7 # 2) 1));
  same (VNum 184) (opt ofZ (lon_to_xindex (9 # 2) 1));
  same (VNum 185) (opt ofZ (lon_to_xindex (11 # 2) 1));
  same (VNum 186) (opt ofZ (lon_to_xindex (13 # 2) 1));
  same (VNum 187) (opt ofZ (lon_to_xindex (15 # 2) 1));
  same (VNum 188) (opt ofZ (lon_to_xindex (17 # 2) 1));
  same (VNum 189) (opt ofZ (lon_to_xindex (19 # 2) 1));
  same (VNum 190) (opt ofZ (lon_to_xindex (21 # 2) 1));
  same (VNum 191) (opt ofZ (lon_to_xindex (23 # 2) 1));
  same (VNum 192) (opt ofZ (lon_to_xindex (25 # 2) 1));
  same (VNum 193) (opt ofZ (lon_to_xindex (27 # 2) 1));
  same (VNum 194) (opt ofZ (lon_to_xindex (29 # 2) 1));
  same (VNum 195) (opt ofZ (lon_to_xindex (31 # 2) 1));
  same (VNum 196) (opt ofZ (lon_to_xindex (33 # 2) 1));
  same (VNum 197) (opt ofZ (lon_to_xindex (35 # 2) 1));
  same (VNum 198) (opt ofZ (lon_to_xindex (37 # 2) 1));
  same (VNum 199) (opt ofZ (lon_to_xindex (39 # 2) 1));
  same (VNum 200) (opt ofZ (lon_to_xindex (41 # 2) 1));
  same (VNum 201) (opt ofZ (lon_to_xindex (43 # 2) 1));
  same (VNum 202) (opt ofZ (lon_to_xindex (45 # 2) 1));
  same (VNum 203) (opt ofZ (lon_to_xindex (47 # 2) 1));
  same (VNum 204) (opt ofZ (lon_to_xindex (49 # 2) 1));
  same (VNum 205) (opt ofZ (lon_to_xindex (51 # 2) 1));
  same (VNum 206) (opt ofZ (lon_to_xindex (53 # 2) 1));
  same (VNum 207) (opt ofZ (lon_to_xindex (55 # 2) 1));
  same (VNum 208) (opt ofZ (lon_to_xindex (57 # 2) 1));
  same (VNum 209) (opt ofZ (lon_to_xindex (59 # 2) 1));
  same (VNum 210) (opt ofZ (lon_to_xindex (61 # 2) 1));
  same (VNum 211) (opt ofZ (lon_to_xindex (63 # 2) 1));
  same (VNum 212) (opt ofZ (lon_to_xindex (65 # 2) 1));
  same (VNum 213) (opt ofZ (lon_to_xindex (67 # 2) 1));
  same (VNum 214) (opt ofZ (lon_to_xindex (69 # 2) 1));
  same (VNum 215) (opt ofZ (lon_to_xindex (71 # 2) 1));
  same (VNum 216) (opt ofZ (lon_to_xindex (73 # 2) 1));
  same (VNum 217) (opt ofZ (lon_to_xindex (75 # 2) 1));
  same (VNum 218) (opt ofZ (lon_to_xindex (77 # 2) 1));
  same (VNum 219) (opt ofZ (lon_to_xindex (79 # 2) 1));
  same (VNum 220) (opt ofZ (lon_to_xindex (81 # 2) 1));
  same (VNum 221) (opt ofZ (lon_to_xindex (83 # 2) 1));
  same (VNum 222) (opt ofZ (lon_to_xindex (85 # 2) 1));
  same (VNum 223) (opt ofZ (lon_to_xindex (87 # 2) 1));
  same (VNum 224) (opt ofZ (lon_to_xindex (89 # 2) 1));
  same (VNum 225) (opt ofZ (lon_to_xindex (91 # 2) 1));
  same (VNum 226) (opt ofZ (lon_to_xindex (93 # 2) 1));
  same (VNum 227) (opt ofZ (lon_to_xindex (95 # 2) 1));
  same (VNum 228) (opt ofZ (lon_to_xindex (97 # 2) 1));
  same (VNum 229) (opt ofZ (lon_to_xindex (99 # 2) 1));
  same (VNum 230) (opt ofZ (lon_to_xindex (101 # 2) 1));
  same (VNum 231) (opt ofZ (lon_to_xindex (103 # 2) 1));
  same (VNum 232) (opt ofZ (lon_to_xindex (105 # 2) 1));
  same (VNum 233) (opt ofZ (lon_to_xindex (107 # 2) 1));
  same (VNum 234) (opt ofZ (lon_to_xindex (109 # 2) 1));
  same (VNum 235) (opt ofZ (lon_to_xindex (111 # 2) 1));
  same (VNum 236) (opt ofZ (lon_to_xindex (113 # 2) 1));
  same (VNum 237) (opt ofZ (lon_to_xindex (115 # 2) 1));
  same (VNum 238) (opt ofZ (lon_to_xindex (117 # 2) 1));
  same (VNum 239) (opt ofZ (lon_to_xindex (119 # 2) 1));
  same (VNum 240) (opt ofZ (lon_to_xindex (121 # 2) 1));
  same (VNum 241) (opt ofZ (lon_to_xindex (123 # 2) 1));
  same (VNum 242) (opt ofZ (lon_to_xindex (125 # 2) 1));
  same (VNum 243) (opt ofZ (lon_to_xindex (127 # 2) 1));
  same (VNum 244) (opt ofZ (lon_to_xindex (129 # 2) 1));
  same (VNum 245) (opt ofZ (lon_to_xindex (131 # 2) 1));
  same (VNum 246) (opt ofZ (lon_to_xindex (133 # 2) 1));
  same (VNum 247) (opt ofZ (lon_to_xindex (135 # 2) 1));
  same (VNum 248) (opt ofZ (lon_to_xindex (137 # 2) 1));
  same (VNum 249) (opt ofZ (lon_to_xindex (139 # 2) 1));
  same (VNum 250) (opt ofZ (lon_to_xindex (141 # 2) 1));
  same (VNum 251) (opt ofZ (lon_to_xindex (143 # 2) 1));
  same (VNum 252) (opt ofZ (lon_to_xindex (145 # 2) 1));
  same (VNum 253) (opt ofZ (lon_to_xindex (147 # 2) 1));
  same (VNum 254) (opt ofZ (lon_to_xindex (149 # 2) 1));
  same (VNum 255) (opt ofZ (lon_to_xindex (151 # 2) 1));
  same (VNum 256) (opt ofZ (lon_to_xindex (153 # 2) 1));
  same (VNum 257) (opt ofZ (lon_to_xindex (155 # 2) 1));
  same (VNum 258) (opt ofZ (lon_to_xindex (157 # 2) 1));
  same (VNum 259) (opt ofZ (lon_to_xindex (159 # 2) 1));
  same (VNum 260) (opt ofZ (lon_to_xindex (161 # 2) 1));
  same (VNum 261) (opt ofZ (lon_to_xindex (163 # 2) 1));
  same (VNum 262) (opt ofZ (lon_to_xindex (165 # 2) 1));
  same (VNum 263) (opt ofZ (lon_to_xindex (167 # 2) 1));
  same (VNum 264) (opt ofZ (lon_to_xindex (169 # 2) 1));
  same (VNum 265) (opt ofZ (lon_to_xindex (171 # 2) 1));
  same (VNum 266) (opt ofZ (lon_to_xindex (173 # 2) 1));
  same (VNum 267) (opt ofZ (lon_to_xindex (175 # 2) 1));
  same (VNum 268) (opt ofZ (lon_to_xindex (177 # 2) 1));
  same (VNum 269) (opt ofZ (lon_to_xindex (179 # 2) 1));
  same (VNum 270) (opt ofZ (lon_to_xindex (181 # 2) 1));
  same (VNum 271) (opt ofZ (lon_to_xindex (183 # 2) 1));
  same (VNum 272) (opt ofZ (lon_to_xindex (185 # 2) 1));
  same (VNum 273) (opt ofZ (lon_to_xindex (187 # 2) 1));
  same (VNum 274) (opt ofZ (lon_to_xindex (189 # 2) 1));
  same (VNum 275) (opt ofZ (lon_to_xindex (191 # 2) 1));
  same (VNum 276) (opt ofZ (lon_to_xindex (193 # 2) 1));
  same (VNum 277) (opt ofZ (lon_to_xindex (195 # 2) 1));
  same (VNum 278) (opt ofZ (lon_to_xindex (197 # 2) 1));
  same (VNum 279) (opt ofZ (lon_to_xindex (199 # 2) 1));
  same (VNum 280) (opt ofZ (lon_to_xindex (201 # 2) 1));
  same (VNum 281) (opt ofZ (lon_to_xindex (203 # 2) 1));
  same (VNum 282) (opt ofZ (lon_to_xindex (205 # 2) 1));
  same (VNum 283) (opt ofZ (lon_to_xindex (207 # 2) 1));
  same (VNum 284) (opt ofZ (lon_to_xindex (209 # 2) 1));
  same (VNum 285) (opt ofZ (lon_to_xindex (211 # 2) 1));
  same (VNum 286) (opt ofZ (lon_to_xindex (213 # 2) 1));
  same (VNum 287) (opt ofZ (lon_to_xindex (215 # 2) 1));
  same (VNum 288) (opt ofZ (lon_to_xindex (217 # 2) 1));
  same (VNum 289) (opt ofZ (lon_to_xindex (219 # 2) 1));
  same (VNum 290) (opt ofZ (lon_to_xindex (221 # 2) 1));
  same (VNum 291) (opt ofZ (lon_to_xindex (223 # 2) 1));
  same (VNum 292) (opt ofZ (lon_to_xindex (225 # 2) 1));
  same (VNum 293) (opt ofZ (lon_to_xindex (227 # 2) 1));
  same (VNum 294) (opt ofZ (lon_to_xindex (229 # 2) 1));
  same (VNum 295) (opt ofZ (lon_to_xindex (231 # 2) 1));
  same (VNum 296) (opt ofZ (lon_to_xindex (233 # 2) 1));
  same (VNum 297) (opt ofZ (lon_to_xindex (235 # 2) 1));
  same (VNum 298) (opt ofZ (lon_to_xindex (237 # 2) 1));
  same (VNum 299) (opt ofZ (lon_to_xindex (239 # 2) 1));
  same (VNum 300) (opt ofZ (lon_to_xindex (241 # 2) 1));
  same (VNum 301) (opt ofZ (lon_to_xindex (243 # 2) 1));
  same (VNum 302) (opt ofZ (lon_to_xindex (245 # 2) 1));
  same (VNum 303) (opt ofZ (lon_to_xindex (247 # 2) 1));
  same (VNum 304) (opt ofZ (lon_to_xindex (249 # 2) 1));
  same (VNum 305) (opt ofZ (lon_to_xindex (251 # 2) 1));
  same (VNum 306) (opt ofZ (lon_to_xindex (253 # 2) 1));
  same (VNum 307) (opt ofZ (lon_to_xindex (255 # 2) 1));
  same (VNum 308) (opt ofZ (lon_to_xindex (257 # 2) 1));
  same (VNum 309) (opt ofZ (lon_to_xindex (259 # 2) 1));
  same (VNum 310) (opt ofZ (lon_to_xindex (261 # 2) 1));
  same (VNum 311) (opt ofZ (lon_to_xindex (263 # 2) 1));
  same (VNum 312) (opt ofZ (lon_to_xindex (265 # 2) 1));
  same (VNum 313) (opt ofZ (lon_to_xindex (267 # 2) 1));
  same (VNum 314) (opt ofZ (lon_to_xindex (269 # 2) 1));
  same (VNum 315) (opt ofZ (lon_to_xindex (271 # 2) 1));
  same (VNum 316) (opt ofZ (lon_to_xindex (273 # 2) 1));
  same (VNum 317) (opt ofZ (lon_to_xindex (275 # 2) 1));
  same (VNum 318) (opt ofZ (lon_to_xindex (277 # 2) 1));
  same (VNum 319) (opt ofZ (lon_to_xindex (279 # 2) 1));
  same (VNum 320) (opt ofZ (lon_to_xindex (281 # 2) 1));
  same (VNum 321) (opt ofZ (lon_to_xindex (283 # 2) 1));
  same (VNum 322) (opt ofZ (lon_to_xindex (285 # 2) 1));
  same (VNum 323) (opt ofZ (lon_to_xindex (287 # 2) 1));
  same (VNum 324) (opt ofZ (lon_to_xindex (289 # 2) 1));
  same (VNum 325) (opt ofZ (lon_to_xindex (291 # 2) 1));
  same (VNum 326) (opt ofZ (lon_to_xindex (293 # 2) 1));
  same (VNum 327) (opt ofZ (lon_to_xindex (295 # 2) 1));
  same (VNum 328) (opt ofZ (lon_to_xindex (297 # 2) 1));
  same (VNum 329) (opt ofZ (lon_to_xindex (299 # 2) 1));
  same (VNum 330) (opt ofZ (lon_to_xindex (301 # 2) 1));
  same (VNum 331) (opt ofZ (lon_to_xindex (303 # 2) 1));
  same (VNum 332) (opt ofZ (lon_to_xindex (305 # 2) 1));
  same (VNum 333) (opt ofZ (lon_to_xindex (307 # 2) 1));
  same (VNum 334) (opt ofZ (lon_to_xindex (309 # 2) 1));
  same (VNum 335) (opt ofZ (lon_to_xindex (311 # 2) 1));
  same (VNum 336) (opt ofZ (lon_to_xindex (313 # 2) 1));
  same (VNum 337) (opt ofZ (lon_to_xindex (315 # 2) 1));
  same (VNum 338) (opt ofZ (lon_to_xindex (317 # 2) 1));
  same (VNum 339) (opt ofZ (lon_to_xindex (319 # 2) 1));
  same (VNum 340) (opt ofZ (lon_to_xindex (321 # 2) 1));
  same (VNum 341) (opt ofZ (lon_to_xindex (323 # 2) 1));
  same (VNum 342) (opt ofZ (lon_to_xindex (325 # 2) 1));
  same (VNum 343) (opt ofZ (lon_to_xindex (327 # 2) 1));
  same (VNum 344) (opt ofZ (lon_to_xindex (329 # 2) 1));
  same (VNum 345) (opt ofZ (lon_to_xindex (331 # 2) 1));
  same (VNum 346) (opt ofZ (lon_to_xindex (333 # 2) 1));
  same (VNum 347) (opt ofZ (lon_to_xindex (335 # 2) 1));
  same (VNum 348) (opt ofZ (lon_to_xindex (337 # 2) 1));
  same (VNum 349) (opt ofZ (lon_to_xindex (339 # 2) 1));
  same (VNum 350) (opt ofZ (lon_to_xindex (341 # 2) 1));
  same (VNum 351) (opt ofZ (lon_to_xindex (343 # 2) 1));
  same (VNum 352) (opt ofZ (lon_to_xindex (345 # 2) 1));
  same (VNum 353) (opt ofZ (lon_to_xindex (347 # 2) 1));
  same (VNum 354) (opt ofZ (lon_to_xindex (349 # 2) 1));
  same (VNum 355) (opt ofZ (lon_to_xindex (351 # 2) 1));
  same (VNum 356) (opt ofZ (lon_to_xindex (353 # 2) 1));
  same (VNum 357) (opt ofZ (lon_to_xindex (355 # 2) 1));
  same (VNum 358) (opt ofZ (lon_to_xindex (357 # 2) 1));
  same (VNum 359) (opt ofZ (lon_to_xindex (359 # 2) 1));
  same (VNum 0) (opt ofZ (lon_to_xindex (361 # 2) 1));
  same (VNum 1) (opt ofZ (lon_to_xindex (363 # 2) 1));
  same (VNum 2) (opt ofZ (lon_to_xindex (365 # 2) 1));
  same (VNum 3) (opt ofZ (lon_to_xindex (367 # 2) 1));
  same (VNum 4) (opt ofZ (lon_to_xindex (369 # 2) 1));
  same (VNum 5) (opt ofZ (lon_to_xindex (371 # 2) 1));
  same (VNum 6) (opt ofZ (lon_to_xindex (373 # 2) 1));
  same (VNum 7) (opt ofZ (lon_to_xindex (375 # 2) 1));
  same (VNum 8) (opt ofZ (lon_to_xindex (377 # 2) 1));
  same (VNum 9) (opt ofZ (lon_to_xindex (379 # 2) 1));
  same (VNum 10) (opt ofZ (lon_to_xindex (381 # 2) 1));
  same (VNum 11) (opt ofZ (lon_to_xindex (383 # 2) 1));
  same (VNum 12) (opt ofZ (lon_to_xindex (385 # 2) 1));
  same (VNum 13) (opt ofZ (lon_to_xindex (387 # 2) 1));
  same (VNum 14) (opt ofZ (lon_to_xindex (389 # 2) 1));
  same (VNum 15) (opt ofZ (lon_to_xindex (391 # 2) 1));
  same (VNum 16) (opt ofZ (lon_to_xindex (393 # 2) 1));
  same (VNum 17) (opt ofZ (lon_to_xindex (395 # 2) 1));
  same (VNum 18) (opt ofZ (lon_to_xindex (397 # 2) 1));
  same (VNum 19) (opt ofZ (lon_to_xindex (399 # 2) 1));
  same (VNum 20) (opt ofZ (lon_to_xindex (401 # 2) 1));
  same (VNum 21) (opt ofZ (lon_to_xindex (403 # 2) 1));
  same (VNum 22) (opt ofZ (lon_to_xindex (405 # 2) 1));
  same (VNum 23) (opt ofZ (lon_to_xindex (407 # 2) 1));
  same (VNum 24) (opt ofZ (lon_to_xindex (409 # 2) 1));
  same (VNum 25) (opt ofZ (lon_to_xindex (411 # 2) 1));
  same (VNum 26) (opt ofZ (lon_to_xindex (413 # 2) 1));
  same (VNum 27) (opt ofZ (lon_to_xindex (415 # 2) 1));
  same (VNum 28) (opt ofZ (lon_to_xindex (417 # 2) 1));
  same (VNum 29) (opt ofZ (lon_to_xindex (419 # 2) 1));
  same (VNum 30) (opt ofZ (lon_to_xindex (421 # 2) 1));
  same (VNum 31) (opt ofZ (lon_to_xindex (423 # 2) 1));
  same (VNum 32) (opt ofZ (lon_to_xindex (425 # 2) 1));
  same (VNum 33) (opt ofZ (lon_to_xindex (427 # 2) 1));
  same (VNum 34) (opt ofZ (lon_to_xindex (429 # 2) 1));
  same (VNum 35) (opt ofZ (lon_to_xindex (431 # 2) 1));
  same (VNum 36) (opt ofZ (lon_to_xindex (433 # 2) 1));
  same (VNum 37) (opt ofZ (lon_to_xindex (435 # 2) 1));
  same (VNum 38) (opt ofZ (lon_to_xindex (437 # 2) 1));
  same (VNum 39) (opt ofZ (lon_to_xindex (439 # 2) 1));
  same (VNum 40) (opt ofZ (lon_to_xindex (441 # 2) 1));
  same (VNum 41) (opt ofZ (lon_to_xindex (443 # 2) 1));
  same (VNum 42) (opt ofZ (lon_to_xindex (445 # 2) 1));
  same (VNum 43) (opt ofZ (lon_to_xindex (447 # 2) 1));
  same (VNum 44) (opt ofZ (lon_to_xindex (449 # 2) 1));
  same (VNum 45) (opt ofZ (lon_to_xindex (451 # 2) 1));
  same (VNum 46) (opt ofZ (lon_to_xindex (453 # 2) 1));
  same (VNum 47) (opt ofZ (lon_to_xindex (455 # 2) 1));
  same (VNum 48) (opt ofZ (lon_to_xindex (457 # 2) 1));
  same (VNum 49) (opt ofZ (lon_to_xindex (459 # 2) 1));
  same (VNum 50) (opt ofZ (lon_to_xindex (461 # 2) 1));
  same (VNum 51) (opt ofZ (lon_to_xindex (463 # 2) 1));
  same (VNum 52) (opt ofZ (lon_to_xindex (465 # 2) 1));
  same (VNum 53) (opt ofZ (lon_to_xindex (467 # 2) 1));
  same (VNum 54) (opt ofZ (lon_to_xindex (469 # 2) 1));
  same (VNum 55) (opt ofZ (lon_to_xindex (471 # 2) 1));
  same (VNum 56) (opt ofZ (lon_to_xindex (473 # 2) 1));
  same (VNum 57) (opt ofZ (lon_to_xindex (475 # 2) 1));
  same (VNum 58) (opt ofZ (lon_to_xindex (477 # 2) 1));
  same (VNum 59) (opt ofZ (lon_to_xindex (479 # 2) 1));
  same (VNum 60) (opt ofZ (lon_to_xindex (481 # 2) 1));
  same (VNum 61) (opt ofZ (lon_to_xindex (483 # 2) 1));
  same (VNum 62) (opt ofZ (lon_to_xindex (485 # 2) 1));
  same (VNum 63) (opt ofZ (lon_to_xindex (487 # 2) 1));
  same (VNum 64) (opt ofZ (lon_to_xindex (489 # 2) 1));
  same (VNum 65) (opt ofZ (lon_to_xindex (491 # 2) 1));
  same (VNum 66) (opt ofZ (lon_to_xindex (493 # 2) 1));
  same (VNum 67) (opt ofZ (lon_to_xindex (495 # 2) 1));
  same (VNum 68) (opt ofZ (lon_to_xindex (497 # 2) 1));
  same (VNum 69) (opt ofZ (lon_to_xindex (499 # 2) 1));
  same (VNum 70) (opt ofZ (lon_to_xindex (501 # 2) 1));
  same (VNum 71) (opt ofZ (lon_to_xindex (503 # 2) 1));
  same (VNum 72) (opt ofZ (lon_to_xindex (505 # 2) 1));
  same (VNum 73) (opt ofZ (lon_to_xindex (507 # 2) 1));
  same (VNum 74) (opt ofZ (lon_to_xindex (509 # 2) 1));
  same (VNum 75) (opt ofZ (lon_to_xindex (511 # 2) 1));
  same (VNum 76) (opt ofZ (lon_to_xindex (513 # 2) 1));
  same (VNum 77) (opt ofZ (lon_to_xindex (515 # 2) 1));
  same (VNum 78) (opt ofZ (lon_to_xindex (517 # 2) 1));
  same (VNum 79) (opt ofZ (lon_to_xindex (519 # 2) 1));
  same (VNum 80) (opt ofZ (lon_to_xindex (521 # 2) 1));
  same (VNum 81) (opt ofZ (lon_to_xindex (523 # 2) 1));
  same (VNum 82) (opt ofZ (lon_to_xindex (525 # 2) 1));
  same (VNum 83) (opt ofZ (lon_to_xindex (527 # 2) 1));
  same (VNum 84) (opt ofZ (lon_to_xindex (529 # 2) 1));
  same (VNum 85) (opt ofZ (lon_to_xindex (531 # 2) 1));
  same (VNum 86) (opt ofZ (lon_to_xindex (533 # 2) 1));
  same (VNum 87) (opt ofZ (lon_to_xindex (535 # 2) 1));
  same (VNum 88) (opt ofZ (lon_to_xindex (537 # 2) 1));
  same (VNum 89) (opt ofZ (lon_to_xindex (539 # 2) 1));
  same (VNum 90) (opt ofZ (lon_to_xindex (541 # 2) 1));
  same (VNum 91) (opt ofZ (lon_to_xindex (543 # 2) 1));
  same (VNum 92) (opt ofZ (lon_to_xindex (545 # 2) 1));
  same (VNum 93) (opt ofZ (lon_to_xindex (547 # 2) 1));
  same (VNum 94) (opt ofZ (lon_to_xindex (549 # 2) 1));
  same (VNum 95) (opt ofZ (lon_to_xindex (551 # 2) 1));
  same (VNum 96) (opt ofZ (lon_to_xindex (553 # 2) 1));
  same (VNum 97) (opt ofZ (lon_to_xindex (555 # 2) 1));
  same (VNum 98) (opt ofZ (lon_to_xindex (557 # 2) 1));
  same (VNum 99) (opt ofZ (lon_to_xindex (559 # 2) 1));
  same (VNum 100) (opt ofZ (lon_to_xindex (561 # 2) 1));
  same (VNum 101) (opt ofZ (lon_to_xindex (563 # 2) 1));
  same (VNum 102) (opt ofZ (lon_to_xindex (565 # 2) 1));
  same (VNum 103) (opt ofZ (lon_to_xindex (567 # 2) 1));
  same (VNum 104) (opt ofZ (lon_to_xindex (569 # 2) 1));
  same (VNum 105) (opt ofZ (lon_to_xindex (571 # 2) 1));
  same (VNum 106) (opt ofZ (lon_to_xindex (573 # 2) 1));
  same (VNum 107) (opt ofZ (lon_to_xindex (575 # 2) 1));
  same (VNum 108) (opt ofZ (lon_to_xindex (577 # 2) 1));
  same (VNum 109) (opt ofZ (lon_to_xindex (579 # 2) 1));
  same (VNum 110) (opt ofZ (lon_to_xindex (581 # 2) 1));
  same (VNum 111) (opt ofZ (lon_to_xindex (583 # 2) 1));
  same (VNum 112) (opt ofZ (lon_to_xindex (585 # 2) 1));
  same (VNum 113) (opt ofZ (lon_to_xindex (587 # 2) 1));
  same (VNum 114) (opt ofZ (lon_to_xindex (589 # 2) 1));
  same (VNum 115) (opt ofZ (lon_to_xindex (591 # 2) 1));
  same (VNum 116) (opt ofZ (lon_to_xindex (593 # 2) 1));
  same (VNum 117) (opt ofZ (lon_to_xindex (595 # 2) 1));
  same (VNum 118) (opt ofZ (lon_to_xindex (597 # 2) 1));
  same (VNum 119) (opt ofZ (lon_to_xindex (599 # 2) 1));
  same (VNum 120) (opt ofZ (lon_to_xindex (601 # 2) 1));
  same (VNum 121) (opt ofZ (lon_to_xindex (603 # 2) 1));
  same (VNum 122) (opt ofZ (lon_to_xindex (605 # 2) 1));
  same (VNum 123) (opt ofZ (lon_to_xindex (607 # 2) 1));
  same (VNum 124) (opt ofZ (lon_to_xindex (609 # 2) 1));
  same (VNum 125) (opt ofZ (lon_to_xindex (611 # 2) 1));
  same (VNum 126) (opt ofZ (lon_to_xindex (613 # 2) 1));
  same (VNum 127) (opt ofZ (lon_to_xindex (615 # 2) 1));
  same (VNum 128) (opt ofZ (lon_to_xindex (617 # 2) 1));
  same (VNum 129) (opt ofZ (lon_to_xindex (619 # 2) 1));
  same (VNum 130) (opt ofZ (lon_to_xindex (621 # 2) 1));
  same (VNum 131) (opt ofZ (lon_to_xindex (623 # 2) 1));
  same (VNum 132) (opt ofZ (lon_to_xindex (625 # 2) 1));
  same (VNum 133) (opt ofZ (lon_to_xindex (627 # 2) 1));
  same (VNum 134) (opt ofZ (lon_to_xindex (629 # 2) 1));
  same (VNum 135) (opt ofZ (lon_to_xindex (631 # 2) 1));
  same (VNum 136) (opt ofZ (lon_to_xindex (633 # 2) 1));
  same (VNum 137) (opt ofZ (lon_to_xindex (635 # 2) 1));
  same (VNum 138) (opt ofZ (lon_to_xindex (637 # 2) 1));
  same (VNum 139) (opt ofZ (lon_to_xindex (639 # 2) 1));
  same (VNum 140) (opt ofZ (lon_to_xindex (641 # 2) 1));
  same (VNum 141) (opt ofZ (lon_to_xindex (643 # 2) 1));
  same (VNum 142) (opt ofZ (lon_to_xindex (645 # 2) 1));
  same (VNum 143) (opt ofZ (lon_to_xindex (647 # 2) 1));
  same (VNum 144) (opt ofZ (lon_to_xindex (649 # 2) 1));
  same (VNum 145) (opt ofZ (lon_to_xindex (651 # 2) 1));
  same (VNum 146) (opt ofZ (lon_to_xindex (653 # 2) 1));
  same (VNum 147) (opt ofZ (lon_to_xindex (655 # 2) 1));
  same (VNum 148) (opt ofZ (lon_to_xindex (657 # 2) 1));
  same (VNum 149) (opt ofZ (lon_to_xindex (659 # 2) 1));
  same (VNum 150) (opt ofZ (lon_to_xindex (661 # 2) 1));
  same (VNum 151) (opt ofZ (lon_to_xindex (663 # 2) 1));
  same (VNum 152) (opt ofZ (lon_to_xindex (665 # 2) 1));
  same (VNum 153) (opt ofZ (lon_to_xindex (667 # 2) 1));
  same (VNum 154) (opt ofZ (lon_to_xindex (669 # 2) 1));
  same (VNum 155) (opt ofZ (lon_to_xindex (671 # 2) 1));
  same (VNum 156) (opt ofZ (lon_to_xindex (673 # 2) 1));
  same (VNum 157) (opt ofZ (lon_to_xindex (675 # 2) 1));
  same (VNum 158) (opt ofZ (lon_to_xindex (677 # 2) 1));
  same (VNum 159) (opt ofZ (lon_to_xindex (679 # 2) 1))]).
Example TestQCMethodsLonToXindex_test_lons_ge_180_is : TestQCMethodsLonToXindex_test_lons_ge_180 = true.
Proof. reflexivity. Qed.
Definition TestQCMethodsBlacklist_test_fail_zero_lat_zero_lon_fail : bool := Eval vm_compute in (all [same (rs ofZ (blacklist (Some ""%string) (Some 980) 1850 1 0 0 None)) (VNum 1)]).
Example TestQCMethodsBlacklist_test_fail_zero_lat_zero_lon_fail_is : TestQCMethodsBlacklist_test_fail_zero_lat_zero_lon_fail = true.
Proof. reflexivity. Qed.
Definition TestQCMethodsBlacklist_test_fail_SEAS : bool := Eval vm_compute in (all [same (rs ofZ (blacklist (Some ""%string) (Some 874) 1850 1 0 1 None)) (VNum 1)]).
Example TestQCMethodsBlacklist_test_fail_SEAS_is : TestQCMethodsBlacklist_test_fail_SEAS = true.
Proof. reflexivity. Qed.
Definition TestQCMethodsBlacklist_test_fail_CMAN : bool := Eval vm_compute in (all [same (rs ofZ (blacklist (Some ""%string) (Some 732) 1850 1 0 1 (Some 13))) (VNum 1)]).
Example TestQCMethodsBlacklist_test_fail_CMAN_is : TestQCMethodsBlacklist_test_fail_CMAN = true.
Proof. reflexivity. Qed.
Definition TestQCMethodsBlacklist_test_obvious_pass : bool := Eval vm_compute in (all [same (rs ofZ (blacklist (Some ""%string) (Some 732) 1850 1 0 1 None)) (VNum 0)]).
Example TestQCMethodsBlacklist_test_obvious_pass_is : TestQCMethodsBlacklist_test_obvious_pass = true.
Proof. reflexivity. Qed.
Definition TestQCMethodsBlacklist_test_obvious_fails : bool := Eval vm_compute in (all [same (rs ofZ (blacklist (Some ""%string) (Some 732) 1958 1 45 (-172) None)) (VNum 1);
  same (rs ofZ (blacklist (Some ""%string) (Some 732) 1974 1 (-47) (-60) None)) (VNum 1)]).
Example TestQCMethodsBlacklist_test_obvious_fails_is : TestQCMethodsBlacklist_test_obvious_fails = true.
Proof. reflexivity. Qed.
Definition TestQCMethodsBlacklist_test_obvious_fails_shifted_long : bool := Eval vm_compute in (all [same (rs ofZ (blacklist (Some ""%string) (Some 732) 1958 1 45 188 None)) (VNum 1);
  same (rs ofZ (blacklist (Some ""%string) (Some 732) 1974 1 (-47) 300 None)) (VNum 1)]).
Example TestQCMethodsBlacklist_test_obvious_fails_shifted_long_is : TestQCMethodsBlacklist_test_obvious_fails_shifted_long = true.
Proof. reflexivity. Qed.
Definition TestQCMethodsBlacklist_test_right_area_wrong_callsign_passes : bool := Eval vm_compute in (all [same (rs ofZ (blacklist (Some ""%string) (Some 731) 1958 1 45 (-172) None)) (VNum 0);
  same (rs ofZ (blacklist (Some ""%string) (Some 731) 1974 1 (-47) (-60) None)) (VNum 0)]).
Example TestQCMethodsBlacklist_test_right_area_wrong_callsign_passes_is : TestQCMethodsBlacklist_test_right_area_wrong_callsign_passes = true.
Proof. reflexivity. Qed.
Definition TestQCMethodsBlacklist_test_right_area_wrong_year_passes : bool := Eval vm_compute in (all [same (rs ofZ (blacklist (Some ""%string) (Some 732) 1957 1 45 (-172) None)) (VNum 0);
  same (rs ofZ (blacklist (Some ""%string) (Some 732) 1975 1 (-47) (-60) None)) (VNum 0)]).
Example TestQCMethodsBlacklist_test_right_area_wrong_year_passes_is : TestQCMethodsBlacklist_test_right_area_wrong_year_passes = true.
Proof. reflexivity. Qed.
Definition TestQCMethodsSunangle_test_looking_through_window : bool := Eval vm_compute in (all [near 5 (VNum 0) (rs (fun d => ofQ (n_elevation 2015 d 6 40 (101473 # 2000) (-2209 # 625))) (dayinyear 2015 10 15))]).
Example TestQCMethodsSunangle_test_looking_through_window_is : TestQCMethodsSunangle_test_looking_through_window = true.
Proof. reflexivity. Qed.
Definition TestQCMethodsSunangle_test_sunrise_summer_solstice_2016_exeter : bool := Eval vm_compute in (all [near (3 # 2) (VNum 0) (rs (fun d => ofQ (n_elevation 2016 d 4 1 (101473 # 2000) (-2209 # 625))) (dayinyear 2016 6 20))]).
Example TestQCMethodsSunangle_test_sunrise_summer_solstice_2016_exeter_is : TestQCMethodsSunangle_test_sunrise_summer_solstice_2016_exeter = true.
Proof. reflexivity. Qed.
Definition TestQCMethodsSunangle_test_sunrise_in_Lima_March_3_1996 : bool := Eval vm_compute in (all [near (3 # 2) (VNum 0) (rs (fun d => ofQ (n_elevation 1996 d 11 11 (-120433 # 10000) (-770283 # 10000))) (dayinyear 1996 3 3))]).
Example TestQCMethodsSunangle_test_sunrise_in_Lima_March_3_1996_is : TestQCMethodsSunangle_test_sunrise_in_Lima_March_3_1996 = true.
Proof. reflexivity. Qed.
Definition TestQCMethodsDayTest_test_looking_through_window_plus_an_hour_sunup : bool := Eval vm_compute in (all [same (VNum 1) (rs ofZ (day_test n_elevation (Some 2015) (Some 10) (Some 15) (Some (39 # 5)%Q) (Some (101473 # 2000)%Q) (-2209 # 625) 1))]).
Example TestQCMethodsDayTest_test_looking_through_window_plus_an_hour_sunup_is : TestQCMethodsDayTest_test_looking_through_window_plus_an_hour_sunup = true.
Proof. reflexivity. Qed.
Definition TestQCMethodsDayTest_test_looking_through_window_at_elevenish : bool := Eval vm_compute in (all [same (VNum 1) (rs ofZ (day_test n_elevation (Some 2018) (Some 9) (Some 25) (Some (23 # 2)%Q) (Some (101473 # 2000)%Q) (-2209 # 625) 1))]).
Example TestQCMethodsDayTest_test_looking_through_window_at_elevenish_is : TestQCMethodsDayTest_test_looking_through_window_at_elevenish = true.
Proof. reflexivity. Qed.
Definition TestQCMethodsDayTest_test_looking_through_window_plus_an_hour_sunstilldown : bool := Eval vm_compute in (all [same (VNum 0) (rs ofZ (day_test n_elevation (Some 2015) (Some 10) (Some 15) (Some (15 # 2)%Q) (Some (101473 # 2000)%Q) (-2209 # 625) 1))]).
Example TestQCMethodsDayTest_test_looking_through_window_plus_an_hour_sunstilldown_is : TestQCMethodsDayTest_test_looking_through_window_plus_an_hour_sunstilldown = true.
Proof. reflexivity. Qed.
Definition TestQCMethodsYindexToLat_test_0_is_89point5 : bool := Eval vm_compute in (all [same (rs ofQ (yindex_to_lat 0 1)) (VNum (179 # 2))]).
Example TestQCMethodsYindexToLat_test_0_is_89point5_is : TestQCMethodsYindexToLat_test_0_is_89point5 = true.
Proof. reflexivity. Qed.
Definition TestQCMethodsYindexToLat_test_179_is_minus89point5 : bool := Eval vm_compute in (all [same (rs ofQ (yindex_to_lat 179 1)) (VNum (-179 # 2))]).
Example TestQCMethodsYindexToLat_test_179_is_minus89point5_is : TestQCMethodsYindexToLat_test_179_is_minus89point5 = true.
Proof. reflexivity. Qed.
Definition TestQCMethodsYindexToLat_test_35_is_minus87point5_atresof5 : bool := Eval vm_compute in (all [same (rs ofQ (yindex_to_lat 35 5)) (VNum (-175 # 2))]).
Example TestQCMethodsYindexToLat_test_35_is_minus87point5_atresof5_is : TestQCMethodsYindexToLat_test_35_is_minus87point5_atresof5 = true.
Proof. reflexivity. Qed.
Definition TestQCMethodsYindexToLat_test_0_is_87point5_atresof5 : bool := Eval vm_compute in (all [same (rs ofQ (yindex_to_lat 0 5)) (VNum (175 # 2))]).
Example TestQCMethodsYindexToLat_test_0_is_87point5_atresof5_is : TestQCMethodsYindexToLat_test_0_is_87point5_atresof5 = true.
Proof. reflexivity. Qed.
Definition TestQCMethodsXindexToLon_test_0 : bool := Eval vm_compute in (all [same (rs ofQ (xindex_to_lon 0 1)) (VNum (-359 # 2))]).
Example TestQCMethodsXindexToLon_test_0_is : TestQCMethodsXindexToLon_test_0 = true.
Proof. reflexivity. Qed.
Definition TestQCMethodsXindexToLon_test_359 : bool := Eval vm_compute in (all [same (rs ofQ (xindex_to_lon 359 1)) (VNum (359 # 2))]).
Example TestQCMethodsXindexToLon_test_359_is : TestQCMethodsXindexToLon_test_359 = true.
Proof. reflexivity. Qed.
Definition TestQCMethodsXindexToLon_test_179 : bool := Eval vm_compute in (all [same (rs ofQ (xindex_to_lon 179 1)) (VNum (-1 # 2))]).
Example TestQCMethodsXindexToLon_test_179_is : TestQCMethodsXindexToLon_test_179 = true.
Proof. reflexivity. Qed.
Definition TestQCMethodsXindexToLon_test_180 : bool := Eval vm_compute in (all [same (rs ofQ (xindex_to_lon 180 1)) (VNum (1 # 2))]).
Example TestQCMethodsXindexToLon_test_180_is : TestQCMethodsXindexToLon_test_180 = true.
Proof. reflexivity. Qed.
Definition TestQCMethodMissingMean_test_all_missing : bool := Eval vm_compute in (all [same (opt ofQ (missing_mean [None; None])) VNone]).
Example TestQCMethodMissingMean_test_all_missing_is : TestQCMethodMissingMean_test_all_missing = true.
Proof. reflexivity. Qed.
Definition TestQCMethodMissingMean_test_one_non_missing : bool := Eval vm_compute in (all [same (opt ofQ (missing_mean [None; (Some (73 # 10)%Q)])) (VNum (73 # 10));
  same (opt ofQ (missing_mean [(Some (4971 # 5)%Q); None])) (VNum (4971 # 5))]).
Example TestQCMethodMissingMean_test_one_non_missing_is : TestQCMethodMissingMean_test_one_non_missing = true.
Proof. reflexivity. Qed.
Definition TestQCMethodMissingMean_test_all_non_missing : bool := Eval vm_compute in (all [same (opt ofQ (missing_mean [(Some 6%Q); (Some 1%Q)])) (VNum (7 # 2))]).
Example TestQCMethodMissingMean_test_all_non_missing_is : TestQCMethodMissingMean_test_all_non_missing = true.
Proof. reflexivity. Qed.
Definition TestQCMethodFillMissingValues_test_all_missing_in_square : bool := Eval vm_compute in (all [same (let '(a, b, c, d) := (fill_missing_vals None None None None) in opt ofQ a) VNone;
  same (let '(a, b, c, d) := (fill_missing_vals None None None None) in opt ofQ b) VNone;
  same (let '(a, b, c, d) := (fill_missing_vals None None None None) in opt ofQ c) VNone;
  same (let '(a, b, c, d) := (fill_missing_vals None None None None) in opt ofQ d) VNone]).
Example TestQCMethodFillMissingValues_test_all_missing_in_square_is : TestQCMethodFillMissingValues_test_all_missing_in_square = true.
Proof. reflexivity. Qed.
Definition TestQCMethodFillMissingValues_test_one_missing_corner : bool := Eval vm_compute in (all [same (let '(a, b, c, d) := (fill_missing_vals (Some 1%Q) (Some 2%Q) (Some 3%Q) None) in opt ofQ a) (VNum 1);
  same (let '(a, b, c, d) := (fill_missing_vals (Some 1%Q) (Some 2%Q) (Some 3%Q) None) in opt ofQ b) (VNum 2);
  same (let '(a, b, c, d) := (fill_missing_vals (Some 1%Q) (Some 2%Q) (Some 3%Q) None) in opt ofQ c) (VNum 3);
  same (let '(a, b, c, d) := (fill_missing_vals (Some 1%Q) (Some 2%Q) (Some 3%Q) None) in opt ofQ d) (VNum (5 # 2))]).
Example TestQCMethodFillMissingValues_test_one_missing_corner_is : TestQCMethodFillMissingValues_test_one_missing_corner = true.
Proof. reflexivity. Qed.
Definition TestQCMethodFillMissingValues_test_two_missing_corners : bool := Eval vm_compute in (all [same (let '(a, b, c, d) := (fill_missing_vals None (Some 2%Q) (Some 3%Q) None) in opt ofQ a) (VNum (5 # 2));
  same (let '(a, b, c, d) := (fill_missing_vals None (Some 2%Q) (Some 3%Q) None) in opt ofQ b) (VNum 2);
  same (let '(a, b, c, d) := (fill_missing_vals None (Some 2%Q) (Some 3%Q) None) in opt ofQ c) (VNum 3);
  same (let '(a, b, c, d) := (fill_missing_vals None (Some 2%Q) (Some 3%Q) None) in opt ofQ d) (VNum (5 # 2))]).
Example TestQCMethodFillMissingValues_test_two_missing_corners_is : TestQCMethodFillMissingValues_test_two_missing_corners = true.
Proof. reflexivity. Qed.
Definition TestQCMethodFillMissingValues_test_three_missing_corners : bool := Eval vm_compute in (all [same (let '(a, b, c, d) := (fill_missing_vals None None (Some 3%Q) None) in opt ofQ a) (VNum 3);
  same (let '(a, b, c, d) := (fill_missing_vals None None (Some 3%Q) None) in opt ofQ b) (VNum 3);
  same (let '(a, b, c, d) := (fill_missing_vals None None (Some 3%Q) None) in opt ofQ c) (VNum 3);
  same (let '(a, b, c, d) := (fill_missing_vals None None (Some 3%Q) None) in opt ofQ d) (VNum 3)]).
Example TestQCMethodFillMissingValues_test_three_missing_corners_is : TestQCMethodFillMissingValues_test_three_missing_corners = true.
Proof. reflexivity. Qed.
Definition TestQCMethodsGetFourSurroundingPoints_test_high_lon : bool := Eval vm_compute in (all [same (rs (fun t => let '(x1, x2, y1, y2) := t in ofQ x1) (get_four_surrounding_points (2 # 5) (-3780000000000001 # 100000000000000) 1)) (VNum (-77 # 2));
  same (rs (fun t => let '(x1, x2, y1, y2) := t in ofQ x2) (get_four_surrounding_points (2 # 5) (-3780000000000001 # 100000000000000) 1)) (VNum (-75 # 2));
  same (rs (fun t => let '(x1, x2, y1, y2) := t in ofQ y1) (get_four_surrounding_points (2 # 5) (-3780000000000001 # 100000000000000) 1)) (VNum (-1 # 2));
  same (rs (fun t => let '(x1, x2, y1, y2) := t in ofQ y2) (get_four_surrounding_points (2 # 5) (-3780000000000001 # 100000000000000) 1)) (VNum (1 # 2))]).
Example TestQCMethodsGetFourSurroundingPoints_test_high_lon_is : TestQCMethodsGetFourSurroundingPoints_test_high_lon = true.
Proof. reflexivity. Qed.
Definition TestQCMethodsGetFourSurroundingPoints_test_high_n_lat : bool := Eval vm_compute in (all [same (rs (fun t => let '(x1, x2, y1, y2) := t in ofQ x1) (get_four_surrounding_points (899 # 10) (1 # 10) 1)) (VNum (-1 # 2));
  same (rs (fun t => let '(x1, x2, y1, y2) := t in ofQ x2) (get_four_surrounding_points (899 # 10) (1 # 10) 1)) (VNum (1 # 2));
  same (rs (fun t => let '(x1, x2, y1, y2) := t in ofQ y1) (get_four_surrounding_points (899 # 10) (1 # 10) 1)) (VNum (179 # 2));
  same (rs (fun t => let '(x1, x2, y1, y2) := t in ofQ y2) (get_four_surrounding_points (899 # 10) (1 # 10) 1)) (VNum (179 # 2));
  same (rs (fun t => let '(x1, x2, y1, y2) := t in ofQ x1) (get_four_surrounding_points (899 # 10) (1 # 10) 0)) (VNum (-1 # 2));
  same (rs (fun t => let '(x1, x2, y1, y2) := t in ofQ x2) (get_four_surrounding_points (899 # 10) (1 # 10) 0)) (VNum (1 # 2));
  same (rs (fun t => let '(x1, x2, y1, y2) := t in ofQ y1) (get_four_surrounding_points (899 # 10) (1 # 10) 0)) (VNum (179 # 2));
  same (rs (fun t => let '(x1, x2, y1, y2) := t in ofQ y2) (get_four_surrounding_points (899 # 10) (1 # 10) 0)) (VNum (181 # 2))]).
Example TestQCMethodsGetFourSurroundingPoints_test_high_n_lat_is : TestQCMethodsGetFourSurroundingPoints_test_high_n_lat = true.
Proof. reflexivity. Qed.
Definition TestQCMethodsGetFourSurroundingPoints_test_off_zero : bool := Eval vm_compute in (all [same (rs (fun t => let '(x1, x2, y1, y2) := t in ofQ x1) (get_four_surrounding_points (1 # 10) (1 # 10) 1)) (VNum (-1 # 2));
  same (rs (fun t => let '(x1, x2, y1, y2) := t in ofQ x2) (get_four_surrounding_points (1 # 10) (1 # 10) 1)) (VNum (1 # 2));
  same (rs (fun t => let '(x1, x2, y1, y2) := t in ofQ y1) (get_four_surrounding_points (1 # 10) (1 # 10) 1)) (VNum (-1 # 2));
  same (rs (fun t => let '(x1, x2, y1, y2) := t in ofQ y2) (get_four_surrounding_points (1 # 10) (1 # 10) 1)) (VNum (1 # 2))]).
Example TestQCMethodsGetFourSurroundingPoints_test_off_zero_is : TestQCMethodsGetFourSurroundingPoints_test_off_zero = true.
Proof. reflexivity. Qed.
Definition TestQCMethodsGetFourSurroundingPoints_test_zero_zero : bool := Eval vm_compute in (all [same (rs (fun t => let '(x1, x2, y1, y2) := t in ofQ x1) (get_four_surrounding_points 0 0 1)) (VNum (-1 # 2));
  same (rs (fun t => let '(x1, x2, y1, y2) := t in ofQ x2) (get_four_surrounding_points 0 0 1)) (VNum (1 # 2));
  same (rs (fun t => let '(x1, x2, y1, y2) := t in ofQ y1) (get_four_surrounding_points 0 0 1)) (VNum (-1 # 2));
  same (rs (fun t => let '(x1, x2, y1, y2) := t in ofQ y2) (get_four_surrounding_points 0 0 1)) (VNum (1 # 2))]).
Example TestQCMethodsGetFourSurroundingPoints_test_zero_zero_is : TestQCMethodsGetFourSurroundingPoints_test_zero_zero = true.
Proof. reflexivity. Qed.
Definition TestQCMethodsGetFourSurroundingPoints_test_dateline_crossover : bool := Eval vm_compute in (all [same (rs (fun t => let '(x1, x2, y1, y2) := t in ofQ x1) (get_four_surrounding_points 0 (1799 # 10) 1)) (VNum (359 # 2));
  same (rs (fun t => let '(x1, x2, y1, y2) := t in ofQ x2) (get_four_surrounding_points 0 (1799 # 10) 1)) (VNum (361 # 2));
  same (rs (fun t => let '(x1, x2, y1, y2) := t in ofQ y1) (get_four_surrounding_points 0 (1799 # 10) 1)) (VNum (-1 # 2));
  same (rs (fun t => let '(x1, x2, y1, y2) := t in ofQ y2) (get_four_surrounding_points 0 (1799 # 10) 1)) (VNum (1 # 2))]).
Example TestQCMethodsGetFourSurroundingPoints_test_dateline_crossover_is : TestQCMethodsGetFourSurroundingPoints_test_dateline_crossover = true.
Proof. reflexivity. Qed.
Definition TestQCMethodsGetFourSurroundingPoints_test_negative_dateline_crossover : bool := Eval vm_compute in (all [same (rs (fun t => let '(x1, x2, y1, y2) := t in ofQ x1) (get_four_surrounding_points 0 (-1799 # 10) 1)) (VNum (-361 # 2));
  same (rs (fun t => let '(x1, x2, y1, y2) := t in ofQ x2) (get_four_surrounding_points 0 (-1799 # 10) 1)) (VNum (-359 # 2));
  same (rs (fun t => let '(x1, x2, y1, y2) := t in ofQ y1) (get_four_surrounding_points 0 (-1799 # 10) 1)) (VNum (-1 # 2));
  same (rs (fun t => let '(x1, x2, y1, y2) := t in ofQ y2) (get_four_surrounding_points 0 (-1799 # 10) 1)) (VNum (1 # 2))]).
Example TestQCMethodsGetFourSurroundingPoints_test_negative_dateline_crossover_is : TestQCMethodsGetFourSurroundingPoints_test_negative_dateline_crossover = true.
Proof. reflexivity. Qed.
Definition TestQCMethodsBilinear_test_zero_when_all_zero : bool := Eval vm_compute in (all [same (rs ofQ (bilinear_interp 0 1 0 1 0 0 (Some 0%Q) (Some 0%Q) (Some 0%Q) (Some 0%Q))) (VNum 0)]).
Example TestQCMethodsBilinear_test_zero_when_all_zero_is : TestQCMethodsBilinear_test_zero_when_all_zero = true.
Proof. reflexivity. Qed.
Definition TestQCMethodsBilinear_test_gradient_across_square : bool := Eval vm_compute in (all [same (rs ofQ (bilinear_interp 0 1 0 1 (1 # 2) (1 # 2) (Some 0%Q) (Some 1%Q) (Some 1%Q) (Some 2%Q))) (VNum 1);
  same (rs ofQ (bilinear_interp 0 1 0 1 0 0 (Some 0%Q) (Some 1%Q) (Some 1%Q) (Some 2%Q))) (VNum 0);
  same (rs ofQ (bilinear_interp 0 1 0 1 1 1 (Some 0%Q) (Some 1%Q) (Some 1%Q) (Some 2%Q))) (VNum 2);
  same (rs ofQ (bilinear_interp 0 1 0 1 0 1 (Some 0%Q) (Some 1%Q) (Some 1%Q) (Some 2%Q))) (VNum 1);
  same (rs ofQ (bilinear_interp 0 1 0 1 1 0 (Some 0%Q) (Some 1%Q) (Some 1%Q) (Some 2%Q))) (VNum 1)]).
Example TestQCMethodsBilinear_test_gradient_across_square_is : TestQCMethodsBilinear_test_gradient_across_square = true.
Proof. reflexivity. Qed.
Definition TestQCMethodsBilinear_test_zero_at_point_set_to_zero : bool := Eval vm_compute in (all [same (rs ofQ (bilinear_interp 0 1 0 1 0 0 (Some 0%Q) (Some 1%Q) (Some 1%Q) (Some 1%Q))) (VNum 0)]).
Example TestQCMethodsBilinear_test_zero_at_point_set_to_zero_is : TestQCMethodsBilinear_test_zero_at_point_set_to_zero = true.
Proof. reflexivity. Qed.
Definition TestQCMethodsBilinear_test_one_at_points_set_to_one : bool := Eval vm_compute in (all [same (rs ofQ (bilinear_interp 0 1 0 1 0 1 (Some 0%Q) (Some 1%Q) (Some 1%Q) (Some 1%Q))) (VNum 1);
  same (rs ofQ (bilinear_interp 0 1 0 1 1 1 (Some 0%Q) (Some 1%Q) (Some 1%Q) (Some 1%Q))) (VNum 1);
  same (rs ofQ (bilinear_interp 0 1 0 1 1 0 (Some 0%Q) (Some 1%Q) (Some 1%Q) (Some 1%Q))) (VNum 1)]).
Example TestQCMethodsBilinear_test_one_at_points_set_to_one_is : TestQCMethodsBilinear_test_one_at_points_set_to_one = true.
Proof. reflexivity. Qed.
Definition TestQCMethodsBilinear_test_half_at_point_halfway_between_zero_and_one : bool := Eval vm_compute in (all [same (rs ofQ (bilinear_interp 0 1 0 1 (1 # 2) 0 (Some 0%Q) (Some 0%Q) (Some 1%Q) (Some 1%Q))) (VNum (1 # 2));
  same (rs ofQ (bilinear_interp 0 1 0 1 (1 # 2) (1 # 2) (Some 0%Q) (Some 0%Q) (Some 1%Q) (Some 1%Q))) (VNum (1 # 2))]).
Example TestQCMethodsBilinear_test_half_at_point_halfway_between_zero_and_one_is : TestQCMethodsBilinear_test_half_at_point_halfway_between_zero_and_one = true.
Proof. reflexivity. Qed.
Definition TestQCMethodsMdsLatAndLon_test_lats_with_res : bool := Eval vm_compute in (all [same (ofZ (mds_lat_to_yindex 90 5)) (VNum 0);
  same (ofZ (mds_lat_to_yindex 88 5)) (VNum 0);
  same (ofZ (mds_lat_to_yindex 85 5)) (VNum 0);
  same (ofZ (mds_lat_to_yindex (-85) 5)) (VNum 35);
  same (ofZ (mds_lat_to_yindex (-442 # 5) 5)) (VNum 35);
  same (ofZ (mds_lat_to_yindex (-90) 5)) (VNum 35);
  same (ofZ (mds_lat_to_yindex 0 5)) (VNum 18)]).
Example TestQCMethodsMdsLatAndLon_test_lats_with_res_is : TestQCMethodsMdsLatAndLon_test_lats_with_res = true.
Proof. reflexivity. Qed.
Definition TestQCMethodsMdsLatAndLon_test_lons_with_res : bool := Eval vm_compute in (all [same (ofZ (mds_lon_to_xindex (-180) 5)) (VNum 0);
  same (ofZ (mds_lon_to_xindex (-178) 5)) (VNum 0);
  same (ofZ (mds_lon_to_xindex (-175) 5)) (VNum 0);
  same (ofZ (mds_lon_to_xindex 175 5)) (VNum 71);
  same (ofZ (mds_lon_to_xindex (892 # 5) 5)) (VNum 71);
  same (ofZ (mds_lon_to_xindex 180 5)) (VNum 71);
  same (ofZ (mds_lon_to_xindex 0 5)) (VNum 35)]).
Example TestQCMethodsMdsLatAndLon_test_lons_with_res_is : TestQCMethodsMdsLatAndLon_test_lons_with_res = true.
Proof. reflexivity. Qed.
Definition TestQCMethodsMdsLatAndLon_test_lats : bool := Eval vm_compute in (all [same (ofZ (mds_lat_to_yindex 90 1)) (VNum 0);
  same (ofZ (mds_lat_to_yindex 89 1)) (VNum 0);
  same (ofZ (mds_lat_to_yindex 88 1)) (VNum 1);
  same (ofZ (mds_lat_to_yindex 87 1)) (VNum 2);
  same (ofZ (mds_lat_to_yindex (887 # 10) 1)) (VNum 1);
  same (ofZ (mds_lat_to_yindex (-90) 1)) (VNum 179);
  same (ofZ (mds_lat_to_yindex (-89) 1)) (VNum 179);
  same (ofZ (mds_lat_to_yindex (-88) 1)) (VNum 178);
  same (ofZ (mds_lat_to_yindex (-87) 1)) (VNum 177);
  same (ofZ (mds_lat_to_yindex (-887 # 10) 1)) (VNum 178);
  same (ofZ (mds_lat_to_yindex 0 1)) (VNum 90);
  same (ofZ (mds_lat_to_yindex (1 # 2) 1)) (VNum 89);
  same (ofZ (mds_lat_to_yindex 1 1)) (VNum 88);
  same (ofZ (mds_lat_to_yindex (-1 # 2) 1)) (VNum 90);
  same (ofZ (mds_lat_to_yindex (-1) 1)) (VNum 91)]).
Example TestQCMethodsMdsLatAndLon_test_lats_is : TestQCMethodsMdsLatAndLon_test_lats = true.
Proof. reflexivity. Qed.
Definition TestQCMethodsMdsLatAndLon_test_lons : bool := Eval vm_compute in (all [same (ofZ (mds_lon_to_xindex (-180) 1)) (VNum 0);
  same (ofZ (mds_lon_to_xindex (-179) 1)) (VNum 0);
  same (ofZ (mds_lon_to_xindex (-178) 1)) (VNum 1);
  same (ofZ (mds_lon_to_xindex 180 1)) (VNum 359);
  same (ofZ (mds_lon_to_xindex 179 1)) (VNum 359);
  same (ofZ (mds_lon_to_xindex 178 1)) (VNum 358);
  same (ofZ (mds_lon_to_xindex (-1) 1)) (VNum 178);
  same (ofZ (mds_lon_to_xindex 0 1)) (VNum 179);
  same (ofZ (mds_lon_to_xindex 1 1)) (VNum 181)]).
Example TestQCMethodsMdsLatAndLon_test_lons_is : TestQCMethodsMdsLatAndLon_test_lons = true.
Proof. reflexivity. Qed.
