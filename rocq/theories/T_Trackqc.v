(** The unit tests of test_trackqc.py, run on the model (generated from the test file; these are tests, not proofs). *)
Require Import String ZArith QArith List Bool.
Require Import Verif.M_Base Verif.M_Report Verif.M_Stats Verif.M_Sun Verif.M_Voyage Verif.M_Drifter Verif.T_Num Verif.T_Check.
Import ListNotations.
Open Scope string_scope.
Open Scope Z_scope.

Definition TestTrackQC_track_day_test_test_daytime_exeter : bool := Eval vm_compute in (all [same (rs ofB (track_day_test n_elevation (Some 2019) (Some 6) (Some 21) (Some 12%Q) (Some (507 # 10)%Q) (Some (-7 # 2)%Q) (-5 # 2))) (VNum 1)]).
Example TestTrackQC_track_day_test_test_daytime_exeter_is : TestTrackQC_track_day_test_test_daytime_exeter = true.
Proof. reflexivity. Qed.
Definition TestTrackQC_track_day_test_test_nighttime_exeter : bool := Eval vm_compute in (all [same (rs ofB (track_day_test n_elevation (Some 2019) (Some 6) (Some 21) (Some 0%Q) (Some (507 # 10)%Q) (Some (-7 # 2)%Q) (-5 # 2))) (VNum 0)]).
Example TestTrackQC_track_day_test_test_nighttime_exeter_is : TestTrackQC_track_day_test_test_nighttime_exeter = true.
Proof. reflexivity. Qed.
Definition TestTrackQC_track_day_test_test_large_elevdlim_exeter : bool := Eval vm_compute in (all [same (rs ofB (track_day_test n_elevation (Some 2019) (Some 6) (Some 21) (Some 12%Q) (Some (507 # 10)%Q) (Some (-7 # 2)%Q) 89)) (VNum 0)]).
Example TestTrackQC_track_day_test_test_large_elevdlim_exeter_is : TestTrackQC_track_day_test_test_large_elevdlim_exeter = true.
Proof. reflexivity. Qed.
Definition TestTrackQC_track_day_test_test_error_invalid_parameter : bool := Eval vm_compute in (all [asserts (rs ofB (track_day_test n_elevation (Some 2019) (Some 13) (Some 21) (Some 0%Q) (Some (507 # 10)%Q) (Some (-7 # 2)%Q) (-5 # 2)))]).
Example TestTrackQC_track_day_test_test_error_invalid_parameter_is : TestTrackQC_track_day_test_test_error_invalid_parameter = true.
Proof. reflexivity. Qed.
Definition TestTrackQC_trim_mean_test_no_trim : bool := Eval vm_compute in (all [same (ofX (trim_mean [10; 4; 3; 2; 1]%Q 0)) (VNum 4)]).
Example TestTrackQC_trim_mean_test_no_trim_is : TestTrackQC_trim_mean_test_no_trim = true.
Proof. reflexivity. Qed.
Definition TestTrackQC_trim_mean_test_with_trim : bool := Eval vm_compute in (all [same (ofX (trim_mean [10; 4; 3; 2; 1]%Q 5)) (VNum 3)]).
Example TestTrackQC_trim_mean_test_with_trim_is : TestTrackQC_trim_mean_test_with_trim = true.
Proof. reflexivity. Qed.
Definition TestTrackQC_trim_std_test_no_trim : bool := Eval vm_compute in (all [same (match trim_var [6; 1; 1; 1; 1]%Q 0 with Fin q => ofQ (n_sqrt q) | x => ofX x end) (VNum 2)]).
Example TestTrackQC_trim_std_test_no_trim_is : TestTrackQC_trim_std_test_no_trim = true.
Proof. reflexivity. Qed.
Definition TestTrackQC_trim_std_test_with_trim : bool := Eval vm_compute in (all [same (match trim_var [6; 1; 1; 1; 1]%Q 5 with Fin q => ofQ (n_sqrt q) | x => ofX x end) (VNum 0)]).
Example TestTrackQC_trim_std_test_with_trim_is : TestTrackQC_trim_std_test_with_trim = true.
Proof. reflexivity. Qed.
Definition TestTrackQC_aground_check_test_stationary : bool := Eval vm_compute in (let x1 := (on (voyage_of [] [(new_report (Some "AAAAAAAAA"%string) None [("YR"%string, (Some 2003%Q)); ("MO"%string, (Some 12%Q)); ("DY"%string, (Some 1%Q)); ("HR"%string, (Some 12%Q)); ("LAT"%string, (Some 0%Q)); ("LON"%string, (Some 0%Q)); ("SST"%string, (Some 5%Q))]); (new_report (Some "AAAAAAAAA"%string) None [("YR"%string, (Some 2003%Q)); ("MO"%string, (Some 12%Q)); ("DY"%string, (Some 2%Q)); ("HR"%string, (Some 12%Q)); ("LAT"%string, (Some 0%Q)); ("LON"%string, (Some 0%Q)); ("SST"%string, (Some 5%Q))]); (new_report (Some "AAAAAAAAA"%string) None [("YR"%string, (Some 2003%Q)); ("MO"%string, (Some 12%Q)); ("DY"%string, (Some 3%Q)); ("HR"%string, (Some 12%Q)); ("LAT"%string, (Some 0%Q)); ("LON"%string, (Some 0%Q)); ("SST"%string, (Some 5%Q))]); (new_report (Some "AAAAAAAAA"%string) None [("YR"%string, (Some 2003%Q)); ("MO"%string, (Some 12%Q)); ("DY"%string, (Some 4%Q)); ("HR"%string, (Some 12%Q)); ("LAT"%string, (Some 0%Q)); ("LON"%string, (Some 0%Q)); ("SST"%string, (Some 5%Q))]); (new_report (Some "AAAAAAAAA"%string) None [("YR"%string, (Some 2003%Q)); ("MO"%string, (Some 12%Q)); ("DY"%string, (Some 5%Q)); ("HR"%string, (Some 12%Q)); ("LAT"%string, (Some 0%Q)); ("LON"%string, (Some 0%Q)); ("SST"%string, (Some 5%Q))]); (new_report (Some "AAAAAAAAA"%string) None [("YR"%string, (Some 2003%Q)); ("MO"%string, (Some 12%Q)); ("DY"%string, (Some 6%Q)); ("HR"%string, (Some 12%Q)); ("LAT"%string, (Some 0%Q)); ("LON"%string, (Some 0%Q)); ("SST"%string, (Some 5%Q))]); (new_report (Some "AAAAAAAAA"%string) None [("YR"%string, (Some 2003%Q)); ("MO"%string, (Some 12%Q)); ("DY"%string, (Some 7%Q)); ("HR"%string, (Some 12%Q)); ("LAT"%string, (Some 0%Q)); ("LON"%string, (Some 0%Q)); ("SST"%string, (Some 5%Q))])]) (aground_check earth 3 1 2)) in
  all [flags x1 "POS"%string "drf_agr"%string [1; 1; 1; 1; 1; 1; 1]]).
Example TestTrackQC_aground_check_test_stationary_is : TestTrackQC_aground_check_test_stationary = true.
Proof. reflexivity. Qed.
Definition TestTrackQC_aground_check_test_stationary_jitter_spikes : bool := Eval vm_compute in (let x1 := (on (voyage_of [] [(new_report (Some "AAAAAAAAA"%string) None [("YR"%string, (Some 2003%Q)); ("MO"%string, (Some 12%Q)); ("DY"%string, (Some 1%Q)); ("HR"%string, (Some 12%Q)); ("LAT"%string, (Some 0%Q)); ("LON"%string, (Some 0%Q)); ("SST"%string, (Some 5%Q))]); (new_report (Some "AAAAAAAAA"%string) None [("YR"%string, (Some 2003%Q)); ("MO"%string, (Some 12%Q)); ("DY"%string, (Some 2%Q)); ("HR"%string, (Some 12%Q)); ("LAT"%string, (Some 0%Q)); ("LON"%string, (Some 0%Q)); ("SST"%string, (Some 5%Q))]); (new_report (Some "AAAAAAAAA"%string) None [("YR"%string, (Some 2003%Q)); ("MO"%string, (Some 12%Q)); ("DY"%string, (Some 3%Q)); ("HR"%string, (Some 12%Q)); ("LAT"%string, (Some 1%Q)); ("LON"%string, (Some 0%Q)); ("SST"%string, (Some 5%Q))]); (new_report (Some "AAAAAAAAA"%string) None [("YR"%string, (Some 2003%Q)); ("MO"%string, (Some 12%Q)); ("DY"%string, (Some 4%Q)); ("HR"%string, (Some 12%Q)); ("LAT"%string, (Some 0%Q)); ("LON"%string, (Some 0%Q)); ("SST"%string, (Some 5%Q))]); (new_report (Some "AAAAAAAAA"%string) None [("YR"%string, (Some 2003%Q)); ("MO"%string, (Some 12%Q)); ("DY"%string, (Some 5%Q)); ("HR"%string, (Some 12%Q)); ("LAT"%string, (Some 0%Q)); ("LON"%string, (Some 1%Q)); ("SST"%string, (Some 5%Q))]); (new_report (Some "AAAAAAAAA"%string) None [("YR"%string, (Some 2003%Q)); ("MO"%string, (Some 12%Q)); ("DY"%string, (Some 6%Q)); ("HR"%string, (Some 12%Q)); ("LAT"%string, (Some 0%Q)); ("LON"%string, (Some 0%Q)); ("SST"%string, (Some 5%Q))]); (new_report (Some "AAAAAAAAA"%string) None [("YR"%string, (Some 2003%Q)); ("MO"%string, (Some 12%Q)); ("DY"%string, (Some 7%Q)); ("HR"%string, (Some 12%Q)); ("LAT"%string, (Some 0%Q)); ("LON"%string, (Some 0%Q)); ("SST"%string, (Some 5%Q))])]) (aground_check earth 3 1 2)) in
  all [flags x1 "POS"%string "drf_agr"%string [1; 1; 1; 1; 1; 1; 1]]).
Example TestTrackQC_aground_check_test_stationary_jitter_spikes_is : TestTrackQC_aground_check_test_stationary_jitter_spikes = true.
Proof. reflexivity. Qed.
Definition TestTrackQC_aground_check_test_stationary_big_remaining_jitter : bool := Eval vm_compute in (let x1 := (on (voyage_of [] [(new_report (Some "AAAAAAAAA"%string) None [("YR"%string, (Some 2003%Q)); ("MO"%string, (Some 12%Q)); ("DY"%string, (Some 1%Q)); ("HR"%string, (Some 12%Q)); ("LAT"%string, (Some 0%Q)); ("LON"%string, (Some 0%Q)); ("SST"%string, (Some 5%Q))]); (new_report (Some "AAAAAAAAA"%string) None [("YR"%string, (Some 2003%Q)); ("MO"%string, (Some 12%Q)); ("DY"%string, (Some 2%Q)); ("HR"%string, (Some 12%Q)); ("LAT"%string, (Some 0%Q)); ("LON"%string, (Some 0%Q)); ("SST"%string, (Some 5%Q))]); (new_report (Some "AAAAAAAAA"%string) None [("YR"%string, (Some 2003%Q)); ("MO"%string, (Some 12%Q)); ("DY"%string, (Some 3%Q)); ("HR"%string, (Some 12%Q)); ("LAT"%string, (Some 1%Q)); ("LON"%string, (Some 0%Q)); ("SST"%string, (Some 5%Q))]); (new_report (Some "AAAAAAAAA"%string) None [("YR"%string, (Some 2003%Q)); ("MO"%string, (Some 12%Q)); ("DY"%string, (Some 4%Q)); ("HR"%string, (Some 12%Q)); ("LAT"%string, (Some 1%Q)); ("LON"%string, (Some 0%Q)); ("SST"%string, (Some 5%Q))]); (new_report (Some "AAAAAAAAA"%string) None [("YR"%string, (Some 2003%Q)); ("MO"%string, (Some 12%Q)); ("DY"%string, (Some 5%Q)); ("HR"%string, (Some 12%Q)); ("LAT"%string, (Some 0%Q)); ("LON"%string, (Some 0%Q)); ("SST"%string, (Some 5%Q))]); (new_report (Some "AAAAAAAAA"%string) None [("YR"%string, (Some 2003%Q)); ("MO"%string, (Some 12%Q)); ("DY"%string, (Some 6%Q)); ("HR"%string, (Some 12%Q)); ("LAT"%string, (Some 0%Q)); ("LON"%string, (Some 0%Q)); ("SST"%string, (Some 5%Q))]); (new_report (Some "AAAAAAAAA"%string) None [("YR"%string, (Some 2003%Q)); ("MO"%string, (Some 12%Q)); ("DY"%string, (Some 7%Q)); ("HR"%string, (Some 12%Q)); ("LAT"%string, (Some 0%Q)); ("LON"%string, (Some 0%Q)); ("SST"%string, (Some 5%Q))])]) (aground_check earth 3 1 2)) in
  all [flags x1 "POS"%string "drf_agr"%string [0; 0; 0; 0; 1; 1; 1]]).
Example TestTrackQC_aground_check_test_stationary_big_remaining_jitter_is : TestTrackQC_aground_check_test_stationary_big_remaining_jitter = true.
Proof. reflexivity. Qed.
Definition TestTrackQC_aground_check_test_stationary_small_remaining_jitter : bool := Eval vm_compute in (let x1 := (on (voyage_of [] [(new_report (Some "AAAAAAAAA"%string) None [("YR"%string, (Some 2003%Q)); ("MO"%string, (Some 12%Q)); ("DY"%string, (Some 1%Q)); ("HR"%string, (Some 12%Q)); ("LAT"%string, (Some 0%Q)); ("LON"%string, (Some 0%Q)); ("SST"%string, (Some 5%Q))]); (new_report (Some "AAAAAAAAA"%string) None [("YR"%string, (Some 2003%Q)); ("MO"%string, (Some 12%Q)); ("DY"%string, (Some 2%Q)); ("HR"%string, (Some 12%Q)); ("LAT"%string, (Some 0%Q)); ("LON"%string, (Some 0%Q)); ("SST"%string, (Some 5%Q))]); (new_report (Some "AAAAAAAAA"%string) None [("YR"%string, (Some 2003%Q)); ("MO"%string, (Some 12%Q)); ("DY"%string, (Some 3%Q)); ("HR"%string, (Some 12%Q)); ("LAT"%string, (Some (1 # 100)%Q)); ("LON"%string, (Some (1 # 100)%Q)); ("SST"%string, (Some 5%Q))]); (new_report (Some "AAAAAAAAA"%string) None [("YR"%string, (Some 2003%Q)); ("MO"%string, (Some 12%Q)); ("DY"%string, (Some 4%Q)); ("HR"%string, (Some 12%Q)); ("LAT"%string, (Some (1 # 100)%Q)); ("LON"%string, (Some (1 # 100)%Q)); ("SST"%string, (Some 5%Q))]); (new_report (Some "AAAAAAAAA"%string) None [("YR"%string, (Some 2003%Q)); ("MO"%string, (Some 12%Q)); ("DY"%string, (Some 5%Q)); ("HR"%string, (Some 12%Q)); ("LAT"%string, (Some 0%Q)); ("LON"%string, (Some 0%Q)); ("SST"%string, (Some 5%Q))]); (new_report (Some "AAAAAAAAA"%string) None [("YR"%string, (Some 2003%Q)); ("MO"%string, (Some 12%Q)); ("DY"%string, (Some 6%Q)); ("HR"%string, (Some 12%Q)); ("LAT"%string, (Some 0%Q)); ("LON"%string, (Some 0%Q)); ("SST"%string, (Some 5%Q))]); (new_report (Some "AAAAAAAAA"%string) None [("YR"%string, (Some 2003%Q)); ("MO"%string, (Some 12%Q)); ("DY"%string, (Some 7%Q)); ("HR"%string, (Some 12%Q)); ("LAT"%string, (Some 0%Q)); ("LON"%string, (Some 0%Q)); ("SST"%string, (Some 5%Q))])]) (aground_check earth 3 1 2)) in
  all [flags x1 "POS"%string "drf_agr"%string [1; 1; 1; 1; 1; 1; 1]]).
Example TestTrackQC_aground_check_test_stationary_small_remaining_jitter_is : TestTrackQC_aground_check_test_stationary_small_remaining_jitter = true.
Proof. reflexivity. Qed.
Definition TestTrackQC_aground_check_test_moving_west : bool := Eval vm_compute in (let x1 := (on (voyage_of [] [(new_report (Some "AAAAAAAAA"%string) None [("YR"%string, (Some 2003%Q)); ("MO"%string, (Some 12%Q)); ("DY"%string, (Some 1%Q)); ("HR"%string, (Some 12%Q)); ("LAT"%string, (Some 0%Q)); ("LON"%string, (Some 0%Q)); ("SST"%string, (Some 5%Q))]); (new_report (Some "AAAAAAAAA"%string) None [("YR"%string, (Some 2003%Q)); ("MO"%string, (Some 12%Q)); ("DY"%string, (Some 2%Q)); ("HR"%string, (Some 12%Q)); ("LAT"%string, (Some 0%Q)); ("LON"%string, (Some (-1 # 50)%Q)); ("SST"%string, (Some 5%Q))]); (new_report (Some "AAAAAAAAA"%string) None [("YR"%string, (Some 2003%Q)); ("MO"%string, (Some 12%Q)); ("DY"%string, (Some 3%Q)); ("HR"%string, (Some 12%Q)); ("LAT"%string, (Some 0%Q)); ("LON"%string, (Some (-1 # 25)%Q)); ("SST"%string, (Some 5%Q))]); (new_report (Some "AAAAAAAAA"%string) None [("YR"%string, (Some 2003%Q)); ("MO"%string, (Some 12%Q)); ("DY"%string, (Some 4%Q)); ("HR"%string, (Some 12%Q)); ("LAT"%string, (Some 0%Q)); ("LON"%string, (Some (-3 # 50)%Q)); ("SST"%string, (Some 5%Q))]); (new_report (Some "AAAAAAAAA"%string) None [("YR"%string, (Some 2003%Q)); ("MO"%string, (Some 12%Q)); ("DY"%string, (Some 5%Q)); ("HR"%string, (Some 12%Q)); ("LAT"%string, (Some 0%Q)); ("LON"%string, (Some (-2 # 25)%Q)); ("SST"%string, (Some 5%Q))]); (new_report (Some "AAAAAAAAA"%string) None [("YR"%string, (Some 2003%Q)); ("MO"%string, (Some 12%Q)); ("DY"%string, (Some 6%Q)); ("HR"%string, (Some 12%Q)); ("LAT"%string, (Some 0%Q)); ("LON"%string, (Some (-1 # 10)%Q)); ("SST"%string, (Some 5%Q))]); (new_report (Some "AAAAAAAAA"%string) None [("YR"%string, (Some 2003%Q)); ("MO"%string, (Some 12%Q)); ("DY"%string, (Some 7%Q)); ("HR"%string, (Some 12%Q)); ("LAT"%string, (Some 0%Q)); ("LON"%string, (Some (-3 # 25)%Q)); ("SST"%string, (Some 5%Q))])]) (aground_check earth 3 1 2)) in
  all [flags x1 "POS"%string "drf_agr"%string [0; 0; 0; 0; 0; 0; 0]]).
Example TestTrackQC_aground_check_test_moving_west_is : TestTrackQC_aground_check_test_moving_west = true.
Proof. reflexivity. Qed.
Definition TestTrackQC_aground_check_test_moving_north : bool := Eval vm_compute in (let x1 := (on (voyage_of [] [(new_report (Some "AAAAAAAAA"%string) None [("YR"%string, (Some 2003%Q)); ("MO"%string, (Some 12%Q)); ("DY"%string, (Some 1%Q)); ("HR"%string, (Some 12%Q)); ("LAT"%string, (Some 0%Q)); ("LON"%string, (Some 0%Q)); ("SST"%string, (Some 5%Q))]); (new_report (Some "AAAAAAAAA"%string) None [("YR"%string, (Some 2003%Q)); ("MO"%string, (Some 12%Q)); ("DY"%string, (Some 2%Q)); ("HR"%string, (Some 12%Q)); ("LAT"%string, (Some (1 # 50)%Q)); ("LON"%string, (Some 0%Q)); ("SST"%string, (Some 5%Q))]); (new_report (Some "AAAAAAAAA"%string) None [("YR"%string, (Some 2003%Q)); ("MO"%string, (Some 12%Q)); ("DY"%string, (Some 3%Q)); ("HR"%string, (Some 12%Q)); ("LAT"%string, (Some (1 # 25)%Q)); ("LON"%string, (Some 0%Q)); ("SST"%string, (Some 5%Q))]); (new_report (Some "AAAAAAAAA"%string) None [("YR"%string, (Some 2003%Q)); ("MO"%string, (Some 12%Q)); ("DY"%string, (Some 4%Q)); ("HR"%string, (Some 12%Q)); ("LAT"%string, (Some (3 # 50)%Q)); ("LON"%string, (Some 0%Q)); ("SST"%string, (Some 5%Q))]); (new_report (Some "AAAAAAAAA"%string) None [("YR"%string, (Some 2003%Q)); ("MO"%string, (Some 12%Q)); ("DY"%string, (Some 5%Q)); ("HR"%string, (Some 12%Q)); ("LAT"%string, (Some (2 # 25)%Q)); ("LON"%string, (Some 0%Q)); ("SST"%string, (Some 5%Q))]); (new_report (Some "AAAAAAAAA"%string) None [("YR"%string, (Some 2003%Q)); ("MO"%string, (Some 12%Q)); ("DY"%string, (Some 6%Q)); ("HR"%string, (Some 12%Q)); ("LAT"%string, (Some (1 # 10)%Q)); ("LON"%string, (Some 0%Q)); ("SST"%string, (Some 5%Q))]); (new_report (Some "AAAAAAAAA"%string) None [("YR"%string, (Some 2003%Q)); ("MO"%string, (Some 12%Q)); ("DY"%string, (Some 7%Q)); ("HR"%string, (Some 12%Q)); ("LAT"%string, (Some (3 # 25)%Q)); ("LON"%string, (Some 0%Q)); ("SST"%string, (Some 5%Q))])]) (aground_check earth 3 1 2)) in
  all [flags x1 "POS"%string "drf_agr"%string [0; 0; 0; 0; 0; 0; 0]]).
Example TestTrackQC_aground_check_test_moving_north_is : TestTrackQC_aground_check_test_moving_north = true.
Proof. reflexivity. Qed.
Definition TestTrackQC_aground_check_test_moving_north_then_stop : bool := Eval vm_compute in (let x1 := (on (voyage_of [] [(new_report (Some "AAAAAAAAA"%string) None [("YR"%string, (Some 2003%Q)); ("MO"%string, (Some 12%Q)); ("DY"%string, (Some 1%Q)); ("HR"%string, (Some 12%Q)); ("LAT"%string, (Some 0%Q)); ("LON"%string, (Some 0%Q)); ("SST"%string, (Some 5%Q))]); (new_report (Some "AAAAAAAAA"%string) None [("YR"%string, (Some 2003%Q)); ("MO"%string, (Some 12%Q)); ("DY"%string, (Some 2%Q)); ("HR"%string, (Some 12%Q)); ("LAT"%string, (Some (1 # 50)%Q)); ("LON"%string, (Some 0%Q)); ("SST"%string, (Some 5%Q))]); (new_report (Some "AAAAAAAAA"%string) None [("YR"%string, (Some 2003%Q)); ("MO"%string, (Some 12%Q)); ("DY"%string, (Some 3%Q)); ("HR"%string, (Some 12%Q)); ("LAT"%string, (Some (1 # 25)%Q)); ("LON"%string, (Some 0%Q)); ("SST"%string, (Some 5%Q))]); (new_report (Some "AAAAAAAAA"%string) None [("YR"%string, (Some 2003%Q)); ("MO"%string, (Some 12%Q)); ("DY"%string, (Some 4%Q)); ("HR"%string, (Some 12%Q)); ("LAT"%string, (Some (3 # 50)%Q)); ("LON"%string, (Some 0%Q)); ("SST"%string, (Some 5%Q))]); (new_report (Some "AAAAAAAAA"%string) None [("YR"%string, (Some 2003%Q)); ("MO"%string, (Some 12%Q)); ("DY"%string, (Some 5%Q)); ("HR"%string, (Some 12%Q)); ("LAT"%string, (Some (2 # 25)%Q)); ("LON"%string, (Some 0%Q)); ("SST"%string, (Some 5%Q))]); (new_report (Some "AAAAAAAAA"%string) None [("YR"%string, (Some 2003%Q)); ("MO"%string, (Some 12%Q)); ("DY"%string, (Some 6%Q)); ("HR"%string, (Some 12%Q)); ("LAT"%string, (Some (2 # 25)%Q)); ("LON"%string, (Some 0%Q)); ("SST"%string, (Some 5%Q))]); (new_report (Some "AAAAAAAAA"%string) None [("YR"%string, (Some 2003%Q)); ("MO"%string, (Some 12%Q)); ("DY"%string, (Some 7%Q)); ("HR"%string, (Some 12%Q)); ("LAT"%string, (Some (2 # 25)%Q)); ("LON"%string, (Some 0%Q)); ("SST"%string, (Some 5%Q))])]) (aground_check earth 3 1 2)) in
  all [flags x1 "POS"%string "drf_agr"%string [0; 0; 0; 0; 1; 1; 1]]).
Example TestTrackQC_aground_check_test_moving_north_then_stop_is : TestTrackQC_aground_check_test_moving_north_then_stop = true.
Proof. reflexivity. Qed.
Definition TestTrackQC_aground_check_test_stationary_high_freq_sampling : bool := Eval vm_compute in (let x1 := (on (voyage_of [] [(new_report (Some "AAAAAAAAA"%string) None [("YR"%string, (Some 2003%Q)); ("MO"%string, (Some 12%Q)); ("DY"%string, (Some 1%Q)); ("HR"%string, (Some 1%Q)); ("LAT"%string, (Some 0%Q)); ("LON"%string, (Some 0%Q)); ("SST"%string, (Some 5%Q))]); (new_report (Some "AAAAAAAAA"%string) None [("YR"%string, (Some 2003%Q)); ("MO"%string, (Some 12%Q)); ("DY"%string, (Some 1%Q)); ("HR"%string, (Some 2%Q)); ("LAT"%string, (Some 0%Q)); ("LON"%string, (Some 0%Q)); ("SST"%string, (Some 5%Q))]); (new_report (Some "AAAAAAAAA"%string) None [("YR"%string, (Some 2003%Q)); ("MO"%string, (Some 12%Q)); ("DY"%string, (Some 1%Q)); ("HR"%string, (Some 3%Q)); ("LAT"%string, (Some 0%Q)); ("LON"%string, (Some 0%Q)); ("SST"%string, (Some 5%Q))]); (new_report (Some "AAAAAAAAA"%string) None [("YR"%string, (Some 2003%Q)); ("MO"%string, (Some 12%Q)); ("DY"%string, (Some 1%Q)); ("HR"%string, (Some 4%Q)); ("LAT"%string, (Some 0%Q)); ("LON"%string, (Some 0%Q)); ("SST"%string, (Some 5%Q))]); (new_report (Some "AAAAAAAAA"%string) None [("YR"%string, (Some 2003%Q)); ("MO"%string, (Some 12%Q)); ("DY"%string, (Some 1%Q)); ("HR"%string, (Some 5%Q)); ("LAT"%string, (Some 0%Q)); ("LON"%string, (Some 0%Q)); ("SST"%string, (Some 5%Q))]); (new_report (Some "AAAAAAAAA"%string) None [("YR"%string, (Some 2003%Q)); ("MO"%string, (Some 12%Q)); ("DY"%string, (Some 1%Q)); ("HR"%string, (Some 6%Q)); ("LAT"%string, (Some 0%Q)); ("LON"%string, (Some 0%Q)); ("SST"%string, (Some 5%Q))]); (new_report (Some "AAAAAAAAA"%string) None [("YR"%string, (Some 2003%Q)); ("MO"%string, (Some 12%Q)); ("DY"%string, (Some 1%Q)); ("HR"%string, (Some 7%Q)); ("LAT"%string, (Some 0%Q)); ("LON"%string, (Some 0%Q)); ("SST"%string, (Some 5%Q))])]) (aground_check earth 3 1 2)) in
  all [flags x1 "POS"%string "drf_agr"%string [0; 0; 0; 0; 0; 0; 0]]).
Example TestTrackQC_aground_check_test_stationary_high_freq_sampling_is : TestTrackQC_aground_check_test_stationary_high_freq_sampling = true.
Proof. reflexivity. Qed.
Definition TestTrackQC_aground_check_test_stationary_low_freq_sampling : bool := Eval vm_compute in (let x1 := (on (voyage_of [] [(new_report (Some "AAAAAAAAA"%string) None [("YR"%string, (Some 2003%Q)); ("MO"%string, (Some 12%Q)); ("DY"%string, (Some 1%Q)); ("HR"%string, (Some 12%Q)); ("LAT"%string, (Some 0%Q)); ("LON"%string, (Some 0%Q)); ("SST"%string, (Some 5%Q))]); (new_report (Some "AAAAAAAAA"%string) None [("YR"%string, (Some 2003%Q)); ("MO"%string, (Some 12%Q)); ("DY"%string, (Some 4%Q)); ("HR"%string, (Some 12%Q)); ("LAT"%string, (Some 0%Q)); ("LON"%string, (Some 0%Q)); ("SST"%string, (Some 5%Q))]); (new_report (Some "AAAAAAAAA"%string) None [("YR"%string, (Some 2003%Q)); ("MO"%string, (Some 12%Q)); ("DY"%string, (Some 7%Q)); ("HR"%string, (Some 12%Q)); ("LAT"%string, (Some 0%Q)); ("LON"%string, (Some 0%Q)); ("SST"%string, (Some 5%Q))]); (new_report (Some "AAAAAAAAA"%string) None [("YR"%string, (Some 2003%Q)); ("MO"%string, (Some 12%Q)); ("DY"%string, (Some 10%Q)); ("HR"%string, (Some 12%Q)); ("LAT"%string, (Some 0%Q)); ("LON"%string, (Some 0%Q)); ("SST"%string, (Some 5%Q))]); (new_report (Some "AAAAAAAAA"%string) None [("YR"%string, (Some 2003%Q)); ("MO"%string, (Some 12%Q)); ("DY"%string, (Some 13%Q)); ("HR"%string, (Some 12%Q)); ("LAT"%string, (Some 0%Q)); ("LON"%string, (Some 0%Q)); ("SST"%string, (Some 5%Q))]); (new_report (Some "AAAAAAAAA"%string) None [("YR"%string, (Some 2003%Q)); ("MO"%string, (Some 12%Q)); ("DY"%string, (Some 16%Q)); ("HR"%string, (Some 12%Q)); ("LAT"%string, (Some 0%Q)); ("LON"%string, (Some 0%Q)); ("SST"%string, (Some 5%Q))]); (new_report (Some "AAAAAAAAA"%string) None [("YR"%string, (Some 2003%Q)); ("MO"%string, (Some 12%Q)); ("DY"%string, (Some 19%Q)); ("HR"%string, (Some 12%Q)); ("LAT"%string, (Some 0%Q)); ("LON"%string, (Some 0%Q)); ("SST"%string, (Some 5%Q))])]) (aground_check earth 3 1 2)) in
  all [flags x1 "POS"%string "drf_agr"%string [0; 0; 0; 0; 0; 0; 0]]).
Example TestTrackQC_aground_check_test_stationary_low_freq_sampling_is : TestTrackQC_aground_check_test_stationary_low_freq_sampling = true.
Proof. reflexivity. Qed.
Definition TestTrackQC_aground_check_test_stationary_mid_freq_sampling : bool := Eval vm_compute in (let x1 := (on (voyage_of [] [(new_report (Some "AAAAAAAAA"%string) None [("YR"%string, (Some 2003%Q)); ("MO"%string, (Some 12%Q)); ("DY"%string, (Some 1%Q)); ("HR"%string, (Some 12%Q)); ("LAT"%string, (Some 0%Q)); ("LON"%string, (Some 0%Q)); ("SST"%string, (Some 5%Q))]); (new_report (Some "AAAAAAAAA"%string) None [("YR"%string, (Some 2003%Q)); ("MO"%string, (Some 12%Q)); ("DY"%string, (Some 3%Q)); ("HR"%string, (Some 0%Q)); ("LAT"%string, (Some 0%Q)); ("LON"%string, (Some 0%Q)); ("SST"%string, (Some 5%Q))]); (new_report (Some "AAAAAAAAA"%string) None [("YR"%string, (Some 2003%Q)); ("MO"%string, (Some 12%Q)); ("DY"%string, (Some 4%Q)); ("HR"%string, (Some 12%Q)); ("LAT"%string, (Some 0%Q)); ("LON"%string, (Some 0%Q)); ("SST"%string, (Some 5%Q))]); (new_report (Some "AAAAAAAAA"%string) None [("YR"%string, (Some 2003%Q)); ("MO"%string, (Some 12%Q)); ("DY"%string, (Some 6%Q)); ("HR"%string, (Some 0%Q)); ("LAT"%string, (Some 0%Q)); ("LON"%string, (Some 0%Q)); ("SST"%string, (Some 5%Q))]); (new_report (Some "AAAAAAAAA"%string) None [("YR"%string, (Some 2003%Q)); ("MO"%string, (Some 12%Q)); ("DY"%string, (Some 7%Q)); ("HR"%string, (Some 12%Q)); ("LAT"%string, (Some 0%Q)); ("LON"%string, (Some 0%Q)); ("SST"%string, (Some 5%Q))]); (new_report (Some "AAAAAAAAA"%string) None [("YR"%string, (Some 2003%Q)); ("MO"%string, (Some 12%Q)); ("DY"%string, (Some 9%Q)); ("HR"%string, (Some 0%Q)); ("LAT"%string, (Some 0%Q)); ("LON"%string, (Some 0%Q)); ("SST"%string, (Some 5%Q))]); (new_report (Some "AAAAAAAAA"%string) None [("YR"%string, (Some 2003%Q)); ("MO"%string, (Some 12%Q)); ("DY"%string, (Some 10%Q)); ("HR"%string, (Some 12%Q)); ("LAT"%string, (Some 0%Q)); ("LON"%string, (Some 0%Q)); ("SST"%string, (Some 5%Q))])]) (aground_check earth 3 1 2)) in
  all [flags x1 "POS"%string "drf_agr"%string [1; 1; 1; 1; 1; 1; 1]]).
Example TestTrackQC_aground_check_test_stationary_mid_freq_sampling_is : TestTrackQC_aground_check_test_stationary_mid_freq_sampling = true.
Proof. reflexivity. Qed.
Definition TestTrackQC_aground_check_test_stationary_low_to_mid_freq_sampling : bool := Eval vm_compute in (let x1 := (on (voyage_of [] [(new_report (Some "AAAAAAAAA"%string) None [("YR"%string, (Some 2003%Q)); ("MO"%string, (Some 12%Q)); ("DY"%string, (Some 1%Q)); ("HR"%string, (Some 12%Q)); ("LAT"%string, (Some 0%Q)); ("LON"%string, (Some 0%Q)); ("SST"%string, (Some 5%Q))]); (new_report (Some "AAAAAAAAA"%string) None [("YR"%string, (Some 2003%Q)); ("MO"%string, (Some 12%Q)); ("DY"%string, (Some 4%Q)); ("HR"%string, (Some 12%Q)); ("LAT"%string, (Some 0%Q)); ("LON"%string, (Some 0%Q)); ("SST"%string, (Some 5%Q))]); (new_report (Some "AAAAAAAAA"%string) None [("YR"%string, (Some 2003%Q)); ("MO"%string, (Some 12%Q)); ("DY"%string, (Some 7%Q)); ("HR"%string, (Some 12%Q)); ("LAT"%string, (Some 0%Q)); ("LON"%string, (Some 0%Q)); ("SST"%string, (Some 5%Q))]); (new_report (Some "AAAAAAAAA"%string) None [("YR"%string, (Some 2003%Q)); ("MO"%string, (Some 12%Q)); ("DY"%string, (Some 8%Q)); ("HR"%string, (Some 12%Q)); ("LAT"%string, (Some 0%Q)); ("LON"%string, (Some 0%Q)); ("SST"%string, (Some 5%Q))]); (new_report (Some "AAAAAAAAA"%string) None [("YR"%string, (Some 2003%Q)); ("MO"%string, (Some 12%Q)); ("DY"%string, (Some 9%Q)); ("HR"%string, (Some 12%Q)); ("LAT"%string, (Some 0%Q)); ("LON"%string, (Some 0%Q)); ("SST"%string, (Some 5%Q))]); (new_report (Some "AAAAAAAAA"%string) None [("YR"%string, (Some 2003%Q)); ("MO"%string, (Some 12%Q)); ("DY"%string, (Some 10%Q)); ("HR"%string, (Some 12%Q)); ("LAT"%string, (Some 0%Q)); ("LON"%string, (Some 0%Q)); ("SST"%string, (Some 5%Q))]); (new_report (Some "AAAAAAAAA"%string) None [("YR"%string, (Some 2003%Q)); ("MO"%string, (Some 12%Q)); ("DY"%string, (Some 11%Q)); ("HR"%string, (Some 12%Q)); ("LAT"%string, (Some 0%Q)); ("LON"%string, (Some 0%Q)); ("SST"%string, (Some 5%Q))])]) (aground_check earth 3 1 2)) in
  all [flags x1 "POS"%string "drf_agr"%string [0; 0; 1; 1; 1; 1; 1]]).
Example TestTrackQC_aground_check_test_stationary_low_to_mid_freq_sampling_is : TestTrackQC_aground_check_test_stationary_low_to_mid_freq_sampling = true.
Proof. reflexivity. Qed.
Definition TestTrackQC_aground_check_test_moving_slowly_northwest : bool := Eval vm_compute in (let x1 := (on (voyage_of [] [(new_report (Some "AAAAAAAAA"%string) None [("YR"%string, (Some 2003%Q)); ("MO"%string, (Some 12%Q)); ("DY"%string, (Some 1%Q)); ("HR"%string, (Some 12%Q)); ("LAT"%string, (Some 0%Q)); ("LON"%string, (Some 0%Q)); ("SST"%string, (Some 5%Q))]); (new_report (Some "AAAAAAAAA"%string) None [("YR"%string, (Some 2003%Q)); ("MO"%string, (Some 12%Q)); ("DY"%string, (Some 2%Q)); ("HR"%string, (Some 12%Q)); ("LAT"%string, (Some (1 # 200)%Q)); ("LON"%string, (Some (-1 # 200)%Q)); ("SST"%string, (Some 5%Q))]); (new_report (Some "AAAAAAAAA"%string) None [("YR"%string, (Some 2003%Q)); ("MO"%string, (Some 12%Q)); ("DY"%string, (Some 3%Q)); ("HR"%string, (Some 12%Q)); ("LAT"%string, (Some (1 # 100)%Q)); ("LON"%string, (Some (-1 # 100)%Q)); ("SST"%string, (Some 5%Q))]); (new_report (Some "AAAAAAAAA"%string) None [("YR"%string, (Some 2003%Q)); ("MO"%string, (Some 12%Q)); ("DY"%string, (Some 4%Q)); ("HR"%string, (Some 12%Q)); ("LAT"%string, (Some (3 # 200)%Q)); ("LON"%string, (Some (-3 # 200)%Q)); ("SST"%string, (Some 5%Q))]); (new_report (Some "AAAAAAAAA"%string) None [("YR"%string, (Some 2003%Q)); ("MO"%string, (Some 12%Q)); ("DY"%string, (Some 5%Q)); ("HR"%string, (Some 12%Q)); ("LAT"%string, (Some (1 # 50)%Q)); ("LON"%string, (Some (-1 # 50)%Q)); ("SST"%string, (Some 5%Q))]); (new_report (Some "AAAAAAAAA"%string) None [("YR"%string, (Some 2003%Q)); ("MO"%string, (Some 12%Q)); ("DY"%string, (Some 6%Q)); ("HR"%string, (Some 12%Q)); ("LAT"%string, (Some (1 # 40)%Q)); ("LON"%string, (Some (-1 # 40)%Q)); ("SST"%string, (Some 5%Q))]); (new_report (Some "AAAAAAAAA"%string) None [("YR"%string, (Some 2003%Q)); ("MO"%string, (Some 12%Q)); ("DY"%string, (Some 7%Q)); ("HR"%string, (Some 12%Q)); ("LAT"%string, (Some (3 # 100)%Q)); ("LON"%string, (Some (-3 # 100)%Q)); ("SST"%string, (Some 5%Q))])]) (aground_check earth 3 1 2)) in
  all [flags x1 "POS"%string "drf_agr"%string [1; 1; 1; 1; 1; 1; 1]]).
Example TestTrackQC_aground_check_test_moving_slowly_northwest_is : TestTrackQC_aground_check_test_moving_slowly_northwest = true.
Proof. reflexivity. Qed.
Definition TestTrackQC_aground_check_test_moving_slowly_west_in_arctic : bool := Eval vm_compute in (let x1 := (on (voyage_of [] [(new_report (Some "AAAAAAAAA"%string) None [("YR"%string, (Some 2003%Q)); ("MO"%string, (Some 12%Q)); ("DY"%string, (Some 1%Q)); ("HR"%string, (Some 12%Q)); ("LAT"%string, (Some 85%Q)); ("LON"%string, (Some 0%Q)); ("SST"%string, (Some 5%Q))]); (new_report (Some "AAAAAAAAA"%string) None [("YR"%string, (Some 2003%Q)); ("MO"%string, (Some 12%Q)); ("DY"%string, (Some 2%Q)); ("HR"%string, (Some 12%Q)); ("LAT"%string, (Some 85%Q)); ("LON"%string, (Some (-1 # 50)%Q)); ("SST"%string, (Some 5%Q))]); (new_report (Some "AAAAAAAAA"%string) None [("YR"%string, (Some 2003%Q)); ("MO"%string, (Some 12%Q)); ("DY"%string, (Some 3%Q)); ("HR"%string, (Some 12%Q)); ("LAT"%string, (Some 85%Q)); ("LON"%string, (Some (-1 # 25)%Q)); ("SST"%string, (Some 5%Q))]); (new_report (Some "AAAAAAAAA"%string) None [("YR"%string, (Some 2003%Q)); ("MO"%string, (Some 12%Q)); ("DY"%string, (Some 4%Q)); ("HR"%string, (Some 12%Q)); ("LAT"%string, (Some 85%Q)); ("LON"%string, (Some (-3 # 50)%Q)); ("SST"%string, (Some 5%Q))]); (new_report (Some "AAAAAAAAA"%string) None [("YR"%string, (Some 2003%Q)); ("MO"%string, (Some 12%Q)); ("DY"%string, (Some 5%Q)); ("HR"%string, (Some 12%Q)); ("LAT"%string, (Some 85%Q)); ("LON"%string, (Some (-2 # 25)%Q)); ("SST"%string, (Some 5%Q))]); (new_report (Some "AAAAAAAAA"%string) None [("YR"%string, (Some 2003%Q)); ("MO"%string, (Some 12%Q)); ("DY"%string, (Some 6%Q)); ("HR"%string, (Some 12%Q)); ("LAT"%string, (Some 85%Q)); ("LON"%string, (Some (-1 # 10)%Q)); ("SST"%string, (Some 5%Q))]); (new_report (Some "AAAAAAAAA"%string) None [("YR"%string, (Some 2003%Q)); ("MO"%string, (Some 12%Q)); ("DY"%string, (Some 7%Q)); ("HR"%string, (Some 12%Q)); ("LAT"%string, (Some 85%Q)); ("LON"%string, (Some (-3 # 25)%Q)); ("SST"%string, (Some 5%Q))])]) (aground_check earth 3 1 2)) in
  all [flags x1 "POS"%string "drf_agr"%string [1; 1; 1; 1; 1; 1; 1]]).
Example TestTrackQC_aground_check_test_moving_slowly_west_in_arctic_is : TestTrackQC_aground_check_test_moving_slowly_west_in_arctic = true.
Proof. reflexivity. Qed.
Definition TestTrackQC_aground_check_test_stop_then_moving_north : bool := Eval vm_compute in (let x1 := (on (voyage_of [] [(new_report (Some "AAAAAAAAA"%string) None [("YR"%string, (Some 2003%Q)); ("MO"%string, (Some 12%Q)); ("DY"%string, (Some 1%Q)); ("HR"%string, (Some 12%Q)); ("LAT"%string, (Some 0%Q)); ("LON"%string, (Some 0%Q)); ("SST"%string, (Some 5%Q))]); (new_report (Some "AAAAAAAAA"%string) None [("YR"%string, (Some 2003%Q)); ("MO"%string, (Some 12%Q)); ("DY"%string, (Some 2%Q)); ("HR"%string, (Some 12%Q)); ("LAT"%string, (Some 0%Q)); ("LON"%string, (Some 0%Q)); ("SST"%string, (Some 5%Q))]); (new_report (Some "AAAAAAAAA"%string) None [("YR"%string, (Some 2003%Q)); ("MO"%string, (Some 12%Q)); ("DY"%string, (Some 3%Q)); ("HR"%string, (Some 12%Q)); ("LAT"%string, (Some 0%Q)); ("LON"%string, (Some 0%Q)); ("SST"%string, (Some 5%Q))]); (new_report (Some "AAAAAAAAA"%string) None [("YR"%string, (Some 2003%Q)); ("MO"%string, (Some 12%Q)); ("DY"%string, (Some 4%Q)); ("HR"%string, (Some 12%Q)); ("LAT"%string, (Some 0%Q)); ("LON"%string, (Some 0%Q)); ("SST"%string, (Some 5%Q))]); (new_report (Some "AAAAAAAAA"%string) None [("YR"%string, (Some 2003%Q)); ("MO"%string, (Some 12%Q)); ("DY"%string, (Some 5%Q)); ("HR"%string, (Some 12%Q)); ("LAT"%string, (Some (1 # 50)%Q)); ("LON"%string, (Some 0%Q)); ("SST"%string, (Some 5%Q))]); (new_report (Some "AAAAAAAAA"%string) None [("YR"%string, (Some 2003%Q)); ("MO"%string, (Some 12%Q)); ("DY"%string, (Some 6%Q)); ("HR"%string, (Some 12%Q)); ("LAT"%string, (Some (1 # 25)%Q)); ("LON"%string, (Some 0%Q)); ("SST"%string, (Some 5%Q))]); (new_report (Some "AAAAAAAAA"%string) None [("YR"%string, (Some 2003%Q)); ("MO"%string, (Some 12%Q)); ("DY"%string, (Some 7%Q)); ("HR"%string, (Some 12%Q)); ("LAT"%string, (Some (3 # 50)%Q)); ("LON"%string, (Some 0%Q)); ("SST"%string, (Some 5%Q))])]) (aground_check earth 3 1 2)) in
  all [flags x1 "POS"%string "drf_agr"%string [0; 0; 0; 0; 0; 0; 0]]).
Example TestTrackQC_aground_check_test_stop_then_moving_north_is : TestTrackQC_aground_check_test_stop_then_moving_north = true.
Proof. reflexivity. Qed.
Definition TestTrackQC_aground_check_test_too_short_for_qc : bool := Eval vm_compute in (let x1 := (on (voyage_of [] [(new_report (Some "AAAAAAAAA"%string) None [("YR"%string, (Some 2003%Q)); ("MO"%string, (Some 12%Q)); ("DY"%string, (Some 1%Q)); ("HR"%string, (Some 12%Q)); ("LAT"%string, (Some 0%Q)); ("LON"%string, (Some 0%Q)); ("SST"%string, (Some 5%Q))]); (new_report (Some "AAAAAAAAA"%string) None [("YR"%string, (Some 2003%Q)); ("MO"%string, (Some 12%Q)); ("DY"%string, (Some 2%Q)); ("HR"%string, (Some 12%Q)); ("LAT"%string, (Some 0%Q)); ("LON"%string, (Some (-1 # 50)%Q)); ("SST"%string, (Some 5%Q))])]) (aground_check earth 3 1 2)) in
  all [flags x1 "POS"%string "drf_agr"%string [0; 0]]).
Example TestTrackQC_aground_check_test_too_short_for_qc_is : TestTrackQC_aground_check_test_too_short_for_qc = true.
Proof. reflexivity. Qed.
Definition TestTrackQC_aground_check_test_error_bad_input_parameter : bool := Eval vm_compute in (all [asserts (rs (fun _ => VNone) (on (voyage_of [] [(new_report (Some "AAAAAAAAA"%string) None [("YR"%string, (Some 2003%Q)); ("MO"%string, (Some 12%Q)); ("DY"%string, (Some 1%Q)); ("HR"%string, (Some 12%Q)); ("LAT"%string, (Some 0%Q)); ("LON"%string, (Some 0%Q)); ("SST"%string, (Some 5%Q))]); (new_report (Some "AAAAAAAAA"%string) None [("YR"%string, (Some 2003%Q)); ("MO"%string, (Some 12%Q)); ("DY"%string, (Some 2%Q)); ("HR"%string, (Some 12%Q)); ("LAT"%string, (Some 0%Q)); ("LON"%string, (Some (-1 # 50)%Q)); ("SST"%string, (Some 5%Q))]); (new_report (Some "AAAAAAAAA"%string) None [("YR"%string, (Some 2003%Q)); ("MO"%string, (Some 12%Q)); ("DY"%string, (Some 3%Q)); ("HR"%string, (Some 12%Q)); ("LAT"%string, (Some 0%Q)); ("LON"%string, (Some (-1 # 25)%Q)); ("SST"%string, (Some 5%Q))]); (new_report (Some "AAAAAAAAA"%string) None [("YR"%string, (Some 2003%Q)); ("MO"%string, (Some 12%Q)); ("DY"%string, (Some 4%Q)); ("HR"%string, (Some 12%Q)); ("LAT"%string, (Some 0%Q)); ("LON"%string, (Some (-3 # 50)%Q)); ("SST"%string, (Some 5%Q))]); (new_report (Some "AAAAAAAAA"%string) None [("YR"%string, (Some 2003%Q)); ("MO"%string, (Some 12%Q)); ("DY"%string, (Some 5%Q)); ("HR"%string, (Some 12%Q)); ("LAT"%string, (Some 0%Q)); ("LON"%string, (Some (-2 # 25)%Q)); ("SST"%string, (Some 5%Q))]); (new_report (Some "AAAAAAAAA"%string) None [("YR"%string, (Some 2003%Q)); ("MO"%string, (Some 12%Q)); ("DY"%string, (Some 6%Q)); ("HR"%string, (Some 12%Q)); ("LAT"%string, (Some 0%Q)); ("LON"%string, (Some (-1 # 10)%Q)); ("SST"%string, (Some 5%Q))]); (new_report (Some "AAAAAAAAA"%string) None [("YR"%string, (Some 2003%Q)); ("MO"%string, (Some 12%Q)); ("DY"%string, (Some 7%Q)); ("HR"%string, (Some 12%Q)); ("LAT"%string, (Some 0%Q)); ("LON"%string, (Some (-3 # 25)%Q)); ("SST"%string, (Some 5%Q))])]) (aground_check earth 0 1 2)))]).
Example TestTrackQC_aground_check_test_error_bad_input_parameter_is : TestTrackQC_aground_check_test_error_bad_input_parameter = true.
Proof. reflexivity. Qed.
Definition TestTrackQC_aground_check_test_error_missing_observation : bool := Eval vm_compute in (all [asserts (rs (fun _ => VNone) (on (on (voyage_of [] [(new_report (Some "AAAAAAAAA"%string) None [("YR"%string, (Some 2003%Q)); ("MO"%string, (Some 12%Q)); ("DY"%string, (Some 1%Q)); ("HR"%string, (Some 12%Q)); ("LAT"%string, (Some 0%Q)); ("LON"%string, (Some 0%Q)); ("SST"%string, (Some 5%Q))]); (new_report (Some "AAAAAAAAA"%string) None [("YR"%string, (Some 2003%Q)); ("MO"%string, (Some 12%Q)); ("DY"%string, (Some 2%Q)); ("HR"%string, (Some 12%Q)); ("LAT"%string, (Some 0%Q)); ("LON"%string, (Some (-1 # 50)%Q)); ("SST"%string, (Some 5%Q))]); (new_report (Some "AAAAAAAAA"%string) None [("YR"%string, (Some 2003%Q)); ("MO"%string, (Some 12%Q)); ("DY"%string, (Some 3%Q)); ("HR"%string, (Some 12%Q)); ("LAT"%string, (Some 0%Q)); ("LON"%string, (Some (-1 # 25)%Q)); ("SST"%string, (Some 5%Q))]); (new_report (Some "AAAAAAAAA"%string) None [("YR"%string, (Some 2003%Q)); ("MO"%string, (Some 12%Q)); ("DY"%string, (Some 4%Q)); ("HR"%string, (Some 12%Q)); ("LAT"%string, (Some 0%Q)); ("LON"%string, (Some (-3 # 50)%Q)); ("SST"%string, (Some 5%Q))]); (new_report (Some "AAAAAAAAA"%string) None [("YR"%string, (Some 2003%Q)); ("MO"%string, (Some 12%Q)); ("DY"%string, (Some 5%Q)); ("HR"%string, (Some 12%Q)); ("LAT"%string, (Some 0%Q)); ("LON"%string, (Some (-2 # 25)%Q)); ("SST"%string, (Some 5%Q))]); (new_report (Some "AAAAAAAAA"%string) None [("YR"%string, (Some 2003%Q)); ("MO"%string, (Some 12%Q)); ("DY"%string, (Some 6%Q)); ("HR"%string, (Some 12%Q)); ("LAT"%string, (Some 0%Q)); ("LON"%string, (Some (-1 # 10)%Q)); ("SST"%string, (Some 5%Q))]); (new_report (Some "AAAAAAAAA"%string) None [("YR"%string, (Some 2003%Q)); ("MO"%string, (Some 12%Q)); ("DY"%string, (Some 7%Q)); ("HR"%string, (Some 12%Q)); ("LAT"%string, (Some 0%Q)); ("LON"%string, (Some (-3 # 25)%Q)); ("SST"%string, (Some 5%Q))])]) (fun v => setvar_at v 1 "LON"%string None)) (aground_check earth 3 1 2)))]).
Example TestTrackQC_aground_check_test_error_missing_observation_is : TestTrackQC_aground_check_test_error_missing_observation = true.
Proof. reflexivity. Qed.
Definition TestTrackQC_aground_check_test_error_not_time_sorted : bool := Eval vm_compute in (all [asserts (rs (fun _ => VNone) (on (voyage_of [] [(new_report (Some "AAAAAAAAA"%string) None [("YR"%string, (Some 2003%Q)); ("MO"%string, (Some 12%Q)); ("DY"%string, (Some 1%Q)); ("HR"%string, (Some 12%Q)); ("LAT"%string, (Some 0%Q)); ("LON"%string, (Some 0%Q)); ("SST"%string, (Some 5%Q))]); (new_report (Some "AAAAAAAAA"%string) None [("YR"%string, (Some 2003%Q)); ("MO"%string, (Some 12%Q)); ("DY"%string, (Some 2%Q)); ("HR"%string, (Some 12%Q)); ("LAT"%string, (Some 0%Q)); ("LON"%string, (Some (-1 # 50)%Q)); ("SST"%string, (Some 5%Q))]); (new_report (Some "AAAAAAAAA"%string) None [("YR"%string, (Some 2003%Q)); ("MO"%string, (Some 12%Q)); ("DY"%string, (Some 3%Q)); ("HR"%string, (Some 12%Q)); ("LAT"%string, (Some 0%Q)); ("LON"%string, (Some (-1 # 25)%Q)); ("SST"%string, (Some 5%Q))]); (new_report (Some "AAAAAAAAA"%string) None [("YR"%string, (Some 2003%Q)); ("MO"%string, (Some 12%Q)); ("DY"%string, (Some 2%Q)); ("HR"%string, (Some 12%Q)); ("LAT"%string, (Some 0%Q)); ("LON"%string, (Some (-3 # 50)%Q)); ("SST"%string, (Some 5%Q))]); (new_report (Some "AAAAAAAAA"%string) None [("YR"%string, (Some 2003%Q)); ("MO"%string, (Some 12%Q)); ("DY"%string, (Some 5%Q)); ("HR"%string, (Some 12%Q)); ("LAT"%string, (Some 0%Q)); ("LON"%string, (Some (-2 # 25)%Q)); ("SST"%string, (Some 5%Q))]); (new_report (Some "AAAAAAAAA"%string) None [("YR"%string, (Some 2003%Q)); ("MO"%string, (Some 12%Q)); ("DY"%string, (Some 6%Q)); ("HR"%string, (Some 12%Q)); ("LAT"%string, (Some 0%Q)); ("LON"%string, (Some (-1 # 10)%Q)); ("SST"%string, (Some 5%Q))]); (new_report (Some "AAAAAAAAA"%string) None [("YR"%string, (Some 2003%Q)); ("MO"%string, (Some 12%Q)); ("DY"%string, (Some 7%Q)); ("HR"%string, (Some 12%Q)); ("LAT"%string, (Some 0%Q)); ("LON"%string, (Some (-3 # 25)%Q)); ("SST"%string, (Some 5%Q))])]) (aground_check earth 3 1 2)))]).
Example TestTrackQC_aground_check_test_error_not_time_sorted_is : TestTrackQC_aground_check_test_error_not_time_sorted = true.
Proof. reflexivity. Qed.
Definition TestTrackQC_aground_check_test_new_stationary : bool := Eval vm_compute in (let x1 := (on (voyage_of [] [(new_report (Some "AAAAAAAAA"%string) None [("YR"%string, (Some 2003%Q)); ("MO"%string, (Some 12%Q)); ("DY"%string, (Some 1%Q)); ("HR"%string, (Some 12%Q)); ("LAT"%string, (Some 0%Q)); ("LON"%string, (Some 0%Q)); ("SST"%string, (Some 5%Q))]); (new_report (Some "AAAAAAAAA"%string) None [("YR"%string, (Some 2003%Q)); ("MO"%string, (Some 12%Q)); ("DY"%string, (Some 2%Q)); ("HR"%string, (Some 12%Q)); ("LAT"%string, (Some 0%Q)); ("LON"%string, (Some 0%Q)); ("SST"%string, (Some 5%Q))]); (new_report (Some "AAAAAAAAA"%string) None [("YR"%string, (Some 2003%Q)); ("MO"%string, (Some 12%Q)); ("DY"%string, (Some 3%Q)); ("HR"%string, (Some 12%Q)); ("LAT"%string, (Some 0%Q)); ("LON"%string, (Some 0%Q)); ("SST"%string, (Some 5%Q))]); (new_report (Some "AAAAAAAAA"%string) None [("YR"%string, (Some 2003%Q)); ("MO"%string, (Some 12%Q)); ("DY"%string, (Some 4%Q)); ("HR"%string, (Some 12%Q)); ("LAT"%string, (Some 0%Q)); ("LON"%string, (Some 0%Q)); ("SST"%string, (Some 5%Q))]); (new_report (Some "AAAAAAAAA"%string) None [("YR"%string, (Some 2003%Q)); ("MO"%string, (Some 12%Q)); ("DY"%string, (Some 5%Q)); ("HR"%string, (Some 12%Q)); ("LAT"%string, (Some 0%Q)); ("LON"%string, (Some 0%Q)); ("SST"%string, (Some 5%Q))]); (new_report (Some "AAAAAAAAA"%string) None [("YR"%string, (Some 2003%Q)); ("MO"%string, (Some 12%Q)); ("DY"%string, (Some 6%Q)); ("HR"%string, (Some 12%Q)); ("LAT"%string, (Some 0%Q)); ("LON"%string, (Some 0%Q)); ("SST"%string, (Some 5%Q))]); (new_report (Some "AAAAAAAAA"%string) None [("YR"%string, (Some 2003%Q)); ("MO"%string, (Some 12%Q)); ("DY"%string, (Some 7%Q)); ("HR"%string, (Some 12%Q)); ("LAT"%string, (Some 0%Q)); ("LON"%string, (Some 0%Q)); ("SST"%string, (Some 5%Q))])]) (new_aground_check earth 3 1)) in
  all [flags x1 "POS"%string "drf_agr"%string [1; 1; 1; 1; 1; 1; 1]]).
Example TestTrackQC_aground_check_test_new_stationary_is : TestTrackQC_aground_check_test_new_stationary = true.
Proof. reflexivity. Qed.
Definition TestTrackQC_aground_check_test_new_stationary_jitter_spikes : bool := Eval vm_compute in (let x1 := (on (voyage_of [] [(new_report (Some "AAAAAAAAA"%string) None [("YR"%string, (Some 2003%Q)); ("MO"%string, (Some 12%Q)); ("DY"%string, (Some 1%Q)); ("HR"%string, (Some 12%Q)); ("LAT"%string, (Some 0%Q)); ("LON"%string, (Some 0%Q)); ("SST"%string, (Some 5%Q))]); (new_report (Some "AAAAAAAAA"%string) None [("YR"%string, (Some 2003%Q)); ("MO"%string, (Some 12%Q)); ("DY"%string, (Some 2%Q)); ("HR"%string, (Some 12%Q)); ("LAT"%string, (Some 0%Q)); ("LON"%string, (Some 0%Q)); ("SST"%string, (Some 5%Q))]); (new_report (Some "AAAAAAAAA"%string) None [("YR"%string, (Some 2003%Q)); ("MO"%string, (Some 12%Q)); ("DY"%string, (Some 3%Q)); ("HR"%string, (Some 12%Q)); ("LAT"%string, (Some 1%Q)); ("LON"%string, (Some 0%Q)); ("SST"%string, (Some 5%Q))]); (new_report (Some "AAAAAAAAA"%string) None [("YR"%string, (Some 2003%Q)); ("MO"%string, (Some 12%Q)); ("DY"%string, (Some 4%Q)); ("HR"%string, (Some 12%Q)); ("LAT"%string, (Some 0%Q)); ("LON"%string, (Some 0%Q)); ("SST"%string, (Some 5%Q))]); (new_report (Some "AAAAAAAAA"%string) None [("YR"%string, (Some 2003%Q)); ("MO"%string, (Some 12%Q)); ("DY"%string, (Some 5%Q)); ("HR"%string, (Some 12%Q)); ("LAT"%string, (Some 0%Q)); ("LON"%string, (Some 1%Q)); ("SST"%string, (Some 5%Q))]); (new_report (Some "AAAAAAAAA"%string) None [("YR"%string, (Some 2003%Q)); ("MO"%string, (Some 12%Q)); ("DY"%string, (Some 6%Q)); ("HR"%string, (Some 12%Q)); ("LAT"%string, (Some 0%Q)); ("LON"%string, (Some 0%Q)); ("SST"%string, (Some 5%Q))]); (new_report (Some "AAAAAAAAA"%string) None [("YR"%string, (Some 2003%Q)); ("MO"%string, (Some 12%Q)); ("DY"%string, (Some 7%Q)); ("HR"%string, (Some 12%Q)); ("LAT"%string, (Some 0%Q)); ("LON"%string, (Some 0%Q)); ("SST"%string, (Some 5%Q))])]) (new_aground_check earth 3 1)) in
  all [flags x1 "POS"%string "drf_agr"%string [1; 1; 1; 1; 1; 1; 1]]).
Example TestTrackQC_aground_check_test_new_stationary_jitter_spikes_is : TestTrackQC_aground_check_test_new_stationary_jitter_spikes = true.
Proof. reflexivity. Qed.
Definition TestTrackQC_aground_check_test_new_stationary_big_remaining_jitter : bool := Eval vm_compute in (let x1 := (on (voyage_of [] [(new_report (Some "AAAAAAAAA"%string) None [("YR"%string, (Some 2003%Q)); ("MO"%string, (Some 12%Q)); ("DY"%string, (Some 1%Q)); ("HR"%string, (Some 12%Q)); ("LAT"%string, (Some 0%Q)); ("LON"%string, (Some 0%Q)); ("SST"%string, (Some 5%Q))]); (new_report (Some "AAAAAAAAA"%string) None [("YR"%string, (Some 2003%Q)); ("MO"%string, (Some 12%Q)); ("DY"%string, (Some 2%Q)); ("HR"%string, (Some 12%Q)); ("LAT"%string, (Some 0%Q)); ("LON"%string, (Some 0%Q)); ("SST"%string, (Some 5%Q))]); (new_report (Some "AAAAAAAAA"%string) None [("YR"%string, (Some 2003%Q)); ("MO"%string, (Some 12%Q)); ("DY"%string, (Some 3%Q)); ("HR"%string, (Some 12%Q)); ("LAT"%string, (Some 1%Q)); ("LON"%string, (Some 0%Q)); ("SST"%string, (Some 5%Q))]); (new_report (Some "AAAAAAAAA"%string) None [("YR"%string, (Some 2003%Q)); ("MO"%string, (Some 12%Q)); ("DY"%string, (Some 4%Q)); ("HR"%string, (Some 12%Q)); ("LAT"%string, (Some 1%Q)); ("LON"%string, (Some 0%Q)); ("SST"%string, (Some 5%Q))]); (new_report (Some "AAAAAAAAA"%string) None [("YR"%string, (Some 2003%Q)); ("MO"%string, (Some 12%Q)); ("DY"%string, (Some 5%Q)); ("HR"%string, (Some 12%Q)); ("LAT"%string, (Some 0%Q)); ("LON"%string, (Some 0%Q)); ("SST"%string, (Some 5%Q))]); (new_report (Some "AAAAAAAAA"%string) None [("YR"%string, (Some 2003%Q)); ("MO"%string, (Some 12%Q)); ("DY"%string, (Some 6%Q)); ("HR"%string, (Some 12%Q)); ("LAT"%string, (Some 0%Q)); ("LON"%string, (Some 0%Q)); ("SST"%string, (Some 5%Q))]); (new_report (Some "AAAAAAAAA"%string) None [("YR"%string, (Some 2003%Q)); ("MO"%string, (Some 12%Q)); ("DY"%string, (Some 7%Q)); ("HR"%string, (Some 12%Q)); ("LAT"%string, (Some 0%Q)); ("LON"%string, (Some 0%Q)); ("SST"%string, (Some 5%Q))])]) (new_aground_check earth 3 1)) in
  all [flags x1 "POS"%string "drf_agr"%string [0; 0; 0; 0; 1; 1; 1]]).
Example TestTrackQC_aground_check_test_new_stationary_big_remaining_jitter_is : TestTrackQC_aground_check_test_new_stationary_big_remaining_jitter = true.
Proof. reflexivity. Qed.
Definition TestTrackQC_aground_check_test_new_stationary_small_remaining_jitter : bool := Eval vm_compute in (let x1 := (on (voyage_of [] [(new_report (Some "AAAAAAAAA"%string) None [("YR"%string, (Some 2003%Q)); ("MO"%string, (Some 12%Q)); ("DY"%string, (Some 1%Q)); ("HR"%string, (Some 12%Q)); ("LAT"%string, (Some 0%Q)); ("LON"%string, (Some 0%Q)); ("SST"%string, (Some 5%Q))]); (new_report (Some "AAAAAAAAA"%string) None [("YR"%string, (Some 2003%Q)); ("MO"%string, (Some 12%Q)); ("DY"%string, (Some 2%Q)); ("HR"%string, (Some 12%Q)); ("LAT"%string, (Some 0%Q)); ("LON"%string, (Some 0%Q)); ("SST"%string, (Some 5%Q))]); (new_report (Some "AAAAAAAAA"%string) None [("YR"%string, (Some 2003%Q)); ("MO"%string, (Some 12%Q)); ("DY"%string, (Some 3%Q)); ("HR"%string, (Some 12%Q)); ("LAT"%string, (Some (1 # 100)%Q)); ("LON"%string, (Some (1 # 100)%Q)); ("SST"%string, (Some 5%Q))]); (new_report (Some "AAAAAAAAA"%string) None [("YR"%string, (Some 2003%Q)); ("MO"%string, (Some 12%Q)); ("DY"%string, (Some 4%Q)); ("HR"%string, (Some 12%Q)); ("LAT"%string, (Some (1 # 100)%Q)); ("LON"%string, (Some (1 # 100)%Q)); ("SST"%string, (Some 5%Q))]); (new_report (Some "AAAAAAAAA"%string) None [("YR"%string, (Some 2003%Q)); ("MO"%string, (Some 12%Q)); ("DY"%string, (Some 5%Q)); ("HR"%string, (Some 12%Q)); ("LAT"%string, (Some 0%Q)); ("LON"%string, (Some 0%Q)); ("SST"%string, (Some 5%Q))]); (new_report (Some "AAAAAAAAA"%string) None [("YR"%string, (Some 2003%Q)); ("MO"%string, (Some 12%Q)); ("DY"%string, (Some 6%Q)); ("HR"%string, (Some 12%Q)); ("LAT"%string, (Some 0%Q)); ("LON"%string, (Some 0%Q)); ("SST"%string, (Some 5%Q))]); (new_report (Some "AAAAAAAAA"%string) None [("YR"%string, (Some 2003%Q)); ("MO"%string, (Some 12%Q)); ("DY"%string, (Some 7%Q)); ("HR"%string, (Some 12%Q)); ("LAT"%string, (Some 0%Q)); ("LON"%string, (Some 0%Q)); ("SST"%string, (Some 5%Q))])]) (new_aground_check earth 3 1)) in
  all [flags x1 "POS"%string "drf_agr"%string [1; 1; 1; 1; 1; 1; 1]]).
Example TestTrackQC_aground_check_test_new_stationary_small_remaining_jitter_is : TestTrackQC_aground_check_test_new_stationary_small_remaining_jitter = true.
Proof. reflexivity. Qed.
Definition TestTrackQC_aground_check_test_new_moving_west : bool := Eval vm_compute in (let x1 := (on (voyage_of [] [(new_report (Some "AAAAAAAAA"%string) None [("YR"%string, (Some 2003%Q)); ("MO"%string, (Some 12%Q)); ("DY"%string, (Some 1%Q)); ("HR"%string, (Some 12%Q)); ("LAT"%string, (Some 0%Q)); ("LON"%string, (Some 0%Q)); ("SST"%string, (Some 5%Q))]); (new_report (Some "AAAAAAAAA"%string) None [("YR"%string, (Some 2003%Q)); ("MO"%string, (Some 12%Q)); ("DY"%string, (Some 2%Q)); ("HR"%string, (Some 12%Q)); ("LAT"%string, (Some 0%Q)); ("LON"%string, (Some (-1 # 50)%Q)); ("SST"%string, (Some 5%Q))]); (new_report (Some "AAAAAAAAA"%string) None [("YR"%string, (Some 2003%Q)); ("MO"%string, (Some 12%Q)); ("DY"%string, (Some 3%Q)); ("HR"%string, (Some 12%Q)); ("LAT"%string, (Some 0%Q)); ("LON"%string, (Some (-1 # 25)%Q)); ("SST"%string, (Some 5%Q))]); (new_report (Some "AAAAAAAAA"%string) None [("YR"%string, (Some 2003%Q)); ("MO"%string, (Some 12%Q)); ("DY"%string, (Some 4%Q)); ("HR"%string, (Some 12%Q)); ("LAT"%string, (Some 0%Q)); ("LON"%string, (Some (-3 # 50)%Q)); ("SST"%string, (Some 5%Q))]); (new_report (Some "AAAAAAAAA"%string) None [("YR"%string, (Some 2003%Q)); ("MO"%string, (Some 12%Q)); ("DY"%string, (Some 5%Q)); ("HR"%string, (Some 12%Q)); ("LAT"%string, (Some 0%Q)); ("LON"%string, (Some (-2 # 25)%Q)); ("SST"%string, (Some 5%Q))]); (new_report (Some "AAAAAAAAA"%string) None [("YR"%string, (Some 2003%Q)); ("MO"%string, (Some 12%Q)); ("DY"%string, (Some 6%Q)); ("HR"%string, (Some 12%Q)); ("LAT"%string, (Some 0%Q)); ("LON"%string, (Some (-1 # 10)%Q)); ("SST"%string, (Some 5%Q))]); (new_report (Some "AAAAAAAAA"%string) None [("YR"%string, (Some 2003%Q)); ("MO"%string, (Some 12%Q)); ("DY"%string, (Some 7%Q)); ("HR"%string, (Some 12%Q)); ("LAT"%string, (Some 0%Q)); ("LON"%string, (Some (-3 # 25)%Q)); ("SST"%string, (Some 5%Q))])]) (new_aground_check earth 3 1)) in
  all [flags x1 "POS"%string "drf_agr"%string [0; 0; 0; 0; 0; 0; 0]]).
Example TestTrackQC_aground_check_test_new_moving_west_is : TestTrackQC_aground_check_test_new_moving_west = true.
Proof. reflexivity. Qed.
Definition TestTrackQC_aground_check_test_new_moving_north : bool := Eval vm_compute in (let x1 := (on (voyage_of [] [(new_report (Some "AAAAAAAAA"%string) None [("YR"%string, (Some 2003%Q)); ("MO"%string, (Some 12%Q)); ("DY"%string, (Some 1%Q)); ("HR"%string, (Some 12%Q)); ("LAT"%string, (Some 0%Q)); ("LON"%string, (Some 0%Q)); ("SST"%string, (Some 5%Q))]); (new_report (Some "AAAAAAAAA"%string) None [("YR"%string, (Some 2003%Q)); ("MO"%string, (Some 12%Q)); ("DY"%string, (Some 2%Q)); ("HR"%string, (Some 12%Q)); ("LAT"%string, (Some (1 # 50)%Q)); ("LON"%string, (Some 0%Q)); ("SST"%string, (Some 5%Q))]); (new_report (Some "AAAAAAAAA"%string) None [("YR"%string, (Some 2003%Q)); ("MO"%string, (Some 12%Q)); ("DY"%string, (Some 3%Q)); ("HR"%string, (Some 12%Q)); ("LAT"%string, (Some (1 # 25)%Q)); ("LON"%string, (Some 0%Q)); ("SST"%string, (Some 5%Q))]); (new_report (Some "AAAAAAAAA"%string) None [("YR"%string, (Some 2003%Q)); ("MO"%string, (Some 12%Q)); ("DY"%string, (Some 4%Q)); ("HR"%string, (Some 12%Q)); ("LAT"%string, (Some (3 # 50)%Q)); ("LON"%string, (Some 0%Q)); ("SST"%string, (Some 5%Q))]); (new_report (Some "AAAAAAAAA"%string) None [("YR"%string, (Some 2003%Q)); ("MO"%string, (Some 12%Q)); ("DY"%string, (Some 5%Q)); ("HR"%string, (Some 12%Q)); ("LAT"%string, (Some (2 # 25)%Q)); ("LON"%string, (Some 0%Q)); ("SST"%string, (Some 5%Q))]); (new_report (Some "AAAAAAAAA"%string) None [("YR"%string, (Some 2003%Q)); ("MO"%string, (Some 12%Q)); ("DY"%string, (Some 6%Q)); ("HR"%string, (Some 12%Q)); ("LAT"%string, (Some (1 # 10)%Q)); ("LON"%string, (Some 0%Q)); ("SST"%string, (Some 5%Q))]); (new_report (Some "AAAAAAAAA"%string) None [("YR"%string, (Some 2003%Q)); ("MO"%string, (Some 12%Q)); ("DY"%string, (Some 7%Q)); ("HR"%string, (Some 12%Q)); ("LAT"%string, (Some (3 # 25)%Q)); ("LON"%string, (Some 0%Q)); ("SST"%string, (Some 5%Q))])]) (new_aground_check earth 3 1)) in
  all [flags x1 "POS"%string "drf_agr"%string [0; 0; 0; 0; 0; 0; 0]]).
Example TestTrackQC_aground_check_test_new_moving_north_is : TestTrackQC_aground_check_test_new_moving_north = true.
Proof. reflexivity. Qed.
Definition TestTrackQC_aground_check_test_new_moving_north_then_stop : bool := Eval vm_compute in (let x1 := (on (voyage_of [] [(new_report (Some "AAAAAAAAA"%string) None [("YR"%string, (Some 2003%Q)); ("MO"%string, (Some 12%Q)); ("DY"%string, (Some 1%Q)); ("HR"%string, (Some 12%Q)); ("LAT"%string, (Some 0%Q)); ("LON"%string, (Some 0%Q)); ("SST"%string, (Some 5%Q))]); (new_report (Some "AAAAAAAAA"%string) None [("YR"%string, (Some 2003%Q)); ("MO"%string, (Some 12%Q)); ("DY"%string, (Some 2%Q)); ("HR"%string, (Some 12%Q)); ("LAT"%string, (Some (1 # 50)%Q)); ("LON"%string, (Some 0%Q)); ("SST"%string, (Some 5%Q))]); (new_report (Some "AAAAAAAAA"%string) None [("YR"%string, (Some 2003%Q)); ("MO"%string, (Some 12%Q)); ("DY"%string, (Some 3%Q)); ("HR"%string, (Some 12%Q)); ("LAT"%string, (Some (1 # 25)%Q)); ("LON"%string, (Some 0%Q)); ("SST"%string, (Some 5%Q))]); (new_report (Some "AAAAAAAAA"%string) None [("YR"%string, (Some 2003%Q)); ("MO"%string, (Some 12%Q)); ("DY"%string, (Some 4%Q)); ("HR"%string, (Some 12%Q)); ("LAT"%string, (Some (3 # 50)%Q)); ("LON"%string, (Some 0%Q)); ("SST"%string, (Some 5%Q))]); (new_report (Some "AAAAAAAAA"%string) None [("YR"%string, (Some 2003%Q)); ("MO"%string, (Some 12%Q)); ("DY"%string, (Some 5%Q)); ("HR"%string, (Some 12%Q)); ("LAT"%string, (Some (2 # 25)%Q)); ("LON"%string, (Some 0%Q)); ("SST"%string, (Some 5%Q))]); (new_report (Some "AAAAAAAAA"%string) None [("YR"%string, (Some 2003%Q)); ("MO"%string, (Some 12%Q)); ("DY"%string, (Some 6%Q)); ("HR"%string, (Some 12%Q)); ("LAT"%string, (Some (2 # 25)%Q)); ("LON"%string, (Some 0%Q)); ("SST"%string, (Some 5%Q))]); (new_report (Some "AAAAAAAAA"%string) None [("YR"%string, (Some 2003%Q)); ("MO"%string, (Some 12%Q)); ("DY"%string, (Some 7%Q)); ("HR"%string, (Some 12%Q)); ("LAT"%string, (Some (2 # 25)%Q)); ("LON"%string, (Some 0%Q)); ("SST"%string, (Some 5%Q))])]) (new_aground_check earth 3 1)) in
  all [flags x1 "POS"%string "drf_agr"%string [0; 0; 0; 0; 1; 1; 1]]).
Example TestTrackQC_aground_check_test_new_moving_north_then_stop_is : TestTrackQC_aground_check_test_new_moving_north_then_stop = true.
Proof. reflexivity. Qed.
Definition TestTrackQC_aground_check_test_new_stationary_high_freq_sampling : bool := Eval vm_compute in (let x1 := (on (voyage_of [] [(new_report (Some "AAAAAAAAA"%string) None [("YR"%string, (Some 2003%Q)); ("MO"%string, (Some 12%Q)); ("DY"%string, (Some 1%Q)); ("HR"%string, (Some 1%Q)); ("LAT"%string, (Some 0%Q)); ("LON"%string, (Some 0%Q)); ("SST"%string, (Some 5%Q))]); (new_report (Some "AAAAAAAAA"%string) None [("YR"%string, (Some 2003%Q)); ("MO"%string, (Some 12%Q)); ("DY"%string, (Some 1%Q)); ("HR"%string, (Some 2%Q)); ("LAT"%string, (Some 0%Q)); ("LON"%string, (Some 0%Q)); ("SST"%string, (Some 5%Q))]); (new_report (Some "AAAAAAAAA"%string) None [("YR"%string, (Some 2003%Q)); ("MO"%string, (Some 12%Q)); ("DY"%string, (Some 1%Q)); ("HR"%string, (Some 3%Q)); ("LAT"%string, (Some 0%Q)); ("LON"%string, (Some 0%Q)); ("SST"%string, (Some 5%Q))]); (new_report (Some "AAAAAAAAA"%string) None [("YR"%string, (Some 2003%Q)); ("MO"%string, (Some 12%Q)); ("DY"%string, (Some 1%Q)); ("HR"%string, (Some 4%Q)); ("LAT"%string, (Some 0%Q)); ("LON"%string, (Some 0%Q)); ("SST"%string, (Some 5%Q))]); (new_report (Some "AAAAAAAAA"%string) None [("YR"%string, (Some 2003%Q)); ("MO"%string, (Some 12%Q)); ("DY"%string, (Some 1%Q)); ("HR"%string, (Some 5%Q)); ("LAT"%string, (Some 0%Q)); ("LON"%string, (Some 0%Q)); ("SST"%string, (Some 5%Q))]); (new_report (Some "AAAAAAAAA"%string) None [("YR"%string, (Some 2003%Q)); ("MO"%string, (Some 12%Q)); ("DY"%string, (Some 1%Q)); ("HR"%string, (Some 6%Q)); ("LAT"%string, (Some 0%Q)); ("LON"%string, (Some 0%Q)); ("SST"%string, (Some 5%Q))]); (new_report (Some "AAAAAAAAA"%string) None [("YR"%string, (Some 2003%Q)); ("MO"%string, (Some 12%Q)); ("DY"%string, (Some 1%Q)); ("HR"%string, (Some 7%Q)); ("LAT"%string, (Some 0%Q)); ("LON"%string, (Some 0%Q)); ("SST"%string, (Some 5%Q))])]) (new_aground_check earth 3 1)) in
  all [flags x1 "POS"%string "drf_agr"%string [0; 0; 0; 0; 0; 0; 0]]).
Example TestTrackQC_aground_check_test_new_stationary_high_freq_sampling_is : TestTrackQC_aground_check_test_new_stationary_high_freq_sampling = true.
Proof. reflexivity. Qed.
Definition TestTrackQC_aground_check_test_new_stationary_low_freq_sampling : bool := Eval vm_compute in (let x1 := (on (voyage_of [] [(new_report (Some "AAAAAAAAA"%string) None [("YR"%string, (Some 2003%Q)); ("MO"%string, (Some 12%Q)); ("DY"%string, (Some 1%Q)); ("HR"%string, (Some 12%Q)); ("LAT"%string, (Some 0%Q)); ("LON"%string, (Some 0%Q)); ("SST"%string, (Some 5%Q))]); (new_report (Some "AAAAAAAAA"%string) None [("YR"%string, (Some 2003%Q)); ("MO"%string, (Some 12%Q)); ("DY"%string, (Some 4%Q)); ("HR"%string, (Some 12%Q)); ("LAT"%string, (Some 0%Q)); ("LON"%string, (Some 0%Q)); ("SST"%string, (Some 5%Q))]); (new_report (Some "AAAAAAAAA"%string) None [("YR"%string, (Some 2003%Q)); ("MO"%string, (Some 12%Q)); ("DY"%string, (Some 7%Q)); ("HR"%string, (Some 12%Q)); ("LAT"%string, (Some 0%Q)); ("LON"%string, (Some 0%Q)); ("SST"%string, (Some 5%Q))]); (new_report (Some "AAAAAAAAA"%string) None [("YR"%string, (Some 2003%Q)); ("MO"%string, (Some 12%Q)); ("DY"%string, (Some 10%Q)); ("HR"%string, (Some 12%Q)); ("LAT"%string, (Some 0%Q)); ("LON"%string, (Some 0%Q)); ("SST"%string, (Some 5%Q))]); (new_report (Some "AAAAAAAAA"%string) None [("YR"%string, (Some 2003%Q)); ("MO"%string, (Some 12%Q)); ("DY"%string, (Some 13%Q)); ("HR"%string, (Some 12%Q)); ("LAT"%string, (Some 0%Q)); ("LON"%string, (Some 0%Q)); ("SST"%string, (Some 5%Q))]); (new_report (Some "AAAAAAAAA"%string) None [("YR"%string, (Some 2003%Q)); ("MO"%string, (Some 12%Q)); ("DY"%string, (Some 16%Q)); ("HR"%string, (Some 12%Q)); ("LAT"%string, (Some 0%Q)); ("LON"%string, (Some 0%Q)); ("SST"%string, (Some 5%Q))]); (new_report (Some "AAAAAAAAA"%string) None [("YR"%string, (Some 2003%Q)); ("MO"%string, (Some 12%Q)); ("DY"%string, (Some 19%Q)); ("HR"%string, (Some 12%Q)); ("LAT"%string, (Some 0%Q)); ("LON"%string, (Some 0%Q)); ("SST"%string, (Some 5%Q))])]) (new_aground_check earth 3 1)) in
  all [flags x1 "POS"%string "drf_agr"%string [1; 1; 1; 1; 1; 1; 1]]).
Example TestTrackQC_aground_check_test_new_stationary_low_freq_sampling_is : TestTrackQC_aground_check_test_new_stationary_low_freq_sampling = true.
Proof. reflexivity. Qed.
Definition TestTrackQC_aground_check_test_new_stationary_mid_freq_sampling : bool := Eval vm_compute in (let x1 := (on (voyage_of [] [(new_report (Some "AAAAAAAAA"%string) None [("YR"%string, (Some 2003%Q)); ("MO"%string, (Some 12%Q)); ("DY"%string, (Some 1%Q)); ("HR"%string, (Some 12%Q)); ("LAT"%string, (Some 0%Q)); ("LON"%string, (Some 0%Q)); ("SST"%string, (Some 5%Q))]); (new_report (Some "AAAAAAAAA"%string) None [("YR"%string, (Some 2003%Q)); ("MO"%string, (Some 12%Q)); ("DY"%string, (Some 3%Q)); ("HR"%string, (Some 0%Q)); ("LAT"%string, (Some 0%Q)); ("LON"%string, (Some 0%Q)); ("SST"%string, (Some 5%Q))]); (new_report (Some "AAAAAAAAA"%string) None [("YR"%string, (Some 2003%Q)); ("MO"%string, (Some 12%Q)); ("DY"%string, (Some 4%Q)); ("HR"%string, (Some 12%Q)); ("LAT"%string, (Some 0%Q)); ("LON"%string, (Some 0%Q)); ("SST"%string, (Some 5%Q))]); (new_report (Some "AAAAAAAAA"%string) None [("YR"%string, (Some 2003%Q)); ("MO"%string, (Some 12%Q)); ("DY"%string, (Some 6%Q)); ("HR"%string, (Some 0%Q)); ("LAT"%string, (Some 0%Q)); ("LON"%string, (Some 0%Q)); ("SST"%string, (Some 5%Q))]); (new_report (Some "AAAAAAAAA"%string) None [("YR"%string, (Some 2003%Q)); ("MO"%string, (Some 12%Q)); ("DY"%string, (Some 7%Q)); ("HR"%string, (Some 12%Q)); ("LAT"%string, (Some 0%Q)); ("LON"%string, (Some 0%Q)); ("SST"%string, (Some 5%Q))]); (new_report (Some "AAAAAAAAA"%string) None [("YR"%string, (Some 2003%Q)); ("MO"%string, (Some 12%Q)); ("DY"%string, (Some 9%Q)); ("HR"%string, (Some 0%Q)); ("LAT"%string, (Some 0%Q)); ("LON"%string, (Some 0%Q)); ("SST"%string, (Some 5%Q))]); (new_report (Some "AAAAAAAAA"%string) None [("YR"%string, (Some 2003%Q)); ("MO"%string, (Some 12%Q)); ("DY"%string, (Some 10%Q)); ("HR"%string, (Some 12%Q)); ("LAT"%string, (Some 0%Q)); ("LON"%string, (Some 0%Q)); ("SST"%string, (Some 5%Q))])]) (new_aground_check earth 3 1)) in
  all [flags x1 "POS"%string "drf_agr"%string [1; 1; 1; 1; 1; 1; 1]]).
Example TestTrackQC_aground_check_test_new_stationary_mid_freq_sampling_is : TestTrackQC_aground_check_test_new_stationary_mid_freq_sampling = true.
Proof. reflexivity. Qed.
Definition TestTrackQC_aground_check_test_new_stationary_low_to_mid_freq_sampling : bool := Eval vm_compute in (let x1 := (on (voyage_of [] [(new_report (Some "AAAAAAAAA"%string) None [("YR"%string, (Some 2003%Q)); ("MO"%string, (Some 12%Q)); ("DY"%string, (Some 1%Q)); ("HR"%string, (Some 12%Q)); ("LAT"%string, (Some 0%Q)); ("LON"%string, (Some 0%Q)); ("SST"%string, (Some 5%Q))]); (new_report (Some "AAAAAAAAA"%string) None [("YR"%string, (Some 2003%Q)); ("MO"%string, (Some 12%Q)); ("DY"%string, (Some 4%Q)); ("HR"%string, (Some 12%Q)); ("LAT"%string, (Some 0%Q)); ("LON"%string, (Some 0%Q)); ("SST"%string, (Some 5%Q))]); (new_report (Some "AAAAAAAAA"%string) None [("YR"%string, (Some 2003%Q)); ("MO"%string, (Some 12%Q)); ("DY"%string, (Some 7%Q)); ("HR"%string, (Some 12%Q)); ("LAT"%string, (Some 0%Q)); ("LON"%string, (Some 0%Q)); ("SST"%string, (Some 5%Q))]); (new_report (Some "AAAAAAAAA"%string) None [("YR"%string, (Some 2003%Q)); ("MO"%string, (Some 12%Q)); ("DY"%string, (Some 8%Q)); ("HR"%string, (Some 12%Q)); ("LAT"%string, (Some 0%Q)); ("LON"%string, (Some 0%Q)); ("SST"%string, (Some 5%Q))]); (new_report (Some "AAAAAAAAA"%string) None [("YR"%string, (Some 2003%Q)); ("MO"%string, (Some 12%Q)); ("DY"%string, (Some 9%Q)); ("HR"%string, (Some 12%Q)); ("LAT"%string, (Some 0%Q)); ("LON"%string, (Some 0%Q)); ("SST"%string, (Some 5%Q))]); (new_report (Some "AAAAAAAAA"%string) None [("YR"%string, (Some 2003%Q)); ("MO"%string, (Some 12%Q)); ("DY"%string, (Some 10%Q)); ("HR"%string, (Some 12%Q)); ("LAT"%string, (Some 0%Q)); ("LON"%string, (Some 0%Q)); ("SST"%string, (Some 5%Q))]); (new_report (Some "AAAAAAAAA"%string) None [("YR"%string, (Some 2003%Q)); ("MO"%string, (Some 12%Q)); ("DY"%string, (Some 11%Q)); ("HR"%string, (Some 12%Q)); ("LAT"%string, (Some 0%Q)); ("LON"%string, (Some 0%Q)); ("SST"%string, (Some 5%Q))])]) (new_aground_check earth 3 1)) in
  all [flags x1 "POS"%string "drf_agr"%string [1; 1; 1; 1; 1; 1; 1]]).
Example TestTrackQC_aground_check_test_new_stationary_low_to_mid_freq_sampling_is : TestTrackQC_aground_check_test_new_stationary_low_to_mid_freq_sampling = true.
Proof. reflexivity. Qed.
Definition TestTrackQC_aground_check_test_new_moving_slowly_northwest : bool := Eval vm_compute in (let x1 := (on (voyage_of [] [(new_report (Some "AAAAAAAAA"%string) None [("YR"%string, (Some 2003%Q)); ("MO"%string, (Some 12%Q)); ("DY"%string, (Some 1%Q)); ("HR"%string, (Some 12%Q)); ("LAT"%string, (Some 0%Q)); ("LON"%string, (Some 0%Q)); ("SST"%string, (Some 5%Q))]); (new_report (Some "AAAAAAAAA"%string) None [("YR"%string, (Some 2003%Q)); ("MO"%string, (Some 12%Q)); ("DY"%string, (Some 2%Q)); ("HR"%string, (Some 12%Q)); ("LAT"%string, (Some (1 # 200)%Q)); ("LON"%string, (Some (-1 # 200)%Q)); ("SST"%string, (Some 5%Q))]); (new_report (Some "AAAAAAAAA"%string) None [("YR"%string, (Some 2003%Q)); ("MO"%string, (Some 12%Q)); ("DY"%string, (Some 3%Q)); ("HR"%string, (Some 12%Q)); ("LAT"%string, (Some (1 # 100)%Q)); ("LON"%string, (Some (-1 # 100)%Q)); ("SST"%string, (Some 5%Q))]); (new_report (Some "AAAAAAAAA"%string) None [("YR"%string, (Some 2003%Q)); ("MO"%string, (Some 12%Q)); ("DY"%string, (Some 4%Q)); ("HR"%string, (Some 12%Q)); ("LAT"%string, (Some (3 # 200)%Q)); ("LON"%string, (Some (-3 # 200)%Q)); ("SST"%string, (Some 5%Q))]); (new_report (Some "AAAAAAAAA"%string) None [("YR"%string, (Some 2003%Q)); ("MO"%string, (Some 12%Q)); ("DY"%string, (Some 5%Q)); ("HR"%string, (Some 12%Q)); ("LAT"%string, (Some (1 # 50)%Q)); ("LON"%string, (Some (-1 # 50)%Q)); ("SST"%string, (Some 5%Q))]); (new_report (Some "AAAAAAAAA"%string) None [("YR"%string, (Some 2003%Q)); ("MO"%string, (Some 12%Q)); ("DY"%string, (Some 6%Q)); ("HR"%string, (Some 12%Q)); ("LAT"%string, (Some (1 # 40)%Q)); ("LON"%string, (Some (-1 # 40)%Q)); ("SST"%string, (Some 5%Q))]); (new_report (Some "AAAAAAAAA"%string) None [("YR"%string, (Some 2003%Q)); ("MO"%string, (Some 12%Q)); ("DY"%string, (Some 7%Q)); ("HR"%string, (Some 12%Q)); ("LAT"%string, (Some (3 # 100)%Q)); ("LON"%string, (Some (-3 # 100)%Q)); ("SST"%string, (Some 5%Q))])]) (new_aground_check earth 3 1)) in
  all [flags x1 "POS"%string "drf_agr"%string [0; 0; 0; 1; 1; 1; 1]]).
Example TestTrackQC_aground_check_test_new_moving_slowly_northwest_is : TestTrackQC_aground_check_test_new_moving_slowly_northwest = true.
Proof. reflexivity. Qed.
Definition TestTrackQC_aground_check_test_new_moving_slowly_west_in_arctic : bool := Eval vm_compute in (let x1 := (on (voyage_of [] [(new_report (Some "AAAAAAAAA"%string) None [("YR"%string, (Some 2003%Q)); ("MO"%string, (Some 12%Q)); ("DY"%string, (Some 1%Q)); ("HR"%string, (Some 12%Q)); ("LAT"%string, (Some 85%Q)); ("LON"%string, (Some 0%Q)); ("SST"%string, (Some 5%Q))]); (new_report (Some "AAAAAAAAA"%string) None [("YR"%string, (Some 2003%Q)); ("MO"%string, (Some 12%Q)); ("DY"%string, (Some 2%Q)); ("HR"%string, (Some 12%Q)); ("LAT"%string, (Some 85%Q)); ("LON"%string, (Some (-1 # 50)%Q)); ("SST"%string, (Some 5%Q))]); (new_report (Some "AAAAAAAAA"%string) None [("YR"%string, (Some 2003%Q)); ("MO"%string, (Some 12%Q)); ("DY"%string, (Some 3%Q)); ("HR"%string, (Some 12%Q)); ("LAT"%string, (Some 85%Q)); ("LON"%string, (Some (-1 # 25)%Q)); ("SST"%string, (Some 5%Q))]); (new_report (Some "AAAAAAAAA"%string) None [("YR"%string, (Some 2003%Q)); ("MO"%string, (Some 12%Q)); ("DY"%string, (Some 4%Q)); ("HR"%string, (Some 12%Q)); ("LAT"%string, (Some 85%Q)); ("LON"%string, (Some (-3 # 50)%Q)); ("SST"%string, (Some 5%Q))]); (new_report (Some "AAAAAAAAA"%string) None [("YR"%string, (Some 2003%Q)); ("MO"%string, (Some 12%Q)); ("DY"%string, (Some 5%Q)); ("HR"%string, (Some 12%Q)); ("LAT"%string, (Some 85%Q)); ("LON"%string, (Some (-2 # 25)%Q)); ("SST"%string, (Some 5%Q))]); (new_report (Some "AAAAAAAAA"%string) None [("YR"%string, (Some 2003%Q)); ("MO"%string, (Some 12%Q)); ("DY"%string, (Some 6%Q)); ("HR"%string, (Some 12%Q)); ("LAT"%string, (Some 85%Q)); ("LON"%string, (Some (-1 # 10)%Q)); ("SST"%string, (Some 5%Q))]); (new_report (Some "AAAAAAAAA"%string) None [("YR"%string, (Some 2003%Q)); ("MO"%string, (Some 12%Q)); ("DY"%string, (Some 7%Q)); ("HR"%string, (Some 12%Q)); ("LAT"%string, (Some 85%Q)); ("LON"%string, (Some (-3 # 25)%Q)); ("SST"%string, (Some 5%Q))])]) (new_aground_check earth 3 1)) in
  all [flags x1 "POS"%string "drf_agr"%string [1; 1; 1; 1; 1; 1; 1]]).
Example TestTrackQC_aground_check_test_new_moving_slowly_west_in_arctic_is : TestTrackQC_aground_check_test_new_moving_slowly_west_in_arctic = true.
Proof. reflexivity. Qed.
Definition TestTrackQC_aground_check_test_new_stop_then_moving_north : bool := Eval vm_compute in (let x1 := (on (voyage_of [] [(new_report (Some "AAAAAAAAA"%string) None [("YR"%string, (Some 2003%Q)); ("MO"%string, (Some 12%Q)); ("DY"%string, (Some 1%Q)); ("HR"%string, (Some 12%Q)); ("LAT"%string, (Some 0%Q)); ("LON"%string, (Some 0%Q)); ("SST"%string, (Some 5%Q))]); (new_report (Some "AAAAAAAAA"%string) None [("YR"%string, (Some 2003%Q)); ("MO"%string, (Some 12%Q)); ("DY"%string, (Some 2%Q)); ("HR"%string, (Some 12%Q)); ("LAT"%string, (Some 0%Q)); ("LON"%string, (Some 0%Q)); ("SST"%string, (Some 5%Q))]); (new_report (Some "AAAAAAAAA"%string) None [("YR"%string, (Some 2003%Q)); ("MO"%string, (Some 12%Q)); ("DY"%string, (Some 3%Q)); ("HR"%string, (Some 12%Q)); ("LAT"%string, (Some 0%Q)); ("LON"%string, (Some 0%Q)); ("SST"%string, (Some 5%Q))]); (new_report (Some "AAAAAAAAA"%string) None [("YR"%string, (Some 2003%Q)); ("MO"%string, (Some 12%Q)); ("DY"%string, (Some 4%Q)); ("HR"%string, (Some 12%Q)); ("LAT"%string, (Some 0%Q)); ("LON"%string, (Some 0%Q)); ("SST"%string, (Some 5%Q))]); (new_report (Some "AAAAAAAAA"%string) None [("YR"%string, (Some 2003%Q)); ("MO"%string, (Some 12%Q)); ("DY"%string, (Some 5%Q)); ("HR"%string, (Some 12%Q)); ("LAT"%string, (Some (1 # 50)%Q)); ("LON"%string, (Some 0%Q)); ("SST"%string, (Some 5%Q))]); (new_report (Some "AAAAAAAAA"%string) None [("YR"%string, (Some 2003%Q)); ("MO"%string, (Some 12%Q)); ("DY"%string, (Some 6%Q)); ("HR"%string, (Some 12%Q)); ("LAT"%string, (Some (1 # 25)%Q)); ("LON"%string, (Some 0%Q)); ("SST"%string, (Some 5%Q))]); (new_report (Some "AAAAAAAAA"%string) None [("YR"%string, (Some 2003%Q)); ("MO"%string, (Some 12%Q)); ("DY"%string, (Some 7%Q)); ("HR"%string, (Some 12%Q)); ("LAT"%string, (Some (3 # 50)%Q)); ("LON"%string, (Some 0%Q)); ("SST"%string, (Some 5%Q))])]) (new_aground_check earth 3 1)) in
  all [flags x1 "POS"%string "drf_agr"%string [0; 0; 0; 0; 0; 0; 0]]).
Example TestTrackQC_aground_check_test_new_stop_then_moving_north_is : TestTrackQC_aground_check_test_new_stop_then_moving_north = true.
Proof. reflexivity. Qed.
Definition TestTrackQC_aground_check_test_new_too_short_for_qc : bool := Eval vm_compute in (let x1 := (on (voyage_of [] [(new_report (Some "AAAAAAAAA"%string) None [("YR"%string, (Some 2003%Q)); ("MO"%string, (Some 12%Q)); ("DY"%string, (Some 1%Q)); ("HR"%string, (Some 12%Q)); ("LAT"%string, (Some 0%Q)); ("LON"%string, (Some 0%Q)); ("SST"%string, (Some 5%Q))]); (new_report (Some "AAAAAAAAA"%string) None [("YR"%string, (Some 2003%Q)); ("MO"%string, (Some 12%Q)); ("DY"%string, (Some 2%Q)); ("HR"%string, (Some 12%Q)); ("LAT"%string, (Some 0%Q)); ("LON"%string, (Some (-1 # 50)%Q)); ("SST"%string, (Some 5%Q))])]) (new_aground_check earth 3 1)) in
  all [flags x1 "POS"%string "drf_agr"%string [0; 0]]).
Example TestTrackQC_aground_check_test_new_too_short_for_qc_is : TestTrackQC_aground_check_test_new_too_short_for_qc = true.
Proof. reflexivity. Qed.
Definition TestTrackQC_aground_check_test_new_error_bad_input_parameter : bool := Eval vm_compute in (all [asserts (rs (fun _ => VNone) (on (voyage_of [] [(new_report (Some "AAAAAAAAA"%string) None [("YR"%string, (Some 2003%Q)); ("MO"%string, (Some 12%Q)); ("DY"%string, (Some 1%Q)); ("HR"%string, (Some 12%Q)); ("LAT"%string, (Some 0%Q)); ("LON"%string, (Some 0%Q)); ("SST"%string, (Some 5%Q))]); (new_report (Some "AAAAAAAAA"%string) None [("YR"%string, (Some 2003%Q)); ("MO"%string, (Some 12%Q)); ("DY"%string, (Some 2%Q)); ("HR"%string, (Some 12%Q)); ("LAT"%string, (Some 0%Q)); ("LON"%string, (Some (-1 # 50)%Q)); ("SST"%string, (Some 5%Q))]); (new_report (Some "AAAAAAAAA"%string) None [("YR"%string, (Some 2003%Q)); ("MO"%string, (Some 12%Q)); ("DY"%string, (Some 3%Q)); ("HR"%string, (Some 12%Q)); ("LAT"%string, (Some 0%Q)); ("LON"%string, (Some (-1 # 25)%Q)); ("SST"%string, (Some 5%Q))]); (new_report (Some "AAAAAAAAA"%string) None [("YR"%string, (Some 2003%Q)); ("MO"%string, (Some 12%Q)); ("DY"%string, (Some 4%Q)); ("HR"%string, (Some 12%Q)); ("LAT"%string, (Some 0%Q)); ("LON"%string, (Some (-3 # 50)%Q)); ("SST"%string, (Some 5%Q))]); (new_report (Some "AAAAAAAAA"%string) None [("YR"%string, (Some 2003%Q)); ("MO"%string, (Some 12%Q)); ("DY"%string, (Some 5%Q)); ("HR"%string, (Some 12%Q)); ("LAT"%string, (Some 0%Q)); ("LON"%string, (Some (-2 # 25)%Q)); ("SST"%string, (Some 5%Q))]); (new_report (Some "AAAAAAAAA"%string) None [("YR"%string, (Some 2003%Q)); ("MO"%string, (Some 12%Q)); ("DY"%string, (Some 6%Q)); ("HR"%string, (Some 12%Q)); ("LAT"%string, (Some 0%Q)); ("LON"%string, (Some (-1 # 10)%Q)); ("SST"%string, (Some 5%Q))]); (new_report (Some "AAAAAAAAA"%string) None [("YR"%string, (Some 2003%Q)); ("MO"%string, (Some 12%Q)); ("DY"%string, (Some 7%Q)); ("HR"%string, (Some 12%Q)); ("LAT"%string, (Some 0%Q)); ("LON"%string, (Some (-3 # 25)%Q)); ("SST"%string, (Some 5%Q))])]) (new_aground_check earth 2 1)))]).
Example TestTrackQC_aground_check_test_new_error_bad_input_parameter_is : TestTrackQC_aground_check_test_new_error_bad_input_parameter = true.
Proof. reflexivity. Qed.
Definition TestTrackQC_aground_check_test_new_error_missing_observation : bool := Eval vm_compute in (all [asserts (rs (fun _ => VNone) (on (on (voyage_of [] [(new_report (Some "AAAAAAAAA"%string) None [("YR"%string, (Some 2003%Q)); ("MO"%string, (Some 12%Q)); ("DY"%string, (Some 1%Q)); ("HR"%string, (Some 12%Q)); ("LAT"%string, (Some 0%Q)); ("LON"%string, (Some 0%Q)); ("SST"%string, (Some 5%Q))]); (new_report (Some "AAAAAAAAA"%string) None [("YR"%string, (Some 2003%Q)); ("MO"%string, (Some 12%Q)); ("DY"%string, (Some 2%Q)); ("HR"%string, (Some 12%Q)); ("LAT"%string, (Some 0%Q)); ("LON"%string, (Some (-1 # 50)%Q)); ("SST"%string, (Some 5%Q))]); (new_report (Some "AAAAAAAAA"%string) None [("YR"%string, (Some 2003%Q)); ("MO"%string, (Some 12%Q)); ("DY"%string, (Some 3%Q)); ("HR"%string, (Some 12%Q)); ("LAT"%string, (Some 0%Q)); ("LON"%string, (Some (-1 # 25)%Q)); ("SST"%string, (Some 5%Q))]); (new_report (Some "AAAAAAAAA"%string) None [("YR"%string, (Some 2003%Q)); ("MO"%string, (Some 12%Q)); ("DY"%string, (Some 4%Q)); ("HR"%string, (Some 12%Q)); ("LAT"%string, (Some 0%Q)); ("LON"%string, (Some (-3 # 50)%Q)); ("SST"%string, (Some 5%Q))]); (new_report (Some "AAAAAAAAA"%string) None [("YR"%string, (Some 2003%Q)); ("MO"%string, (Some 12%Q)); ("DY"%string, (Some 5%Q)); ("HR"%string, (Some 12%Q)); ("LAT"%string, (Some 0%Q)); ("LON"%string, (Some (-2 # 25)%Q)); ("SST"%string, (Some 5%Q))]); (new_report (Some "AAAAAAAAA"%string) None [("YR"%string, (Some 2003%Q)); ("MO"%string, (Some 12%Q)); ("DY"%string, (Some 6%Q)); ("HR"%string, (Some 12%Q)); ("LAT"%string, (Some 0%Q)); ("LON"%string, (Some (-1 # 10)%Q)); ("SST"%string, (Some 5%Q))]); (new_report (Some "AAAAAAAAA"%string) None [("YR"%string, (Some 2003%Q)); ("MO"%string, (Some 12%Q)); ("DY"%string, (Some 7%Q)); ("HR"%string, (Some 12%Q)); ("LAT"%string, (Some 0%Q)); ("LON"%string, (Some (-3 # 25)%Q)); ("SST"%string, (Some 5%Q))])]) (fun v => setvar_at v 1 "LON"%string None)) (new_aground_check earth 3 1)))]).
Example TestTrackQC_aground_check_test_new_error_missing_observation_is : TestTrackQC_aground_check_test_new_error_missing_observation = true.
Proof. reflexivity. Qed.
Definition TestTrackQC_aground_check_test_new_error_not_time_sorted : bool := Eval vm_compute in (all [asserts (rs (fun _ => VNone) (on (voyage_of [] [(new_report (Some "AAAAAAAAA"%string) None [("YR"%string, (Some 2003%Q)); ("MO"%string, (Some 12%Q)); ("DY"%string, (Some 1%Q)); ("HR"%string, (Some 12%Q)); ("LAT"%string, (Some 0%Q)); ("LON"%string, (Some 0%Q)); ("SST"%string, (Some 5%Q))]); (new_report (Some "AAAAAAAAA"%string) None [("YR"%string, (Some 2003%Q)); ("MO"%string, (Some 12%Q)); ("DY"%string, (Some 2%Q)); ("HR"%string, (Some 12%Q)); ("LAT"%string, (Some 0%Q)); ("LON"%string, (Some (-1 # 50)%Q)); ("SST"%string, (Some 5%Q))]); (new_report (Some "AAAAAAAAA"%string) None [("YR"%string, (Some 2003%Q)); ("MO"%string, (Some 12%Q)); ("DY"%string, (Some 3%Q)); ("HR"%string, (Some 12%Q)); ("LAT"%string, (Some 0%Q)); ("LON"%string, (Some (-1 # 25)%Q)); ("SST"%string, (Some 5%Q))]); (new_report (Some "AAAAAAAAA"%string) None [("YR"%string, (Some 2003%Q)); ("MO"%string, (Some 12%Q)); ("DY"%string, (Some 2%Q)); ("HR"%string, (Some 12%Q)); ("LAT"%string, (Some 0%Q)); ("LON"%string, (Some (-3 # 50)%Q)); ("SST"%string, (Some 5%Q))]); (new_report (Some "AAAAAAAAA"%string) None [("YR"%string, (Some 2003%Q)); ("MO"%string, (Some 12%Q)); ("DY"%string, (Some 5%Q)); ("HR"%string, (Some 12%Q)); ("LAT"%string, (Some 0%Q)); ("LON"%string, (Some (-2 # 25)%Q)); ("SST"%string, (Some 5%Q))]); (new_report (Some "AAAAAAAAA"%string) None [("YR"%string, (Some 2003%Q)); ("MO"%string, (Some 12%Q)); ("DY"%string, (Some 6%Q)); ("HR"%string, (Some 12%Q)); ("LAT"%string, (Some 0%Q)); ("LON"%string, (Some (-1 # 10)%Q)); ("SST"%string, (Some 5%Q))]); (new_report (Some "AAAAAAAAA"%string) None [("YR"%string, (Some 2003%Q)); ("MO"%string, (Some 12%Q)); ("DY"%string, (Some 7%Q)); ("HR"%string, (Some 12%Q)); ("LAT"%string, (Some 0%Q)); ("LON"%string, (Some (-3 # 25)%Q)); ("SST"%string, (Some 5%Q))])]) (new_aground_check earth 3 1)))]).
Example TestTrackQC_aground_check_test_new_error_not_time_sorted_is : TestTrackQC_aground_check_test_new_error_not_time_sorted = true.
Proof. reflexivity. Qed.
Definition TestTrackQC_speed_check_test_stationary : bool := Eval vm_compute in (let x1 := (on (voyage_of [] [(new_report (Some "AAAAAAAAA"%string) None [("YR"%string, (Some 2003%Q)); ("MO"%string, (Some 12%Q)); ("DY"%string, (Some 1%Q)); ("HR"%string, (Some 12%Q)); ("LAT"%string, (Some 0%Q)); ("LON"%string, (Some 0%Q)); ("SST"%string, (Some 5%Q)); ("PT"%string, (Some 7%Q))]); (new_report (Some "AAAAAAAAA"%string) None [("YR"%string, (Some 2003%Q)); ("MO"%string, (Some 12%Q)); ("DY"%string, (Some 2%Q)); ("HR"%string, (Some 12%Q)); ("LAT"%string, (Some 0%Q)); ("LON"%string, (Some 0%Q)); ("SST"%string, (Some 5%Q)); ("PT"%string, (Some 7%Q))]); (new_report (Some "AAAAAAAAA"%string) None [("YR"%string, (Some 2003%Q)); ("MO"%string, (Some 12%Q)); ("DY"%string, (Some 3%Q)); ("HR"%string, (Some 12%Q)); ("LAT"%string, (Some 0%Q)); ("LON"%string, (Some 0%Q)); ("SST"%string, (Some 5%Q)); ("PT"%string, (Some 7%Q))]); (new_report (Some "AAAAAAAAA"%string) None [("YR"%string, (Some 2003%Q)); ("MO"%string, (Some 12%Q)); ("DY"%string, (Some 4%Q)); ("HR"%string, (Some 12%Q)); ("LAT"%string, (Some 0%Q)); ("LON"%string, (Some 0%Q)); ("SST"%string, (Some 5%Q)); ("PT"%string, (Some 7%Q))]); (new_report (Some "AAAAAAAAA"%string) None [("YR"%string, (Some 2003%Q)); ("MO"%string, (Some 12%Q)); ("DY"%string, (Some 5%Q)); ("HR"%string, (Some 12%Q)); ("LAT"%string, (Some 0%Q)); ("LON"%string, (Some 0%Q)); ("SST"%string, (Some 5%Q)); ("PT"%string, (Some 7%Q))]); (new_report (Some "AAAAAAAAA"%string) None [("YR"%string, (Some 2003%Q)); ("MO"%string, (Some 12%Q)); ("DY"%string, (Some 6%Q)); ("HR"%string, (Some 12%Q)); ("LAT"%string, (Some 0%Q)); ("LON"%string, (Some 0%Q)); ("SST"%string, (Some 5%Q)); ("PT"%string, (Some 7%Q))]); (new_report (Some "AAAAAAAAA"%string) None [("YR"%string, (Some 2003%Q)); ("MO"%string, (Some 12%Q)); ("DY"%string, (Some 7%Q)); ("HR"%string, (Some 12%Q)); ("LAT"%string, (Some 0%Q)); ("LON"%string, (Some 0%Q)); ("SST"%string, (Some 5%Q)); ("PT"%string, (Some 7%Q))])]) (speed_check earth (5 # 2) (1 # 2) 1)) in
  all [flags x1 "POS"%string "drf_spd"%string [0; 0; 0; 0; 0; 0; 0]]).
Example TestTrackQC_speed_check_test_stationary_is : TestTrackQC_speed_check_test_stationary = true.
Proof. reflexivity. Qed.
Definition TestTrackQC_speed_check_test_fast_drifter : bool := Eval vm_compute in (let x1 := (on (voyage_of [] [(new_report (Some "AAAAAAAAA"%string) None [("YR"%string, (Some 2003%Q)); ("MO"%string, (Some 12%Q)); ("DY"%string, (Some 1%Q)); ("HR"%string, (Some 12%Q)); ("LAT"%string, (Some 0%Q)); ("LON"%string, (Some 0%Q)); ("SST"%string, (Some 5%Q)); ("PT"%string, (Some 7%Q))]); (new_report (Some "AAAAAAAAA"%string) None [("YR"%string, (Some 2003%Q)); ("MO"%string, (Some 12%Q)); ("DY"%string, (Some 2%Q)); ("HR"%string, (Some 12%Q)); ("LAT"%string, (Some 3%Q)); ("LON"%string, (Some 0%Q)); ("SST"%string, (Some 5%Q)); ("PT"%string, (Some 7%Q))]); (new_report (Some "AAAAAAAAA"%string) None [("YR"%string, (Some 2003%Q)); ("MO"%string, (Some 12%Q)); ("DY"%string, (Some 3%Q)); ("HR"%string, (Some 12%Q)); ("LAT"%string, (Some 6%Q)); ("LON"%string, (Some 0%Q)); ("SST"%string, (Some 5%Q)); ("PT"%string, (Some 7%Q))]); (new_report (Some "AAAAAAAAA"%string) None [("YR"%string, (Some 2003%Q)); ("MO"%string, (Some 12%Q)); ("DY"%string, (Some 4%Q)); ("HR"%string, (Some 12%Q)); ("LAT"%string, (Some 9%Q)); ("LON"%string, (Some 0%Q)); ("SST"%string, (Some 5%Q)); ("PT"%string, (Some 7%Q))]); (new_report (Some "AAAAAAAAA"%string) None [("YR"%string, (Some 2003%Q)); ("MO"%string, (Some 12%Q)); ("DY"%string, (Some 5%Q)); ("HR"%string, (Some 12%Q)); ("LAT"%string, (Some 12%Q)); ("LON"%string, (Some 0%Q)); ("SST"%string, (Some 5%Q)); ("PT"%string, (Some 7%Q))]); (new_report (Some "AAAAAAAAA"%string) None [("YR"%string, (Some 2003%Q)); ("MO"%string, (Some 12%Q)); ("DY"%string, (Some 6%Q)); ("HR"%string, (Some 12%Q)); ("LAT"%string, (Some 15%Q)); ("LON"%string, (Some 0%Q)); ("SST"%string, (Some 5%Q)); ("PT"%string, (Some 7%Q))]); (new_report (Some "AAAAAAAAA"%string) None [("YR"%string, (Some 2003%Q)); ("MO"%string, (Some 12%Q)); ("DY"%string, (Some 7%Q)); ("HR"%string, (Some 12%Q)); ("LAT"%string, (Some 18%Q)); ("LON"%string, (Some 0%Q)); ("SST"%string, (Some 5%Q)); ("PT"%string, (Some 7%Q))])]) (speed_check earth (5 # 2) (1 # 2) 1)) in
  all [flags x1 "POS"%string "drf_spd"%string [1; 1; 1; 1; 1; 1; 1]]).
Example TestTrackQC_speed_check_test_fast_drifter_is : TestTrackQC_speed_check_test_fast_drifter = true.
Proof. reflexivity. Qed.
Definition TestTrackQC_speed_check_test_slow_drifter : bool := Eval vm_compute in (let x1 := (on (voyage_of [] [(new_report (Some "AAAAAAAAA"%string) None [("YR"%string, (Some 2003%Q)); ("MO"%string, (Some 12%Q)); ("DY"%string, (Some 1%Q)); ("HR"%string, (Some 12%Q)); ("LAT"%string, (Some 0%Q)); ("LON"%string, (Some 0%Q)); ("SST"%string, (Some 5%Q)); ("PT"%string, (Some 7%Q))]); (new_report (Some "AAAAAAAAA"%string) None [("YR"%string, (Some 2003%Q)); ("MO"%string, (Some 12%Q)); ("DY"%string, (Some 2%Q)); ("HR"%string, (Some 12%Q)); ("LAT"%string, (Some 0%Q)); ("LON"%string, (Some 1%Q)); ("SST"%string, (Some 5%Q)); ("PT"%string, (Some 7%Q))]); (new_report (Some "AAAAAAAAA"%string) None [("YR"%string, (Some 2003%Q)); ("MO"%string, (Some 12%Q)); ("DY"%string, (Some 3%Q)); ("HR"%string, (Some 12%Q)); ("LAT"%string, (Some 0%Q)); ("LON"%string, (Some 2%Q)); ("SST"%string, (Some 5%Q)); ("PT"%string, (Some 7%Q))]); (new_report (Some "AAAAAAAAA"%string) None [("YR"%string, (Some 2003%Q)); ("MO"%string, (Some 12%Q)); ("DY"%string, (Some 4%Q)); ("HR"%string, (Some 12%Q)); ("LAT"%string, (Some 0%Q)); ("LON"%string, (Some 3%Q)); ("SST"%string, (Some 5%Q)); ("PT"%string, (Some 7%Q))]); (new_report (Some "AAAAAAAAA"%string) None [("YR"%string, (Some 2003%Q)); ("MO"%string, (Some 12%Q)); ("DY"%string, (Some 5%Q)); ("HR"%string, (Some 12%Q)); ("LAT"%string, (Some 0%Q)); ("LON"%string, (Some 4%Q)); ("SST"%string, (Some 5%Q)); ("PT"%string, (Some 7%Q))]); (new_report (Some "AAAAAAAAA"%string) None [("YR"%string, (Some 2003%Q)); ("MO"%string, (Some 12%Q)); ("DY"%string, (Some 6%Q)); ("HR"%string, (Some 12%Q)); ("LAT"%string, (Some 0%Q)); ("LON"%string, (Some 5%Q)); ("SST"%string, (Some 5%Q)); ("PT"%string, (Some 7%Q))]); (new_report (Some "AAAAAAAAA"%string) None [("YR"%string, (Some 2003%Q)); ("MO"%string, (Some 12%Q)); ("DY"%string, (Some 7%Q)); ("HR"%string, (Some 12%Q)); ("LAT"%string, (Some 0%Q)); ("LON"%string, (Some 6%Q)); ("SST"%string, (Some 5%Q)); ("PT"%string, (Some 7%Q))])]) (speed_check earth (5 # 2) (1 # 2) 1)) in
  all [flags x1 "POS"%string "drf_spd"%string [0; 0; 0; 0; 0; 0; 0]]).
Example TestTrackQC_speed_check_test_slow_drifter_is : TestTrackQC_speed_check_test_slow_drifter = true.
Proof. reflexivity. Qed.
Definition TestTrackQC_speed_check_test_slow_fast_slow_drifter : bool := Eval vm_compute in (let x1 := (on (voyage_of [] [(new_report (Some "AAAAAAAAA"%string) None [("YR"%string, (Some 2003%Q)); ("MO"%string, (Some 12%Q)); ("DY"%string, (Some 1%Q)); ("HR"%string, (Some 12%Q)); ("LAT"%string, (Some 0%Q)); ("LON"%string, (Some 0%Q)); ("SST"%string, (Some 5%Q)); ("PT"%string, (Some 7%Q))]); (new_report (Some "AAAAAAAAA"%string) None [("YR"%string, (Some 2003%Q)); ("MO"%string, (Some 12%Q)); ("DY"%string, (Some 2%Q)); ("HR"%string, (Some 12%Q)); ("LAT"%string, (Some 1%Q)); ("LON"%string, (Some 0%Q)); ("SST"%string, (Some 5%Q)); ("PT"%string, (Some 7%Q))]); (new_report (Some "AAAAAAAAA"%string) None [("YR"%string, (Some 2003%Q)); ("MO"%string, (Some 12%Q)); ("DY"%string, (Some 3%Q)); ("HR"%string, (Some 12%Q)); ("LAT"%string, (Some 2%Q)); ("LON"%string, (Some 0%Q)); ("SST"%string, (Some 5%Q)); ("PT"%string, (Some 7%Q))]); (new_report (Some "AAAAAAAAA"%string) None [("YR"%string, (Some 2003%Q)); ("MO"%string, (Some 12%Q)); ("DY"%string, (Some 4%Q)); ("HR"%string, (Some 12%Q)); ("LAT"%string, (Some 5%Q)); ("LON"%string, (Some 0%Q)); ("SST"%string, (Some 5%Q)); ("PT"%string, (Some 7%Q))]); (new_report (Some "AAAAAAAAA"%string) None [("YR"%string, (Some 2003%Q)); ("MO"%string, (Some 12%Q)); ("DY"%string, (Some 5%Q)); ("HR"%string, (Some 12%Q)); ("LAT"%string, (Some 8%Q)); ("LON"%string, (Some 0%Q)); ("SST"%string, (Some 5%Q)); ("PT"%string, (Some 7%Q))]); (new_report (Some "AAAAAAAAA"%string) None [("YR"%string, (Some 2003%Q)); ("MO"%string, (Some 12%Q)); ("DY"%string, (Some 6%Q)); ("HR"%string, (Some 12%Q)); ("LAT"%string, (Some 9%Q)); ("LON"%string, (Some 0%Q)); ("SST"%string, (Some 5%Q)); ("PT"%string, (Some 7%Q))]); (new_report (Some "AAAAAAAAA"%string) None [("YR"%string, (Some 2003%Q)); ("MO"%string, (Some 12%Q)); ("DY"%string, (Some 7%Q)); ("HR"%string, (Some 12%Q)); ("LAT"%string, (Some 10%Q)); ("LON"%string, (Some 0%Q)); ("SST"%string, (Some 5%Q)); ("PT"%string, (Some 7%Q))])]) (speed_check earth (5 # 2) (1 # 2) 1)) in
  all [flags x1 "POS"%string "drf_spd"%string [0; 0; 1; 1; 1; 0; 0]]).
Example TestTrackQC_speed_check_test_slow_fast_slow_drifter_is : TestTrackQC_speed_check_test_slow_fast_slow_drifter = true.
Proof. reflexivity. Qed.
Definition TestTrackQC_speed_check_test_high_freqency_sampling : bool := Eval vm_compute in (let x1 := (on (voyage_of [] [(new_report (Some "AAAAAAAAA"%string) None [("YR"%string, (Some 2003%Q)); ("MO"%string, (Some 12%Q)); ("DY"%string, (Some 1%Q)); ("HR"%string, (Some 0%Q)); ("LAT"%string, (Some 0%Q)); ("LON"%string, (Some 0%Q)); ("SST"%string, (Some 5%Q)); ("PT"%string, (Some 7%Q))]); (new_report (Some "AAAAAAAAA"%string) None [("YR"%string, (Some 2003%Q)); ("MO"%string, (Some 12%Q)); ("DY"%string, (Some 1%Q)); ("HR"%string, (Some 1%Q)); ("LAT"%string, (Some 3%Q)); ("LON"%string, (Some 0%Q)); ("SST"%string, (Some 5%Q)); ("PT"%string, (Some 7%Q))]); (new_report (Some "AAAAAAAAA"%string) None [("YR"%string, (Some 2003%Q)); ("MO"%string, (Some 12%Q)); ("DY"%string, (Some 1%Q)); ("HR"%string, (Some 2%Q)); ("LAT"%string, (Some 6%Q)); ("LON"%string, (Some 0%Q)); ("SST"%string, (Some 5%Q)); ("PT"%string, (Some 7%Q))]); (new_report (Some "AAAAAAAAA"%string) None [("YR"%string, (Some 2003%Q)); ("MO"%string, (Some 12%Q)); ("DY"%string, (Some 1%Q)); ("HR"%string, (Some 3%Q)); ("LAT"%string, (Some 9%Q)); ("LON"%string, (Some 0%Q)); ("SST"%string, (Some 5%Q)); ("PT"%string, (Some 7%Q))]); (new_report (Some "AAAAAAAAA"%string) None [("YR"%string, (Some 2003%Q)); ("MO"%string, (Some 12%Q)); ("DY"%string, (Some 1%Q)); ("HR"%string, (Some 4%Q)); ("LAT"%string, (Some 12%Q)); ("LON"%string, (Some 0%Q)); ("SST"%string, (Some 5%Q)); ("PT"%string, (Some 7%Q))]); (new_report (Some "AAAAAAAAA"%string) None [("YR"%string, (Some 2003%Q)); ("MO"%string, (Some 12%Q)); ("DY"%string, (Some 1%Q)); ("HR"%string, (Some 5%Q)); ("LAT"%string, (Some 15%Q)); ("LON"%string, (Some 0%Q)); ("SST"%string, (Some 5%Q)); ("PT"%string, (Some 7%Q))]); (new_report (Some "AAAAAAAAA"%string) None [("YR"%string, (Some 2003%Q)); ("MO"%string, (Some 12%Q)); ("DY"%string, (Some 1%Q)); ("HR"%string, (Some 6%Q)); ("LAT"%string, (Some 18%Q)); ("LON"%string, (Some 0%Q)); ("SST"%string, (Some 5%Q)); ("PT"%string, (Some 7%Q))])]) (speed_check earth (5 # 2) (1 # 2) 1)) in
  all [flags x1 "POS"%string "drf_spd"%string [0; 0; 0; 0; 0; 0; 0]]).
Example TestTrackQC_speed_check_test_high_freqency_sampling_is : TestTrackQC_speed_check_test_high_freqency_sampling = true.
Proof. reflexivity. Qed.
Definition TestTrackQC_speed_check_test_low_freqency_sampling : bool := Eval vm_compute in (let x1 := (on (voyage_of [] [(new_report (Some "AAAAAAAAA"%string) None [("YR"%string, (Some 2003%Q)); ("MO"%string, (Some 12%Q)); ("DY"%string, (Some 1%Q)); ("HR"%string, (Some 12%Q)); ("LAT"%string, (Some 0%Q)); ("LON"%string, (Some 0%Q)); ("SST"%string, (Some 5%Q)); ("PT"%string, (Some 7%Q))]); (new_report (Some "AAAAAAAAA"%string) None [("YR"%string, (Some 2003%Q)); ("MO"%string, (Some 12%Q)); ("DY"%string, (Some 2%Q)); ("HR"%string, (Some 13%Q)); ("LAT"%string, (Some 5%Q)); ("LON"%string, (Some 0%Q)); ("SST"%string, (Some 5%Q)); ("PT"%string, (Some 7%Q))]); (new_report (Some "AAAAAAAAA"%string) None [("YR"%string, (Some 2003%Q)); ("MO"%string, (Some 12%Q)); ("DY"%string, (Some 3%Q)); ("HR"%string, (Some 14%Q)); ("LAT"%string, (Some 10%Q)); ("LON"%string, (Some 0%Q)); ("SST"%string, (Some 5%Q)); ("PT"%string, (Some 7%Q))]); (new_report (Some "AAAAAAAAA"%string) None [("YR"%string, (Some 2003%Q)); ("MO"%string, (Some 12%Q)); ("DY"%string, (Some 4%Q)); ("HR"%string, (Some 15%Q)); ("LAT"%string, (Some 15%Q)); ("LON"%string, (Some 0%Q)); ("SST"%string, (Some 5%Q)); ("PT"%string, (Some 7%Q))]); (new_report (Some "AAAAAAAAA"%string) None [("YR"%string, (Some 2003%Q)); ("MO"%string, (Some 12%Q)); ("DY"%string, (Some 5%Q)); ("HR"%string, (Some 16%Q)); ("LAT"%string, (Some 20%Q)); ("LON"%string, (Some 0%Q)); ("SST"%string, (Some 5%Q)); ("PT"%string, (Some 7%Q))]); (new_report (Some "AAAAAAAAA"%string) None [("YR"%string, (Some 2003%Q)); ("MO"%string, (Some 12%Q)); ("DY"%string, (Some 6%Q)); ("HR"%string, (Some 17%Q)); ("LAT"%string, (Some 25%Q)); ("LON"%string, (Some 0%Q)); ("SST"%string, (Some 5%Q)); ("PT"%string, (Some 7%Q))]); (new_report (Some "AAAAAAAAA"%string) None [("YR"%string, (Some 2003%Q)); ("MO"%string, (Some 12%Q)); ("DY"%string, (Some 7%Q)); ("HR"%string, (Some 18%Q)); ("LAT"%string, (Some 30%Q)); ("LON"%string, (Some 0%Q)); ("SST"%string, (Some 5%Q)); ("PT"%string, (Some 7%Q))])]) (speed_check earth (5 # 2) (1 # 2) 1)) in
  all [flags x1 "POS"%string "drf_spd"%string [0; 0; 0; 0; 0; 0; 0]]).
Example TestTrackQC_speed_check_test_low_freqency_sampling_is : TestTrackQC_speed_check_test_low_freqency_sampling = true.
Proof. reflexivity. Qed.
Definition TestTrackQC_speed_check_test_slow_fast_slow_mid_freqency_sampling : bool := Eval vm_compute in (let x1 := (on (voyage_of [] [(new_report (Some "AAAAAAAAA"%string) None [("YR"%string, (Some 2003%Q)); ("MO"%string, (Some 12%Q)); ("DY"%string, (Some 1%Q)); ("HR"%string, (Some 0%Q)); ("LAT"%string, (Some 0%Q)); ("LON"%string, (Some 0%Q)); ("SST"%string, (Some 5%Q)); ("PT"%string, (Some 7%Q))]); (new_report (Some "AAAAAAAAA"%string) None [("YR"%string, (Some 2003%Q)); ("MO"%string, (Some 12%Q)); ("DY"%string, (Some 1%Q)); ("HR"%string, (Some 12%Q)); ("LAT"%string, (Some (1 # 2)%Q)); ("LON"%string, (Some 0%Q)); ("SST"%string, (Some 5%Q)); ("PT"%string, (Some 7%Q))]); (new_report (Some "AAAAAAAAA"%string) None [("YR"%string, (Some 2003%Q)); ("MO"%string, (Some 12%Q)); ("DY"%string, (Some 2%Q)); ("HR"%string, (Some 0%Q)); ("LAT"%string, (Some 1%Q)); ("LON"%string, (Some 0%Q)); ("SST"%string, (Some 5%Q)); ("PT"%string, (Some 7%Q))]); (new_report (Some "AAAAAAAAA"%string) None [("YR"%string, (Some 2003%Q)); ("MO"%string, (Some 12%Q)); ("DY"%string, (Some 2%Q)); ("HR"%string, (Some 12%Q)); ("LAT"%string, (Some (5 # 2)%Q)); ("LON"%string, (Some 0%Q)); ("SST"%string, (Some 5%Q)); ("PT"%string, (Some 7%Q))]); (new_report (Some "AAAAAAAAA"%string) None [("YR"%string, (Some 2003%Q)); ("MO"%string, (Some 12%Q)); ("DY"%string, (Some 3%Q)); ("HR"%string, (Some 0%Q)); ("LAT"%string, (Some 4%Q)); ("LON"%string, (Some 0%Q)); ("SST"%string, (Some 5%Q)); ("PT"%string, (Some 7%Q))]); (new_report (Some "AAAAAAAAA"%string) None [("YR"%string, (Some 2003%Q)); ("MO"%string, (Some 12%Q)); ("DY"%string, (Some 3%Q)); ("HR"%string, (Some 12%Q)); ("LAT"%string, (Some (9 # 2)%Q)); ("LON"%string, (Some 0%Q)); ("SST"%string, (Some 5%Q)); ("PT"%string, (Some 7%Q))]); (new_report (Some "AAAAAAAAA"%string) None [("YR"%string, (Some 2003%Q)); ("MO"%string, (Some 12%Q)); ("DY"%string, (Some 4%Q)); ("HR"%string, (Some 0%Q)); ("LAT"%string, (Some 5%Q)); ("LON"%string, (Some 0%Q)); ("SST"%string, (Some 5%Q)); ("PT"%string, (Some 7%Q))])]) (speed_check earth (5 # 2) (1 # 2) 1)) in
  all [flags x1 "POS"%string "drf_spd"%string [0; 1; 1; 1; 1; 1; 0]]).
Example TestTrackQC_speed_check_test_slow_fast_slow_mid_freqency_sampling_is : TestTrackQC_speed_check_test_slow_fast_slow_mid_freqency_sampling = true.
Proof. reflexivity. Qed.
Definition TestTrackQC_speed_check_test_irregular_sampling : bool := Eval vm_compute in (let x1 := (on (voyage_of [] [(new_report (Some "AAAAAAAAA"%string) None [("YR"%string, (Some 2003%Q)); ("MO"%string, (Some 12%Q)); ("DY"%string, (Some 1%Q)); ("HR"%string, (Some 12%Q)); ("LAT"%string, (Some 0%Q)); ("LON"%string, (Some 0%Q)); ("SST"%string, (Some 5%Q)); ("PT"%string, (Some 7%Q))]); (new_report (Some "AAAAAAAAA"%string) None [("YR"%string, (Some 2003%Q)); ("MO"%string, (Some 12%Q)); ("DY"%string, (Some 2%Q)); ("HR"%string, (Some 12%Q)); ("LAT"%string, (Some 3%Q)); ("LON"%string, (Some 0%Q)); ("SST"%string, (Some 5%Q)); ("PT"%string, (Some 7%Q))]); (new_report (Some "AAAAAAAAA"%string) None [("YR"%string, (Some 2003%Q)); ("MO"%string, (Some 12%Q)); ("DY"%string, (Some 4%Q)); ("HR"%string, (Some 12%Q)); ("LAT"%string, (Some 12%Q)); ("LON"%string, (Some 0%Q)); ("SST"%string, (Some 5%Q)); ("PT"%string, (Some 7%Q))]); (new_report (Some "AAAAAAAAA"%string) None [("YR"%string, (Some 2003%Q)); ("MO"%string, (Some 12%Q)); ("DY"%string, (Some 5%Q)); ("HR"%string, (Some 12%Q)); ("LAT"%string, (Some 12%Q)); ("LON"%string, (Some 0%Q)); ("SST"%string, (Some 5%Q)); ("PT"%string, (Some 7%Q))]); (new_report (Some "AAAAAAAAA"%string) None [("YR"%string, (Some 2003%Q)); ("MO"%string, (Some 12%Q)); ("DY"%string, (Some 5%Q)); ("HR"%string, (Some 23%Q)); ("LAT"%string, (Some 14%Q)); ("LON"%string, (Some 0%Q)); ("SST"%string, (Some 5%Q)); ("PT"%string, (Some 7%Q))]); (new_report (Some "AAAAAAAAA"%string) None [("YR"%string, (Some 2003%Q)); ("MO"%string, (Some 12%Q)); ("DY"%string, (Some 6%Q)); ("HR"%string, (Some 23%Q)); ("LAT"%string, (Some 14%Q)); ("LON"%string, (Some 0%Q)); ("SST"%string, (Some 5%Q)); ("PT"%string, (Some 7%Q))]); (new_report (Some "AAAAAAAAA"%string) None [("YR"%string, (Some 2003%Q)); ("MO"%string, (Some 12%Q)); ("DY"%string, (Some 7%Q)); ("HR"%string, (Some 23%Q)); ("LAT"%string, (Some 17%Q)); ("LON"%string, (Some 0%Q)); ("SST"%string, (Some 5%Q)); ("PT"%string, (Some 7%Q))])]) (speed_check earth (5 # 2) (1 # 2) 1)) in
  all [flags x1 "POS"%string "drf_spd"%string [1; 1; 0; 0; 0; 1; 1]]).
Example TestTrackQC_speed_check_test_irregular_sampling_is : TestTrackQC_speed_check_test_irregular_sampling = true.
Proof. reflexivity. Qed.
Definition TestTrackQC_speed_check_test_fast_arctic_drifter : bool := Eval vm_compute in (let x1 := (on (voyage_of [] [(new_report (Some "AAAAAAAAA"%string) None [("YR"%string, (Some 2003%Q)); ("MO"%string, (Some 12%Q)); ("DY"%string, (Some 1%Q)); ("HR"%string, (Some 12%Q)); ("LAT"%string, (Some 85%Q)); ("LON"%string, (Some 0%Q)); ("SST"%string, (Some 5%Q)); ("PT"%string, (Some 7%Q))]); (new_report (Some "AAAAAAAAA"%string) None [("YR"%string, (Some 2003%Q)); ("MO"%string, (Some 12%Q)); ("DY"%string, (Some 2%Q)); ("HR"%string, (Some 12%Q)); ("LAT"%string, (Some 85%Q)); ("LON"%string, (Some 30%Q)); ("SST"%string, (Some 5%Q)); ("PT"%string, (Some 7%Q))]); (new_report (Some "AAAAAAAAA"%string) None [("YR"%string, (Some 2003%Q)); ("MO"%string, (Some 12%Q)); ("DY"%string, (Some 3%Q)); ("HR"%string, (Some 12%Q)); ("LAT"%string, (Some 85%Q)); ("LON"%string, (Some 60%Q)); ("SST"%string, (Some 5%Q)); ("PT"%string, (Some 7%Q))]); (new_report (Some "AAAAAAAAA"%string) None [("YR"%string, (Some 2003%Q)); ("MO"%string, (Some 12%Q)); ("DY"%string, (Some 4%Q)); ("HR"%string, (Some 12%Q)); ("LAT"%string, (Some 85%Q)); ("LON"%string, (Some 90%Q)); ("SST"%string, (Some 5%Q)); ("PT"%string, (Some 7%Q))]); (new_report (Some "AAAAAAAAA"%string) None [("YR"%string, (Some 2003%Q)); ("MO"%string, (Some 12%Q)); ("DY"%string, (Some 5%Q)); ("HR"%string, (Some 12%Q)); ("LAT"%string, (Some 85%Q)); ("LON"%string, (Some 120%Q)); ("SST"%string, (Some 5%Q)); ("PT"%string, (Some 7%Q))]); (new_report (Some "AAAAAAAAA"%string) None [("YR"%string, (Some 2003%Q)); ("MO"%string, (Some 12%Q)); ("DY"%string, (Some 6%Q)); ("HR"%string, (Some 12%Q)); ("LAT"%string, (Some 85%Q)); ("LON"%string, (Some 150%Q)); ("SST"%string, (Some 5%Q)); ("PT"%string, (Some 7%Q))]); (new_report (Some "AAAAAAAAA"%string) None [("YR"%string, (Some 2003%Q)); ("MO"%string, (Some 12%Q)); ("DY"%string, (Some 7%Q)); ("HR"%string, (Some 12%Q)); ("LAT"%string, (Some 85%Q)); ("LON"%string, (Some 180%Q)); ("SST"%string, (Some 5%Q)); ("PT"%string, (Some 7%Q))])]) (speed_check earth (5 # 2) (1 # 2) 1)) in
  all [flags x1 "POS"%string "drf_spd"%string [1; 1; 1; 1; 1; 1; 1]]).
Example TestTrackQC_speed_check_test_fast_arctic_drifter_is : TestTrackQC_speed_check_test_fast_arctic_drifter = true.
Proof. reflexivity. Qed.
Definition TestTrackQC_speed_check_test_stationary_gross_error : bool := Eval vm_compute in (let x1 := (on (voyage_of [] [(new_report (Some "AAAAAAAAA"%string) None [("YR"%string, (Some 2003%Q)); ("MO"%string, (Some 12%Q)); ("DY"%string, (Some 1%Q)); ("HR"%string, (Some 12%Q)); ("LAT"%string, (Some 0%Q)); ("LON"%string, (Some 0%Q)); ("SST"%string, (Some 5%Q)); ("PT"%string, (Some 7%Q))]); (new_report (Some "AAAAAAAAA"%string) None [("YR"%string, (Some 2003%Q)); ("MO"%string, (Some 12%Q)); ("DY"%string, (Some 2%Q)); ("HR"%string, (Some 12%Q)); ("LAT"%string, (Some 0%Q)); ("LON"%string, (Some 0%Q)); ("SST"%string, (Some 5%Q)); ("PT"%string, (Some 7%Q))]); (new_report (Some "AAAAAAAAA"%string) None [("YR"%string, (Some 2003%Q)); ("MO"%string, (Some 12%Q)); ("DY"%string, (Some 3%Q)); ("HR"%string, (Some 12%Q)); ("LAT"%string, (Some 50%Q)); ("LON"%string, (Some 0%Q)); ("SST"%string, (Some 5%Q)); ("PT"%string, (Some 7%Q))]); (new_report (Some "AAAAAAAAA"%string) None [("YR"%string, (Some 2003%Q)); ("MO"%string, (Some 12%Q)); ("DY"%string, (Some 4%Q)); ("HR"%string, (Some 12%Q)); ("LAT"%string, (Some 0%Q)); ("LON"%string, (Some 0%Q)); ("SST"%string, (Some 5%Q)); ("PT"%string, (Some 7%Q))]); (new_report (Some "AAAAAAAAA"%string) None [("YR"%string, (Some 2003%Q)); ("MO"%string, (Some 12%Q)); ("DY"%string, (Some 5%Q)); ("HR"%string, (Some 12%Q)); ("LAT"%string, (Some 0%Q)); ("LON"%string, (Some 0%Q)); ("SST"%string, (Some 5%Q)); ("PT"%string, (Some 7%Q))]); (new_report (Some "AAAAAAAAA"%string) None [("YR"%string, (Some 2003%Q)); ("MO"%string, (Some 12%Q)); ("DY"%string, (Some 6%Q)); ("HR"%string, (Some 12%Q)); ("LAT"%string, (Some 50%Q)); ("LON"%string, (Some 0%Q)); ("SST"%string, (Some 5%Q)); ("PT"%string, (Some 7%Q))]); (new_report (Some "AAAAAAAAA"%string) None [("YR"%string, (Some 2003%Q)); ("MO"%string, (Some 12%Q)); ("DY"%string, (Some 7%Q)); ("HR"%string, (Some 12%Q)); ("LAT"%string, (Some 0%Q)); ("LON"%string, (Some 0%Q)); ("SST"%string, (Some 5%Q)); ("PT"%string, (Some 7%Q))])]) (speed_check earth (5 # 2) (1 # 2) 1)) in
  all [flags x1 "POS"%string "drf_spd"%string [0; 1; 1; 1; 1; 1; 1]]).
Example TestTrackQC_speed_check_test_stationary_gross_error_is : TestTrackQC_speed_check_test_stationary_gross_error = true.
Proof. reflexivity. Qed.
Definition TestTrackQC_speed_check_test_too_short_for_qc : bool := Eval vm_compute in (let x1 := (on (voyage_of [] [(new_report (Some "AAAAAAAAA"%string) None [("YR"%string, (Some 2003%Q)); ("MO"%string, (Some 12%Q)); ("DY"%string, (Some 1%Q)); ("HR"%string, (Some 12%Q)); ("LAT"%string, (Some 0%Q)); ("LON"%string, (Some 0%Q)); ("SST"%string, (Some 5%Q)); ("PT"%string, (Some 7%Q))]); (new_report (Some "AAAAAAAAA"%string) None [("YR"%string, (Some 2003%Q)); ("MO"%string, (Some 12%Q)); ("DY"%string, (Some 2%Q)); ("HR"%string, (Some 12%Q)); ("LAT"%string, (Some 0%Q)); ("LON"%string, (Some 0%Q)); ("SST"%string, (Some 5%Q)); ("PT"%string, (Some 7%Q))])]) (speed_check earth (5 # 2) (1 # 2) 1)) in
  all [flags x1 "POS"%string "drf_spd"%string [0; 0]]).
Example TestTrackQC_speed_check_test_too_short_for_qc_is : TestTrackQC_speed_check_test_too_short_for_qc = true.
Proof. reflexivity. Qed.
Definition TestTrackQC_speed_check_test_error_bad_input_parameter : bool := Eval vm_compute in (all [asserts (rs (fun _ => VNone) (on (voyage_of [] [(new_report (Some "AAAAAAAAA"%string) None [("YR"%string, (Some 2003%Q)); ("MO"%string, (Some 12%Q)); ("DY"%string, (Some 1%Q)); ("HR"%string, (Some 12%Q)); ("LAT"%string, (Some 0%Q)); ("LON"%string, (Some 0%Q)); ("SST"%string, (Some 5%Q)); ("PT"%string, (Some 7%Q))]); (new_report (Some "AAAAAAAAA"%string) None [("YR"%string, (Some 2003%Q)); ("MO"%string, (Some 12%Q)); ("DY"%string, (Some 2%Q)); ("HR"%string, (Some 12%Q)); ("LAT"%string, (Some 0%Q)); ("LON"%string, (Some 0%Q)); ("SST"%string, (Some 5%Q)); ("PT"%string, (Some 7%Q))]); (new_report (Some "AAAAAAAAA"%string) None [("YR"%string, (Some 2003%Q)); ("MO"%string, (Some 12%Q)); ("DY"%string, (Some 3%Q)); ("HR"%string, (Some 12%Q)); ("LAT"%string, (Some 0%Q)); ("LON"%string, (Some 0%Q)); ("SST"%string, (Some 5%Q)); ("PT"%string, (Some 7%Q))]); (new_report (Some "AAAAAAAAA"%string) None [("YR"%string, (Some 2003%Q)); ("MO"%string, (Some 12%Q)); ("DY"%string, (Some 4%Q)); ("HR"%string, (Some 12%Q)); ("LAT"%string, (Some 0%Q)); ("LON"%string, (Some 0%Q)); ("SST"%string, (Some 5%Q)); ("PT"%string, (Some 7%Q))]); (new_report (Some "AAAAAAAAA"%string) None [("YR"%string, (Some 2003%Q)); ("MO"%string, (Some 12%Q)); ("DY"%string, (Some 5%Q)); ("HR"%string, (Some 12%Q)); ("LAT"%string, (Some 0%Q)); ("LON"%string, (Some 0%Q)); ("SST"%string, (Some 5%Q)); ("PT"%string, (Some 7%Q))]); (new_report (Some "AAAAAAAAA"%string) None [("YR"%string, (Some 2003%Q)); ("MO"%string, (Some 12%Q)); ("DY"%string, (Some 6%Q)); ("HR"%string, (Some 12%Q)); ("LAT"%string, (Some 0%Q)); ("LON"%string, (Some 0%Q)); ("SST"%string, (Some 5%Q)); ("PT"%string, (Some 7%Q))]); (new_report (Some "AAAAAAAAA"%string) None [("YR"%string, (Some 2003%Q)); ("MO"%string, (Some 12%Q)); ("DY"%string, (Some 7%Q)); ("HR"%string, (Some 12%Q)); ("LAT"%string, (Some 0%Q)); ("LON"%string, (Some 0%Q)); ("SST"%string, (Some 5%Q)); ("PT"%string, (Some 7%Q))])]) (speed_check earth (-5 # 2) (1 # 2) 1)))]).
Example TestTrackQC_speed_check_test_error_bad_input_parameter_is : TestTrackQC_speed_check_test_error_bad_input_parameter = true.
Proof. reflexivity. Qed.
Definition TestTrackQC_speed_check_test_error_missing_observation : bool := Eval vm_compute in (all [asserts (rs (fun _ => VNone) (on (on (voyage_of [] [(new_report (Some "AAAAAAAAA"%string) None [("YR"%string, (Some 2003%Q)); ("MO"%string, (Some 12%Q)); ("DY"%string, (Some 1%Q)); ("HR"%string, (Some 12%Q)); ("LAT"%string, (Some 0%Q)); ("LON"%string, (Some 0%Q)); ("SST"%string, (Some 5%Q)); ("PT"%string, (Some 7%Q))]); (new_report (Some "AAAAAAAAA"%string) None [("YR"%string, (Some 2003%Q)); ("MO"%string, (Some 12%Q)); ("DY"%string, (Some 2%Q)); ("HR"%string, (Some 12%Q)); ("LAT"%string, (Some 0%Q)); ("LON"%string, (Some 0%Q)); ("SST"%string, (Some 5%Q)); ("PT"%string, (Some 7%Q))]); (new_report (Some "AAAAAAAAA"%string) None [("YR"%string, (Some 2003%Q)); ("MO"%string, (Some 12%Q)); ("DY"%string, (Some 3%Q)); ("HR"%string, (Some 12%Q)); ("LAT"%string, (Some 0%Q)); ("LON"%string, (Some 0%Q)); ("SST"%string, (Some 5%Q)); ("PT"%string, (Some 7%Q))]); (new_report (Some "AAAAAAAAA"%string) None [("YR"%string, (Some 2003%Q)); ("MO"%string, (Some 12%Q)); ("DY"%string, (Some 4%Q)); ("HR"%string, (Some 12%Q)); ("LAT"%string, (Some 0%Q)); ("LON"%string, (Some 0%Q)); ("SST"%string, (Some 5%Q)); ("PT"%string, (Some 7%Q))]); (new_report (Some "AAAAAAAAA"%string) None [("YR"%string, (Some 2003%Q)); ("MO"%string, (Some 12%Q)); ("DY"%string, (Some 5%Q)); ("HR"%string, (Some 12%Q)); ("LAT"%string, (Some 0%Q)); ("LON"%string, (Some 0%Q)); ("SST"%string, (Some 5%Q)); ("PT"%string, (Some 7%Q))]); (new_report (Some "AAAAAAAAA"%string) None [("YR"%string, (Some 2003%Q)); ("MO"%string, (Some 12%Q)); ("DY"%string, (Some 6%Q)); ("HR"%string, (Some 12%Q)); ("LAT"%string, (Some 0%Q)); ("LON"%string, (Some 0%Q)); ("SST"%string, (Some 5%Q)); ("PT"%string, (Some 7%Q))]); (new_report (Some "AAAAAAAAA"%string) None [("YR"%string, (Some 2003%Q)); ("MO"%string, (Some 12%Q)); ("DY"%string, (Some 7%Q)); ("HR"%string, (Some 12%Q)); ("LAT"%string, (Some 0%Q)); ("LON"%string, (Some 0%Q)); ("SST"%string, (Some 5%Q)); ("PT"%string, (Some 7%Q))])]) (fun v => setvar_at v 1 "LON"%string None)) (speed_check earth (5 # 2) (1 # 2) 1)))]).
Example TestTrackQC_speed_check_test_error_missing_observation_is : TestTrackQC_speed_check_test_error_missing_observation = true.
Proof. reflexivity. Qed.
Definition TestTrackQC_speed_check_test_error_not_time_sorted : bool := Eval vm_compute in (all [asserts (rs (fun _ => VNone) (on (voyage_of [] [(new_report (Some "AAAAAAAAA"%string) None [("YR"%string, (Some 2003%Q)); ("MO"%string, (Some 12%Q)); ("DY"%string, (Some 1%Q)); ("HR"%string, (Some 12%Q)); ("LAT"%string, (Some 0%Q)); ("LON"%string, (Some 0%Q)); ("SST"%string, (Some 5%Q)); ("PT"%string, (Some 7%Q))]); (new_report (Some "AAAAAAAAA"%string) None [("YR"%string, (Some 2003%Q)); ("MO"%string, (Some 12%Q)); ("DY"%string, (Some 2%Q)); ("HR"%string, (Some 12%Q)); ("LAT"%string, (Some 0%Q)); ("LON"%string, (Some 0%Q)); ("SST"%string, (Some 5%Q)); ("PT"%string, (Some 7%Q))]); (new_report (Some "AAAAAAAAA"%string) None [("YR"%string, (Some 2003%Q)); ("MO"%string, (Some 12%Q)); ("DY"%string, (Some 3%Q)); ("HR"%string, (Some 12%Q)); ("LAT"%string, (Some 0%Q)); ("LON"%string, (Some 0%Q)); ("SST"%string, (Some 5%Q)); ("PT"%string, (Some 7%Q))]); (new_report (Some "AAAAAAAAA"%string) None [("YR"%string, (Some 2003%Q)); ("MO"%string, (Some 12%Q)); ("DY"%string, (Some 2%Q)); ("HR"%string, (Some 12%Q)); ("LAT"%string, (Some 0%Q)); ("LON"%string, (Some 0%Q)); ("SST"%string, (Some 5%Q)); ("PT"%string, (Some 7%Q))]); (new_report (Some "AAAAAAAAA"%string) None [("YR"%string, (Some 2003%Q)); ("MO"%string, (Some 12%Q)); ("DY"%string, (Some 5%Q)); ("HR"%string, (Some 12%Q)); ("LAT"%string, (Some 0%Q)); ("LON"%string, (Some 0%Q)); ("SST"%string, (Some 5%Q)); ("PT"%string, (Some 7%Q))]); (new_report (Some "AAAAAAAAA"%string) None [("YR"%string, (Some 2003%Q)); ("MO"%string, (Some 12%Q)); ("DY"%string, (Some 6%Q)); ("HR"%string, (Some 12%Q)); ("LAT"%string, (Some 0%Q)); ("LON"%string, (Some 0%Q)); ("SST"%string, (Some 5%Q)); ("PT"%string, (Some 7%Q))]); (new_report (Some "AAAAAAAAA"%string) None [("YR"%string, (Some 2003%Q)); ("MO"%string, (Some 12%Q)); ("DY"%string, (Some 7%Q)); ("HR"%string, (Some 12%Q)); ("LAT"%string, (Some 0%Q)); ("LON"%string, (Some 0%Q)); ("SST"%string, (Some 5%Q)); ("PT"%string, (Some 7%Q))])]) (speed_check earth (5 # 2) (1 # 2) 1)))]).
Example TestTrackQC_speed_check_test_error_not_time_sorted_is : TestTrackQC_speed_check_test_error_not_time_sorted = true.
Proof. reflexivity. Qed.
Definition TestTrackQC_speed_check_test_new_stationary : bool := Eval vm_compute in (let x1 := (on (voyage_of [] [(new_report (Some "AAAAAAAAA"%string) None [("YR"%string, (Some 2003%Q)); ("MO"%string, (Some 12%Q)); ("DY"%string, (Some 1%Q)); ("HR"%string, (Some 12%Q)); ("LAT"%string, (Some 0%Q)); ("LON"%string, (Some 0%Q)); ("SST"%string, (Some 5%Q)); ("PT"%string, (Some 7%Q))]); (new_report (Some "AAAAAAAAA"%string) None [("YR"%string, (Some 2003%Q)); ("MO"%string, (Some 12%Q)); ("DY"%string, (Some 2%Q)); ("HR"%string, (Some 12%Q)); ("LAT"%string, (Some 0%Q)); ("LON"%string, (Some 0%Q)); ("SST"%string, (Some 5%Q)); ("PT"%string, (Some 7%Q))]); (new_report (Some "AAAAAAAAA"%string) None [("YR"%string, (Some 2003%Q)); ("MO"%string, (Some 12%Q)); ("DY"%string, (Some 3%Q)); ("HR"%string, (Some 12%Q)); ("LAT"%string, (Some 0%Q)); ("LON"%string, (Some 0%Q)); ("SST"%string, (Some 5%Q)); ("PT"%string, (Some 7%Q))]); (new_report (Some "AAAAAAAAA"%string) None [("YR"%string, (Some 2003%Q)); ("MO"%string, (Some 12%Q)); ("DY"%string, (Some 4%Q)); ("HR"%string, (Some 12%Q)); ("LAT"%string, (Some 0%Q)); ("LON"%string, (Some 0%Q)); ("SST"%string, (Some 5%Q)); ("PT"%string, (Some 7%Q))]); (new_report (Some "AAAAAAAAA"%string) None [("YR"%string, (Some 2003%Q)); ("MO"%string, (Some 12%Q)); ("DY"%string, (Some 5%Q)); ("HR"%string, (Some 12%Q)); ("LAT"%string, (Some 0%Q)); ("LON"%string, (Some 0%Q)); ("SST"%string, (Some 5%Q)); ("PT"%string, (Some 7%Q))]); (new_report (Some "AAAAAAAAA"%string) None [("YR"%string, (Some 2003%Q)); ("MO"%string, (Some 12%Q)); ("DY"%string, (Some 6%Q)); ("HR"%string, (Some 12%Q)); ("LAT"%string, (Some 0%Q)); ("LON"%string, (Some 0%Q)); ("SST"%string, (Some 5%Q)); ("PT"%string, (Some 7%Q))]); (new_report (Some "AAAAAAAAA"%string) None [("YR"%string, (Some 2003%Q)); ("MO"%string, (Some 12%Q)); ("DY"%string, (Some 7%Q)); ("HR"%string, (Some 12%Q)); ("LAT"%string, (Some 0%Q)); ("LON"%string, (Some 0%Q)); ("SST"%string, (Some 5%Q)); ("PT"%string, (Some 7%Q))])]) (new_speed_check earth {| iq_buoy := 15; iq_ship := 60; iq_d := (111 # 100); iq_t := (1 # 100); iq_n := 5 |} (5 # 2) (1 # 2))) in
  all [flags x1 "POS"%string "drf_spd"%string [0; 0; 0; 0; 0; 0; 0]]).
Example TestTrackQC_speed_check_test_new_stationary_is : TestTrackQC_speed_check_test_new_stationary = true.
Proof. reflexivity. Qed.
Definition TestTrackQC_speed_check_test_new_fast_drifter : bool := Eval vm_compute in (let x1 := (on (voyage_of [] [(new_report (Some "AAAAAAAAA"%string) None [("YR"%string, (Some 2003%Q)); ("MO"%string, (Some 12%Q)); ("DY"%string, (Some 1%Q)); ("HR"%string, (Some 12%Q)); ("LAT"%string, (Some 0%Q)); ("LON"%string, (Some 0%Q)); ("SST"%string, (Some 5%Q)); ("PT"%string, (Some 7%Q))]); (new_report (Some "AAAAAAAAA"%string) None [("YR"%string, (Some 2003%Q)); ("MO"%string, (Some 12%Q)); ("DY"%string, (Some 2%Q)); ("HR"%string, (Some 12%Q)); ("LAT"%string, (Some 3%Q)); ("LON"%string, (Some 0%Q)); ("SST"%string, (Some 5%Q)); ("PT"%string, (Some 7%Q))]); (new_report (Some "AAAAAAAAA"%string) None [("YR"%string, (Some 2003%Q)); ("MO"%string, (Some 12%Q)); ("DY"%string, (Some 3%Q)); ("HR"%string, (Some 12%Q)); ("LAT"%string, (Some 6%Q)); ("LON"%string, (Some 0%Q)); ("SST"%string, (Some 5%Q)); ("PT"%string, (Some 7%Q))]); (new_report (Some "AAAAAAAAA"%string) None [("YR"%string, (Some 2003%Q)); ("MO"%string, (Some 12%Q)); ("DY"%string, (Some 4%Q)); ("HR"%string, (Some 12%Q)); ("LAT"%string, (Some 9%Q)); ("LON"%string, (Some 0%Q)); ("SST"%string, (Some 5%Q)); ("PT"%string, (Some 7%Q))]); (new_report (Some "AAAAAAAAA"%string) None [("YR"%string, (Some 2003%Q)); ("MO"%string, (Some 12%Q)); ("DY"%string, (Some 5%Q)); ("HR"%string, (Some 12%Q)); ("LAT"%string, (Some 12%Q)); ("LON"%string, (Some 0%Q)); ("SST"%string, (Some 5%Q)); ("PT"%string, (Some 7%Q))]); (new_report (Some "AAAAAAAAA"%string) None [("YR"%string, (Some 2003%Q)); ("MO"%string, (Some 12%Q)); ("DY"%string, (Some 6%Q)); ("HR"%string, (Some 12%Q)); ("LAT"%string, (Some 15%Q)); ("LON"%string, (Some 0%Q)); ("SST"%string, (Some 5%Q)); ("PT"%string, (Some 7%Q))]); (new_report (Some "AAAAAAAAA"%string) None [("YR"%string, (Some 2003%Q)); ("MO"%string, (Some 12%Q)); ("DY"%string, (Some 7%Q)); ("HR"%string, (Some 12%Q)); ("LAT"%string, (Some 18%Q)); ("LON"%string, (Some 0%Q)); ("SST"%string, (Some 5%Q)); ("PT"%string, (Some 7%Q))])]) (new_speed_check earth {| iq_buoy := 15; iq_ship := 60; iq_d := (111 # 100); iq_t := (1 # 100); iq_n := 5 |} (5 # 2) (1 # 2))) in
  all [flags x1 "POS"%string "drf_spd"%string [1; 1; 1; 1; 1; 1; 1]]).
Example TestTrackQC_speed_check_test_new_fast_drifter_is : TestTrackQC_speed_check_test_new_fast_drifter = true.
Proof. reflexivity. Qed.
Definition TestTrackQC_speed_check_test_new_slow_drifter : bool := Eval vm_compute in (let x1 := (on (voyage_of [] [(new_report (Some "AAAAAAAAA"%string) None [("YR"%string, (Some 2003%Q)); ("MO"%string, (Some 12%Q)); ("DY"%string, (Some 1%Q)); ("HR"%string, (Some 12%Q)); ("LAT"%string, (Some 0%Q)); ("LON"%string, (Some 0%Q)); ("SST"%string, (Some 5%Q)); ("PT"%string, (Some 7%Q))]); (new_report (Some "AAAAAAAAA"%string) None [("YR"%string, (Some 2003%Q)); ("MO"%string, (Some 12%Q)); ("DY"%string, (Some 2%Q)); ("HR"%string, (Some 12%Q)); ("LAT"%string, (Some 0%Q)); ("LON"%string, (Some 1%Q)); ("SST"%string, (Some 5%Q)); ("PT"%string, (Some 7%Q))]); (new_report (Some "AAAAAAAAA"%string) None [("YR"%string, (Some 2003%Q)); ("MO"%string, (Some 12%Q)); ("DY"%string, (Some 3%Q)); ("HR"%string, (Some 12%Q)); ("LAT"%string, (Some 0%Q)); ("LON"%string, (Some 2%Q)); ("SST"%string, (Some 5%Q)); ("PT"%string, (Some 7%Q))]); (new_report (Some "AAAAAAAAA"%string) None [("YR"%string, (Some 2003%Q)); ("MO"%string, (Some 12%Q)); ("DY"%string, (Some 4%Q)); ("HR"%string, (Some 12%Q)); ("LAT"%string, (Some 0%Q)); ("LON"%string, (Some 3%Q)); ("SST"%string, (Some 5%Q)); ("PT"%string, (Some 7%Q))]); (new_report (Some "AAAAAAAAA"%string) None [("YR"%string, (Some 2003%Q)); ("MO"%string, (Some 12%Q)); ("DY"%string, (Some 5%Q)); ("HR"%string, (Some 12%Q)); ("LAT"%string, (Some 0%Q)); ("LON"%string, (Some 4%Q)); ("SST"%string, (Some 5%Q)); ("PT"%string, (Some 7%Q))]); (new_report (Some "AAAAAAAAA"%string) None [("YR"%string, (Some 2003%Q)); ("MO"%string, (Some 12%Q)); ("DY"%string, (Some 6%Q)); ("HR"%string, (Some 12%Q)); ("LAT"%string, (Some 0%Q)); ("LON"%string, (Some 5%Q)); ("SST"%string, (Some 5%Q)); ("PT"%string, (Some 7%Q))]); (new_report (Some "AAAAAAAAA"%string) None [("YR"%string, (Some 2003%Q)); ("MO"%string, (Some 12%Q)); ("DY"%string, (Some 7%Q)); ("HR"%string, (Some 12%Q)); ("LAT"%string, (Some 0%Q)); ("LON"%string, (Some 6%Q)); ("SST"%string, (Some 5%Q)); ("PT"%string, (Some 7%Q))])]) (new_speed_check earth {| iq_buoy := 15; iq_ship := 60; iq_d := (111 # 100); iq_t := (1 # 100); iq_n := 5 |} (5 # 2) (1 # 2))) in
  all [flags x1 "POS"%string "drf_spd"%string [0; 0; 0; 0; 0; 0; 0]]).
Example TestTrackQC_speed_check_test_new_slow_drifter_is : TestTrackQC_speed_check_test_new_slow_drifter = true.
Proof. reflexivity. Qed.
Definition TestTrackQC_speed_check_test_new_slow_fast_slow_drifter : bool := Eval vm_compute in (let x1 := (on (voyage_of [] [(new_report (Some "AAAAAAAAA"%string) None [("YR"%string, (Some 2003%Q)); ("MO"%string, (Some 12%Q)); ("DY"%string, (Some 1%Q)); ("HR"%string, (Some 12%Q)); ("LAT"%string, (Some 0%Q)); ("LON"%string, (Some 0%Q)); ("SST"%string, (Some 5%Q)); ("PT"%string, (Some 7%Q))]); (new_report (Some "AAAAAAAAA"%string) None [("YR"%string, (Some 2003%Q)); ("MO"%string, (Some 12%Q)); ("DY"%string, (Some 2%Q)); ("HR"%string, (Some 12%Q)); ("LAT"%string, (Some 1%Q)); ("LON"%string, (Some 0%Q)); ("SST"%string, (Some 5%Q)); ("PT"%string, (Some 7%Q))]); (new_report (Some "AAAAAAAAA"%string) None [("YR"%string, (Some 2003%Q)); ("MO"%string, (Some 12%Q)); ("DY"%string, (Some 3%Q)); ("HR"%string, (Some 12%Q)); ("LAT"%string, (Some 2%Q)); ("LON"%string, (Some 0%Q)); ("SST"%string, (Some 5%Q)); ("PT"%string, (Some 7%Q))]); (new_report (Some "AAAAAAAAA"%string) None [("YR"%string, (Some 2003%Q)); ("MO"%string, (Some 12%Q)); ("DY"%string, (Some 4%Q)); ("HR"%string, (Some 12%Q)); ("LAT"%string, (Some 5%Q)); ("LON"%string, (Some 0%Q)); ("SST"%string, (Some 5%Q)); ("PT"%string, (Some 7%Q))]); (new_report (Some "AAAAAAAAA"%string) None [("YR"%string, (Some 2003%Q)); ("MO"%string, (Some 12%Q)); ("DY"%string, (Some 5%Q)); ("HR"%string, (Some 12%Q)); ("LAT"%string, (Some 8%Q)); ("LON"%string, (Some 0%Q)); ("SST"%string, (Some 5%Q)); ("PT"%string, (Some 7%Q))]); (new_report (Some "AAAAAAAAA"%string) None [("YR"%string, (Some 2003%Q)); ("MO"%string, (Some 12%Q)); ("DY"%string, (Some 6%Q)); ("HR"%string, (Some 12%Q)); ("LAT"%string, (Some 9%Q)); ("LON"%string, (Some 0%Q)); ("SST"%string, (Some 5%Q)); ("PT"%string, (Some 7%Q))]); (new_report (Some "AAAAAAAAA"%string) None [("YR"%string, (Some 2003%Q)); ("MO"%string, (Some 12%Q)); ("DY"%string, (Some 7%Q)); ("HR"%string, (Some 12%Q)); ("LAT"%string, (Some 10%Q)); ("LON"%string, (Some 0%Q)); ("SST"%string, (Some 5%Q)); ("PT"%string, (Some 7%Q))])]) (new_speed_check earth {| iq_buoy := 15; iq_ship := 60; iq_d := (111 # 100); iq_t := (1 # 100); iq_n := 5 |} (5 # 2) (1 # 2))) in
  all [flags x1 "POS"%string "drf_spd"%string [0; 0; 1; 1; 1; 0; 0]]).
Example TestTrackQC_speed_check_test_new_slow_fast_slow_drifter_is : TestTrackQC_speed_check_test_new_slow_fast_slow_drifter = true.
Proof. reflexivity. Qed.
Definition TestTrackQC_speed_check_test_new_high_freqency_sampling : bool := Eval vm_compute in (let x1 := (on (voyage_of [] [(new_report (Some "AAAAAAAAA"%string) None [("YR"%string, (Some 2003%Q)); ("MO"%string, (Some 12%Q)); ("DY"%string, (Some 1%Q)); ("HR"%string, (Some 0%Q)); ("LAT"%string, (Some 0%Q)); ("LON"%string, (Some 0%Q)); ("SST"%string, (Some 5%Q)); ("PT"%string, (Some 7%Q))]); (new_report (Some "AAAAAAAAA"%string) None [("YR"%string, (Some 2003%Q)); ("MO"%string, (Some 12%Q)); ("DY"%string, (Some 1%Q)); ("HR"%string, (Some 1%Q)); ("LAT"%string, (Some 3%Q)); ("LON"%string, (Some 0%Q)); ("SST"%string, (Some 5%Q)); ("PT"%string, (Some 7%Q))]); (new_report (Some "AAAAAAAAA"%string) None [("YR"%string, (Some 2003%Q)); ("MO"%string, (Some 12%Q)); ("DY"%string, (Some 1%Q)); ("HR"%string, (Some 2%Q)); ("LAT"%string, (Some 6%Q)); ("LON"%string, (Some 0%Q)); ("SST"%string, (Some 5%Q)); ("PT"%string, (Some 7%Q))]); (new_report (Some "AAAAAAAAA"%string) None [("YR"%string, (Some 2003%Q)); ("MO"%string, (Some 12%Q)); ("DY"%string, (Some 1%Q)); ("HR"%string, (Some 3%Q)); ("LAT"%string, (Some 9%Q)); ("LON"%string, (Some 0%Q)); ("SST"%string, (Some 5%Q)); ("PT"%string, (Some 7%Q))]); (new_report (Some "AAAAAAAAA"%string) None [("YR"%string, (Some 2003%Q)); ("MO"%string, (Some 12%Q)); ("DY"%string, (Some 1%Q)); ("HR"%string, (Some 4%Q)); ("LAT"%string, (Some 12%Q)); ("LON"%string, (Some 0%Q)); ("SST"%string, (Some 5%Q)); ("PT"%string, (Some 7%Q))]); (new_report (Some "AAAAAAAAA"%string) None [("YR"%string, (Some 2003%Q)); ("MO"%string, (Some 12%Q)); ("DY"%string, (Some 1%Q)); ("HR"%string, (Some 5%Q)); ("LAT"%string, (Some 15%Q)); ("LON"%string, (Some 0%Q)); ("SST"%string, (Some 5%Q)); ("PT"%string, (Some 7%Q))]); (new_report (Some "AAAAAAAAA"%string) None [("YR"%string, (Some 2003%Q)); ("MO"%string, (Some 12%Q)); ("DY"%string, (Some 1%Q)); ("HR"%string, (Some 6%Q)); ("LAT"%string, (Some 18%Q)); ("LON"%string, (Some 0%Q)); ("SST"%string, (Some 5%Q)); ("PT"%string, (Some 7%Q))])]) (new_speed_check earth {| iq_buoy := 15; iq_ship := 60; iq_d := (111 # 100); iq_t := (1 # 100); iq_n := 5 |} (5 # 2) (1 # 2))) in
  all [flags x1 "POS"%string "drf_spd"%string [0; 0; 0; 0; 0; 0; 0]]).
Example TestTrackQC_speed_check_test_new_high_freqency_sampling_is : TestTrackQC_speed_check_test_new_high_freqency_sampling = true.
Proof. reflexivity. Qed.
Definition TestTrackQC_speed_check_test_new_low_freqency_sampling : bool := Eval vm_compute in (let x1 := (on (voyage_of [] [(new_report (Some "AAAAAAAAA"%string) None [("YR"%string, (Some 2003%Q)); ("MO"%string, (Some 12%Q)); ("DY"%string, (Some 1%Q)); ("HR"%string, (Some 12%Q)); ("LAT"%string, (Some 0%Q)); ("LON"%string, (Some 0%Q)); ("SST"%string, (Some 5%Q)); ("PT"%string, (Some 7%Q))]); (new_report (Some "AAAAAAAAA"%string) None [("YR"%string, (Some 2003%Q)); ("MO"%string, (Some 12%Q)); ("DY"%string, (Some 2%Q)); ("HR"%string, (Some 13%Q)); ("LAT"%string, (Some 5%Q)); ("LON"%string, (Some 0%Q)); ("SST"%string, (Some 5%Q)); ("PT"%string, (Some 7%Q))]); (new_report (Some "AAAAAAAAA"%string) None [("YR"%string, (Some 2003%Q)); ("MO"%string, (Some 12%Q)); ("DY"%string, (Some 3%Q)); ("HR"%string, (Some 14%Q)); ("LAT"%string, (Some 10%Q)); ("LON"%string, (Some 0%Q)); ("SST"%string, (Some 5%Q)); ("PT"%string, (Some 7%Q))]); (new_report (Some "AAAAAAAAA"%string) None [("YR"%string, (Some 2003%Q)); ("MO"%string, (Some 12%Q)); ("DY"%string, (Some 4%Q)); ("HR"%string, (Some 15%Q)); ("LAT"%string, (Some 15%Q)); ("LON"%string, (Some 0%Q)); ("SST"%string, (Some 5%Q)); ("PT"%string, (Some 7%Q))]); (new_report (Some "AAAAAAAAA"%string) None [("YR"%string, (Some 2003%Q)); ("MO"%string, (Some 12%Q)); ("DY"%string, (Some 5%Q)); ("HR"%string, (Some 16%Q)); ("LAT"%string, (Some 20%Q)); ("LON"%string, (Some 0%Q)); ("SST"%string, (Some 5%Q)); ("PT"%string, (Some 7%Q))]); (new_report (Some "AAAAAAAAA"%string) None [("YR"%string, (Some 2003%Q)); ("MO"%string, (Some 12%Q)); ("DY"%string, (Some 6%Q)); ("HR"%string, (Some 17%Q)); ("LAT"%string, (Some 25%Q)); ("LON"%string, (Some 0%Q)); ("SST"%string, (Some 5%Q)); ("PT"%string, (Some 7%Q))]); (new_report (Some "AAAAAAAAA"%string) None [("YR"%string, (Some 2003%Q)); ("MO"%string, (Some 12%Q)); ("DY"%string, (Some 7%Q)); ("HR"%string, (Some 18%Q)); ("LAT"%string, (Some 30%Q)); ("LON"%string, (Some 0%Q)); ("SST"%string, (Some 5%Q)); ("PT"%string, (Some 7%Q))])]) (new_speed_check earth {| iq_buoy := 15; iq_ship := 60; iq_d := (111 # 100); iq_t := (1 # 100); iq_n := 5 |} (5 # 2) (1 # 2))) in
  all [flags x1 "POS"%string "drf_spd"%string [1; 1; 1; 1; 1; 1; 1]]).
Example TestTrackQC_speed_check_test_new_low_freqency_sampling_is : TestTrackQC_speed_check_test_new_low_freqency_sampling = true.
Proof. reflexivity. Qed.
Definition TestTrackQC_speed_check_test_new_slow_fast_slow_mid_freqency_sampling : bool := Eval vm_compute in (let x1 := (on (voyage_of [] [(new_report (Some "AAAAAAAAA"%string) None [("YR"%string, (Some 2003%Q)); ("MO"%string, (Some 12%Q)); ("DY"%string, (Some 1%Q)); ("HR"%string, (Some 0%Q)); ("LAT"%string, (Some 0%Q)); ("LON"%string, (Some 0%Q)); ("SST"%string, (Some 5%Q)); ("PT"%string, (Some 7%Q))]); (new_report (Some "AAAAAAAAA"%string) None [("YR"%string, (Some 2003%Q)); ("MO"%string, (Some 12%Q)); ("DY"%string, (Some 1%Q)); ("HR"%string, (Some 12%Q)); ("LAT"%string, (Some (1 # 2)%Q)); ("LON"%string, (Some 0%Q)); ("SST"%string, (Some 5%Q)); ("PT"%string, (Some 7%Q))]); (new_report (Some "AAAAAAAAA"%string) None [("YR"%string, (Some 2003%Q)); ("MO"%string, (Some 12%Q)); ("DY"%string, (Some 2%Q)); ("HR"%string, (Some 0%Q)); ("LAT"%string, (Some 1%Q)); ("LON"%string, (Some 0%Q)); ("SST"%string, (Some 5%Q)); ("PT"%string, (Some 7%Q))]); (new_report (Some "AAAAAAAAA"%string) None [("YR"%string, (Some 2003%Q)); ("MO"%string, (Some 12%Q)); ("DY"%string, (Some 2%Q)); ("HR"%string, (Some 12%Q)); ("LAT"%string, (Some (5 # 2)%Q)); ("LON"%string, (Some 0%Q)); ("SST"%string, (Some 5%Q)); ("PT"%string, (Some 7%Q))]); (new_report (Some "AAAAAAAAA"%string) None [("YR"%string, (Some 2003%Q)); ("MO"%string, (Some 12%Q)); ("DY"%string, (Some 3%Q)); ("HR"%string, (Some 0%Q)); ("LAT"%string, (Some 4%Q)); ("LON"%string, (Some 0%Q)); ("SST"%string, (Some 5%Q)); ("PT"%string, (Some 7%Q))]); (new_report (Some "AAAAAAAAA"%string) None [("YR"%string, (Some 2003%Q)); ("MO"%string, (Some 12%Q)); ("DY"%string, (Some 3%Q)); ("HR"%string, (Some 12%Q)); ("LAT"%string, (Some (9 # 2)%Q)); ("LON"%string, (Some 0%Q)); ("SST"%string, (Some 5%Q)); ("PT"%string, (Some 7%Q))]); (new_report (Some "AAAAAAAAA"%string) None [("YR"%string, (Some 2003%Q)); ("MO"%string, (Some 12%Q)); ("DY"%string, (Some 4%Q)); ("HR"%string, (Some 0%Q)); ("LAT"%string, (Some 5%Q)); ("LON"%string, (Some 0%Q)); ("SST"%string, (Some 5%Q)); ("PT"%string, (Some 7%Q))])]) (new_speed_check earth {| iq_buoy := 15; iq_ship := 60; iq_d := (111 # 100); iq_t := (1 # 100); iq_n := 5 |} (5 # 2) (1 # 2))) in
  all [flags x1 "POS"%string "drf_spd"%string [0; 0; 1; 1; 1; 0; 0]]).
Example TestTrackQC_speed_check_test_new_slow_fast_slow_mid_freqency_sampling_is : TestTrackQC_speed_check_test_new_slow_fast_slow_mid_freqency_sampling = true.
Proof. reflexivity. Qed.
Definition TestTrackQC_speed_check_test_new_irregular_sampling : bool := Eval vm_compute in (let x1 := (on (voyage_of [] [(new_report (Some "AAAAAAAAA"%string) None [("YR"%string, (Some 2003%Q)); ("MO"%string, (Some 12%Q)); ("DY"%string, (Some 1%Q)); ("HR"%string, (Some 12%Q)); ("LAT"%string, (Some 0%Q)); ("LON"%string, (Some 0%Q)); ("SST"%string, (Some 5%Q)); ("PT"%string, (Some 7%Q))]); (new_report (Some "AAAAAAAAA"%string) None [("YR"%string, (Some 2003%Q)); ("MO"%string, (Some 12%Q)); ("DY"%string, (Some 2%Q)); ("HR"%string, (Some 12%Q)); ("LAT"%string, (Some 3%Q)); ("LON"%string, (Some 0%Q)); ("SST"%string, (Some 5%Q)); ("PT"%string, (Some 7%Q))]); (new_report (Some "AAAAAAAAA"%string) None [("YR"%string, (Some 2003%Q)); ("MO"%string, (Some 12%Q)); ("DY"%string, (Some 4%Q)); ("HR"%string, (Some 12%Q)); ("LAT"%string, (Some 12%Q)); ("LON"%string, (Some 0%Q)); ("SST"%string, (Some 5%Q)); ("PT"%string, (Some 7%Q))]); (new_report (Some "AAAAAAAAA"%string) None [("YR"%string, (Some 2003%Q)); ("MO"%string, (Some 12%Q)); ("DY"%string, (Some 5%Q)); ("HR"%string, (Some 12%Q)); ("LAT"%string, (Some 12%Q)); ("LON"%string, (Some 0%Q)); ("SST"%string, (Some 5%Q)); ("PT"%string, (Some 7%Q))]); (new_report (Some "AAAAAAAAA"%string) None [("YR"%string, (Some 2003%Q)); ("MO"%string, (Some 12%Q)); ("DY"%string, (Some 5%Q)); ("HR"%string, (Some 23%Q)); ("LAT"%string, (Some 14%Q)); ("LON"%string, (Some 0%Q)); ("SST"%string, (Some 5%Q)); ("PT"%string, (Some 7%Q))]); (new_report (Some "AAAAAAAAA"%string) None [("YR"%string, (Some 2003%Q)); ("MO"%string, (Some 12%Q)); ("DY"%string, (Some 6%Q)); ("HR"%string, (Some 23%Q)); ("LAT"%string, (Some 14%Q)); ("LON"%string, (Some 0%Q)); ("SST"%string, (Some 5%Q)); ("PT"%string, (Some 7%Q))]); (new_report (Some "AAAAAAAAA"%string) None [("YR"%string, (Some 2003%Q)); ("MO"%string, (Some 12%Q)); ("DY"%string, (Some 7%Q)); ("HR"%string, (Some 23%Q)); ("LAT"%string, (Some 17%Q)); ("LON"%string, (Some 0%Q)); ("SST"%string, (Some 5%Q)); ("PT"%string, (Some 7%Q))])]) (new_speed_check earth {| iq_buoy := 15; iq_ship := 60; iq_d := (111 # 100); iq_t := (1 # 100); iq_n := 5 |} (5 # 2) (1 # 2))) in
  all [flags x1 "POS"%string "drf_spd"%string [1; 1; 1; 0; 0; 1; 1]]).
Example TestTrackQC_speed_check_test_new_irregular_sampling_is : TestTrackQC_speed_check_test_new_irregular_sampling = true.
Proof. reflexivity. Qed.
Definition TestTrackQC_speed_check_test_new_fast_arctic_drifter : bool := Eval vm_compute in (let x1 := (on (voyage_of [] [(new_report (Some "AAAAAAAAA"%string) None [("YR"%string, (Some 2003%Q)); ("MO"%string, (Some 12%Q)); ("DY"%string, (Some 1%Q)); ("HR"%string, (Some 12%Q)); ("LAT"%string, (Some 85%Q)); ("LON"%string, (Some 0%Q)); ("SST"%string, (Some 5%Q)); ("PT"%string, (Some 7%Q))]); (new_report (Some "AAAAAAAAA"%string) None [("YR"%string, (Some 2003%Q)); ("MO"%string, (Some 12%Q)); ("DY"%string, (Some 2%Q)); ("HR"%string, (Some 12%Q)); ("LAT"%string, (Some 85%Q)); ("LON"%string, (Some 30%Q)); ("SST"%string, (Some 5%Q)); ("PT"%string, (Some 7%Q))]); (new_report (Some "AAAAAAAAA"%string) None [("YR"%string, (Some 2003%Q)); ("MO"%string, (Some 12%Q)); ("DY"%string, (Some 3%Q)); ("HR"%string, (Some 12%Q)); ("LAT"%string, (Some 85%Q)); ("LON"%string, (Some 60%Q)); ("SST"%string, (Some 5%Q)); ("PT"%string, (Some 7%Q))]); (new_report (Some "AAAAAAAAA"%string) None [("YR"%string, (Some 2003%Q)); ("MO"%string, (Some 12%Q)); ("DY"%string, (Some 4%Q)); ("HR"%string, (Some 12%Q)); ("LAT"%string, (Some 85%Q)); ("LON"%string, (Some 90%Q)); ("SST"%string, (Some 5%Q)); ("PT"%string, (Some 7%Q))]); (new_report (Some "AAAAAAAAA"%string) None [("YR"%string, (Some 2003%Q)); ("MO"%string, (Some 12%Q)); ("DY"%string, (Some 5%Q)); ("HR"%string, (Some 12%Q)); ("LAT"%string, (Some 85%Q)); ("LON"%string, (Some 120%Q)); ("SST"%string, (Some 5%Q)); ("PT"%string, (Some 7%Q))]); (new_report (Some "AAAAAAAAA"%string) None [("YR"%string, (Some 2003%Q)); ("MO"%string, (Some 12%Q)); ("DY"%string, (Some 6%Q)); ("HR"%string, (Some 12%Q)); ("LAT"%string, (Some 85%Q)); ("LON"%string, (Some 150%Q)); ("SST"%string, (Some 5%Q)); ("PT"%string, (Some 7%Q))]); (new_report (Some "AAAAAAAAA"%string) None [("YR"%string, (Some 2003%Q)); ("MO"%string, (Some 12%Q)); ("DY"%string, (Some 7%Q)); ("HR"%string, (Some 12%Q)); ("LAT"%string, (Some 85%Q)); ("LON"%string, (Some 180%Q)); ("SST"%string, (Some 5%Q)); ("PT"%string, (Some 7%Q))])]) (new_speed_check earth {| iq_buoy := 15; iq_ship := 60; iq_d := (111 # 100); iq_t := (1 # 100); iq_n := 5 |} (5 # 2) (1 # 2))) in
  all [flags x1 "POS"%string "drf_spd"%string [1; 1; 1; 1; 1; 1; 1]]).
Example TestTrackQC_speed_check_test_new_fast_arctic_drifter_is : TestTrackQC_speed_check_test_new_fast_arctic_drifter = true.
Proof. reflexivity. Qed.
Definition TestTrackQC_speed_check_test_new_stationary_gross_error : bool := Eval vm_compute in (let x1 := (on (voyage_of [] [(new_report (Some "AAAAAAAAA"%string) None [("YR"%string, (Some 2003%Q)); ("MO"%string, (Some 12%Q)); ("DY"%string, (Some 1%Q)); ("HR"%string, (Some 12%Q)); ("LAT"%string, (Some 0%Q)); ("LON"%string, (Some 0%Q)); ("SST"%string, (Some 5%Q)); ("PT"%string, (Some 7%Q))]); (new_report (Some "AAAAAAAAA"%string) None [("YR"%string, (Some 2003%Q)); ("MO"%string, (Some 12%Q)); ("DY"%string, (Some 2%Q)); ("HR"%string, (Some 12%Q)); ("LAT"%string, (Some 0%Q)); ("LON"%string, (Some 0%Q)); ("SST"%string, (Some 5%Q)); ("PT"%string, (Some 7%Q))]); (new_report (Some "AAAAAAAAA"%string) None [("YR"%string, (Some 2003%Q)); ("MO"%string, (Some 12%Q)); ("DY"%string, (Some 3%Q)); ("HR"%string, (Some 12%Q)); ("LAT"%string, (Some 50%Q)); ("LON"%string, (Some 0%Q)); ("SST"%string, (Some 5%Q)); ("PT"%string, (Some 7%Q))]); (new_report (Some "AAAAAAAAA"%string) None [("YR"%string, (Some 2003%Q)); ("MO"%string, (Some 12%Q)); ("DY"%string, (Some 4%Q)); ("HR"%string, (Some 12%Q)); ("LAT"%string, (Some 0%Q)); ("LON"%string, (Some 0%Q)); ("SST"%string, (Some 5%Q)); ("PT"%string, (Some 7%Q))]); (new_report (Some "AAAAAAAAA"%string) None [("YR"%string, (Some 2003%Q)); ("MO"%string, (Some 12%Q)); ("DY"%string, (Some 5%Q)); ("HR"%string, (Some 12%Q)); ("LAT"%string, (Some 0%Q)); ("LON"%string, (Some 0%Q)); ("SST"%string, (Some 5%Q)); ("PT"%string, (Some 7%Q))]); (new_report (Some "AAAAAAAAA"%string) None [("YR"%string, (Some 2003%Q)); ("MO"%string, (Some 12%Q)); ("DY"%string, (Some 6%Q)); ("HR"%string, (Some 12%Q)); ("LAT"%string, (Some 50%Q)); ("LON"%string, (Some 0%Q)); ("SST"%string, (Some 5%Q)); ("PT"%string, (Some 7%Q))]); (new_report (Some "AAAAAAAAA"%string) None [("YR"%string, (Some 2003%Q)); ("MO"%string, (Some 12%Q)); ("DY"%string, (Some 7%Q)); ("HR"%string, (Some 12%Q)); ("LAT"%string, (Some 0%Q)); ("LON"%string, (Some 0%Q)); ("SST"%string, (Some 5%Q)); ("PT"%string, (Some 7%Q))])]) (new_speed_check earth {| iq_buoy := 15; iq_ship := 60; iq_d := (111 # 100); iq_t := (1 # 100); iq_n := 5 |} (5 # 2) (1 # 2))) in
  all [flags x1 "POS"%string "drf_spd"%string [0; 0; 0; 0; 0; 0; 0]]).
Example TestTrackQC_speed_check_test_new_stationary_gross_error_is : TestTrackQC_speed_check_test_new_stationary_gross_error = true.
Proof. reflexivity. Qed.
Definition TestTrackQC_speed_check_test_new_too_short_for_qc : bool := Eval vm_compute in (let x1 := (on (voyage_of [] [(new_report (Some "AAAAAAAAA"%string) None [("YR"%string, (Some 2003%Q)); ("MO"%string, (Some 12%Q)); ("DY"%string, (Some 1%Q)); ("HR"%string, (Some 12%Q)); ("LAT"%string, (Some 0%Q)); ("LON"%string, (Some 0%Q)); ("SST"%string, (Some 5%Q)); ("PT"%string, (Some 7%Q))]); (new_report (Some "AAAAAAAAA"%string) None [("YR"%string, (Some 2003%Q)); ("MO"%string, (Some 12%Q)); ("DY"%string, (Some 2%Q)); ("HR"%string, (Some 12%Q)); ("LAT"%string, (Some 0%Q)); ("LON"%string, (Some 0%Q)); ("SST"%string, (Some 5%Q)); ("PT"%string, (Some 7%Q))])]) (new_speed_check earth {| iq_buoy := 15; iq_ship := 60; iq_d := (111 # 100); iq_t := (1 # 100); iq_n := 5 |} (5 # 2) (1 # 2))) in
  all [flags x1 "POS"%string "drf_spd"%string [0; 0]]).
Example TestTrackQC_speed_check_test_new_too_short_for_qc_is : TestTrackQC_speed_check_test_new_too_short_for_qc = true.
Proof. reflexivity. Qed.
Definition TestTrackQC_speed_check_test_new_error_bad_input_parameter : bool := Eval vm_compute in (all [asserts (rs (fun _ => VNone) (on (voyage_of [] [(new_report (Some "AAAAAAAAA"%string) None [("YR"%string, (Some 2003%Q)); ("MO"%string, (Some 12%Q)); ("DY"%string, (Some 1%Q)); ("HR"%string, (Some 12%Q)); ("LAT"%string, (Some 0%Q)); ("LON"%string, (Some 0%Q)); ("SST"%string, (Some 5%Q)); ("PT"%string, (Some 7%Q))]); (new_report (Some "AAAAAAAAA"%string) None [("YR"%string, (Some 2003%Q)); ("MO"%string, (Some 12%Q)); ("DY"%string, (Some 2%Q)); ("HR"%string, (Some 12%Q)); ("LAT"%string, (Some 0%Q)); ("LON"%string, (Some 0%Q)); ("SST"%string, (Some 5%Q)); ("PT"%string, (Some 7%Q))]); (new_report (Some "AAAAAAAAA"%string) None [("YR"%string, (Some 2003%Q)); ("MO"%string, (Some 12%Q)); ("DY"%string, (Some 3%Q)); ("HR"%string, (Some 12%Q)); ("LAT"%string, (Some 0%Q)); ("LON"%string, (Some 0%Q)); ("SST"%string, (Some 5%Q)); ("PT"%string, (Some 7%Q))]); (new_report (Some "AAAAAAAAA"%string) None [("YR"%string, (Some 2003%Q)); ("MO"%string, (Some 12%Q)); ("DY"%string, (Some 4%Q)); ("HR"%string, (Some 12%Q)); ("LAT"%string, (Some 0%Q)); ("LON"%string, (Some 0%Q)); ("SST"%string, (Some 5%Q)); ("PT"%string, (Some 7%Q))]); (new_report (Some "AAAAAAAAA"%string) None [("YR"%string, (Some 2003%Q)); ("MO"%string, (Some 12%Q)); ("DY"%string, (Some 5%Q)); ("HR"%string, (Some 12%Q)); ("LAT"%string, (Some 0%Q)); ("LON"%string, (Some 0%Q)); ("SST"%string, (Some 5%Q)); ("PT"%string, (Some 7%Q))]); (new_report (Some "AAAAAAAAA"%string) None [("YR"%string, (Some 2003%Q)); ("MO"%string, (Some 12%Q)); ("DY"%string, (Some 6%Q)); ("HR"%string, (Some 12%Q)); ("LAT"%string, (Some 0%Q)); ("LON"%string, (Some 0%Q)); ("SST"%string, (Some 5%Q)); ("PT"%string, (Some 7%Q))]); (new_report (Some "AAAAAAAAA"%string) None [("YR"%string, (Some 2003%Q)); ("MO"%string, (Some 12%Q)); ("DY"%string, (Some 7%Q)); ("HR"%string, (Some 12%Q)); ("LAT"%string, (Some 0%Q)); ("LON"%string, (Some 0%Q)); ("SST"%string, (Some 5%Q)); ("PT"%string, (Some 7%Q))])]) (new_speed_check earth {| iq_buoy := 15; iq_ship := 60; iq_d := (111 # 100); iq_t := (1 # 100); iq_n := 5 |} (-5 # 2) (1 # 2))))]).
Example TestTrackQC_speed_check_test_new_error_bad_input_parameter_is : TestTrackQC_speed_check_test_new_error_bad_input_parameter = true.
Proof. reflexivity. Qed.
Definition TestTrackQC_speed_check_test_new_error_missing_observation : bool := Eval vm_compute in (all [asserts (rs (fun _ => VNone) (on (on (voyage_of [] [(new_report (Some "AAAAAAAAA"%string) None [("YR"%string, (Some 2003%Q)); ("MO"%string, (Some 12%Q)); ("DY"%string, (Some 1%Q)); ("HR"%string, (Some 12%Q)); ("LAT"%string, (Some 0%Q)); ("LON"%string, (Some 0%Q)); ("SST"%string, (Some 5%Q)); ("PT"%string, (Some 7%Q))]); (new_report (Some "AAAAAAAAA"%string) None [("YR"%string, (Some 2003%Q)); ("MO"%string, (Some 12%Q)); ("DY"%string, (Some 2%Q)); ("HR"%string, (Some 12%Q)); ("LAT"%string, (Some 0%Q)); ("LON"%string, (Some 0%Q)); ("SST"%string, (Some 5%Q)); ("PT"%string, (Some 7%Q))]); (new_report (Some "AAAAAAAAA"%string) None [("YR"%string, (Some 2003%Q)); ("MO"%string, (Some 12%Q)); ("DY"%string, (Some 3%Q)); ("HR"%string, (Some 12%Q)); ("LAT"%string, (Some 0%Q)); ("LON"%string, (Some 0%Q)); ("SST"%string, (Some 5%Q)); ("PT"%string, (Some 7%Q))]); (new_report (Some "AAAAAAAAA"%string) None [("YR"%string, (Some 2003%Q)); ("MO"%string, (Some 12%Q)); ("DY"%string, (Some 4%Q)); ("HR"%string, (Some 12%Q)); ("LAT"%string, (Some 0%Q)); ("LON"%string, (Some 0%Q)); ("SST"%string, (Some 5%Q)); ("PT"%string, (Some 7%Q))]); (new_report (Some "AAAAAAAAA"%string) None [("YR"%string, (Some 2003%Q)); ("MO"%string, (Some 12%Q)); ("DY"%string, (Some 5%Q)); ("HR"%string, (Some 12%Q)); ("LAT"%string, (Some 0%Q)); ("LON"%string, (Some 0%Q)); ("SST"%string, (Some 5%Q)); ("PT"%string, (Some 7%Q))]); (new_report (Some "AAAAAAAAA"%string) None [("YR"%string, (Some 2003%Q)); ("MO"%string, (Some 12%Q)); ("DY"%string, (Some 6%Q)); ("HR"%string, (Some 12%Q)); ("LAT"%string, (Some 0%Q)); ("LON"%string, (Some 0%Q)); ("SST"%string, (Some 5%Q)); ("PT"%string, (Some 7%Q))]); (new_report (Some "AAAAAAAAA"%string) None [("YR"%string, (Some 2003%Q)); ("MO"%string, (Some 12%Q)); ("DY"%string, (Some 7%Q)); ("HR"%string, (Some 12%Q)); ("LAT"%string, (Some 0%Q)); ("LON"%string, (Some 0%Q)); ("SST"%string, (Some 5%Q)); ("PT"%string, (Some 7%Q))])]) (fun v => setvar_at v 1 "LON"%string None)) (new_speed_check earth {| iq_buoy := 15; iq_ship := 60; iq_d := (111 # 100); iq_t := (1 # 100); iq_n := 5 |} (5 # 2) (1 # 2))))]).
Example TestTrackQC_speed_check_test_new_error_missing_observation_is : TestTrackQC_speed_check_test_new_error_missing_observation = true.
Proof. reflexivity. Qed.
Definition TestTrackQC_speed_check_test_new_error_not_time_sorted : bool := Eval vm_compute in (all [asserts (rs (fun _ => VNone) (on (voyage_of [] [(new_report (Some "AAAAAAAAA"%string) None [("YR"%string, (Some 2003%Q)); ("MO"%string, (Some 12%Q)); ("DY"%string, (Some 1%Q)); ("HR"%string, (Some 12%Q)); ("LAT"%string, (Some 0%Q)); ("LON"%string, (Some 0%Q)); ("SST"%string, (Some 5%Q)); ("PT"%string, (Some 7%Q))]); (new_report (Some "AAAAAAAAA"%string) None [("YR"%string, (Some 2003%Q)); ("MO"%string, (Some 12%Q)); ("DY"%string, (Some 2%Q)); ("HR"%string, (Some 12%Q)); ("LAT"%string, (Some 0%Q)); ("LON"%string, (Some 0%Q)); ("SST"%string, (Some 5%Q)); ("PT"%string, (Some 7%Q))]); (new_report (Some "AAAAAAAAA"%string) None [("YR"%string, (Some 2003%Q)); ("MO"%string, (Some 12%Q)); ("DY"%string, (Some 3%Q)); ("HR"%string, (Some 12%Q)); ("LAT"%string, (Some 0%Q)); ("LON"%string, (Some 0%Q)); ("SST"%string, (Some 5%Q)); ("PT"%string, (Some 7%Q))]); (new_report (Some "AAAAAAAAA"%string) None [("YR"%string, (Some 2003%Q)); ("MO"%string, (Some 12%Q)); ("DY"%string, (Some 2%Q)); ("HR"%string, (Some 12%Q)); ("LAT"%string, (Some 0%Q)); ("LON"%string, (Some 0%Q)); ("SST"%string, (Some 5%Q)); ("PT"%string, (Some 7%Q))]); (new_report (Some "AAAAAAAAA"%string) None [("YR"%string, (Some 2003%Q)); ("MO"%string, (Some 12%Q)); ("DY"%string, (Some 5%Q)); ("HR"%string, (Some 12%Q)); ("LAT"%string, (Some 0%Q)); ("LON"%string, (Some 0%Q)); ("SST"%string, (Some 5%Q)); ("PT"%string, (Some 7%Q))]); (new_report (Some "AAAAAAAAA"%string) None [("YR"%string, (Some 2003%Q)); ("MO"%string, (Some 12%Q)); ("DY"%string, (Some 6%Q)); ("HR"%string, (Some 12%Q)); ("LAT"%string, (Some 0%Q)); ("LON"%string, (Some 0%Q)); ("SST"%string, (Some 5%Q)); ("PT"%string, (Some 7%Q))]); (new_report (Some "AAAAAAAAA"%string) None [("YR"%string, (Some 2003%Q)); ("MO"%string, (Some 12%Q)); ("DY"%string, (Some 7%Q)); ("HR"%string, (Some 12%Q)); ("LAT"%string, (Some 0%Q)); ("LON"%string, (Some 0%Q)); ("SST"%string, (Some 5%Q)); ("PT"%string, (Some 7%Q))])]) (new_speed_check earth {| iq_buoy := 15; iq_ship := 60; iq_d := (111 # 100); iq_t := (1 # 100); iq_n := 5 |} (5 # 2) (1 # 2))))]).
Example TestTrackQC_speed_check_test_new_error_not_time_sorted_is : TestTrackQC_speed_check_test_new_error_not_time_sorted = true.
Proof. reflexivity. Qed.
Definition TestTrackQC_tail_check_test_all_daytime : bool := Eval vm_compute in (let x1 := (on (voyage_of [] [(with_exts (new_report (Some "AAAAAAAAA"%string) None [("YR"%string, (Some 2003%Q)); ("MO"%string, (Some 12%Q)); ("DY"%string, (Some 1%Q)); ("HR"%string, (Some 12%Q)); ("LAT"%string, (Some 0%Q)); ("LON"%string, (Some 0%Q)); ("SST"%string, (Some 5%Q))]) [("OSTIA"%string, (Some 5%Q)); ("BGVAR"%string, (Some (1 # 100)%Q)); ("ICE"%string, (Some 0%Q))]); (with_exts (new_report (Some "AAAAAAAAA"%string) None [("YR"%string, (Some 2003%Q)); ("MO"%string, (Some 12%Q)); ("DY"%string, (Some 1%Q)); ("HR"%string, (Some (121 # 10)%Q)); ("LAT"%string, (Some 0%Q)); ("LON"%string, (Some 0%Q)); ("SST"%string, (Some 5%Q))]) [("OSTIA"%string, (Some 5%Q)); ("BGVAR"%string, (Some (1 # 100)%Q)); ("ICE"%string, (Some 0%Q))]); (with_exts (new_report (Some "AAAAAAAAA"%string) None [("YR"%string, (Some 2003%Q)); ("MO"%string, (Some 12%Q)); ("DY"%string, (Some 1%Q)); ("HR"%string, (Some (61 # 5)%Q)); ("LAT"%string, (Some 0%Q)); ("LON"%string, (Some 0%Q)); ("SST"%string, (Some 5%Q))]) [("OSTIA"%string, (Some 5%Q)); ("BGVAR"%string, (Some (1 # 100)%Q)); ("ICE"%string, (Some 0%Q))]); (with_exts (new_report (Some "AAAAAAAAA"%string) None [("YR"%string, (Some 2003%Q)); ("MO"%string, (Some 12%Q)); ("DY"%string, (Some 1%Q)); ("HR"%string, (Some (123 # 10)%Q)); ("LAT"%string, (Some 0%Q)); ("LON"%string, (Some 0%Q)); ("SST"%string, (Some 5%Q))]) [("OSTIA"%string, (Some 5%Q)); ("BGVAR"%string, (Some (1 # 100)%Q)); ("ICE"%string, (Some 0%Q))]); (with_exts (new_report (Some "AAAAAAAAA"%string) None [("YR"%string, (Some 2003%Q)); ("MO"%string, (Some 12%Q)); ("DY"%string, (Some 1%Q)); ("HR"%string, (Some (62 # 5)%Q)); ("LAT"%string, (Some 0%Q)); ("LON"%string, (Some 0%Q)); ("SST"%string, (Some 5%Q))]) [("OSTIA"%string, (Some 5%Q)); ("BGVAR"%string, (Some (1 # 100)%Q)); ("ICE"%string, (Some 0%Q))]); (with_exts (new_report (Some "AAAAAAAAA"%string) None [("YR"%string, (Some 2003%Q)); ("MO"%string, (Some 12%Q)); ("DY"%string, (Some 1%Q)); ("HR"%string, (Some (25 # 2)%Q)); ("LAT"%string, (Some 0%Q)); ("LON"%string, (Some 0%Q)); ("SST"%string, (Some 5%Q))]) [("OSTIA"%string, (Some 5%Q)); ("BGVAR"%string, (Some (1 # 100)%Q)); ("ICE"%string, (Some 0%Q))]); (with_exts (new_report (Some "AAAAAAAAA"%string) None [("YR"%string, (Some 2003%Q)); ("MO"%string, (Some 12%Q)); ("DY"%string, (Some 1%Q)); ("HR"%string, (Some (63 # 5)%Q)); ("LAT"%string, (Some 0%Q)); ("LON"%string, (Some 0%Q)); ("SST"%string, (Some 5%Q))]) [("OSTIA"%string, (Some 5%Q)); ("BGVAR"%string, (Some (1 # 100)%Q)); ("ICE"%string, (Some 0%Q))]); (with_exts (new_report (Some "AAAAAAAAA"%string) None [("YR"%string, (Some 2003%Q)); ("MO"%string, (Some 12%Q)); ("DY"%string, (Some 1%Q)); ("HR"%string, (Some (127 # 10)%Q)); ("LAT"%string, (Some 0%Q)); ("LON"%string, (Some 0%Q)); ("SST"%string, (Some 5%Q))]) [("OSTIA"%string, (Some 5%Q)); ("BGVAR"%string, (Some (1 # 100)%Q)); ("ICE"%string, (Some 0%Q))]); (with_exts (new_report (Some "AAAAAAAAA"%string) None [("YR"%string, (Some 2003%Q)); ("MO"%string, (Some 12%Q)); ("DY"%string, (Some 1%Q)); ("HR"%string, (Some (64 # 5)%Q)); ("LAT"%string, (Some 0%Q)); ("LON"%string, (Some 0%Q)); ("SST"%string, (Some 5%Q))]) [("OSTIA"%string, (Some 5%Q)); ("BGVAR"%string, (Some (1 # 100)%Q)); ("ICE"%string, (Some 0%Q))])]) (sst_tail_check n_elevation n_sqrt {| tl_long := 3; tl_long_n := 3; tl_short := 1; tl_short_n := 3; tl_bad := 1; tl_inter := (29 # 100); tl_intra := 1; tl_lim := (3 # 10) |})) in
  all [flags x1 "SST"%string "drf_tail1"%string [0; 0; 0; 0; 0; 0; 0; 0; 0];
  flags x1 "SST"%string "drf_tail2"%string [0; 0; 0; 0; 0; 0; 0; 0; 0]]).
Example TestTrackQC_tail_check_test_all_daytime_is : TestTrackQC_tail_check_test_all_daytime = true.
Proof. reflexivity. Qed.
Definition TestTrackQC_tail_check_test_all_land_masked : bool := Eval vm_compute in (let x1 := (on (voyage_of [] [(with_exts (new_report (Some "AAAAAAAAA"%string) None [("YR"%string, (Some 2003%Q)); ("MO"%string, (Some 12%Q)); ("DY"%string, (Some 1%Q)); ("HR"%string, (Some 0%Q)); ("LAT"%string, (Some 0%Q)); ("LON"%string, (Some 0%Q)); ("SST"%string, (Some 5%Q))]) [("OSTIA"%string, None); ("BGVAR"%string, (Some (1 # 100)%Q)); ("ICE"%string, (Some 0%Q))]); (with_exts (new_report (Some "AAAAAAAAA"%string) None [("YR"%string, (Some 2003%Q)); ("MO"%string, (Some 12%Q)); ("DY"%string, (Some 1%Q)); ("HR"%string, (Some (1 # 10)%Q)); ("LAT"%string, (Some 0%Q)); ("LON"%string, (Some 0%Q)); ("SST"%string, (Some 5%Q))]) [("OSTIA"%string, None); ("BGVAR"%string, (Some (1 # 100)%Q)); ("ICE"%string, (Some 0%Q))]); (with_exts (new_report (Some "AAAAAAAAA"%string) None [("YR"%string, (Some 2003%Q)); ("MO"%string, (Some 12%Q)); ("DY"%string, (Some 1%Q)); ("HR"%string, (Some (1 # 5)%Q)); ("LAT"%string, (Some 0%Q)); ("LON"%string, (Some 0%Q)); ("SST"%string, (Some 5%Q))]) [("OSTIA"%string, None); ("BGVAR"%string, (Some (1 # 100)%Q)); ("ICE"%string, (Some 0%Q))]); (with_exts (new_report (Some "AAAAAAAAA"%string) None [("YR"%string, (Some 2003%Q)); ("MO"%string, (Some 12%Q)); ("DY"%string, (Some 1%Q)); ("HR"%string, (Some (3 # 10)%Q)); ("LAT"%string, (Some 0%Q)); ("LON"%string, (Some 0%Q)); ("SST"%string, (Some 5%Q))]) [("OSTIA"%string, None); ("BGVAR"%string, (Some (1 # 100)%Q)); ("ICE"%string, (Some 0%Q))]); (with_exts (new_report (Some "AAAAAAAAA"%string) None [("YR"%string, (Some 2003%Q)); ("MO"%string, (Some 12%Q)); ("DY"%string, (Some 1%Q)); ("HR"%string, (Some (2 # 5)%Q)); ("LAT"%string, (Some 0%Q)); ("LON"%string, (Some 0%Q)); ("SST"%string, (Some 5%Q))]) [("OSTIA"%string, None); ("BGVAR"%string, (Some (1 # 100)%Q)); ("ICE"%string, (Some 0%Q))]); (with_exts (new_report (Some "AAAAAAAAA"%string) None [("YR"%string, (Some 2003%Q)); ("MO"%string, (Some 12%Q)); ("DY"%string, (Some 1%Q)); ("HR"%string, (Some (1 # 2)%Q)); ("LAT"%string, (Some 0%Q)); ("LON"%string, (Some 0%Q)); ("SST"%string, (Some 5%Q))]) [("OSTIA"%string, None); ("BGVAR"%string, (Some (1 # 100)%Q)); ("ICE"%string, (Some 0%Q))]); (with_exts (new_report (Some "AAAAAAAAA"%string) None [("YR"%string, (Some 2003%Q)); ("MO"%string, (Some 12%Q)); ("DY"%string, (Some 1%Q)); ("HR"%string, (Some (3 # 5)%Q)); ("LAT"%string, (Some 0%Q)); ("LON"%string, (Some 0%Q)); ("SST"%string, (Some 5%Q))]) [("OSTIA"%string, None); ("BGVAR"%string, (Some (1 # 100)%Q)); ("ICE"%string, (Some 0%Q))]); (with_exts (new_report (Some "AAAAAAAAA"%string) None [("YR"%string, (Some 2003%Q)); ("MO"%string, (Some 12%Q)); ("DY"%string, (Some 1%Q)); ("HR"%string, (Some (7 # 10)%Q)); ("LAT"%string, (Some 0%Q)); ("LON"%string, (Some 0%Q)); ("SST"%string, (Some 5%Q))]) [("OSTIA"%string, None); ("BGVAR"%string, (Some (1 # 100)%Q)); ("ICE"%string, (Some 0%Q))]); (with_exts (new_report (Some "AAAAAAAAA"%string) None [("YR"%string, (Some 2003%Q)); ("MO"%string, (Some 12%Q)); ("DY"%string, (Some 1%Q)); ("HR"%string, (Some (4 # 5)%Q)); ("LAT"%string, (Some 0%Q)); ("LON"%string, (Some 0%Q)); ("SST"%string, (Some 5%Q))]) [("OSTIA"%string, None); ("BGVAR"%string, (Some (1 # 100)%Q)); ("ICE"%string, (Some 0%Q))])]) (sst_tail_check n_elevation n_sqrt {| tl_long := 3; tl_long_n := 3; tl_short := 1; tl_short_n := 3; tl_bad := 1; tl_inter := (29 # 100); tl_intra := 1; tl_lim := (3 # 10) |})) in
  all [flags x1 "SST"%string "drf_tail1"%string [0; 0; 0; 0; 0; 0; 0; 0; 0];
  flags x1 "SST"%string "drf_tail2"%string [0; 0; 0; 0; 0; 0; 0; 0; 0]]).
Example TestTrackQC_tail_check_test_all_land_masked_is : TestTrackQC_tail_check_test_all_land_masked = true.
Proof. reflexivity. Qed.
Definition TestTrackQC_tail_check_test_all_ice : bool := Eval vm_compute in (let x1 := (on (voyage_of [] [(with_exts (new_report (Some "AAAAAAAAA"%string) None [("YR"%string, (Some 2003%Q)); ("MO"%string, (Some 12%Q)); ("DY"%string, (Some 1%Q)); ("HR"%string, (Some 0%Q)); ("LAT"%string, (Some 0%Q)); ("LON"%string, (Some 0%Q)); ("SST"%string, (Some 5%Q))]) [("OSTIA"%string, (Some 5%Q)); ("BGVAR"%string, (Some (1 # 100)%Q)); ("ICE"%string, (Some (1 # 5)%Q))]); (with_exts (new_report (Some "AAAAAAAAA"%string) None [("YR"%string, (Some 2003%Q)); ("MO"%string, (Some 12%Q)); ("DY"%string, (Some 1%Q)); ("HR"%string, (Some (1 # 10)%Q)); ("LAT"%string, (Some 0%Q)); ("LON"%string, (Some 0%Q)); ("SST"%string, (Some 5%Q))]) [("OSTIA"%string, (Some 5%Q)); ("BGVAR"%string, (Some (1 # 100)%Q)); ("ICE"%string, (Some (1 # 5)%Q))]); (with_exts (new_report (Some "AAAAAAAAA"%string) None [("YR"%string, (Some 2003%Q)); ("MO"%string, (Some 12%Q)); ("DY"%string, (Some 1%Q)); ("HR"%string, (Some (1 # 5)%Q)); ("LAT"%string, (Some 0%Q)); ("LON"%string, (Some 0%Q)); ("SST"%string, (Some 5%Q))]) [("OSTIA"%string, (Some 5%Q)); ("BGVAR"%string, (Some (1 # 100)%Q)); ("ICE"%string, (Some (1 # 5)%Q))]); (with_exts (new_report (Some "AAAAAAAAA"%string) None [("YR"%string, (Some 2003%Q)); ("MO"%string, (Some 12%Q)); ("DY"%string, (Some 1%Q)); ("HR"%string, (Some (3 # 10)%Q)); ("LAT"%string, (Some 0%Q)); ("LON"%string, (Some 0%Q)); ("SST"%string, (Some 5%Q))]) [("OSTIA"%string, (Some 5%Q)); ("BGVAR"%string, (Some (1 # 100)%Q)); ("ICE"%string, (Some (1 # 5)%Q))]); (with_exts (new_report (Some "AAAAAAAAA"%string) None [("YR"%string, (Some 2003%Q)); ("MO"%string, (Some 12%Q)); ("DY"%string, (Some 1%Q)); ("HR"%string, (Some (2 # 5)%Q)); ("LAT"%string, (Some 0%Q)); ("LON"%string, (Some 0%Q)); ("SST"%string, (Some 5%Q))]) [("OSTIA"%string, (Some 5%Q)); ("BGVAR"%string, (Some (1 # 100)%Q)); ("ICE"%string, (Some (1 # 5)%Q))]); (with_exts (new_report (Some "AAAAAAAAA"%string) None [("YR"%string, (Some 2003%Q)); ("MO"%string, (Some 12%Q)); ("DY"%string, (Some 1%Q)); ("HR"%string, (Some (1 # 2)%Q)); ("LAT"%string, (Some 0%Q)); ("LON"%string, (Some 0%Q)); ("SST"%string, (Some 5%Q))]) [("OSTIA"%string, (Some 5%Q)); ("BGVAR"%string, (Some (1 # 100)%Q)); ("ICE"%string, (Some (1 # 5)%Q))]); (with_exts (new_report (Some "AAAAAAAAA"%string) None [("YR"%string, (Some 2003%Q)); ("MO"%string, (Some 12%Q)); ("DY"%string, (Some 1%Q)); ("HR"%string, (Some (3 # 5)%Q)); ("LAT"%string, (Some 0%Q)); ("LON"%string, (Some 0%Q)); ("SST"%string, (Some 5%Q))]) [("OSTIA"%string, (Some 5%Q)); ("BGVAR"%string, (Some (1 # 100)%Q)); ("ICE"%string, (Some (1 # 5)%Q))]); (with_exts (new_report (Some "AAAAAAAAA"%string) None [("YR"%string, (Some 2003%Q)); ("MO"%string, (Some 12%Q)); ("DY"%string, (Some 1%Q)); ("HR"%string, (Some (7 # 10)%Q)); ("LAT"%string, (Some 0%Q)); ("LON"%string, (Some 0%Q)); ("SST"%string, (Some 5%Q))]) [("OSTIA"%string, (Some 5%Q)); ("BGVAR"%string, (Some (1 # 100)%Q)); ("ICE"%string, (Some (1 # 5)%Q))]); (with_exts (new_report (Some "AAAAAAAAA"%string) None [("YR"%string, (Some 2003%Q)); ("MO"%string, (Some 12%Q)); ("DY"%string, (Some 1%Q)); ("HR"%string, (Some (4 # 5)%Q)); ("LAT"%string, (Some 0%Q)); ("LON"%string, (Some 0%Q)); ("SST"%string, (Some 5%Q))]) [("OSTIA"%string, (Some 5%Q)); ("BGVAR"%string, (Some (1 # 100)%Q)); ("ICE"%string, (Some (1 # 5)%Q))])]) (sst_tail_check n_elevation n_sqrt {| tl_long := 3; tl_long_n := 3; tl_short := 1; tl_short_n := 3; tl_bad := 1; tl_inter := (29 # 100); tl_intra := 1; tl_lim := (3 # 10) |})) in
  all [flags x1 "SST"%string "drf_tail1"%string [0; 0; 0; 0; 0; 0; 0; 0; 0];
  flags x1 "SST"%string "drf_tail2"%string [0; 0; 0; 0; 0; 0; 0; 0; 0]]).
Example TestTrackQC_tail_check_test_all_ice_is : TestTrackQC_tail_check_test_all_ice = true.
Proof. reflexivity. Qed.
Definition TestTrackQC_tail_check_test_one_usable_value : bool := Eval vm_compute in (let x1 := (on (voyage_of [] [(with_exts (new_report (Some "AAAAAAAAA"%string) None [("YR"%string, (Some 2003%Q)); ("MO"%string, (Some 12%Q)); ("DY"%string, (Some 1%Q)); ("HR"%string, (Some 0%Q)); ("LAT"%string, (Some 0%Q)); ("LON"%string, (Some 0%Q)); ("SST"%string, (Some 5%Q))]) [("OSTIA"%string, (Some 5%Q)); ("BGVAR"%string, (Some (1 # 100)%Q)); ("ICE"%string, (Some 0%Q))]); (with_exts (new_report (Some "AAAAAAAAA"%string) None [("YR"%string, (Some 2003%Q)); ("MO"%string, (Some 12%Q)); ("DY"%string, (Some 1%Q)); ("HR"%string, (Some (1 # 10)%Q)); ("LAT"%string, (Some 0%Q)); ("LON"%string, (Some 0%Q)); ("SST"%string, (Some 5%Q))]) [("OSTIA"%string, None); ("BGVAR"%string, (Some (1 # 100)%Q)); ("ICE"%string, (Some 0%Q))]); (with_exts (new_report (Some "AAAAAAAAA"%string) None [("YR"%string, (Some 2003%Q)); ("MO"%string, (Some 12%Q)); ("DY"%string, (Some 1%Q)); ("HR"%string, (Some (1 # 5)%Q)); ("LAT"%string, (Some 0%Q)); ("LON"%string, (Some 0%Q)); ("SST"%string, (Some 5%Q))]) [("OSTIA"%string, None); ("BGVAR"%string, (Some (1 # 100)%Q)); ("ICE"%string, (Some 0%Q))]); (with_exts (new_report (Some "AAAAAAAAA"%string) None [("YR"%string, (Some 2003%Q)); ("MO"%string, (Some 12%Q)); ("DY"%string, (Some 1%Q)); ("HR"%string, (Some (3 # 10)%Q)); ("LAT"%string, (Some 0%Q)); ("LON"%string, (Some 0%Q)); ("SST"%string, (Some 5%Q))]) [("OSTIA"%string, None); ("BGVAR"%string, (Some (1 # 100)%Q)); ("ICE"%string, (Some 0%Q))]); (with_exts (new_report (Some "AAAAAAAAA"%string) None [("YR"%string, (Some 2003%Q)); ("MO"%string, (Some 12%Q)); ("DY"%string, (Some 1%Q)); ("HR"%string, (Some (2 # 5)%Q)); ("LAT"%string, (Some 0%Q)); ("LON"%string, (Some 0%Q)); ("SST"%string, (Some 5%Q))]) [("OSTIA"%string, None); ("BGVAR"%string, (Some (1 # 100)%Q)); ("ICE"%string, (Some 0%Q))]); (with_exts (new_report (Some "AAAAAAAAA"%string) None [("YR"%string, (Some 2003%Q)); ("MO"%string, (Some 12%Q)); ("DY"%string, (Some 1%Q)); ("HR"%string, (Some (1 # 2)%Q)); ("LAT"%string, (Some 0%Q)); ("LON"%string, (Some 0%Q)); ("SST"%string, (Some 5%Q))]) [("OSTIA"%string, None); ("BGVAR"%string, (Some (1 # 100)%Q)); ("ICE"%string, (Some 0%Q))]); (with_exts (new_report (Some "AAAAAAAAA"%string) None [("YR"%string, (Some 2003%Q)); ("MO"%string, (Some 12%Q)); ("DY"%string, (Some 1%Q)); ("HR"%string, (Some (3 # 5)%Q)); ("LAT"%string, (Some 0%Q)); ("LON"%string, (Some 0%Q)); ("SST"%string, (Some 5%Q))]) [("OSTIA"%string, None); ("BGVAR"%string, (Some (1 # 100)%Q)); ("ICE"%string, (Some 0%Q))]); (with_exts (new_report (Some "AAAAAAAAA"%string) None [("YR"%string, (Some 2003%Q)); ("MO"%string, (Some 12%Q)); ("DY"%string, (Some 1%Q)); ("HR"%string, (Some (7 # 10)%Q)); ("LAT"%string, (Some 0%Q)); ("LON"%string, (Some 0%Q)); ("SST"%string, (Some 5%Q))]) [("OSTIA"%string, None); ("BGVAR"%string, (Some (1 # 100)%Q)); ("ICE"%string, (Some 0%Q))]); (with_exts (new_report (Some "AAAAAAAAA"%string) None [("YR"%string, (Some 2003%Q)); ("MO"%string, (Some 12%Q)); ("DY"%string, (Some 1%Q)); ("HR"%string, (Some (4 # 5)%Q)); ("LAT"%string, (Some 0%Q)); ("LON"%string, (Some 0%Q)); ("SST"%string, (Some 5%Q))]) [("OSTIA"%string, None); ("BGVAR"%string, (Some (1 # 100)%Q)); ("ICE"%string, (Some 0%Q))])]) (sst_tail_check n_elevation n_sqrt {| tl_long := 3; tl_long_n := 3; tl_short := 2; tl_short_n := 3; tl_bad := 1; tl_inter := (29 # 100); tl_intra := 1; tl_lim := (3 # 10) |})) in
  all [flags x1 "SST"%string "drf_tail1"%string [0; 0; 0; 0; 0; 0; 0; 0; 0];
  flags x1 "SST"%string "drf_tail2"%string [0; 0; 0; 0; 0; 0; 0; 0; 0]]).
Example TestTrackQC_tail_check_test_one_usable_value_is : TestTrackQC_tail_check_test_one_usable_value = true.
Proof. reflexivity. Qed.
Definition TestTrackQC_tail_check_test_start_tail_bias : bool := Eval vm_compute in (let x1 := (on (voyage_of [] [(with_exts (new_report (Some "AAAAAAAAA"%string) None [("YR"%string, (Some 2003%Q)); ("MO"%string, (Some 12%Q)); ("DY"%string, (Some 1%Q)); ("HR"%string, (Some 0%Q)); ("LAT"%string, (Some 0%Q)); ("LON"%string, (Some 0%Q)); ("SST"%string, (Some 6%Q))]) [("OSTIA"%string, (Some 5%Q)); ("BGVAR"%string, (Some (1 # 100)%Q)); ("ICE"%string, (Some 0%Q))]); (with_exts (new_report (Some "AAAAAAAAA"%string) None [("YR"%string, (Some 2003%Q)); ("MO"%string, (Some 12%Q)); ("DY"%string, (Some 1%Q)); ("HR"%string, (Some (1 # 10)%Q)); ("LAT"%string, (Some 0%Q)); ("LON"%string, (Some 0%Q)); ("SST"%string, (Some 6%Q))]) [("OSTIA"%string, (Some 5%Q)); ("BGVAR"%string, (Some (1 # 100)%Q)); ("ICE"%string, (Some 0%Q))]); (with_exts (new_report (Some "AAAAAAAAA"%string) None [("YR"%string, (Some 2003%Q)); ("MO"%string, (Some 12%Q)); ("DY"%string, (Some 1%Q)); ("HR"%string, (Some (1 # 5)%Q)); ("LAT"%string, (Some 0%Q)); ("LON"%string, (Some 0%Q)); ("SST"%string, (Some 6%Q))]) [("OSTIA"%string, (Some 5%Q)); ("BGVAR"%string, (Some (1 # 100)%Q)); ("ICE"%string, (Some 0%Q))]); (with_exts (new_report (Some "AAAAAAAAA"%string) None [("YR"%string, (Some 2003%Q)); ("MO"%string, (Some 12%Q)); ("DY"%string, (Some 1%Q)); ("HR"%string, (Some (3 # 10)%Q)); ("LAT"%string, (Some 0%Q)); ("LON"%string, (Some 0%Q)); ("SST"%string, (Some 6%Q))]) [("OSTIA"%string, (Some 5%Q)); ("BGVAR"%string, (Some (1 # 100)%Q)); ("ICE"%string, (Some 0%Q))]); (with_exts (new_report (Some "AAAAAAAAA"%string) None [("YR"%string, (Some 2003%Q)); ("MO"%string, (Some 12%Q)); ("DY"%string, (Some 1%Q)); ("HR"%string, (Some (2 # 5)%Q)); ("LAT"%string, (Some 0%Q)); ("LON"%string, (Some 0%Q)); ("SST"%string, (Some 5%Q))]) [("OSTIA"%string, (Some 5%Q)); ("BGVAR"%string, (Some (1 # 100)%Q)); ("ICE"%string, (Some 0%Q))]); (with_exts (new_report (Some "AAAAAAAAA"%string) None [("YR"%string, (Some 2003%Q)); ("MO"%string, (Some 12%Q)); ("DY"%string, (Some 1%Q)); ("HR"%string, (Some (1 # 2)%Q)); ("LAT"%string, (Some 0%Q)); ("LON"%string, (Some 0%Q)); ("SST"%string, (Some 5%Q))]) [("OSTIA"%string, (Some 5%Q)); ("BGVAR"%string, (Some (1 # 100)%Q)); ("ICE"%string, (Some 0%Q))]); (with_exts (new_report (Some "AAAAAAAAA"%string) None [("YR"%string, (Some 2003%Q)); ("MO"%string, (Some 12%Q)); ("DY"%string, (Some 1%Q)); ("HR"%string, (Some (3 # 5)%Q)); ("LAT"%string, (Some 0%Q)); ("LON"%string, (Some 0%Q)); ("SST"%string, (Some 5%Q))]) [("OSTIA"%string, (Some 5%Q)); ("BGVAR"%string, (Some (1 # 100)%Q)); ("ICE"%string, (Some 0%Q))]); (with_exts (new_report (Some "AAAAAAAAA"%string) None [("YR"%string, (Some 2003%Q)); ("MO"%string, (Some 12%Q)); ("DY"%string, (Some 1%Q)); ("HR"%string, (Some (7 # 10)%Q)); ("LAT"%string, (Some 0%Q)); ("LON"%string, (Some 0%Q)); ("SST"%string, (Some 5%Q))]) [("OSTIA"%string, (Some 5%Q)); ("BGVAR"%string, (Some (1 # 100)%Q)); ("ICE"%string, (Some 0%Q))]); (with_exts (new_report (Some "AAAAAAAAA"%string) None [("YR"%string, (Some 2003%Q)); ("MO"%string, (Some 12%Q)); ("DY"%string, (Some 1%Q)); ("HR"%string, (Some (4 # 5)%Q)); ("LAT"%string, (Some 0%Q)); ("LON"%string, (Some 0%Q)); ("SST"%string, (Some 5%Q))]) [("OSTIA"%string, (Some 5%Q)); ("BGVAR"%string, (Some (1 # 100)%Q)); ("ICE"%string, (Some 0%Q))])]) (sst_tail_check n_elevation n_sqrt {| tl_long := 3; tl_long_n := 3; tl_short := 1; tl_short_n := 3; tl_bad := 1; tl_inter := (29 # 100); tl_intra := 1; tl_lim := (3 # 10) |})) in
  all [flags x1 "SST"%string "drf_tail1"%string [1; 1; 1; 0; 0; 0; 0; 0; 0];
  flags x1 "SST"%string "drf_tail2"%string [0; 0; 0; 0; 0; 0; 0; 0; 0]]).
Example TestTrackQC_tail_check_test_start_tail_bias_is : TestTrackQC_tail_check_test_start_tail_bias = true.
Proof. reflexivity. Qed.
Definition TestTrackQC_tail_check_test_start_tail_negative_bias : bool := Eval vm_compute in (let x1 := (on (voyage_of [] [(with_exts (new_report (Some "AAAAAAAAA"%string) None [("YR"%string, (Some 2003%Q)); ("MO"%string, (Some 12%Q)); ("DY"%string, (Some 1%Q)); ("HR"%string, (Some 0%Q)); ("LAT"%string, (Some 0%Q)); ("LON"%string, (Some 0%Q)); ("SST"%string, (Some 4%Q))]) [("OSTIA"%string, (Some 5%Q)); ("BGVAR"%string, (Some (1 # 100)%Q)); ("ICE"%string, (Some 0%Q))]); (with_exts (new_report (Some "AAAAAAAAA"%string) None [("YR"%string, (Some 2003%Q)); ("MO"%string, (Some 12%Q)); ("DY"%string, (Some 1%Q)); ("HR"%string, (Some (1 # 10)%Q)); ("LAT"%string, (Some 0%Q)); ("LON"%string, (Some 0%Q)); ("SST"%string, (Some 4%Q))]) [("OSTIA"%string, (Some 5%Q)); ("BGVAR"%string, (Some (1 # 100)%Q)); ("ICE"%string, (Some 0%Q))]); (with_exts (new_report (Some "AAAAAAAAA"%string) None [("YR"%string, (Some 2003%Q)); ("MO"%string, (Some 12%Q)); ("DY"%string, (Some 1%Q)); ("HR"%string, (Some (1 # 5)%Q)); ("LAT"%string, (Some 0%Q)); ("LON"%string, (Some 0%Q)); ("SST"%string, (Some 4%Q))]) [("OSTIA"%string, (Some 5%Q)); ("BGVAR"%string, (Some (1 # 100)%Q)); ("ICE"%string, (Some 0%Q))]); (with_exts (new_report (Some "AAAAAAAAA"%string) None [("YR"%string, (Some 2003%Q)); ("MO"%string, (Some 12%Q)); ("DY"%string, (Some 1%Q)); ("HR"%string, (Some (3 # 10)%Q)); ("LAT"%string, (Some 0%Q)); ("LON"%string, (Some 0%Q)); ("SST"%string, (Some 4%Q))]) [("OSTIA"%string, (Some 5%Q)); ("BGVAR"%string, (Some (1 # 100)%Q)); ("ICE"%string, (Some 0%Q))]); (with_exts (new_report (Some "AAAAAAAAA"%string) None [("YR"%string, (Some 2003%Q)); ("MO"%string, (Some 12%Q)); ("DY"%string, (Some 1%Q)); ("HR"%string, (Some (2 # 5)%Q)); ("LAT"%string, (Some 0%Q)); ("LON"%string, (Some 0%Q)); ("SST"%string, (Some 5%Q))]) [("OSTIA"%string, (Some 5%Q)); ("BGVAR"%string, (Some (1 # 100)%Q)); ("ICE"%string, (Some 0%Q))]); (with_exts (new_report (Some "AAAAAAAAA"%string) None [("YR"%string, (Some 2003%Q)); ("MO"%string, (Some 12%Q)); ("DY"%string, (Some 1%Q)); ("HR"%string, (Some (1 # 2)%Q)); ("LAT"%string, (Some 0%Q)); ("LON"%string, (Some 0%Q)); ("SST"%string, (Some 5%Q))]) [("OSTIA"%string, (Some 5%Q)); ("BGVAR"%string, (Some (1 # 100)%Q)); ("ICE"%string, (Some 0%Q))]); (with_exts (new_report (Some "AAAAAAAAA"%string) None [("YR"%string, (Some 2003%Q)); ("MO"%string, (Some 12%Q)); ("DY"%string, (Some 1%Q)); ("HR"%string, (Some (3 # 5)%Q)); ("LAT"%string, (Some 0%Q)); ("LON"%string, (Some 0%Q)); ("SST"%string, (Some 5%Q))]) [("OSTIA"%string, (Some 5%Q)); ("BGVAR"%string, (Some (1 # 100)%Q)); ("ICE"%string, (Some 0%Q))]); (with_exts (new_report (Some "AAAAAAAAA"%string) None [("YR"%string, (Some 2003%Q)); ("MO"%string, (Some 12%Q)); ("DY"%string, (Some 1%Q)); ("HR"%string, (Some (7 # 10)%Q)); ("LAT"%string, (Some 0%Q)); ("LON"%string, (Some 0%Q)); ("SST"%string, (Some 5%Q))]) [("OSTIA"%string, (Some 5%Q)); ("BGVAR"%string, (Some (1 # 100)%Q)); ("ICE"%string, (Some 0%Q))]); (with_exts (new_report (Some "AAAAAAAAA"%string) None [("YR"%string, (Some 2003%Q)); ("MO"%string, (Some 12%Q)); ("DY"%string, (Some 1%Q)); ("HR"%string, (Some (4 # 5)%Q)); ("LAT"%string, (Some 0%Q)); ("LON"%string, (Some 0%Q)); ("SST"%string, (Some 5%Q))]) [("OSTIA"%string, (Some 5%Q)); ("BGVAR"%string, (Some (1 # 100)%Q)); ("ICE"%string, (Some 0%Q))])]) (sst_tail_check n_elevation n_sqrt {| tl_long := 3; tl_long_n := 3; tl_short := 1; tl_short_n := 3; tl_bad := 1; tl_inter := (29 # 100); tl_intra := 1; tl_lim := (3 # 10) |})) in
  all [flags x1 "SST"%string "drf_tail1"%string [1; 1; 1; 0; 0; 0; 0; 0; 0];
  flags x1 "SST"%string "drf_tail2"%string [0; 0; 0; 0; 0; 0; 0; 0; 0]]).
Example TestTrackQC_tail_check_test_start_tail_negative_bias_is : TestTrackQC_tail_check_test_start_tail_negative_bias = true.
Proof. reflexivity. Qed.
Definition TestTrackQC_tail_check_test_start_tail_bias_obs_missing : bool := Eval vm_compute in (let x1 := (on (voyage_of [] [(with_exts (new_report (Some "AAAAAAAAA"%string) None [("YR"%string, (Some 2003%Q)); ("MO"%string, (Some 12%Q)); ("DY"%string, (Some 1%Q)); ("HR"%string, (Some 0%Q)); ("LAT"%string, (Some 0%Q)); ("LON"%string, (Some 0%Q)); ("SST"%string, (Some 5%Q))]) [("OSTIA"%string, None); ("BGVAR"%string, (Some (1 # 100)%Q)); ("ICE"%string, (Some 0%Q))]); (with_exts (new_report (Some "AAAAAAAAA"%string) None [("YR"%string, (Some 2003%Q)); ("MO"%string, (Some 12%Q)); ("DY"%string, (Some 1%Q)); ("HR"%string, (Some (1 # 10)%Q)); ("LAT"%string, (Some 0%Q)); ("LON"%string, (Some 0%Q)); ("SST"%string, (Some 5%Q))]) [("OSTIA"%string, None); ("BGVAR"%string, (Some (1 # 100)%Q)); ("ICE"%string, (Some 0%Q))]); (with_exts (new_report (Some "AAAAAAAAA"%string) None [("YR"%string, (Some 2003%Q)); ("MO"%string, (Some 12%Q)); ("DY"%string, (Some 1%Q)); ("HR"%string, (Some (1 # 5)%Q)); ("LAT"%string, (Some 0%Q)); ("LON"%string, (Some 0%Q)); ("SST"%string, (Some 6%Q))]) [("OSTIA"%string, (Some 5%Q)); ("BGVAR"%string, (Some (1 # 100)%Q)); ("ICE"%string, (Some 0%Q))]); (with_exts (new_report (Some "AAAAAAAAA"%string) None [("YR"%string, (Some 2003%Q)); ("MO"%string, (Some 12%Q)); ("DY"%string, (Some 1%Q)); ("HR"%string, (Some (3 # 10)%Q)); ("LAT"%string, (Some 0%Q)); ("LON"%string, (Some 0%Q)); ("SST"%string, (Some 6%Q))]) [("OSTIA"%string, (Some 5%Q)); ("BGVAR"%string, (Some (1 # 100)%Q)); ("ICE"%string, (Some 0%Q))]); (with_exts (new_report (Some "AAAAAAAAA"%string) None [("YR"%string, (Some 2003%Q)); ("MO"%string, (Some 12%Q)); ("DY"%string, (Some 1%Q)); ("HR"%string, (Some (2 # 5)%Q)); ("LAT"%string, (Some 0%Q)); ("LON"%string, (Some 0%Q)); ("SST"%string, (Some 6%Q))]) [("OSTIA"%string, (Some 5%Q)); ("BGVAR"%string, (Some (1 # 100)%Q)); ("ICE"%string, (Some 0%Q))]); (with_exts (new_report (Some "AAAAAAAAA"%string) None [("YR"%string, (Some 2003%Q)); ("MO"%string, (Some 12%Q)); ("DY"%string, (Some 1%Q)); ("HR"%string, (Some (1 # 2)%Q)); ("LAT"%string, (Some 0%Q)); ("LON"%string, (Some 0%Q)); ("SST"%string, (Some 6%Q))]) [("OSTIA"%string, (Some 5%Q)); ("BGVAR"%string, (Some (1 # 100)%Q)); ("ICE"%string, (Some 0%Q))]); (with_exts (new_report (Some "AAAAAAAAA"%string) None [("YR"%string, (Some 2003%Q)); ("MO"%string, (Some 12%Q)); ("DY"%string, (Some 1%Q)); ("HR"%string, (Some (3 # 5)%Q)); ("LAT"%string, (Some 0%Q)); ("LON"%string, (Some 0%Q)); ("SST"%string, (Some 5%Q))]) [("OSTIA"%string, (Some 5%Q)); ("BGVAR"%string, (Some (1 # 100)%Q)); ("ICE"%string, (Some 0%Q))]); (with_exts (new_report (Some "AAAAAAAAA"%string) None [("YR"%string, (Some 2003%Q)); ("MO"%string, (Some 12%Q)); ("DY"%string, (Some 1%Q)); ("HR"%string, (Some (7 # 10)%Q)); ("LAT"%string, (Some 0%Q)); ("LON"%string, (Some 0%Q)); ("SST"%string, (Some 5%Q))]) [("OSTIA"%string, (Some 5%Q)); ("BGVAR"%string, (Some (1 # 100)%Q)); ("ICE"%string, (Some 0%Q))]); (with_exts (new_report (Some "AAAAAAAAA"%string) None [("YR"%string, (Some 2003%Q)); ("MO"%string, (Some 12%Q)); ("DY"%string, (Some 1%Q)); ("HR"%string, (Some (4 # 5)%Q)); ("LAT"%string, (Some 0%Q)); ("LON"%string, (Some 0%Q)); ("SST"%string, (Some 5%Q))]) [("OSTIA"%string, (Some 5%Q)); ("BGVAR"%string, (Some (1 # 100)%Q)); ("ICE"%string, (Some 0%Q))])]) (sst_tail_check n_elevation n_sqrt {| tl_long := 3; tl_long_n := 3; tl_short := 1; tl_short_n := 3; tl_bad := 1; tl_inter := (29 # 100); tl_intra := 1; tl_lim := (3 # 10) |})) in
  all [flags x1 "SST"%string "drf_tail1"%string [1; 1; 1; 1; 1; 0; 0; 0; 0];
  flags x1 "SST"%string "drf_tail2"%string [0; 0; 0; 0; 0; 0; 0; 0; 0]]).
Example TestTrackQC_tail_check_test_start_tail_bias_obs_missing_is : TestTrackQC_tail_check_test_start_tail_bias_obs_missing = true.
Proof. reflexivity. Qed.
Definition TestTrackQC_tail_check_test_end_tail_bias : bool := Eval vm_compute in (let x1 := (on (voyage_of [] [(with_exts (new_report (Some "AAAAAAAAA"%string) None [("YR"%string, (Some 2003%Q)); ("MO"%string, (Some 12%Q)); ("DY"%string, (Some 1%Q)); ("HR"%string, (Some 0%Q)); ("LAT"%string, (Some 0%Q)); ("LON"%string, (Some 0%Q)); ("SST"%string, (Some 5%Q))]) [("OSTIA"%string, (Some 5%Q)); ("BGVAR"%string, (Some (1 # 100)%Q)); ("ICE"%string, (Some 0%Q))]); (with_exts (new_report (Some "AAAAAAAAA"%string) None [("YR"%string, (Some 2003%Q)); ("MO"%string, (Some 12%Q)); ("DY"%string, (Some 1%Q)); ("HR"%string, (Some (1 # 10)%Q)); ("LAT"%string, (Some 0%Q)); ("LON"%string, (Some 0%Q)); ("SST"%string, (Some 5%Q))]) [("OSTIA"%string, (Some 5%Q)); ("BGVAR"%string, (Some (1 # 100)%Q)); ("ICE"%string, (Some 0%Q))]); (with_exts (new_report (Some "AAAAAAAAA"%string) None [("YR"%string, (Some 2003%Q)); ("MO"%string, (Some 12%Q)); ("DY"%string, (Some 1%Q)); ("HR"%string, (Some (1 # 5)%Q)); ("LAT"%string, (Some 0%Q)); ("LON"%string, (Some 0%Q)); ("SST"%string, (Some 5%Q))]) [("OSTIA"%string, (Some 5%Q)); ("BGVAR"%string, (Some (1 # 100)%Q)); ("ICE"%string, (Some 0%Q))]); (with_exts (new_report (Some "AAAAAAAAA"%string) None [("YR"%string, (Some 2003%Q)); ("MO"%string, (Some 12%Q)); ("DY"%string, (Some 1%Q)); ("HR"%string, (Some (3 # 10)%Q)); ("LAT"%string, (Some 0%Q)); ("LON"%string, (Some 0%Q)); ("SST"%string, (Some 5%Q))]) [("OSTIA"%string, (Some 5%Q)); ("BGVAR"%string, (Some (1 # 100)%Q)); ("ICE"%string, (Some 0%Q))]); (with_exts (new_report (Some "AAAAAAAAA"%string) None [("YR"%string, (Some 2003%Q)); ("MO"%string, (Some 12%Q)); ("DY"%string, (Some 1%Q)); ("HR"%string, (Some (2 # 5)%Q)); ("LAT"%string, (Some 0%Q)); ("LON"%string, (Some 0%Q)); ("SST"%string, (Some 5%Q))]) [("OSTIA"%string, (Some 5%Q)); ("BGVAR"%string, (Some (1 # 100)%Q)); ("ICE"%string, (Some 0%Q))]); (with_exts (new_report (Some "AAAAAAAAA"%string) None [("YR"%string, (Some 2003%Q)); ("MO"%string, (Some 12%Q)); ("DY"%string, (Some 1%Q)); ("HR"%string, (Some (1 # 2)%Q)); ("LAT"%string, (Some 0%Q)); ("LON"%string, (Some 0%Q)); ("SST"%string, (Some 6%Q))]) [("OSTIA"%string, (Some 5%Q)); ("BGVAR"%string, (Some (1 # 100)%Q)); ("ICE"%string, (Some 0%Q))]); (with_exts (new_report (Some "AAAAAAAAA"%string) None [("YR"%string, (Some 2003%Q)); ("MO"%string, (Some 12%Q)); ("DY"%string, (Some 1%Q)); ("HR"%string, (Some (3 # 5)%Q)); ("LAT"%string, (Some 0%Q)); ("LON"%string, (Some 0%Q)); ("SST"%string, (Some 6%Q))]) [("OSTIA"%string, (Some 5%Q)); ("BGVAR"%string, (Some (1 # 100)%Q)); ("ICE"%string, (Some 0%Q))]); (with_exts (new_report (Some "AAAAAAAAA"%string) None [("YR"%string, (Some 2003%Q)); ("MO"%string, (Some 12%Q)); ("DY"%string, (Some 1%Q)); ("HR"%string, (Some (7 # 10)%Q)); ("LAT"%string, (Some 0%Q)); ("LON"%string, (Some 0%Q)); ("SST"%string, (Some 6%Q))]) [("OSTIA"%string, (Some 5%Q)); ("BGVAR"%string, (Some (1 # 100)%Q)); ("ICE"%string, (Some 0%Q))]); (with_exts (new_report (Some "AAAAAAAAA"%string) None [("YR"%string, (Some 2003%Q)); ("MO"%string, (Some 12%Q)); ("DY"%string, (Some 1%Q)); ("HR"%string, (Some (4 # 5)%Q)); ("LAT"%string, (Some 0%Q)); ("LON"%string, (Some 0%Q)); ("SST"%string, (Some 6%Q))]) [("OSTIA"%string, (Some 5%Q)); ("BGVAR"%string, (Some (1 # 100)%Q)); ("ICE"%string, (Some 0%Q))])]) (sst_tail_check n_elevation n_sqrt {| tl_long := 3; tl_long_n := 3; tl_short := 1; tl_short_n := 3; tl_bad := 1; tl_inter := (29 # 100); tl_intra := 1; tl_lim := (3 # 10) |})) in
  all [flags x1 "SST"%string "drf_tail1"%string [0; 0; 0; 0; 0; 0; 0; 0; 0];
  flags x1 "SST"%string "drf_tail2"%string [0; 0; 0; 0; 0; 0; 1; 1; 1]]).
Example TestTrackQC_tail_check_test_end_tail_bias_is : TestTrackQC_tail_check_test_end_tail_bias = true.
Proof. reflexivity. Qed.
Definition TestTrackQC_tail_check_test_end_tail_bias_obs_missing : bool := Eval vm_compute in (let x1 := (on (voyage_of [] [(with_exts (new_report (Some "AAAAAAAAA"%string) None [("YR"%string, (Some 2003%Q)); ("MO"%string, (Some 12%Q)); ("DY"%string, (Some 1%Q)); ("HR"%string, (Some 0%Q)); ("LAT"%string, (Some 0%Q)); ("LON"%string, (Some 0%Q)); ("SST"%string, (Some 5%Q))]) [("OSTIA"%string, (Some 5%Q)); ("BGVAR"%string, (Some (1 # 100)%Q)); ("ICE"%string, (Some 0%Q))]); (with_exts (new_report (Some "AAAAAAAAA"%string) None [("YR"%string, (Some 2003%Q)); ("MO"%string, (Some 12%Q)); ("DY"%string, (Some 1%Q)); ("HR"%string, (Some (1 # 10)%Q)); ("LAT"%string, (Some 0%Q)); ("LON"%string, (Some 0%Q)); ("SST"%string, (Some 5%Q))]) [("OSTIA"%string, (Some 5%Q)); ("BGVAR"%string, (Some (1 # 100)%Q)); ("ICE"%string, (Some 0%Q))]); (with_exts (new_report (Some "AAAAAAAAA"%string) None [("YR"%string, (Some 2003%Q)); ("MO"%string, (Some 12%Q)); ("DY"%string, (Some 1%Q)); ("HR"%string, (Some (1 # 5)%Q)); ("LAT"%string, (Some 0%Q)); ("LON"%string, (Some 0%Q)); ("SST"%string, (Some 5%Q))]) [("OSTIA"%string, (Some 5%Q)); ("BGVAR"%string, (Some (1 # 100)%Q)); ("ICE"%string, (Some 0%Q))]); (with_exts (new_report (Some "AAAAAAAAA"%string) None [("YR"%string, (Some 2003%Q)); ("MO"%string, (Some 12%Q)); ("DY"%string, (Some 1%Q)); ("HR"%string, (Some (3 # 10)%Q)); ("LAT"%string, (Some 0%Q)); ("LON"%string, (Some 0%Q)); ("SST"%string, (Some 6%Q))]) [("OSTIA"%string, (Some 5%Q)); ("BGVAR"%string, (Some (1 # 100)%Q)); ("ICE"%string, (Some 0%Q))]); (with_exts (new_report (Some "AAAAAAAAA"%string) None [("YR"%string, (Some 2003%Q)); ("MO"%string, (Some 12%Q)); ("DY"%string, (Some 1%Q)); ("HR"%string, (Some (2 # 5)%Q)); ("LAT"%string, (Some 0%Q)); ("LON"%string, (Some 0%Q)); ("SST"%string, (Some 6%Q))]) [("OSTIA"%string, (Some 5%Q)); ("BGVAR"%string, (Some (1 # 100)%Q)); ("ICE"%string, (Some 0%Q))]); (with_exts (new_report (Some "AAAAAAAAA"%string) None [("YR"%string, (Some 2003%Q)); ("MO"%string, (Some 12%Q)); ("DY"%string, (Some 1%Q)); ("HR"%string, (Some (1 # 2)%Q)); ("LAT"%string, (Some 0%Q)); ("LON"%string, (Some 0%Q)); ("SST"%string, (Some 6%Q))]) [("OSTIA"%string, (Some 5%Q)); ("BGVAR"%string, (Some (1 # 100)%Q)); ("ICE"%string, (Some 0%Q))]); (with_exts (new_report (Some "AAAAAAAAA"%string) None [("YR"%string, (Some 2003%Q)); ("MO"%string, (Some 12%Q)); ("DY"%string, (Some 1%Q)); ("HR"%string, (Some (3 # 5)%Q)); ("LAT"%string, (Some 0%Q)); ("LON"%string, (Some 0%Q)); ("SST"%string, (Some 6%Q))]) [("OSTIA"%string, (Some 5%Q)); ("BGVAR"%string, (Some (1 # 100)%Q)); ("ICE"%string, (Some 0%Q))]); (with_exts (new_report (Some "AAAAAAAAA"%string) None [("YR"%string, (Some 2003%Q)); ("MO"%string, (Some 12%Q)); ("DY"%string, (Some 1%Q)); ("HR"%string, (Some (7 # 10)%Q)); ("LAT"%string, (Some 0%Q)); ("LON"%string, (Some 0%Q)); ("SST"%string, (Some 5%Q))]) [("OSTIA"%string, None); ("BGVAR"%string, (Some (1 # 100)%Q)); ("ICE"%string, (Some 0%Q))]); (with_exts (new_report (Some "AAAAAAAAA"%string) None [("YR"%string, (Some 2003%Q)); ("MO"%string, (Some 12%Q)); ("DY"%string, (Some 1%Q)); ("HR"%string, (Some (4 # 5)%Q)); ("LAT"%string, (Some 0%Q)); ("LON"%string, (Some 0%Q)); ("SST"%string, (Some 5%Q))]) [("OSTIA"%string, None); ("BGVAR"%string, (Some (1 # 100)%Q)); ("ICE"%string, (Some 0%Q))])]) (sst_tail_check n_elevation n_sqrt {| tl_long := 3; tl_long_n := 3; tl_short := 1; tl_short_n := 3; tl_bad := 1; tl_inter := (29 # 100); tl_intra := 1; tl_lim := (3 # 10) |})) in
  all [flags x1 "SST"%string "drf_tail1"%string [0; 0; 0; 0; 0; 0; 0; 0; 0];
  flags x1 "SST"%string "drf_tail2"%string [0; 0; 0; 0; 1; 1; 1; 1; 1]]).
Example TestTrackQC_tail_check_test_end_tail_bias_obs_missing_is : TestTrackQC_tail_check_test_end_tail_bias_obs_missing = true.
Proof. reflexivity. Qed.
Definition TestTrackQC_tail_check_test_start_tail_noisy : bool := Eval vm_compute in (let x1 := (on (voyage_of [] [(with_exts (new_report (Some "AAAAAAAAA"%string) None [("YR"%string, (Some 2003%Q)); ("MO"%string, (Some 12%Q)); ("DY"%string, (Some 1%Q)); ("HR"%string, (Some 0%Q)); ("LAT"%string, (Some 0%Q)); ("LON"%string, (Some 0%Q)); ("SST"%string, (Some 5%Q))]) [("OSTIA"%string, (Some 5%Q)); ("BGVAR"%string, (Some (1 # 100)%Q)); ("ICE"%string, (Some 0%Q))]); (with_exts (new_report (Some "AAAAAAAAA"%string) None [("YR"%string, (Some 2003%Q)); ("MO"%string, (Some 12%Q)); ("DY"%string, (Some 1%Q)); ("HR"%string, (Some (1 # 10)%Q)); ("LAT"%string, (Some 0%Q)); ("LON"%string, (Some 0%Q)); ("SST"%string, (Some (15 # 2)%Q))]) [("OSTIA"%string, (Some 5%Q)); ("BGVAR"%string, (Some (1 # 100)%Q)); ("ICE"%string, (Some 0%Q))]); (with_exts (new_report (Some "AAAAAAAAA"%string) None [("YR"%string, (Some 2003%Q)); ("MO"%string, (Some 12%Q)); ("DY"%string, (Some 1%Q)); ("HR"%string, (Some (1 # 5)%Q)); ("LAT"%string, (Some 0%Q)); ("LON"%string, (Some 0%Q)); ("SST"%string, (Some 5%Q))]) [("OSTIA"%string, (Some 5%Q)); ("BGVAR"%string, (Some (1 # 100)%Q)); ("ICE"%string, (Some 0%Q))]); (with_exts (new_report (Some "AAAAAAAAA"%string) None [("YR"%string, (Some 2003%Q)); ("MO"%string, (Some 12%Q)); ("DY"%string, (Some 1%Q)); ("HR"%string, (Some (3 # 10)%Q)); ("LAT"%string, (Some 0%Q)); ("LON"%string, (Some 0%Q)); ("SST"%string, (Some 5%Q))]) [("OSTIA"%string, (Some 5%Q)); ("BGVAR"%string, (Some (1 # 100)%Q)); ("ICE"%string, (Some 0%Q))]); (with_exts (new_report (Some "AAAAAAAAA"%string) None [("YR"%string, (Some 2003%Q)); ("MO"%string, (Some 12%Q)); ("DY"%string, (Some 1%Q)); ("HR"%string, (Some (2 # 5)%Q)); ("LAT"%string, (Some 0%Q)); ("LON"%string, (Some 0%Q)); ("SST"%string, (Some 5%Q))]) [("OSTIA"%string, (Some 5%Q)); ("BGVAR"%string, (Some (1 # 100)%Q)); ("ICE"%string, (Some 0%Q))]); (with_exts (new_report (Some "AAAAAAAAA"%string) None [("YR"%string, (Some 2003%Q)); ("MO"%string, (Some 12%Q)); ("DY"%string, (Some 1%Q)); ("HR"%string, (Some (1 # 2)%Q)); ("LAT"%string, (Some 0%Q)); ("LON"%string, (Some 0%Q)); ("SST"%string, (Some 5%Q))]) [("OSTIA"%string, (Some 5%Q)); ("BGVAR"%string, (Some (1 # 100)%Q)); ("ICE"%string, (Some 0%Q))]); (with_exts (new_report (Some "AAAAAAAAA"%string) None [("YR"%string, (Some 2003%Q)); ("MO"%string, (Some 12%Q)); ("DY"%string, (Some 1%Q)); ("HR"%string, (Some (3 # 5)%Q)); ("LAT"%string, (Some 0%Q)); ("LON"%string, (Some 0%Q)); ("SST"%string, (Some 5%Q))]) [("OSTIA"%string, (Some 5%Q)); ("BGVAR"%string, (Some (1 # 100)%Q)); ("ICE"%string, (Some 0%Q))]); (with_exts (new_report (Some "AAAAAAAAA"%string) None [("YR"%string, (Some 2003%Q)); ("MO"%string, (Some 12%Q)); ("DY"%string, (Some 1%Q)); ("HR"%string, (Some (7 # 10)%Q)); ("LAT"%string, (Some 0%Q)); ("LON"%string, (Some 0%Q)); ("SST"%string, (Some 5%Q))]) [("OSTIA"%string, (Some 5%Q)); ("BGVAR"%string, (Some (1 # 100)%Q)); ("ICE"%string, (Some 0%Q))]); (with_exts (new_report (Some "AAAAAAAAA"%string) None [("YR"%string, (Some 2003%Q)); ("MO"%string, (Some 12%Q)); ("DY"%string, (Some 1%Q)); ("HR"%string, (Some (4 # 5)%Q)); ("LAT"%string, (Some 0%Q)); ("LON"%string, (Some 0%Q)); ("SST"%string, (Some 5%Q))]) [("OSTIA"%string, (Some 5%Q)); ("BGVAR"%string, (Some (1 # 100)%Q)); ("ICE"%string, (Some 0%Q))])]) (sst_tail_check n_elevation n_sqrt {| tl_long := 3; tl_long_n := 3; tl_short := 1; tl_short_n := 3; tl_bad := 1; tl_inter := (29 # 100); tl_intra := 1; tl_lim := (3 # 10) |})) in
  all [flags x1 "SST"%string "drf_tail1"%string [1; 1; 1; 0; 0; 0; 0; 0; 0];
  flags x1 "SST"%string "drf_tail2"%string [0; 0; 0; 0; 0; 0; 0; 0; 0]]).
Example TestTrackQC_tail_check_test_start_tail_noisy_is : TestTrackQC_tail_check_test_start_tail_noisy = true.
Proof. reflexivity. Qed.
Definition TestTrackQC_tail_check_test_end_tail_noisy : bool := Eval vm_compute in (let x1 := (on (voyage_of [] [(with_exts (new_report (Some "AAAAAAAAA"%string) None [("YR"%string, (Some 2003%Q)); ("MO"%string, (Some 12%Q)); ("DY"%string, (Some 1%Q)); ("HR"%string, (Some 0%Q)); ("LAT"%string, (Some 0%Q)); ("LON"%string, (Some 0%Q)); ("SST"%string, (Some 5%Q))]) [("OSTIA"%string, (Some 5%Q)); ("BGVAR"%string, (Some (1 # 100)%Q)); ("ICE"%string, (Some 0%Q))]); (with_exts (new_report (Some "AAAAAAAAA"%string) None [("YR"%string, (Some 2003%Q)); ("MO"%string, (Some 12%Q)); ("DY"%string, (Some 1%Q)); ("HR"%string, (Some (1 # 10)%Q)); ("LAT"%string, (Some 0%Q)); ("LON"%string, (Some 0%Q)); ("SST"%string, (Some 5%Q))]) [("OSTIA"%string, (Some 5%Q)); ("BGVAR"%string, (Some (1 # 100)%Q)); ("ICE"%string, (Some 0%Q))]); (with_exts (new_report (Some "AAAAAAAAA"%string) None [("YR"%string, (Some 2003%Q)); ("MO"%string, (Some 12%Q)); ("DY"%string, (Some 1%Q)); ("HR"%string, (Some (1 # 5)%Q)); ("LAT"%string, (Some 0%Q)); ("LON"%string, (Some 0%Q)); ("SST"%string, (Some 5%Q))]) [("OSTIA"%string, (Some 5%Q)); ("BGVAR"%string, (Some (1 # 100)%Q)); ("ICE"%string, (Some 0%Q))]); (with_exts (new_report (Some "AAAAAAAAA"%string) None [("YR"%string, (Some 2003%Q)); ("MO"%string, (Some 12%Q)); ("DY"%string, (Some 1%Q)); ("HR"%string, (Some (3 # 10)%Q)); ("LAT"%string, (Some 0%Q)); ("LON"%string, (Some 0%Q)); ("SST"%string, (Some 5%Q))]) [("OSTIA"%string, (Some 5%Q)); ("BGVAR"%string, (Some (1 # 100)%Q)); ("ICE"%string, (Some 0%Q))]); (with_exts (new_report (Some "AAAAAAAAA"%string) None [("YR"%string, (Some 2003%Q)); ("MO"%string, (Some 12%Q)); ("DY"%string, (Some 1%Q)); ("HR"%string, (Some (2 # 5)%Q)); ("LAT"%string, (Some 0%Q)); ("LON"%string, (Some 0%Q)); ("SST"%string, (Some 5%Q))]) [("OSTIA"%string, (Some 5%Q)); ("BGVAR"%string, (Some (1 # 100)%Q)); ("ICE"%string, (Some 0%Q))]); (with_exts (new_report (Some "AAAAAAAAA"%string) None [("YR"%string, (Some 2003%Q)); ("MO"%string, (Some 12%Q)); ("DY"%string, (Some 1%Q)); ("HR"%string, (Some (1 # 2)%Q)); ("LAT"%string, (Some 0%Q)); ("LON"%string, (Some 0%Q)); ("SST"%string, (Some 5%Q))]) [("OSTIA"%string, (Some 5%Q)); ("BGVAR"%string, (Some (1 # 100)%Q)); ("ICE"%string, (Some 0%Q))]); (with_exts (new_report (Some "AAAAAAAAA"%string) None [("YR"%string, (Some 2003%Q)); ("MO"%string, (Some 12%Q)); ("DY"%string, (Some 1%Q)); ("HR"%string, (Some (3 # 5)%Q)); ("LAT"%string, (Some 0%Q)); ("LON"%string, (Some 0%Q)); ("SST"%string, (Some 5%Q))]) [("OSTIA"%string, (Some 5%Q)); ("BGVAR"%string, (Some (1 # 100)%Q)); ("ICE"%string, (Some 0%Q))]); (with_exts (new_report (Some "AAAAAAAAA"%string) None [("YR"%string, (Some 2003%Q)); ("MO"%string, (Some 12%Q)); ("DY"%string, (Some 1%Q)); ("HR"%string, (Some (7 # 10)%Q)); ("LAT"%string, (Some 0%Q)); ("LON"%string, (Some 0%Q)); ("SST"%string, (Some (15 # 2)%Q))]) [("OSTIA"%string, (Some 5%Q)); ("BGVAR"%string, (Some (1 # 100)%Q)); ("ICE"%string, (Some 0%Q))]); (with_exts (new_report (Some "AAAAAAAAA"%string) None [("YR"%string, (Some 2003%Q)); ("MO"%string, (Some 12%Q)); ("DY"%string, (Some 1%Q)); ("HR"%string, (Some (4 # 5)%Q)); ("LAT"%string, (Some 0%Q)); ("LON"%string, (Some 0%Q)); ("SST"%string, (Some 5%Q))]) [("OSTIA"%string, (Some 5%Q)); ("BGVAR"%string, (Some (1 # 100)%Q)); ("ICE"%string, (Some 0%Q))])]) (sst_tail_check n_elevation n_sqrt {| tl_long := 3; tl_long_n := 3; tl_short := 1; tl_short_n := 3; tl_bad := 1; tl_inter := (29 # 100); tl_intra := 1; tl_lim := (3 # 10) |})) in
  all [flags x1 "SST"%string "drf_tail1"%string [0; 0; 0; 0; 0; 0; 0; 0; 0];
  flags x1 "SST"%string "drf_tail2"%string [0; 0; 0; 0; 0; 0; 1; 1; 1]]).
Example TestTrackQC_tail_check_test_end_tail_noisy_is : TestTrackQC_tail_check_test_end_tail_noisy = true.
Proof. reflexivity. Qed.
Definition TestTrackQC_tail_check_test_two_tails : bool := Eval vm_compute in (let x1 := (on (voyage_of [] [(with_exts (new_report (Some "AAAAAAAAA"%string) None [("YR"%string, (Some 2003%Q)); ("MO"%string, (Some 12%Q)); ("DY"%string, (Some 1%Q)); ("HR"%string, (Some 0%Q)); ("LAT"%string, (Some 0%Q)); ("LON"%string, (Some 0%Q)); ("SST"%string, (Some 6%Q))]) [("OSTIA"%string, (Some 5%Q)); ("BGVAR"%string, (Some (1 # 100)%Q)); ("ICE"%string, (Some 0%Q))]); (with_exts (new_report (Some "AAAAAAAAA"%string) None [("YR"%string, (Some 2003%Q)); ("MO"%string, (Some 12%Q)); ("DY"%string, (Some 1%Q)); ("HR"%string, (Some (1 # 10)%Q)); ("LAT"%string, (Some 0%Q)); ("LON"%string, (Some 0%Q)); ("SST"%string, (Some 6%Q))]) [("OSTIA"%string, (Some 5%Q)); ("BGVAR"%string, (Some (1 # 100)%Q)); ("ICE"%string, (Some 0%Q))]); (with_exts (new_report (Some "AAAAAAAAA"%string) None [("YR"%string, (Some 2003%Q)); ("MO"%string, (Some 12%Q)); ("DY"%string, (Some 1%Q)); ("HR"%string, (Some (1 # 5)%Q)); ("LAT"%string, (Some 0%Q)); ("LON"%string, (Some 0%Q)); ("SST"%string, (Some 6%Q))]) [("OSTIA"%string, (Some 5%Q)); ("BGVAR"%string, (Some (1 # 100)%Q)); ("ICE"%string, (Some 0%Q))]); (with_exts (new_report (Some "AAAAAAAAA"%string) None [("YR"%string, (Some 2003%Q)); ("MO"%string, (Some 12%Q)); ("DY"%string, (Some 1%Q)); ("HR"%string, (Some (3 # 10)%Q)); ("LAT"%string, (Some 0%Q)); ("LON"%string, (Some 0%Q)); ("SST"%string, (Some 6%Q))]) [("OSTIA"%string, (Some 5%Q)); ("BGVAR"%string, (Some (1 # 100)%Q)); ("ICE"%string, (Some 0%Q))]); (with_exts (new_report (Some "AAAAAAAAA"%string) None [("YR"%string, (Some 2003%Q)); ("MO"%string, (Some 12%Q)); ("DY"%string, (Some 1%Q)); ("HR"%string, (Some (2 # 5)%Q)); ("LAT"%string, (Some 0%Q)); ("LON"%string, (Some 0%Q)); ("SST"%string, (Some 5%Q))]) [("OSTIA"%string, (Some 5%Q)); ("BGVAR"%string, (Some (1 # 100)%Q)); ("ICE"%string, (Some 0%Q))]); (with_exts (new_report (Some "AAAAAAAAA"%string) None [("YR"%string, (Some 2003%Q)); ("MO"%string, (Some 12%Q)); ("DY"%string, (Some 1%Q)); ("HR"%string, (Some (1 # 2)%Q)); ("LAT"%string, (Some 0%Q)); ("LON"%string, (Some 0%Q)); ("SST"%string, (Some 5%Q))]) [("OSTIA"%string, (Some 5%Q)); ("BGVAR"%string, (Some (1 # 100)%Q)); ("ICE"%string, (Some 0%Q))]); (with_exts (new_report (Some "AAAAAAAAA"%string) None [("YR"%string, (Some 2003%Q)); ("MO"%string, (Some 12%Q)); ("DY"%string, (Some 1%Q)); ("HR"%string, (Some (3 # 5)%Q)); ("LAT"%string, (Some 0%Q)); ("LON"%string, (Some 0%Q)); ("SST"%string, (Some 5%Q))]) [("OSTIA"%string, (Some 5%Q)); ("BGVAR"%string, (Some (1 # 100)%Q)); ("ICE"%string, (Some 0%Q))]); (with_exts (new_report (Some "AAAAAAAAA"%string) None [("YR"%string, (Some 2003%Q)); ("MO"%string, (Some 12%Q)); ("DY"%string, (Some 1%Q)); ("HR"%string, (Some (7 # 10)%Q)); ("LAT"%string, (Some 0%Q)); ("LON"%string, (Some 0%Q)); ("SST"%string, (Some (15 # 2)%Q))]) [("OSTIA"%string, (Some 5%Q)); ("BGVAR"%string, (Some (1 # 100)%Q)); ("ICE"%string, (Some 0%Q))]); (with_exts (new_report (Some "AAAAAAAAA"%string) None [("YR"%string, (Some 2003%Q)); ("MO"%string, (Some 12%Q)); ("DY"%string, (Some 1%Q)); ("HR"%string, (Some (4 # 5)%Q)); ("LAT"%string, (Some 0%Q)); ("LON"%string, (Some 0%Q)); ("SST"%string, (Some 5%Q))]) [("OSTIA"%string, (Some 5%Q)); ("BGVAR"%string, (Some (1 # 100)%Q)); ("ICE"%string, (Some 0%Q))])]) (sst_tail_check n_elevation n_sqrt {| tl_long := 3; tl_long_n := 3; tl_short := 1; tl_short_n := 3; tl_bad := 1; tl_inter := (29 # 100); tl_intra := 1; tl_lim := (3 # 10) |})) in
  all [flags x1 "SST"%string "drf_tail1"%string [1; 1; 1; 0; 0; 0; 0; 0; 0];
  flags x1 "SST"%string "drf_tail2"%string [0; 0; 0; 0; 0; 0; 1; 1; 1]]).
Example TestTrackQC_tail_check_test_two_tails_is : TestTrackQC_tail_check_test_two_tails = true.
Proof. reflexivity. Qed.
Definition TestTrackQC_tail_check_test_all_biased : bool := Eval vm_compute in (let x1 := (on (voyage_of [] [(with_exts (new_report (Some "AAAAAAAAA"%string) None [("YR"%string, (Some 2003%Q)); ("MO"%string, (Some 12%Q)); ("DY"%string, (Some 1%Q)); ("HR"%string, (Some 0%Q)); ("LAT"%string, (Some 0%Q)); ("LON"%string, (Some 0%Q)); ("SST"%string, (Some 6%Q))]) [("OSTIA"%string, (Some 5%Q)); ("BGVAR"%string, (Some (1 # 100)%Q)); ("ICE"%string, (Some 0%Q))]); (with_exts (new_report (Some "AAAAAAAAA"%string) None [("YR"%string, (Some 2003%Q)); ("MO"%string, (Some 12%Q)); ("DY"%string, (Some 1%Q)); ("HR"%string, (Some (1 # 10)%Q)); ("LAT"%string, (Some 0%Q)); ("LON"%string, (Some 0%Q)); ("SST"%string, (Some 6%Q))]) [("OSTIA"%string, (Some 5%Q)); ("BGVAR"%string, (Some (1 # 100)%Q)); ("ICE"%string, (Some 0%Q))]); (with_exts (new_report (Some "AAAAAAAAA"%string) None [("YR"%string, (Some 2003%Q)); ("MO"%string, (Some 12%Q)); ("DY"%string, (Some 1%Q)); ("HR"%string, (Some (1 # 5)%Q)); ("LAT"%string, (Some 0%Q)); ("LON"%string, (Some 0%Q)); ("SST"%string, (Some 6%Q))]) [("OSTIA"%string, (Some 5%Q)); ("BGVAR"%string, (Some (1 # 100)%Q)); ("ICE"%string, (Some 0%Q))]); (with_exts (new_report (Some "AAAAAAAAA"%string) None [("YR"%string, (Some 2003%Q)); ("MO"%string, (Some 12%Q)); ("DY"%string, (Some 1%Q)); ("HR"%string, (Some (3 # 10)%Q)); ("LAT"%string, (Some 0%Q)); ("LON"%string, (Some 0%Q)); ("SST"%string, (Some 6%Q))]) [("OSTIA"%string, (Some 5%Q)); ("BGVAR"%string, (Some (1 # 100)%Q)); ("ICE"%string, (Some 0%Q))]); (with_exts (new_report (Some "AAAAAAAAA"%string) None [("YR"%string, (Some 2003%Q)); ("MO"%string, (Some 12%Q)); ("DY"%string, (Some 1%Q)); ("HR"%string, (Some (2 # 5)%Q)); ("LAT"%string, (Some 0%Q)); ("LON"%string, (Some 0%Q)); ("SST"%string, (Some 6%Q))]) [("OSTIA"%string, (Some 5%Q)); ("BGVAR"%string, (Some (1 # 100)%Q)); ("ICE"%string, (Some 0%Q))]); (with_exts (new_report (Some "AAAAAAAAA"%string) None [("YR"%string, (Some 2003%Q)); ("MO"%string, (Some 12%Q)); ("DY"%string, (Some 1%Q)); ("HR"%string, (Some (1 # 2)%Q)); ("LAT"%string, (Some 0%Q)); ("LON"%string, (Some 0%Q)); ("SST"%string, (Some 6%Q))]) [("OSTIA"%string, (Some 5%Q)); ("BGVAR"%string, (Some (1 # 100)%Q)); ("ICE"%string, (Some 0%Q))]); (with_exts (new_report (Some "AAAAAAAAA"%string) None [("YR"%string, (Some 2003%Q)); ("MO"%string, (Some 12%Q)); ("DY"%string, (Some 1%Q)); ("HR"%string, (Some (3 # 5)%Q)); ("LAT"%string, (Some 0%Q)); ("LON"%string, (Some 0%Q)); ("SST"%string, (Some 6%Q))]) [("OSTIA"%string, (Some 5%Q)); ("BGVAR"%string, (Some (1 # 100)%Q)); ("ICE"%string, (Some 0%Q))]); (with_exts (new_report (Some "AAAAAAAAA"%string) None [("YR"%string, (Some 2003%Q)); ("MO"%string, (Some 12%Q)); ("DY"%string, (Some 1%Q)); ("HR"%string, (Some (7 # 10)%Q)); ("LAT"%string, (Some 0%Q)); ("LON"%string, (Some 0%Q)); ("SST"%string, (Some 6%Q))]) [("OSTIA"%string, (Some 5%Q)); ("BGVAR"%string, (Some (1 # 100)%Q)); ("ICE"%string, (Some 0%Q))]); (with_exts (new_report (Some "AAAAAAAAA"%string) None [("YR"%string, (Some 2003%Q)); ("MO"%string, (Some 12%Q)); ("DY"%string, (Some 1%Q)); ("HR"%string, (Some (4 # 5)%Q)); ("LAT"%string, (Some 0%Q)); ("LON"%string, (Some 0%Q)); ("SST"%string, (Some 6%Q))]) [("OSTIA"%string, (Some 5%Q)); ("BGVAR"%string, (Some (1 # 100)%Q)); ("ICE"%string, (Some 0%Q))])]) (sst_tail_check n_elevation n_sqrt {| tl_long := 3; tl_long_n := 3; tl_short := 1; tl_short_n := 3; tl_bad := 1; tl_inter := (29 # 100); tl_intra := 1; tl_lim := (3 # 10) |})) in
  all [flags x1 "SST"%string "drf_tail1"%string [0; 0; 0; 0; 0; 0; 0; 0; 0];
  flags x1 "SST"%string "drf_tail2"%string [0; 0; 0; 0; 0; 0; 0; 0; 0]]).
Example TestTrackQC_tail_check_test_all_biased_is : TestTrackQC_tail_check_test_all_biased = true.
Proof. reflexivity. Qed.
Definition TestTrackQC_tail_check_test_all_noisy : bool := Eval vm_compute in (let x1 := (on (voyage_of [] [(with_exts (new_report (Some "AAAAAAAAA"%string) None [("YR"%string, (Some 2003%Q)); ("MO"%string, (Some 12%Q)); ("DY"%string, (Some 1%Q)); ("HR"%string, (Some 0%Q)); ("LAT"%string, (Some 0%Q)); ("LON"%string, (Some 0%Q)); ("SST"%string, (Some 5%Q))]) [("OSTIA"%string, (Some 5%Q)); ("BGVAR"%string, (Some (1 # 100)%Q)); ("ICE"%string, (Some 0%Q))]); (with_exts (new_report (Some "AAAAAAAAA"%string) None [("YR"%string, (Some 2003%Q)); ("MO"%string, (Some 12%Q)); ("DY"%string, (Some 1%Q)); ("HR"%string, (Some (1 # 10)%Q)); ("LAT"%string, (Some 0%Q)); ("LON"%string, (Some 0%Q)); ("SST"%string, (Some 5%Q))]) [("OSTIA"%string, (Some 5%Q)); ("BGVAR"%string, (Some (1 # 100)%Q)); ("ICE"%string, (Some 0%Q))]); (with_exts (new_report (Some "AAAAAAAAA"%string) None [("YR"%string, (Some 2003%Q)); ("MO"%string, (Some 12%Q)); ("DY"%string, (Some 1%Q)); ("HR"%string, (Some (1 # 5)%Q)); ("LAT"%string, (Some 0%Q)); ("LON"%string, (Some 0%Q)); ("SST"%string, (Some (15 # 2)%Q))]) [("OSTIA"%string, (Some 5%Q)); ("BGVAR"%string, (Some (1 # 100)%Q)); ("ICE"%string, (Some 0%Q))]); (with_exts (new_report (Some "AAAAAAAAA"%string) None [("YR"%string, (Some 2003%Q)); ("MO"%string, (Some 12%Q)); ("DY"%string, (Some 1%Q)); ("HR"%string, (Some (3 # 10)%Q)); ("LAT"%string, (Some 0%Q)); ("LON"%string, (Some 0%Q)); ("SST"%string, (Some 5%Q))]) [("OSTIA"%string, (Some 5%Q)); ("BGVAR"%string, (Some (1 # 100)%Q)); ("ICE"%string, (Some 0%Q))]); (with_exts (new_report (Some "AAAAAAAAA"%string) None [("YR"%string, (Some 2003%Q)); ("MO"%string, (Some 12%Q)); ("DY"%string, (Some 1%Q)); ("HR"%string, (Some (2 # 5)%Q)); ("LAT"%string, (Some 0%Q)); ("LON"%string, (Some 0%Q)); ("SST"%string, (Some (15 # 2)%Q))]) [("OSTIA"%string, (Some 5%Q)); ("BGVAR"%string, (Some (1 # 100)%Q)); ("ICE"%string, (Some 0%Q))]); (with_exts (new_report (Some "AAAAAAAAA"%string) None [("YR"%string, (Some 2003%Q)); ("MO"%string, (Some 12%Q)); ("DY"%string, (Some 1%Q)); ("HR"%string, (Some (1 # 2)%Q)); ("LAT"%string, (Some 0%Q)); ("LON"%string, (Some 0%Q)); ("SST"%string, (Some 5%Q))]) [("OSTIA"%string, (Some 5%Q)); ("BGVAR"%string, (Some (1 # 100)%Q)); ("ICE"%string, (Some 0%Q))]); (with_exts (new_report (Some "AAAAAAAAA"%string) None [("YR"%string, (Some 2003%Q)); ("MO"%string, (Some 12%Q)); ("DY"%string, (Some 1%Q)); ("HR"%string, (Some (3 # 5)%Q)); ("LAT"%string, (Some 0%Q)); ("LON"%string, (Some 0%Q)); ("SST"%string, (Some (15 # 2)%Q))]) [("OSTIA"%string, (Some 5%Q)); ("BGVAR"%string, (Some (1 # 100)%Q)); ("ICE"%string, (Some 0%Q))]); (with_exts (new_report (Some "AAAAAAAAA"%string) None [("YR"%string, (Some 2003%Q)); ("MO"%string, (Some 12%Q)); ("DY"%string, (Some 1%Q)); ("HR"%string, (Some (7 # 10)%Q)); ("LAT"%string, (Some 0%Q)); ("LON"%string, (Some 0%Q)); ("SST"%string, (Some 5%Q))]) [("OSTIA"%string, (Some 5%Q)); ("BGVAR"%string, (Some (1 # 100)%Q)); ("ICE"%string, (Some 0%Q))]); (with_exts (new_report (Some "AAAAAAAAA"%string) None [("YR"%string, (Some 2003%Q)); ("MO"%string, (Some 12%Q)); ("DY"%string, (Some 1%Q)); ("HR"%string, (Some (4 # 5)%Q)); ("LAT"%string, (Some 0%Q)); ("LON"%string, (Some 0%Q)); ("SST"%string, (Some 5%Q))]) [("OSTIA"%string, (Some 5%Q)); ("BGVAR"%string, (Some (1 # 100)%Q)); ("ICE"%string, (Some 0%Q))])]) (sst_tail_check n_elevation n_sqrt {| tl_long := 3; tl_long_n := 3; tl_short := 1; tl_short_n := 3; tl_bad := 1; tl_inter := (29 # 100); tl_intra := 1; tl_lim := (3 # 10) |})) in
  all [flags x1 "SST"%string "drf_tail1"%string [0; 0; 0; 0; 0; 0; 0; 0; 0];
  flags x1 "SST"%string "drf_tail2"%string [0; 0; 0; 0; 0; 0; 0; 0; 0]]).
Example TestTrackQC_tail_check_test_all_noisy_is : TestTrackQC_tail_check_test_all_noisy = true.
Proof. reflexivity. Qed.
Definition TestTrackQC_tail_check_test_start_tail_bias_with_bgvar : bool := Eval vm_compute in (let x1 := (on (voyage_of [] [(with_exts (new_report (Some "AAAAAAAAA"%string) None [("YR"%string, (Some 2003%Q)); ("MO"%string, (Some 12%Q)); ("DY"%string, (Some 1%Q)); ("HR"%string, (Some 0%Q)); ("LAT"%string, (Some 0%Q)); ("LON"%string, (Some 0%Q)); ("SST"%string, (Some 6%Q))]) [("OSTIA"%string, (Some 5%Q)); ("BGVAR"%string, (Some (1 # 100)%Q)); ("ICE"%string, (Some 0%Q))]); (with_exts (new_report (Some "AAAAAAAAA"%string) None [("YR"%string, (Some 2003%Q)); ("MO"%string, (Some 12%Q)); ("DY"%string, (Some 1%Q)); ("HR"%string, (Some (1 # 10)%Q)); ("LAT"%string, (Some 0%Q)); ("LON"%string, (Some 0%Q)); ("SST"%string, (Some 6%Q))]) [("OSTIA"%string, (Some 5%Q)); ("BGVAR"%string, (Some (1 # 100)%Q)); ("ICE"%string, (Some 0%Q))]); (with_exts (new_report (Some "AAAAAAAAA"%string) None [("YR"%string, (Some 2003%Q)); ("MO"%string, (Some 12%Q)); ("DY"%string, (Some 1%Q)); ("HR"%string, (Some (1 # 5)%Q)); ("LAT"%string, (Some 0%Q)); ("LON"%string, (Some 0%Q)); ("SST"%string, (Some 6%Q))]) [("OSTIA"%string, (Some 5%Q)); ("BGVAR"%string, (Some (1 # 100)%Q)); ("ICE"%string, (Some 0%Q))]); (with_exts (new_report (Some "AAAAAAAAA"%string) None [("YR"%string, (Some 2003%Q)); ("MO"%string, (Some 12%Q)); ("DY"%string, (Some 1%Q)); ("HR"%string, (Some (3 # 10)%Q)); ("LAT"%string, (Some 0%Q)); ("LON"%string, (Some 0%Q)); ("SST"%string, (Some 6%Q))]) [("OSTIA"%string, (Some 5%Q)); ("BGVAR"%string, (Some (2 # 5)%Q)); ("ICE"%string, (Some 0%Q))]); (with_exts (new_report (Some "AAAAAAAAA"%string) None [("YR"%string, (Some 2003%Q)); ("MO"%string, (Some 12%Q)); ("DY"%string, (Some 1%Q)); ("HR"%string, (Some (2 # 5)%Q)); ("LAT"%string, (Some 0%Q)); ("LON"%string, (Some 0%Q)); ("SST"%string, (Some 5%Q))]) [("OSTIA"%string, (Some 5%Q)); ("BGVAR"%string, (Some (1 # 100)%Q)); ("ICE"%string, (Some 0%Q))]); (with_exts (new_report (Some "AAAAAAAAA"%string) None [("YR"%string, (Some 2003%Q)); ("MO"%string, (Some 12%Q)); ("DY"%string, (Some 1%Q)); ("HR"%string, (Some (1 # 2)%Q)); ("LAT"%string, (Some 0%Q)); ("LON"%string, (Some 0%Q)); ("SST"%string, (Some 5%Q))]) [("OSTIA"%string, (Some 5%Q)); ("BGVAR"%string, (Some (1 # 100)%Q)); ("ICE"%string, (Some 0%Q))]); (with_exts (new_report (Some "AAAAAAAAA"%string) None [("YR"%string, (Some 2003%Q)); ("MO"%string, (Some 12%Q)); ("DY"%string, (Some 1%Q)); ("HR"%string, (Some (3 # 5)%Q)); ("LAT"%string, (Some 0%Q)); ("LON"%string, (Some 0%Q)); ("SST"%string, (Some 5%Q))]) [("OSTIA"%string, (Some 5%Q)); ("BGVAR"%string, (Some (1 # 100)%Q)); ("ICE"%string, (Some 0%Q))]); (with_exts (new_report (Some "AAAAAAAAA"%string) None [("YR"%string, (Some 2003%Q)); ("MO"%string, (Some 12%Q)); ("DY"%string, (Some 1%Q)); ("HR"%string, (Some (7 # 10)%Q)); ("LAT"%string, (Some 0%Q)); ("LON"%string, (Some 0%Q)); ("SST"%string, (Some 5%Q))]) [("OSTIA"%string, (Some 5%Q)); ("BGVAR"%string, (Some (1 # 100)%Q)); ("ICE"%string, (Some 0%Q))]); (with_exts (new_report (Some "AAAAAAAAA"%string) None [("YR"%string, (Some 2003%Q)); ("MO"%string, (Some 12%Q)); ("DY"%string, (Some 1%Q)); ("HR"%string, (Some (4 # 5)%Q)); ("LAT"%string, (Some 0%Q)); ("LON"%string, (Some 0%Q)); ("SST"%string, (Some 5%Q))]) [("OSTIA"%string, (Some 5%Q)); ("BGVAR"%string, (Some (1 # 100)%Q)); ("ICE"%string, (Some 0%Q))])]) (sst_tail_check n_elevation n_sqrt {| tl_long := 3; tl_long_n := 3; tl_short := 1; tl_short_n := 3; tl_bad := 1; tl_inter := (29 # 100); tl_intra := 1; tl_lim := (3 # 10) |})) in
  all [flags x1 "SST"%string "drf_tail1"%string [1; 1; 0; 0; 0; 0; 0; 0; 0];
  flags x1 "SST"%string "drf_tail2"%string [0; 0; 0; 0; 0; 0; 0; 0; 0]]).
Example TestTrackQC_tail_check_test_start_tail_bias_with_bgvar_is : TestTrackQC_tail_check_test_start_tail_bias_with_bgvar = true.
Proof. reflexivity. Qed.
Definition TestTrackQC_tail_check_test_all_biased_with_bgvar : bool := Eval vm_compute in (let x1 := (on (voyage_of [] [(with_exts (new_report (Some "AAAAAAAAA"%string) None [("YR"%string, (Some 2003%Q)); ("MO"%string, (Some 12%Q)); ("DY"%string, (Some 1%Q)); ("HR"%string, (Some 0%Q)); ("LAT"%string, (Some 0%Q)); ("LON"%string, (Some 0%Q)); ("SST"%string, (Some 6%Q))]) [("OSTIA"%string, (Some 5%Q)); ("BGVAR"%string, (Some (1 # 100)%Q)); ("ICE"%string, (Some 0%Q))]); (with_exts (new_report (Some "AAAAAAAAA"%string) None [("YR"%string, (Some 2003%Q)); ("MO"%string, (Some 12%Q)); ("DY"%string, (Some 1%Q)); ("HR"%string, (Some (1 # 10)%Q)); ("LAT"%string, (Some 0%Q)); ("LON"%string, (Some 0%Q)); ("SST"%string, (Some 6%Q))]) [("OSTIA"%string, (Some 5%Q)); ("BGVAR"%string, (Some (1 # 100)%Q)); ("ICE"%string, (Some 0%Q))]); (with_exts (new_report (Some "AAAAAAAAA"%string) None [("YR"%string, (Some 2003%Q)); ("MO"%string, (Some 12%Q)); ("DY"%string, (Some 1%Q)); ("HR"%string, (Some (1 # 5)%Q)); ("LAT"%string, (Some 0%Q)); ("LON"%string, (Some 0%Q)); ("SST"%string, (Some 6%Q))]) [("OSTIA"%string, (Some 5%Q)); ("BGVAR"%string, (Some (1 # 100)%Q)); ("ICE"%string, (Some 0%Q))]); (with_exts (new_report (Some "AAAAAAAAA"%string) None [("YR"%string, (Some 2003%Q)); ("MO"%string, (Some 12%Q)); ("DY"%string, (Some 1%Q)); ("HR"%string, (Some (3 # 10)%Q)); ("LAT"%string, (Some 0%Q)); ("LON"%string, (Some 0%Q)); ("SST"%string, (Some 6%Q))]) [("OSTIA"%string, (Some 5%Q)); ("BGVAR"%string, (Some (1 # 100)%Q)); ("ICE"%string, (Some 0%Q))]); (with_exts (new_report (Some "AAAAAAAAA"%string) None [("YR"%string, (Some 2003%Q)); ("MO"%string, (Some 12%Q)); ("DY"%string, (Some 1%Q)); ("HR"%string, (Some (2 # 5)%Q)); ("LAT"%string, (Some 0%Q)); ("LON"%string, (Some 0%Q)); ("SST"%string, (Some 6%Q))]) [("OSTIA"%string, (Some 5%Q)); ("BGVAR"%string, (Some (2 # 5)%Q)); ("ICE"%string, (Some 0%Q))]); (with_exts (new_report (Some "AAAAAAAAA"%string) None [("YR"%string, (Some 2003%Q)); ("MO"%string, (Some 12%Q)); ("DY"%string, (Some 1%Q)); ("HR"%string, (Some (1 # 2)%Q)); ("LAT"%string, (Some 0%Q)); ("LON"%string, (Some 0%Q)); ("SST"%string, (Some 6%Q))]) [("OSTIA"%string, (Some 5%Q)); ("BGVAR"%string, (Some (1 # 100)%Q)); ("ICE"%string, (Some 0%Q))]); (with_exts (new_report (Some "AAAAAAAAA"%string) None [("YR"%string, (Some 2003%Q)); ("MO"%string, (Some 12%Q)); ("DY"%string, (Some 1%Q)); ("HR"%string, (Some (3 # 5)%Q)); ("LAT"%string, (Some 0%Q)); ("LON"%string, (Some 0%Q)); ("SST"%string, (Some 6%Q))]) [("OSTIA"%string, (Some 5%Q)); ("BGVAR"%string, (Some (1 # 100)%Q)); ("ICE"%string, (Some 0%Q))]); (with_exts (new_report (Some "AAAAAAAAA"%string) None [("YR"%string, (Some 2003%Q)); ("MO"%string, (Some 12%Q)); ("DY"%string, (Some 1%Q)); ("HR"%string, (Some (7 # 10)%Q)); ("LAT"%string, (Some 0%Q)); ("LON"%string, (Some 0%Q)); ("SST"%string, (Some 6%Q))]) [("OSTIA"%string, (Some 5%Q)); ("BGVAR"%string, (Some (1 # 100)%Q)); ("ICE"%string, (Some 0%Q))]); (with_exts (new_report (Some "AAAAAAAAA"%string) None [("YR"%string, (Some 2003%Q)); ("MO"%string, (Some 12%Q)); ("DY"%string, (Some 1%Q)); ("HR"%string, (Some (4 # 5)%Q)); ("LAT"%string, (Some 0%Q)); ("LON"%string, (Some 0%Q)); ("SST"%string, (Some 6%Q))]) [("OSTIA"%string, (Some 5%Q)); ("BGVAR"%string, (Some (1 # 100)%Q)); ("ICE"%string, (Some 0%Q))])]) (sst_tail_check n_elevation n_sqrt {| tl_long := 3; tl_long_n := 3; tl_short := 1; tl_short_n := 3; tl_bad := 1; tl_inter := (29 # 100); tl_intra := 1; tl_lim := (3 # 10) |})) in
  all [flags x1 "SST"%string "drf_tail1"%string [1; 1; 1; 0; 0; 0; 0; 0; 0];
  flags x1 "SST"%string "drf_tail2"%string [0; 0; 0; 0; 0; 0; 1; 1; 1]]).
Example TestTrackQC_tail_check_test_all_biased_with_bgvar_is : TestTrackQC_tail_check_test_all_biased_with_bgvar = true.
Proof. reflexivity. Qed.
Definition TestTrackQC_tail_check_test_short_start_tail : bool := Eval vm_compute in (let x1 := (on (voyage_of [] [(with_exts (new_report (Some "AAAAAAAAA"%string) None [("YR"%string, (Some 2003%Q)); ("MO"%string, (Some 12%Q)); ("DY"%string, (Some 1%Q)); ("HR"%string, (Some 0%Q)); ("LAT"%string, (Some 0%Q)); ("LON"%string, (Some 0%Q)); ("SST"%string, (Some (36 # 5)%Q))]) [("OSTIA"%string, (Some 5%Q)); ("BGVAR"%string, (Some (1 # 100)%Q)); ("ICE"%string, (Some 0%Q))]); (with_exts (new_report (Some "AAAAAAAAA"%string) None [("YR"%string, (Some 2003%Q)); ("MO"%string, (Some 12%Q)); ("DY"%string, (Some 1%Q)); ("HR"%string, (Some (1 # 10)%Q)); ("LAT"%string, (Some 0%Q)); ("LON"%string, (Some 0%Q)); ("SST"%string, (Some (36 # 5)%Q))]) [("OSTIA"%string, (Some 5%Q)); ("BGVAR"%string, (Some (1 # 100)%Q)); ("ICE"%string, (Some 0%Q))]); (with_exts (new_report (Some "AAAAAAAAA"%string) None [("YR"%string, (Some 2003%Q)); ("MO"%string, (Some 12%Q)); ("DY"%string, (Some 1%Q)); ("HR"%string, (Some (1 # 5)%Q)); ("LAT"%string, (Some 0%Q)); ("LON"%string, (Some 0%Q)); ("SST"%string, (Some 5%Q))]) [("OSTIA"%string, (Some 5%Q)); ("BGVAR"%string, (Some (1 # 100)%Q)); ("ICE"%string, (Some 0%Q))]); (with_exts (new_report (Some "AAAAAAAAA"%string) None [("YR"%string, (Some 2003%Q)); ("MO"%string, (Some 12%Q)); ("DY"%string, (Some 1%Q)); ("HR"%string, (Some (3 # 10)%Q)); ("LAT"%string, (Some 0%Q)); ("LON"%string, (Some 0%Q)); ("SST"%string, (Some 5%Q))]) [("OSTIA"%string, (Some 5%Q)); ("BGVAR"%string, (Some (1 # 100)%Q)); ("ICE"%string, (Some 0%Q))]); (with_exts (new_report (Some "AAAAAAAAA"%string) None [("YR"%string, (Some 2003%Q)); ("MO"%string, (Some 12%Q)); ("DY"%string, (Some 1%Q)); ("HR"%string, (Some (2 # 5)%Q)); ("LAT"%string, (Some 0%Q)); ("LON"%string, (Some 0%Q)); ("SST"%string, (Some 5%Q))]) [("OSTIA"%string, (Some 5%Q)); ("BGVAR"%string, (Some (1 # 100)%Q)); ("ICE"%string, (Some 0%Q))]); (with_exts (new_report (Some "AAAAAAAAA"%string) None [("YR"%string, (Some 2003%Q)); ("MO"%string, (Some 12%Q)); ("DY"%string, (Some 1%Q)); ("HR"%string, (Some (1 # 2)%Q)); ("LAT"%string, (Some 0%Q)); ("LON"%string, (Some 0%Q)); ("SST"%string, (Some 5%Q))]) [("OSTIA"%string, (Some 5%Q)); ("BGVAR"%string, (Some (1 # 100)%Q)); ("ICE"%string, (Some 0%Q))]); (with_exts (new_report (Some "AAAAAAAAA"%string) None [("YR"%string, (Some 2003%Q)); ("MO"%string, (Some 12%Q)); ("DY"%string, (Some 1%Q)); ("HR"%string, (Some (3 # 5)%Q)); ("LAT"%string, (Some 0%Q)); ("LON"%string, (Some 0%Q)); ("SST"%string, (Some 5%Q))]) [("OSTIA"%string, (Some 5%Q)); ("BGVAR"%string, (Some (1 # 100)%Q)); ("ICE"%string, (Some 0%Q))]); (with_exts (new_report (Some "AAAAAAAAA"%string) None [("YR"%string, (Some 2003%Q)); ("MO"%string, (Some 12%Q)); ("DY"%string, (Some 1%Q)); ("HR"%string, (Some (7 # 10)%Q)); ("LAT"%string, (Some 0%Q)); ("LON"%string, (Some 0%Q)); ("SST"%string, (Some 5%Q))]) [("OSTIA"%string, (Some 5%Q)); ("BGVAR"%string, (Some (1 # 100)%Q)); ("ICE"%string, (Some 0%Q))]); (with_exts (new_report (Some "AAAAAAAAA"%string) None [("YR"%string, (Some 2003%Q)); ("MO"%string, (Some 12%Q)); ("DY"%string, (Some 1%Q)); ("HR"%string, (Some (4 # 5)%Q)); ("LAT"%string, (Some 0%Q)); ("LON"%string, (Some 0%Q)); ("SST"%string, (Some 5%Q))]) [("OSTIA"%string, (Some 5%Q)); ("BGVAR"%string, (Some (1 # 100)%Q)); ("ICE"%string, (Some 0%Q))])]) (sst_tail_check n_elevation n_sqrt {| tl_long := 7; tl_long_n := 3; tl_short := 3; tl_short_n := 2; tl_bad := 2; tl_inter := (29 # 100); tl_intra := 1; tl_lim := (3 # 10) |})) in
  all [flags x1 "SST"%string "drf_tail1"%string [1; 0; 0; 0; 0; 0; 0; 0; 0];
  flags x1 "SST"%string "drf_tail2"%string [0; 0; 0; 0; 0; 0; 0; 0; 0]]).
Example TestTrackQC_tail_check_test_short_start_tail_is : TestTrackQC_tail_check_test_short_start_tail = true.
Proof. reflexivity. Qed.
Definition TestTrackQC_tail_check_test_short_end_tail : bool := Eval vm_compute in (let x1 := (on (voyage_of [] [(with_exts (new_report (Some "AAAAAAAAA"%string) None [("YR"%string, (Some 2003%Q)); ("MO"%string, (Some 12%Q)); ("DY"%string, (Some 1%Q)); ("HR"%string, (Some 0%Q)); ("LAT"%string, (Some 0%Q)); ("LON"%string, (Some 0%Q)); ("SST"%string, (Some 5%Q))]) [("OSTIA"%string, (Some 5%Q)); ("BGVAR"%string, (Some (1 # 100)%Q)); ("ICE"%string, (Some 0%Q))]); (with_exts (new_report (Some "AAAAAAAAA"%string) None [("YR"%string, (Some 2003%Q)); ("MO"%string, (Some 12%Q)); ("DY"%string, (Some 1%Q)); ("HR"%string, (Some (1 # 10)%Q)); ("LAT"%string, (Some 0%Q)); ("LON"%string, (Some 0%Q)); ("SST"%string, (Some 5%Q))]) [("OSTIA"%string, (Some 5%Q)); ("BGVAR"%string, (Some (1 # 100)%Q)); ("ICE"%string, (Some 0%Q))]); (with_exts (new_report (Some "AAAAAAAAA"%string) None [("YR"%string, (Some 2003%Q)); ("MO"%string, (Some 12%Q)); ("DY"%string, (Some 1%Q)); ("HR"%string, (Some (1 # 5)%Q)); ("LAT"%string, (Some 0%Q)); ("LON"%string, (Some 0%Q)); ("SST"%string, (Some 5%Q))]) [("OSTIA"%string, (Some 5%Q)); ("BGVAR"%string, (Some (1 # 100)%Q)); ("ICE"%string, (Some 0%Q))]); (with_exts (new_report (Some "AAAAAAAAA"%string) None [("YR"%string, (Some 2003%Q)); ("MO"%string, (Some 12%Q)); ("DY"%string, (Some 1%Q)); ("HR"%string, (Some (3 # 10)%Q)); ("LAT"%string, (Some 0%Q)); ("LON"%string, (Some 0%Q)); ("SST"%string, (Some 5%Q))]) [("OSTIA"%string, (Some 5%Q)); ("BGVAR"%string, (Some (1 # 100)%Q)); ("ICE"%string, (Some 0%Q))]); (with_exts (new_report (Some "AAAAAAAAA"%string) None [("YR"%string, (Some 2003%Q)); ("MO"%string, (Some 12%Q)); ("DY"%string, (Some 1%Q)); ("HR"%string, (Some (2 # 5)%Q)); ("LAT"%string, (Some 0%Q)); ("LON"%string, (Some 0%Q)); ("SST"%string, (Some 5%Q))]) [("OSTIA"%string, (Some 5%Q)); ("BGVAR"%string, (Some (1 # 100)%Q)); ("ICE"%string, (Some 0%Q))]); (with_exts (new_report (Some "AAAAAAAAA"%string) None [("YR"%string, (Some 2003%Q)); ("MO"%string, (Some 12%Q)); ("DY"%string, (Some 1%Q)); ("HR"%string, (Some (1 # 2)%Q)); ("LAT"%string, (Some 0%Q)); ("LON"%string, (Some 0%Q)); ("SST"%string, (Some 5%Q))]) [("OSTIA"%string, (Some 5%Q)); ("BGVAR"%string, (Some (1 # 100)%Q)); ("ICE"%string, (Some 0%Q))]); (with_exts (new_report (Some "AAAAAAAAA"%string) None [("YR"%string, (Some 2003%Q)); ("MO"%string, (Some 12%Q)); ("DY"%string, (Some 1%Q)); ("HR"%string, (Some (3 # 5)%Q)); ("LAT"%string, (Some 0%Q)); ("LON"%string, (Some 0%Q)); ("SST"%string, (Some 5%Q))]) [("OSTIA"%string, (Some 5%Q)); ("BGVAR"%string, (Some (1 # 100)%Q)); ("ICE"%string, (Some 0%Q))]); (with_exts (new_report (Some "AAAAAAAAA"%string) None [("YR"%string, (Some 2003%Q)); ("MO"%string, (Some 12%Q)); ("DY"%string, (Some 1%Q)); ("HR"%string, (Some (7 # 10)%Q)); ("LAT"%string, (Some 0%Q)); ("LON"%string, (Some 0%Q)); ("SST"%string, (Some (36 # 5)%Q))]) [("OSTIA"%string, (Some 5%Q)); ("BGVAR"%string, (Some (1 # 100)%Q)); ("ICE"%string, (Some 0%Q))]); (with_exts (new_report (Some "AAAAAAAAA"%string) None [("YR"%string, (Some 2003%Q)); ("MO"%string, (Some 12%Q)); ("DY"%string, (Some 1%Q)); ("HR"%string, (Some (4 # 5)%Q)); ("LAT"%string, (Some 0%Q)); ("LON"%string, (Some 0%Q)); ("SST"%string, (Some (36 # 5)%Q))]) [("OSTIA"%string, (Some 5%Q)); ("BGVAR"%string, (Some (1 # 100)%Q)); ("ICE"%string, (Some 0%Q))])]) (sst_tail_check n_elevation n_sqrt {| tl_long := 7; tl_long_n := 3; tl_short := 3; tl_short_n := 2; tl_bad := 2; tl_inter := (29 # 100); tl_intra := 1; tl_lim := (3 # 10) |})) in
  all [flags x1 "SST"%string "drf_tail1"%string [0; 0; 0; 0; 0; 0; 0; 0; 0];
  flags x1 "SST"%string "drf_tail2"%string [0; 0; 0; 0; 0; 0; 0; 0; 1]]).
Example TestTrackQC_tail_check_test_short_end_tail_is : TestTrackQC_tail_check_test_short_end_tail = true.
Proof. reflexivity. Qed.
Definition TestTrackQC_tail_check_test_short_two_tails : bool := Eval vm_compute in (let x1 := (on (voyage_of [] [(with_exts (new_report (Some "AAAAAAAAA"%string) None [("YR"%string, (Some 2003%Q)); ("MO"%string, (Some 12%Q)); ("DY"%string, (Some 1%Q)); ("HR"%string, (Some 0%Q)); ("LAT"%string, (Some 0%Q)); ("LON"%string, (Some 0%Q)); ("SST"%string, (Some (36 # 5)%Q))]) [("OSTIA"%string, (Some 5%Q)); ("BGVAR"%string, (Some (1 # 100)%Q)); ("ICE"%string, (Some 0%Q))]); (with_exts (new_report (Some "AAAAAAAAA"%string) None [("YR"%string, (Some 2003%Q)); ("MO"%string, (Some 12%Q)); ("DY"%string, (Some 1%Q)); ("HR"%string, (Some (1 # 10)%Q)); ("LAT"%string, (Some 0%Q)); ("LON"%string, (Some 0%Q)); ("SST"%string, (Some (36 # 5)%Q))]) [("OSTIA"%string, (Some 5%Q)); ("BGVAR"%string, (Some (1 # 100)%Q)); ("ICE"%string, (Some 0%Q))]); (with_exts (new_report (Some "AAAAAAAAA"%string) None [("YR"%string, (Some 2003%Q)); ("MO"%string, (Some 12%Q)); ("DY"%string, (Some 1%Q)); ("HR"%string, (Some (1 # 5)%Q)); ("LAT"%string, (Some 0%Q)); ("LON"%string, (Some 0%Q)); ("SST"%string, (Some 5%Q))]) [("OSTIA"%string, (Some 5%Q)); ("BGVAR"%string, (Some (1 # 100)%Q)); ("ICE"%string, (Some 0%Q))]); (with_exts (new_report (Some "AAAAAAAAA"%string) None [("YR"%string, (Some 2003%Q)); ("MO"%string, (Some 12%Q)); ("DY"%string, (Some 1%Q)); ("HR"%string, (Some (3 # 10)%Q)); ("LAT"%string, (Some 0%Q)); ("LON"%string, (Some 0%Q)); ("SST"%string, (Some 5%Q))]) [("OSTIA"%string, (Some 5%Q)); ("BGVAR"%string, (Some (1 # 100)%Q)); ("ICE"%string, (Some 0%Q))]); (with_exts (new_report (Some "AAAAAAAAA"%string) None [("YR"%string, (Some 2003%Q)); ("MO"%string, (Some 12%Q)); ("DY"%string, (Some 1%Q)); ("HR"%string, (Some (2 # 5)%Q)); ("LAT"%string, (Some 0%Q)); ("LON"%string, (Some 0%Q)); ("SST"%string, (Some 5%Q))]) [("OSTIA"%string, (Some 5%Q)); ("BGVAR"%string, (Some (1 # 100)%Q)); ("ICE"%string, (Some 0%Q))]); (with_exts (new_report (Some "AAAAAAAAA"%string) None [("YR"%string, (Some 2003%Q)); ("MO"%string, (Some 12%Q)); ("DY"%string, (Some 1%Q)); ("HR"%string, (Some (1 # 2)%Q)); ("LAT"%string, (Some 0%Q)); ("LON"%string, (Some 0%Q)); ("SST"%string, (Some 5%Q))]) [("OSTIA"%string, (Some 5%Q)); ("BGVAR"%string, (Some (1 # 100)%Q)); ("ICE"%string, (Some 0%Q))]); (with_exts (new_report (Some "AAAAAAAAA"%string) None [("YR"%string, (Some 2003%Q)); ("MO"%string, (Some 12%Q)); ("DY"%string, (Some 1%Q)); ("HR"%string, (Some (3 # 5)%Q)); ("LAT"%string, (Some 0%Q)); ("LON"%string, (Some 0%Q)); ("SST"%string, (Some 5%Q))]) [("OSTIA"%string, (Some 5%Q)); ("BGVAR"%string, (Some (1 # 100)%Q)); ("ICE"%string, (Some 0%Q))]); (with_exts (new_report (Some "AAAAAAAAA"%string) None [("YR"%string, (Some 2003%Q)); ("MO"%string, (Some 12%Q)); ("DY"%string, (Some 1%Q)); ("HR"%string, (Some (7 # 10)%Q)); ("LAT"%string, (Some 0%Q)); ("LON"%string, (Some 0%Q)); ("SST"%string, (Some (36 # 5)%Q))]) [("OSTIA"%string, (Some 5%Q)); ("BGVAR"%string, (Some (1 # 100)%Q)); ("ICE"%string, (Some 0%Q))]); (with_exts (new_report (Some "AAAAAAAAA"%string) None [("YR"%string, (Some 2003%Q)); ("MO"%string, (Some 12%Q)); ("DY"%string, (Some 1%Q)); ("HR"%string, (Some (4 # 5)%Q)); ("LAT"%string, (Some 0%Q)); ("LON"%string, (Some 0%Q)); ("SST"%string, (Some (36 # 5)%Q))]) [("OSTIA"%string, (Some 5%Q)); ("BGVAR"%string, (Some (1 # 100)%Q)); ("ICE"%string, (Some 0%Q))])]) (sst_tail_check n_elevation n_sqrt {| tl_long := 7; tl_long_n := 3; tl_short := 3; tl_short_n := 2; tl_bad := 2; tl_inter := (29 # 100); tl_intra := 1; tl_lim := (3 # 10) |})) in
  all [flags x1 "SST"%string "drf_tail1"%string [1; 0; 0; 0; 0; 0; 0; 0; 0];
  flags x1 "SST"%string "drf_tail2"%string [0; 0; 0; 0; 0; 0; 0; 0; 1]]).
Example TestTrackQC_tail_check_test_short_two_tails_is : TestTrackQC_tail_check_test_short_two_tails = true.
Proof. reflexivity. Qed.
Definition TestTrackQC_tail_check_test_short_all_fail : bool := Eval vm_compute in (let x1 := (on (voyage_of [] [(with_exts (new_report (Some "AAAAAAAAA"%string) None [("YR"%string, (Some 2003%Q)); ("MO"%string, (Some 12%Q)); ("DY"%string, (Some 1%Q)); ("HR"%string, (Some 0%Q)); ("LAT"%string, (Some 0%Q)); ("LON"%string, (Some 0%Q)); ("SST"%string, (Some (36 # 5)%Q))]) [("OSTIA"%string, (Some 5%Q)); ("BGVAR"%string, (Some (1 # 100)%Q)); ("ICE"%string, (Some 0%Q))]); (with_exts (new_report (Some "AAAAAAAAA"%string) None [("YR"%string, (Some 2003%Q)); ("MO"%string, (Some 12%Q)); ("DY"%string, (Some 1%Q)); ("HR"%string, (Some (1 # 10)%Q)); ("LAT"%string, (Some 0%Q)); ("LON"%string, (Some 0%Q)); ("SST"%string, (Some (36 # 5)%Q))]) [("OSTIA"%string, (Some 5%Q)); ("BGVAR"%string, (Some (1 # 100)%Q)); ("ICE"%string, (Some 0%Q))]); (with_exts (new_report (Some "AAAAAAAAA"%string) None [("YR"%string, (Some 2003%Q)); ("MO"%string, (Some 12%Q)); ("DY"%string, (Some 1%Q)); ("HR"%string, (Some (1 # 5)%Q)); ("LAT"%string, (Some 0%Q)); ("LON"%string, (Some 0%Q)); ("SST"%string, (Some (36 # 5)%Q))]) [("OSTIA"%string, (Some 5%Q)); ("BGVAR"%string, (Some (1 # 100)%Q)); ("ICE"%string, (Some 0%Q))]); (with_exts (new_report (Some "AAAAAAAAA"%string) None [("YR"%string, (Some 2003%Q)); ("MO"%string, (Some 12%Q)); ("DY"%string, (Some 1%Q)); ("HR"%string, (Some (3 # 10)%Q)); ("LAT"%string, (Some 0%Q)); ("LON"%string, (Some 0%Q)); ("SST"%string, (Some (36 # 5)%Q))]) [("OSTIA"%string, (Some 5%Q)); ("BGVAR"%string, (Some (1 # 100)%Q)); ("ICE"%string, (Some 0%Q))]); (with_exts (new_report (Some "AAAAAAAAA"%string) None [("YR"%string, (Some 2003%Q)); ("MO"%string, (Some 12%Q)); ("DY"%string, (Some 1%Q)); ("HR"%string, (Some (2 # 5)%Q)); ("LAT"%string, (Some 0%Q)); ("LON"%string, (Some 0%Q)); ("SST"%string, (Some (36 # 5)%Q))]) [("OSTIA"%string, (Some 5%Q)); ("BGVAR"%string, (Some (1 # 100)%Q)); ("ICE"%string, (Some 0%Q))]); (with_exts (new_report (Some "AAAAAAAAA"%string) None [("YR"%string, (Some 2003%Q)); ("MO"%string, (Some 12%Q)); ("DY"%string, (Some 1%Q)); ("HR"%string, (Some (1 # 2)%Q)); ("LAT"%string, (Some 0%Q)); ("LON"%string, (Some 0%Q)); ("SST"%string, (Some (36 # 5)%Q))]) [("OSTIA"%string, (Some 5%Q)); ("BGVAR"%string, (Some (1 # 100)%Q)); ("ICE"%string, (Some 0%Q))]); (with_exts (new_report (Some "AAAAAAAAA"%string) None [("YR"%string, (Some 2003%Q)); ("MO"%string, (Some 12%Q)); ("DY"%string, (Some 1%Q)); ("HR"%string, (Some (3 # 5)%Q)); ("LAT"%string, (Some 0%Q)); ("LON"%string, (Some 0%Q)); ("SST"%string, (Some (36 # 5)%Q))]) [("OSTIA"%string, (Some 5%Q)); ("BGVAR"%string, (Some (1 # 100)%Q)); ("ICE"%string, (Some 0%Q))]); (with_exts (new_report (Some "AAAAAAAAA"%string) None [("YR"%string, (Some 2003%Q)); ("MO"%string, (Some 12%Q)); ("DY"%string, (Some 1%Q)); ("HR"%string, (Some (7 # 10)%Q)); ("LAT"%string, (Some 0%Q)); ("LON"%string, (Some 0%Q)); ("SST"%string, (Some (36 # 5)%Q))]) [("OSTIA"%string, (Some 5%Q)); ("BGVAR"%string, (Some (1 # 100)%Q)); ("ICE"%string, (Some 0%Q))]); (with_exts (new_report (Some "AAAAAAAAA"%string) None [("YR"%string, (Some 2003%Q)); ("MO"%string, (Some 12%Q)); ("DY"%string, (Some 1%Q)); ("HR"%string, (Some (4 # 5)%Q)); ("LAT"%string, (Some 0%Q)); ("LON"%string, (Some 0%Q)); ("SST"%string, (Some (36 # 5)%Q))]) [("OSTIA"%string, (Some 5%Q)); ("BGVAR"%string, (Some (1 # 100)%Q)); ("ICE"%string, (Some 0%Q))])]) (sst_tail_check n_elevation n_sqrt {| tl_long := 7; tl_long_n := 9; tl_short := 3; tl_short_n := 2; tl_bad := 2; tl_inter := (29 # 100); tl_intra := 1; tl_lim := (3 # 10) |})) in
  all [flags x1 "SST"%string "drf_tail1"%string [0; 0; 0; 0; 0; 0; 0; 0; 0];
  flags x1 "SST"%string "drf_tail2"%string [0; 0; 0; 0; 0; 0; 0; 0; 0]]).
Example TestTrackQC_tail_check_test_short_all_fail_is : TestTrackQC_tail_check_test_short_all_fail = true.
Proof. reflexivity. Qed.
Definition TestTrackQC_tail_check_test_short_start_tail_with_bgvar : bool := Eval vm_compute in (let x1 := (on (voyage_of [] [(with_exts (new_report (Some "AAAAAAAAA"%string) None [("YR"%string, (Some 2003%Q)); ("MO"%string, (Some 12%Q)); ("DY"%string, (Some 1%Q)); ("HR"%string, (Some 0%Q)); ("LAT"%string, (Some 0%Q)); ("LON"%string, (Some 0%Q)); ("SST"%string, (Some (36 # 5)%Q))]) [("OSTIA"%string, (Some 5%Q)); ("BGVAR"%string, (Some (1 # 100)%Q)); ("ICE"%string, (Some 0%Q))]); (with_exts (new_report (Some "AAAAAAAAA"%string) None [("YR"%string, (Some 2003%Q)); ("MO"%string, (Some 12%Q)); ("DY"%string, (Some 1%Q)); ("HR"%string, (Some (1 # 10)%Q)); ("LAT"%string, (Some 0%Q)); ("LON"%string, (Some 0%Q)); ("SST"%string, (Some (36 # 5)%Q))]) [("OSTIA"%string, (Some 5%Q)); ("BGVAR"%string, (Some (1 # 100)%Q)); ("ICE"%string, (Some 0%Q))]); (with_exts (new_report (Some "AAAAAAAAA"%string) None [("YR"%string, (Some 2003%Q)); ("MO"%string, (Some 12%Q)); ("DY"%string, (Some 1%Q)); ("HR"%string, (Some (1 # 5)%Q)); ("LAT"%string, (Some 0%Q)); ("LON"%string, (Some 0%Q)); ("SST"%string, (Some 5%Q))]) [("OSTIA"%string, (Some 5%Q)); ("BGVAR"%string, (Some (2 # 5)%Q)); ("ICE"%string, (Some 0%Q))]); (with_exts (new_report (Some "AAAAAAAAA"%string) None [("YR"%string, (Some 2003%Q)); ("MO"%string, (Some 12%Q)); ("DY"%string, (Some 1%Q)); ("HR"%string, (Some (3 # 10)%Q)); ("LAT"%string, (Some 0%Q)); ("LON"%string, (Some 0%Q)); ("SST"%string, (Some 5%Q))]) [("OSTIA"%string, (Some 5%Q)); ("BGVAR"%string, (Some (1 # 100)%Q)); ("ICE"%string, (Some 0%Q))]); (with_exts (new_report (Some "AAAAAAAAA"%string) None [("YR"%string, (Some 2003%Q)); ("MO"%string, (Some 12%Q)); ("DY"%string, (Some 1%Q)); ("HR"%string, (Some (2 # 5)%Q)); ("LAT"%string, (Some 0%Q)); ("LON"%string, (Some 0%Q)); ("SST"%string, (Some 5%Q))]) [("OSTIA"%string, (Some 5%Q)); ("BGVAR"%string, (Some (1 # 100)%Q)); ("ICE"%string, (Some 0%Q))]); (with_exts (new_report (Some "AAAAAAAAA"%string) None [("YR"%string, (Some 2003%Q)); ("MO"%string, (Some 12%Q)); ("DY"%string, (Some 1%Q)); ("HR"%string, (Some (1 # 2)%Q)); ("LAT"%string, (Some 0%Q)); ("LON"%string, (Some 0%Q)); ("SST"%string, (Some 5%Q))]) [("OSTIA"%string, (Some 5%Q)); ("BGVAR"%string, (Some (1 # 100)%Q)); ("ICE"%string, (Some 0%Q))]); (with_exts (new_report (Some "AAAAAAAAA"%string) None [("YR"%string, (Some 2003%Q)); ("MO"%string, (Some 12%Q)); ("DY"%string, (Some 1%Q)); ("HR"%string, (Some (3 # 5)%Q)); ("LAT"%string, (Some 0%Q)); ("LON"%string, (Some 0%Q)); ("SST"%string, (Some 5%Q))]) [("OSTIA"%string, (Some 5%Q)); ("BGVAR"%string, (Some (1 # 100)%Q)); ("ICE"%string, (Some 0%Q))]); (with_exts (new_report (Some "AAAAAAAAA"%string) None [("YR"%string, (Some 2003%Q)); ("MO"%string, (Some 12%Q)); ("DY"%string, (Some 1%Q)); ("HR"%string, (Some (7 # 10)%Q)); ("LAT"%string, (Some 0%Q)); ("LON"%string, (Some 0%Q)); ("SST"%string, (Some 5%Q))]) [("OSTIA"%string, (Some 5%Q)); ("BGVAR"%string, (Some (1 # 100)%Q)); ("ICE"%string, (Some 0%Q))]); (with_exts (new_report (Some "AAAAAAAAA"%string) None [("YR"%string, (Some 2003%Q)); ("MO"%string, (Some 12%Q)); ("DY"%string, (Some 1%Q)); ("HR"%string, (Some (4 # 5)%Q)); ("LAT"%string, (Some 0%Q)); ("LON"%string, (Some 0%Q)); ("SST"%string, (Some 5%Q))]) [("OSTIA"%string, (Some 5%Q)); ("BGVAR"%string, (Some (1 # 100)%Q)); ("ICE"%string, (Some 0%Q))])]) (sst_tail_check n_elevation n_sqrt {| tl_long := 7; tl_long_n := 3; tl_short := 3; tl_short_n := 2; tl_bad := 2; tl_inter := (29 # 100); tl_intra := 1; tl_lim := (3 # 10) |})) in
  all [flags x1 "SST"%string "drf_tail1"%string [0; 0; 0; 0; 0; 0; 0; 0; 0];
  flags x1 "SST"%string "drf_tail2"%string [0; 0; 0; 0; 0; 0; 0; 0; 0]]).
Example TestTrackQC_tail_check_test_short_start_tail_with_bgvar_is : TestTrackQC_tail_check_test_short_start_tail_with_bgvar = true.
Proof. reflexivity. Qed.
Definition TestTrackQC_tail_check_test_short_all_fail_with_bgvar : bool := Eval vm_compute in (let x1 := (on (voyage_of [] [(with_exts (new_report (Some "AAAAAAAAA"%string) None [("YR"%string, (Some 2003%Q)); ("MO"%string, (Some 12%Q)); ("DY"%string, (Some 1%Q)); ("HR"%string, (Some 0%Q)); ("LAT"%string, (Some 0%Q)); ("LON"%string, (Some 0%Q)); ("SST"%string, (Some (36 # 5)%Q))]) [("OSTIA"%string, (Some 5%Q)); ("BGVAR"%string, (Some (1 # 100)%Q)); ("ICE"%string, (Some 0%Q))]); (with_exts (new_report (Some "AAAAAAAAA"%string) None [("YR"%string, (Some 2003%Q)); ("MO"%string, (Some 12%Q)); ("DY"%string, (Some 1%Q)); ("HR"%string, (Some (1 # 10)%Q)); ("LAT"%string, (Some 0%Q)); ("LON"%string, (Some 0%Q)); ("SST"%string, (Some (36 # 5)%Q))]) [("OSTIA"%string, (Some 5%Q)); ("BGVAR"%string, (Some (1 # 100)%Q)); ("ICE"%string, (Some 0%Q))]); (with_exts (new_report (Some "AAAAAAAAA"%string) None [("YR"%string, (Some 2003%Q)); ("MO"%string, (Some 12%Q)); ("DY"%string, (Some 1%Q)); ("HR"%string, (Some (1 # 5)%Q)); ("LAT"%string, (Some 0%Q)); ("LON"%string, (Some 0%Q)); ("SST"%string, (Some (36 # 5)%Q))]) [("OSTIA"%string, (Some 5%Q)); ("BGVAR"%string, (Some (1 # 100)%Q)); ("ICE"%string, (Some 0%Q))]); (with_exts (new_report (Some "AAAAAAAAA"%string) None [("YR"%string, (Some 2003%Q)); ("MO"%string, (Some 12%Q)); ("DY"%string, (Some 1%Q)); ("HR"%string, (Some (3 # 10)%Q)); ("LAT"%string, (Some 0%Q)); ("LON"%string, (Some 0%Q)); ("SST"%string, (Some (36 # 5)%Q))]) [("OSTIA"%string, (Some 5%Q)); ("BGVAR"%string, (Some (1 # 100)%Q)); ("ICE"%string, (Some 0%Q))]); (with_exts (new_report (Some "AAAAAAAAA"%string) None [("YR"%string, (Some 2003%Q)); ("MO"%string, (Some 12%Q)); ("DY"%string, (Some 1%Q)); ("HR"%string, (Some (2 # 5)%Q)); ("LAT"%string, (Some 0%Q)); ("LON"%string, (Some 0%Q)); ("SST"%string, (Some (36 # 5)%Q))]) [("OSTIA"%string, (Some 5%Q)); ("BGVAR"%string, (Some (2 # 5)%Q)); ("ICE"%string, (Some 0%Q))]); (with_exts (new_report (Some "AAAAAAAAA"%string) None [("YR"%string, (Some 2003%Q)); ("MO"%string, (Some 12%Q)); ("DY"%string, (Some 1%Q)); ("HR"%string, (Some (1 # 2)%Q)); ("LAT"%string, (Some 0%Q)); ("LON"%string, (Some 0%Q)); ("SST"%string, (Some (36 # 5)%Q))]) [("OSTIA"%string, (Some 5%Q)); ("BGVAR"%string, (Some (1 # 100)%Q)); ("ICE"%string, (Some 0%Q))]); (with_exts (new_report (Some "AAAAAAAAA"%string) None [("YR"%string, (Some 2003%Q)); ("MO"%string, (Some 12%Q)); ("DY"%string, (Some 1%Q)); ("HR"%string, (Some (3 # 5)%Q)); ("LAT"%string, (Some 0%Q)); ("LON"%string, (Some 0%Q)); ("SST"%string, (Some (36 # 5)%Q))]) [("OSTIA"%string, (Some 5%Q)); ("BGVAR"%string, (Some (1 # 100)%Q)); ("ICE"%string, (Some 0%Q))]); (with_exts (new_report (Some "AAAAAAAAA"%string) None [("YR"%string, (Some 2003%Q)); ("MO"%string, (Some 12%Q)); ("DY"%string, (Some 1%Q)); ("HR"%string, (Some (7 # 10)%Q)); ("LAT"%string, (Some 0%Q)); ("LON"%string, (Some 0%Q)); ("SST"%string, (Some (36 # 5)%Q))]) [("OSTIA"%string, (Some 5%Q)); ("BGVAR"%string, (Some (1 # 100)%Q)); ("ICE"%string, (Some 0%Q))]); (with_exts (new_report (Some "AAAAAAAAA"%string) None [("YR"%string, (Some 2003%Q)); ("MO"%string, (Some 12%Q)); ("DY"%string, (Some 1%Q)); ("HR"%string, (Some (4 # 5)%Q)); ("LAT"%string, (Some 0%Q)); ("LON"%string, (Some 0%Q)); ("SST"%string, (Some (36 # 5)%Q))]) [("OSTIA"%string, (Some 5%Q)); ("BGVAR"%string, (Some (1 # 100)%Q)); ("ICE"%string, (Some 0%Q))])]) (sst_tail_check n_elevation n_sqrt {| tl_long := 7; tl_long_n := 9; tl_short := 3; tl_short_n := 2; tl_bad := 2; tl_inter := (29 # 100); tl_intra := 1; tl_lim := (3 # 10) |})) in
  all [flags x1 "SST"%string "drf_tail1"%string [1; 1; 0; 0; 0; 0; 0; 0; 0];
  flags x1 "SST"%string "drf_tail2"%string [0; 0; 0; 0; 0; 0; 0; 1; 1]]).
Example TestTrackQC_tail_check_test_short_all_fail_with_bgvar_is : TestTrackQC_tail_check_test_short_all_fail_with_bgvar = true.
Proof. reflexivity. Qed.
Definition TestTrackQC_tail_check_test_long_and_short_start_tail : bool := Eval vm_compute in (let x1 := (on (voyage_of [] [(with_exts (new_report (Some "AAAAAAAAA"%string) None [("YR"%string, (Some 2003%Q)); ("MO"%string, (Some 12%Q)); ("DY"%string, (Some 1%Q)); ("HR"%string, (Some 0%Q)); ("LAT"%string, (Some 0%Q)); ("LON"%string, (Some 0%Q)); ("SST"%string, (Some 6%Q))]) [("OSTIA"%string, (Some 5%Q)); ("BGVAR"%string, (Some (1 # 100)%Q)); ("ICE"%string, (Some 0%Q))]); (with_exts (new_report (Some "AAAAAAAAA"%string) None [("YR"%string, (Some 2003%Q)); ("MO"%string, (Some 12%Q)); ("DY"%string, (Some 1%Q)); ("HR"%string, (Some (1 # 10)%Q)); ("LAT"%string, (Some 0%Q)); ("LON"%string, (Some 0%Q)); ("SST"%string, (Some 6%Q))]) [("OSTIA"%string, (Some 5%Q)); ("BGVAR"%string, (Some (1 # 100)%Q)); ("ICE"%string, (Some 0%Q))]); (with_exts (new_report (Some "AAAAAAAAA"%string) None [("YR"%string, (Some 2003%Q)); ("MO"%string, (Some 12%Q)); ("DY"%string, (Some 1%Q)); ("HR"%string, (Some (1 # 5)%Q)); ("LAT"%string, (Some 0%Q)); ("LON"%string, (Some 0%Q)); ("SST"%string, (Some 6%Q))]) [("OSTIA"%string, (Some 5%Q)); ("BGVAR"%string, (Some (1 # 100)%Q)); ("ICE"%string, (Some 0%Q))]); (with_exts (new_report (Some "AAAAAAAAA"%string) None [("YR"%string, (Some 2003%Q)); ("MO"%string, (Some 12%Q)); ("DY"%string, (Some 1%Q)); ("HR"%string, (Some (3 # 10)%Q)); ("LAT"%string, (Some 0%Q)); ("LON"%string, (Some 0%Q)); ("SST"%string, (Some (31 # 5)%Q))]) [("OSTIA"%string, (Some 5%Q)); ("BGVAR"%string, (Some (1 # 100)%Q)); ("ICE"%string, (Some 0%Q))]); (with_exts (new_report (Some "AAAAAAAAA"%string) None [("YR"%string, (Some 2003%Q)); ("MO"%string, (Some 12%Q)); ("DY"%string, (Some 1%Q)); ("HR"%string, (Some (2 # 5)%Q)); ("LAT"%string, (Some 0%Q)); ("LON"%string, (Some 0%Q)); ("SST"%string, (Some 5%Q))]) [("OSTIA"%string, (Some 5%Q)); ("BGVAR"%string, (Some (1 # 100)%Q)); ("ICE"%string, (Some 0%Q))]); (with_exts (new_report (Some "AAAAAAAAA"%string) None [("YR"%string, (Some 2003%Q)); ("MO"%string, (Some 12%Q)); ("DY"%string, (Some 1%Q)); ("HR"%string, (Some (1 # 2)%Q)); ("LAT"%string, (Some 0%Q)); ("LON"%string, (Some 0%Q)); ("SST"%string, (Some 5%Q))]) [("OSTIA"%string, (Some 5%Q)); ("BGVAR"%string, (Some (1 # 100)%Q)); ("ICE"%string, (Some 0%Q))]); (with_exts (new_report (Some "AAAAAAAAA"%string) None [("YR"%string, (Some 2003%Q)); ("MO"%string, (Some 12%Q)); ("DY"%string, (Some 1%Q)); ("HR"%string, (Some (3 # 5)%Q)); ("LAT"%string, (Some 0%Q)); ("LON"%string, (Some 0%Q)); ("SST"%string, (Some 5%Q))]) [("OSTIA"%string, (Some 5%Q)); ("BGVAR"%string, (Some (1 # 100)%Q)); ("ICE"%string, (Some 0%Q))]); (with_exts (new_report (Some "AAAAAAAAA"%string) None [("YR"%string, (Some 2003%Q)); ("MO"%string, (Some 12%Q)); ("DY"%string, (Some 1%Q)); ("HR"%string, (Some (7 # 10)%Q)); ("LAT"%string, (Some 0%Q)); ("LON"%string, (Some 0%Q)); ("SST"%string, (Some 5%Q))]) [("OSTIA"%string, (Some 5%Q)); ("BGVAR"%string, (Some (1 # 100)%Q)); ("ICE"%string, (Some 0%Q))]); (with_exts (new_report (Some "AAAAAAAAA"%string) None [("YR"%string, (Some 2003%Q)); ("MO"%string, (Some 12%Q)); ("DY"%string, (Some 1%Q)); ("HR"%string, (Some (4 # 5)%Q)); ("LAT"%string, (Some 0%Q)); ("LON"%string, (Some 0%Q)); ("SST"%string, (Some 5%Q))]) [("OSTIA"%string, (Some 5%Q)); ("BGVAR"%string, (Some (1 # 100)%Q)); ("ICE"%string, (Some 0%Q))])]) (sst_tail_check n_elevation n_sqrt {| tl_long := 3; tl_long_n := 3; tl_short := 1; tl_short_n := 1; tl_bad := 1; tl_inter := (29 # 100); tl_intra := 1; tl_lim := (3 # 10) |})) in
  all [flags x1 "SST"%string "drf_tail1"%string [1; 1; 1; 1; 0; 0; 0; 0; 0];
  flags x1 "SST"%string "drf_tail2"%string [0; 0; 0; 0; 0; 0; 0; 0; 0]]).
Example TestTrackQC_tail_check_test_long_and_short_start_tail_is : TestTrackQC_tail_check_test_long_and_short_start_tail = true.
Proof. reflexivity. Qed.
Definition TestTrackQC_tail_check_test_long_and_short_end_tail : bool := Eval vm_compute in (let x1 := (on (voyage_of [] [(with_exts (new_report (Some "AAAAAAAAA"%string) None [("YR"%string, (Some 2003%Q)); ("MO"%string, (Some 12%Q)); ("DY"%string, (Some 1%Q)); ("HR"%string, (Some 0%Q)); ("LAT"%string, (Some 0%Q)); ("LON"%string, (Some 0%Q)); ("SST"%string, (Some 5%Q))]) [("OSTIA"%string, (Some 5%Q)); ("BGVAR"%string, (Some (1 # 100)%Q)); ("ICE"%string, (Some 0%Q))]); (with_exts (new_report (Some "AAAAAAAAA"%string) None [("YR"%string, (Some 2003%Q)); ("MO"%string, (Some 12%Q)); ("DY"%string, (Some 1%Q)); ("HR"%string, (Some (1 # 10)%Q)); ("LAT"%string, (Some 0%Q)); ("LON"%string, (Some 0%Q)); ("SST"%string, (Some 5%Q))]) [("OSTIA"%string, (Some 5%Q)); ("BGVAR"%string, (Some (1 # 100)%Q)); ("ICE"%string, (Some 0%Q))]); (with_exts (new_report (Some "AAAAAAAAA"%string) None [("YR"%string, (Some 2003%Q)); ("MO"%string, (Some 12%Q)); ("DY"%string, (Some 1%Q)); ("HR"%string, (Some (1 # 5)%Q)); ("LAT"%string, (Some 0%Q)); ("LON"%string, (Some 0%Q)); ("SST"%string, (Some 5%Q))]) [("OSTIA"%string, (Some 5%Q)); ("BGVAR"%string, (Some (1 # 100)%Q)); ("ICE"%string, (Some 0%Q))]); (with_exts (new_report (Some "AAAAAAAAA"%string) None [("YR"%string, (Some 2003%Q)); ("MO"%string, (Some 12%Q)); ("DY"%string, (Some 1%Q)); ("HR"%string, (Some (3 # 10)%Q)); ("LAT"%string, (Some 0%Q)); ("LON"%string, (Some 0%Q)); ("SST"%string, (Some 5%Q))]) [("OSTIA"%string, (Some 5%Q)); ("BGVAR"%string, (Some (1 # 100)%Q)); ("ICE"%string, (Some 0%Q))]); (with_exts (new_report (Some "AAAAAAAAA"%string) None [("YR"%string, (Some 2003%Q)); ("MO"%string, (Some 12%Q)); ("DY"%string, (Some 1%Q)); ("HR"%string, (Some (2 # 5)%Q)); ("LAT"%string, (Some 0%Q)); ("LON"%string, (Some 0%Q)); ("SST"%string, (Some 5%Q))]) [("OSTIA"%string, (Some 5%Q)); ("BGVAR"%string, (Some (1 # 100)%Q)); ("ICE"%string, (Some 0%Q))]); (with_exts (new_report (Some "AAAAAAAAA"%string) None [("YR"%string, (Some 2003%Q)); ("MO"%string, (Some 12%Q)); ("DY"%string, (Some 1%Q)); ("HR"%string, (Some (1 # 2)%Q)); ("LAT"%string, (Some 0%Q)); ("LON"%string, (Some 0%Q)); ("SST"%string, (Some (31 # 5)%Q))]) [("OSTIA"%string, (Some 5%Q)); ("BGVAR"%string, (Some (1 # 100)%Q)); ("ICE"%string, (Some 0%Q))]); (with_exts (new_report (Some "AAAAAAAAA"%string) None [("YR"%string, (Some 2003%Q)); ("MO"%string, (Some 12%Q)); ("DY"%string, (Some 1%Q)); ("HR"%string, (Some (3 # 5)%Q)); ("LAT"%string, (Some 0%Q)); ("LON"%string, (Some 0%Q)); ("SST"%string, (Some 6%Q))]) [("OSTIA"%string, (Some 5%Q)); ("BGVAR"%string, (Some (1 # 100)%Q)); ("ICE"%string, (Some 0%Q))]); (with_exts (new_report (Some "AAAAAAAAA"%string) None [("YR"%string, (Some 2003%Q)); ("MO"%string, (Some 12%Q)); ("DY"%string, (Some 1%Q)); ("HR"%string, (Some (7 # 10)%Q)); ("LAT"%string, (Some 0%Q)); ("LON"%string, (Some 0%Q)); ("SST"%string, (Some 6%Q))]) [("OSTIA"%string, (Some 5%Q)); ("BGVAR"%string, (Some (1 # 100)%Q)); ("ICE"%string, (Some 0%Q))]); (with_exts (new_report (Some "AAAAAAAAA"%string) None [("YR"%string, (Some 2003%Q)); ("MO"%string, (Some 12%Q)); ("DY"%string, (Some 1%Q)); ("HR"%string, (Some (4 # 5)%Q)); ("LAT"%string, (Some 0%Q)); ("LON"%string, (Some 0%Q)); ("SST"%string, (Some 6%Q))]) [("OSTIA"%string, (Some 5%Q)); ("BGVAR"%string, (Some (1 # 100)%Q)); ("ICE"%string, (Some 0%Q))])]) (sst_tail_check n_elevation n_sqrt {| tl_long := 3; tl_long_n := 3; tl_short := 1; tl_short_n := 1; tl_bad := 1; tl_inter := (29 # 100); tl_intra := 1; tl_lim := (3 # 10) |})) in
  all [flags x1 "SST"%string "drf_tail1"%string [0; 0; 0; 0; 0; 0; 0; 0; 0];
  flags x1 "SST"%string "drf_tail2"%string [0; 0; 0; 0; 0; 1; 1; 1; 1]]).
Example TestTrackQC_tail_check_test_long_and_short_end_tail_is : TestTrackQC_tail_check_test_long_and_short_end_tail = true.
Proof. reflexivity. Qed.
Definition TestTrackQC_tail_check_test_long_and_short_two_tails : bool := Eval vm_compute in (let x1 := (on (voyage_of [] [(with_exts (new_report (Some "AAAAAAAAA"%string) None [("YR"%string, (Some 2003%Q)); ("MO"%string, (Some 12%Q)); ("DY"%string, (Some 1%Q)); ("HR"%string, (Some 0%Q)); ("LAT"%string, (Some 0%Q)); ("LON"%string, (Some 0%Q)); ("SST"%string, (Some 6%Q))]) [("OSTIA"%string, (Some 5%Q)); ("BGVAR"%string, (Some (1 # 100)%Q)); ("ICE"%string, (Some 0%Q))]); (with_exts (new_report (Some "AAAAAAAAA"%string) None [("YR"%string, (Some 2003%Q)); ("MO"%string, (Some 12%Q)); ("DY"%string, (Some 1%Q)); ("HR"%string, (Some (1 # 10)%Q)); ("LAT"%string, (Some 0%Q)); ("LON"%string, (Some 0%Q)); ("SST"%string, (Some 6%Q))]) [("OSTIA"%string, (Some 5%Q)); ("BGVAR"%string, (Some (1 # 100)%Q)); ("ICE"%string, (Some 0%Q))]); (with_exts (new_report (Some "AAAAAAAAA"%string) None [("YR"%string, (Some 2003%Q)); ("MO"%string, (Some 12%Q)); ("DY"%string, (Some 1%Q)); ("HR"%string, (Some (1 # 5)%Q)); ("LAT"%string, (Some 0%Q)); ("LON"%string, (Some 0%Q)); ("SST"%string, (Some 6%Q))]) [("OSTIA"%string, (Some 5%Q)); ("BGVAR"%string, (Some (1 # 100)%Q)); ("ICE"%string, (Some 0%Q))]); (with_exts (new_report (Some "AAAAAAAAA"%string) None [("YR"%string, (Some 2003%Q)); ("MO"%string, (Some 12%Q)); ("DY"%string, (Some 1%Q)); ("HR"%string, (Some (3 # 10)%Q)); ("LAT"%string, (Some 0%Q)); ("LON"%string, (Some 0%Q)); ("SST"%string, (Some (31 # 5)%Q))]) [("OSTIA"%string, (Some 5%Q)); ("BGVAR"%string, (Some (1 # 100)%Q)); ("ICE"%string, (Some 0%Q))]); (with_exts (new_report (Some "AAAAAAAAA"%string) None [("YR"%string, (Some 2003%Q)); ("MO"%string, (Some 12%Q)); ("DY"%string, (Some 1%Q)); ("HR"%string, (Some (2 # 5)%Q)); ("LAT"%string, (Some 0%Q)); ("LON"%string, (Some 0%Q)); ("SST"%string, (Some 5%Q))]) [("OSTIA"%string, (Some 5%Q)); ("BGVAR"%string, (Some (1 # 100)%Q)); ("ICE"%string, (Some 0%Q))]); (with_exts (new_report (Some "AAAAAAAAA"%string) None [("YR"%string, (Some 2003%Q)); ("MO"%string, (Some 12%Q)); ("DY"%string, (Some 1%Q)); ("HR"%string, (Some (1 # 2)%Q)); ("LAT"%string, (Some 0%Q)); ("LON"%string, (Some 0%Q)); ("SST"%string, (Some (31 # 5)%Q))]) [("OSTIA"%string, (Some 5%Q)); ("BGVAR"%string, (Some (1 # 100)%Q)); ("ICE"%string, (Some 0%Q))]); (with_exts (new_report (Some "AAAAAAAAA"%string) None [("YR"%string, (Some 2003%Q)); ("MO"%string, (Some 12%Q)); ("DY"%string, (Some 1%Q)); ("HR"%string, (Some (3 # 5)%Q)); ("LAT"%string, (Some 0%Q)); ("LON"%string, (Some 0%Q)); ("SST"%string, (Some 6%Q))]) [("OSTIA"%string, (Some 5%Q)); ("BGVAR"%string, (Some (1 # 100)%Q)); ("ICE"%string, (Some 0%Q))]); (with_exts (new_report (Some "AAAAAAAAA"%string) None [("YR"%string, (Some 2003%Q)); ("MO"%string, (Some 12%Q)); ("DY"%string, (Some 1%Q)); ("HR"%string, (Some (7 # 10)%Q)); ("LAT"%string, (Some 0%Q)); ("LON"%string, (Some 0%Q)); ("SST"%string, (Some 6%Q))]) [("OSTIA"%string, (Some 5%Q)); ("BGVAR"%string, (Some (1 # 100)%Q)); ("ICE"%string, (Some 0%Q))]); (with_exts (new_report (Some "AAAAAAAAA"%string) None [("YR"%string, (Some 2003%Q)); ("MO"%string, (Some 12%Q)); ("DY"%string, (Some 1%Q)); ("HR"%string, (Some (4 # 5)%Q)); ("LAT"%string, (Some 0%Q)); ("LON"%string, (Some 0%Q)); ("SST"%string, (Some 6%Q))]) [("OSTIA"%string, (Some 5%Q)); ("BGVAR"%string, (Some (1 # 100)%Q)); ("ICE"%string, (Some 0%Q))])]) (sst_tail_check n_elevation n_sqrt {| tl_long := 3; tl_long_n := 3; tl_short := 1; tl_short_n := 1; tl_bad := 1; tl_inter := (29 # 100); tl_intra := 1; tl_lim := (3 # 10) |})) in
  all [flags x1 "SST"%string "drf_tail1"%string [1; 1; 1; 1; 0; 0; 0; 0; 0];
  flags x1 "SST"%string "drf_tail2"%string [0; 0; 0; 0; 0; 1; 1; 1; 1]]).
Example TestTrackQC_tail_check_test_long_and_short_two_tails_is : TestTrackQC_tail_check_test_long_and_short_two_tails = true.
Proof. reflexivity. Qed.
Definition TestTrackQC_tail_check_test_one_long_and_one_short_tail : bool := Eval vm_compute in (let x1 := (on (voyage_of [] [(with_exts (new_report (Some "AAAAAAAAA"%string) None [("YR"%string, (Some 2003%Q)); ("MO"%string, (Some 12%Q)); ("DY"%string, (Some 1%Q)); ("HR"%string, (Some 0%Q)); ("LAT"%string, (Some 0%Q)); ("LON"%string, (Some 0%Q)); ("SST"%string, (Some 6%Q))]) [("OSTIA"%string, (Some 5%Q)); ("BGVAR"%string, (Some (1 # 100)%Q)); ("ICE"%string, (Some 0%Q))]); (with_exts (new_report (Some "AAAAAAAAA"%string) None [("YR"%string, (Some 2003%Q)); ("MO"%string, (Some 12%Q)); ("DY"%string, (Some 1%Q)); ("HR"%string, (Some (1 # 10)%Q)); ("LAT"%string, (Some 0%Q)); ("LON"%string, (Some 0%Q)); ("SST"%string, (Some 6%Q))]) [("OSTIA"%string, (Some 5%Q)); ("BGVAR"%string, (Some (1 # 100)%Q)); ("ICE"%string, (Some 0%Q))]); (with_exts (new_report (Some "AAAAAAAAA"%string) None [("YR"%string, (Some 2003%Q)); ("MO"%string, (Some 12%Q)); ("DY"%string, (Some 1%Q)); ("HR"%string, (Some (1 # 5)%Q)); ("LAT"%string, (Some 0%Q)); ("LON"%string, (Some 0%Q)); ("SST"%string, (Some 6%Q))]) [("OSTIA"%string, (Some 5%Q)); ("BGVAR"%string, (Some (1 # 100)%Q)); ("ICE"%string, (Some 0%Q))]); (with_exts (new_report (Some "AAAAAAAAA"%string) None [("YR"%string, (Some 2003%Q)); ("MO"%string, (Some 12%Q)); ("DY"%string, (Some 1%Q)); ("HR"%string, (Some (3 # 10)%Q)); ("LAT"%string, (Some 0%Q)); ("LON"%string, (Some 0%Q)); ("SST"%string, (Some 5%Q))]) [("OSTIA"%string, (Some 5%Q)); ("BGVAR"%string, (Some (1 # 100)%Q)); ("ICE"%string, (Some 0%Q))]); (with_exts (new_report (Some "AAAAAAAAA"%string) None [("YR"%string, (Some 2003%Q)); ("MO"%string, (Some 12%Q)); ("DY"%string, (Some 1%Q)); ("HR"%string, (Some (2 # 5)%Q)); ("LAT"%string, (Some 0%Q)); ("LON"%string, (Some 0%Q)); ("SST"%string, (Some 5%Q))]) [("OSTIA"%string, (Some 5%Q)); ("BGVAR"%string, (Some (1 # 100)%Q)); ("ICE"%string, (Some 0%Q))]); (with_exts (new_report (Some "AAAAAAAAA"%string) None [("YR"%string, (Some 2003%Q)); ("MO"%string, (Some 12%Q)); ("DY"%string, (Some 1%Q)); ("HR"%string, (Some (1 # 2)%Q)); ("LAT"%string, (Some 0%Q)); ("LON"%string, (Some 0%Q)); ("SST"%string, (Some 5%Q))]) [("OSTIA"%string, (Some 5%Q)); ("BGVAR"%string, (Some (1 # 100)%Q)); ("ICE"%string, (Some 0%Q))]); (with_exts (new_report (Some "AAAAAAAAA"%string) None [("YR"%string, (Some 2003%Q)); ("MO"%string, (Some 12%Q)); ("DY"%string, (Some 1%Q)); ("HR"%string, (Some (3 # 5)%Q)); ("LAT"%string, (Some 0%Q)); ("LON"%string, (Some 0%Q)); ("SST"%string, (Some 5%Q))]) [("OSTIA"%string, (Some 5%Q)); ("BGVAR"%string, (Some (1 # 100)%Q)); ("ICE"%string, (Some 0%Q))]); (with_exts (new_report (Some "AAAAAAAAA"%string) None [("YR"%string, (Some 2003%Q)); ("MO"%string, (Some 12%Q)); ("DY"%string, (Some 1%Q)); ("HR"%string, (Some (7 # 10)%Q)); ("LAT"%string, (Some 0%Q)); ("LON"%string, (Some 0%Q)); ("SST"%string, (Some 5%Q))]) [("OSTIA"%string, (Some 5%Q)); ("BGVAR"%string, (Some (1 # 100)%Q)); ("ICE"%string, (Some 0%Q))]); (with_exts (new_report (Some "AAAAAAAAA"%string) None [("YR"%string, (Some 2003%Q)); ("MO"%string, (Some 12%Q)); ("DY"%string, (Some 1%Q)); ("HR"%string, (Some (4 # 5)%Q)); ("LAT"%string, (Some 0%Q)); ("LON"%string, (Some 0%Q)); ("SST"%string, (Some (31 # 5)%Q))]) [("OSTIA"%string, (Some 5%Q)); ("BGVAR"%string, (Some (1 # 100)%Q)); ("ICE"%string, (Some 0%Q))])]) (sst_tail_check n_elevation n_sqrt {| tl_long := 3; tl_long_n := 3; tl_short := 1; tl_short_n := 1; tl_bad := 1; tl_inter := (29 # 100); tl_intra := 1; tl_lim := (3 # 10) |})) in
  all [flags x1 "SST"%string "drf_tail1"%string [1; 1; 0; 0; 0; 0; 0; 0; 0];
  flags x1 "SST"%string "drf_tail2"%string [0; 0; 0; 0; 0; 0; 0; 0; 1]]).
Example TestTrackQC_tail_check_test_one_long_and_one_short_tail_is : TestTrackQC_tail_check_test_one_long_and_one_short_tail = true.
Proof. reflexivity. Qed.
Definition TestTrackQC_tail_check_test_too_short_for_short_tail : bool := Eval vm_compute in (let x1 := (on (voyage_of [] [(with_exts (new_report (Some "AAAAAAAAA"%string) None [("YR"%string, (Some 2003%Q)); ("MO"%string, (Some 12%Q)); ("DY"%string, (Some 1%Q)); ("HR"%string, (Some 0%Q)); ("LAT"%string, (Some 0%Q)); ("LON"%string, (Some 0%Q)); ("SST"%string, (Some 6%Q))]) [("OSTIA"%string, (Some 5%Q)); ("BGVAR"%string, (Some (1 # 100)%Q)); ("ICE"%string, (Some 0%Q))]); (with_exts (new_report (Some "AAAAAAAAA"%string) None [("YR"%string, (Some 2003%Q)); ("MO"%string, (Some 12%Q)); ("DY"%string, (Some 1%Q)); ("HR"%string, (Some (1 # 10)%Q)); ("LAT"%string, (Some 0%Q)); ("LON"%string, (Some 0%Q)); ("SST"%string, (Some 6%Q))]) [("OSTIA"%string, (Some 5%Q)); ("BGVAR"%string, (Some (1 # 100)%Q)); ("ICE"%string, (Some 0%Q))]); (with_exts (new_report (Some "AAAAAAAAA"%string) None [("YR"%string, (Some 2003%Q)); ("MO"%string, (Some 12%Q)); ("DY"%string, (Some 1%Q)); ("HR"%string, (Some (1 # 5)%Q)); ("LAT"%string, (Some 0%Q)); ("LON"%string, (Some 0%Q)); ("SST"%string, (Some 6%Q))]) [("OSTIA"%string, (Some 5%Q)); ("BGVAR"%string, (Some (1 # 100)%Q)); ("ICE"%string, (Some 0%Q))]); (with_exts (new_report (Some "AAAAAAAAA"%string) None [("YR"%string, (Some 2003%Q)); ("MO"%string, (Some 12%Q)); ("DY"%string, (Some 1%Q)); ("HR"%string, (Some (3 # 10)%Q)); ("LAT"%string, (Some 0%Q)); ("LON"%string, (Some 0%Q)); ("SST"%string, (Some 6%Q))]) [("OSTIA"%string, (Some 5%Q)); ("BGVAR"%string, (Some (1 # 100)%Q)); ("ICE"%string, (Some 0%Q))]); (with_exts (new_report (Some "AAAAAAAAA"%string) None [("YR"%string, (Some 2003%Q)); ("MO"%string, (Some 12%Q)); ("DY"%string, (Some 1%Q)); ("HR"%string, (Some (2 # 5)%Q)); ("LAT"%string, (Some 0%Q)); ("LON"%string, (Some 0%Q)); ("SST"%string, (Some 6%Q))]) [("OSTIA"%string, (Some 5%Q)); ("BGVAR"%string, (Some (1 # 100)%Q)); ("ICE"%string, (Some 0%Q))]); (with_exts (new_report (Some "AAAAAAAAA"%string) None [("YR"%string, (Some 2003%Q)); ("MO"%string, (Some 12%Q)); ("DY"%string, (Some 1%Q)); ("HR"%string, (Some (1 # 2)%Q)); ("LAT"%string, (Some 0%Q)); ("LON"%string, (Some 0%Q)); ("SST"%string, (Some 6%Q))]) [("OSTIA"%string, (Some 5%Q)); ("BGVAR"%string, (Some (1 # 100)%Q)); ("ICE"%string, (Some 0%Q))]); (with_exts (new_report (Some "AAAAAAAAA"%string) None [("YR"%string, (Some 2003%Q)); ("MO"%string, (Some 12%Q)); ("DY"%string, (Some 1%Q)); ("HR"%string, (Some (3 # 5)%Q)); ("LAT"%string, (Some 0%Q)); ("LON"%string, (Some 0%Q)); ("SST"%string, (Some 6%Q))]) [("OSTIA"%string, (Some 5%Q)); ("BGVAR"%string, (Some (1 # 100)%Q)); ("ICE"%string, (Some 0%Q))]); (with_exts (new_report (Some "AAAAAAAAA"%string) None [("YR"%string, (Some 2003%Q)); ("MO"%string, (Some 12%Q)); ("DY"%string, (Some 1%Q)); ("HR"%string, (Some (7 # 10)%Q)); ("LAT"%string, (Some 0%Q)); ("LON"%string, (Some 0%Q)); ("SST"%string, (Some 6%Q))]) [("OSTIA"%string, (Some 5%Q)); ("BGVAR"%string, (Some (1 # 100)%Q)); ("ICE"%string, (Some 0%Q))]); (with_exts (new_report (Some "AAAAAAAAA"%string) None [("YR"%string, (Some 2003%Q)); ("MO"%string, (Some 12%Q)); ("DY"%string, (Some 1%Q)); ("HR"%string, (Some (4 # 5)%Q)); ("LAT"%string, (Some 0%Q)); ("LON"%string, (Some 0%Q)); ("SST"%string, (Some 5%Q))]) [("OSTIA"%string, (Some 5%Q)); ("BGVAR"%string, (Some (1 # 100)%Q)); ("ICE"%string, (Some 0%Q))])]) (sst_tail_check n_elevation n_sqrt {| tl_long := 3; tl_long_n := 3; tl_short := 3; tl_short_n := (1 # 2); tl_bad := 1; tl_inter := (29 # 100); tl_intra := 1; tl_lim := (3 # 10) |})) in
  all [flags x1 "SST"%string "drf_tail1"%string [1; 1; 1; 1; 1; 1; 1; 0; 0];
  flags x1 "SST"%string "drf_tail2"%string [0; 0; 0; 0; 0; 0; 0; 0; 0]]).
Example TestTrackQC_tail_check_test_too_short_for_short_tail_is : TestTrackQC_tail_check_test_too_short_for_short_tail = true.
Proof. reflexivity. Qed.
Definition TestTrackQC_tail_check_test_long_and_short_all_fail : bool := Eval vm_compute in (let x1 := (on (voyage_of [] [(with_exts (new_report (Some "AAAAAAAAA"%string) None [("YR"%string, (Some 2003%Q)); ("MO"%string, (Some 12%Q)); ("DY"%string, (Some 1%Q)); ("HR"%string, (Some 0%Q)); ("LAT"%string, (Some 0%Q)); ("LON"%string, (Some 0%Q)); ("SST"%string, (Some 6%Q))]) [("OSTIA"%string, (Some 5%Q)); ("BGVAR"%string, (Some (1 # 100)%Q)); ("ICE"%string, (Some 0%Q))]); (with_exts (new_report (Some "AAAAAAAAA"%string) None [("YR"%string, (Some 2003%Q)); ("MO"%string, (Some 12%Q)); ("DY"%string, (Some 1%Q)); ("HR"%string, (Some (1 # 10)%Q)); ("LAT"%string, (Some 0%Q)); ("LON"%string, (Some 0%Q)); ("SST"%string, (Some 6%Q))]) [("OSTIA"%string, (Some 5%Q)); ("BGVAR"%string, (Some (1 # 100)%Q)); ("ICE"%string, (Some 0%Q))]); (with_exts (new_report (Some "AAAAAAAAA"%string) None [("YR"%string, (Some 2003%Q)); ("MO"%string, (Some 12%Q)); ("DY"%string, (Some 1%Q)); ("HR"%string, (Some (1 # 5)%Q)); ("LAT"%string, (Some 0%Q)); ("LON"%string, (Some 0%Q)); ("SST"%string, (Some 6%Q))]) [("OSTIA"%string, (Some 5%Q)); ("BGVAR"%string, (Some (1 # 100)%Q)); ("ICE"%string, (Some 0%Q))]); (with_exts (new_report (Some "AAAAAAAAA"%string) None [("YR"%string, (Some 2003%Q)); ("MO"%string, (Some 12%Q)); ("DY"%string, (Some 1%Q)); ("HR"%string, (Some (3 # 10)%Q)); ("LAT"%string, (Some 0%Q)); ("LON"%string, (Some 0%Q)); ("SST"%string, (Some 6%Q))]) [("OSTIA"%string, (Some 5%Q)); ("BGVAR"%string, (Some (1 # 100)%Q)); ("ICE"%string, (Some 0%Q))]); (with_exts (new_report (Some "AAAAAAAAA"%string) None [("YR"%string, (Some 2003%Q)); ("MO"%string, (Some 12%Q)); ("DY"%string, (Some 1%Q)); ("HR"%string, (Some (2 # 5)%Q)); ("LAT"%string, (Some 0%Q)); ("LON"%string, (Some 0%Q)); ("SST"%string, (Some 6%Q))]) [("OSTIA"%string, (Some 5%Q)); ("BGVAR"%string, (Some (1 # 100)%Q)); ("ICE"%string, (Some 0%Q))]); (with_exts (new_report (Some "AAAAAAAAA"%string) None [("YR"%string, (Some 2003%Q)); ("MO"%string, (Some 12%Q)); ("DY"%string, (Some 1%Q)); ("HR"%string, (Some (1 # 2)%Q)); ("LAT"%string, (Some 0%Q)); ("LON"%string, (Some 0%Q)); ("SST"%string, (Some 6%Q))]) [("OSTIA"%string, (Some 5%Q)); ("BGVAR"%string, (Some (1 # 100)%Q)); ("ICE"%string, (Some 0%Q))]); (with_exts (new_report (Some "AAAAAAAAA"%string) None [("YR"%string, (Some 2003%Q)); ("MO"%string, (Some 12%Q)); ("DY"%string, (Some 1%Q)); ("HR"%string, (Some (3 # 5)%Q)); ("LAT"%string, (Some 0%Q)); ("LON"%string, (Some 0%Q)); ("SST"%string, (Some 6%Q))]) [("OSTIA"%string, (Some 5%Q)); ("BGVAR"%string, (Some (1 # 100)%Q)); ("ICE"%string, (Some 0%Q))]); (with_exts (new_report (Some "AAAAAAAAA"%string) None [("YR"%string, (Some 2003%Q)); ("MO"%string, (Some 12%Q)); ("DY"%string, (Some 1%Q)); ("HR"%string, (Some (7 # 10)%Q)); ("LAT"%string, (Some 0%Q)); ("LON"%string, (Some 0%Q)); ("SST"%string, (Some (11 # 2)%Q))]) [("OSTIA"%string, (Some 5%Q)); ("BGVAR"%string, (Some (1 # 100)%Q)); ("ICE"%string, (Some 0%Q))]); (with_exts (new_report (Some "AAAAAAAAA"%string) None [("YR"%string, (Some 2003%Q)); ("MO"%string, (Some 12%Q)); ("DY"%string, (Some 1%Q)); ("HR"%string, (Some (4 # 5)%Q)); ("LAT"%string, (Some 0%Q)); ("LON"%string, (Some 0%Q)); ("SST"%string, (Some (11 # 2)%Q))]) [("OSTIA"%string, (Some 5%Q)); ("BGVAR"%string, (Some (1 # 100)%Q)); ("ICE"%string, (Some 0%Q))])]) (sst_tail_check n_elevation n_sqrt {| tl_long := 3; tl_long_n := 3; tl_short := 1; tl_short_n := (1 # 4); tl_bad := 1; tl_inter := (29 # 100); tl_intra := 1; tl_lim := (3 # 10) |})) in
  all [flags x1 "SST"%string "drf_tail1"%string [0; 0; 0; 0; 0; 0; 0; 0; 0];
  flags x1 "SST"%string "drf_tail2"%string [0; 0; 0; 0; 0; 0; 0; 0; 0]]).
Example TestTrackQC_tail_check_test_long_and_short_all_fail_is : TestTrackQC_tail_check_test_long_and_short_all_fail = true.
Proof. reflexivity. Qed.
Definition TestTrackQC_tail_check_test_long_and_short_start_tail_with_bgvar : bool := Eval vm_compute in (let x1 := (on (voyage_of [] [(with_exts (new_report (Some "AAAAAAAAA"%string) None [("YR"%string, (Some 2003%Q)); ("MO"%string, (Some 12%Q)); ("DY"%string, (Some 1%Q)); ("HR"%string, (Some 0%Q)); ("LAT"%string, (Some 0%Q)); ("LON"%string, (Some 0%Q)); ("SST"%string, (Some 6%Q))]) [("OSTIA"%string, (Some 5%Q)); ("BGVAR"%string, (Some (1 # 100)%Q)); ("ICE"%string, (Some 0%Q))]); (with_exts (new_report (Some "AAAAAAAAA"%string) None [("YR"%string, (Some 2003%Q)); ("MO"%string, (Some 12%Q)); ("DY"%string, (Some 1%Q)); ("HR"%string, (Some (1 # 10)%Q)); ("LAT"%string, (Some 0%Q)); ("LON"%string, (Some 0%Q)); ("SST"%string, (Some 6%Q))]) [("OSTIA"%string, (Some 5%Q)); ("BGVAR"%string, (Some (1 # 100)%Q)); ("ICE"%string, (Some 0%Q))]); (with_exts (new_report (Some "AAAAAAAAA"%string) None [("YR"%string, (Some 2003%Q)); ("MO"%string, (Some 12%Q)); ("DY"%string, (Some 1%Q)); ("HR"%string, (Some (1 # 5)%Q)); ("LAT"%string, (Some 0%Q)); ("LON"%string, (Some 0%Q)); ("SST"%string, (Some 7%Q))]) [("OSTIA"%string, (Some 5%Q)); ("BGVAR"%string, (Some (1 # 100)%Q)); ("ICE"%string, (Some 0%Q))]); (with_exts (new_report (Some "AAAAAAAAA"%string) None [("YR"%string, (Some 2003%Q)); ("MO"%string, (Some 12%Q)); ("DY"%string, (Some 1%Q)); ("HR"%string, (Some (3 # 10)%Q)); ("LAT"%string, (Some 0%Q)); ("LON"%string, (Some 0%Q)); ("SST"%string, (Some 7%Q))]) [("OSTIA"%string, (Some 5%Q)); ("BGVAR"%string, (Some (2 # 5)%Q)); ("ICE"%string, (Some 0%Q))]); (with_exts (new_report (Some "AAAAAAAAA"%string) None [("YR"%string, (Some 2003%Q)); ("MO"%string, (Some 12%Q)); ("DY"%string, (Some 1%Q)); ("HR"%string, (Some (2 # 5)%Q)); ("LAT"%string, (Some 0%Q)); ("LON"%string, (Some 0%Q)); ("SST"%string, (Some 5%Q))]) [("OSTIA"%string, (Some 5%Q)); ("BGVAR"%string, (Some (1 # 100)%Q)); ("ICE"%string, (Some 0%Q))]); (with_exts (new_report (Some "AAAAAAAAA"%string) None [("YR"%string, (Some 2003%Q)); ("MO"%string, (Some 12%Q)); ("DY"%string, (Some 1%Q)); ("HR"%string, (Some (1 # 2)%Q)); ("LAT"%string, (Some 0%Q)); ("LON"%string, (Some 0%Q)); ("SST"%string, (Some 5%Q))]) [("OSTIA"%string, (Some 5%Q)); ("BGVAR"%string, (Some (1 # 100)%Q)); ("ICE"%string, (Some 0%Q))]); (with_exts (new_report (Some "AAAAAAAAA"%string) None [("YR"%string, (Some 2003%Q)); ("MO"%string, (Some 12%Q)); ("DY"%string, (Some 1%Q)); ("HR"%string, (Some (3 # 5)%Q)); ("LAT"%string, (Some 0%Q)); ("LON"%string, (Some 0%Q)); ("SST"%string, (Some 5%Q))]) [("OSTIA"%string, (Some 5%Q)); ("BGVAR"%string, (Some (1 # 100)%Q)); ("ICE"%string, (Some 0%Q))]); (with_exts (new_report (Some "AAAAAAAAA"%string) None [("YR"%string, (Some 2003%Q)); ("MO"%string, (Some 12%Q)); ("DY"%string, (Some 1%Q)); ("HR"%string, (Some (7 # 10)%Q)); ("LAT"%string, (Some 0%Q)); ("LON"%string, (Some 0%Q)); ("SST"%string, (Some 5%Q))]) [("OSTIA"%string, (Some 5%Q)); ("BGVAR"%string, (Some (1 # 100)%Q)); ("ICE"%string, (Some 0%Q))]); (with_exts (new_report (Some "AAAAAAAAA"%string) None [("YR"%string, (Some 2003%Q)); ("MO"%string, (Some 12%Q)); ("DY"%string, (Some 1%Q)); ("HR"%string, (Some (4 # 5)%Q)); ("LAT"%string, (Some 0%Q)); ("LON"%string, (Some 0%Q)); ("SST"%string, (Some 5%Q))]) [("OSTIA"%string, (Some 5%Q)); ("BGVAR"%string, (Some (1 # 100)%Q)); ("ICE"%string, (Some 0%Q))])]) (sst_tail_check n_elevation n_sqrt {| tl_long := 3; tl_long_n := 3; tl_short := 1; tl_short_n := 1; tl_bad := 1; tl_inter := (29 # 100); tl_intra := 1; tl_lim := (3 # 10) |})) in
  all [flags x1 "SST"%string "drf_tail1"%string [1; 1; 1; 0; 0; 0; 0; 0; 0];
  flags x1 "SST"%string "drf_tail2"%string [0; 0; 0; 0; 0; 0; 0; 0; 0]]).
Example TestTrackQC_tail_check_test_long_and_short_start_tail_with_bgvar_is : TestTrackQC_tail_check_test_long_and_short_start_tail_with_bgvar = true.
Proof. reflexivity. Qed.
Definition TestTrackQC_tail_check_test_long_and_short_all_fail_with_bgvar : bool := Eval vm_compute in (let x1 := (on (voyage_of [] [(with_exts (new_report (Some "AAAAAAAAA"%string) None [("YR"%string, (Some 2003%Q)); ("MO"%string, (Some 12%Q)); ("DY"%string, (Some 1%Q)); ("HR"%string, (Some 0%Q)); ("LAT"%string, (Some 0%Q)); ("LON"%string, (Some 0%Q)); ("SST"%string, (Some 6%Q))]) [("OSTIA"%string, (Some 5%Q)); ("BGVAR"%string, (Some (1 # 100)%Q)); ("ICE"%string, (Some 0%Q))]); (with_exts (new_report (Some "AAAAAAAAA"%string) None [("YR"%string, (Some 2003%Q)); ("MO"%string, (Some 12%Q)); ("DY"%string, (Some 1%Q)); ("HR"%string, (Some (1 # 10)%Q)); ("LAT"%string, (Some 0%Q)); ("LON"%string, (Some 0%Q)); ("SST"%string, (Some 6%Q))]) [("OSTIA"%string, (Some 5%Q)); ("BGVAR"%string, (Some (1 # 100)%Q)); ("ICE"%string, (Some 0%Q))]); (with_exts (new_report (Some "AAAAAAAAA"%string) None [("YR"%string, (Some 2003%Q)); ("MO"%string, (Some 12%Q)); ("DY"%string, (Some 1%Q)); ("HR"%string, (Some (1 # 5)%Q)); ("LAT"%string, (Some 0%Q)); ("LON"%string, (Some 0%Q)); ("SST"%string, (Some 6%Q))]) [("OSTIA"%string, (Some 5%Q)); ("BGVAR"%string, (Some (1 # 100)%Q)); ("ICE"%string, (Some 0%Q))]); (with_exts (new_report (Some "AAAAAAAAA"%string) None [("YR"%string, (Some 2003%Q)); ("MO"%string, (Some 12%Q)); ("DY"%string, (Some 1%Q)); ("HR"%string, (Some (3 # 10)%Q)); ("LAT"%string, (Some 0%Q)); ("LON"%string, (Some 0%Q)); ("SST"%string, (Some 6%Q))]) [("OSTIA"%string, (Some 5%Q)); ("BGVAR"%string, (Some (1 # 100)%Q)); ("ICE"%string, (Some 0%Q))]); (with_exts (new_report (Some "AAAAAAAAA"%string) None [("YR"%string, (Some 2003%Q)); ("MO"%string, (Some 12%Q)); ("DY"%string, (Some 1%Q)); ("HR"%string, (Some (2 # 5)%Q)); ("LAT"%string, (Some 0%Q)); ("LON"%string, (Some 0%Q)); ("SST"%string, (Some 6%Q))]) [("OSTIA"%string, (Some 5%Q)); ("BGVAR"%string, (Some (1 # 100)%Q)); ("ICE"%string, (Some 0%Q))]); (with_exts (new_report (Some "AAAAAAAAA"%string) None [("YR"%string, (Some 2003%Q)); ("MO"%string, (Some 12%Q)); ("DY"%string, (Some 1%Q)); ("HR"%string, (Some (1 # 2)%Q)); ("LAT"%string, (Some 0%Q)); ("LON"%string, (Some 0%Q)); ("SST"%string, (Some 6%Q))]) [("OSTIA"%string, (Some 5%Q)); ("BGVAR"%string, (Some (1 # 100)%Q)); ("ICE"%string, (Some 0%Q))]); (with_exts (new_report (Some "AAAAAAAAA"%string) None [("YR"%string, (Some 2003%Q)); ("MO"%string, (Some 12%Q)); ("DY"%string, (Some 1%Q)); ("HR"%string, (Some (3 # 5)%Q)); ("LAT"%string, (Some 0%Q)); ("LON"%string, (Some 0%Q)); ("SST"%string, (Some 6%Q))]) [("OSTIA"%string, (Some 5%Q)); ("BGVAR"%string, (Some (1 # 100)%Q)); ("ICE"%string, (Some 0%Q))]); (with_exts (new_report (Some "AAAAAAAAA"%string) None [("YR"%string, (Some 2003%Q)); ("MO"%string, (Some 12%Q)); ("DY"%string, (Some 1%Q)); ("HR"%string, (Some (7 # 10)%Q)); ("LAT"%string, (Some 0%Q)); ("LON"%string, (Some 0%Q)); ("SST"%string, (Some (11 # 2)%Q))]) [("OSTIA"%string, (Some 5%Q)); ("BGVAR"%string, (Some (1 # 100)%Q)); ("ICE"%string, (Some 0%Q))]); (with_exts (new_report (Some "AAAAAAAAA"%string) None [("YR"%string, (Some 2003%Q)); ("MO"%string, (Some 12%Q)); ("DY"%string, (Some 1%Q)); ("HR"%string, (Some (4 # 5)%Q)); ("LAT"%string, (Some 0%Q)); ("LON"%string, (Some 0%Q)); ("SST"%string, (Some (11 # 2)%Q))]) [("OSTIA"%string, (Some 5%Q)); ("BGVAR"%string, (Some (2 # 5)%Q)); ("ICE"%string, (Some 0%Q))])]) (sst_tail_check n_elevation n_sqrt {| tl_long := 3; tl_long_n := 3; tl_short := 1; tl_short_n := (1 # 4); tl_bad := 1; tl_inter := (29 # 100); tl_intra := 1; tl_lim := (3 # 10) |})) in
  all [flags x1 "SST"%string "drf_tail1"%string [1; 1; 1; 1; 1; 1; 1; 1; 0];
  flags x1 "SST"%string "drf_tail2"%string [0; 0; 0; 0; 0; 0; 0; 0; 0]]).
Example TestTrackQC_tail_check_test_long_and_short_all_fail_with_bgvar_is : TestTrackQC_tail_check_test_long_and_short_all_fail_with_bgvar = true.
Proof. reflexivity. Qed.
Definition TestTrackQC_tail_check_test_good_data : bool := Eval vm_compute in (let x1 := (on (voyage_of [] [(with_exts (new_report (Some "AAAAAAAAA"%string) None [("YR"%string, (Some 2003%Q)); ("MO"%string, (Some 12%Q)); ("DY"%string, (Some 1%Q)); ("HR"%string, (Some 0%Q)); ("LAT"%string, (Some 0%Q)); ("LON"%string, (Some 0%Q)); ("SST"%string, (Some (51 # 10)%Q))]) [("OSTIA"%string, (Some 5%Q)); ("BGVAR"%string, (Some (1 # 100)%Q)); ("ICE"%string, (Some 0%Q))]); (with_exts (new_report (Some "AAAAAAAAA"%string) None [("YR"%string, (Some 2003%Q)); ("MO"%string, (Some 12%Q)); ("DY"%string, (Some 1%Q)); ("HR"%string, (Some (1 # 10)%Q)); ("LAT"%string, (Some 0%Q)); ("LON"%string, (Some 0%Q)); ("SST"%string, (Some (51 # 10)%Q))]) [("OSTIA"%string, (Some 5%Q)); ("BGVAR"%string, (Some (1 # 100)%Q)); ("ICE"%string, (Some 0%Q))]); (with_exts (new_report (Some "AAAAAAAAA"%string) None [("YR"%string, (Some 2003%Q)); ("MO"%string, (Some 12%Q)); ("DY"%string, (Some 1%Q)); ("HR"%string, (Some (1 # 5)%Q)); ("LAT"%string, (Some 0%Q)); ("LON"%string, (Some 0%Q)); ("SST"%string, (Some (51 # 10)%Q))]) [("OSTIA"%string, (Some 5%Q)); ("BGVAR"%string, (Some (1 # 100)%Q)); ("ICE"%string, (Some 0%Q))]); (with_exts (new_report (Some "AAAAAAAAA"%string) None [("YR"%string, (Some 2003%Q)); ("MO"%string, (Some 12%Q)); ("DY"%string, (Some 1%Q)); ("HR"%string, (Some (3 # 10)%Q)); ("LAT"%string, (Some 0%Q)); ("LON"%string, (Some 0%Q)); ("SST"%string, (Some (51 # 10)%Q))]) [("OSTIA"%string, (Some 5%Q)); ("BGVAR"%string, (Some (1 # 100)%Q)); ("ICE"%string, (Some 0%Q))]); (with_exts (new_report (Some "AAAAAAAAA"%string) None [("YR"%string, (Some 2003%Q)); ("MO"%string, (Some 12%Q)); ("DY"%string, (Some 1%Q)); ("HR"%string, (Some (2 # 5)%Q)); ("LAT"%string, (Some 0%Q)); ("LON"%string, (Some 0%Q)); ("SST"%string, (Some (51 # 10)%Q))]) [("OSTIA"%string, (Some 5%Q)); ("BGVAR"%string, (Some (1 # 100)%Q)); ("ICE"%string, (Some 0%Q))]); (with_exts (new_report (Some "AAAAAAAAA"%string) None [("YR"%string, (Some 2003%Q)); ("MO"%string, (Some 12%Q)); ("DY"%string, (Some 1%Q)); ("HR"%string, (Some (1 # 2)%Q)); ("LAT"%string, (Some 0%Q)); ("LON"%string, (Some 0%Q)); ("SST"%string, (Some 5%Q))]) [("OSTIA"%string, (Some 5%Q)); ("BGVAR"%string, (Some (1 # 100)%Q)); ("ICE"%string, (Some 0%Q))]); (with_exts (new_report (Some "AAAAAAAAA"%string) None [("YR"%string, (Some 2003%Q)); ("MO"%string, (Some 12%Q)); ("DY"%string, (Some 1%Q)); ("HR"%string, (Some (3 # 5)%Q)); ("LAT"%string, (Some 0%Q)); ("LON"%string, (Some 0%Q)); ("SST"%string, (Some 5%Q))]) [("OSTIA"%string, (Some 5%Q)); ("BGVAR"%string, (Some (1 # 100)%Q)); ("ICE"%string, (Some 0%Q))]); (with_exts (new_report (Some "AAAAAAAAA"%string) None [("YR"%string, (Some 2003%Q)); ("MO"%string, (Some 12%Q)); ("DY"%string, (Some 1%Q)); ("HR"%string, (Some (7 # 10)%Q)); ("LAT"%string, (Some 0%Q)); ("LON"%string, (Some 0%Q)); ("SST"%string, (Some 5%Q))]) [("OSTIA"%string, (Some 5%Q)); ("BGVAR"%string, (Some (1 # 100)%Q)); ("ICE"%string, (Some 0%Q))]); (with_exts (new_report (Some "AAAAAAAAA"%string) None [("YR"%string, (Some 2003%Q)); ("MO"%string, (Some 12%Q)); ("DY"%string, (Some 1%Q)); ("HR"%string, (Some (4 # 5)%Q)); ("LAT"%string, (Some 0%Q)); ("LON"%string, (Some 0%Q)); ("SST"%string, (Some 5%Q))]) [("OSTIA"%string, (Some 5%Q)); ("BGVAR"%string, (Some (1 # 100)%Q)); ("ICE"%string, (Some 0%Q))])]) (sst_tail_check n_elevation n_sqrt {| tl_long := 3; tl_long_n := 3; tl_short := 1; tl_short_n := 3; tl_bad := 1; tl_inter := (29 # 100); tl_intra := 1; tl_lim := (3 # 10) |})) in
  all [flags x1 "SST"%string "drf_tail1"%string [0; 0; 0; 0; 0; 0; 0; 0; 0];
  flags x1 "SST"%string "drf_tail2"%string [0; 0; 0; 0; 0; 0; 0; 0; 0]]).
Example TestTrackQC_tail_check_test_good_data_is : TestTrackQC_tail_check_test_good_data = true.
Proof. reflexivity. Qed.
Definition TestTrackQC_tail_check_test_long_and_short_start_tail_big_bgvar : bool := Eval vm_compute in (let x1 := (on (voyage_of [] [(with_exts (new_report (Some "AAAAAAAAA"%string) None [("YR"%string, (Some 2003%Q)); ("MO"%string, (Some 12%Q)); ("DY"%string, (Some 1%Q)); ("HR"%string, (Some 0%Q)); ("LAT"%string, (Some 0%Q)); ("LON"%string, (Some 0%Q)); ("SST"%string, (Some (61 # 10)%Q))]) [("OSTIA"%string, (Some 5%Q)); ("BGVAR"%string, (Some (3 # 10)%Q)); ("ICE"%string, (Some 0%Q))]); (with_exts (new_report (Some "AAAAAAAAA"%string) None [("YR"%string, (Some 2003%Q)); ("MO"%string, (Some 12%Q)); ("DY"%string, (Some 1%Q)); ("HR"%string, (Some (1 # 10)%Q)); ("LAT"%string, (Some 0%Q)); ("LON"%string, (Some 0%Q)); ("SST"%string, (Some (61 # 10)%Q))]) [("OSTIA"%string, (Some 5%Q)); ("BGVAR"%string, (Some (3 # 10)%Q)); ("ICE"%string, (Some 0%Q))]); (with_exts (new_report (Some "AAAAAAAAA"%string) None [("YR"%string, (Some 2003%Q)); ("MO"%string, (Some 12%Q)); ("DY"%string, (Some 1%Q)); ("HR"%string, (Some (1 # 5)%Q)); ("LAT"%string, (Some 0%Q)); ("LON"%string, (Some 0%Q)); ("SST"%string, (Some (61 # 10)%Q))]) [("OSTIA"%string, (Some 5%Q)); ("BGVAR"%string, (Some (3 # 10)%Q)); ("ICE"%string, (Some 0%Q))]); (with_exts (new_report (Some "AAAAAAAAA"%string) None [("YR"%string, (Some 2003%Q)); ("MO"%string, (Some 12%Q)); ("DY"%string, (Some 1%Q)); ("HR"%string, (Some (3 # 10)%Q)); ("LAT"%string, (Some 0%Q)); ("LON"%string, (Some 0%Q)); ("SST"%string, (Some (61 # 10)%Q))]) [("OSTIA"%string, (Some 5%Q)); ("BGVAR"%string, (Some (3 # 10)%Q)); ("ICE"%string, (Some 0%Q))]); (with_exts (new_report (Some "AAAAAAAAA"%string) None [("YR"%string, (Some 2003%Q)); ("MO"%string, (Some 12%Q)); ("DY"%string, (Some 1%Q)); ("HR"%string, (Some (2 # 5)%Q)); ("LAT"%string, (Some 0%Q)); ("LON"%string, (Some 0%Q)); ("SST"%string, (Some 5%Q))]) [("OSTIA"%string, (Some 5%Q)); ("BGVAR"%string, (Some (3 # 10)%Q)); ("ICE"%string, (Some 0%Q))]); (with_exts (new_report (Some "AAAAAAAAA"%string) None [("YR"%string, (Some 2003%Q)); ("MO"%string, (Some 12%Q)); ("DY"%string, (Some 1%Q)); ("HR"%string, (Some (1 # 2)%Q)); ("LAT"%string, (Some 0%Q)); ("LON"%string, (Some 0%Q)); ("SST"%string, (Some 5%Q))]) [("OSTIA"%string, (Some 5%Q)); ("BGVAR"%string, (Some (3 # 10)%Q)); ("ICE"%string, (Some 0%Q))]); (with_exts (new_report (Some "AAAAAAAAA"%string) None [("YR"%string, (Some 2003%Q)); ("MO"%string, (Some 12%Q)); ("DY"%string, (Some 1%Q)); ("HR"%string, (Some (3 # 5)%Q)); ("LAT"%string, (Some 0%Q)); ("LON"%string, (Some 0%Q)); ("SST"%string, (Some 5%Q))]) [("OSTIA"%string, (Some 5%Q)); ("BGVAR"%string, (Some (3 # 10)%Q)); ("ICE"%string, (Some 0%Q))]); (with_exts (new_report (Some "AAAAAAAAA"%string) None [("YR"%string, (Some 2003%Q)); ("MO"%string, (Some 12%Q)); ("DY"%string, (Some 1%Q)); ("HR"%string, (Some (7 # 10)%Q)); ("LAT"%string, (Some 0%Q)); ("LON"%string, (Some 0%Q)); ("SST"%string, (Some 5%Q))]) [("OSTIA"%string, (Some 5%Q)); ("BGVAR"%string, (Some (3 # 10)%Q)); ("ICE"%string, (Some 0%Q))]); (with_exts (new_report (Some "AAAAAAAAA"%string) None [("YR"%string, (Some 2003%Q)); ("MO"%string, (Some 12%Q)); ("DY"%string, (Some 1%Q)); ("HR"%string, (Some (4 # 5)%Q)); ("LAT"%string, (Some 0%Q)); ("LON"%string, (Some 0%Q)); ("SST"%string, (Some 5%Q))]) [("OSTIA"%string, (Some 5%Q)); ("BGVAR"%string, (Some (3 # 10)%Q)); ("ICE"%string, (Some 0%Q))])]) (sst_tail_check n_elevation n_sqrt {| tl_long := 3; tl_long_n := 3; tl_short := 1; tl_short_n := 1; tl_bad := 1; tl_inter := (29 # 100); tl_intra := 1; tl_lim := (3 # 10) |})) in
  all [flags x1 "SST"%string "drf_tail1"%string [0; 0; 0; 0; 0; 0; 0; 0; 0];
  flags x1 "SST"%string "drf_tail2"%string [0; 0; 0; 0; 0; 0; 0; 0; 0]]).
Example TestTrackQC_tail_check_test_long_and_short_start_tail_big_bgvar_is : TestTrackQC_tail_check_test_long_and_short_start_tail_big_bgvar = true.
Proof. reflexivity. Qed.
Definition TestTrackQC_tail_check_test_start_tail_noisy_big_bgvar : bool := Eval vm_compute in (let x1 := (on (voyage_of [] [(with_exts (new_report (Some "AAAAAAAAA"%string) None [("YR"%string, (Some 2003%Q)); ("MO"%string, (Some 12%Q)); ("DY"%string, (Some 1%Q)); ("HR"%string, (Some 0%Q)); ("LAT"%string, (Some 0%Q)); ("LON"%string, (Some 0%Q)); ("SST"%string, (Some 5%Q))]) [("OSTIA"%string, (Some 5%Q)); ("BGVAR"%string, (Some 1%Q)); ("ICE"%string, (Some 0%Q))]); (with_exts (new_report (Some "AAAAAAAAA"%string) None [("YR"%string, (Some 2003%Q)); ("MO"%string, (Some 12%Q)); ("DY"%string, (Some 1%Q)); ("HR"%string, (Some (1 # 10)%Q)); ("LAT"%string, (Some 0%Q)); ("LON"%string, (Some 0%Q)); ("SST"%string, (Some (15 # 2)%Q))]) [("OSTIA"%string, (Some 5%Q)); ("BGVAR"%string, (Some 1%Q)); ("ICE"%string, (Some 0%Q))]); (with_exts (new_report (Some "AAAAAAAAA"%string) None [("YR"%string, (Some 2003%Q)); ("MO"%string, (Some 12%Q)); ("DY"%string, (Some 1%Q)); ("HR"%string, (Some (1 # 5)%Q)); ("LAT"%string, (Some 0%Q)); ("LON"%string, (Some 0%Q)); ("SST"%string, (Some 5%Q))]) [("OSTIA"%string, (Some 5%Q)); ("BGVAR"%string, (Some 1%Q)); ("ICE"%string, (Some 0%Q))]); (with_exts (new_report (Some "AAAAAAAAA"%string) None [("YR"%string, (Some 2003%Q)); ("MO"%string, (Some 12%Q)); ("DY"%string, (Some 1%Q)); ("HR"%string, (Some (3 # 10)%Q)); ("LAT"%string, (Some 0%Q)); ("LON"%string, (Some 0%Q)); ("SST"%string, (Some 5%Q))]) [("OSTIA"%string, (Some 5%Q)); ("BGVAR"%string, (Some 1%Q)); ("ICE"%string, (Some 0%Q))]); (with_exts (new_report (Some "AAAAAAAAA"%string) None [("YR"%string, (Some 2003%Q)); ("MO"%string, (Some 12%Q)); ("DY"%string, (Some 1%Q)); ("HR"%string, (Some (2 # 5)%Q)); ("LAT"%string, (Some 0%Q)); ("LON"%string, (Some 0%Q)); ("SST"%string, (Some 5%Q))]) [("OSTIA"%string, (Some 5%Q)); ("BGVAR"%string, (Some 1%Q)); ("ICE"%string, (Some 0%Q))]); (with_exts (new_report (Some "AAAAAAAAA"%string) None [("YR"%string, (Some 2003%Q)); ("MO"%string, (Some 12%Q)); ("DY"%string, (Some 1%Q)); ("HR"%string, (Some (1 # 2)%Q)); ("LAT"%string, (Some 0%Q)); ("LON"%string, (Some 0%Q)); ("SST"%string, (Some 5%Q))]) [("OSTIA"%string, (Some 5%Q)); ("BGVAR"%string, (Some 1%Q)); ("ICE"%string, (Some 0%Q))]); (with_exts (new_report (Some "AAAAAAAAA"%string) None [("YR"%string, (Some 2003%Q)); ("MO"%string, (Some 12%Q)); ("DY"%string, (Some 1%Q)); ("HR"%string, (Some (3 # 5)%Q)); ("LAT"%string, (Some 0%Q)); ("LON"%string, (Some 0%Q)); ("SST"%string, (Some 5%Q))]) [("OSTIA"%string, (Some 5%Q)); ("BGVAR"%string, (Some 1%Q)); ("ICE"%string, (Some 0%Q))]); (with_exts (new_report (Some "AAAAAAAAA"%string) None [("YR"%string, (Some 2003%Q)); ("MO"%string, (Some 12%Q)); ("DY"%string, (Some 1%Q)); ("HR"%string, (Some (7 # 10)%Q)); ("LAT"%string, (Some 0%Q)); ("LON"%string, (Some 0%Q)); ("SST"%string, (Some 5%Q))]) [("OSTIA"%string, (Some 5%Q)); ("BGVAR"%string, (Some 1%Q)); ("ICE"%string, (Some 0%Q))]); (with_exts (new_report (Some "AAAAAAAAA"%string) None [("YR"%string, (Some 2003%Q)); ("MO"%string, (Some 12%Q)); ("DY"%string, (Some 1%Q)); ("HR"%string, (Some (4 # 5)%Q)); ("LAT"%string, (Some 0%Q)); ("LON"%string, (Some 0%Q)); ("SST"%string, (Some 5%Q))]) [("OSTIA"%string, (Some 5%Q)); ("BGVAR"%string, (Some 1%Q)); ("ICE"%string, (Some 0%Q))])]) (sst_tail_check n_elevation n_sqrt {| tl_long := 3; tl_long_n := 3; tl_short := 1; tl_short_n := 3; tl_bad := 1; tl_inter := (29 # 100); tl_intra := 1; tl_lim := 2 |})) in
  all [flags x1 "SST"%string "drf_tail1"%string [0; 0; 0; 0; 0; 0; 0; 0; 0];
  flags x1 "SST"%string "drf_tail2"%string [0; 0; 0; 0; 0; 0; 0; 0; 0]]).
Example TestTrackQC_tail_check_test_start_tail_noisy_big_bgvar_is : TestTrackQC_tail_check_test_start_tail_noisy_big_bgvar = true.
Proof. reflexivity. Qed.
Definition TestTrackQC_tail_check_test_error_bad_input_parameter : bool := Eval vm_compute in (all [asserts (rs (fun _ => VNone) (on (voyage_of [] [(with_exts (new_report (Some "AAAAAAAAA"%string) None [("YR"%string, (Some 2003%Q)); ("MO"%string, (Some 12%Q)); ("DY"%string, (Some 1%Q)); ("HR"%string, (Some 0%Q)); ("LAT"%string, (Some 0%Q)); ("LON"%string, (Some 0%Q)); ("SST"%string, (Some 5%Q))]) [("OSTIA"%string, (Some 5%Q)); ("BGVAR"%string, (Some 1%Q)); ("ICE"%string, (Some 0%Q))]); (with_exts (new_report (Some "AAAAAAAAA"%string) None [("YR"%string, (Some 2003%Q)); ("MO"%string, (Some 12%Q)); ("DY"%string, (Some 1%Q)); ("HR"%string, (Some (1 # 10)%Q)); ("LAT"%string, (Some 0%Q)); ("LON"%string, (Some 0%Q)); ("SST"%string, (Some 5%Q))]) [("OSTIA"%string, (Some 5%Q)); ("BGVAR"%string, (Some 1%Q)); ("ICE"%string, (Some 0%Q))]); (with_exts (new_report (Some "AAAAAAAAA"%string) None [("YR"%string, (Some 2003%Q)); ("MO"%string, (Some 12%Q)); ("DY"%string, (Some 1%Q)); ("HR"%string, (Some (1 # 5)%Q)); ("LAT"%string, (Some 0%Q)); ("LON"%string, (Some 0%Q)); ("SST"%string, (Some 5%Q))]) [("OSTIA"%string, (Some 5%Q)); ("BGVAR"%string, (Some 1%Q)); ("ICE"%string, (Some 0%Q))]); (with_exts (new_report (Some "AAAAAAAAA"%string) None [("YR"%string, (Some 2003%Q)); ("MO"%string, (Some 12%Q)); ("DY"%string, (Some 1%Q)); ("HR"%string, (Some (3 # 10)%Q)); ("LAT"%string, (Some 0%Q)); ("LON"%string, (Some 0%Q)); ("SST"%string, (Some 5%Q))]) [("OSTIA"%string, (Some 5%Q)); ("BGVAR"%string, (Some 1%Q)); ("ICE"%string, (Some 0%Q))]); (with_exts (new_report (Some "AAAAAAAAA"%string) None [("YR"%string, (Some 2003%Q)); ("MO"%string, (Some 12%Q)); ("DY"%string, (Some 1%Q)); ("HR"%string, (Some (2 # 5)%Q)); ("LAT"%string, (Some 0%Q)); ("LON"%string, (Some 0%Q)); ("SST"%string, (Some 5%Q))]) [("OSTIA"%string, (Some 5%Q)); ("BGVAR"%string, (Some 1%Q)); ("ICE"%string, (Some 0%Q))]); (with_exts (new_report (Some "AAAAAAAAA"%string) None [("YR"%string, (Some 2003%Q)); ("MO"%string, (Some 12%Q)); ("DY"%string, (Some 1%Q)); ("HR"%string, (Some (1 # 2)%Q)); ("LAT"%string, (Some 0%Q)); ("LON"%string, (Some 0%Q)); ("SST"%string, (Some 5%Q))]) [("OSTIA"%string, (Some 5%Q)); ("BGVAR"%string, (Some 1%Q)); ("ICE"%string, (Some 0%Q))]); (with_exts (new_report (Some "AAAAAAAAA"%string) None [("YR"%string, (Some 2003%Q)); ("MO"%string, (Some 12%Q)); ("DY"%string, (Some 1%Q)); ("HR"%string, (Some (3 # 5)%Q)); ("LAT"%string, (Some 0%Q)); ("LON"%string, (Some 0%Q)); ("SST"%string, (Some 5%Q))]) [("OSTIA"%string, (Some 5%Q)); ("BGVAR"%string, (Some 1%Q)); ("ICE"%string, (Some 0%Q))]); (with_exts (new_report (Some "AAAAAAAAA"%string) None [("YR"%string, (Some 2003%Q)); ("MO"%string, (Some 12%Q)); ("DY"%string, (Some 1%Q)); ("HR"%string, (Some (7 # 10)%Q)); ("LAT"%string, (Some 0%Q)); ("LON"%string, (Some 0%Q)); ("SST"%string, (Some 5%Q))]) [("OSTIA"%string, (Some 5%Q)); ("BGVAR"%string, (Some 1%Q)); ("ICE"%string, (Some 0%Q))]); (with_exts (new_report (Some "AAAAAAAAA"%string) None [("YR"%string, (Some 2003%Q)); ("MO"%string, (Some 12%Q)); ("DY"%string, (Some 1%Q)); ("HR"%string, (Some (4 # 5)%Q)); ("LAT"%string, (Some 0%Q)); ("LON"%string, (Some 0%Q)); ("SST"%string, (Some 5%Q))]) [("OSTIA"%string, (Some 5%Q)); ("BGVAR"%string, (Some 1%Q)); ("ICE"%string, (Some 0%Q))])]) (sst_tail_check n_elevation n_sqrt {| tl_long := 0; tl_long_n := 3; tl_short := 1; tl_short_n := 3; tl_bad := 1; tl_inter := (29 # 100); tl_intra := 1; tl_lim := (3 # 10) |})))]).
Example TestTrackQC_tail_check_test_error_bad_input_parameter_is : TestTrackQC_tail_check_test_error_bad_input_parameter = true.
Proof. reflexivity. Qed.
Definition TestTrackQC_tail_check_test_error_missing_matched_value : bool := Eval vm_compute in (all [asserts (rs (fun _ => VNone) (on (voyage_of [] [(with_exts (new_report (Some "AAAAAAAAA"%string) None [("YR"%string, (Some 2003%Q)); ("MO"%string, (Some 12%Q)); ("DY"%string, (Some 1%Q)); ("HR"%string, (Some 0%Q)); ("LAT"%string, (Some 0%Q)); ("LON"%string, (Some 0%Q)); ("SST"%string, (Some 5%Q))]) [("BGVAR"%string, (Some 1%Q)); ("ICE"%string, (Some 0%Q))]); (with_exts (new_report (Some "AAAAAAAAA"%string) None [("YR"%string, (Some 2003%Q)); ("MO"%string, (Some 12%Q)); ("DY"%string, (Some 1%Q)); ("HR"%string, (Some (1 # 10)%Q)); ("LAT"%string, (Some 0%Q)); ("LON"%string, (Some 0%Q)); ("SST"%string, (Some 5%Q))]) [("BGVAR"%string, (Some 1%Q)); ("ICE"%string, (Some 0%Q))]); (with_exts (new_report (Some "AAAAAAAAA"%string) None [("YR"%string, (Some 2003%Q)); ("MO"%string, (Some 12%Q)); ("DY"%string, (Some 1%Q)); ("HR"%string, (Some (1 # 5)%Q)); ("LAT"%string, (Some 0%Q)); ("LON"%string, (Some 0%Q)); ("SST"%string, (Some 5%Q))]) [("BGVAR"%string, (Some 1%Q)); ("ICE"%string, (Some 0%Q))]); (with_exts (new_report (Some "AAAAAAAAA"%string) None [("YR"%string, (Some 2003%Q)); ("MO"%string, (Some 12%Q)); ("DY"%string, (Some 1%Q)); ("HR"%string, (Some (3 # 10)%Q)); ("LAT"%string, (Some 0%Q)); ("LON"%string, (Some 0%Q)); ("SST"%string, (Some 5%Q))]) [("BGVAR"%string, (Some 1%Q)); ("ICE"%string, (Some 0%Q))]); (with_exts (new_report (Some "AAAAAAAAA"%string) None [("YR"%string, (Some 2003%Q)); ("MO"%string, (Some 12%Q)); ("DY"%string, (Some 1%Q)); ("HR"%string, (Some (2 # 5)%Q)); ("LAT"%string, (Some 0%Q)); ("LON"%string, (Some 0%Q)); ("SST"%string, (Some 5%Q))]) [("BGVAR"%string, (Some 1%Q)); ("ICE"%string, (Some 0%Q))]); (with_exts (new_report (Some "AAAAAAAAA"%string) None [("YR"%string, (Some 2003%Q)); ("MO"%string, (Some 12%Q)); ("DY"%string, (Some 1%Q)); ("HR"%string, (Some (1 # 2)%Q)); ("LAT"%string, (Some 0%Q)); ("LON"%string, (Some 0%Q)); ("SST"%string, (Some 5%Q))]) [("BGVAR"%string, (Some 1%Q)); ("ICE"%string, (Some 0%Q))]); (with_exts (new_report (Some "AAAAAAAAA"%string) None [("YR"%string, (Some 2003%Q)); ("MO"%string, (Some 12%Q)); ("DY"%string, (Some 1%Q)); ("HR"%string, (Some (3 # 5)%Q)); ("LAT"%string, (Some 0%Q)); ("LON"%string, (Some 0%Q)); ("SST"%string, (Some 5%Q))]) [("BGVAR"%string, (Some 1%Q)); ("ICE"%string, (Some 0%Q))]); (with_exts (new_report (Some "AAAAAAAAA"%string) None [("YR"%string, (Some 2003%Q)); ("MO"%string, (Some 12%Q)); ("DY"%string, (Some 1%Q)); ("HR"%string, (Some (7 # 10)%Q)); ("LAT"%string, (Some 0%Q)); ("LON"%string, (Some 0%Q)); ("SST"%string, (Some 5%Q))]) [("BGVAR"%string, (Some 1%Q)); ("ICE"%string, (Some 0%Q))]); (with_exts (new_report (Some "AAAAAAAAA"%string) None [("YR"%string, (Some 2003%Q)); ("MO"%string, (Some 12%Q)); ("DY"%string, (Some 1%Q)); ("HR"%string, (Some (4 # 5)%Q)); ("LAT"%string, (Some 0%Q)); ("LON"%string, (Some 0%Q)); ("SST"%string, (Some 5%Q))]) [("BGVAR"%string, (Some 1%Q)); ("ICE"%string, (Some 0%Q))])]) (sst_tail_check n_elevation n_sqrt {| tl_long := 3; tl_long_n := 3; tl_short := 1; tl_short_n := 3; tl_bad := 1; tl_inter := (29 # 100); tl_intra := 1; tl_lim := (3 # 10) |})))]).
Example TestTrackQC_tail_check_test_error_missing_matched_value_is : TestTrackQC_tail_check_test_error_missing_matched_value = true.
Proof. reflexivity. Qed.
Definition TestTrackQC_tail_check_test_error_invalid_ice_value : bool := Eval vm_compute in (all [asserts (rs (fun _ => VNone) (on (voyage_of [] [(with_exts (new_report (Some "AAAAAAAAA"%string) None [("YR"%string, (Some 2003%Q)); ("MO"%string, (Some 12%Q)); ("DY"%string, (Some 1%Q)); ("HR"%string, (Some 0%Q)); ("LAT"%string, (Some 0%Q)); ("LON"%string, (Some 0%Q)); ("SST"%string, (Some 5%Q))]) [("OSTIA"%string, (Some 5%Q)); ("BGVAR"%string, (Some 1%Q)); ("ICE"%string, (Some (11 # 10)%Q))]); (with_exts (new_report (Some "AAAAAAAAA"%string) None [("YR"%string, (Some 2003%Q)); ("MO"%string, (Some 12%Q)); ("DY"%string, (Some 1%Q)); ("HR"%string, (Some (1 # 10)%Q)); ("LAT"%string, (Some 0%Q)); ("LON"%string, (Some 0%Q)); ("SST"%string, (Some 5%Q))]) [("OSTIA"%string, (Some 5%Q)); ("BGVAR"%string, (Some 1%Q)); ("ICE"%string, (Some 0%Q))]); (with_exts (new_report (Some "AAAAAAAAA"%string) None [("YR"%string, (Some 2003%Q)); ("MO"%string, (Some 12%Q)); ("DY"%string, (Some 1%Q)); ("HR"%string, (Some (1 # 5)%Q)); ("LAT"%string, (Some 0%Q)); ("LON"%string, (Some 0%Q)); ("SST"%string, (Some 5%Q))]) [("OSTIA"%string, (Some 5%Q)); ("BGVAR"%string, (Some 1%Q)); ("ICE"%string, (Some 0%Q))]); (with_exts (new_report (Some "AAAAAAAAA"%string) None [("YR"%string, (Some 2003%Q)); ("MO"%string, (Some 12%Q)); ("DY"%string, (Some 1%Q)); ("HR"%string, (Some (3 # 10)%Q)); ("LAT"%string, (Some 0%Q)); ("LON"%string, (Some 0%Q)); ("SST"%string, (Some 5%Q))]) [("OSTIA"%string, (Some 5%Q)); ("BGVAR"%string, (Some 1%Q)); ("ICE"%string, (Some 0%Q))]); (with_exts (new_report (Some "AAAAAAAAA"%string) None [("YR"%string, (Some 2003%Q)); ("MO"%string, (Some 12%Q)); ("DY"%string, (Some 1%Q)); ("HR"%string, (Some (2 # 5)%Q)); ("LAT"%string, (Some 0%Q)); ("LON"%string, (Some 0%Q)); ("SST"%string, (Some 5%Q))]) [("OSTIA"%string, (Some 5%Q)); ("BGVAR"%string, (Some 1%Q)); ("ICE"%string, (Some 0%Q))]); (with_exts (new_report (Some "AAAAAAAAA"%string) None [("YR"%string, (Some 2003%Q)); ("MO"%string, (Some 12%Q)); ("DY"%string, (Some 1%Q)); ("HR"%string, (Some (1 # 2)%Q)); ("LAT"%string, (Some 0%Q)); ("LON"%string, (Some 0%Q)); ("SST"%string, (Some 5%Q))]) [("OSTIA"%string, (Some 5%Q)); ("BGVAR"%string, (Some 1%Q)); ("ICE"%string, (Some 0%Q))]); (with_exts (new_report (Some "AAAAAAAAA"%string) None [("YR"%string, (Some 2003%Q)); ("MO"%string, (Some 12%Q)); ("DY"%string, (Some 1%Q)); ("HR"%string, (Some (3 # 5)%Q)); ("LAT"%string, (Some 0%Q)); ("LON"%string, (Some 0%Q)); ("SST"%string, (Some 5%Q))]) [("OSTIA"%string, (Some 5%Q)); ("BGVAR"%string, (Some 1%Q)); ("ICE"%string, (Some 0%Q))]); (with_exts (new_report (Some "AAAAAAAAA"%string) None [("YR"%string, (Some 2003%Q)); ("MO"%string, (Some 12%Q)); ("DY"%string, (Some 1%Q)); ("HR"%string, (Some (7 # 10)%Q)); ("LAT"%string, (Some 0%Q)); ("LON"%string, (Some 0%Q)); ("SST"%string, (Some 5%Q))]) [("OSTIA"%string, (Some 5%Q)); ("BGVAR"%string, (Some 1%Q)); ("ICE"%string, (Some 0%Q))]); (with_exts (new_report (Some "AAAAAAAAA"%string) None [("YR"%string, (Some 2003%Q)); ("MO"%string, (Some 12%Q)); ("DY"%string, (Some 1%Q)); ("HR"%string, (Some (4 # 5)%Q)); ("LAT"%string, (Some 0%Q)); ("LON"%string, (Some 0%Q)); ("SST"%string, (Some 5%Q))]) [("OSTIA"%string, (Some 5%Q)); ("BGVAR"%string, (Some 1%Q)); ("ICE"%string, (Some 0%Q))])]) (sst_tail_check n_elevation n_sqrt {| tl_long := 3; tl_long_n := 3; tl_short := 1; tl_short_n := 3; tl_bad := 1; tl_inter := (29 # 100); tl_intra := 1; tl_lim := (3 # 10) |})))]).
Example TestTrackQC_tail_check_test_error_invalid_ice_value_is : TestTrackQC_tail_check_test_error_invalid_ice_value = true.
Proof. reflexivity. Qed.
Definition TestTrackQC_tail_check_test_error_missing_ob_value : bool := Eval vm_compute in (all [asserts (rs (fun _ => VNone) (on (on (voyage_of [] [(with_exts (new_report (Some "AAAAAAAAA"%string) None [("YR"%string, (Some 2003%Q)); ("MO"%string, (Some 12%Q)); ("DY"%string, (Some 1%Q)); ("HR"%string, (Some 0%Q)); ("LAT"%string, (Some 0%Q)); ("LON"%string, (Some 0%Q)); ("SST"%string, (Some 5%Q))]) [("OSTIA"%string, (Some 5%Q)); ("BGVAR"%string, (Some 1%Q)); ("ICE"%string, (Some 0%Q))]); (with_exts (new_report (Some "AAAAAAAAA"%string) None [("YR"%string, (Some 2003%Q)); ("MO"%string, (Some 12%Q)); ("DY"%string, (Some 1%Q)); ("HR"%string, (Some (1 # 10)%Q)); ("LAT"%string, (Some 0%Q)); ("LON"%string, (Some 0%Q)); ("SST"%string, (Some 5%Q))]) [("OSTIA"%string, (Some 5%Q)); ("BGVAR"%string, (Some 1%Q)); ("ICE"%string, (Some 0%Q))]); (with_exts (new_report (Some "AAAAAAAAA"%string) None [("YR"%string, (Some 2003%Q)); ("MO"%string, (Some 12%Q)); ("DY"%string, (Some 1%Q)); ("HR"%string, (Some (1 # 5)%Q)); ("LAT"%string, (Some 0%Q)); ("LON"%string, (Some 0%Q)); ("SST"%string, (Some 5%Q))]) [("OSTIA"%string, (Some 5%Q)); ("BGVAR"%string, (Some 1%Q)); ("ICE"%string, (Some 0%Q))]); (with_exts (new_report (Some "AAAAAAAAA"%string) None [("YR"%string, (Some 2003%Q)); ("MO"%string, (Some 12%Q)); ("DY"%string, (Some 1%Q)); ("HR"%string, (Some (3 # 10)%Q)); ("LAT"%string, (Some 0%Q)); ("LON"%string, (Some 0%Q)); ("SST"%string, (Some 5%Q))]) [("OSTIA"%string, (Some 5%Q)); ("BGVAR"%string, (Some 1%Q)); ("ICE"%string, (Some 0%Q))]); (with_exts (new_report (Some "AAAAAAAAA"%string) None [("YR"%string, (Some 2003%Q)); ("MO"%string, (Some 12%Q)); ("DY"%string, (Some 1%Q)); ("HR"%string, (Some (2 # 5)%Q)); ("LAT"%string, (Some 0%Q)); ("LON"%string, (Some 0%Q)); ("SST"%string, (Some 5%Q))]) [("OSTIA"%string, (Some 5%Q)); ("BGVAR"%string, (Some 1%Q)); ("ICE"%string, (Some 0%Q))]); (with_exts (new_report (Some "AAAAAAAAA"%string) None [("YR"%string, (Some 2003%Q)); ("MO"%string, (Some 12%Q)); ("DY"%string, (Some 1%Q)); ("HR"%string, (Some (1 # 2)%Q)); ("LAT"%string, (Some 0%Q)); ("LON"%string, (Some 0%Q)); ("SST"%string, (Some 5%Q))]) [("OSTIA"%string, (Some 5%Q)); ("BGVAR"%string, (Some 1%Q)); ("ICE"%string, (Some 0%Q))]); (with_exts (new_report (Some "AAAAAAAAA"%string) None [("YR"%string, (Some 2003%Q)); ("MO"%string, (Some 12%Q)); ("DY"%string, (Some 1%Q)); ("HR"%string, (Some (3 # 5)%Q)); ("LAT"%string, (Some 0%Q)); ("LON"%string, (Some 0%Q)); ("SST"%string, (Some 5%Q))]) [("OSTIA"%string, (Some 5%Q)); ("BGVAR"%string, (Some 1%Q)); ("ICE"%string, (Some 0%Q))]); (with_exts (new_report (Some "AAAAAAAAA"%string) None [("YR"%string, (Some 2003%Q)); ("MO"%string, (Some 12%Q)); ("DY"%string, (Some 1%Q)); ("HR"%string, (Some (7 # 10)%Q)); ("LAT"%string, (Some 0%Q)); ("LON"%string, (Some 0%Q)); ("SST"%string, (Some 5%Q))]) [("OSTIA"%string, (Some 5%Q)); ("BGVAR"%string, (Some 1%Q)); ("ICE"%string, (Some 0%Q))]); (with_exts (new_report (Some "AAAAAAAAA"%string) None [("YR"%string, (Some 2003%Q)); ("MO"%string, (Some 12%Q)); ("DY"%string, (Some 1%Q)); ("HR"%string, (Some (4 # 5)%Q)); ("LAT"%string, (Some 0%Q)); ("LON"%string, (Some 0%Q)); ("SST"%string, (Some 5%Q))]) [("OSTIA"%string, (Some 5%Q)); ("BGVAR"%string, (Some 1%Q)); ("ICE"%string, (Some 0%Q))])]) (fun v => setvar_at v 1 "LAT"%string None)) (sst_tail_check n_elevation n_sqrt {| tl_long := 3; tl_long_n := 3; tl_short := 1; tl_short_n := 3; tl_bad := 1; tl_inter := (29 # 100); tl_intra := 1; tl_lim := (3 # 10) |})))]).
Example TestTrackQC_tail_check_test_error_missing_ob_value_is : TestTrackQC_tail_check_test_error_missing_ob_value = true.
Proof. reflexivity. Qed.
Definition TestTrackQC_tail_check_test_error_not_time_sorted : bool := Eval vm_compute in (all [asserts (rs (fun _ => VNone) (on (voyage_of [] [(with_exts (new_report (Some "AAAAAAAAA"%string) None [("YR"%string, (Some 2003%Q)); ("MO"%string, (Some 12%Q)); ("DY"%string, (Some 1%Q)); ("HR"%string, (Some 0%Q)); ("LAT"%string, (Some 0%Q)); ("LON"%string, (Some 0%Q)); ("SST"%string, (Some 5%Q))]) [("OSTIA"%string, (Some 5%Q)); ("BGVAR"%string, (Some 1%Q)); ("ICE"%string, (Some 0%Q))]); (with_exts (new_report (Some "AAAAAAAAA"%string) None [("YR"%string, (Some 2003%Q)); ("MO"%string, (Some 12%Q)); ("DY"%string, (Some 1%Q)); ("HR"%string, (Some (1 # 10)%Q)); ("LAT"%string, (Some 0%Q)); ("LON"%string, (Some 0%Q)); ("SST"%string, (Some 5%Q))]) [("OSTIA"%string, (Some 5%Q)); ("BGVAR"%string, (Some 1%Q)); ("ICE"%string, (Some 0%Q))]); (with_exts (new_report (Some "AAAAAAAAA"%string) None [("YR"%string, (Some 2003%Q)); ("MO"%string, (Some 12%Q)); ("DY"%string, (Some 1%Q)); ("HR"%string, (Some (1 # 5)%Q)); ("LAT"%string, (Some 0%Q)); ("LON"%string, (Some 0%Q)); ("SST"%string, (Some 5%Q))]) [("OSTIA"%string, (Some 5%Q)); ("BGVAR"%string, (Some 1%Q)); ("ICE"%string, (Some 0%Q))]); (with_exts (new_report (Some "AAAAAAAAA"%string) None [("YR"%string, (Some 2003%Q)); ("MO"%string, (Some 12%Q)); ("DY"%string, (Some 1%Q)); ("HR"%string, (Some (1 # 10)%Q)); ("LAT"%string, (Some 0%Q)); ("LON"%string, (Some 0%Q)); ("SST"%string, (Some 5%Q))]) [("OSTIA"%string, (Some 5%Q)); ("BGVAR"%string, (Some 1%Q)); ("ICE"%string, (Some 0%Q))]); (with_exts (new_report (Some "AAAAAAAAA"%string) None [("YR"%string, (Some 2003%Q)); ("MO"%string, (Some 12%Q)); ("DY"%string, (Some 1%Q)); ("HR"%string, (Some (2 # 5)%Q)); ("LAT"%string, (Some 0%Q)); ("LON"%string, (Some 0%Q)); ("SST"%string, (Some 5%Q))]) [("OSTIA"%string, (Some 5%Q)); ("BGVAR"%string, (Some 1%Q)); ("ICE"%string, (Some 0%Q))]); (with_exts (new_report (Some "AAAAAAAAA"%string) None [("YR"%string, (Some 2003%Q)); ("MO"%string, (Some 12%Q)); ("DY"%string, (Some 1%Q)); ("HR"%string, (Some (1 # 2)%Q)); ("LAT"%string, (Some 0%Q)); ("LON"%string, (Some 0%Q)); ("SST"%string, (Some 5%Q))]) [("OSTIA"%string, (Some 5%Q)); ("BGVAR"%string, (Some 1%Q)); ("ICE"%string, (Some 0%Q))]); (with_exts (new_report (Some "AAAAAAAAA"%string) None [("YR"%string, (Some 2003%Q)); ("MO"%string, (Some 12%Q)); ("DY"%string, (Some 1%Q)); ("HR"%string, (Some (3 # 5)%Q)); ("LAT"%string, (Some 0%Q)); ("LON"%string, (Some 0%Q)); ("SST"%string, (Some 5%Q))]) [("OSTIA"%string, (Some 5%Q)); ("BGVAR"%string, (Some 1%Q)); ("ICE"%string, (Some 0%Q))]); (with_exts (new_report (Some "AAAAAAAAA"%string) None [("YR"%string, (Some 2003%Q)); ("MO"%string, (Some 12%Q)); ("DY"%string, (Some 1%Q)); ("HR"%string, (Some (7 # 10)%Q)); ("LAT"%string, (Some 0%Q)); ("LON"%string, (Some 0%Q)); ("SST"%string, (Some 5%Q))]) [("OSTIA"%string, (Some 5%Q)); ("BGVAR"%string, (Some 1%Q)); ("ICE"%string, (Some 0%Q))]); (with_exts (new_report (Some "AAAAAAAAA"%string) None [("YR"%string, (Some 2003%Q)); ("MO"%string, (Some 12%Q)); ("DY"%string, (Some 1%Q)); ("HR"%string, (Some (4 # 5)%Q)); ("LAT"%string, (Some 0%Q)); ("LON"%string, (Some 0%Q)); ("SST"%string, (Some 5%Q))]) [("OSTIA"%string, (Some 5%Q)); ("BGVAR"%string, (Some 1%Q)); ("ICE"%string, (Some 0%Q))])]) (sst_tail_check n_elevation n_sqrt {| tl_long := 3; tl_long_n := 3; tl_short := 1; tl_short_n := 3; tl_bad := 1; tl_inter := (29 # 100); tl_intra := 1; tl_lim := (3 # 10) |})))]).
Example TestTrackQC_tail_check_test_error_not_time_sorted_is : TestTrackQC_tail_check_test_error_not_time_sorted = true.
Proof. reflexivity. Qed.
Definition TestTrackQC_tail_check_test_error_invalid_background : bool := Eval vm_compute in (all [asserts (rs (fun _ => VNone) (on (voyage_of [] [(with_exts (new_report (Some "AAAAAAAAA"%string) None [("YR"%string, (Some 2003%Q)); ("MO"%string, (Some 12%Q)); ("DY"%string, (Some 1%Q)); ("HR"%string, (Some 0%Q)); ("LAT"%string, (Some 0%Q)); ("LON"%string, (Some 0%Q)); ("SST"%string, (Some 5%Q))]) [("OSTIA"%string, (Some 5%Q)); ("BGVAR"%string, (Some 1%Q)); ("ICE"%string, (Some 0%Q))]); (with_exts (new_report (Some "AAAAAAAAA"%string) None [("YR"%string, (Some 2003%Q)); ("MO"%string, (Some 12%Q)); ("DY"%string, (Some 1%Q)); ("HR"%string, (Some (1 # 10)%Q)); ("LAT"%string, (Some 0%Q)); ("LON"%string, (Some 0%Q)); ("SST"%string, (Some 5%Q))]) [("OSTIA"%string, (Some 5%Q)); ("BGVAR"%string, (Some 1%Q)); ("ICE"%string, (Some 0%Q))]); (with_exts (new_report (Some "AAAAAAAAA"%string) None [("YR"%string, (Some 2003%Q)); ("MO"%string, (Some 12%Q)); ("DY"%string, (Some 1%Q)); ("HR"%string, (Some (1 # 5)%Q)); ("LAT"%string, (Some 0%Q)); ("LON"%string, (Some 0%Q)); ("SST"%string, (Some 5%Q))]) [("OSTIA"%string, (Some 5%Q)); ("BGVAR"%string, (Some 1%Q)); ("ICE"%string, (Some 0%Q))]); (with_exts (new_report (Some "AAAAAAAAA"%string) None [("YR"%string, (Some 2003%Q)); ("MO"%string, (Some 12%Q)); ("DY"%string, (Some 1%Q)); ("HR"%string, (Some (3 # 10)%Q)); ("LAT"%string, (Some 0%Q)); ("LON"%string, (Some 0%Q)); ("SST"%string, (Some 5%Q))]) [("OSTIA"%string, (Some 5%Q)); ("BGVAR"%string, (Some 1%Q)); ("ICE"%string, (Some 0%Q))]); (with_exts (new_report (Some "AAAAAAAAA"%string) None [("YR"%string, (Some 2003%Q)); ("MO"%string, (Some 12%Q)); ("DY"%string, (Some 1%Q)); ("HR"%string, (Some (2 # 5)%Q)); ("LAT"%string, (Some 0%Q)); ("LON"%string, (Some 0%Q)); ("SST"%string, (Some 5%Q))]) [("OSTIA"%string, (Some 5%Q)); ("BGVAR"%string, (Some 1%Q)); ("ICE"%string, (Some 0%Q))]); (with_exts (new_report (Some "AAAAAAAAA"%string) None [("YR"%string, (Some 2003%Q)); ("MO"%string, (Some 12%Q)); ("DY"%string, (Some 1%Q)); ("HR"%string, (Some (1 # 2)%Q)); ("LAT"%string, (Some 0%Q)); ("LON"%string, (Some 0%Q)); ("SST"%string, (Some 5%Q))]) [("OSTIA"%string, (Some 5%Q)); ("BGVAR"%string, (Some 1%Q)); ("ICE"%string, (Some 0%Q))]); (with_exts (new_report (Some "AAAAAAAAA"%string) None [("YR"%string, (Some 2003%Q)); ("MO"%string, (Some 12%Q)); ("DY"%string, (Some 1%Q)); ("HR"%string, (Some (3 # 5)%Q)); ("LAT"%string, (Some 0%Q)); ("LON"%string, (Some 0%Q)); ("SST"%string, (Some 5%Q))]) [("OSTIA"%string, (Some 5%Q)); ("BGVAR"%string, (Some 1%Q)); ("ICE"%string, (Some 0%Q))]); (with_exts (new_report (Some "AAAAAAAAA"%string) None [("YR"%string, (Some 2003%Q)); ("MO"%string, (Some 12%Q)); ("DY"%string, (Some 1%Q)); ("HR"%string, (Some (7 # 10)%Q)); ("LAT"%string, (Some 0%Q)); ("LON"%string, (Some 0%Q)); ("SST"%string, (Some 5%Q))]) [("OSTIA"%string, (Some 5%Q)); ("BGVAR"%string, (Some 1%Q)); ("ICE"%string, (Some 0%Q))]); (with_exts (new_report (Some "AAAAAAAAA"%string) None [("YR"%string, (Some 2003%Q)); ("MO"%string, (Some 12%Q)); ("DY"%string, (Some 1%Q)); ("HR"%string, (Some (4 # 5)%Q)); ("LAT"%string, (Some 0%Q)); ("LON"%string, (Some 0%Q)); ("SST"%string, (Some 5%Q))]) [("OSTIA"%string, (Some 46%Q)); ("BGVAR"%string, (Some 1%Q)); ("ICE"%string, (Some 0%Q))])]) (sst_tail_check n_elevation n_sqrt {| tl_long := 3; tl_long_n := 3; tl_short := 1; tl_short_n := 3; tl_bad := 1; tl_inter := (29 # 100); tl_intra := 1; tl_lim := (3 # 10) |})))]).
Example TestTrackQC_tail_check_test_error_invalid_background_is : TestTrackQC_tail_check_test_error_invalid_background = true.
Proof. reflexivity. Qed.
Definition TestTrackQC_tail_check_test_error_invalid_background_error_variance : bool := Eval vm_compute in (all [asserts (rs (fun _ => VNone) (on (voyage_of [] [(with_exts (new_report (Some "AAAAAAAAA"%string) None [("YR"%string, (Some 2003%Q)); ("MO"%string, (Some 12%Q)); ("DY"%string, (Some 1%Q)); ("HR"%string, (Some 0%Q)); ("LAT"%string, (Some 0%Q)); ("LON"%string, (Some 0%Q)); ("SST"%string, (Some 5%Q))]) [("OSTIA"%string, (Some 5%Q)); ("BGVAR"%string, (Some 1%Q)); ("ICE"%string, (Some 0%Q))]); (with_exts (new_report (Some "AAAAAAAAA"%string) None [("YR"%string, (Some 2003%Q)); ("MO"%string, (Some 12%Q)); ("DY"%string, (Some 1%Q)); ("HR"%string, (Some (1 # 10)%Q)); ("LAT"%string, (Some 0%Q)); ("LON"%string, (Some 0%Q)); ("SST"%string, (Some 5%Q))]) [("OSTIA"%string, (Some 5%Q)); ("BGVAR"%string, (Some 1%Q)); ("ICE"%string, (Some 0%Q))]); (with_exts (new_report (Some "AAAAAAAAA"%string) None [("YR"%string, (Some 2003%Q)); ("MO"%string, (Some 12%Q)); ("DY"%string, (Some 1%Q)); ("HR"%string, (Some (1 # 5)%Q)); ("LAT"%string, (Some 0%Q)); ("LON"%string, (Some 0%Q)); ("SST"%string, (Some 5%Q))]) [("OSTIA"%string, (Some 5%Q)); ("BGVAR"%string, (Some 1%Q)); ("ICE"%string, (Some 0%Q))]); (with_exts (new_report (Some "AAAAAAAAA"%string) None [("YR"%string, (Some 2003%Q)); ("MO"%string, (Some 12%Q)); ("DY"%string, (Some 1%Q)); ("HR"%string, (Some (3 # 10)%Q)); ("LAT"%string, (Some 0%Q)); ("LON"%string, (Some 0%Q)); ("SST"%string, (Some 5%Q))]) [("OSTIA"%string, (Some 5%Q)); ("BGVAR"%string, (Some (-1)%Q)); ("ICE"%string, (Some 0%Q))]); (with_exts (new_report (Some "AAAAAAAAA"%string) None [("YR"%string, (Some 2003%Q)); ("MO"%string, (Some 12%Q)); ("DY"%string, (Some 1%Q)); ("HR"%string, (Some (2 # 5)%Q)); ("LAT"%string, (Some 0%Q)); ("LON"%string, (Some 0%Q)); ("SST"%string, (Some 5%Q))]) [("OSTIA"%string, (Some 5%Q)); ("BGVAR"%string, (Some 1%Q)); ("ICE"%string, (Some 0%Q))]); (with_exts (new_report (Some "AAAAAAAAA"%string) None [("YR"%string, (Some 2003%Q)); ("MO"%string, (Some 12%Q)); ("DY"%string, (Some 1%Q)); ("HR"%string, (Some (1 # 2)%Q)); ("LAT"%string, (Some 0%Q)); ("LON"%string, (Some 0%Q)); ("SST"%string, (Some 5%Q))]) [("OSTIA"%string, (Some 5%Q)); ("BGVAR"%string, (Some 1%Q)); ("ICE"%string, (Some 0%Q))]); (with_exts (new_report (Some "AAAAAAAAA"%string) None [("YR"%string, (Some 2003%Q)); ("MO"%string, (Some 12%Q)); ("DY"%string, (Some 1%Q)); ("HR"%string, (Some (3 # 5)%Q)); ("LAT"%string, (Some 0%Q)); ("LON"%string, (Some 0%Q)); ("SST"%string, (Some 5%Q))]) [("OSTIA"%string, (Some 5%Q)); ("BGVAR"%string, (Some 1%Q)); ("ICE"%string, (Some 0%Q))]); (with_exts (new_report (Some "AAAAAAAAA"%string) None [("YR"%string, (Some 2003%Q)); ("MO"%string, (Some 12%Q)); ("DY"%string, (Some 1%Q)); ("HR"%string, (Some (7 # 10)%Q)); ("LAT"%string, (Some 0%Q)); ("LON"%string, (Some 0%Q)); ("SST"%string, (Some 5%Q))]) [("OSTIA"%string, (Some 5%Q)); ("BGVAR"%string, (Some 1%Q)); ("ICE"%string, (Some 0%Q))]); (with_exts (new_report (Some "AAAAAAAAA"%string) None [("YR"%string, (Some 2003%Q)); ("MO"%string, (Some 12%Q)); ("DY"%string, (Some 1%Q)); ("HR"%string, (Some (4 # 5)%Q)); ("LAT"%string, (Some 0%Q)); ("LON"%string, (Some 0%Q)); ("SST"%string, (Some 5%Q))]) [("OSTIA"%string, (Some 5%Q)); ("BGVAR"%string, (Some 1%Q)); ("ICE"%string, (Some 0%Q))])]) (sst_tail_check n_elevation n_sqrt {| tl_long := 3; tl_long_n := 3; tl_short := 1; tl_short_n := 3; tl_bad := 1; tl_inter := (29 # 100); tl_intra := 1; tl_lim := (3 # 10) |})))]).
Example TestTrackQC_tail_check_test_error_invalid_background_error_variance_is : TestTrackQC_tail_check_test_error_invalid_background_error_variance = true.
Proof. reflexivity. Qed.
Definition TestTrackQC_biased_noisy_check_test_all_daytime : bool := Eval vm_compute in (let x1 := (on (voyage_of [] [(with_exts (new_report (Some "AAAAAAAAA"%string) None [("YR"%string, (Some 2003%Q)); ("MO"%string, (Some 12%Q)); ("DY"%string, (Some 1%Q)); ("HR"%string, (Some 12%Q)); ("LAT"%string, (Some 0%Q)); ("LON"%string, (Some 0%Q)); ("SST"%string, (Some 5%Q))]) [("OSTIA"%string, (Some 5%Q)); ("BGVAR"%string, (Some (1 # 100)%Q)); ("ICE"%string, (Some 0%Q))]); (with_exts (new_report (Some "AAAAAAAAA"%string) None [("YR"%string, (Some 2003%Q)); ("MO"%string, (Some 12%Q)); ("DY"%string, (Some 1%Q)); ("HR"%string, (Some (121 # 10)%Q)); ("LAT"%string, (Some 0%Q)); ("LON"%string, (Some 0%Q)); ("SST"%string, (Some 5%Q))]) [("OSTIA"%string, (Some 5%Q)); ("BGVAR"%string, (Some (1 # 100)%Q)); ("ICE"%string, (Some 0%Q))]); (with_exts (new_report (Some "AAAAAAAAA"%string) None [("YR"%string, (Some 2003%Q)); ("MO"%string, (Some 12%Q)); ("DY"%string, (Some 1%Q)); ("HR"%string, (Some (61 # 5)%Q)); ("LAT"%string, (Some 0%Q)); ("LON"%string, (Some 0%Q)); ("SST"%string, (Some 5%Q))]) [("OSTIA"%string, (Some 5%Q)); ("BGVAR"%string, (Some (1 # 100)%Q)); ("ICE"%string, (Some 0%Q))]); (with_exts (new_report (Some "AAAAAAAAA"%string) None [("YR"%string, (Some 2003%Q)); ("MO"%string, (Some 12%Q)); ("DY"%string, (Some 1%Q)); ("HR"%string, (Some (123 # 10)%Q)); ("LAT"%string, (Some 0%Q)); ("LON"%string, (Some 0%Q)); ("SST"%string, (Some 5%Q))]) [("OSTIA"%string, (Some 5%Q)); ("BGVAR"%string, (Some (1 # 100)%Q)); ("ICE"%string, (Some 0%Q))]); (with_exts (new_report (Some "AAAAAAAAA"%string) None [("YR"%string, (Some 2003%Q)); ("MO"%string, (Some 12%Q)); ("DY"%string, (Some 1%Q)); ("HR"%string, (Some (62 # 5)%Q)); ("LAT"%string, (Some 0%Q)); ("LON"%string, (Some 0%Q)); ("SST"%string, (Some 5%Q))]) [("OSTIA"%string, (Some 5%Q)); ("BGVAR"%string, (Some (1 # 100)%Q)); ("ICE"%string, (Some 0%Q))]); (with_exts (new_report (Some "AAAAAAAAA"%string) None [("YR"%string, (Some 2003%Q)); ("MO"%string, (Some 12%Q)); ("DY"%string, (Some 1%Q)); ("HR"%string, (Some (25 # 2)%Q)); ("LAT"%string, (Some 0%Q)); ("LON"%string, (Some 0%Q)); ("SST"%string, (Some 5%Q))]) [("OSTIA"%string, (Some 5%Q)); ("BGVAR"%string, (Some (1 # 100)%Q)); ("ICE"%string, (Some 0%Q))]); (with_exts (new_report (Some "AAAAAAAAA"%string) None [("YR"%string, (Some 2003%Q)); ("MO"%string, (Some 12%Q)); ("DY"%string, (Some 1%Q)); ("HR"%string, (Some (63 # 5)%Q)); ("LAT"%string, (Some 0%Q)); ("LON"%string, (Some 0%Q)); ("SST"%string, (Some 5%Q))]) [("OSTIA"%string, (Some 5%Q)); ("BGVAR"%string, (Some (1 # 100)%Q)); ("ICE"%string, (Some 0%Q))]); (with_exts (new_report (Some "AAAAAAAAA"%string) None [("YR"%string, (Some 2003%Q)); ("MO"%string, (Some 12%Q)); ("DY"%string, (Some 1%Q)); ("HR"%string, (Some (127 # 10)%Q)); ("LAT"%string, (Some 0%Q)); ("LON"%string, (Some 0%Q)); ("SST"%string, (Some 5%Q))]) [("OSTIA"%string, (Some 5%Q)); ("BGVAR"%string, (Some (1 # 100)%Q)); ("ICE"%string, (Some 0%Q))]); (with_exts (new_report (Some "AAAAAAAAA"%string) None [("YR"%string, (Some 2003%Q)); ("MO"%string, (Some 12%Q)); ("DY"%string, (Some 1%Q)); ("HR"%string, (Some (64 # 5)%Q)); ("LAT"%string, (Some 0%Q)); ("LON"%string, (Some 0%Q)); ("SST"%string, (Some 5%Q))]) [("OSTIA"%string, (Some 5%Q)); ("BGVAR"%string, (Some (1 # 100)%Q)); ("ICE"%string, (Some 0%Q))])]) (sst_biased_noisy_check n_elevation n_sqrt {| bs_eval := 9; bs_lim := (11 # 10); bs_intra := 1; bs_inter := (29 # 100); bs_n := 3; bs_bad := 2; bs_bg := (3 # 10) |})) in
  all [flags x1 "SST"%string "drf_bias"%string [0; 0; 0; 0; 0; 0; 0; 0; 0];
  flags x1 "SST"%string "drf_noise"%string [0; 0; 0; 0; 0; 0; 0; 0; 0];
  flags x1 "SST"%string "drf_short"%string [0; 0; 0; 0; 0; 0; 0; 0; 0]]).
Example TestTrackQC_biased_noisy_check_test_all_daytime_is : TestTrackQC_biased_noisy_check_test_all_daytime = true.
Proof. reflexivity. Qed.
Definition TestTrackQC_biased_noisy_check_test_all_land_masked : bool := Eval vm_compute in (let x1 := (on (voyage_of [] [(with_exts (new_report (Some "AAAAAAAAA"%string) None [("YR"%string, (Some 2003%Q)); ("MO"%string, (Some 12%Q)); ("DY"%string, (Some 1%Q)); ("HR"%string, (Some 0%Q)); ("LAT"%string, (Some 0%Q)); ("LON"%string, (Some 0%Q)); ("SST"%string, (Some 5%Q))]) [("OSTIA"%string, None); ("BGVAR"%string, (Some (1 # 100)%Q)); ("ICE"%string, (Some 0%Q))]); (with_exts (new_report (Some "AAAAAAAAA"%string) None [("YR"%string, (Some 2003%Q)); ("MO"%string, (Some 12%Q)); ("DY"%string, (Some 1%Q)); ("HR"%string, (Some (1 # 10)%Q)); ("LAT"%string, (Some 0%Q)); ("LON"%string, (Some 0%Q)); ("SST"%string, (Some 5%Q))]) [("OSTIA"%string, None); ("BGVAR"%string, (Some (1 # 100)%Q)); ("ICE"%string, (Some 0%Q))]); (with_exts (new_report (Some "AAAAAAAAA"%string) None [("YR"%string, (Some 2003%Q)); ("MO"%string, (Some 12%Q)); ("DY"%string, (Some 1%Q)); ("HR"%string, (Some (1 # 5)%Q)); ("LAT"%string, (Some 0%Q)); ("LON"%string, (Some 0%Q)); ("SST"%string, (Some 5%Q))]) [("OSTIA"%string, None); ("BGVAR"%string, (Some (1 # 100)%Q)); ("ICE"%string, (Some 0%Q))]); (with_exts (new_report (Some "AAAAAAAAA"%string) None [("YR"%string, (Some 2003%Q)); ("MO"%string, (Some 12%Q)); ("DY"%string, (Some 1%Q)); ("HR"%string, (Some (3 # 10)%Q)); ("LAT"%string, (Some 0%Q)); ("LON"%string, (Some 0%Q)); ("SST"%string, (Some 5%Q))]) [("OSTIA"%string, None); ("BGVAR"%string, (Some (1 # 100)%Q)); ("ICE"%string, (Some 0%Q))]); (with_exts (new_report (Some "AAAAAAAAA"%string) None [("YR"%string, (Some 2003%Q)); ("MO"%string, (Some 12%Q)); ("DY"%string, (Some 1%Q)); ("HR"%string, (Some (2 # 5)%Q)); ("LAT"%string, (Some 0%Q)); ("LON"%string, (Some 0%Q)); ("SST"%string, (Some 5%Q))]) [("OSTIA"%string, None); ("BGVAR"%string, (Some (1 # 100)%Q)); ("ICE"%string, (Some 0%Q))]); (with_exts (new_report (Some "AAAAAAAAA"%string) None [("YR"%string, (Some 2003%Q)); ("MO"%string, (Some 12%Q)); ("DY"%string, (Some 1%Q)); ("HR"%string, (Some (1 # 2)%Q)); ("LAT"%string, (Some 0%Q)); ("LON"%string, (Some 0%Q)); ("SST"%string, (Some 5%Q))]) [("OSTIA"%string, None); ("BGVAR"%string, (Some (1 # 100)%Q)); ("ICE"%string, (Some 0%Q))]); (with_exts (new_report (Some "AAAAAAAAA"%string) None [("YR"%string, (Some 2003%Q)); ("MO"%string, (Some 12%Q)); ("DY"%string, (Some 1%Q)); ("HR"%string, (Some (3 # 5)%Q)); ("LAT"%string, (Some 0%Q)); ("LON"%string, (Some 0%Q)); ("SST"%string, (Some 5%Q))]) [("OSTIA"%string, None); ("BGVAR"%string, (Some (1 # 100)%Q)); ("ICE"%string, (Some 0%Q))]); (with_exts (new_report (Some "AAAAAAAAA"%string) None [("YR"%string, (Some 2003%Q)); ("MO"%string, (Some 12%Q)); ("DY"%string, (Some 1%Q)); ("HR"%string, (Some (7 # 10)%Q)); ("LAT"%string, (Some 0%Q)); ("LON"%string, (Some 0%Q)); ("SST"%string, (Some 5%Q))]) [("OSTIA"%string, None); ("BGVAR"%string, (Some (1 # 100)%Q)); ("ICE"%string, (Some 0%Q))]); (with_exts (new_report (Some "AAAAAAAAA"%string) None [("YR"%string, (Some 2003%Q)); ("MO"%string, (Some 12%Q)); ("DY"%string, (Some 1%Q)); ("HR"%string, (Some (4 # 5)%Q)); ("LAT"%string, (Some 0%Q)); ("LON"%string, (Some 0%Q)); ("SST"%string, (Some 5%Q))]) [("OSTIA"%string, None); ("BGVAR"%string, (Some (1 # 100)%Q)); ("ICE"%string, (Some 0%Q))])]) (sst_biased_noisy_check n_elevation n_sqrt {| bs_eval := 9; bs_lim := (11 # 10); bs_intra := 1; bs_inter := (29 # 100); bs_n := 3; bs_bad := 2; bs_bg := (3 # 10) |})) in
  all [flags x1 "SST"%string "drf_bias"%string [0; 0; 0; 0; 0; 0; 0; 0; 0];
  flags x1 "SST"%string "drf_noise"%string [0; 0; 0; 0; 0; 0; 0; 0; 0];
  flags x1 "SST"%string "drf_short"%string [0; 0; 0; 0; 0; 0; 0; 0; 0]]).
Example TestTrackQC_biased_noisy_check_test_all_land_masked_is : TestTrackQC_biased_noisy_check_test_all_land_masked = true.
Proof. reflexivity. Qed.
Definition TestTrackQC_biased_noisy_check_test_all_ice : bool := Eval vm_compute in (let x1 := (on (voyage_of [] [(with_exts (new_report (Some "AAAAAAAAA"%string) None [("YR"%string, (Some 2003%Q)); ("MO"%string, (Some 12%Q)); ("DY"%string, (Some 1%Q)); ("HR"%string, (Some 0%Q)); ("LAT"%string, (Some 0%Q)); ("LON"%string, (Some 0%Q)); ("SST"%string, (Some 5%Q))]) [("OSTIA"%string, (Some 5%Q)); ("BGVAR"%string, (Some (1 # 100)%Q)); ("ICE"%string, (Some (1 # 5)%Q))]); (with_exts (new_report (Some "AAAAAAAAA"%string) None [("YR"%string, (Some 2003%Q)); ("MO"%string, (Some 12%Q)); ("DY"%string, (Some 1%Q)); ("HR"%string, (Some (1 # 10)%Q)); ("LAT"%string, (Some 0%Q)); ("LON"%string, (Some 0%Q)); ("SST"%string, (Some 5%Q))]) [("OSTIA"%string, (Some 5%Q)); ("BGVAR"%string, (Some (1 # 100)%Q)); ("ICE"%string, (Some (1 # 5)%Q))]); (with_exts (new_report (Some "AAAAAAAAA"%string) None [("YR"%string, (Some 2003%Q)); ("MO"%string, (Some 12%Q)); ("DY"%string, (Some 1%Q)); ("HR"%string, (Some (1 # 5)%Q)); ("LAT"%string, (Some 0%Q)); ("LON"%string, (Some 0%Q)); ("SST"%string, (Some 5%Q))]) [("OSTIA"%string, (Some 5%Q)); ("BGVAR"%string, (Some (1 # 100)%Q)); ("ICE"%string, (Some (1 # 5)%Q))]); (with_exts (new_report (Some "AAAAAAAAA"%string) None [("YR"%string, (Some 2003%Q)); ("MO"%string, (Some 12%Q)); ("DY"%string, (Some 1%Q)); ("HR"%string, (Some (3 # 10)%Q)); ("LAT"%string, (Some 0%Q)); ("LON"%string, (Some 0%Q)); ("SST"%string, (Some 5%Q))]) [("OSTIA"%string, (Some 5%Q)); ("BGVAR"%string, (Some (1 # 100)%Q)); ("ICE"%string, (Some (1 # 5)%Q))]); (with_exts (new_report (Some "AAAAAAAAA"%string) None [("YR"%string, (Some 2003%Q)); ("MO"%string, (Some 12%Q)); ("DY"%string, (Some 1%Q)); ("HR"%string, (Some (2 # 5)%Q)); ("LAT"%string, (Some 0%Q)); ("LON"%string, (Some 0%Q)); ("SST"%string, (Some 5%Q))]) [("OSTIA"%string, (Some 5%Q)); ("BGVAR"%string, (Some (1 # 100)%Q)); ("ICE"%string, (Some (1 # 5)%Q))]); (with_exts (new_report (Some "AAAAAAAAA"%string) None [("YR"%string, (Some 2003%Q)); ("MO"%string, (Some 12%Q)); ("DY"%string, (Some 1%Q)); ("HR"%string, (Some (1 # 2)%Q)); ("LAT"%string, (Some 0%Q)); ("LON"%string, (Some 0%Q)); ("SST"%string, (Some 5%Q))]) [("OSTIA"%string, (Some 5%Q)); ("BGVAR"%string, (Some (1 # 100)%Q)); ("ICE"%string, (Some (1 # 5)%Q))]); (with_exts (new_report (Some "AAAAAAAAA"%string) None [("YR"%string, (Some 2003%Q)); ("MO"%string, (Some 12%Q)); ("DY"%string, (Some 1%Q)); ("HR"%string, (Some (3 # 5)%Q)); ("LAT"%string, (Some 0%Q)); ("LON"%string, (Some 0%Q)); ("SST"%string, (Some 5%Q))]) [("OSTIA"%string, (Some 5%Q)); ("BGVAR"%string, (Some (1 # 100)%Q)); ("ICE"%string, (Some (1 # 5)%Q))]); (with_exts (new_report (Some "AAAAAAAAA"%string) None [("YR"%string, (Some 2003%Q)); ("MO"%string, (Some 12%Q)); ("DY"%string, (Some 1%Q)); ("HR"%string, (Some (7 # 10)%Q)); ("LAT"%string, (Some 0%Q)); ("LON"%string, (Some 0%Q)); ("SST"%string, (Some 5%Q))]) [("OSTIA"%string, (Some 5%Q)); ("BGVAR"%string, (Some (1 # 100)%Q)); ("ICE"%string, (Some (1 # 5)%Q))]); (with_exts (new_report (Some "AAAAAAAAA"%string) None [("YR"%string, (Some 2003%Q)); ("MO"%string, (Some 12%Q)); ("DY"%string, (Some 1%Q)); ("HR"%string, (Some (4 # 5)%Q)); ("LAT"%string, (Some 0%Q)); ("LON"%string, (Some 0%Q)); ("SST"%string, (Some 5%Q))]) [("OSTIA"%string, (Some 5%Q)); ("BGVAR"%string, (Some (1 # 100)%Q)); ("ICE"%string, (Some (1 # 5)%Q))])]) (sst_biased_noisy_check n_elevation n_sqrt {| bs_eval := 9; bs_lim := (11 # 10); bs_intra := 1; bs_inter := (29 # 100); bs_n := 3; bs_bad := 2; bs_bg := (3 # 10) |})) in
  all [flags x1 "SST"%string "drf_bias"%string [0; 0; 0; 0; 0; 0; 0; 0; 0];
  flags x1 "SST"%string "drf_noise"%string [0; 0; 0; 0; 0; 0; 0; 0; 0];
  flags x1 "SST"%string "drf_short"%string [0; 0; 0; 0; 0; 0; 0; 0; 0]]).
Example TestTrackQC_biased_noisy_check_test_all_ice_is : TestTrackQC_biased_noisy_check_test_all_ice = true.
Proof. reflexivity. Qed.
Definition TestTrackQC_biased_noisy_check_test_all_bgvar_exceeds_limit : bool := Eval vm_compute in (let x1 := (on (voyage_of [] [(with_exts (new_report (Some "AAAAAAAAA"%string) None [("YR"%string, (Some 2003%Q)); ("MO"%string, (Some 12%Q)); ("DY"%string, (Some 1%Q)); ("HR"%string, (Some 0%Q)); ("LAT"%string, (Some 0%Q)); ("LON"%string, (Some 0%Q)); ("SST"%string, (Some 5%Q))]) [("OSTIA"%string, (Some 5%Q)); ("BGVAR"%string, (Some (2 # 5)%Q)); ("ICE"%string, (Some 0%Q))]); (with_exts (new_report (Some "AAAAAAAAA"%string) None [("YR"%string, (Some 2003%Q)); ("MO"%string, (Some 12%Q)); ("DY"%string, (Some 1%Q)); ("HR"%string, (Some (1 # 10)%Q)); ("LAT"%string, (Some 0%Q)); ("LON"%string, (Some 0%Q)); ("SST"%string, (Some 5%Q))]) [("OSTIA"%string, (Some 5%Q)); ("BGVAR"%string, (Some (2 # 5)%Q)); ("ICE"%string, (Some 0%Q))]); (with_exts (new_report (Some "AAAAAAAAA"%string) None [("YR"%string, (Some 2003%Q)); ("MO"%string, (Some 12%Q)); ("DY"%string, (Some 1%Q)); ("HR"%string, (Some (1 # 5)%Q)); ("LAT"%string, (Some 0%Q)); ("LON"%string, (Some 0%Q)); ("SST"%string, (Some 5%Q))]) [("OSTIA"%string, (Some 5%Q)); ("BGVAR"%string, (Some (2 # 5)%Q)); ("ICE"%string, (Some 0%Q))]); (with_exts (new_report (Some "AAAAAAAAA"%string) None [("YR"%string, (Some 2003%Q)); ("MO"%string, (Some 12%Q)); ("DY"%string, (Some 1%Q)); ("HR"%string, (Some (3 # 10)%Q)); ("LAT"%string, (Some 0%Q)); ("LON"%string, (Some 0%Q)); ("SST"%string, (Some 5%Q))]) [("OSTIA"%string, (Some 5%Q)); ("BGVAR"%string, (Some (2 # 5)%Q)); ("ICE"%string, (Some 0%Q))]); (with_exts (new_report (Some "AAAAAAAAA"%string) None [("YR"%string, (Some 2003%Q)); ("MO"%string, (Some 12%Q)); ("DY"%string, (Some 1%Q)); ("HR"%string, (Some (2 # 5)%Q)); ("LAT"%string, (Some 0%Q)); ("LON"%string, (Some 0%Q)); ("SST"%string, (Some 5%Q))]) [("OSTIA"%string, (Some 5%Q)); ("BGVAR"%string, (Some (2 # 5)%Q)); ("ICE"%string, (Some 0%Q))]); (with_exts (new_report (Some "AAAAAAAAA"%string) None [("YR"%string, (Some 2003%Q)); ("MO"%string, (Some 12%Q)); ("DY"%string, (Some 1%Q)); ("HR"%string, (Some (1 # 2)%Q)); ("LAT"%string, (Some 0%Q)); ("LON"%string, (Some 0%Q)); ("SST"%string, (Some 5%Q))]) [("OSTIA"%string, (Some 5%Q)); ("BGVAR"%string, (Some (2 # 5)%Q)); ("ICE"%string, (Some 0%Q))]); (with_exts (new_report (Some "AAAAAAAAA"%string) None [("YR"%string, (Some 2003%Q)); ("MO"%string, (Some 12%Q)); ("DY"%string, (Some 1%Q)); ("HR"%string, (Some (3 # 5)%Q)); ("LAT"%string, (Some 0%Q)); ("LON"%string, (Some 0%Q)); ("SST"%string, (Some 5%Q))]) [("OSTIA"%string, (Some 5%Q)); ("BGVAR"%string, (Some (2 # 5)%Q)); ("ICE"%string, (Some 0%Q))]); (with_exts (new_report (Some "AAAAAAAAA"%string) None [("YR"%string, (Some 2003%Q)); ("MO"%string, (Some 12%Q)); ("DY"%string, (Some 1%Q)); ("HR"%string, (Some (7 # 10)%Q)); ("LAT"%string, (Some 0%Q)); ("LON"%string, (Some 0%Q)); ("SST"%string, (Some 5%Q))]) [("OSTIA"%string, (Some 5%Q)); ("BGVAR"%string, (Some (2 # 5)%Q)); ("ICE"%string, (Some 0%Q))]); (with_exts (new_report (Some "AAAAAAAAA"%string) None [("YR"%string, (Some 2003%Q)); ("MO"%string, (Some 12%Q)); ("DY"%string, (Some 1%Q)); ("HR"%string, (Some (4 # 5)%Q)); ("LAT"%string, (Some 0%Q)); ("LON"%string, (Some 0%Q)); ("SST"%string, (Some 5%Q))]) [("OSTIA"%string, (Some 5%Q)); ("BGVAR"%string, (Some (2 # 5)%Q)); ("ICE"%string, (Some 0%Q))])]) (sst_biased_noisy_check n_elevation n_sqrt {| bs_eval := 9; bs_lim := (11 # 10); bs_intra := 1; bs_inter := (29 # 100); bs_n := 3; bs_bad := 2; bs_bg := (3 # 10) |})) in
  all [flags x1 "SST"%string "drf_bias"%string [0; 0; 0; 0; 0; 0; 0; 0; 0];
  flags x1 "SST"%string "drf_noise"%string [0; 0; 0; 0; 0; 0; 0; 0; 0];
  flags x1 "SST"%string "drf_short"%string [0; 0; 0; 0; 0; 0; 0; 0; 0]]).
Example TestTrackQC_biased_noisy_check_test_all_bgvar_exceeds_limit_is : TestTrackQC_biased_noisy_check_test_all_bgvar_exceeds_limit = true.
Proof. reflexivity. Qed.
Definition TestTrackQC_biased_noisy_check_test_biased_warm : bool := Eval vm_compute in (let x1 := (on (voyage_of [] [(with_exts (new_report (Some "AAAAAAAAA"%string) None [("YR"%string, (Some 2003%Q)); ("MO"%string, (Some 12%Q)); ("DY"%string, (Some 1%Q)); ("HR"%string, (Some 0%Q)); ("LAT"%string, (Some 0%Q)); ("LON"%string, (Some 0%Q)); ("SST"%string, (Some (31 # 5)%Q))]) [("OSTIA"%string, (Some 5%Q)); ("BGVAR"%string, (Some (1 # 100)%Q)); ("ICE"%string, (Some 0%Q))]); (with_exts (new_report (Some "AAAAAAAAA"%string) None [("YR"%string, (Some 2003%Q)); ("MO"%string, (Some 12%Q)); ("DY"%string, (Some 1%Q)); ("HR"%string, (Some (1 # 10)%Q)); ("LAT"%string, (Some 0%Q)); ("LON"%string, (Some 0%Q)); ("SST"%string, (Some (31 # 5)%Q))]) [("OSTIA"%string, (Some 5%Q)); ("BGVAR"%string, (Some (1 # 100)%Q)); ("ICE"%string, (Some 0%Q))]); (with_exts (new_report (Some "AAAAAAAAA"%string) None [("YR"%string, (Some 2003%Q)); ("MO"%string, (Some 12%Q)); ("DY"%string, (Some 1%Q)); ("HR"%string, (Some (1 # 5)%Q)); ("LAT"%string, (Some 0%Q)); ("LON"%string, (Some 0%Q)); ("SST"%string, (Some (31 # 5)%Q))]) [("OSTIA"%string, (Some 5%Q)); ("BGVAR"%string, (Some (1 # 100)%Q)); ("ICE"%string, (Some 0%Q))]); (with_exts (new_report (Some "AAAAAAAAA"%string) None [("YR"%string, (Some 2003%Q)); ("MO"%string, (Some 12%Q)); ("DY"%string, (Some 1%Q)); ("HR"%string, (Some (3 # 10)%Q)); ("LAT"%string, (Some 0%Q)); ("LON"%string, (Some 0%Q)); ("SST"%string, (Some (31 # 5)%Q))]) [("OSTIA"%string, (Some 5%Q)); ("BGVAR"%string, (Some (1 # 100)%Q)); ("ICE"%string, (Some 0%Q))]); (with_exts (new_report (Some "AAAAAAAAA"%string) None [("YR"%string, (Some 2003%Q)); ("MO"%string, (Some 12%Q)); ("DY"%string, (Some 1%Q)); ("HR"%string, (Some (2 # 5)%Q)); ("LAT"%string, (Some 0%Q)); ("LON"%string, (Some 0%Q)); ("SST"%string, (Some (31 # 5)%Q))]) [("OSTIA"%string, (Some 5%Q)); ("BGVAR"%string, (Some (1 # 100)%Q)); ("ICE"%string, (Some 0%Q))]); (with_exts (new_report (Some "AAAAAAAAA"%string) None [("YR"%string, (Some 2003%Q)); ("MO"%string, (Some 12%Q)); ("DY"%string, (Some 1%Q)); ("HR"%string, (Some (1 # 2)%Q)); ("LAT"%string, (Some 0%Q)); ("LON"%string, (Some 0%Q)); ("SST"%string, (Some (31 # 5)%Q))]) [("OSTIA"%string, (Some 5%Q)); ("BGVAR"%string, (Some (1 # 100)%Q)); ("ICE"%string, (Some 0%Q))]); (with_exts (new_report (Some "AAAAAAAAA"%string) None [("YR"%string, (Some 2003%Q)); ("MO"%string, (Some 12%Q)); ("DY"%string, (Some 1%Q)); ("HR"%string, (Some (3 # 5)%Q)); ("LAT"%string, (Some 0%Q)); ("LON"%string, (Some 0%Q)); ("SST"%string, (Some (31 # 5)%Q))]) [("OSTIA"%string, (Some 5%Q)); ("BGVAR"%string, (Some (1 # 100)%Q)); ("ICE"%string, (Some 0%Q))]); (with_exts (new_report (Some "AAAAAAAAA"%string) None [("YR"%string, (Some 2003%Q)); ("MO"%string, (Some 12%Q)); ("DY"%string, (Some 1%Q)); ("HR"%string, (Some (7 # 10)%Q)); ("LAT"%string, (Some 0%Q)); ("LON"%string, (Some 0%Q)); ("SST"%string, (Some (31 # 5)%Q))]) [("OSTIA"%string, (Some 5%Q)); ("BGVAR"%string, (Some (1 # 100)%Q)); ("ICE"%string, (Some 0%Q))]); (with_exts (new_report (Some "AAAAAAAAA"%string) None [("YR"%string, (Some 2003%Q)); ("MO"%string, (Some 12%Q)); ("DY"%string, (Some 1%Q)); ("HR"%string, (Some (4 # 5)%Q)); ("LAT"%string, (Some 0%Q)); ("LON"%string, (Some 0%Q)); ("SST"%string, (Some (31 # 5)%Q))]) [("OSTIA"%string, (Some 5%Q)); ("BGVAR"%string, (Some (1 # 100)%Q)); ("ICE"%string, (Some 0%Q))])]) (sst_biased_noisy_check n_elevation n_sqrt {| bs_eval := 9; bs_lim := (11 # 10); bs_intra := 1; bs_inter := (29 # 100); bs_n := 3; bs_bad := 2; bs_bg := (3 # 10) |})) in
  all [flags x1 "SST"%string "drf_bias"%string [1; 1; 1; 1; 1; 1; 1; 1; 1];
  flags x1 "SST"%string "drf_noise"%string [0; 0; 0; 0; 0; 0; 0; 0; 0];
  flags x1 "SST"%string "drf_short"%string [0; 0; 0; 0; 0; 0; 0; 0; 0]]).
Example TestTrackQC_biased_noisy_check_test_biased_warm_is : TestTrackQC_biased_noisy_check_test_biased_warm = true.
Proof. reflexivity. Qed.
Definition TestTrackQC_biased_noisy_check_test_biased_cool : bool := Eval vm_compute in (let x1 := (on (voyage_of [] [(with_exts (new_report (Some "AAAAAAAAA"%string) None [("YR"%string, (Some 2003%Q)); ("MO"%string, (Some 12%Q)); ("DY"%string, (Some 1%Q)); ("HR"%string, (Some 0%Q)); ("LAT"%string, (Some 0%Q)); ("LON"%string, (Some 0%Q)); ("SST"%string, (Some (19 # 5)%Q))]) [("OSTIA"%string, (Some 5%Q)); ("BGVAR"%string, (Some (1 # 100)%Q)); ("ICE"%string, (Some 0%Q))]); (with_exts (new_report (Some "AAAAAAAAA"%string) None [("YR"%string, (Some 2003%Q)); ("MO"%string, (Some 12%Q)); ("DY"%string, (Some 1%Q)); ("HR"%string, (Some (1 # 10)%Q)); ("LAT"%string, (Some 0%Q)); ("LON"%string, (Some 0%Q)); ("SST"%string, (Some (19 # 5)%Q))]) [("OSTIA"%string, (Some 5%Q)); ("BGVAR"%string, (Some (1 # 100)%Q)); ("ICE"%string, (Some 0%Q))]); (with_exts (new_report (Some "AAAAAAAAA"%string) None [("YR"%string, (Some 2003%Q)); ("MO"%string, (Some 12%Q)); ("DY"%string, (Some 1%Q)); ("HR"%string, (Some (1 # 5)%Q)); ("LAT"%string, (Some 0%Q)); ("LON"%string, (Some 0%Q)); ("SST"%string, (Some (19 # 5)%Q))]) [("OSTIA"%string, (Some 5%Q)); ("BGVAR"%string, (Some (1 # 100)%Q)); ("ICE"%string, (Some 0%Q))]); (with_exts (new_report (Some "AAAAAAAAA"%string) None [("YR"%string, (Some 2003%Q)); ("MO"%string, (Some 12%Q)); ("DY"%string, (Some 1%Q)); ("HR"%string, (Some (3 # 10)%Q)); ("LAT"%string, (Some 0%Q)); ("LON"%string, (Some 0%Q)); ("SST"%string, (Some (19 # 5)%Q))]) [("OSTIA"%string, (Some 5%Q)); ("BGVAR"%string, (Some (1 # 100)%Q)); ("ICE"%string, (Some 0%Q))]); (with_exts (new_report (Some "AAAAAAAAA"%string) None [("YR"%string, (Some 2003%Q)); ("MO"%string, (Some 12%Q)); ("DY"%string, (Some 1%Q)); ("HR"%string, (Some (2 # 5)%Q)); ("LAT"%string, (Some 0%Q)); ("LON"%string, (Some 0%Q)); ("SST"%string, (Some (19 # 5)%Q))]) [("OSTIA"%string, (Some 5%Q)); ("BGVAR"%string, (Some (1 # 100)%Q)); ("ICE"%string, (Some 0%Q))]); (with_exts (new_report (Some "AAAAAAAAA"%string) None [("YR"%string, (Some 2003%Q)); ("MO"%string, (Some 12%Q)); ("DY"%string, (Some 1%Q)); ("HR"%string, (Some (1 # 2)%Q)); ("LAT"%string, (Some 0%Q)); ("LON"%string, (Some 0%Q)); ("SST"%string, (Some (19 # 5)%Q))]) [("OSTIA"%string, (Some 5%Q)); ("BGVAR"%string, (Some (1 # 100)%Q)); ("ICE"%string, (Some 0%Q))]); (with_exts (new_report (Some "AAAAAAAAA"%string) None [("YR"%string, (Some 2003%Q)); ("MO"%string, (Some 12%Q)); ("DY"%string, (Some 1%Q)); ("HR"%string, (Some (3 # 5)%Q)); ("LAT"%string, (Some 0%Q)); ("LON"%string, (Some 0%Q)); ("SST"%string, (Some (19 # 5)%Q))]) [("OSTIA"%string, (Some 5%Q)); ("BGVAR"%string, (Some (1 # 100)%Q)); ("ICE"%string, (Some 0%Q))]); (with_exts (new_report (Some "AAAAAAAAA"%string) None [("YR"%string, (Some 2003%Q)); ("MO"%string, (Some 12%Q)); ("DY"%string, (Some 1%Q)); ("HR"%string, (Some (7 # 10)%Q)); ("LAT"%string, (Some 0%Q)); ("LON"%string, (Some 0%Q)); ("SST"%string, (Some (19 # 5)%Q))]) [("OSTIA"%string, (Some 5%Q)); ("BGVAR"%string, (Some (1 # 100)%Q)); ("ICE"%string, (Some 0%Q))]); (with_exts (new_report (Some "AAAAAAAAA"%string) None [("YR"%string, (Some 2003%Q)); ("MO"%string, (Some 12%Q)); ("DY"%string, (Some 1%Q)); ("HR"%string, (Some (4 # 5)%Q)); ("LAT"%string, (Some 0%Q)); ("LON"%string, (Some 0%Q)); ("SST"%string, (Some (19 # 5)%Q))]) [("OSTIA"%string, (Some 5%Q)); ("BGVAR"%string, (Some (1 # 100)%Q)); ("ICE"%string, (Some 0%Q))])]) (sst_biased_noisy_check n_elevation n_sqrt {| bs_eval := 9; bs_lim := (11 # 10); bs_intra := 1; bs_inter := (29 # 100); bs_n := 3; bs_bad := 2; bs_bg := (3 # 10) |})) in
  all [flags x1 "SST"%string "drf_bias"%string [1; 1; 1; 1; 1; 1; 1; 1; 1];
  flags x1 "SST"%string "drf_noise"%string [0; 0; 0; 0; 0; 0; 0; 0; 0];
  flags x1 "SST"%string "drf_short"%string [0; 0; 0; 0; 0; 0; 0; 0; 0]]).
Example TestTrackQC_biased_noisy_check_test_biased_cool_is : TestTrackQC_biased_noisy_check_test_biased_cool = true.
Proof. reflexivity. Qed.
Definition TestTrackQC_biased_noisy_check_test_noisy : bool := Eval vm_compute in (let x1 := (on (voyage_of [] [(with_exts (new_report (Some "AAAAAAAAA"%string) None [("YR"%string, (Some 2003%Q)); ("MO"%string, (Some 12%Q)); ("DY"%string, (Some 1%Q)); ("HR"%string, (Some 0%Q)); ("LAT"%string, (Some 0%Q)); ("LON"%string, (Some 0%Q)); ("SST"%string, (Some 7%Q))]) [("OSTIA"%string, (Some 5%Q)); ("BGVAR"%string, (Some (1 # 100)%Q)); ("ICE"%string, (Some 0%Q))]); (with_exts (new_report (Some "AAAAAAAAA"%string) None [("YR"%string, (Some 2003%Q)); ("MO"%string, (Some 12%Q)); ("DY"%string, (Some 1%Q)); ("HR"%string, (Some (1 # 10)%Q)); ("LAT"%string, (Some 0%Q)); ("LON"%string, (Some 0%Q)); ("SST"%string, (Some 5%Q))]) [("OSTIA"%string, (Some 5%Q)); ("BGVAR"%string, (Some (1 # 100)%Q)); ("ICE"%string, (Some 0%Q))]); (with_exts (new_report (Some "AAAAAAAAA"%string) None [("YR"%string, (Some 2003%Q)); ("MO"%string, (Some 12%Q)); ("DY"%string, (Some 1%Q)); ("HR"%string, (Some (1 # 5)%Q)); ("LAT"%string, (Some 0%Q)); ("LON"%string, (Some 0%Q)); ("SST"%string, (Some 3%Q))]) [("OSTIA"%string, (Some 5%Q)); ("BGVAR"%string, (Some (1 # 100)%Q)); ("ICE"%string, (Some 0%Q))]); (with_exts (new_report (Some "AAAAAAAAA"%string) None [("YR"%string, (Some 2003%Q)); ("MO"%string, (Some 12%Q)); ("DY"%string, (Some 1%Q)); ("HR"%string, (Some (3 # 10)%Q)); ("LAT"%string, (Some 0%Q)); ("LON"%string, (Some 0%Q)); ("SST"%string, (Some 5%Q))]) [("OSTIA"%string, (Some 5%Q)); ("BGVAR"%string, (Some (1 # 100)%Q)); ("ICE"%string, (Some 0%Q))]); (with_exts (new_report (Some "AAAAAAAAA"%string) None [("YR"%string, (Some 2003%Q)); ("MO"%string, (Some 12%Q)); ("DY"%string, (Some 1%Q)); ("HR"%string, (Some (2 # 5)%Q)); ("LAT"%string, (Some 0%Q)); ("LON"%string, (Some 0%Q)); ("SST"%string, (Some 7%Q))]) [("OSTIA"%string, (Some 5%Q)); ("BGVAR"%string, (Some (1 # 100)%Q)); ("ICE"%string, (Some 0%Q))]); (with_exts (new_report (Some "AAAAAAAAA"%string) None [("YR"%string, (Some 2003%Q)); ("MO"%string, (Some 12%Q)); ("DY"%string, (Some 1%Q)); ("HR"%string, (Some (1 # 2)%Q)); ("LAT"%string, (Some 0%Q)); ("LON"%string, (Some 0%Q)); ("SST"%string, (Some 5%Q))]) [("OSTIA"%string, (Some 5%Q)); ("BGVAR"%string, (Some (1 # 100)%Q)); ("ICE"%string, (Some 0%Q))]); (with_exts (new_report (Some "AAAAAAAAA"%string) None [("YR"%string, (Some 2003%Q)); ("MO"%string, (Some 12%Q)); ("DY"%string, (Some 1%Q)); ("HR"%string, (Some (3 # 5)%Q)); ("LAT"%string, (Some 0%Q)); ("LON"%string, (Some 0%Q)); ("SST"%string, (Some 3%Q))]) [("OSTIA"%string, (Some 5%Q)); ("BGVAR"%string, (Some (1 # 100)%Q)); ("ICE"%string, (Some 0%Q))]); (with_exts (new_report (Some "AAAAAAAAA"%string) None [("YR"%string, (Some 2003%Q)); ("MO"%string, (Some 12%Q)); ("DY"%string, (Some 1%Q)); ("HR"%string, (Some (7 # 10)%Q)); ("LAT"%string, (Some 0%Q)); ("LON"%string, (Some 0%Q)); ("SST"%string, (Some 5%Q))]) [("OSTIA"%string, (Some 5%Q)); ("BGVAR"%string, (Some (1 # 100)%Q)); ("ICE"%string, (Some 0%Q))]); (with_exts (new_report (Some "AAAAAAAAA"%string) None [("YR"%string, (Some 2003%Q)); ("MO"%string, (Some 12%Q)); ("DY"%string, (Some 1%Q)); ("HR"%string, (Some (4 # 5)%Q)); ("LAT"%string, (Some 0%Q)); ("LON"%string, (Some 0%Q)); ("SST"%string, (Some 7%Q))]) [("OSTIA"%string, (Some 5%Q)); ("BGVAR"%string, (Some (1 # 100)%Q)); ("ICE"%string, (Some 0%Q))])]) (sst_biased_noisy_check n_elevation n_sqrt {| bs_eval := 9; bs_lim := (11 # 10); bs_intra := 1; bs_inter := (29 # 100); bs_n := 3; bs_bad := 2; bs_bg := (3 # 10) |})) in
  all [flags x1 "SST"%string "drf_bias"%string [0; 0; 0; 0; 0; 0; 0; 0; 0];
  flags x1 "SST"%string "drf_noise"%string [1; 1; 1; 1; 1; 1; 1; 1; 1];
  flags x1 "SST"%string "drf_short"%string [0; 0; 0; 0; 0; 0; 0; 0; 0]]).
Example TestTrackQC_biased_noisy_check_test_noisy_is : TestTrackQC_biased_noisy_check_test_noisy = true.
Proof. reflexivity. Qed.
Definition TestTrackQC_biased_noisy_check_test_biased_and_noisy : bool := Eval vm_compute in (let x1 := (on (voyage_of [] [(with_exts (new_report (Some "AAAAAAAAA"%string) None [("YR"%string, (Some 2003%Q)); ("MO"%string, (Some 12%Q)); ("DY"%string, (Some 1%Q)); ("HR"%string, (Some 0%Q)); ("LAT"%string, (Some 0%Q)); ("LON"%string, (Some 0%Q)); ("SST"%string, (Some 9%Q))]) [("OSTIA"%string, (Some 5%Q)); ("BGVAR"%string, (Some (1 # 100)%Q)); ("ICE"%string, (Some 0%Q))]); (with_exts (new_report (Some "AAAAAAAAA"%string) None [("YR"%string, (Some 2003%Q)); ("MO"%string, (Some 12%Q)); ("DY"%string, (Some 1%Q)); ("HR"%string, (Some (1 # 10)%Q)); ("LAT"%string, (Some 0%Q)); ("LON"%string, (Some 0%Q)); ("SST"%string, (Some 7%Q))]) [("OSTIA"%string, (Some 5%Q)); ("BGVAR"%string, (Some (1 # 100)%Q)); ("ICE"%string, (Some 0%Q))]); (with_exts (new_report (Some "AAAAAAAAA"%string) None [("YR"%string, (Some 2003%Q)); ("MO"%string, (Some 12%Q)); ("DY"%string, (Some 1%Q)); ("HR"%string, (Some (1 # 5)%Q)); ("LAT"%string, (Some 0%Q)); ("LON"%string, (Some 0%Q)); ("SST"%string, (Some 5%Q))]) [("OSTIA"%string, (Some 5%Q)); ("BGVAR"%string, (Some (1 # 100)%Q)); ("ICE"%string, (Some 0%Q))]); (with_exts (new_report (Some "AAAAAAAAA"%string) None [("YR"%string, (Some 2003%Q)); ("MO"%string, (Some 12%Q)); ("DY"%string, (Some 1%Q)); ("HR"%string, (Some (3 # 10)%Q)); ("LAT"%string, (Some 0%Q)); ("LON"%string, (Some 0%Q)); ("SST"%string, (Some 7%Q))]) [("OSTIA"%string, (Some 5%Q)); ("BGVAR"%string, (Some (1 # 100)%Q)); ("ICE"%string, (Some 0%Q))]); (with_exts (new_report (Some "AAAAAAAAA"%string) None [("YR"%string, (Some 2003%Q)); ("MO"%string, (Some 12%Q)); ("DY"%string, (Some 1%Q)); ("HR"%string, (Some (2 # 5)%Q)); ("LAT"%string, (Some 0%Q)); ("LON"%string, (Some 0%Q)); ("SST"%string, (Some 9%Q))]) [("OSTIA"%string, (Some 5%Q)); ("BGVAR"%string, (Some (1 # 100)%Q)); ("ICE"%string, (Some 0%Q))]); (with_exts (new_report (Some "AAAAAAAAA"%string) None [("YR"%string, (Some 2003%Q)); ("MO"%string, (Some 12%Q)); ("DY"%string, (Some 1%Q)); ("HR"%string, (Some (1 # 2)%Q)); ("LAT"%string, (Some 0%Q)); ("LON"%string, (Some 0%Q)); ("SST"%string, (Some 7%Q))]) [("OSTIA"%string, (Some 5%Q)); ("BGVAR"%string, (Some (1 # 100)%Q)); ("ICE"%string, (Some 0%Q))]); (with_exts (new_report (Some "AAAAAAAAA"%string) None [("YR"%string, (Some 2003%Q)); ("MO"%string, (Some 12%Q)); ("DY"%string, (Some 1%Q)); ("HR"%string, (Some (3 # 5)%Q)); ("LAT"%string, (Some 0%Q)); ("LON"%string, (Some 0%Q)); ("SST"%string, (Some 5%Q))]) [("OSTIA"%string, (Some 5%Q)); ("BGVAR"%string, (Some (1 # 100)%Q)); ("ICE"%string, (Some 0%Q))]); (with_exts (new_report (Some "AAAAAAAAA"%string) None [("YR"%string, (Some 2003%Q)); ("MO"%string, (Some 12%Q)); ("DY"%string, (Some 1%Q)); ("HR"%string, (Some (7 # 10)%Q)); ("LAT"%string, (Some 0%Q)); ("LON"%string, (Some 0%Q)); ("SST"%string, (Some 7%Q))]) [("OSTIA"%string, (Some 5%Q)); ("BGVAR"%string, (Some (1 # 100)%Q)); ("ICE"%string, (Some 0%Q))]); (with_exts (new_report (Some "AAAAAAAAA"%string) None [("YR"%string, (Some 2003%Q)); ("MO"%string, (Some 12%Q)); ("DY"%string, (Some 1%Q)); ("HR"%string, (Some (4 # 5)%Q)); ("LAT"%string, (Some 0%Q)); ("LON"%string, (Some 0%Q)); ("SST"%string, (Some 9%Q))]) [("OSTIA"%string, (Some 5%Q)); ("BGVAR"%string, (Some (1 # 100)%Q)); ("ICE"%string, (Some 0%Q))])]) (sst_biased_noisy_check n_elevation n_sqrt {| bs_eval := 9; bs_lim := (11 # 10); bs_intra := 1; bs_inter := (29 # 100); bs_n := 3; bs_bad := 2; bs_bg := (3 # 10) |})) in
  all [flags x1 "SST"%string "drf_bias"%string [1; 1; 1; 1; 1; 1; 1; 1; 1];
  flags x1 "SST"%string "drf_noise"%string [1; 1; 1; 1; 1; 1; 1; 1; 1];
  flags x1 "SST"%string "drf_short"%string [0; 0; 0; 0; 0; 0; 0; 0; 0]]).
Example TestTrackQC_biased_noisy_check_test_biased_and_noisy_is : TestTrackQC_biased_noisy_check_test_biased_and_noisy = true.
Proof. reflexivity. Qed.
Definition TestTrackQC_biased_noisy_check_test_biased_warm_obs_missing : bool := Eval vm_compute in (let x1 := (on (voyage_of [] [(with_exts (new_report (Some "AAAAAAAAA"%string) None [("YR"%string, (Some 2003%Q)); ("MO"%string, (Some 12%Q)); ("DY"%string, (Some 1%Q)); ("HR"%string, (Some 0%Q)); ("LAT"%string, (Some 0%Q)); ("LON"%string, (Some 0%Q)); ("SST"%string, (Some (31 # 5)%Q))]) [("OSTIA"%string, None); ("BGVAR"%string, (Some (1 # 100)%Q)); ("ICE"%string, (Some 0%Q))]); (with_exts (new_report (Some "AAAAAAAAA"%string) None [("YR"%string, (Some 2003%Q)); ("MO"%string, (Some 12%Q)); ("DY"%string, (Some 1%Q)); ("HR"%string, (Some (1 # 10)%Q)); ("LAT"%string, (Some 0%Q)); ("LON"%string, (Some 0%Q)); ("SST"%string, (Some (31 # 5)%Q))]) [("OSTIA"%string, None); ("BGVAR"%string, (Some (1 # 100)%Q)); ("ICE"%string, (Some 0%Q))]); (with_exts (new_report (Some "AAAAAAAAA"%string) None [("YR"%string, (Some 2003%Q)); ("MO"%string, (Some 12%Q)); ("DY"%string, (Some 1%Q)); ("HR"%string, (Some (1 # 5)%Q)); ("LAT"%string, (Some 0%Q)); ("LON"%string, (Some 0%Q)); ("SST"%string, (Some (31 # 5)%Q))]) [("OSTIA"%string, (Some 5%Q)); ("BGVAR"%string, (Some (1 # 100)%Q)); ("ICE"%string, (Some 0%Q))]); (with_exts (new_report (Some "AAAAAAAAA"%string) None [("YR"%string, (Some 2003%Q)); ("MO"%string, (Some 12%Q)); ("DY"%string, (Some 1%Q)); ("HR"%string, (Some (3 # 10)%Q)); ("LAT"%string, (Some 0%Q)); ("LON"%string, (Some 0%Q)); ("SST"%string, (Some (31 # 5)%Q))]) [("OSTIA"%string, (Some 5%Q)); ("BGVAR"%string, (Some (1 # 100)%Q)); ("ICE"%string, (Some 0%Q))]); (with_exts (new_report (Some "AAAAAAAAA"%string) None [("YR"%string, (Some 2003%Q)); ("MO"%string, (Some 12%Q)); ("DY"%string, (Some 1%Q)); ("HR"%string, (Some (2 # 5)%Q)); ("LAT"%string, (Some 0%Q)); ("LON"%string, (Some 0%Q)); ("SST"%string, (Some (31 # 5)%Q))]) [("OSTIA"%string, (Some 5%Q)); ("BGVAR"%string, (Some (1 # 100)%Q)); ("ICE"%string, (Some 0%Q))]); (with_exts (new_report (Some "AAAAAAAAA"%string) None [("YR"%string, (Some 2003%Q)); ("MO"%string, (Some 12%Q)); ("DY"%string, (Some 1%Q)); ("HR"%string, (Some (1 # 2)%Q)); ("LAT"%string, (Some 0%Q)); ("LON"%string, (Some 0%Q)); ("SST"%string, (Some (31 # 5)%Q))]) [("OSTIA"%string, (Some 5%Q)); ("BGVAR"%string, (Some (1 # 100)%Q)); ("ICE"%string, (Some 0%Q))]); (with_exts (new_report (Some "AAAAAAAAA"%string) None [("YR"%string, (Some 2003%Q)); ("MO"%string, (Some 12%Q)); ("DY"%string, (Some 1%Q)); ("HR"%string, (Some (3 # 5)%Q)); ("LAT"%string, (Some 0%Q)); ("LON"%string, (Some 0%Q)); ("SST"%string, (Some (31 # 5)%Q))]) [("OSTIA"%string, (Some 5%Q)); ("BGVAR"%string, (Some (1 # 100)%Q)); ("ICE"%string, (Some 0%Q))]); (with_exts (new_report (Some "AAAAAAAAA"%string) None [("YR"%string, (Some 2003%Q)); ("MO"%string, (Some 12%Q)); ("DY"%string, (Some 1%Q)); ("HR"%string, (Some (7 # 10)%Q)); ("LAT"%string, (Some 0%Q)); ("LON"%string, (Some 0%Q)); ("SST"%string, (Some (31 # 5)%Q))]) [("OSTIA"%string, None); ("BGVAR"%string, (Some (1 # 100)%Q)); ("ICE"%string, (Some 0%Q))]); (with_exts (new_report (Some "AAAAAAAAA"%string) None [("YR"%string, (Some 2003%Q)); ("MO"%string, (Some 12%Q)); ("DY"%string, (Some 1%Q)); ("HR"%string, (Some (4 # 5)%Q)); ("LAT"%string, (Some 0%Q)); ("LON"%string, (Some 0%Q)); ("SST"%string, (Some (31 # 5)%Q))]) [("OSTIA"%string, None); ("BGVAR"%string, (Some (1 # 100)%Q)); ("ICE"%string, (Some 0%Q))])]) (sst_biased_noisy_check n_elevation n_sqrt {| bs_eval := 5; bs_lim := (11 # 10); bs_intra := 1; bs_inter := (29 # 100); bs_n := 3; bs_bad := 2; bs_bg := (3 # 10) |})) in
  all [flags x1 "SST"%string "drf_bias"%string [1; 1; 1; 1; 1; 1; 1; 1; 1];
  flags x1 "SST"%string "drf_noise"%string [0; 0; 0; 0; 0; 0; 0; 0; 0];
  flags x1 "SST"%string "drf_short"%string [0; 0; 0; 0; 0; 0; 0; 0; 0]]).
Example TestTrackQC_biased_noisy_check_test_biased_warm_obs_missing_is : TestTrackQC_biased_noisy_check_test_biased_warm_obs_missing = true.
Proof. reflexivity. Qed.
Definition TestTrackQC_biased_noisy_check_test_short_record_one_bad : bool := Eval vm_compute in (let x1 := (on (voyage_of [] [(with_exts (new_report (Some "AAAAAAAAA"%string) None [("YR"%string, (Some 2003%Q)); ("MO"%string, (Some 12%Q)); ("DY"%string, (Some 1%Q)); ("HR"%string, (Some 0%Q)); ("LAT"%string, (Some 0%Q)); ("LON"%string, (Some 0%Q)); ("SST"%string, (Some 5%Q))]) [("OSTIA"%string, (Some 5%Q)); ("BGVAR"%string, (Some (1 # 100)%Q)); ("ICE"%string, (Some 0%Q))]); (with_exts (new_report (Some "AAAAAAAAA"%string) None [("YR"%string, (Some 2003%Q)); ("MO"%string, (Some 12%Q)); ("DY"%string, (Some 1%Q)); ("HR"%string, (Some (1 # 10)%Q)); ("LAT"%string, (Some 0%Q)); ("LON"%string, (Some 0%Q)); ("SST"%string, (Some 5%Q))]) [("OSTIA"%string, (Some 5%Q)); ("BGVAR"%string, (Some (1 # 100)%Q)); ("ICE"%string, (Some 0%Q))]); (with_exts (new_report (Some "AAAAAAAAA"%string) None [("YR"%string, (Some 2003%Q)); ("MO"%string, (Some 12%Q)); ("DY"%string, (Some 1%Q)); ("HR"%string, (Some (1 # 5)%Q)); ("LAT"%string, (Some 0%Q)); ("LON"%string, (Some 0%Q)); ("SST"%string, (Some 9%Q))]) [("OSTIA"%string, (Some 5%Q)); ("BGVAR"%string, (Some (1 # 100)%Q)); ("ICE"%string, (Some 0%Q))]); (with_exts (new_report (Some "AAAAAAAAA"%string) None [("YR"%string, (Some 2003%Q)); ("MO"%string, (Some 12%Q)); ("DY"%string, (Some 1%Q)); ("HR"%string, (Some (3 # 10)%Q)); ("LAT"%string, (Some 0%Q)); ("LON"%string, (Some 0%Q)); ("SST"%string, (Some 5%Q))]) [("OSTIA"%string, (Some 5%Q)); ("BGVAR"%string, (Some (1 # 100)%Q)); ("ICE"%string, (Some 0%Q))]); (with_exts (new_report (Some "AAAAAAAAA"%string) None [("YR"%string, (Some 2003%Q)); ("MO"%string, (Some 12%Q)); ("DY"%string, (Some 1%Q)); ("HR"%string, (Some (2 # 5)%Q)); ("LAT"%string, (Some 0%Q)); ("LON"%string, (Some 0%Q)); ("SST"%string, (Some 5%Q))]) [("OSTIA"%string, (Some 5%Q)); ("BGVAR"%string, (Some (1 # 100)%Q)); ("ICE"%string, (Some 0%Q))])]) (sst_biased_noisy_check n_elevation n_sqrt {| bs_eval := 9; bs_lim := (11 # 10); bs_intra := 1; bs_inter := (29 # 100); bs_n := 3; bs_bad := 2; bs_bg := (3 # 10) |})) in
  all [flags x1 "SST"%string "drf_bias"%string [0; 0; 0; 0; 0];
  flags x1 "SST"%string "drf_noise"%string [0; 0; 0; 0; 0];
  flags x1 "SST"%string "drf_short"%string [0; 0; 0; 0; 0]]).
Example TestTrackQC_biased_noisy_check_test_short_record_one_bad_is : TestTrackQC_biased_noisy_check_test_short_record_one_bad = true.
Proof. reflexivity. Qed.
Definition TestTrackQC_biased_noisy_check_test_short_record_two_bad : bool := Eval vm_compute in (let x1 := (on (voyage_of [] [(with_exts (new_report (Some "AAAAAAAAA"%string) None [("YR"%string, (Some 2003%Q)); ("MO"%string, (Some 12%Q)); ("DY"%string, (Some 1%Q)); ("HR"%string, (Some 0%Q)); ("LAT"%string, (Some 0%Q)); ("LON"%string, (Some 0%Q)); ("SST"%string, (Some 9%Q))]) [("OSTIA"%string, (Some 5%Q)); ("BGVAR"%string, (Some (1 # 100)%Q)); ("ICE"%string, (Some 0%Q))]); (with_exts (new_report (Some "AAAAAAAAA"%string) None [("YR"%string, (Some 2003%Q)); ("MO"%string, (Some 12%Q)); ("DY"%string, (Some 1%Q)); ("HR"%string, (Some (1 # 10)%Q)); ("LAT"%string, (Some 0%Q)); ("LON"%string, (Some 0%Q)); ("SST"%string, (Some 5%Q))]) [("OSTIA"%string, (Some 5%Q)); ("BGVAR"%string, (Some (1 # 100)%Q)); ("ICE"%string, (Some 0%Q))]); (with_exts (new_report (Some "AAAAAAAAA"%string) None [("YR"%string, (Some 2003%Q)); ("MO"%string, (Some 12%Q)); ("DY"%string, (Some 1%Q)); ("HR"%string, (Some (1 # 5)%Q)); ("LAT"%string, (Some 0%Q)); ("LON"%string, (Some 0%Q)); ("SST"%string, (Some 9%Q))]) [("OSTIA"%string, (Some 5%Q)); ("BGVAR"%string, (Some (1 # 100)%Q)); ("ICE"%string, (Some 0%Q))]); (with_exts (new_report (Some "AAAAAAAAA"%string) None [("YR"%string, (Some 2003%Q)); ("MO"%string, (Some 12%Q)); ("DY"%string, (Some 1%Q)); ("HR"%string, (Some (3 # 10)%Q)); ("LAT"%string, (Some 0%Q)); ("LON"%string, (Some 0%Q)); ("SST"%string, (Some 5%Q))]) [("OSTIA"%string, (Some 5%Q)); ("BGVAR"%string, (Some (1 # 100)%Q)); ("ICE"%string, (Some 0%Q))]); (with_exts (new_report (Some "AAAAAAAAA"%string) None [("YR"%string, (Some 2003%Q)); ("MO"%string, (Some 12%Q)); ("DY"%string, (Some 1%Q)); ("HR"%string, (Some (2 # 5)%Q)); ("LAT"%string, (Some 0%Q)); ("LON"%string, (Some 0%Q)); ("SST"%string, (Some 5%Q))]) [("OSTIA"%string, (Some 5%Q)); ("BGVAR"%string, (Some (1 # 100)%Q)); ("ICE"%string, (Some 0%Q))])]) (sst_biased_noisy_check n_elevation n_sqrt {| bs_eval := 9; bs_lim := (11 # 10); bs_intra := 1; bs_inter := (29 # 100); bs_n := 3; bs_bad := 2; bs_bg := (3 # 10) |})) in
  all [flags x1 "SST"%string "drf_bias"%string [0; 0; 0; 0; 0];
  flags x1 "SST"%string "drf_noise"%string [0; 0; 0; 0; 0];
  flags x1 "SST"%string "drf_short"%string [1; 1; 1; 1; 1]]).
Example TestTrackQC_biased_noisy_check_test_short_record_two_bad_is : TestTrackQC_biased_noisy_check_test_short_record_two_bad = true.
Proof. reflexivity. Qed.
Definition TestTrackQC_biased_noisy_check_test_short_record_two_bad_obs_missing : bool := Eval vm_compute in (let x1 := (on (voyage_of [] [(with_exts (new_report (Some "AAAAAAAAA"%string) None [("YR"%string, (Some 2003%Q)); ("MO"%string, (Some 12%Q)); ("DY"%string, (Some 1%Q)); ("HR"%string, (Some 0%Q)); ("LAT"%string, (Some 0%Q)); ("LON"%string, (Some 0%Q)); ("SST"%string, (Some 5%Q))]) [("OSTIA"%string, None); ("BGVAR"%string, (Some (1 # 100)%Q)); ("ICE"%string, (Some 0%Q))]); (with_exts (new_report (Some "AAAAAAAAA"%string) None [("YR"%string, (Some 2003%Q)); ("MO"%string, (Some 12%Q)); ("DY"%string, (Some 1%Q)); ("HR"%string, (Some (1 # 10)%Q)); ("LAT"%string, (Some 0%Q)); ("LON"%string, (Some 0%Q)); ("SST"%string, (Some 5%Q))]) [("OSTIA"%string, None); ("BGVAR"%string, (Some (1 # 100)%Q)); ("ICE"%string, (Some 0%Q))]); (with_exts (new_report (Some "AAAAAAAAA"%string) None [("YR"%string, (Some 2003%Q)); ("MO"%string, (Some 12%Q)); ("DY"%string, (Some 1%Q)); ("HR"%string, (Some (1 # 5)%Q)); ("LAT"%string, (Some 0%Q)); ("LON"%string, (Some 0%Q)); ("SST"%string, (Some 9%Q))]) [("OSTIA"%string, (Some 5%Q)); ("BGVAR"%string, (Some (1 # 100)%Q)); ("ICE"%string, (Some 0%Q))]); (with_exts (new_report (Some "AAAAAAAAA"%string) None [("YR"%string, (Some 2003%Q)); ("MO"%string, (Some 12%Q)); ("DY"%string, (Some 1%Q)); ("HR"%string, (Some (3 # 10)%Q)); ("LAT"%string, (Some 0%Q)); ("LON"%string, (Some 0%Q)); ("SST"%string, (Some 5%Q))]) [("OSTIA"%string, (Some 5%Q)); ("BGVAR"%string, (Some (1 # 100)%Q)); ("ICE"%string, (Some 0%Q))]); (with_exts (new_report (Some "AAAAAAAAA"%string) None [("YR"%string, (Some 2003%Q)); ("MO"%string, (Some 12%Q)); ("DY"%string, (Some 1%Q)); ("HR"%string, (Some (2 # 5)%Q)); ("LAT"%string, (Some 0%Q)); ("LON"%string, (Some 0%Q)); ("SST"%string, (Some 9%Q))]) [("OSTIA"%string, (Some 5%Q)); ("BGVAR"%string, (Some (1 # 100)%Q)); ("ICE"%string, (Some 0%Q))]); (with_exts (new_report (Some "AAAAAAAAA"%string) None [("YR"%string, (Some 2003%Q)); ("MO"%string, (Some 12%Q)); ("DY"%string, (Some 1%Q)); ("HR"%string, (Some (1 # 2)%Q)); ("LAT"%string, (Some 0%Q)); ("LON"%string, (Some 0%Q)); ("SST"%string, (Some 5%Q))]) [("OSTIA"%string, (Some 5%Q)); ("BGVAR"%string, (Some (1 # 100)%Q)); ("ICE"%string, (Some 0%Q))]); (with_exts (new_report (Some "AAAAAAAAA"%string) None [("YR"%string, (Some 2003%Q)); ("MO"%string, (Some 12%Q)); ("DY"%string, (Some 1%Q)); ("HR"%string, (Some (3 # 5)%Q)); ("LAT"%string, (Some 0%Q)); ("LON"%string, (Some 0%Q)); ("SST"%string, (Some 5%Q))]) [("OSTIA"%string, (Some 5%Q)); ("BGVAR"%string, (Some (1 # 100)%Q)); ("ICE"%string, (Some 0%Q))]); (with_exts (new_report (Some "AAAAAAAAA"%string) None [("YR"%string, (Some 2003%Q)); ("MO"%string, (Some 12%Q)); ("DY"%string, (Some 1%Q)); ("HR"%string, (Some (7 # 10)%Q)); ("LAT"%string, (Some 0%Q)); ("LON"%string, (Some 0%Q)); ("SST"%string, (Some 5%Q))]) [("OSTIA"%string, None); ("BGVAR"%string, (Some (1 # 100)%Q)); ("ICE"%string, (Some 0%Q))]); (with_exts (new_report (Some "AAAAAAAAA"%string) None [("YR"%string, (Some 2003%Q)); ("MO"%string, (Some 12%Q)); ("DY"%string, (Some 1%Q)); ("HR"%string, (Some (4 # 5)%Q)); ("LAT"%string, (Some 0%Q)); ("LON"%string, (Some 0%Q)); ("SST"%string, (Some 5%Q))]) [("OSTIA"%string, None); ("BGVAR"%string, (Some (1 # 100)%Q)); ("ICE"%string, (Some 0%Q))])]) (sst_biased_noisy_check n_elevation n_sqrt {| bs_eval := 9; bs_lim := (11 # 10); bs_intra := 1; bs_inter := (29 # 100); bs_n := 3; bs_bad := 2; bs_bg := (3 # 10) |})) in
  all [flags x1 "SST"%string "drf_bias"%string [0; 0; 0; 0; 0; 0; 0; 0; 0];
  flags x1 "SST"%string "drf_noise"%string [0; 0; 0; 0; 0; 0; 0; 0; 0];
  flags x1 "SST"%string "drf_short"%string [1; 1; 1; 1; 1; 1; 1; 1; 1]]).
Example TestTrackQC_biased_noisy_check_test_short_record_two_bad_obs_missing_is : TestTrackQC_biased_noisy_check_test_short_record_two_bad_obs_missing = true.
Proof. reflexivity. Qed.
Definition TestTrackQC_biased_noisy_check_test_short_record_two_bad_obs_missing_with_bgvar : bool := Eval vm_compute in (let x1 := (on (voyage_of [] [(with_exts (new_report (Some "AAAAAAAAA"%string) None [("YR"%string, (Some 2003%Q)); ("MO"%string, (Some 12%Q)); ("DY"%string, (Some 1%Q)); ("HR"%string, (Some 0%Q)); ("LAT"%string, (Some 0%Q)); ("LON"%string, (Some 0%Q)); ("SST"%string, (Some 5%Q))]) [("OSTIA"%string, None); ("BGVAR"%string, (Some (1 # 100)%Q)); ("ICE"%string, (Some 0%Q))]); (with_exts (new_report (Some "AAAAAAAAA"%string) None [("YR"%string, (Some 2003%Q)); ("MO"%string, (Some 12%Q)); ("DY"%string, (Some 1%Q)); ("HR"%string, (Some (1 # 10)%Q)); ("LAT"%string, (Some 0%Q)); ("LON"%string, (Some 0%Q)); ("SST"%string, (Some 5%Q))]) [("OSTIA"%string, None); ("BGVAR"%string, (Some (2 # 5)%Q)); ("ICE"%string, (Some 0%Q))]); (with_exts (new_report (Some "AAAAAAAAA"%string) None [("YR"%string, (Some 2003%Q)); ("MO"%string, (Some 12%Q)); ("DY"%string, (Some 1%Q)); ("HR"%string, (Some (1 # 5)%Q)); ("LAT"%string, (Some 0%Q)); ("LON"%string, (Some 0%Q)); ("SST"%string, (Some 9%Q))]) [("OSTIA"%string, (Some 5%Q)); ("BGVAR"%string, (Some (1 # 100)%Q)); ("ICE"%string, (Some 0%Q))]); (with_exts (new_report (Some "AAAAAAAAA"%string) None [("YR"%string, (Some 2003%Q)); ("MO"%string, (Some 12%Q)); ("DY"%string, (Some 1%Q)); ("HR"%string, (Some (3 # 10)%Q)); ("LAT"%string, (Some 0%Q)); ("LON"%string, (Some 0%Q)); ("SST"%string, (Some 5%Q))]) [("OSTIA"%string, (Some 5%Q)); ("BGVAR"%string, (Some (1 # 100)%Q)); ("ICE"%string, (Some 0%Q))]); (with_exts (new_report (Some "AAAAAAAAA"%string) None [("YR"%string, (Some 2003%Q)); ("MO"%string, (Some 12%Q)); ("DY"%string, (Some 1%Q)); ("HR"%string, (Some (2 # 5)%Q)); ("LAT"%string, (Some 0%Q)); ("LON"%string, (Some 0%Q)); ("SST"%string, (Some 9%Q))]) [("OSTIA"%string, (Some 5%Q)); ("BGVAR"%string, (Some (1 # 100)%Q)); ("ICE"%string, (Some 0%Q))]); (with_exts (new_report (Some "AAAAAAAAA"%string) None [("YR"%string, (Some 2003%Q)); ("MO"%string, (Some 12%Q)); ("DY"%string, (Some 1%Q)); ("HR"%string, (Some (1 # 2)%Q)); ("LAT"%string, (Some 0%Q)); ("LON"%string, (Some 0%Q)); ("SST"%string, (Some 5%Q))]) [("OSTIA"%string, (Some 5%Q)); ("BGVAR"%string, (Some (1 # 100)%Q)); ("ICE"%string, (Some 0%Q))]); (with_exts (new_report (Some "AAAAAAAAA"%string) None [("YR"%string, (Some 2003%Q)); ("MO"%string, (Some 12%Q)); ("DY"%string, (Some 1%Q)); ("HR"%string, (Some (3 # 5)%Q)); ("LAT"%string, (Some 0%Q)); ("LON"%string, (Some 0%Q)); ("SST"%string, (Some 5%Q))]) [("OSTIA"%string, (Some 5%Q)); ("BGVAR"%string, (Some (1 # 100)%Q)); ("ICE"%string, (Some 0%Q))]); (with_exts (new_report (Some "AAAAAAAAA"%string) None [("YR"%string, (Some 2003%Q)); ("MO"%string, (Some 12%Q)); ("DY"%string, (Some 1%Q)); ("HR"%string, (Some (7 # 10)%Q)); ("LAT"%string, (Some 0%Q)); ("LON"%string, (Some 0%Q)); ("SST"%string, (Some 5%Q))]) [("OSTIA"%string, None); ("BGVAR"%string, (Some (1 # 100)%Q)); ("ICE"%string, (Some 0%Q))]); (with_exts (new_report (Some "AAAAAAAAA"%string) None [("YR"%string, (Some 2003%Q)); ("MO"%string, (Some 12%Q)); ("DY"%string, (Some 1%Q)); ("HR"%string, (Some (4 # 5)%Q)); ("LAT"%string, (Some 0%Q)); ("LON"%string, (Some 0%Q)); ("SST"%string, (Some 5%Q))]) [("OSTIA"%string, None); ("BGVAR"%string, (Some (1 # 100)%Q)); ("ICE"%string, (Some 0%Q))])]) (sst_biased_noisy_check n_elevation n_sqrt {| bs_eval := 9; bs_lim := (11 # 10); bs_intra := 1; bs_inter := (29 # 100); bs_n := 3; bs_bad := 2; bs_bg := (3 # 10) |})) in
  all [flags x1 "SST"%string "drf_bias"%string [0; 0; 0; 0; 0; 0; 0; 0; 0];
  flags x1 "SST"%string "drf_noise"%string [0; 0; 0; 0; 0; 0; 0; 0; 0];
  flags x1 "SST"%string "drf_short"%string [0; 0; 0; 0; 0; 0; 0; 0; 0]]).
Example TestTrackQC_biased_noisy_check_test_short_record_two_bad_obs_missing_with_bgvar_is : TestTrackQC_biased_noisy_check_test_short_record_two_bad_obs_missing_with_bgvar = true.
Proof. reflexivity. Qed.
Definition TestTrackQC_biased_noisy_check_test_good_data : bool := Eval vm_compute in (let x1 := (on (voyage_of [] [(with_exts (new_report (Some "AAAAAAAAA"%string) None [("YR"%string, (Some 2003%Q)); ("MO"%string, (Some 12%Q)); ("DY"%string, (Some 1%Q)); ("HR"%string, (Some 0%Q)); ("LAT"%string, (Some 0%Q)); ("LON"%string, (Some 0%Q)); ("SST"%string, (Some 5%Q))]) [("OSTIA"%string, (Some 5%Q)); ("BGVAR"%string, (Some (1 # 100)%Q)); ("ICE"%string, (Some 0%Q))]); (with_exts (new_report (Some "AAAAAAAAA"%string) None [("YR"%string, (Some 2003%Q)); ("MO"%string, (Some 12%Q)); ("DY"%string, (Some 1%Q)); ("HR"%string, (Some (1 # 10)%Q)); ("LAT"%string, (Some 0%Q)); ("LON"%string, (Some 0%Q)); ("SST"%string, (Some 5%Q))]) [("OSTIA"%string, (Some 5%Q)); ("BGVAR"%string, (Some (1 # 100)%Q)); ("ICE"%string, (Some 0%Q))]); (with_exts (new_report (Some "AAAAAAAAA"%string) None [("YR"%string, (Some 2003%Q)); ("MO"%string, (Some 12%Q)); ("DY"%string, (Some 1%Q)); ("HR"%string, (Some (1 # 5)%Q)); ("LAT"%string, (Some 0%Q)); ("LON"%string, (Some 0%Q)); ("SST"%string, (Some 5%Q))]) [("OSTIA"%string, (Some 5%Q)); ("BGVAR"%string, (Some (1 # 100)%Q)); ("ICE"%string, (Some 0%Q))]); (with_exts (new_report (Some "AAAAAAAAA"%string) None [("YR"%string, (Some 2003%Q)); ("MO"%string, (Some 12%Q)); ("DY"%string, (Some 1%Q)); ("HR"%string, (Some (3 # 10)%Q)); ("LAT"%string, (Some 0%Q)); ("LON"%string, (Some 0%Q)); ("SST"%string, (Some 5%Q))]) [("OSTIA"%string, (Some 5%Q)); ("BGVAR"%string, (Some (1 # 100)%Q)); ("ICE"%string, (Some 0%Q))]); (with_exts (new_report (Some "AAAAAAAAA"%string) None [("YR"%string, (Some 2003%Q)); ("MO"%string, (Some 12%Q)); ("DY"%string, (Some 1%Q)); ("HR"%string, (Some (2 # 5)%Q)); ("LAT"%string, (Some 0%Q)); ("LON"%string, (Some 0%Q)); ("SST"%string, (Some 5%Q))]) [("OSTIA"%string, (Some 5%Q)); ("BGVAR"%string, (Some (1 # 100)%Q)); ("ICE"%string, (Some 0%Q))]); (with_exts (new_report (Some "AAAAAAAAA"%string) None [("YR"%string, (Some 2003%Q)); ("MO"%string, (Some 12%Q)); ("DY"%string, (Some 1%Q)); ("HR"%string, (Some (1 # 2)%Q)); ("LAT"%string, (Some 0%Q)); ("LON"%string, (Some 0%Q)); ("SST"%string, (Some 5%Q))]) [("OSTIA"%string, (Some 5%Q)); ("BGVAR"%string, (Some (1 # 100)%Q)); ("ICE"%string, (Some 0%Q))]); (with_exts (new_report (Some "AAAAAAAAA"%string) None [("YR"%string, (Some 2003%Q)); ("MO"%string, (Some 12%Q)); ("DY"%string, (Some 1%Q)); ("HR"%string, (Some (3 # 5)%Q)); ("LAT"%string, (Some 0%Q)); ("LON"%string, (Some 0%Q)); ("SST"%string, (Some 5%Q))]) [("OSTIA"%string, (Some 5%Q)); ("BGVAR"%string, (Some (1 # 100)%Q)); ("ICE"%string, (Some 0%Q))]); (with_exts (new_report (Some "AAAAAAAAA"%string) None [("YR"%string, (Some 2003%Q)); ("MO"%string, (Some 12%Q)); ("DY"%string, (Some 1%Q)); ("HR"%string, (Some (7 # 10)%Q)); ("LAT"%string, (Some 0%Q)); ("LON"%string, (Some 0%Q)); ("SST"%string, (Some 5%Q))]) [("OSTIA"%string, (Some 5%Q)); ("BGVAR"%string, (Some (1 # 100)%Q)); ("ICE"%string, (Some 0%Q))]); (with_exts (new_report (Some "AAAAAAAAA"%string) None [("YR"%string, (Some 2003%Q)); ("MO"%string, (Some 12%Q)); ("DY"%string, (Some 1%Q)); ("HR"%string, (Some (4 # 5)%Q)); ("LAT"%string, (Some 0%Q)); ("LON"%string, (Some 0%Q)); ("SST"%string, (Some 5%Q))]) [("OSTIA"%string, (Some 5%Q)); ("BGVAR"%string, (Some (1 # 100)%Q)); ("ICE"%string, (Some 0%Q))])]) (sst_biased_noisy_check n_elevation n_sqrt {| bs_eval := 9; bs_lim := (11 # 10); bs_intra := 1; bs_inter := (29 # 100); bs_n := 3; bs_bad := 2; bs_bg := (3 # 10) |})) in
  all [flags x1 "SST"%string "drf_bias"%string [0; 0; 0; 0; 0; 0; 0; 0; 0];
  flags x1 "SST"%string "drf_noise"%string [0; 0; 0; 0; 0; 0; 0; 0; 0];
  flags x1 "SST"%string "drf_short"%string [0; 0; 0; 0; 0; 0; 0; 0; 0]]).
Example TestTrackQC_biased_noisy_check_test_good_data_is : TestTrackQC_biased_noisy_check_test_good_data = true.
Proof. reflexivity. Qed.
Definition TestTrackQC_biased_noisy_check_test_short_record_good_data : bool := Eval vm_compute in (let x1 := (on (voyage_of [] [(with_exts (new_report (Some "AAAAAAAAA"%string) None [("YR"%string, (Some 2003%Q)); ("MO"%string, (Some 12%Q)); ("DY"%string, (Some 1%Q)); ("HR"%string, (Some 0%Q)); ("LAT"%string, (Some 0%Q)); ("LON"%string, (Some 0%Q)); ("SST"%string, (Some 5%Q))]) [("OSTIA"%string, (Some 5%Q)); ("BGVAR"%string, (Some (1 # 100)%Q)); ("ICE"%string, (Some 0%Q))]); (with_exts (new_report (Some "AAAAAAAAA"%string) None [("YR"%string, (Some 2003%Q)); ("MO"%string, (Some 12%Q)); ("DY"%string, (Some 1%Q)); ("HR"%string, (Some (1 # 10)%Q)); ("LAT"%string, (Some 0%Q)); ("LON"%string, (Some 0%Q)); ("SST"%string, (Some 5%Q))]) [("OSTIA"%string, (Some 5%Q)); ("BGVAR"%string, (Some (1 # 100)%Q)); ("ICE"%string, (Some 0%Q))]); (with_exts (new_report (Some "AAAAAAAAA"%string) None [("YR"%string, (Some 2003%Q)); ("MO"%string, (Some 12%Q)); ("DY"%string, (Some 1%Q)); ("HR"%string, (Some (1 # 5)%Q)); ("LAT"%string, (Some 0%Q)); ("LON"%string, (Some 0%Q)); ("SST"%string, (Some 5%Q))]) [("OSTIA"%string, (Some 5%Q)); ("BGVAR"%string, (Some (1 # 100)%Q)); ("ICE"%string, (Some 0%Q))]); (with_exts (new_report (Some "AAAAAAAAA"%string) None [("YR"%string, (Some 2003%Q)); ("MO"%string, (Some 12%Q)); ("DY"%string, (Some 1%Q)); ("HR"%string, (Some (3 # 10)%Q)); ("LAT"%string, (Some 0%Q)); ("LON"%string, (Some 0%Q)); ("SST"%string, (Some 5%Q))]) [("OSTIA"%string, (Some 5%Q)); ("BGVAR"%string, (Some (1 # 100)%Q)); ("ICE"%string, (Some 0%Q))]); (with_exts (new_report (Some "AAAAAAAAA"%string) None [("YR"%string, (Some 2003%Q)); ("MO"%string, (Some 12%Q)); ("DY"%string, (Some 1%Q)); ("HR"%string, (Some (2 # 5)%Q)); ("LAT"%string, (Some 0%Q)); ("LON"%string, (Some 0%Q)); ("SST"%string, (Some 5%Q))]) [("OSTIA"%string, (Some 5%Q)); ("BGVAR"%string, (Some (1 # 100)%Q)); ("ICE"%string, (Some 0%Q))])]) (sst_biased_noisy_check n_elevation n_sqrt {| bs_eval := 9; bs_lim := (11 # 10); bs_intra := 1; bs_inter := (29 # 100); bs_n := 3; bs_bad := 2; bs_bg := (3 # 10) |})) in
  all [flags x1 "SST"%string "drf_bias"%string [0; 0; 0; 0; 0];
  flags x1 "SST"%string "drf_noise"%string [0; 0; 0; 0; 0];
  flags x1 "SST"%string "drf_short"%string [0; 0; 0; 0; 0]]).
Example TestTrackQC_biased_noisy_check_test_short_record_good_data_is : TestTrackQC_biased_noisy_check_test_short_record_good_data = true.
Proof. reflexivity. Qed.
Definition TestTrackQC_biased_noisy_check_test_short_record_obs_missing_good_data : bool := Eval vm_compute in (let x1 := (on (voyage_of [] [(with_exts (new_report (Some "AAAAAAAAA"%string) None [("YR"%string, (Some 2003%Q)); ("MO"%string, (Some 12%Q)); ("DY"%string, (Some 1%Q)); ("HR"%string, (Some 0%Q)); ("LAT"%string, (Some 0%Q)); ("LON"%string, (Some 0%Q)); ("SST"%string, (Some 5%Q))]) [("OSTIA"%string, None); ("BGVAR"%string, (Some (1 # 100)%Q)); ("ICE"%string, (Some 0%Q))]); (with_exts (new_report (Some "AAAAAAAAA"%string) None [("YR"%string, (Some 2003%Q)); ("MO"%string, (Some 12%Q)); ("DY"%string, (Some 1%Q)); ("HR"%string, (Some (1 # 10)%Q)); ("LAT"%string, (Some 0%Q)); ("LON"%string, (Some 0%Q)); ("SST"%string, (Some 5%Q))]) [("OSTIA"%string, None); ("BGVAR"%string, (Some (1 # 100)%Q)); ("ICE"%string, (Some 0%Q))]); (with_exts (new_report (Some "AAAAAAAAA"%string) None [("YR"%string, (Some 2003%Q)); ("MO"%string, (Some 12%Q)); ("DY"%string, (Some 1%Q)); ("HR"%string, (Some (1 # 5)%Q)); ("LAT"%string, (Some 0%Q)); ("LON"%string, (Some 0%Q)); ("SST"%string, (Some 5%Q))]) [("OSTIA"%string, (Some 5%Q)); ("BGVAR"%string, (Some (1 # 100)%Q)); ("ICE"%string, (Some 0%Q))]); (with_exts (new_report (Some "AAAAAAAAA"%string) None [("YR"%string, (Some 2003%Q)); ("MO"%string, (Some 12%Q)); ("DY"%string, (Some 1%Q)); ("HR"%string, (Some (3 # 10)%Q)); ("LAT"%string, (Some 0%Q)); ("LON"%string, (Some 0%Q)); ("SST"%string, (Some 5%Q))]) [("OSTIA"%string, (Some 5%Q)); ("BGVAR"%string, (Some (1 # 100)%Q)); ("ICE"%string, (Some 0%Q))]); (with_exts (new_report (Some "AAAAAAAAA"%string) None [("YR"%string, (Some 2003%Q)); ("MO"%string, (Some 12%Q)); ("DY"%string, (Some 1%Q)); ("HR"%string, (Some (2 # 5)%Q)); ("LAT"%string, (Some 0%Q)); ("LON"%string, (Some 0%Q)); ("SST"%string, (Some 5%Q))]) [("OSTIA"%string, (Some 5%Q)); ("BGVAR"%string, (Some (1 # 100)%Q)); ("ICE"%string, (Some 0%Q))]); (with_exts (new_report (Some "AAAAAAAAA"%string) None [("YR"%string, (Some 2003%Q)); ("MO"%string, (Some 12%Q)); ("DY"%string, (Some 1%Q)); ("HR"%string, (Some (1 # 2)%Q)); ("LAT"%string, (Some 0%Q)); ("LON"%string, (Some 0%Q)); ("SST"%string, (Some 5%Q))]) [("OSTIA"%string, (Some 5%Q)); ("BGVAR"%string, (Some (1 # 100)%Q)); ("ICE"%string, (Some 0%Q))]); (with_exts (new_report (Some "AAAAAAAAA"%string) None [("YR"%string, (Some 2003%Q)); ("MO"%string, (Some 12%Q)); ("DY"%string, (Some 1%Q)); ("HR"%string, (Some (3 # 5)%Q)); ("LAT"%string, (Some 0%Q)); ("LON"%string, (Some 0%Q)); ("SST"%string, (Some 5%Q))]) [("OSTIA"%string, (Some 5%Q)); ("BGVAR"%string, (Some (1 # 100)%Q)); ("ICE"%string, (Some 0%Q))]); (with_exts (new_report (Some "AAAAAAAAA"%string) None [("YR"%string, (Some 2003%Q)); ("MO"%string, (Some 12%Q)); ("DY"%string, (Some 1%Q)); ("HR"%string, (Some (7 # 10)%Q)); ("LAT"%string, (Some 0%Q)); ("LON"%string, (Some 0%Q)); ("SST"%string, (Some 5%Q))]) [("OSTIA"%string, None); ("BGVAR"%string, (Some (1 # 100)%Q)); ("ICE"%string, (Some 0%Q))]); (with_exts (new_report (Some "AAAAAAAAA"%string) None [("YR"%string, (Some 2003%Q)); ("MO"%string, (Some 12%Q)); ("DY"%string, (Some 1%Q)); ("HR"%string, (Some (4 # 5)%Q)); ("LAT"%string, (Some 0%Q)); ("LON"%string, (Some 0%Q)); ("SST"%string, (Some 5%Q))]) [("OSTIA"%string, None); ("BGVAR"%string, (Some (1 # 100)%Q)); ("ICE"%string, (Some 0%Q))])]) (sst_biased_noisy_check n_elevation n_sqrt {| bs_eval := 9; bs_lim := (11 # 10); bs_intra := 1; bs_inter := (29 # 100); bs_n := 3; bs_bad := 2; bs_bg := (3 # 10) |})) in
  all [flags x1 "SST"%string "drf_bias"%string [0; 0; 0; 0; 0; 0; 0; 0; 0];
  flags x1 "SST"%string "drf_noise"%string [0; 0; 0; 0; 0; 0; 0; 0; 0];
  flags x1 "SST"%string "drf_short"%string [0; 0; 0; 0; 0; 0; 0; 0; 0]]).
Example TestTrackQC_biased_noisy_check_test_short_record_obs_missing_good_data_is : TestTrackQC_biased_noisy_check_test_short_record_obs_missing_good_data = true.
Proof. reflexivity. Qed.
Definition TestTrackQC_biased_noisy_check_test_noisy_big_bgvar : bool := Eval vm_compute in (let x1 := (on (voyage_of [] [(with_exts (new_report (Some "AAAAAAAAA"%string) None [("YR"%string, (Some 2003%Q)); ("MO"%string, (Some 12%Q)); ("DY"%string, (Some 1%Q)); ("HR"%string, (Some 0%Q)); ("LAT"%string, (Some 0%Q)); ("LON"%string, (Some 0%Q)); ("SST"%string, (Some 7%Q))]) [("OSTIA"%string, (Some 5%Q)); ("BGVAR"%string, (Some 4%Q)); ("ICE"%string, (Some 0%Q))]); (with_exts (new_report (Some "AAAAAAAAA"%string) None [("YR"%string, (Some 2003%Q)); ("MO"%string, (Some 12%Q)); ("DY"%string, (Some 1%Q)); ("HR"%string, (Some (1 # 10)%Q)); ("LAT"%string, (Some 0%Q)); ("LON"%string, (Some 0%Q)); ("SST"%string, (Some 5%Q))]) [("OSTIA"%string, (Some 5%Q)); ("BGVAR"%string, (Some 4%Q)); ("ICE"%string, (Some 0%Q))]); (with_exts (new_report (Some "AAAAAAAAA"%string) None [("YR"%string, (Some 2003%Q)); ("MO"%string, (Some 12%Q)); ("DY"%string, (Some 1%Q)); ("HR"%string, (Some (1 # 5)%Q)); ("LAT"%string, (Some 0%Q)); ("LON"%string, (Some 0%Q)); ("SST"%string, (Some 3%Q))]) [("OSTIA"%string, (Some 5%Q)); ("BGVAR"%string, (Some 4%Q)); ("ICE"%string, (Some 0%Q))]); (with_exts (new_report (Some "AAAAAAAAA"%string) None [("YR"%string, (Some 2003%Q)); ("MO"%string, (Some 12%Q)); ("DY"%string, (Some 1%Q)); ("HR"%string, (Some (3 # 10)%Q)); ("LAT"%string, (Some 0%Q)); ("LON"%string, (Some 0%Q)); ("SST"%string, (Some 5%Q))]) [("OSTIA"%string, (Some 5%Q)); ("BGVAR"%string, (Some 4%Q)); ("ICE"%string, (Some 0%Q))]); (with_exts (new_report (Some "AAAAAAAAA"%string) None [("YR"%string, (Some 2003%Q)); ("MO"%string, (Some 12%Q)); ("DY"%string, (Some 1%Q)); ("HR"%string, (Some (2 # 5)%Q)); ("LAT"%string, (Some 0%Q)); ("LON"%string, (Some 0%Q)); ("SST"%string, (Some 7%Q))]) [("OSTIA"%string, (Some 5%Q)); ("BGVAR"%string, (Some 4%Q)); ("ICE"%string, (Some 0%Q))]); (with_exts (new_report (Some "AAAAAAAAA"%string) None [("YR"%string, (Some 2003%Q)); ("MO"%string, (Some 12%Q)); ("DY"%string, (Some 1%Q)); ("HR"%string, (Some (1 # 2)%Q)); ("LAT"%string, (Some 0%Q)); ("LON"%string, (Some 0%Q)); ("SST"%string, (Some 5%Q))]) [("OSTIA"%string, (Some 5%Q)); ("BGVAR"%string, (Some 4%Q)); ("ICE"%string, (Some 0%Q))]); (with_exts (new_report (Some "AAAAAAAAA"%string) None [("YR"%string, (Some 2003%Q)); ("MO"%string, (Some 12%Q)); ("DY"%string, (Some 1%Q)); ("HR"%string, (Some (3 # 5)%Q)); ("LAT"%string, (Some 0%Q)); ("LON"%string, (Some 0%Q)); ("SST"%string, (Some 3%Q))]) [("OSTIA"%string, (Some 5%Q)); ("BGVAR"%string, (Some 4%Q)); ("ICE"%string, (Some 0%Q))]); (with_exts (new_report (Some "AAAAAAAAA"%string) None [("YR"%string, (Some 2003%Q)); ("MO"%string, (Some 12%Q)); ("DY"%string, (Some 1%Q)); ("HR"%string, (Some (7 # 10)%Q)); ("LAT"%string, (Some 0%Q)); ("LON"%string, (Some 0%Q)); ("SST"%string, (Some 5%Q))]) [("OSTIA"%string, (Some 5%Q)); ("BGVAR"%string, (Some 4%Q)); ("ICE"%string, (Some 0%Q))]); (with_exts (new_report (Some "AAAAAAAAA"%string) None [("YR"%string, (Some 2003%Q)); ("MO"%string, (Some 12%Q)); ("DY"%string, (Some 1%Q)); ("HR"%string, (Some (4 # 5)%Q)); ("LAT"%string, (Some 0%Q)); ("LON"%string, (Some 0%Q)); ("SST"%string, (Some 7%Q))]) [("OSTIA"%string, (Some 5%Q)); ("BGVAR"%string, (Some 4%Q)); ("ICE"%string, (Some 0%Q))])]) (sst_biased_noisy_check n_elevation n_sqrt {| bs_eval := 9; bs_lim := (11 # 10); bs_intra := 1; bs_inter := (29 # 100); bs_n := 3; bs_bad := 2; bs_bg := 4 |})) in
  all [flags x1 "SST"%string "drf_bias"%string [0; 0; 0; 0; 0; 0; 0; 0; 0];
  flags x1 "SST"%string "drf_noise"%string [0; 0; 0; 0; 0; 0; 0; 0; 0];
  flags x1 "SST"%string "drf_short"%string [0; 0; 0; 0; 0; 0; 0; 0; 0]]).
Example TestTrackQC_biased_noisy_check_test_noisy_big_bgvar_is : TestTrackQC_biased_noisy_check_test_noisy_big_bgvar = true.
Proof. reflexivity. Qed.
Definition TestTrackQC_biased_noisy_check_test_short_record_two_bad_obs_missing_big_bgvar : bool := Eval vm_compute in (let x1 := (on (voyage_of [] [(with_exts (new_report (Some "AAAAAAAAA"%string) None [("YR"%string, (Some 2003%Q)); ("MO"%string, (Some 12%Q)); ("DY"%string, (Some 1%Q)); ("HR"%string, (Some 0%Q)); ("LAT"%string, (Some 0%Q)); ("LON"%string, (Some 0%Q)); ("SST"%string, (Some 5%Q))]) [("OSTIA"%string, None); ("BGVAR"%string, (Some 4%Q)); ("ICE"%string, (Some 0%Q))]); (with_exts (new_report (Some "AAAAAAAAA"%string) None [("YR"%string, (Some 2003%Q)); ("MO"%string, (Some 12%Q)); ("DY"%string, (Some 1%Q)); ("HR"%string, (Some (1 # 10)%Q)); ("LAT"%string, (Some 0%Q)); ("LON"%string, (Some 0%Q)); ("SST"%string, (Some 5%Q))]) [("OSTIA"%string, None); ("BGVAR"%string, (Some 4%Q)); ("ICE"%string, (Some 0%Q))]); (with_exts (new_report (Some "AAAAAAAAA"%string) None [("YR"%string, (Some 2003%Q)); ("MO"%string, (Some 12%Q)); ("DY"%string, (Some 1%Q)); ("HR"%string, (Some (1 # 5)%Q)); ("LAT"%string, (Some 0%Q)); ("LON"%string, (Some 0%Q)); ("SST"%string, (Some 9%Q))]) [("OSTIA"%string, (Some 5%Q)); ("BGVAR"%string, (Some 4%Q)); ("ICE"%string, (Some 0%Q))]); (with_exts (new_report (Some "AAAAAAAAA"%string) None [("YR"%string, (Some 2003%Q)); ("MO"%string, (Some 12%Q)); ("DY"%string, (Some 1%Q)); ("HR"%string, (Some (3 # 10)%Q)); ("LAT"%string, (Some 0%Q)); ("LON"%string, (Some 0%Q)); ("SST"%string, (Some 5%Q))]) [("OSTIA"%string, (Some 5%Q)); ("BGVAR"%string, (Some 4%Q)); ("ICE"%string, (Some 0%Q))]); (with_exts (new_report (Some "AAAAAAAAA"%string) None [("YR"%string, (Some 2003%Q)); ("MO"%string, (Some 12%Q)); ("DY"%string, (Some 1%Q)); ("HR"%string, (Some (2 # 5)%Q)); ("LAT"%string, (Some 0%Q)); ("LON"%string, (Some 0%Q)); ("SST"%string, (Some 9%Q))]) [("OSTIA"%string, (Some 5%Q)); ("BGVAR"%string, (Some 4%Q)); ("ICE"%string, (Some 0%Q))]); (with_exts (new_report (Some "AAAAAAAAA"%string) None [("YR"%string, (Some 2003%Q)); ("MO"%string, (Some 12%Q)); ("DY"%string, (Some 1%Q)); ("HR"%string, (Some (1 # 2)%Q)); ("LAT"%string, (Some 0%Q)); ("LON"%string, (Some 0%Q)); ("SST"%string, (Some 5%Q))]) [("OSTIA"%string, (Some 5%Q)); ("BGVAR"%string, (Some 4%Q)); ("ICE"%string, (Some 0%Q))]); (with_exts (new_report (Some "AAAAAAAAA"%string) None [("YR"%string, (Some 2003%Q)); ("MO"%string, (Some 12%Q)); ("DY"%string, (Some 1%Q)); ("HR"%string, (Some (3 # 5)%Q)); ("LAT"%string, (Some 0%Q)); ("LON"%string, (Some 0%Q)); ("SST"%string, (Some 5%Q))]) [("OSTIA"%string, (Some 5%Q)); ("BGVAR"%string, (Some 4%Q)); ("ICE"%string, (Some 0%Q))]); (with_exts (new_report (Some "AAAAAAAAA"%string) None [("YR"%string, (Some 2003%Q)); ("MO"%string, (Some 12%Q)); ("DY"%string, (Some 1%Q)); ("HR"%string, (Some (7 # 10)%Q)); ("LAT"%string, (Some 0%Q)); ("LON"%string, (Some 0%Q)); ("SST"%string, (Some 5%Q))]) [("OSTIA"%string, None); ("BGVAR"%string, (Some 4%Q)); ("ICE"%string, (Some 0%Q))]); (with_exts (new_report (Some "AAAAAAAAA"%string) None [("YR"%string, (Some 2003%Q)); ("MO"%string, (Some 12%Q)); ("DY"%string, (Some 1%Q)); ("HR"%string, (Some (4 # 5)%Q)); ("LAT"%string, (Some 0%Q)); ("LON"%string, (Some 0%Q)); ("SST"%string, (Some 5%Q))]) [("OSTIA"%string, None); ("BGVAR"%string, (Some 4%Q)); ("ICE"%string, (Some 0%Q))])]) (sst_biased_noisy_check n_elevation n_sqrt {| bs_eval := 9; bs_lim := (11 # 10); bs_intra := 1; bs_inter := (29 # 100); bs_n := 3; bs_bad := 2; bs_bg := 4 |})) in
  all [flags x1 "SST"%string "drf_bias"%string [0; 0; 0; 0; 0; 0; 0; 0; 0];
  flags x1 "SST"%string "drf_noise"%string [0; 0; 0; 0; 0; 0; 0; 0; 0];
  flags x1 "SST"%string "drf_short"%string [0; 0; 0; 0; 0; 0; 0; 0; 0]]).
Example TestTrackQC_biased_noisy_check_test_short_record_two_bad_obs_missing_big_bgvar_is : TestTrackQC_biased_noisy_check_test_short_record_two_bad_obs_missing_big_bgvar = true.
Proof. reflexivity. Qed.
Definition TestTrackQC_biased_noisy_check_test_error_bad_input_parameter : bool := Eval vm_compute in (all [asserts (rs (fun _ => VNone) (on (voyage_of [] [(with_exts (new_report (Some "AAAAAAAAA"%string) None [("YR"%string, (Some 2003%Q)); ("MO"%string, (Some 12%Q)); ("DY"%string, (Some 1%Q)); ("HR"%string, (Some 0%Q)); ("LAT"%string, (Some 0%Q)); ("LON"%string, (Some 0%Q)); ("SST"%string, (Some 5%Q))]) [("OSTIA"%string, (Some 5%Q)); ("BGVAR"%string, (Some (1 # 100)%Q)); ("ICE"%string, (Some 0%Q))]); (with_exts (new_report (Some "AAAAAAAAA"%string) None [("YR"%string, (Some 2003%Q)); ("MO"%string, (Some 12%Q)); ("DY"%string, (Some 1%Q)); ("HR"%string, (Some (1 # 10)%Q)); ("LAT"%string, (Some 0%Q)); ("LON"%string, (Some 0%Q)); ("SST"%string, (Some 5%Q))]) [("OSTIA"%string, (Some 5%Q)); ("BGVAR"%string, (Some (1 # 100)%Q)); ("ICE"%string, (Some 0%Q))]); (with_exts (new_report (Some "AAAAAAAAA"%string) None [("YR"%string, (Some 2003%Q)); ("MO"%string, (Some 12%Q)); ("DY"%string, (Some 1%Q)); ("HR"%string, (Some (1 # 5)%Q)); ("LAT"%string, (Some 0%Q)); ("LON"%string, (Some 0%Q)); ("SST"%string, (Some 5%Q))]) [("OSTIA"%string, (Some 5%Q)); ("BGVAR"%string, (Some (1 # 100)%Q)); ("ICE"%string, (Some 0%Q))]); (with_exts (new_report (Some "AAAAAAAAA"%string) None [("YR"%string, (Some 2003%Q)); ("MO"%string, (Some 12%Q)); ("DY"%string, (Some 1%Q)); ("HR"%string, (Some (3 # 10)%Q)); ("LAT"%string, (Some 0%Q)); ("LON"%string, (Some 0%Q)); ("SST"%string, (Some 5%Q))]) [("OSTIA"%string, (Some 5%Q)); ("BGVAR"%string, (Some (1 # 100)%Q)); ("ICE"%string, (Some 0%Q))]); (with_exts (new_report (Some "AAAAAAAAA"%string) None [("YR"%string, (Some 2003%Q)); ("MO"%string, (Some 12%Q)); ("DY"%string, (Some 1%Q)); ("HR"%string, (Some (2 # 5)%Q)); ("LAT"%string, (Some 0%Q)); ("LON"%string, (Some 0%Q)); ("SST"%string, (Some 5%Q))]) [("OSTIA"%string, (Some 5%Q)); ("BGVAR"%string, (Some (1 # 100)%Q)); ("ICE"%string, (Some 0%Q))]); (with_exts (new_report (Some "AAAAAAAAA"%string) None [("YR"%string, (Some 2003%Q)); ("MO"%string, (Some 12%Q)); ("DY"%string, (Some 1%Q)); ("HR"%string, (Some (1 # 2)%Q)); ("LAT"%string, (Some 0%Q)); ("LON"%string, (Some 0%Q)); ("SST"%string, (Some 5%Q))]) [("OSTIA"%string, (Some 5%Q)); ("BGVAR"%string, (Some (1 # 100)%Q)); ("ICE"%string, (Some 0%Q))]); (with_exts (new_report (Some "AAAAAAAAA"%string) None [("YR"%string, (Some 2003%Q)); ("MO"%string, (Some 12%Q)); ("DY"%string, (Some 1%Q)); ("HR"%string, (Some (3 # 5)%Q)); ("LAT"%string, (Some 0%Q)); ("LON"%string, (Some 0%Q)); ("SST"%string, (Some 5%Q))]) [("OSTIA"%string, (Some 5%Q)); ("BGVAR"%string, (Some (1 # 100)%Q)); ("ICE"%string, (Some 0%Q))]); (with_exts (new_report (Some "AAAAAAAAA"%string) None [("YR"%string, (Some 2003%Q)); ("MO"%string, (Some 12%Q)); ("DY"%string, (Some 1%Q)); ("HR"%string, (Some (7 # 10)%Q)); ("LAT"%string, (Some 0%Q)); ("LON"%string, (Some 0%Q)); ("SST"%string, (Some 5%Q))]) [("OSTIA"%string, (Some 5%Q)); ("BGVAR"%string, (Some (1 # 100)%Q)); ("ICE"%string, (Some 0%Q))]); (with_exts (new_report (Some "AAAAAAAAA"%string) None [("YR"%string, (Some 2003%Q)); ("MO"%string, (Some 12%Q)); ("DY"%string, (Some 1%Q)); ("HR"%string, (Some (4 # 5)%Q)); ("LAT"%string, (Some 0%Q)); ("LON"%string, (Some 0%Q)); ("SST"%string, (Some 5%Q))]) [("OSTIA"%string, (Some 5%Q)); ("BGVAR"%string, (Some (1 # 100)%Q)); ("ICE"%string, (Some 0%Q))])]) (sst_biased_noisy_check n_elevation n_sqrt {| bs_eval := 0; bs_lim := (11 # 10); bs_intra := 1; bs_inter := (29 # 100); bs_n := 3; bs_bad := 2; bs_bg := (3 # 10) |})))]).
Example TestTrackQC_biased_noisy_check_test_error_bad_input_parameter_is : TestTrackQC_biased_noisy_check_test_error_bad_input_parameter = true.
Proof. reflexivity. Qed.
Definition TestTrackQC_biased_noisy_check_test_error_missing_matched_value : bool := Eval vm_compute in (all [asserts (rs (fun _ => VNone) (on (voyage_of [] [(with_exts (new_report (Some "AAAAAAAAA"%string) None [("YR"%string, (Some 2003%Q)); ("MO"%string, (Some 12%Q)); ("DY"%string, (Some 1%Q)); ("HR"%string, (Some 0%Q)); ("LAT"%string, (Some 0%Q)); ("LON"%string, (Some 0%Q)); ("SST"%string, (Some 5%Q))]) [("BGVAR"%string, (Some (1 # 100)%Q)); ("ICE"%string, (Some 0%Q))]); (with_exts (new_report (Some "AAAAAAAAA"%string) None [("YR"%string, (Some 2003%Q)); ("MO"%string, (Some 12%Q)); ("DY"%string, (Some 1%Q)); ("HR"%string, (Some (1 # 10)%Q)); ("LAT"%string, (Some 0%Q)); ("LON"%string, (Some 0%Q)); ("SST"%string, (Some 5%Q))]) [("BGVAR"%string, (Some (1 # 100)%Q)); ("ICE"%string, (Some 0%Q))]); (with_exts (new_report (Some "AAAAAAAAA"%string) None [("YR"%string, (Some 2003%Q)); ("MO"%string, (Some 12%Q)); ("DY"%string, (Some 1%Q)); ("HR"%string, (Some (1 # 5)%Q)); ("LAT"%string, (Some 0%Q)); ("LON"%string, (Some 0%Q)); ("SST"%string, (Some 5%Q))]) [("BGVAR"%string, (Some (1 # 100)%Q)); ("ICE"%string, (Some 0%Q))]); (with_exts (new_report (Some "AAAAAAAAA"%string) None [("YR"%string, (Some 2003%Q)); ("MO"%string, (Some 12%Q)); ("DY"%string, (Some 1%Q)); ("HR"%string, (Some (3 # 10)%Q)); ("LAT"%string, (Some 0%Q)); ("LON"%string, (Some 0%Q)); ("SST"%string, (Some 5%Q))]) [("BGVAR"%string, (Some (1 # 100)%Q)); ("ICE"%string, (Some 0%Q))]); (with_exts (new_report (Some "AAAAAAAAA"%string) None [("YR"%string, (Some 2003%Q)); ("MO"%string, (Some 12%Q)); ("DY"%string, (Some 1%Q)); ("HR"%string, (Some (2 # 5)%Q)); ("LAT"%string, (Some 0%Q)); ("LON"%string, (Some 0%Q)); ("SST"%string, (Some 5%Q))]) [("BGVAR"%string, (Some (1 # 100)%Q)); ("ICE"%string, (Some 0%Q))]); (with_exts (new_report (Some "AAAAAAAAA"%string) None [("YR"%string, (Some 2003%Q)); ("MO"%string, (Some 12%Q)); ("DY"%string, (Some 1%Q)); ("HR"%string, (Some (1 # 2)%Q)); ("LAT"%string, (Some 0%Q)); ("LON"%string, (Some 0%Q)); ("SST"%string, (Some 5%Q))]) [("BGVAR"%string, (Some (1 # 100)%Q)); ("ICE"%string, (Some 0%Q))]); (with_exts (new_report (Some "AAAAAAAAA"%string) None [("YR"%string, (Some 2003%Q)); ("MO"%string, (Some 12%Q)); ("DY"%string, (Some 1%Q)); ("HR"%string, (Some (3 # 5)%Q)); ("LAT"%string, (Some 0%Q)); ("LON"%string, (Some 0%Q)); ("SST"%string, (Some 5%Q))]) [("BGVAR"%string, (Some (1 # 100)%Q)); ("ICE"%string, (Some 0%Q))]); (with_exts (new_report (Some "AAAAAAAAA"%string) None [("YR"%string, (Some 2003%Q)); ("MO"%string, (Some 12%Q)); ("DY"%string, (Some 1%Q)); ("HR"%string, (Some (7 # 10)%Q)); ("LAT"%string, (Some 0%Q)); ("LON"%string, (Some 0%Q)); ("SST"%string, (Some 5%Q))]) [("BGVAR"%string, (Some (1 # 100)%Q)); ("ICE"%string, (Some 0%Q))]); (with_exts (new_report (Some "AAAAAAAAA"%string) None [("YR"%string, (Some 2003%Q)); ("MO"%string, (Some 12%Q)); ("DY"%string, (Some 1%Q)); ("HR"%string, (Some (4 # 5)%Q)); ("LAT"%string, (Some 0%Q)); ("LON"%string, (Some 0%Q)); ("SST"%string, (Some 5%Q))]) [("BGVAR"%string, (Some (1 # 100)%Q)); ("ICE"%string, (Some 0%Q))])]) (sst_biased_noisy_check n_elevation n_sqrt {| bs_eval := 9; bs_lim := (11 # 10); bs_intra := 1; bs_inter := (29 # 100); bs_n := 3; bs_bad := 2; bs_bg := (3 # 10) |})))]).
Example TestTrackQC_biased_noisy_check_test_error_missing_matched_value_is : TestTrackQC_biased_noisy_check_test_error_missing_matched_value = true.
Proof. reflexivity. Qed.
Definition TestTrackQC_biased_noisy_check_test_error_invalid_ice_value : bool := Eval vm_compute in (all [asserts (rs (fun _ => VNone) (on (voyage_of [] [(with_exts (new_report (Some "AAAAAAAAA"%string) None [("YR"%string, (Some 2003%Q)); ("MO"%string, (Some 12%Q)); ("DY"%string, (Some 1%Q)); ("HR"%string, (Some 0%Q)); ("LAT"%string, (Some 0%Q)); ("LON"%string, (Some 0%Q)); ("SST"%string, (Some 5%Q))]) [("OSTIA"%string, (Some 5%Q)); ("BGVAR"%string, (Some (1 # 100)%Q)); ("ICE"%string, (Some (11 # 10)%Q))]); (with_exts (new_report (Some "AAAAAAAAA"%string) None [("YR"%string, (Some 2003%Q)); ("MO"%string, (Some 12%Q)); ("DY"%string, (Some 1%Q)); ("HR"%string, (Some (1 # 10)%Q)); ("LAT"%string, (Some 0%Q)); ("LON"%string, (Some 0%Q)); ("SST"%string, (Some 5%Q))]) [("OSTIA"%string, (Some 5%Q)); ("BGVAR"%string, (Some (1 # 100)%Q)); ("ICE"%string, (Some 0%Q))]); (with_exts (new_report (Some "AAAAAAAAA"%string) None [("YR"%string, (Some 2003%Q)); ("MO"%string, (Some 12%Q)); ("DY"%string, (Some 1%Q)); ("HR"%string, (Some (1 # 5)%Q)); ("LAT"%string, (Some 0%Q)); ("LON"%string, (Some 0%Q)); ("SST"%string, (Some 5%Q))]) [("OSTIA"%string, (Some 5%Q)); ("BGVAR"%string, (Some (1 # 100)%Q)); ("ICE"%string, (Some 0%Q))]); (with_exts (new_report (Some "AAAAAAAAA"%string) None [("YR"%string, (Some 2003%Q)); ("MO"%string, (Some 12%Q)); ("DY"%string, (Some 1%Q)); ("HR"%string, (Some (3 # 10)%Q)); ("LAT"%string, (Some 0%Q)); ("LON"%string, (Some 0%Q)); ("SST"%string, (Some 5%Q))]) [("OSTIA"%string, (Some 5%Q)); ("BGVAR"%string, (Some (1 # 100)%Q)); ("ICE"%string, (Some 0%Q))]); (with_exts (new_report (Some "AAAAAAAAA"%string) None [("YR"%string, (Some 2003%Q)); ("MO"%string, (Some 12%Q)); ("DY"%string, (Some 1%Q)); ("HR"%string, (Some (2 # 5)%Q)); ("LAT"%string, (Some 0%Q)); ("LON"%string, (Some 0%Q)); ("SST"%string, (Some 5%Q))]) [("OSTIA"%string, (Some 5%Q)); ("BGVAR"%string, (Some (1 # 100)%Q)); ("ICE"%string, (Some 0%Q))]); (with_exts (new_report (Some "AAAAAAAAA"%string) None [("YR"%string, (Some 2003%Q)); ("MO"%string, (Some 12%Q)); ("DY"%string, (Some 1%Q)); ("HR"%string, (Some (1 # 2)%Q)); ("LAT"%string, (Some 0%Q)); ("LON"%string, (Some 0%Q)); ("SST"%string, (Some 5%Q))]) [("OSTIA"%string, (Some 5%Q)); ("BGVAR"%string, (Some (1 # 100)%Q)); ("ICE"%string, (Some 0%Q))]); (with_exts (new_report (Some "AAAAAAAAA"%string) None [("YR"%string, (Some 2003%Q)); ("MO"%string, (Some 12%Q)); ("DY"%string, (Some 1%Q)); ("HR"%string, (Some (3 # 5)%Q)); ("LAT"%string, (Some 0%Q)); ("LON"%string, (Some 0%Q)); ("SST"%string, (Some 5%Q))]) [("OSTIA"%string, (Some 5%Q)); ("BGVAR"%string, (Some (1 # 100)%Q)); ("ICE"%string, (Some 0%Q))]); (with_exts (new_report (Some "AAAAAAAAA"%string) None [("YR"%string, (Some 2003%Q)); ("MO"%string, (Some 12%Q)); ("DY"%string, (Some 1%Q)); ("HR"%string, (Some (7 # 10)%Q)); ("LAT"%string, (Some 0%Q)); ("LON"%string, (Some 0%Q)); ("SST"%string, (Some 5%Q))]) [("OSTIA"%string, (Some 5%Q)); ("BGVAR"%string, (Some (1 # 100)%Q)); ("ICE"%string, (Some 0%Q))]); (with_exts (new_report (Some "AAAAAAAAA"%string) None [("YR"%string, (Some 2003%Q)); ("MO"%string, (Some 12%Q)); ("DY"%string, (Some 1%Q)); ("HR"%string, (Some (4 # 5)%Q)); ("LAT"%string, (Some 0%Q)); ("LON"%string, (Some 0%Q)); ("SST"%string, (Some 5%Q))]) [("OSTIA"%string, (Some 5%Q)); ("BGVAR"%string, (Some (1 # 100)%Q)); ("ICE"%string, (Some 0%Q))])]) (sst_biased_noisy_check n_elevation n_sqrt {| bs_eval := 9; bs_lim := (11 # 10); bs_intra := 1; bs_inter := (29 # 100); bs_n := 3; bs_bad := 2; bs_bg := (3 # 10) |})))]).
Example TestTrackQC_biased_noisy_check_test_error_invalid_ice_value_is : TestTrackQC_biased_noisy_check_test_error_invalid_ice_value = true.
Proof. reflexivity. Qed.
Definition TestTrackQC_biased_noisy_check_test_error_missing_ob_value : bool := Eval vm_compute in (all [asserts (rs (fun _ => VNone) (on (on (voyage_of [] [(with_exts (new_report (Some "AAAAAAAAA"%string) None [("YR"%string, (Some 2003%Q)); ("MO"%string, (Some 12%Q)); ("DY"%string, (Some 1%Q)); ("HR"%string, (Some 0%Q)); ("LAT"%string, (Some 0%Q)); ("LON"%string, (Some 0%Q)); ("SST"%string, (Some 5%Q))]) [("OSTIA"%string, (Some 5%Q)); ("BGVAR"%string, (Some (1 # 100)%Q)); ("ICE"%string, (Some 0%Q))]); (with_exts (new_report (Some "AAAAAAAAA"%string) None [("YR"%string, (Some 2003%Q)); ("MO"%string, (Some 12%Q)); ("DY"%string, (Some 1%Q)); ("HR"%string, (Some (1 # 10)%Q)); ("LAT"%string, (Some 0%Q)); ("LON"%string, (Some 0%Q)); ("SST"%string, (Some 5%Q))]) [("OSTIA"%string, (Some 5%Q)); ("BGVAR"%string, (Some (1 # 100)%Q)); ("ICE"%string, (Some 0%Q))]); (with_exts (new_report (Some "AAAAAAAAA"%string) None [("YR"%string, (Some 2003%Q)); ("MO"%string, (Some 12%Q)); ("DY"%string, (Some 1%Q)); ("HR"%string, (Some (1 # 5)%Q)); ("LAT"%string, (Some 0%Q)); ("LON"%string, (Some 0%Q)); ("SST"%string, (Some 5%Q))]) [("OSTIA"%string, (Some 5%Q)); ("BGVAR"%string, (Some (1 # 100)%Q)); ("ICE"%string, (Some 0%Q))]); (with_exts (new_report (Some "AAAAAAAAA"%string) None [("YR"%string, (Some 2003%Q)); ("MO"%string, (Some 12%Q)); ("DY"%string, (Some 1%Q)); ("HR"%string, (Some (3 # 10)%Q)); ("LAT"%string, (Some 0%Q)); ("LON"%string, (Some 0%Q)); ("SST"%string, (Some 5%Q))]) [("OSTIA"%string, (Some 5%Q)); ("BGVAR"%string, (Some (1 # 100)%Q)); ("ICE"%string, (Some 0%Q))]); (with_exts (new_report (Some "AAAAAAAAA"%string) None [("YR"%string, (Some 2003%Q)); ("MO"%string, (Some 12%Q)); ("DY"%string, (Some 1%Q)); ("HR"%string, (Some (2 # 5)%Q)); ("LAT"%string, (Some 0%Q)); ("LON"%string, (Some 0%Q)); ("SST"%string, (Some 5%Q))]) [("OSTIA"%string, (Some 5%Q)); ("BGVAR"%string, (Some (1 # 100)%Q)); ("ICE"%string, (Some 0%Q))]); (with_exts (new_report (Some "AAAAAAAAA"%string) None [("YR"%string, (Some 2003%Q)); ("MO"%string, (Some 12%Q)); ("DY"%string, (Some 1%Q)); ("HR"%string, (Some (1 # 2)%Q)); ("LAT"%string, (Some 0%Q)); ("LON"%string, (Some 0%Q)); ("SST"%string, (Some 5%Q))]) [("OSTIA"%string, (Some 5%Q)); ("BGVAR"%string, (Some (1 # 100)%Q)); ("ICE"%string, (Some 0%Q))]); (with_exts (new_report (Some "AAAAAAAAA"%string) None [("YR"%string, (Some 2003%Q)); ("MO"%string, (Some 12%Q)); ("DY"%string, (Some 1%Q)); ("HR"%string, (Some (3 # 5)%Q)); ("LAT"%string, (Some 0%Q)); ("LON"%string, (Some 0%Q)); ("SST"%string, (Some 5%Q))]) [("OSTIA"%string, (Some 5%Q)); ("BGVAR"%string, (Some (1 # 100)%Q)); ("ICE"%string, (Some 0%Q))]); (with_exts (new_report (Some "AAAAAAAAA"%string) None [("YR"%string, (Some 2003%Q)); ("MO"%string, (Some 12%Q)); ("DY"%string, (Some 1%Q)); ("HR"%string, (Some (7 # 10)%Q)); ("LAT"%string, (Some 0%Q)); ("LON"%string, (Some 0%Q)); ("SST"%string, (Some 5%Q))]) [("OSTIA"%string, (Some 5%Q)); ("BGVAR"%string, (Some (1 # 100)%Q)); ("ICE"%string, (Some 0%Q))]); (with_exts (new_report (Some "AAAAAAAAA"%string) None [("YR"%string, (Some 2003%Q)); ("MO"%string, (Some 12%Q)); ("DY"%string, (Some 1%Q)); ("HR"%string, (Some (4 # 5)%Q)); ("LAT"%string, (Some 0%Q)); ("LON"%string, (Some 0%Q)); ("SST"%string, (Some 5%Q))]) [("OSTIA"%string, (Some 5%Q)); ("BGVAR"%string, (Some (1 # 100)%Q)); ("ICE"%string, (Some 0%Q))])]) (fun v => setvar_at v 1 "LAT"%string None)) (sst_biased_noisy_check n_elevation n_sqrt {| bs_eval := 9; bs_lim := (11 # 10); bs_intra := 1; bs_inter := (29 # 100); bs_n := 3; bs_bad := 2; bs_bg := (3 # 10) |})))]).
Example TestTrackQC_biased_noisy_check_test_error_missing_ob_value_is : TestTrackQC_biased_noisy_check_test_error_missing_ob_value = true.
Proof. reflexivity. Qed.
Definition TestTrackQC_biased_noisy_check_test_error_not_time_sorted : bool := Eval vm_compute in (all [asserts (rs (fun _ => VNone) (on (voyage_of [] [(with_exts (new_report (Some "AAAAAAAAA"%string) None [("YR"%string, (Some 2003%Q)); ("MO"%string, (Some 12%Q)); ("DY"%string, (Some 1%Q)); ("HR"%string, (Some 0%Q)); ("LAT"%string, (Some 0%Q)); ("LON"%string, (Some 0%Q)); ("SST"%string, (Some 5%Q))]) [("OSTIA"%string, (Some 5%Q)); ("BGVAR"%string, (Some (1 # 100)%Q)); ("ICE"%string, (Some 0%Q))]); (with_exts (new_report (Some "AAAAAAAAA"%string) None [("YR"%string, (Some 2003%Q)); ("MO"%string, (Some 12%Q)); ("DY"%string, (Some 1%Q)); ("HR"%string, (Some (1 # 10)%Q)); ("LAT"%string, (Some 0%Q)); ("LON"%string, (Some 0%Q)); ("SST"%string, (Some 5%Q))]) [("OSTIA"%string, (Some 5%Q)); ("BGVAR"%string, (Some (1 # 100)%Q)); ("ICE"%string, (Some 0%Q))]); (with_exts (new_report (Some "AAAAAAAAA"%string) None [("YR"%string, (Some 2003%Q)); ("MO"%string, (Some 12%Q)); ("DY"%string, (Some 1%Q)); ("HR"%string, (Some (1 # 5)%Q)); ("LAT"%string, (Some 0%Q)); ("LON"%string, (Some 0%Q)); ("SST"%string, (Some 5%Q))]) [("OSTIA"%string, (Some 5%Q)); ("BGVAR"%string, (Some (1 # 100)%Q)); ("ICE"%string, (Some 0%Q))]); (with_exts (new_report (Some "AAAAAAAAA"%string) None [("YR"%string, (Some 2003%Q)); ("MO"%string, (Some 12%Q)); ("DY"%string, (Some 1%Q)); ("HR"%string, (Some (1 # 10)%Q)); ("LAT"%string, (Some 0%Q)); ("LON"%string, (Some 0%Q)); ("SST"%string, (Some 5%Q))]) [("OSTIA"%string, (Some 5%Q)); ("BGVAR"%string, (Some (1 # 100)%Q)); ("ICE"%string, (Some 0%Q))]); (with_exts (new_report (Some "AAAAAAAAA"%string) None [("YR"%string, (Some 2003%Q)); ("MO"%string, (Some 12%Q)); ("DY"%string, (Some 1%Q)); ("HR"%string, (Some (2 # 5)%Q)); ("LAT"%string, (Some 0%Q)); ("LON"%string, (Some 0%Q)); ("SST"%string, (Some 5%Q))]) [("OSTIA"%string, (Some 5%Q)); ("BGVAR"%string, (Some (1 # 100)%Q)); ("ICE"%string, (Some 0%Q))]); (with_exts (new_report (Some "AAAAAAAAA"%string) None [("YR"%string, (Some 2003%Q)); ("MO"%string, (Some 12%Q)); ("DY"%string, (Some 1%Q)); ("HR"%string, (Some (1 # 2)%Q)); ("LAT"%string, (Some 0%Q)); ("LON"%string, (Some 0%Q)); ("SST"%string, (Some 5%Q))]) [("OSTIA"%string, (Some 5%Q)); ("BGVAR"%string, (Some (1 # 100)%Q)); ("ICE"%string, (Some 0%Q))]); (with_exts (new_report (Some "AAAAAAAAA"%string) None [("YR"%string, (Some 2003%Q)); ("MO"%string, (Some 12%Q)); ("DY"%string, (Some 1%Q)); ("HR"%string, (Some (3 # 5)%Q)); ("LAT"%string, (Some 0%Q)); ("LON"%string, (Some 0%Q)); ("SST"%string, (Some 5%Q))]) [("OSTIA"%string, (Some 5%Q)); ("BGVAR"%string, (Some (1 # 100)%Q)); ("ICE"%string, (Some 0%Q))]); (with_exts (new_report (Some "AAAAAAAAA"%string) None [("YR"%string, (Some 2003%Q)); ("MO"%string, (Some 12%Q)); ("DY"%string, (Some 1%Q)); ("HR"%string, (Some (7 # 10)%Q)); ("LAT"%string, (Some 0%Q)); ("LON"%string, (Some 0%Q)); ("SST"%string, (Some 5%Q))]) [("OSTIA"%string, (Some 5%Q)); ("BGVAR"%string, (Some (1 # 100)%Q)); ("ICE"%string, (Some 0%Q))]); (with_exts (new_report (Some "AAAAAAAAA"%string) None [("YR"%string, (Some 2003%Q)); ("MO"%string, (Some 12%Q)); ("DY"%string, (Some 1%Q)); ("HR"%string, (Some (4 # 5)%Q)); ("LAT"%string, (Some 0%Q)); ("LON"%string, (Some 0%Q)); ("SST"%string, (Some 5%Q))]) [("OSTIA"%string, (Some 5%Q)); ("BGVAR"%string, (Some (1 # 100)%Q)); ("ICE"%string, (Some 0%Q))])]) (sst_biased_noisy_check n_elevation n_sqrt {| bs_eval := 9; bs_lim := (11 # 10); bs_intra := 1; bs_inter := (29 # 100); bs_n := 3; bs_bad := 2; bs_bg := (3 # 10) |})))]).
Example TestTrackQC_biased_noisy_check_test_error_not_time_sorted_is : TestTrackQC_biased_noisy_check_test_error_not_time_sorted = true.
Proof. reflexivity. Qed.
Definition TestTrackQC_biased_noisy_check_test_error_invalid_background : bool := Eval vm_compute in (all [asserts (rs (fun _ => VNone) (on (voyage_of [] [(with_exts (new_report (Some "AAAAAAAAA"%string) None [("YR"%string, (Some 2003%Q)); ("MO"%string, (Some 12%Q)); ("DY"%string, (Some 1%Q)); ("HR"%string, (Some 0%Q)); ("LAT"%string, (Some 0%Q)); ("LON"%string, (Some 0%Q)); ("SST"%string, (Some 5%Q))]) [("OSTIA"%string, (Some 5%Q)); ("BGVAR"%string, (Some (1 # 100)%Q)); ("ICE"%string, (Some 0%Q))]); (with_exts (new_report (Some "AAAAAAAAA"%string) None [("YR"%string, (Some 2003%Q)); ("MO"%string, (Some 12%Q)); ("DY"%string, (Some 1%Q)); ("HR"%string, (Some (1 # 10)%Q)); ("LAT"%string, (Some 0%Q)); ("LON"%string, (Some 0%Q)); ("SST"%string, (Some 5%Q))]) [("OSTIA"%string, (Some 5%Q)); ("BGVAR"%string, (Some (1 # 100)%Q)); ("ICE"%string, (Some 0%Q))]); (with_exts (new_report (Some "AAAAAAAAA"%string) None [("YR"%string, (Some 2003%Q)); ("MO"%string, (Some 12%Q)); ("DY"%string, (Some 1%Q)); ("HR"%string, (Some (1 # 5)%Q)); ("LAT"%string, (Some 0%Q)); ("LON"%string, (Some 0%Q)); ("SST"%string, (Some 5%Q))]) [("OSTIA"%string, (Some 5%Q)); ("BGVAR"%string, (Some (1 # 100)%Q)); ("ICE"%string, (Some 0%Q))]); (with_exts (new_report (Some "AAAAAAAAA"%string) None [("YR"%string, (Some 2003%Q)); ("MO"%string, (Some 12%Q)); ("DY"%string, (Some 1%Q)); ("HR"%string, (Some (3 # 10)%Q)); ("LAT"%string, (Some 0%Q)); ("LON"%string, (Some 0%Q)); ("SST"%string, (Some 5%Q))]) [("OSTIA"%string, (Some 5%Q)); ("BGVAR"%string, (Some (1 # 100)%Q)); ("ICE"%string, (Some 0%Q))]); (with_exts (new_report (Some "AAAAAAAAA"%string) None [("YR"%string, (Some 2003%Q)); ("MO"%string, (Some 12%Q)); ("DY"%string, (Some 1%Q)); ("HR"%string, (Some (2 # 5)%Q)); ("LAT"%string, (Some 0%Q)); ("LON"%string, (Some 0%Q)); ("SST"%string, (Some 5%Q))]) [("OSTIA"%string, (Some 5%Q)); ("BGVAR"%string, (Some (1 # 100)%Q)); ("ICE"%string, (Some 0%Q))]); (with_exts (new_report (Some "AAAAAAAAA"%string) None [("YR"%string, (Some 2003%Q)); ("MO"%string, (Some 12%Q)); ("DY"%string, (Some 1%Q)); ("HR"%string, (Some (1 # 2)%Q)); ("LAT"%string, (Some 0%Q)); ("LON"%string, (Some 0%Q)); ("SST"%string, (Some 5%Q))]) [("OSTIA"%string, (Some 5%Q)); ("BGVAR"%string, (Some (1 # 100)%Q)); ("ICE"%string, (Some 0%Q))]); (with_exts (new_report (Some "AAAAAAAAA"%string) None [("YR"%string, (Some 2003%Q)); ("MO"%string, (Some 12%Q)); ("DY"%string, (Some 1%Q)); ("HR"%string, (Some (3 # 5)%Q)); ("LAT"%string, (Some 0%Q)); ("LON"%string, (Some 0%Q)); ("SST"%string, (Some 5%Q))]) [("OSTIA"%string, (Some 5%Q)); ("BGVAR"%string, (Some (1 # 100)%Q)); ("ICE"%string, (Some 0%Q))]); (with_exts (new_report (Some "AAAAAAAAA"%string) None [("YR"%string, (Some 2003%Q)); ("MO"%string, (Some 12%Q)); ("DY"%string, (Some 1%Q)); ("HR"%string, (Some (7 # 10)%Q)); ("LAT"%string, (Some 0%Q)); ("LON"%string, (Some 0%Q)); ("SST"%string, (Some 5%Q))]) [("OSTIA"%string, (Some 5%Q)); ("BGVAR"%string, (Some (1 # 100)%Q)); ("ICE"%string, (Some 0%Q))]); (with_exts (new_report (Some "AAAAAAAAA"%string) None [("YR"%string, (Some 2003%Q)); ("MO"%string, (Some 12%Q)); ("DY"%string, (Some 1%Q)); ("HR"%string, (Some (4 # 5)%Q)); ("LAT"%string, (Some 0%Q)); ("LON"%string, (Some 0%Q)); ("SST"%string, (Some 5%Q))]) [("OSTIA"%string, (Some 46%Q)); ("BGVAR"%string, (Some (1 # 100)%Q)); ("ICE"%string, (Some 0%Q))])]) (sst_biased_noisy_check n_elevation n_sqrt {| bs_eval := 9; bs_lim := (11 # 10); bs_intra := 1; bs_inter := (29 # 100); bs_n := 3; bs_bad := 2; bs_bg := (3 # 10) |})))]).
Example TestTrackQC_biased_noisy_check_test_error_invalid_background_is : TestTrackQC_biased_noisy_check_test_error_invalid_background = true.
Proof. reflexivity. Qed.
Definition TestTrackQC_biased_noisy_check_test_error_invalid_background_error_variance : bool := Eval vm_compute in (all [asserts (rs (fun _ => VNone) (on (voyage_of [] [(with_exts (new_report (Some "AAAAAAAAA"%string) None [("YR"%string, (Some 2003%Q)); ("MO"%string, (Some 12%Q)); ("DY"%string, (Some 1%Q)); ("HR"%string, (Some 0%Q)); ("LAT"%string, (Some 0%Q)); ("LON"%string, (Some 0%Q)); ("SST"%string, (Some 5%Q))]) [("OSTIA"%string, (Some 5%Q)); ("BGVAR"%string, (Some (1 # 100)%Q)); ("ICE"%string, (Some 0%Q))]); (with_exts (new_report (Some "AAAAAAAAA"%string) None [("YR"%string, (Some 2003%Q)); ("MO"%string, (Some 12%Q)); ("DY"%string, (Some 1%Q)); ("HR"%string, (Some (1 # 10)%Q)); ("LAT"%string, (Some 0%Q)); ("LON"%string, (Some 0%Q)); ("SST"%string, (Some 5%Q))]) [("OSTIA"%string, (Some 5%Q)); ("BGVAR"%string, (Some (1 # 100)%Q)); ("ICE"%string, (Some 0%Q))]); (with_exts (new_report (Some "AAAAAAAAA"%string) None [("YR"%string, (Some 2003%Q)); ("MO"%string, (Some 12%Q)); ("DY"%string, (Some 1%Q)); ("HR"%string, (Some (1 # 5)%Q)); ("LAT"%string, (Some 0%Q)); ("LON"%string, (Some 0%Q)); ("SST"%string, (Some 5%Q))]) [("OSTIA"%string, (Some 5%Q)); ("BGVAR"%string, (Some (1 # 100)%Q)); ("ICE"%string, (Some 0%Q))]); (with_exts (new_report (Some "AAAAAAAAA"%string) None [("YR"%string, (Some 2003%Q)); ("MO"%string, (Some 12%Q)); ("DY"%string, (Some 1%Q)); ("HR"%string, (Some (3 # 10)%Q)); ("LAT"%string, (Some 0%Q)); ("LON"%string, (Some 0%Q)); ("SST"%string, (Some 5%Q))]) [("OSTIA"%string, (Some 5%Q)); ("BGVAR"%string, (Some (-1 # 100)%Q)); ("ICE"%string, (Some 0%Q))]); (with_exts (new_report (Some "AAAAAAAAA"%string) None [("YR"%string, (Some 2003%Q)); ("MO"%string, (Some 12%Q)); ("DY"%string, (Some 1%Q)); ("HR"%string, (Some (2 # 5)%Q)); ("LAT"%string, (Some 0%Q)); ("LON"%string, (Some 0%Q)); ("SST"%string, (Some 5%Q))]) [("OSTIA"%string, (Some 5%Q)); ("BGVAR"%string, (Some (1 # 100)%Q)); ("ICE"%string, (Some 0%Q))]); (with_exts (new_report (Some "AAAAAAAAA"%string) None [("YR"%string, (Some 2003%Q)); ("MO"%string, (Some 12%Q)); ("DY"%string, (Some 1%Q)); ("HR"%string, (Some (1 # 2)%Q)); ("LAT"%string, (Some 0%Q)); ("LON"%string, (Some 0%Q)); ("SST"%string, (Some 5%Q))]) [("OSTIA"%string, (Some 5%Q)); ("BGVAR"%string, (Some (1 # 100)%Q)); ("ICE"%string, (Some 0%Q))]); (with_exts (new_report (Some "AAAAAAAAA"%string) None [("YR"%string, (Some 2003%Q)); ("MO"%string, (Some 12%Q)); ("DY"%string, (Some 1%Q)); ("HR"%string, (Some (3 # 5)%Q)); ("LAT"%string, (Some 0%Q)); ("LON"%string, (Some 0%Q)); ("SST"%string, (Some 5%Q))]) [("OSTIA"%string, (Some 5%Q)); ("BGVAR"%string, (Some (1 # 100)%Q)); ("ICE"%string, (Some 0%Q))]); (with_exts (new_report (Some "AAAAAAAAA"%string) None [("YR"%string, (Some 2003%Q)); ("MO"%string, (Some 12%Q)); ("DY"%string, (Some 1%Q)); ("HR"%string, (Some (7 # 10)%Q)); ("LAT"%string, (Some 0%Q)); ("LON"%string, (Some 0%Q)); ("SST"%string, (Some 5%Q))]) [("OSTIA"%string, (Some 5%Q)); ("BGVAR"%string, (Some (1 # 100)%Q)); ("ICE"%string, (Some 0%Q))]); (with_exts (new_report (Some "AAAAAAAAA"%string) None [("YR"%string, (Some 2003%Q)); ("MO"%string, (Some 12%Q)); ("DY"%string, (Some 1%Q)); ("HR"%string, (Some (4 # 5)%Q)); ("LAT"%string, (Some 0%Q)); ("LON"%string, (Some 0%Q)); ("SST"%string, (Some 5%Q))]) [("OSTIA"%string, (Some 5%Q)); ("BGVAR"%string, (Some (1 # 100)%Q)); ("ICE"%string, (Some 0%Q))])]) (sst_biased_noisy_check n_elevation n_sqrt {| bs_eval := 9; bs_lim := (11 # 10); bs_intra := 1; bs_inter := (29 # 100); bs_n := 3; bs_bad := 2; bs_bg := (3 # 10) |})))]).
Example TestTrackQC_biased_noisy_check_test_error_invalid_background_error_variance_is : TestTrackQC_biased_noisy_check_test_error_invalid_background_error_variance = true.
Proof. reflexivity. Qed.
