(** Model of the solar elevation formula (qc.py sunangle) over the real numbers: exact arithmetic instead of
    floats, no proofs.  Only the elevation is here, with sec, zone and dasvtm 0, as the day tests use it; the
    other arguments and results are in M_Sunangle.v. *)
Require Import ZArith Reals.
Require Import Verif.M_Real.
Open Scope R_scope.

(** qc.py:1101. *)
Definition degrad : R := PI / 180.
(** 1104-1118: days since the start of 1980; sec, zone and dasvtm are 0. *)
Definition delyear (year : Z) : Z := year - 1980.
Definition time_in_hours (hour minute : R) : R := hour + minute / 60.
Definition sun_time (year day : Z) (hour minute : R) : R :=
  let leap := (delyear year / 4)%Z in
  let t := IZR (delyear year) * 365 + IZR leap + IZR day - 1 + time_in_hours hour minute / 24 in
  let t := if Z.eq_dec (delyear year) (leap * 4) then t - 1 else t in
  if Z_lt_dec (delyear year) 0 then (if Z.eq_dec (delyear year) (leap * 4) then t else t - 1) else t.

Definition theta (t : R) : R := (360 * t / 365.25) * degrad.
Definition mean_anomaly (t : R) : R := - 0.031271 - 4.5396e-7 * t + theta t.
(** 1123-1129. *)
Definition long_of_sun (t : R) : R :=
  4.900968 + 3.6747e-7 * t + (0.033434 - 2.3e-9 * t) * sin (mean_anomaly t) + 0.000349 * sin (2 * mean_anomaly t) + theta t.
Definition angle_of_elliptic (t : R) : R := 0.409140 - 6.2149e-9 * t.
(** 1134-1141. *)
Definition right_ascension (t : R) : R :=
  let ra := atan2 (sin (long_of_sun t) * cos (angle_of_elliptic t)) (cos (long_of_sun t)) in
  if Rlt_dec ra 0 then ra + 2 * PI else ra.
(** 1144. *)
Definition declination (t : R) : R := asin (sin (long_of_sun t) * sin (angle_of_elliptic t)).
(** 1147-1154. *)
Definition siderial_time (year : Z) (t : R) : R :=
  let s := 1.759335 + 2 * PI * (t / 365.25 - IZR (delyear year)) + 3.694e-7 * t in
  if Rle_dec (2 * PI) s then s - 2 * PI else s.
Definition local_siderial_time (year : Z) (t : R) (hour minute lon : R) : R :=
  let s := siderial_time year t + (time_in_hours hour minute * 15 + lon) * degrad in
  if Rle_dec (2 * PI) s then s - 2 * PI else s.
(** 1160-1163. *)
Definition hour_angle (year : Z) (t : R) (hour minute lon : R) : R :=
  let h := local_siderial_time year t hour minute lon - right_ascension t in
  if Rlt_dec h 0 then h + 2 * PI else h.
(** 1169-1184, 1210: the elevation in degrees. *)
Definition clip1 (x : R) : R :=
  let x := if Rlt_dec 1 x then 1 else x in if Rlt_dec x (-1) then -1 else x.
Definition elevation (year day : Z) (hour minute lat lon : R) : R :=
  let t := sun_time year day hour minute in
  let phi := lat * degrad in
  let s := sin phi * sin (declination t) + cos phi * cos (declination t) * cos (hour_angle year t hour minute lon) in
  asin (clip1 s) / degrad.
