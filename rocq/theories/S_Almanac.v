(** The low precision formulas for the sun of the Astronomical Almanac, with the usual formula for Greenwich sidereal time.  Angles are
    in degrees; n is the number of days, with their fraction, since noon of 1 January 2000. *)
Require Import Reals.
Require Import Verif.S_Sphere Verif.S_SunR.
Open Scope R_scope.

Definition mean_longitude (n : R) : R := 280.460 + 0.9856474 * n.
Definition anomaly (n : R) : R := 357.528 + 0.9856003 * n.
Definition ecliptic_longitude (n : R) : R := mean_longitude n + 1.915 * sin (rad (anomaly n)) + 0.020 * sin (rad (2 * anomaly n)).
Definition obliquity (n : R) : R := 23.439 - 0.0000004 * n.
Definition greenwich_sidereal_time (n : R) : R := 280.46062 + 360.98564737 * n.

(** The sun is e degrees above the horizon at a latitude and longitude. *)
Definition almanac_elevation (n lat lon e : R) : Prop :=
  -90 <= e <= 90 /\ exists ra dec, equatorial (rad (ecliptic_longitude n)) (rad (obliquity n)) ra dec /\
    sin (rad e) = sin_elevation lat dec (rad (greenwich_sidereal_time n + lon) - ra).

(** Two angles in radians differ by at most d degrees, up to whole turns. *)
Definition close (a b d : R) : Prop := exists turns : Z, Rabs (a - b - 2 * IZR turns * PI) <= rad d.
