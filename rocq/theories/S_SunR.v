(** The textbook relation between declination, hour angle, latitude and elevation. *)
Require Import Reals.
Open Scope R_scope.

(** Sine of the elevation of a body with declination dec and hour angle h (radians), seen from latitude lat
    (degrees). *)
Definition sin_elevation (lat dec h : R) : R :=
  sin (lat * PI / 180) * sin dec + cos (lat * PI / 180) * cos dec * cos h.

(** Two angles that differ by whole turns. *)
Definition same_direction (a b : R) : Prop := cos a = cos b /\ sin a = sin b.
(** The body at ecliptic longitude l, with obliquity e, has right ascension ra and declination dec. *)
Definition equatorial (l e ra dec : R) : Prop :=
  cos dec * cos ra = cos l /\ cos dec * sin ra = sin l * cos e /\ sin dec = sin l * sin e /\ - (PI / 2) <= dec <= PI / 2.
