(** The textbook relation between the equatorial and the horizontal coordinates of a body. *)
Require Import Reals.
Require Import Verif.S_Sphere Verif.S_SunR.
Open Scope R_scope.

(** A body with declination dec and hour angle h (degrees, westwards), seen from latitude lat: how much of its direction points to the
    east, to the north and up. *)
Definition eastward (dec h : R) : R := - (cos (rad dec) * sin (rad h)).
Definition northward (lat dec h : R) : R := cos (rad lat) * sin (rad dec) - sin (rad lat) * cos (rad dec) * cos (rad h).
Definition upward (lat dec h : R) : R := sin (rad lat) * sin (rad dec) + cos (rad lat) * cos (rad dec) * cos (rad h).

(** It is seen at an azimuth (degrees, from north to east) and an elevation. *)
Definition seen_at (lat dec h azimuth elevation : R) : Prop :=
  cos (rad elevation) * sin (rad azimuth) = eastward dec h /\ cos (rad elevation) * cos (rad azimuth) = northward lat dec h /\
  sin (rad elevation) = upward lat dec h.
(** The same with north and south exchanged. *)
Definition seen_mirrored (lat dec h azimuth elevation : R) : Prop :=
  cos (rad elevation) * sin (rad azimuth) = eastward dec h /\ cos (rad elevation) * cos (rad azimuth) = - northward lat dec h /\
  sin (rad elevation) = upward lat dec h.
