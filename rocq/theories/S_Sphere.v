(** Specification of positions on the globe by unit vectors. *)
Require Import Reals.
Open Scope R_scope.

Definition rad (deg : R) : R := deg * (PI / 180).
Definition vec : Type := (R * R * R)%type.
Definition dot (u v : vec) : R := let '(a, b, c) := u in let '(d, e, f) := v in a * d + b * e + c * f.
Definition lin (s : R) (u : vec) (t : R) (v : vec) : vec := let '(a, b, c) := u in let '(d, e, f) := v in (s * a + t * d, s * b + t * e, s * c + t * f).
Definition opp (u : vec) : vec := let '(a, b, c) := u in (- a, - b, - c).

(** The point at a latitude and longitude in degrees; the unit vectors to its north and its east. *)
Definition point (lat lon : R) : vec := (cos (rad lat) * cos (rad lon), cos (rad lat) * sin (rad lon), sin (rad lat)).
Definition north (lat lon : R) : vec := (- sin (rad lat) * cos (rad lon), - sin (rad lat) * sin (rad lon), cos (rad lat)).
Definition east (lat lon : R) : vec := (- sin (rad lon), cos (rad lon), 0).

(** Where one gets by turning through an angle along the great circle that leaves with a course measured in
    degrees clockwise from north. *)
Definition travel (lat lon course angle : R) : vec :=
  lin (cos angle) (point lat lon) (sin angle) (lin (cos (rad course)) (north lat lon) (sin (rad course)) (east lat lon)).
