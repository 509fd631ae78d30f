(** Specification vocabulary for the day tests. *)
Require Import ZArith QArith Qround.
Require Import Verif.S_Calendar.
Open Scope Z_scope.

(** d is the k-th day of its year. *)
Definition day_number (d : date) (k : Z) : Prop := 1 <= k /\ days_later (Z.to_nat (k - 1)) (mkdate (yr d) 1 1) d.

(** The instant [since] hours before hour h of day d, with the whole hours and the minutes of h taken apart:
    it is hour hh and minute mm of day d'. *)
Definition instant_before (d : date) (h since : Q) (d' : date) (hh mm : Q) : Prop :=
  (mm == (h - inject_Z (Qfloor h)) * 60)%Q /\
  ((d' = d /\ hh == inject_Z (Qfloor h) - since /\ 0 <= hh)%Q \/ (next d' d /\ (hh == inject_Z (Qfloor h) - since + 24 /\ hh < 24)%Q)).

(** Latitude or longitude actually used: the program steps aside from exactly zero by 0.0001 degrees. *)
Definition aside (x x' : Q) : Prop := ((~ x == 0 /\ x' == x) \/ (x == 0 /\ x' == 1 # 10000))%Q.

(** The elevation depends on numbers, not on fractions, and is an angle. *)
Definition elevation_like (elev : Z -> Z -> Q -> Q -> Q -> Q -> Q) : Prop :=
  (forall y k a a' b b' c c' d d', a == a' -> b == b' -> c == c' -> d == d' -> elev y k a b c d == elev y k a' b' c' d')%Q /\
  (forall y k a b c d, -180 <= elev y k a b c d /\ elev y k a b c d <= 180)%Q.
