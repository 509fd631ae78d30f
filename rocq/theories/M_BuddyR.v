(** Real-number part of the buddy check.  No proofs here. *)
Require Import Reals ZArith.
Open Scope R_scope.

(** Python's int: towards zero. *)
Definition Rint (x : R) : Z := if Rle_dec 0 x then Int_part x else (- Int_part (- x))%Z.
(** Extended_IMMA.py:2597-2604: radcon, latitude_approx and full_xspan of get_neighbour_anomalies. *)
Definition radcon : R := 3.1415928 / 180.
Definition full_xspan (xspan yindex : Z) : Z := Rint (IZR xspan / cos ((89.5 - IZR yindex) * radcon)).
