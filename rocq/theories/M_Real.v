(** Real-number functions of Python's math module that Coq's library does not have.  No proofs here. *)
Require Import Reals.
Open Scope R_scope.

(** math.atan2, np.arctan2: the angle of the point (x, y), 0 at the origin. *)
Definition atan2 (y x : R) : R :=
  if Rlt_dec 0 x then atan (y / x)
  else if Rlt_dec x 0 then (if Rle_dec 0 y then atan (y / x) + PI else atan (y / x) - PI)
  else if Rlt_dec 0 y then PI / 2 else if Rlt_dec y 0 then - (PI / 2) else 0.
