(** Specification for interpolation in double precision. *)
Require Import ZArith Reals.
From Flocq Require Import Core.Core IEEE754.BinarySingleNaN.
Require Import Verif.M_Float Verif.S_Float.
Open Scope R_scope.

(** The bilinear function with the values q11, q12, q21, q22 at (x1, y1), (x1, y2), (x2, y1), (x2, y2), at (x, y). *)
Definition bilinear (x1 x2 y1 y2 x y q11 q12 q21 q22 : R) : R :=
  (q11 * (x2 - x) * (y2 - y) + q21 * (x - x1) * (y2 - y) + q12 * (x2 - x) * (y - y1) + q22 * (x - x1) * (y - y1)) / ((x2 - x1) * (y2 - y1)).
