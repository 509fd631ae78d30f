(** Specification for the double precision functions: cells of a grid, decimal hours, on the real numbers that doubles stand for. *)
Require Import ZArith Reals.
From Flocq Require Import Core.Core IEEE754.BinarySingleNaN.
Require Import Verif.M_Float.
Open Scope R_scope.

(** x is a finite double and its value is a. *)
Definition is_double (x : fl) (a : R) : Prop := is_finite x = true /\ B2R x = a.
(** Row k, counted from the north pole, of rows of the given height reaches to lat, up to an error. *)
Definition in_row (height : R) (k : Z) (lat err : R) : Prop := 90 - IZR (k + 1) * height - err <= lat <= 90 - IZR k * height + err.
(** Column k, counted from the date line eastwards, of columns of the given width reaches to lon, up to an error. *)
Definition in_column (width : R) (k : Z) (lon err : R) : Prop := -180 + IZR k * width - err <= lon <= -180 + IZR (k + 1) * width + err.
(** The same, with longitudes that differ by 360 degrees not told apart. *)
Definition round_the_globe (width : R) (k : Z) (lon err : R) : Prop := exists turns : Z, in_column width k (lon + 360 * IZR turns) err.
(** The number of rows of a climatology comes back when 180 degrees are divided by the height of its rows, in double precision. *)
Definition faithful (ny : Z) : Prop := feq (fdiv (fz 180) (fdiv (fz 180) (fz ny))) (fz ny) = true.
