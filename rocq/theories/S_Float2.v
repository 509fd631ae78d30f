(** Specification for averages in double precision: lists of doubles and the numbers they stand for, totals and means of real numbers. *)
Require Import ZArith Reals List.
From Flocq Require Import Core.Core IEEE754.BinarySingleNaN.
Require Import Verif.M_Float Verif.S_Float.
Import ListNotations.
Open Scope R_scope.

(** The finite doubles xs stand for the numbers c. *)
Definition are (xs : list fl) (c : list R) : Prop := Forall2 is_double xs c.
Fixpoint total (l : list R) : R := match l with [] => 0 | a :: l' => a + total l' end.
Definition mean (l : list R) : R := total l / INR (length l).
