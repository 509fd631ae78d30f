(** The averages of the buddy check and its verdict in double precision.  No proofs here. *)
Require Import ZArith QArith List Bool.
Require Import Verif.M_Base Verif.M_Float.
Import ListNotations.
Open Scope Z_scope.

(** A way of adding up numbers: np.sum and np.mean add in an order and with a bracketing of their own (numpy splits long arrays and keeps
    several running totals), so the theorems are about every bracketing. *)
Inductive bracketing : Type :=
| nothing
| term (x : fl)
| plus (a b : bracketing).
Fixpoint fsum (t : bracketing) : fl :=
  match t with nothing => fz 0 | term x => x | plus a b => fadd (fsum a) (fsum b) end.
Fixpoint terms (t : bracketing) : list fl :=
  match t with nothing => [] | term x => [x] | plus a b => terms a ++ terms b end.
(** Extended_IMMA.py:2557 and 2575: a cell of the grid starts with zero and the anomalies are added as the reports come. *)
Fixpoint as_they_come (t : bracketing) (l : list fl) : bracketing :=
  match l with [] => t | x :: l' => as_they_come (plus t (term x)) l' end.
(** np.mean, Extended_IMMA.py:2655; the sum is divided by the number of terms. *)
Definition fmean (t : bracketing) : fl := fdiv (fsum t) (fz (Z.of_nat (length (terms t)))).
(** Extended_IMMA.py:2578-2583 take_average for one occupied cell; nobs counts the anomalies added. *)
Definition fcell_mean (l : list fl) : fl := fdiv (fsum (as_they_come nothing l)) (fz (Z.of_nat (length l))).
(** Extended_IMMA.py:2658-2662: the limit is the multiplier times the standard deviation; 3037-3040: the flag. *)
Definition fbuddy_flag (x buddy_mean multiplier stdev : fl) : Z :=
  if fle (fmul multiplier stdev) (fabs (fsub x buddy_mean)) then 1 else 0.
