(** Specification: Bayes' theorem for an observation rounded to steps of [q] between two limits. *)
Require Import Reals List.
Import ListNotations.
Open Scope R_scope.

(** The arguments make sense. *)
Definition sensible (p0 q hi lo x sigma : R) : Prop := 0 <= p0 <= 1 /\ 0 < q /\ lo < hi /\ lo <= x <= hi /\ 0 < sigma.

(** The probability that a normal variable lies between two bounds, from the error function. *)
Definition normal_between (erf : R -> R) (mu sigma a b : R) : R := (erf ((b - mu) / (sigma * sqrt 2)) - erf ((a - mu) / (sigma * sqrt 2))) / 2.
(** A good observation rounds to [x], given that it lies within the limits (half a step beyond counts). *)
Definition good (erf : R -> R) (q hi lo mu sigma x : R) : R :=
  normal_between erf mu sigma (x - q / 2) (x + q / 2) / normal_between erf mu sigma (lo - q / 2) (hi + q / 2).
(** A gross error is any of the [(hi - lo) / q + 1] values with the same probability. *)
Definition gross (q hi lo : R) : R := 1 / ((hi - lo) / q + 1).
Definition posterior (p0 g d : R) : R := p0 * g / (p0 * g + (1 - p0) * d).

Fixpoint sumR (l : list R) : R := match l with [] => 0 | x :: l' => x + sumR l' end.
(** The values from [lo] in [n] steps of [q]. *)
Definition values (lo q : R) (n : nat) : list R := map (fun i => lo + INR i * q) (seq 0 (S n)).

(** Growing, and growing strictly. *)
Definition mono (e : R -> R) : Prop := forall x y, x <= y -> e x <= e y.
Definition strict (e : R -> R) : Prop := forall x y, x < y -> e x < e y.
