(** Specification for the trimmed statistics in double precision. *)
Require Import ZArith QArith Reals List Permutation.
Require Import Verif.S_Stats Verif.M_Float Verif.S_Float Verif.M_Float5.
Import ListNotations.

(** A way to add up arrays that uses every number of an array once. *)
Definition adds_all (bracket : list fl -> bracketing) : Prop := forall l, Permutation (terms (bracket l)) l.
(** m are the numbers of l that trimming leaves: all for trim = 0; for a trim of 3 or more the sorted numbers without the length / trim
    smallest and as many of the largest. *)
Definition kept (trim : Z) (l m : list Q) : Prop :=
  trim = 0%Z /\ m = l \/ (3 <= trim)%Z /\ exists s, sorts s l /\ m = middle (length l / Z.to_nat trim) s.
(** The doubles xs stand for the numbers qs: at least one, at most a million, none beyond M. *)
Definition readings (M : R) (xs : list fl) (qs : list Q) : Prop :=
  Forall2 (fun x q => is_double x (Q2R q)) xs qs /\ (1 <= Z.of_nat (length qs) <= 1000000)%Z /\ forall q, In q qs -> (Rabs (Q2R q) <= M)%R.
(** The doubles es stand for background errors: not negative and at most 10 degrees. *)
Definition errors (es : list fl) (c : list R) : Prop := Forall2 is_double es c /\ forall e, In e c -> (0 <= e <= 10)%R.
(** A parameter from 0 to 10. *)
Definition parameter (x : fl) (a : R) : Prop := is_double x a /\ (0 <= a <= 10)%R.
