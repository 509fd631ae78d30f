(** Specification for the verdicts on differences in double precision. *)
Require Import ZArith Reals List Bool.
From Flocq Require Import Core.Core.
Require Import Verif.M_Float Verif.S_Float.
Import ListNotations.
Open Scope R_scope.

(** The doubles of an observation stand for a difference and a background error from 0 to 10 degrees. *)
Definition observed (x : fl * fl) (r : R * R) : Prop := is_double (fst x) (fst r) /\ is_double (snd x) (snd r) /\ 0 <= snd r <= 10.
(** The square of the limit for a difference with background error e. *)
Definition limit_squared (n inter intra e : R) : R := n * n * (e * e + inter * inter + intra * intra).
(** The difference is beyond the limit by a margin (of squared degrees); within the limit by a margin. *)
Definition clearly_beyond (margin n inter intra : R) (r : R * R) : bool := Rlt_bool (limit_squared n inter intra (snd r) + margin) (fst r * fst r).
Definition clearly_within (margin n inter intra : R) (r : R * R) : bool := Rle_bool (fst r * fst r + margin) (limit_squared n inter intra (snd r)).
