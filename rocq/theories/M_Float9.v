(** The verdicts on single differences and on whole records of a drifter in double precision.  No proofs here. *)
Require Import ZArith List Bool.
Require Import Verif.M_Base Verif.M_Float Verif.M_Float5 Verif.M_Float8.
Import ListNotations.
Open Scope Z_scope.

(** trackqc.py:864-865 and 1040-1041 for one difference and its background error; x ** 2 is taken to be x * x. *)
Definition fexceeds (nstd inter intra anom err : fl) : bool :=
  let limit := fmul nstd (fsqrt (fadd (fadd (fmul err err) (fmul inter inter)) (fmul intra intra))) in
  flt limit anom || flt anom (fopp limit).
(** np.sum(exceed_limit) >= n_bad, trackqc.py:866 and 1042. *)
Definition fmany_exceed (nstd inter intra : fl) (n_bad : Z) (obs : list (fl * fl)) : bool :=
  n_bad <=? Z.of_nat (length (filter (fun x => fexceeds nstd inter intra (fst x) (snd x)) obs)).
(** trackqc.py:1027-1035: a long record is biased, is noisy.  np.mean and np.std are trim_mean and trim_std without trimming. *)
Definition frecord_biased (bracket : list fl -> bracketing) (bias_lim : fl) (anoms : list fl) : bool :=
  flt bias_lim (fabs (ftrim_mean bracket anoms 0)).
Definition frecord_noisy (bracket : list fl -> bracketing) (intra : fl) (anoms errs : list fl) : bool :=
  flt (fhypot2 intra (fsqrt (fmean (bracket (map (fun e => fmul e e) errs))))) (ftrim_std bracket anoms 0).
