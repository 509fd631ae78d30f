(** The trimmed mean and standard deviation in double precision.  No proofs here. *)
Require Import ZArith QArith List Bool.
From Flocq Require Import Core.Core IEEE754.BinarySingleNaN.
Require Import Verif.M_Base Verif.M_Stats Verif.M_Float Verif.M_Float2 Verif.M_Float5.
Import ListNotations.
Open Scope Z_scope.

(** np.sqrt. *)
Definition fsqrt (x : fl) : fl := @Bsqrt 53 1024 p53 p1024 mode_NE x.
(** qc.py:1432-1440, trackqc.py:104-112 and 130-138: the values that stay.  "length / trim" is floor division. *)
Definition ftrim_values (inarr : list fl) (trim : Z) : list fl :=
  if trim =? 0 then inarr
  else let length := Z.of_nat (length inarr) in
       let index1 := length / trim in
       py_slice (fsort inarr) index1 (length - index1).
(** qc.py:1419-1442 trimmed_mean and trackqc.py:92-114 trim_mean; how np.mean adds up an array is left open, see [bracketing]. *)
Definition ftrim_mean (bracket : list fl -> bracketing) (inarr : list fl) (trim : Z) : fl := fmean (bracket (ftrim_values inarr trim)).
(** trackqc.py:117-140 trim_std.  np.std takes the mean, subtracts it from every value, squares the differences, and takes the root of
    their mean. *)
Definition fsquares (l : list fl) (m : fl) : list fl := map (fun v => let d := fsub v m in fmul d d) l.
Definition ftrim_std (bracket : list fl -> bracketing) (inarr : list fl) (trim : Z) : fl :=
  let arr := ftrim_values inarr trim in
  fsqrt (fmean (bracket (fsquares arr (fmean (bracket arr))))).

(** trackqc.py:827-832: the long window of the tail check fails.  x ** 2 is taken to be x * x: numpy squares arrays like that, and pow(x, 2.0)
    gives the nearest double in the C libraries in use. *)
Definition fhypot2 (x y : fl) : fl := fsqrt (fadd (fmul x x) (fmul y y)).
Definition flong_fails (bracket : list fl -> bracketing) (nstd inter intra : fl) (anoms errs : list fl) : bool :=
  let avg := ftrim_mean bracket anoms 100 in
  let stdev := ftrim_std bracket anoms 100 in
  let bg_avg := fmean (bracket errs) in
  let bg_rms := fsqrt (fmean (bracket (map (fun e => fmul e e) errs))) in
  flt (fmul nstd (fhypot2 inter bg_avg)) (fabs avg) || flt (fhypot2 intra bg_rms) stdev.
