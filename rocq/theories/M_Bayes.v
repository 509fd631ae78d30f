(** Model of the probabilities of gross errors (qc.py:943-1037) over the real numbers.  No proofs here.

    The error function of the math module is a parameter; [erf] below is the exact one.  Floating point
    rounding is otherwise not modelled; dividing Python floats by zero raises ZeroDivisionError. *)
Require Import Reals ZArith.
From Coquelicot Require Import Hierarchy RInt.
Require Import Verif.M_Base.
Open Scope R_scope.

Definition Rltb (a b : R) : bool := if Rlt_dec a b then true else false.
Definition Rleb (a b : R) : bool := if Rle_dec a b then true else false.
Definition Rdivide (a b : R) : res R := if Req_EM_T b 0 then Err ZeroDivisionError else Ok (a / b).

(** math.erf. *)
Definition erf (x : R) : R := 2 / sqrt PI * RInt (V := R_CompleteNormedModule) (fun t => exp (- (t * t))) 0 x.

(** qc.py:943-977 p_data_given_good. *)
Definition p_data_given_good (erf : R -> R) (x q r_hi r_lo mu sigma : R) : res R :=
  assert! (Rltb 0 q);
  assert! (Rltb 0 sigma);
  assert! (Rltb r_lo r_hi);
  assert! (Rleb r_lo x);
  assert! (Rleb x r_hi);
  let upper_x := Rmin (x + 0.5 * q) (r_hi + 0.5 * q) in
  let lower_x := Rmax (x - 0.5 * q) (r_lo - 0.5 * q) in
  let normalizer := 0.5 * (erf ((r_hi + 0.5 * q - mu) / (sigma * sqrt 2)) - erf ((r_lo - 0.5 * q - mu) / (sigma * sqrt 2))) in
  Rdivide (0.5 * (erf ((upper_x - mu) / (sigma * sqrt 2)) - erf ((lower_x - mu) / (sigma * sqrt 2)))) normalizer.

(** qc.py:980-999 p_data_given_gross. *)
Definition p_data_given_gross (q r_hi r_lo : R) : res R :=
  assert! (Rltb r_lo r_hi);
  assert! (Rltb 0 q);
  let r := r_hi - r_lo in
  let! d := Rdivide r q in
  Rdivide 1 (1 + d).

(** qc.py:1002-1037 p_gross. *)
Definition p_gross (erf : R -> R) (p0 q r_hi r_lo x mu sigma : R) : res R :=
  assert! (Rleb 0 p0);
  assert! (Rleb p0 1);
  assert! (Rltb 0 q);
  assert! (Rltb r_lo r_hi);
  assert! (Rleb r_lo x);
  assert! (Rleb x r_hi);
  assert! (Rltb 0 sigma);
  let! g := p_data_given_gross q r_hi r_lo in
  let! d := p_data_given_good erf x q r_hi r_lo mu sigma in
  let! pgross := Rdivide (p0 * g) (p0 * g + (1 - p0) * d) in
  assert! (Rleb 0 pgross);
  assert! (Rleb pgross 1);
  Ok pgross.
