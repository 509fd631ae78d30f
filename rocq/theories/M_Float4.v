(** How the repeated and rounded value checks compare floats: by their text with twelve significant digits, and by a quotient of counts in
    double precision. No proofs here. *)
Require Import ZArith QArith Qround Qabs List Bool.
From Flocq Require Import Core.Core IEEE754.BinarySingleNaN.
Require Import Verif.M_Base Verif.M_Float.
Import ListNotations.
Open Scope Z_scope.

(** The number a finite float stands for. *)
Definition qof (x : fl) : Q :=
  match x with
  | B754_finite s m e _ =>
      let z := if s then Zneg m else Zpos m in
      if 0 <=? e then inject_Z (z * 2 ^ e) else z # Z.to_pos (2 ^ (- e))
  | _ => 0%Q
  end.
(** Number of decimal digits of n. *)
Fixpoint ndigits (fuel : nat) (n : Z) : Z :=
  match fuel with O => 0 | S f => if n <=? 0 then 0 else 1 + ndigits f (n / 10) end.
(** k with 10^(k-1) <= |q| < 10^k, for q of at least 1e-30. *)
Definition expo10 (q : Q) : Z := ndigits 400 (Qfloor (Qabs q * inject_Z (10 ^ 30))) - 30.
(** The nearest integer, halves to the even one. *)
Definition qround (q : Q) : Z :=
  let f := Qfloor q in
  let r := (q - inject_Z f)%Q in
  if Qltb r (1 # 2) then f else if Qltb (1 # 2) r then f + 1 else if Z.even f then f else f + 1.
(** str(x) of Python 2, which is '%.12g' % x: the decimal number with twelve significant digits nearest to x, as the number it stands
    for.  Numbers below 1e-30 are not modelled. *)
Definition text12 (q : Q) : Q :=
  if Qeqb q 0 then 0%Q
  else
    let p := 12 - expo10 q in
    if 0 <=? p then qround (q * inject_Z (10 ^ p)) # Z.to_pos (10 ^ p)
    else inject_Z (qround (q / inject_Z (10 ^ (- p))) * 10 ^ (- p)).
(** float(str(x)), Extended_IMMA.py:1739, 1744: the double nearest to the text. *)
Definition float_of_text (q : Q) : Q := qof (fq (text12 q)).
(** float(c) / float(n) > threshold, Extended_IMMA.py:1789, and float(c) / float(n) >= threshold, 1742. *)
Definition share_above (c n : Z) (threshold : fl) : bool := flt threshold (fdiv (fz c) (fz n)).
Definition share_reaches (c n : Z) (threshold : fl) : bool := fle threshold (fdiv (fz c) (fz n)).
