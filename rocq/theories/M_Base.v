(** Basic vocabulary shared by all model files: Python exceptions as values,
    Python list indexing, Python integer division, floats. No proofs here. *)
Require Import String ZArith QArith Qround List Bool.
Import ListNotations.
Open Scope Z_scope.

(** Exceptions that the modelled code can raise. *)
Inductive exn : Type :=
| AssertionError | IndexError | KeyError | ValueError | TypeError
| ZeroDivisionError | AttributeError | OtherError.

(** Outcome of a Python call: a value or a raised exception. *)
Inductive res (A : Type) : Type :=
| Ok (a : A)
| Err (e : exn).
Arguments Ok {A} a.
Arguments Err {A} e.

Definition bind {A B} (x : res A) (f : A -> res B) : res B :=
  match x with Ok a => f a | Err e => Err e end.

Notation "'let!' x ':=' e1 'in' e2" := (bind e1 (fun x => e2))
  (at level 200, x pattern, e1 at level 100, e2 at level 200, right associativity).

(** Python [assert b]. *)
Definition py_assert (b : bool) : res unit :=
  if b then Ok tt else Err AssertionError.
Notation "'assert!' b ';' e2" := (bind (py_assert b) (fun _ => e2))
  (at level 200, b at level 100, e2 at level 200, right associativity).

(** Python [l[i]] for a list: negative indices count from the end. *)
Definition py_nth {A} (l : list A) (i : Z) : res A :=
  let n := Z.of_nat (length l) in
  let j := if i <? 0 then i + n else i in
  if (j <? 0) || (n <=? j) then Err IndexError
  else match nth_error l (Z.to_nat j) with
       | Some a => Ok a
       | None => Err IndexError
       end.

(** Python 2 [a / b] and [a // b] on ints: floor division, raising on zero. *)
Definition py_div (a b : Z) : res Z :=
  if b =? 0 then Err ZeroDivisionError else Ok (a / b).

(** Comparison of rationals as booleans (Python [<], [<=], [==] on finite floats). *)
Definition Qltb (x y : Q) : bool := negb (Qle_bool y x).
Definition Qleb (x y : Q) : bool := Qle_bool x y.
Definition Qeqb (x y : Q) : bool := Qeq_bool x y.

(** Python [int(x)] on a finite float: truncation toward zero. *)
Definition py_int (q : Q) : Z := if Qle_bool 0 q then Qfloor q else - Qfloor (- q).

(** Python [abs], [min], [max] on finite floats. *)
Definition Qabs' (x : Q) : Q := if Qle_bool 0 x then x else - x.
Definition Qmin' (x y : Q) : Q := if Qle_bool x y then x else y.
Definition Qmax' (x y : Q) : Q := if Qle_bool x y then y else x.

(** A float that may be non-finite.  Comparisons follow IEEE 754: every ordering
    comparison with NaN is false.  Rounding is not modelled. *)
Inductive xnum : Type := Fin (q : Q) | PInf | NInf | NaN.

Definition x_isnan (x : xnum) : bool := match x with NaN => true | _ => false end.

Definition x_ltb (x y : xnum) : bool :=
  match x, y with
  | NaN, _ | _, NaN => false
  | Fin a, Fin b => Qltb a b
  | NInf, NInf => false
  | NInf, _ => true
  | _, NInf => false
  | PInf, _ => false
  | _, PInf => true
  end.

Definition x_eqb (x y : xnum) : bool :=
  match x, y with
  | Fin a, Fin b => Qeqb a b
  | PInf, PInf => true
  | NInf, NInf => true
  | _, _ => false
  end.

Definition x_leb (x y : xnum) : bool := x_ltb x y || x_eqb x y.

Definition x_neg (x : xnum) : xnum :=
  match x with Fin a => Fin (- a)%Q | PInf => NInf | NInf => PInf | NaN => NaN end.

Definition x_add (x y : xnum) : xnum :=
  match x, y with
  | NaN, _ | _, NaN => NaN
  | Fin a, Fin b => Fin (a + b)%Q
  | PInf, NInf | NInf, PInf => NaN
  | PInf, _ | _, PInf => PInf
  | NInf, _ | _, NInf => NInf
  end.

Definition x_sub (x y : xnum) : xnum := x_add x (x_neg y).

Definition x_abs (x : xnum) : xnum :=
  match x with Fin a => Fin (Qabs' a) | PInf | NInf => PInf | NaN => NaN end.

(** sign of a finite number as an [xnum] factor: used by multiplication/division. *)
Definition x_scale_inf (q : Q) (inf : xnum) : xnum :=
  if Qeqb q 0 then NaN else if Qltb 0 q then inf else x_neg inf.

Definition x_mul (x y : xnum) : xnum :=
  match x, y with
  | NaN, _ | _, NaN => NaN
  | Fin a, Fin b => Fin (a * b)%Q
  | Fin a, i => x_scale_inf a i
  | i, Fin b => x_scale_inf b i
  | PInf, PInf | NInf, NInf => PInf
  | _, _ => NInf
  end.

(** Python float division: a zero divisor raises (numpy scalars would give inf/nan:
    the model uses the Python float behaviour). *)
Definition x_div (x y : xnum) : res xnum :=
  match x, y with
  | _, Fin b =>
      if Qeqb b 0 then Err ZeroDivisionError
      else Ok (match x with
               | Fin a => Fin (a / b)%Q
               | NaN => NaN
               | i => x_scale_inf b i
               end)
  | NaN, _ | _, NaN => Ok NaN
  | Fin a, _ => Ok (Fin 0%Q)
  | _, _ => Ok NaN
  end.
