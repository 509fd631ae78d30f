(** The winsorised mean in double precision. No proofs here. *)
Require Import ZArith QArith List Bool.
Require Import Verif.M_Base Verif.M_Float.
Import ListNotations.
Open Scope Z_scope.

(** list.sort() on finite floats: any correct sort returns the same values, the model uses insertion sort. *)
Fixpoint finsert (x : fl) (l : list fl) : list fl :=
  match l with
  | [] => [x]
  | y :: l' => if fle x y then x :: l else y :: finsert x l'
  end.
Fixpoint fsort (l : list fl) : list fl :=
  match l with [] => [] | x :: l' => finsert x (fsort l') end.

(** qc.py:1413-1414, the loop "for j in range(lower, upper + 1): total += inarr[j]" with k iterations left. *)
Fixpoint fsum_from (s : list fl) (j : Z) (k : nat) (total : fl) : res fl :=
  match k with
  | O => Ok total
  | S k' => let! v := py_nth s j in fsum_from s (j + 1) k' (fadd total v)
  end.
(** qc.py:1383-1416 winsorised_mean for a list of floats; the int total = 0 meets a float in the first addition. *)
Definition fwinsorised_mean (inarr : list fl) : res fl :=
  let length := Z.of_nat (length inarr) in
  let s := fsort inarr in
  let! (lower, upper, total) :=
    (if 4 <=? length then
       let lower := length / 4 in
       let upper := length - 1 - lower in
       let! a := py_nth s lower in
       let! b := py_nth s upper in
       Ok (lower, upper, fadd (fz 0) (fmul (fadd a b) (fz lower)))
     else Ok (0, length - 1, fz 0)) in
  let! total := fsum_from s lower (Z.to_nat (upper + 1 - lower)) total in
  if length =? 0 then Err ZeroDivisionError else Ok (fdiv total (fz length)).
