(** Model of the resistant averages (qc.py, trackqc.py) and of the buddy-check
    multiplier (Extended_IMMA.py).  No proofs here. *)
Require Import ZArith QArith Qround List Bool Reals Qreals.
Require Import Verif.M_Base.
Import ListNotations.
Open Scope Z_scope.

(** list.sort() / ndarray.sort() on finite numbers: any correct sort returns the same values, the
    model uses insertion sort. *)
Fixpoint qinsert (x : Q) (l : list Q) : list Q :=
  match l with
  | [] => [x]
  | y :: l' => if Qleb x y then x :: l else y :: qinsert x l'
  end.
Fixpoint qsort (l : list Q) : list Q :=
  match l with [] => [] | x :: l' => qinsert x (qsort l') end.

(** The loop "for j in range(lower, upper + 1): total += inarr[j]" with k iterations left. *)
Fixpoint sum_from (s : list Q) (j : Z) (k : nat) (total : Q) : res Q :=
  match k with
  | O => Ok total
  | S k' => let! v := py_nth s j in sum_from s (j + 1) k' (total + v)%Q
  end.

(** qc.py:1383-1416 winsorised_mean, for a list of floats (rounding not modelled).  The side effect of sorting
    the caller's list is not part of the result. *)
Definition winsorised_mean (inarr : list Q) : res Q :=
  let length := Z.of_nat (length inarr) in
  let s := qsort inarr in
  let! (lower, upper, total) :=
    (if 4 <=? length then
       let lower := length / 4 in
       let upper := length - 1 - lower in
       let! a := py_nth s lower in
       let! b := py_nth s upper in
       Ok (lower, upper, (0 + (a + b) * inject_Z lower)%Q)
     else Ok (0, length - 1, 0%Q)) in
  let! total := sum_from s lower (Z.to_nat (upper + 1 - lower)) total in
  if length =? 0 then Err ZeroDivisionError else Ok (total / inject_Z length)%Q.

(** The same function applied to a list of Python ints: "total / length" is then Python 2 floor
    division. *)
Definition winsorised_mean_int (inarr : list Z) : res Z :=
  let length := Z.of_nat (length inarr) in
  let s := qsort (map inject_Z inarr) in
  let! (lower, upper, total) :=
    (if 4 <=? length then
       let lower := length / 4 in
       let upper := length - 1 - lower in
       let! a := py_nth s lower in
       let! b := py_nth s upper in
       Ok (lower, upper, (0 + (a + b) * inject_Z lower)%Q)
     else Ok (0, length - 1, 0%Q)) in
  let! total := sum_from s lower (Z.to_nat (upper + 1 - lower)) total in
  py_div (Qfloor total) length.

(** Python slice l[a:b] with step 1. *)
Definition slice_clip (n i : Z) : Z :=
  let j := if i <? 0 then i + n else i in Z.max 0 (Z.min n j).
Definition py_slice {A} (l : list A) (a b : Z) : list A :=
  let n := Z.of_nat (length l) in
  let a := slice_clip n a in
  let b := slice_clip n b in
  firstn (Z.to_nat (b - a)) (skipn (Z.to_nat a) l).

(** np.mean: NaN for an empty array. *)
Definition np_sum (l : list Q) : Q := fold_left Qplus l 0%Q.
Definition np_mean (l : list Q) : xnum :=
  match l with [] => NaN | _ => Fin (np_sum l / inject_Z (Z.of_nat (length l)))%Q end.

(** np.var (population variance, the square of np.std): NaN for an empty array. *)
Definition np_var (l : list Q) : xnum :=
  match np_mean l with
  | Fin m => np_mean (map (fun x => (x - m) * (x - m))%Q l)
  | _ => NaN
  end.

(** The trimming shared by qc.trimmed_mean, trackqc.trim_mean and trackqc.trim_std
    (qc.py:1432-1440, trackqc.py:104-112, 130-138): "length / trim" is floor division. *)
Definition trim_values (inarr : list Q) (trim : Z) : list Q :=
  if trim =? 0 then inarr
  else let length := Z.of_nat (length inarr) in
       let index1 := length / trim in
       py_slice (qsort inarr) index1 (length - index1).

(** qc.py:1419-1442 trimmed_mean. *)
Definition trimmed_mean (inarr : list Q) (trim : Z) : xnum := np_mean (trim_values inarr trim).
(** trackqc.py:92-114 trim_mean (same computation on a copy of the array). *)
Definition trim_mean (inarr : list Q) (trim : Z) : xnum := np_mean (trim_values inarr trim).
(** trackqc.py:117-140 trim_std, squared ... *)
Definition trim_var (inarr : list Q) (trim : Z) : xnum := np_var (trim_values inarr trim).
(** ... and the value itself, None standing for NaN. *)
Definition trim_std (inarr : list Q) (trim : Z) : option R :=
  match trim_var inarr trim with Fin v => Some (sqrt (Q2R v)) | _ => None end.

(* ---------------------------------------------------------------- threshold multiplier *)

(** min(l): raises ValueError on an empty list. *)
Definition zmin (l : list Z) : res Z :=
  match l with [] => Err ValueError | x :: l' => Ok (fold_left Z.min l' x) end.
Definition qmin_list (l : list Q) : res Q :=
  match l with [] => Err ValueError | x :: l' => Ok (fold_left Qmin' l' x) end.

(** Extended_IMMA.py:121-124: every limit exceeds the one before. *)
Fixpoint ascending (prev : Z) (l : list Z) : bool :=
  match l with [] => true | x :: l' => (prev <? x) && ascending x l' end.

(** Extended_IMMA.py:130-132: the last limit below total_nobs decides. *)
Fixpoint pick_multiplier (total_nobs : Z) (lims : list Z) (mults : list Q) (multiplier : Q) : Q :=
  match lims, mults with
  | l :: lims', m :: mults' =>
      pick_multiplier total_nobs lims' mults' (if l <? total_nobs then m else multiplier)
  | _, _ => multiplier
  end.

(** Extended_IMMA.py:94-136 get_threshold_multiplier.  Observation counts are integers, multipliers rationals. *)
Definition get_threshold_multiplier (total_nobs : Z) (nob_limits : list Z) (multiplier_values : list Q) : res Q :=
  assert! (Z.of_nat (length nob_limits) =? Z.of_nat (length multiplier_values));
  let! mm := qmin_list multiplier_values in
  assert! (Qltb 0 mm);
  let! ml := zmin nob_limits in
  assert! (ml =? 0);
  let! l0 := py_nth nob_limits 0 in
  assert! (l0 =? 0);
  assert! (ascending l0 (tl nob_limits));
  let multiplier := (if total_nobs =? 0 then 4 else -1)%Q in
  let multiplier := pick_multiplier total_nobs nob_limits multiplier_values multiplier in
  assert! (Qltb 0 multiplier);
  Ok multiplier.
