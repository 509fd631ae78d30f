(** Specification of resistant averages, independent of the model. *)
Require Import ZArith QArith List Bool Permutation Sorting.Sorted.
Import ListNotations.
Open Scope Z_scope.

(** [s] is the list [l] in ascending order. *)
Definition sorts (s l : list Q) : Prop := Permutation s l /\ StronglySorted Qle s.

Definition sumQ (l : list Q) : Q := fold_right Qplus 0%Q l.
Definition meanQ (l : list Q) : Q := (sumQ l / inject_Z (Z.of_nat (length l)))%Q.

(** The list without its first [k] and last [k] members. *)
Definition middle (k : nat) (s : list Q) : list Q := firstn (length s - 2 * k) (skipn k s).

(** The ascending list [s] with its lowest quarter and highest quarter (rounded down) replaced by
    the nearest value that stays. *)
Definition winsorised (s : list Q) : list Q :=
  let k := (length s / 4)%nat in
  repeat (nth k s 0%Q) k ++ middle k s ++ repeat (nth (length s - 1 - k) s 0%Q) k.

(** Population variance. *)
Definition varQ (l : list Q) : Q := meanQ (map (fun x => (x - meanQ l) * (x - meanQ l))%Q l).

(** How many members of [l] satisfy [p]. *)
Definition count (p : Q -> bool) (l : list Q) : nat := length (filter p l).

(** A well-formed table of observation-count limits and multipliers: as many limits as multipliers,
    positive multipliers, limits starting at 0 and strictly increasing. *)
Definition table_ok (lims : list Z) (mults : list Q) : Prop :=
  length lims = length mults /\ (forall m, In m mults -> (0 < m)%Q) /\
  hd_error lims = Some 0 /\ StronglySorted Z.lt lims.

