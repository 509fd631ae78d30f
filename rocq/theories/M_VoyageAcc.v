(** Model of the accessors of Voyage by position (Extended_IMMA.py:1473-1561) and of Deck.pop
    (Extended_IMMA.py:2953-2960).  No proofs here.
    A position is a Python index: negative ones count from the end.  Simplification: a voyage holds distinct
    report objects (the code does not copy a report that is added twice). *)
Require Import String ZArith QArith List Bool.
Require Import Verif.M_Base Verif.M_Report.
Import ListNotations.
Open Scope string_scope.
Open Scope list_scope.
Open Scope Z_scope.

(** The place a Python index stands for in a list of n elements, IndexError outside. *)
Definition py_index (n : nat) (p : Z) : res nat :=
  let j := if p <? 0 then p + Z.of_nat n else p in
  if (j <? 0) || (Z.of_nat n <=? j) then Err IndexError else Ok (Z.to_nat j).

(** Extended_IMMA.py:1476-1477 __len__. *)
Definition voyage_len (v : list report) : Z := Z.of_nat (length v).

(** Extended_IMMA.py:1486-1495 getrep. *)
Definition getrep (v : list report) (p : Z) : res report := py_nth v p.

(** Extended_IMMA.py:1497-1505 last_rep: the index is the length less one. *)
Definition last_rep (v : list report) : res report := py_nth v (voyage_len v - 1).

(** Extended_IMMA.py:1507-1518 setvar (numeric variables). *)
Definition voyage_setvar (v : list report) (p : Z) (name : string) (x : option Q) : res (list report) :=
  let! r := py_nth v p in
  let! i := py_index (length v) p in
  let! r' := setvar r name x in
  Ok (update_nth i r' v).

(** Extended_IMMA.py:1520-1531 getvar. *)
Definition voyage_getvar (v : list report) (p : Z) (name : string) : res (option Q) :=
  let! r := py_nth v p in Ok (getvar r name).

(** Extended_IMMA.py:1533-1546 set_qc. *)
Definition voyage_set_qc (v : list report) (p : Z) (t f : string) (x : Z) : res (list report) :=
  let! r := py_nth v p in
  let! i := py_index (length v) p in
  let! r' := set_qc r t f x in
  Ok (update_nth i r' v).

(** Extended_IMMA.py:1548-1561 get_qc. *)
Definition voyage_get_qc (v : list report) (p : Z) (t f : string) : res Z :=
  let! r := py_nth v p in Ok (get_qc r t f).

(** Extended_IMMA.py:2953-2960 Deck.pop: the report is taken out of the list, the platform index stays as it is. *)
Definition deck_pop (d : deck) (p : Z) : res (report * deck) :=
  let! r := py_nth (d_reps d) p in
  let! i := py_index (length (d_reps d)) p in
  Ok (r, {| d_reps := firstn i (d_reps d) ++ skipn (S i) (d_reps d); d_ids := d_ids d; d_filter := d_filter d |}).
