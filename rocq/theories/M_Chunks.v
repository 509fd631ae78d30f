(** Model of YMCounter.py and of the job selection in Tracking_QC_wrapper.py.  No proofs here. *)
Require Import String ZArith List Bool.
Require Import Verif.M_Base Verif.M_Calendar.
Import ListNotations.
Open Scope Z_scope.

(** Local variables of get_chunks (YMCounter.py:26-29). *)
Record cstate := { c_starts : list Z; c_ends : list Z; c_zeros : Z; c_lastdata : Z }.

(** YMCounter.py:26-29. *)
Definition cstate0 : cstate := {| c_starts := []; c_ends := []; c_zeros := 10; c_lastdata := -1 |}.

(** YMCounter.py:33-45: one iteration of the loop, at index [i] with counter value [v]. *)
Definition chunk_step (gap i v : Z) (st : cstate) : cstate :=
  let st := if v =? 0 then
      {| c_starts := c_starts st; c_ends := c_ends st; c_zeros := c_zeros st + 1; c_lastdata := c_lastdata st |}
    else st in
  let st := if (v =? 1) && (gap <=? c_zeros st) then
      let starts := c_starts st ++ [i] in
      if negb (c_lastdata st =? -1)
      then {| c_starts := starts; c_ends := c_ends st ++ [c_lastdata st]; c_zeros := 0; c_lastdata := -1 |}
      else {| c_starts := starts; c_ends := c_ends st; c_zeros := 0; c_lastdata := c_lastdata st |}
    else st in
  if (v =? 1) && (c_zeros st <? gap) then
    {| c_starts := c_starts st; c_ends := c_ends st; c_zeros := 0; c_lastdata := i |}
  else st.

(** YMCounter.py:31: the loop over the counter. *)
Fixpoint chunk_loop (gap i : Z) (c : list Z) (st : cstate) : cstate :=
  match c with
  | [] => st
  | v :: c' => chunk_loop gap (i + 1) c' (chunk_step gap i v st)
  end.

(** YMCounter.py:24-50 get_chunks, as a function of the counter array. *)
Definition get_chunks (gap : Z) (counter : list Z) : list Z * list Z :=
  let st := chunk_loop gap 0 counter cstate0 in
  let ends := if (length (c_ends st) <? length (c_starts st))%nat
              then c_ends st ++ [c_lastdata st] else c_ends st in
  (c_starts st, ends).

(** YMCounter.py:5-13: the number of months, the months and the counter (the float arrays years and
    months are one list of pairs). *)
Record ymcounter := { yc_n : Z; yc_months : list (Z * Z); yc_counter : list Z }.

(** YMCounter.py:7-19 __init__.  [fuel] bounds the generator (None: not finished).
    np.zeros of a negative size raises ValueError, a month too many IndexError. *)
Definition ymc_init (fuel : nat) (y1 m1 y2 m2 : Z) : res (option ymcounter) :=
  let n := 12 * (y2 - y1) + m2 - m1 + 1 in
  if n <? 0 then Err ValueError else
  let! ms := year_month_gen fuel y1 m1 y2 m2 in
  match ms with
  | None => Ok None
  | Some l =>
      if n <? Z.of_nat (length l) then Err IndexError
      else Ok (Some {| yc_n := n;
                       yc_months := l ++ repeat (0, 0) (Z.to_nat n - length l);
                       yc_counter := repeat 0 (Z.to_nat n) |})
  end.

Definition ym_eqb (a b : Z * Z) : bool := (fst a =? fst b) && (snd a =? snd b).

(** YMCounter.py:21-22 setym: masked assignment. *)
Definition setym (g : ymcounter) (y m flag : Z) : ymcounter :=
  {| yc_n := yc_n g; yc_months := yc_months g;
     yc_counter := map (fun p => if ym_eqb (fst p) (y, m) then flag else snd p)
                       (combine (yc_months g) (yc_counter g)) |}.

(** YMCounter.py:52-63 index: the positions of a month. *)
Fixpoint index_from (i : Z) (ms : list (Z * Z)) (y m : Z) : list Z :=
  match ms with
  | [] => []
  | ym :: ms' => if ym_eqb ym (y, m) then i :: index_from (i + 1) ms' y m else index_from (i + 1) ms' y m
  end.
Definition ymc_index (g : ymcounter) (y m : Z) : list Z := index_from 0 (yc_months g) y m.

(** Truth value of a numpy bool array in an if statement: ambiguous for several elements, False when empty. *)
Definition np_truth (l : list bool) : res bool :=
  match l with [] => Ok false | [b] => Ok b | _ => Err ValueError end.

(** YMCounter.py:82-92: the classification of one chunk. *)
Definition classify (g : ymcounter) (gap y1 m1 y2 m2 : Z) : res (list string) :=
  let! a := np_truth (map (fun i => i <? gap) (ymc_index g y1 m1)) in
  let! b := np_truth (map (fun i => yc_n g - gap - 1 <? i) (ymc_index g y2 m2)) in
  let! c := np_truth (map (fun i => i =? yc_n g - gap - 1) (ymc_index g y2 m2)) in
  Ok ((if a then ["start_edge_case"%string] else []) ++
      (if b then ["end_edge_case"%string] else []) ++
      (if c then ["new"%string] else []) ++
      (if negb (a || b) then ["regular"%string] else [])).

(** YMCounter.py:94: one yielded item: y1, m1, y2, m2, classification. *)
Definition chunk_item := (Z * Z * Z * Z * list string)%type.

(** YMCounter.py:74-94: the loop over starts ([i] counts the items). *)
Fixpoint yield_loop (g : ymcounter) (gap i : Z) (starts ends : list Z) : res (list chunk_item) :=
  match starts with
  | [] => Ok []
  | val :: starts' =>
      let! (y1, m1) := py_nth (yc_months g) val in
      let! e := py_nth ends i in
      let! (y2, m2) := py_nth (yc_months g) e in
      let! cl := classify g gap y1 m1 y2 m2 in
      let! rest := yield_loop g gap (i + 1) starts' ends in
      Ok ((y1, m1, y2, m2, cl) :: rest)
  end.

(** YMCounter.py:65-94 yield_start_and_end_dates. *)
Definition yield_start_and_end_dates (g : ymcounter) (gap : Z) : res (list chunk_item) :=
  let (starts, ends) := get_chunks gap (yc_counter g) in
  yield_loop g gap 0 starts ends.

(* ---------------------------------------------------------------- Tracking_QC_wrapper.main *)

(** Tracking_QC_wrapper.py:204-211: one ID line for (year, month).  The dictionary is an association
    list in order of first appearance. *)
Fixpoint dict_set (d : list (string * ymcounter)) (fresh : ymcounter) (id : string) (y m : Z) : list (string * ymcounter) :=
  match d with
  | [] => [(id, setym fresh y m 1)]
  | (k, g) :: d' => if String.eqb k id then (k, setym g y m 1) :: d' else (k, g) :: dict_set d' fresh id y m
  end.

(** Tracking_QC_wrapper.py:199-213: all months; [ids ym] are the first columns of that month's ID file. *)
Definition read_ids (ids : Z * Z -> list string) (fresh : ymcounter) (months : list (Z * Z)) : list (string * ymcounter) :=
  fold_left (fun d ym => fold_left (fun d id => dict_set d fresh id (fst ym) (snd ym)) (ids ym) d) months [].

(** Tracking_QC_wrapper.py:222-249: is a chunk submitted in the given edge mode? *)
Definition has (s : string) (l : list string) : bool := existsb (String.eqb s) l.
Definition submits (edge : string) (cl : list string) : bool :=
  String.eqb edge "all" ||
  String.eqb edge "standard" && has "regular" cl ||
  String.eqb edge "new" && has "new" cl ||
  String.eqb edge "noend" && (has "regular" cl || has "start_edge_case" cl).

(** Tracking_QC_wrapper.py:215-249: the submitted jobs. *)
Fixpoint submit_all (edge : string) (gap : Z) (d : list (string * ymcounter)) : res (list (string * chunk_item)) :=
  match d with
  | [] => Ok []
  | (id, g) :: d' =>
      let! items := yield_start_and_end_dates g gap in
      let! rest := submit_all edge gap d' in
      Ok (map (fun it => (id, it)) (filter (fun it => submits edge (snd it)) items) ++ rest)
  end.

(** Tracking_QC_wrapper.py:185-249.  File reading, job files and queueing are not modelled: the result is
    the list of (identifier, chunk) pairs for which write_submission is called. *)
Definition wrapper (fuel : nat) (ids : Z * Z -> list string) (edge : string) (gap y1 m1 y2 m2 : Z)
  : res (option (list (string * chunk_item))) :=
  if negb (has edge ["standard"; "all"; "new"; "noend"]%string) then Err OtherError else
  let! ms := year_month_gen fuel y1 m1 y2 m2 in
  match ms with
  | None => Ok None
  | Some months =>
      let! fresh := ymc_init fuel y1 m1 y2 m2 in
      match fresh with
      | None => Ok None
      | Some g =>
          let! jobs := submit_all edge gap (read_ids ids g months) in
          Ok (Some jobs)
      end
  end.
