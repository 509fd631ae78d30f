(** Specification of chunks of a monthly record, independent of the model. *)
Require Import String ZArith List Bool.
Require Import Verif.S_Calendar.
Import ListNotations.
Open Scope Z_scope.

(** [D i]: month number [i] has data.  Months s..e form a chunk: they begin and end with data, inside
    there are never [gap] consecutive months without data, and the [gap] months before and after have
    no data. *)
Definition chunk_of (gap : Z) (D : Z -> Prop) (s e : Z) : Prop :=
  D s /\ D e /\ s <= e /\
  (forall i, s <= i < e -> D i -> exists j, i < j <= i + gap /\ j <= e /\ D j) /\
  (forall i, s - gap <= i < s -> ~ D i) /\
  (forall i, e < i <= e + gap -> ~ D i).

(** For a list of flags, 1 for a month with data and 0 for a month without (months counted from 0;
    months outside the record have no data). *)
Definition data (c : list Z) (i : Z) : Prop := 0 <= i /\ nth_error c (Z.to_nat i) = Some 1.
Definition flags_ok (c : list Z) : Prop := forall v, In v c -> v = 0 \/ v = 1.
Definition is_chunk (gap : Z) (c : list Z) (s e : Z) : Prop := chunk_of gap (data c) s e.

(** Parts of a yielded item (year1, month1, year2, month2, classification). *)
Definition item_start (it : Z * Z * Z * Z * list string) : Z * Z := let '(y1, m1, _, _, _) := it in (y1, m1).
Definition item_end (it : Z * Z * Z * Z * list string) : Z * Z := let '(_, _, y2, m2, _) := it in (y2, m2).
Definition item_class (it : Z * Z * Z * Z * list string) : list string := snd it.
Definition first_of (it : Z * Z * Z * Z * list string) : Z := month_number (item_start it).
Definition last_of (it : Z * Z * Z * Z * list string) : Z := month_number (item_end it).

(** The flag of a month after a history of assignments (month, flag), initially 0. *)
Definition flag_after (ops : list (Z * Z * Z)) (ym : Z * Z) : Z :=
  fold_left (fun acc op => if (fst (fst op) =? fst ym) && (snd (fst op) =? snd ym) then snd op else acc) ops 0.

(** Month number [k] lies in the interval and its flag is 1 after the history. *)
Definition flagged (first last : Z * Z) (ops : list (Z * Z * Z)) (k : Z) : Prop :=
  month_number first <= k <= month_number last /\
  exists ym, ym_ok ym /\ month_number ym = k /\ flag_after ops ym = 1.

(** Month number [k] lies in the interval and the identifier is in that month's ID file. *)
Definition present (first last : Z * Z) (ids : Z * Z -> list string) (id : string) (k : Z) : Prop :=
  month_number first <= k <= month_number last /\
  exists ym, ym_ok ym /\ month_number ym = k /\ In id (ids ym).

(** What the classification must say about an item. *)
Definition class_ok (gap : Z) (first last : Z * Z) (it : Z * Z * Z * Z * list string) : Prop :=
  let cl := item_class it in
  (In "start_edge_case"%string cl <-> first_of it - month_number first < gap) /\
  (In "end_edge_case"%string cl <-> month_number last - last_of it < gap) /\
  (In "new"%string cl <-> month_number last - last_of it = gap) /\
  (In "regular"%string cl <-> gap <= first_of it - month_number first /\ gap <= month_number last - last_of it).

(** The chunks each mode is documented to run (Tracking_QC_wrapper.py:117-137), for an interval of
    months [first .. last]: every chunk; chunks at least gap months from both ends; chunks ending exactly
    gap months before the end; chunks not ending fewer than gap months from the end. *)
Definition wanted (mode : string) (gap first last s e : Z) : Prop :=
  (mode = "all"%string) \/
  (mode = "standard"%string /\ gap <= s - first /\ gap <= last - e) \/
  (mode = "new"%string /\ last - e = gap) \/
  (mode = "noend"%string /\ gap <= last - e).
