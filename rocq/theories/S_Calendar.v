(** Independent specification of the Gregorian calendar: which dates exist and which
    date comes next.  Does not refer to the model. *)
Require Import ZArith QArith List Bool.
Open Scope Z_scope.

(** Leap years: divisible by 4, except centuries not divisible by 400. *)
Definition leap_year (y : Z) : Prop :=
  (4 | y) /\ (~ (100 | y) \/ (400 | y)).

(** [month_has y m n]: month m of year y has n days. *)
Inductive month_has : Z -> Z -> Z -> Prop :=
| mh_31 : forall y m, m = 1 \/ m = 3 \/ m = 5 \/ m = 7 \/ m = 8 \/ m = 10 \/ m = 12 -> month_has y m 31
| mh_30 : forall y m, m = 4 \/ m = 6 \/ m = 9 \/ m = 11 -> month_has y m 30
| mh_29 : forall y, leap_year y -> month_has y 2 29
| mh_28 : forall y, ~ leap_year y -> month_has y 2 28.

Record date := mkdate { yr : Z; mo : Z; dy : Z }.

Definition valid (d : date) : Prop :=
  exists n, month_has (yr d) (mo d) n /\ 1 <= dy d <= n.

(** [next d d']: d' is the calendar day following d. *)
Inductive next : date -> date -> Prop :=
| next_day : forall y m d n, month_has y m n -> 1 <= d < n ->
    next (mkdate y m d) (mkdate y m (d + 1))
| next_month : forall y m n, month_has y m n -> m < 12 ->
    next (mkdate y m n) (mkdate y (m + 1) 1)
| next_year : forall y, next (mkdate y 12 31) (mkdate (y + 1) 1 1).

(** [days_later n d d']: d' is n days after d. *)
Inductive days_later : nat -> date -> date -> Prop :=
| dl_0 : forall d, days_later 0 d d
| dl_S : forall n d d' d'', days_later n d d' -> next d' d'' -> days_later (S n) d d''.

(** d is strictly earlier than d' in the calendar (lexicographic). *)
Definition earlier (d d' : date) : Prop :=
  yr d < yr d' \/ (yr d = yr d' /\ (mo d < mo d' \/ (mo d = mo d' /\ dy d < dy d'))).

(** Months counted from year 0: used to say "n months later". *)
Definition month_number (ym : Z * Z) : Z := 12 * fst ym + (snd ym - 1).

(** A (year, month) pair whose month is 1..12. *)
Definition ym_ok (ym : Z * Z) : Prop := 1 <= snd ym <= 12.

(** An hour of the day. *)
Definition hour_ok (h : Q) : Prop := (0 <= h)%Q /\ (h < 24)%Q.

(** A month/day pair that occurs in a leap year (29 February included). *)
Definition md_valid (m d : Z) : Prop := valid (mkdate 2004 m d).

(** The place of a month and day in the 365-day year: 1 January is day 1, 29 February counts as 1 March. *)
Definition common_day (m d n : Z) : Prop :=
  (m = 2 /\ d = 29 /\ n = 60) \/
  exists k, n = Z.of_nat k + 1 /\ days_later k (mkdate 2003 1 1) (mkdate 2003 m d).
(** The five-day period of a month and day, counted from 0: days 1-5 of the year are pentad 0. *)
Definition pentad (m d p : Z) : Prop := exists n, common_day m d n /\ 5 * p < n <= 5 * p + 5.
