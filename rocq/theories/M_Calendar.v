(** Model of the calendar functions of qc.py.  No proofs here. *)
Require Import String ZArith QArith List Bool.
Require Import Verif.M_Base.
Import ListNotations.
Open Scope Z_scope.

(** qc.py:14-18 month_match. *)
Definition month_match (y1 m1 y2 m2 : Z) : Z :=
  if (y1 =? y2) && (m1 =? m2) then 1 else 0.

(** Python standard library calendar.isleap, used at qc.py:1722. *)
Definition py_isleap (year : Z) : bool :=
  (year mod 4 =? 0) && (negb (year mod 100 =? 0) || (year mod 400 =? 0)).

(** qc.py:1713-1727 get_month_lengths. *)
Definition get_month_lengths (year : Z) : list Z :=
  if py_isleap year
  then [31; 29; 31; 30; 31; 30; 31; 31; 30; 31; 30; 31]
  else [31; 28; 31; 30; 31; 30; 31; 31; 30; 31; 30; 31].

(** Constructor check of Python's datetime(year, month, day), used at qc.py:36:
    years 1..9999, months 1..12, days 1..length of month (else ValueError). *)
Definition datetime_ok (year month day : Z) : bool :=
  (1 <=? year) && (year <=? 9999) && (1 <=? month) && (month <=? 12) && (1 <=? day) &&
  match py_nth (get_month_lengths year) (month - 1) with
  | Ok ml => day <=? ml
  | Err _ => false
  end.

(** qc.py:21-41 yesterday.  [None] stands for the triple (None, None, None) returned by
    the except branch.  The timedelta(-1) of the library is modelled by its effect;
    datetime(1,1,1) - 1 day overflows and reaches the except branch.
    Simplification: arguments are ints (a float argument makes datetime raise, which
    also reaches the except branch). *)
Definition yesterday (year month day : Z) : option (Z * Z * Z) :=
  if datetime_ok year month day then
    if 1 <? day then Some (year, month, day - 1)
    else if 1 <? month then
      match py_nth (get_month_lengths year) (month - 2) with
      | Ok ml => Some (year, month - 1, ml)
      | Err _ => None
      end
    else if 1 <? year then Some (year - 1, 12, 31)
    else None
  else None.

(** qc.py:44-61 season. *)
Definition season (month : Z) : res (option string) :=
  if (month <? 0) || (12 <? month) then Ok None
  else
    let! s := py_nth ["DJF"; "DJF"; "MAM"; "MAM"; "MAM"; "JJA"; "JJA"; "JJA";
                      "SON"; "SON"; "SON"; "DJF"]%string (month - 1) in
    Ok (Some s).

(** qc.py:64-85 pentad_to_month_day. *)
Definition pentad_months : list Z :=
  [1; 1; 1; 1; 1; 1; 1; 2; 2; 2; 2; 2;
   3; 3; 3; 3; 3; 3; 4; 4; 4; 4; 4; 4;
   5; 5; 5; 5; 5; 5; 5; 6; 6; 6; 6; 6; 6;
   7; 7; 7; 7; 7; 7; 8; 8; 8; 8; 8; 8;
   9; 9; 9; 9; 9; 9; 10; 10; 10; 10; 10; 10;
   11; 11; 11; 11; 11; 11; 12; 12; 12; 12; 12; 12].
Definition pentad_days : list Z :=
  [1; 6; 11; 16; 21; 26; 31; 5; 10; 15; 20; 25; 2; 7; 12; 17; 22;
   27; 1; 6; 11; 16; 21; 26; 1; 6; 11; 16; 21; 26; 31; 5; 10; 15; 20;
   25; 30; 5; 10; 15; 20; 25; 30; 4; 9; 14; 19; 24; 29; 3; 8; 13; 18;
   23; 28; 3; 8; 13; 18; 23; 28; 2; 7; 12; 17; 22; 27; 2; 7; 12; 17; 22; 27].
Definition pentad_to_month_day (p : Z) : res (Z * Z) :=
  assert! (0 <? p) && (p <? 74);
  let! m := py_nth pentad_months (p - 1) in
  let! d := py_nth pentad_days (p - 1) in
  Ok (m, d).

(** numpy.sum / Python sum of a list of ints. *)
Definition sumZ (l : list Z) : Z := fold_left Z.add l 0.

(** qc.py:115-142 day_in_year.  The recursive call day_in_year(3, 1) for 29 February is
    unfolded to the non-recursive branch it takes. *)
Definition day_in_year_plain (month day : Z) : res Z :=
  assert! (1 <=? month);
  assert! (month <=? 12);
  assert! (1 <=? day);
  let! ml := py_nth (get_month_lengths 2004) (month - 1) in
  assert! (day <=? ml);
  if month =? 1 then Ok day
  else Ok (sumZ (firstn (Z.to_nat (month - 1)) (get_month_lengths 2003)) + day).
Definition day_in_year (month day : Z) : res Z :=
  assert! (1 <=? month);
  assert! (month <=? 12);
  assert! (1 <=? day);
  let! ml := py_nth (get_month_lengths 2004) (month - 1) in
  assert! (day <=? ml);
  if month =? 1 then Ok day
  else if (month =? 2) && (day =? 29) then day_in_year_plain 3 1
  else Ok (sumZ (firstn (Z.to_nat (month - 1)) (get_month_lengths 2003)) + day).

(** qc.py:88-112 which_pentad (Python 2 integer division). *)
Definition which_pentad (inmonth inday : Z) : res Z :=
  assert! (inmonth <=? 12) && (1 <=? inmonth);
  assert! (inday <=? 31) && (1 <=? inday);
  let! diy := day_in_year inmonth inday in
  let pentad := (diy - 1) / 5 in
  let pentad := pentad + 1 in
  assert! (1 <=? pentad);
  assert! (pentad <=? 73);
  Ok pentad.

(** qc.py:1218-1243 dayinyear (with the year). *)
Definition dayinyear (year month day : Z) : res Z :=
  assert! (1 <=? month) && (month <=? 12);
  assert! (1 <=? day);
  let! ml := py_nth (get_month_lengths year) (month - 1) in
  assert! (day <=? ml);
  let result := day in
  let result := if 1 <? month
                then result + sumZ (firstn (Z.to_nat (month - 1)) (get_month_lengths year))
                else result in
  assert! (1 <=? result) && (result <=? 366);
  Ok result.

(** qc.py:1314-1335 jul_day. *)
Definition jul_day (year month day : Z) : res Z :=
  assert! (1 <=? month) && (month <=? 12);
  assert! (1 <=? day) && (day <=? 31);
  let a := (14 - month) / 12 in
  let y := year + 4800 - a in
  let m := month + 12 * a - 3 in
  Ok (day + ((153 * m + 2) / 5) + 365 * y + y / 4 - y / 100 + y / 400 - 32045).

(** The ordering test at qc.py:1367-1371 inside time_difference. *)
Definition td_later (year1 month1 day1 : Z) (hour1 : Q)
                    (year2 month2 day2 : Z) (hour2 : Q) : bool :=
  (year2 <? year1)
  || ((year1 =? year2) && (month2 <? month1))
  || ((year1 =? year2) && (month1 =? month2) && (day2 <? day1))
  || ((year1 =? year2) && (month1 =? month2) && (day1 =? day2) && Qltb hour2 hour1).

(** qc.py:1375-1380, the straight-line tail of time_difference. *)
Definition td_forward (year1 month1 day1 : Z) (hour1 : Q)
                      (year2 month2 day2 : Z) (hour2 : Q) : res (option Q) :=
  let! j1 := jul_day year1 month1 day1 in
  let! j2 := jul_day year2 month2 day2 in
  let first_day := (inject_Z j1 + hour1 / 24)%Q in
  let last_day := (inject_Z j2 + hour2 / 24)%Q in
  Ok (Some (24 * (last_day - first_day))%Q).

(** qc.py:1338-1380 time_difference.  [None] hours are missing.  After one swap the
    ordering test is false, so the recursion is unfolded once; [-1 * None] would be a
    TypeError but the swapped call never returns None. Simplification: year, month and
    day are ints. *)
Definition time_difference (year1 month1 day1 : Z) (hour1 : option Q)
                           (year2 month2 day2 : Z) (hour2 : option Q) : res (option Q) :=
  match hour1, hour2 with
  | Some h1, Some h2 =>
      assert! (Qleb 0 h1 && Qltb h1 24) && (Qleb 0 h2 && Qltb h2 24);
      if td_later year1 month1 day1 h1 year2 month2 day2 h2 then
        let! r := td_forward year2 month2 day2 h2 year1 month1 day1 h1 in
        match r with
        | Some t => Ok (Some (-(1) * t)%Q)
        | None => Err TypeError
        end
      else td_forward year1 month1 day1 h1 year2 month2 day2 h2
  | _, _ => Ok None
  end.

(** qc.py:1644-1659 last_month_was. *)
Definition last_month_was (year month : Z) : Z * Z :=
  let last_month := month - 1 in
  if last_month =? 0 then (year - 1, 12) else (year, last_month).

(** qc.py:1662-1677 next_month_is. *)
Definition next_month_is (year month : Z) : Z * Z :=
  let next_month := month + 1 in
  if 12 <? next_month then (year + 1, 1) else (year, next_month).

(** qc.py:1700-1710, the loop of year_month_gen.  [None]: the loop has not finished
    after [fuel] iterations. *)
Fixpoint ym_loop (fuel : nat) (year month year2 month2 : Z) : option (list (Z * Z)) :=
  if (year =? year2) && (month =? month2) then Some [(year, month)]
  else match fuel with
       | O => None
       | S k =>
           let month' := month + 1 in
           let '(year'', month'') := if 12 <? month' then (year + 1, 1) else (year, month') in
           match ym_loop k year'' month'' year2 month2 with
           | Some l => Some ((year, month) :: l)
           | None => None
           end
       end.

(** qc.py:1680-1710 year_month_gen: the list of yielded pairs. *)
Definition year_month_gen (fuel : nat) (year1 month1 year2 month2 : Z)
  : res (option (list (Z * Z))) :=
  assert! (year1 <=? year2);
  assert! (0 <? month1) && (month1 <=? 12);
  Ok (ym_loop fuel year1 month1 year2 month2).

(** qc.py:881-914 date_check.  None year or month: assertion. *)
Definition date_check (inyear inmonth inday : option Z) : res Z :=
  match inyear with
  | None => Err AssertionError
  | Some yr =>
    match inmonth with
    | None => Err AssertionError
    | Some mo =>
      let result := 0 in
      let result := if (2024 <? yr) || (yr <? 1850) then 1 else result in
      let result := if (mo <? 1) || (12 <? mo) then 1 else result in
      let month_lengths := get_month_lengths yr in
      match inday with
      | None => Ok 1
      | Some dy =>
          if dy <? 1 then Ok 1
          else
            let! ml := py_nth month_lengths (mo - 1) in
            if ml <? dy then Ok 1 else Ok result
      end
    end
  end.
