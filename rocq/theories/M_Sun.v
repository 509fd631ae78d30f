(** Model of the day/night tests (qc.py day_test, trackqc.py track_day_test).  The solar elevation is an
    argument: sunangle's formula itself is modelled over the reals in M_SunR.v.  No proofs here. *)
Require Import ZArith QArith Qround List Bool.
Require Import Verif.M_Base Verif.M_Calendar.
Import ListNotations.
Open Scope Z_scope.

Section Sun.
(** Solar elevation in degrees for year, day of year, hour, minute, latitude, longitude (sec, zone and
    daylight-saving arguments are always 0 in the program). *)
Variable elev : Z -> Z -> Q -> Q -> Q -> Q -> Q.

(** qc.py:1059-1215 sunangle, its second result: the checks around the formula (1094-1098, 1213). *)
Definition sun_elevation (year day : Z) (hour minute la lo : Q) : res Q :=
  assert! (0 <? day) && (day <=? 366);
  assert! Qleb 0 hour && Qltb hour 24;
  assert! Qleb 0 minute && Qltb minute 60;
  assert! Qleb la 90 && Qleb (-90) la;
  let e := elev year day hour minute la lo in
  assert! Qleb e 180 && Qleb (-180) e;
  Ok e.

(** [if x == 0: x = 0.0001]. *)
Definition off_zero (x : Q) : Q := if Qeqb x 0 then (1 # 10000)%Q else x.

(** qc.py:1246-1311 day_test.  In Python 2 a missing month, day, hour or latitude fails the range
    assertions; a missing year gives 0.  A missing longitude is not modelled. *)
Definition day_test (year month day : option Z) (hour la : option Q) (lo since : Q) : res Z :=
  match month, day, hour, la with
  | Some month, Some day, Some hour, Some la =>
      assert! (1 <=? month) && (month <=? 12);
      assert! (1 <=? day) && (day <=? 31);
      assert! Qleb 0 hour && Qleb hour 24;
      assert! Qleb la 90 && Qleb (-90) la;
      match year with
      | None => Ok 0
      | Some year =>
          let! day2 := dayinyear year month day in
          let hour2 := inject_Z (Qfloor hour) in
          let minute2 := ((hour - inject_Z (Qfloor hour)) * 60)%Q in
          let hour2 := (hour2 - since)%Q in
          let! (year2, day2, hour2) :=
            (if Qltb hour2 0 then
               let hour2 := (hour2 + 24)%Q in
               let day2 := day2 - 1 in
               if day2 <=? 0 then
                 let year2 := year - 1 in
                 let! day2 := dayinyear year2 12 31 in Ok (year2, day2, hour2)
               else Ok (year, day2, hour2)
             else Ok (year, day2, hour2)) in
          let! e := sun_elevation year2 day2 hour2 minute2 (off_zero la) (off_zero lo) in
          Ok (if Qltb 0 e then 1 else 0)
      end
  | _, _, _, _ => Err AssertionError
  end.

(** trackqc.py:31-89 track_day_test. *)
Definition track_day_test (year month day : option Z) (hour la lo : option Q) (elevdlim : Q) : res bool :=
  match year, month, day, hour, la, lo with
  | Some year, Some month, Some day, Some hour, Some la, Some lo =>
      assert! (1 <=? month) && (month <=? 12);
      assert! (1 <=? day) && (day <=? 31);
      assert! Qleb 0 hour && Qleb hour 24;
      assert! Qleb la 90 && Qleb (-90) la;
      let! day2 := dayinyear year month day in
      let hour2 := inject_Z (Qfloor hour) in
      let minute2 := ((hour - inject_Z (Qfloor hour)) * 60)%Q in
      let! e := sun_elevation year day2 hour2 minute2 (off_zero la) (off_zero lo) in
      Ok (Qltb elevdlim e)
  | _, _, _, _, _, _ => Err AssertionError
  end.
End Sun.
