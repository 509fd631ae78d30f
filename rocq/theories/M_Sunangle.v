(** Model of sunangle with all its arguments and results, over the real numbers.  No proofs here.

    Simplification: exact arithmetic instead of floats; the functions of M_SunR see the hour and the minute only through their sum, so
    the seconds are added to the minute, the time zone and the summer time to the hour (qc.py:1111). *)
Require Import ZArith Reals Bool.
Require Import Verif.M_Base Verif.M_Real Verif.M_SunR.
Open Scope R_scope.

(** qc.py:1186-1208: the azimuth, from the latitude, the declination, the hour angle and the elevation in radians.  At the nadir exactly
    the quotient of line 1195 is not defined; the floats never have a cosine of exactly 0 there, and theorems exclude it. *)
Definition sun_azimuth (phi dec h elev : R) : res R :=
  let azimuth := if Rlt_dec 0 (phi - dec) then 0 else 180 in
  if Rlt_dec 0.000001 (Rabs (elev - 2 * PI / 4)) then
    let azimuth := asin (clip1 (cos dec * sin h / cos elev)) / degrad in
    if Req_EM_T (sin phi) 0 then Err ZeroDivisionError
    else
      let azimuth :=
        if Rlt_dec (sin elev) (sin dec / sin phi) then
          let azimuth := if Rlt_dec azimuth 0 then azimuth + 360 else azimuth in
          180 - azimuth
        else azimuth in
      Ok (180 + azimuth)
  else Ok azimuth.

Record sun_angles : Type := mkangles { s_azimuth : R; s_elevation : R; s_rta : R; s_hra : R; s_sid : R; s_dec : R }.
Definition in_range (x lo hi : R) : bool := if Rle_dec lo x then if Rlt_dec x hi then true else false else false.
(** qc.py:1059-1215 sunangle.  The assertion of line 1213 always holds (C45). *)
Definition sunangle (year day : Z) (hour minute sec zone dasvtm lat lon : R) : res sun_angles :=
  assert! (0 <? day)%Z && (day <=? 366)%Z;
  assert! in_range hour 0 24;
  assert! in_range minute 0 60;
  assert! in_range sec 0 60;
  assert! (if Rle_dec (-90) lat then if Rle_dec lat 90 then true else false else false);
  let hour := hour + zone - dasvtm in
  let minute := minute + sec / 60 in
  let t := sun_time year day hour minute in
  let rta := right_ascension t / degrad in
  let sid := local_siderial_time year t hour minute lon / degrad in
  let sid := if Rlt_dec sid 0 then 360 + sid else sid in
  let h := hour_angle year t hour minute lon in
  let hra := h / degrad in
  let hra := if Rlt_dec hra 0 then 360 + hra else hra in
  let elev := elevation year day hour minute lat lon in
  let! azimuth := sun_azimuth (lat * degrad) (declination t) h (elev * degrad) in
  Ok (mkangles azimuth elev rta hra sid (declination t / degrad)).
