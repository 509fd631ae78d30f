(** Model of the base quality control of one report: class MarineReportQC (Extended_IMMA.py:1084-1463) and
    qc.base_qc_report (qc.py:1776-1852).  No proofs here.
    The data array holds NumPy floats, so the divisions inside the checks are NumPy divisions (no exception
    for a zero divisor).  The parameter dictionaries are records: a missing key (KeyError, or one of the
    `assert ... in parameters`) is not modelled. *)
Require Import String ZArith QArith Qround List Bool.
Require Import Verif.M_Base Verif.M_Calendar Verif.M_Checks Verif.M_Report Verif.M_Sun.
Import ListNotations.
Open Scope string_scope.
Open Scope list_scope.
Open Scope Z_scope.

(** The parts of the parameter dictionary that base QC reads (keys in the order of Extended_IMMA.py:1090-1381). *)
Record params := {
  p_since : Q;                                             (* base: time_since_sun_above_horizon *)
  p_sst_freeze : Q; p_sst_sigma : Q; p_sst_anom : Q; p_sst_lim : Q * Q;
  p_at_anom : Q; p_at_lim : Q * Q; p_at_sd : Q * Q; p_at_k : Q;
  p_dpt_lim : Q * Q; p_dpt_sd : Q * Q; p_dpt_k : Q;
  p_shu_lim : Q * Q; p_rh_lim : Q * Q;
  p_slp_k : Q; p_slp_bar : Q;
  p_w_lim : Q * Q; p_w_var : Q;
  p_dat_anom : Q; p_dat_lim : Q * Q }.

(** A value of the data array or of a climatology as an argument of the checks. *)
Definition ox (v : option Q) : option xnum := match v with Some q => Some (Fin q) | None => None end.
Definition lims (l : Q * Q) : xnum * xnum := (Fin (fst l), Fin (snd l)).
(** NumPy division of finite floats. *)
Definition np_quot (a b : Q) : xnum :=
  if Qeqb b 0 then (if Qeqb a 0 then NaN else if Qltb 0 a then PInf else NInf) else Fin (a / b)%Q.

(** qc.py:632-655 climatology_plus_stdev_with_lowbar on NumPy floats. *)
Definition stdev_with_lowbar_np (inval inclimav instdev : option Q) (limit lowbar : Q) : res Z :=
  assert! (Qltb 0 limit);
  match inval, inclimav, instdev with
  | Some v, Some c, Some s =>
      if x_ltb (Fin limit) (np_quot (Qabs' (v - c)) s) && Qltb lowbar (Qabs' (v - c)) then Ok 1 else Ok 0
  | _, _, _ => Ok 1
  end.
(** qc.py:658-694 climatology_plus_stdev_check on NumPy floats. *)
Definition plus_stdev_np (inval inclimav instdev : option Q) (stdev_limits : Q * Q) (limit : Q) : res Z :=
  assert! (Qltb (fst stdev_limits) (snd stdev_limits));
  assert! (Qltb 0 limit);
  match inval, inclimav, instdev with
  | Some v, Some c, Some s =>
      let stdev := s in
      let stdev := if Qltb stdev (fst stdev_limits) then fst stdev_limits else stdev in
      let stdev := if Qltb (snd stdev_limits) stdev then snd stdev_limits else stdev in
      if x_ltb (Fin limit) (np_quot (Qabs' (v - c)) stdev) then Ok 1 else Ok 0
  | _, _, _ => Ok 1
  end.

(** [x in list] for an integer variable that may be missing, and [x == z]. *)
Definition int_in (x : option Z) (l : list Z) : bool := match x with Some z => existsb (Z.eqb z) l | None => false end.
Definition int_is (x : option Z) (z : Z) : bool := int_in x [z].

(** Set a flag to the value of a check that may raise. *)
Definition set_qc_r (r : report) (t f : string) (v : res Z) : res report := let! z := v in set_qc r t f z.

(** Extended_IMMA.py:1214-1222 do_fix_missing_hour ([None < 1860] is True in Python 2). *)
Definition do_fix_missing_hour (r : report) : res report :=
  if int_is (getint r "DCK") 701 && (match getint r "YR" with Some y => y <? 1860 | None => true end)
     && (match getvar r "HR" with None => true | Some _ => false end)
  then let! r := setvar r "HR" (Some 0%Q) in calculate_dt r
  else Ok r.

(** Extended_IMMA.py:1440-1453 is_buoy. *)
Definition is_buoy (r : report) : res report :=
  let! r := (if int_in (getint r "PT") [6; 7] then set_qc r "POS" "isbuoy" 1 else set_qc r "POS" "isbuoy" 0) in
  if int_is (getint r "PT") 7 then set_qc r "POS" "isdrifter" 1 else set_qc r "POS" "isdrifter" 0.
(** Extended_IMMA.py:1455-1463 is_ship. *)
Definition is_ship (r : report) : res report :=
  if int_in (getint r "PT") [0; 1; 2; 3; 4; 5; 10; 11; 12; 17] then set_qc r "POS" "isship" 1 else set_qc r "POS" "isship" 0.
(** Extended_IMMA.py:1383-1390 is_deck_780. *)
Definition is_deck_780 (r : report) : res report :=
  if int_is (getint r "DCK") 780 then set_qc r "POS" "is780" 1 else set_qc r "POS" "is780" 0.
(** Extended_IMMA.py:1224-1230 do_position_check. *)
Definition do_position_check (r : report) : res report :=
  set_qc_r r "POS" "pos" (position_check (ox (getvar r "LAT")) (ox (getvar r "LON"))).
(** Extended_IMMA.py:1232-1239 do_date_check. *)
Definition do_date_check (r : report) : res report :=
  set_qc_r r "POS" "date" (date_check (getint r "YR") (getint r "MO") (getint r "DY")).
(** Extended_IMMA.py:1241-1246 do_time_check. *)
Definition do_time_check (r : report) : res report :=
  set_qc r "POS" "time" (time_check (ox (getvar r "HR"))).
(** Extended_IMMA.py:1265-1276 do_blacklist.  It runs after the position and date checks, which raise for a
    missing latitude, longitude, year or month; those cases are therefore not distinguished here. *)
Definition do_blacklist (r : report) : res report :=
  match getint r "YR", getint r "MO", lat r, lon r with
  | Some y, Some m, Some la, Some lo =>
      set_qc_r r "POS" "blklst" (blacklist (r_id r) (getint r "DCK") y m la lo (getint r "PT"))
  | _, _, _, _ => Err TypeError
  end.
(** Extended_IMMA.py:1403-1411 humidity_blacklist. *)
Definition humidity_blacklist (r : report) : res report :=
  let! r := set_qc r "DPT" "hum_blacklist" 0 in
  if int_in (getint r "PT") [0; 1; 2; 3; 4; 5; 6; 8; 9; 10; 15] then set_qc r "DPT" "hum_blacklist" 0
  else set_qc r "DPT" "hum_blacklist" 1.
(** The regions of Extended_IMMA.py:1429-1434 and qc.py:1801-1805 (comparisons with None are false here). *)
Definition mat_region (lo la : option Q) : bool :=
  match lo, la with
  | Some lo, Some la =>
      (Qleb (-80) lo && Qleb lo 0 && (Qleb 40 la && Qleb la 55))
      || (Qleb (-10) lo && Qleb lo 30 && (Qleb 35 la && Qleb la 45))
      || (Qleb 15 lo && Qleb lo 45 && (Qleb (-10) la && Qleb la 40))
      || (Qleb 15 lo && Qleb lo 95 && Qleb (-10) la && Qleb la 15)
      || (Qleb 95 lo && Qleb lo 105 && (Qleb (-10) la && Qleb la 5))
  | _, _ => false
  end.
Definition year_between (y : option Z) (a b : Z) : bool :=
  match y with Some y => (a <=? y) && (y <=? b) | None => false end.
(** Extended_IMMA.py:1413-1438 mat_blacklist. *)
Definition mat_blacklist (r : report) : res report :=
  let! r := set_qc r "AT" "mat_blacklist" 0 in
  let! r := (if int_is (getint r "PT") 5 && int_is (getint r "DCK") 780 then set_qc r "AT" "mat_blacklist" 1 else Ok r) in
  if int_is (getint r "DCK") 193 && year_between (getint r "YR") 1880 1892 && mat_region (lon r) (lat r)
  then set_qc r "AT" "mat_blacklist" 1 else Ok r.
(** Extended_IMMA.py:1392-1401 wind_blacklist. *)
Definition wind_blacklist (r : report) : res report :=
  let! r := set_qc r "W" "wind_blacklist" 0 in
  if int_in (getint r "DCK") [708; 780] then set_qc r "W" "wind_blacklist" 1 else Ok r.

(** Extended_IMMA.py:1278-1285 do_base_wind_qc. *)
Definition do_base_wind_qc (p : params) (r : report) : res report :=
  let! r := set_qc r "W" "noval" (value_check (getvar r "W")) in
  let! r := set_qc_r r "W" "hardlimit" (hard_limit (ox (getvar r "W")) (lims (p_w_lim p))) in
  set_qc r "W" "consistency" (wind_consistency (ox (getvar r "W")) (ox (getvar r "D")) (Fin (p_w_var p))).
(** Extended_IMMA.py:1287-1300 do_base_slp_qc. *)
Definition do_base_slp_qc (p : params) (r : report) : res report :=
  let! r := set_qc r "SLP" "noval" (value_check (getvar r "SLP")) in
  let! r := set_qc_r r "SLP" "clim" (stdev_with_lowbar_np (getvar r "SLP") (getnorm r "SLP") (getnorm_stdev r "SLP") (p_slp_k p) (p_slp_bar p)) in
  set_qc r "SLP" "nonorm" (no_normal_check (getnorm r "SLP")).
(** Extended_IMMA.py:1302-1322 do_base_sst_qc. *)
Definition do_base_sst_qc (p : params) (r : report) : res report :=
  let! r := set_qc r "SST" "noval" (value_check (getvar r "SST")) in
  let! r := set_qc_r r "SST" "freez" (sst_freeze_check (ox (getvar r "SST")) (Some (Fin 0)) (Some (Fin (p_sst_freeze p))) (Fin (p_sst_sigma p))) in
  let! r := set_qc r "SST" "clim" (climatology_check (ox (getvar r "SST")) (ox (getnorm r "SST")) (Some (Fin (p_sst_anom p)))) in
  let! r := set_qc r "SST" "nonorm" (no_normal_check (getnorm r "SST")) in
  set_qc_r r "SST" "hardlimit" (hard_limit (ox (getvar r "SST")) (lims (p_sst_lim p))).
(** Extended_IMMA.py:1324-1335 do_base_mat_qc and 1337-1348 do_base_dat_qc: the same checks under another name. *)
Definition mat_checks (name : string) (anom : Q) (lim : Q * Q) (r : report) : res report :=
  let! r := set_qc r name "noval" (value_check (getvar r name)) in
  let! r := set_qc r name "clim" (climatology_check (ox (getvar r name)) (ox (getnorm r name)) (Some (Fin anom))) in
  let! r := set_qc r name "nonorm" (no_normal_check (getnorm r name)) in
  set_qc_r r name "hardlimit" (hard_limit (ox (getvar r name)) (lims lim)).
Definition do_base_mat_qc (p : params) (r : report) : res report := mat_checks "AT" (p_at_anom p) (p_at_lim p) r.
Definition do_base_dat_qc (p : params) (r : report) : res report := mat_checks "DAT" (p_dat_anom p) (p_dat_lim p) r.
(** Extended_IMMA.py:1350-1365 do_kate_mat_qc (the hard limits are applied to AT). *)
Definition do_kate_mat_qc (p : params) (r : report) : res report :=
  let! r := set_qc_r r "AT2" "clim" (plus_stdev_np (getvar r "AT2") (getnorm r "AT2") (getnorm_stdev r "AT2") (p_at_sd p) (p_at_k p)) in
  let! r := set_qc r "AT2" "noval" (value_check (getvar r "AT2")) in
  let! r := set_qc r "AT2" "nonorm" (no_normal_check (getnorm r "AT2")) in
  set_qc_r r "AT2" "hardlimit" (hard_limit (ox (getvar r "AT")) (lims (p_at_lim p))).
(** Extended_IMMA.py:1367-1381 do_base_dpt_qc. *)
Definition do_base_dpt_qc (p : params) (r : report) : res report :=
  let! r := set_qc_r r "DPT" "clim" (plus_stdev_np (getvar r "DPT") (getnorm r "DPT") (getnorm_stdev r "DPT") (p_dpt_sd p) (p_dpt_k p)) in
  let! r := set_qc r "DPT" "noval" (value_check (getvar r "DPT")) in
  let! r := set_qc r "DPT" "nonorm" (no_normal_check (getnorm r "DPT")) in
  set_qc r "DPT" "ssat" (supersat_check (ox (getvar r "DPT")) (ox (getvar r "AT2"))).

(** Extended_IMMA.py:1117-1121: the special check for silly values of the humidity variables. *)
Fixpoint silly_values (l : list (string * (Q * Q))) (r : report) : res report :=
  match l with
  | [] => Ok r
  | (v, lim) :: l' =>
      let! z := hard_limit (ox (getvar r v)) (lims lim) in
      let! r := (if z =? 1 then set_qc r "DPT" "hardlimit" 1 else Ok r) in silly_values l' r
  end.
Definition humidity_limits (p : params) (r : report) : res report :=
  let! r := set_qc r "DPT" "hardlimit" 0 in
  silly_values [("AT", p_at_lim p); ("DPT", p_dpt_lim p); ("SHU", p_shu_lim p); ("RH", p_rh_lim p)] r.

Section Base.
(** Solar elevation, as in M_Sun. *)
Variable elev : Z -> Z -> Q -> Q -> Q -> Q -> Q.

(** qc.day_test of a report's position; the longitude is present when it is called (see do_blacklist). *)
Definition day_of (r : report) (since : Q) : res Z :=
  match lon r with
  | Some lo => day_test elev (getint r "YR") (getint r "MO") (getint r "DY") (getvar r "HR") (lat r) lo since
  | None => Err TypeError
  end.
(** Extended_IMMA.py:1248-1263 do_day_check. *)
Definition do_day_check (since : Q) (r : report) : res report :=
  if (get_qc r "POS" "pos" =? 0) && (get_qc r "POS" "date" =? 0) && (get_qc r "POS" "time" =? 0)
  then set_qc_r r "POS" "day" (day_of r since)
  else set_qc r "POS" "day" 1.

(** Extended_IMMA.py:1090-1123 perform_base_qc. *)
Definition perform_base_qc (p : params) (r : report) : res report :=
  let! r := do_fix_missing_hour r in
  let! r := is_buoy r in
  let! r := is_ship r in
  let! r := is_deck_780 r in
  let! r := do_position_check r in
  let! r := do_date_check r in
  let! r := do_time_check r in
  let! r := do_blacklist r in
  let! r := do_day_check (p_since p) r in
  let! r := humidity_blacklist r in
  let! r := mat_blacklist r in
  let! r := wind_blacklist r in
  let! r := do_base_sst_qc p r in
  let! r := do_base_mat_qc p r in
  let! r := do_base_dpt_qc p r in
  let! r := do_base_slp_qc p r in
  let! r := do_base_wind_qc p r in
  let! r := humidity_limits p r in
  do_kate_mat_qc p r.

(** Extended_IMMA.py:1125-1144 perform_base_wind_qc. *)
Definition perform_base_wind_qc (p : params) (r : report) : res report :=
  let! r := do_fix_missing_hour r in
  let! r := is_buoy r in
  let! r := is_ship r in
  let! r := wind_blacklist r in
  let! r := do_position_check r in
  let! r := do_date_check r in
  let! r := do_time_check r in
  let! r := do_blacklist r in
  do_base_wind_qc p r.

(** Extended_IMMA.py:1146-1163 perform_base_dat_qc. *)
Definition perform_base_dat_qc (p : params) (r : report) : res report :=
  let! r := do_fix_missing_hour r in
  let! r := is_buoy r in
  let! r := is_ship r in
  let! r := mat_blacklist r in
  let! r := do_position_check r in
  let! r := do_date_check r in
  let! r := do_time_check r in
  let! r := do_blacklist r in
  let! r := do_day_check (p_since p) r in
  do_base_dat_qc p r.

(** Extended_IMMA.py:1165-1181 perform_base_slp_qc and 1183-1199 perform_base_sst_qc up to their last line. *)
Definition base_positional (p : params) (r : report) : res report :=
  let! r := do_fix_missing_hour r in
  let! r := is_buoy r in
  let! r := is_ship r in
  let! r := is_deck_780 r in
  let! r := do_position_check r in
  let! r := do_date_check r in
  let! r := do_time_check r in
  let! r := do_blacklist r in
  do_day_check (p_since p) r.
Definition perform_base_slp_qc (p : params) (r : report) : res report :=
  let! r := base_positional p r in do_base_slp_qc p r.
Definition perform_base_sst_qc (p : params) (r : report) : res report :=
  let! r := base_positional p r in do_base_sst_qc p r.

(** qc.py:1776-1852 base_qc_report (the defaults of sst_freeze_check, -1.80 and 2.0, and of day_test, 1.0,
    are filled in). *)
Definition base_qc_report (r : report) : res report :=
  let! r := (if int_in (getint r "PT") [6; 7] then set_qc r "POS" "isbuoy" 1 else set_qc r "POS" "isbuoy" 0) in
  let! r := is_ship r in
  let! r := set_qc r "POS" "mat_blacklist" 0 in
  let! r := (if int_is (getint r "PT") 5 && int_is (getint r "DCK") 780 then set_qc r "POS" "mat_blacklist" 1 else Ok r) in
  let! r := (if int_is (getint r "DCK") 193 && year_between (getint r "YR") 1880 1893 && mat_region (lon r) (lat r)
             then set_qc r "POS" "mat_blacklist" 1 else Ok r) in
  let! r := is_deck_780 r in
  let! r := set_qc_r r "POS" "pos" (position_check (ox (lat r)) (ox (lon r))) in
  let! r := do_date_check r in
  let! r := (if (get_qc r "POS" "pos" =? 0) && (get_qc r "POS" "date" =? 0)
             then set_qc_r r "POS" "day" (day_of r 1) else set_qc r "POS" "day" 1) in
  let! r := do_blacklist r in
  let! r := set_qc r "SST" "noval" (value_check (getvar r "SST")) in
  let! r := set_qc_r r "SST" "freez" (sst_freeze_check (ox (getvar r "SST")) (Some (Fin 0)) (Some (Fin (-9 # 5)%Q)) (Fin 2)) in
  let! r := set_qc r "SST" "clim" (climatology_check (ox (getvar r "SST")) (ox (getnorm r "SST")) (Some (Fin 8))) in
  let! r := set_qc r "SST" "nonorm" (no_normal_check (getnorm r "SST")) in
  let! r := set_qc r "AT" "noval" (value_check (getvar r "AT")) in
  let! r := set_qc r "AT" "clim" (climatology_check (ox (getvar r "AT")) (ox (getnorm r "AT")) (Some (Fin 10))) in
  set_qc r "AT" "nonorm" (no_normal_check (getnorm r "AT")).
End Base.
