(** Model of the grid lookup and interpolation functions of qc.py and of Climatology.py.
    Positions and resolutions are exact rationals (rounding of float arithmetic is not
    modelled).  No proofs here. *)
Require Import String ZArith QArith Qround List Bool.
Require Import Verif.M_Base Verif.M_Calendar.
Import ListNotations.
Open Scope Z_scope.

(** qc.py:1445-1449 yindex_to_lat (rs is the parameter res, a number for which 180 / res is a true division;
    the default res = 1 gives the same value under integer division). *)
Definition yindex_to_lat (yindex : Z) (rs : Q) : res Q :=
  assert! (0 <=? yindex);
  assert! (Qltb (inject_Z yindex) (180 / rs));
  Ok (90 - inject_Z yindex * rs - rs / 2)%Q.

(** qc.py:1452-1480 mds_lat_to_yindex. *)
Definition mds_lat_to_yindex (lat rs : Q) : Z :=
  let lat_local := lat in
  let lat_local := if Qeqb lat_local (-90) then (lat_local + (1 # 1000))%Q else lat_local in
  let lat_local := if Qeqb lat_local 90 then (lat_local - (1 # 1000))%Q else lat_local in
  if Qltb 0 lat then py_int (90 / rs - 1 - inject_Z (py_int (lat_local / rs)))
  else py_int (90 / rs - inject_Z (py_int (lat_local / rs))).

(** qc.py:1485-1513 lat_to_yindex. *)
Definition lat_to_yindex (lat rs : Q) : Z :=
  if Qeqb rs 1 then
    let yindex := py_int (90 - lat) in
    let yindex := if 180 <=? yindex then 179 else yindex in
    let yindex := if yindex <? 0 then 0 else yindex in
    yindex
  else
    let yindex := py_int ((90 - lat) / rs) in
    let yindex := if Qleb (180 / rs) (inject_Z yindex) then py_int (180 / rs - 1) else yindex in
    let yindex := if yindex <? 0 then 0 else yindex in
    yindex.

(** qc.py:1516-1520 xindex_to_lon. *)
Definition xindex_to_lon (xindex : Z) (rs : Q) : res Q :=
  assert! (0 <=? xindex);
  assert! (Qltb (inject_Z xindex) (360 / rs));
  Ok (inject_Z xindex * rs - 180 + rs / 2)%Q.

(** qc.py:1523-1547 mds_lon_to_xindex. *)
Definition mds_lon_to_xindex (lon rs : Q) : Z :=
  let long_local := lon in
  let long_local := if Qeqb long_local (-180) then (long_local + (1 # 1000))%Q else long_local in
  let long_local := if Qeqb long_local 180 then (long_local - (1 # 1000))%Q else long_local in
  if Qltb 0 long_local then py_int (inject_Z (py_int (long_local / rs)) + 180 / rs)
  else py_int (inject_Z (py_int (long_local / rs)) + 180 / rs - 1).

(** The while loops at qc.py:1573-1574 and 1583-1584, with fuel; [None] is out of fuel. *)
Fixpoint wrap_down (fuel : nat) (x w : Q) : option Q :=
  if Qleb w x then
    match fuel with O => None | S f => wrap_down f (x - w) w end
  else Some x.

(** qc.py:1550-1585 lon_to_xindex.  [None] would mean that the while loop does not finish
    within 1 + xindex / width iterations. *)
Definition lon_to_xindex (lon rs : Q) : option Z :=
  let inlon := lon in
  let inlon := if Qleb 180 inlon then (-180 + (inlon - 180))%Q else inlon in
  let inlon := if Qltb inlon (-180) then (inlon + 360)%Q else inlon in
  let w := (if Qeqb rs 1 then 360 else 360 / rs)%Q in
  let xindex := (if Qeqb rs 1 then py_int (inlon + 180) else py_int ((inlon + 180) / rs)) in
  match wrap_down (S (Z.to_nat (Qfloor (inject_Z xindex / w)))) (inject_Z xindex) w with
  | Some x => Some (py_int x)
  | None => None
  end.

(** The same, as a result: out of fuel is an error. *)
Definition lon_to_xindex_res (lon rs : Q) : res Z :=
  match lon_to_xindex lon rs with Some x => Ok x | None => Err OtherError end.

(** qc.py:295-318 bilinear_interp; corner values may be missing. *)
Definition bilinear_interp (x1 x2 y1 y2 x y : Q) (q11 q12 q21 q22 : option Q) : res Q :=
  assert! (Qleb x1 x && Qleb x x2);
  assert! (Qleb y1 y && Qleb y y2);
  assert! (Qltb x1 x2);
  assert! (Qltb y1 y2);
  match q11, q12, q21, q22 with
  | Some q11, Some q12, Some q21, Some q22 =>
      let val := (q11 * (x2 - x) * (y2 - y))%Q in
      let val := (val + q21 * (x - x1) * (y2 - y))%Q in
      let val := (val + q12 * (x2 - x) * (y - y1))%Q in
      let val := (val + q22 * (x - x1) * (y - y1))%Q in
      let val := (val / ((x2 - x1) * (y2 - y1)))%Q in
      assert! (Qleb val ((1 # 10000) + Qmax' (Qmax' (Qmax' q11 q12) q21) q22));
      assert! (Qleb (- (1 # 10000) + Qmin' (Qmin' (Qmin' q11 q12) q21) q22) val);
      Ok val
  | _, _, _, _ => Err AssertionError
  end.

(** qc.py:321-331 missing_mean. *)
Definition missing_mean (inarr : list (option Q)) : option Q :=
  let '(result, num) :=
    fold_left (fun (acc : Q * Q) val =>
      match val with Some v => (fst acc + v, snd acc + 1)%Q | None => acc end) inarr (0, 0)%Q in
  if Qeqb num 0 then None else Some (result / num)%Q.

Definition orelse {A} (a b : option A) : option A := match a with Some _ => a | None => b end.

(** qc.py:334-364 fill_missing_vals. *)
Definition fill_missing_vals (q11 q12 q21 q22 : option Q) : option Q * option Q * option Q * option Q :=
  let outq11 := orelse (orelse q11 (missing_mean [q12; q21])) q22 in
  let outq22 := orelse (orelse q22 (missing_mean [q12; q21])) q11 in
  let outq12 := orelse (orelse q12 (missing_mean [q11; q22])) q21 in
  let outq21 := orelse (orelse q21 (missing_mean [q11; q22])) q12 in
  (outq11, outq12, outq21, outq22).

(** qc.py:367-397 get_four_surrounding_points; result (x1, x2, y1, y2). *)
Definition get_four_surrounding_points (lat lon : Q) (max90 : Z) : res (Q * Q * Q * Q) :=
  assert! (Qleb (-90) lat && Qleb lat 90);
  assert! (Qleb (-180) lon && Qleb lon 180);
  let! x2_index := lon_to_xindex_res (lon + (1 # 2)) 1 in
  let! x2 := xindex_to_lon x2_index 1 in
  let x2 := if Qltb x2 lon then (x2 + 360)%Q else x2 in
  let! x1_index := lon_to_xindex_res (lon - (1 # 2)) 1 in
  let! x1 := xindex_to_lon x1_index 1 in
  let x1 := if Qltb lon x1 then (x1 - 360)%Q else x1 in
  let! y2 := (if Qleb (lat + (1 # 2)) 90 then yindex_to_lat (lat_to_yindex (lat + (1 # 2)) 1) 1
              else Ok (if max90 =? 0 then (181 # 2) else (179 # 2))%Q) in
  let! y1 := (if Qleb (-90) (lat - (1 # 2)) then yindex_to_lat (lat_to_yindex (lat - (1 # 2)) 1) 1
              else Ok (if max90 =? 0 then - (181 # 2) else - (179 # 2))%Q) in
  Ok (x1, x2, y1, y2).

(* ---------------------------------------------------------------- Climatology *)

(** Climatology.py:6-22: a field of [cn] time slices by [cny] rows by [cnx] columns of values
    that may be masked. *)
Record clim := { cn : Z; cny : Z; cnx : Z; cval : Z -> Z -> Z -> option Q }.

(** Climatology.py:12-22 __init__: accepts 1, 73 or 365 time slices. *)
Definition clim_init (c : clim) : res clim :=
  assert! ((cn c =? 1) || (cn c =? 73) || (cn c =? 365)); Ok c.

(** Climatology.py:22: self.res = 180. / shape[1]. *)
Definition clim_res (c : clim) : Q := (180 / inject_Z (cny c))%Q.

(** One index of numpy's field[t, y, x]: negative indices count from the end. *)
Definition np_index (n i : Z) : res Z :=
  let j := if i <? 0 then i + n else i in
  if (j <? 0) || (n <=? j) then Err IndexError else Ok j.

(** field[t, y, x] followed by the masked/unmasked case split (Climatology.py:117-127,
    155-165, 192-202): a masked cell reads as None.  [None] as time index
    (get_tindex of an unexpected shape) cannot happen after __init__. *)
Definition clim_read (c : clim) (t y x : Z) : res (option Q) :=
  let! t' := np_index (cn c) t in
  let! y' := np_index (cny c) y in
  let! x' := np_index (cnx c) x in
  Ok (cval c t' y' x').

(** Climatology.py:80-101 get_tindex. *)
Definition get_tindex (c : clim) (month day : Z) : res Z :=
  if cn c =? 365 then let! d := day_in_year month day in Ok (d - 1)
  else if cn c =? 73 then let! p := which_pentad month day in Ok (p - 1)
  else Ok 0.

(** Climatology.py:145-149 and 182-186: the month/day guard (month lengths of 2004). *)
Definition clim_date_ok (month day : Z) : bool :=
  negb ((month <? 1) || (12 <? month)) &&
  match py_nth (get_month_lengths 2004) (month - 1) with
  | Ok ml => negb ((day <? 1) || (ml <? day))
  | Err _ => false
  end.

(** Climatology.py:103-127 get_value_ostia. *)
Definition get_value_ostia (c : clim) (lat lon : Q) : res (option Q) :=
  clim_read c 0 (mds_lat_to_yindex lat (1 # 20)) (mds_lon_to_xindex lon (1 # 20)).

(** Climatology.py:129-165 get_value_mds_style. *)
Definition get_value_mds_style (c : clim) (lat lon : Q) (month day : Z) : res (option Q) :=
  if clim_date_ok month day then
    let yindex := mds_lat_to_yindex lat 1 in
    let xindex := mds_lon_to_xindex lon 1 in
    let! tindex := get_tindex c month day in
    clim_read c tindex yindex xindex
  else Ok None.

(** Climatology.py:167-202 get_value. *)
Definition get_value (c : clim) (lat lon : Q) (month day : Z) : res (option Q) :=
  if clim_date_ok month day then
    let yindex := lat_to_yindex lat (clim_res c) in
    let! xindex := lon_to_xindex_res lon (clim_res c) in
    let! tindex := get_tindex c month day in
    clim_read c tindex yindex xindex
  else Ok None.

(** try: v = e; except: v = None. *)
Definition try_none {A} (e : res (option A)) : option A :=
  match e with Ok v => v | Err _ => None end.

Definition is_none {A} (o : option A) : bool := match o with None => true | Some _ => false end.

(** Climatology.py:204-275 get_interpolated_value. *)
Definition get_interpolated_value (c : clim) (lat lon : Q) (mo dy : Z) : res (option Q) :=
  let e := (1 # 1000)%Q in
  let! p12 := (if Qltb (lat + e) 90 then
                 let! pert1 := get_value c (lat + e) (lon + e) mo dy in
                 let! pert2 := get_value c (lat + e) (lon - e) mo dy in
                 Ok (pert1, pert2)
               else Ok (None, None)) in
  let! p34 := (if Qltb (-90) (lat - e) then
                 let! pert3 := get_value c (lat - e) (lon + e) mo dy in
                 let! pert4 := get_value c (lat - e) (lon - e) mo dy in
                 Ok (pert3, pert4)
               else Ok (None, None)) in
  if is_none (fst p12) && is_none (snd p12) && is_none (fst p34) && is_none (snd p34) then Ok None
  else
    let! (x1, x2, y1, y2) := get_four_surrounding_points lat lon 1 in
    let q11 := try_none (get_value c y1 x1 mo dy) in
    let q22 := try_none (get_value c y2 x2 mo dy) in
    let q12 := try_none (get_value c y2 x1 mo dy) in
    let q21 := try_none (get_value c y1 x2 mo dy) in
    let '(q11, q12, q21, q22) := fill_missing_vals q11 q12 q21 q22 in
    let! (x1, x2, y1, y2) := get_four_surrounding_points lat lon 0 in
    let! v := bilinear_interp x1 x2 y1 y2 lon lat q11 q12 q21 q22 in
    Ok (Some v).

(* ---------------------------------------------------------------- qc.get_sst family *)

(** qc.py:236-246 (also 187-195, 161-169): the shared argument assertions. *)
Definition sst_args_ok (lonmin lonmax lat lon : Q) (month day : Z) : res unit :=
  assert! (Qleb (-90) lat);
  assert! (Qleb lat 90);
  assert! (Qleb lonmin lon);
  assert! (Qleb lon lonmax);
  assert! (1 <=? month);
  assert! (month <=? 12);
  let! ml := py_nth (get_month_lengths 2004) (month - 1) in
  assert! (1 <=? day);
  assert! (day <=? ml);
  Ok tt.

(** qc.py:485-525 get_sst_single_field. *)
Definition get_sst_single_field (lat lon : Q) (sst : clim) : res (option Q) :=
  assert! (Qleb (-90) lat);
  assert! (Qleb lat 90);
  assert! (Qleb (-180) lon);
  assert! (Qleb lon 360);
  let yindex := lat_to_yindex lat 1 in
  let! xindex := lon_to_xindex_res lon 1 in
  clim_read sst 0 yindex xindex.

(** qc.py:214-270 get_sst. *)
Definition get_sst (lat lon : Q) (month day : Z) (sst : clim) : res (option Q) :=
  let! _ := sst_args_ok (-185) 365 lat lon month day in
  if cn sst =? 1 then get_sst_single_field lat lon sst
  else
    let! pentad := which_pentad month day in
    let yindex := lat_to_yindex lat 1 in
    let! xindex := lon_to_xindex_res lon 1 in
    clim_read sst (pentad - 1) yindex xindex.

(** qc.py:183-211 get_sst_daily. *)
Definition get_sst_daily (lat lon : Q) (month day : Z) (sst : clim) : res (option Q) :=
  let! _ := sst_args_ok (-185) 365 lat lon month day in
  let! d := day_in_year month day in
  clim_read sst (d - 1) (mds_lat_to_yindex lat 1) (mds_lon_to_xindex lon 1).

(** qc.py:145-180 get_hires_sst on a (365, 1, 720, 1440) field whose missing cells hold -999. *)
Definition get_hires_sst (lat lon : Q) (month day : Z) (field : clim) : res (option Q) :=
  let! _ := sst_args_ok (-180) 360 lat lon month day in
  let! d := day_in_year month day in
  let yindex := lat_to_yindex lat (1 # 4) in
  let! xindex := lon_to_xindex_res lon (1 # 4) in
  let! v := clim_read field (d - 1) yindex xindex in
  Ok (match v with Some q => if Qeqb q (-999) then None else Some q | None => None end).
