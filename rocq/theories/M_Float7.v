(** The checks of position, time and limits in double precision.  No proofs here.  The values are finite floats; missing values and NaN are
    treated in M_Checks.  A literal int or float in a comparison is the double nearest to it. *)
Require Import String ZArith QArith List Bool.
Require Import Verif.M_Base Verif.M_Float Verif.M_Checks.
Import ListNotations.
Open Scope Z_scope.

(** qc.py:836-857 position_check. *)
Definition fposition_check (inlat inlon : fl) : Z :=
  let result := 0 in
  let result := if flt inlat (fz (-90)) || flt (fz 90) inlat then 1 else result in
  let result := if flt inlon (fz (-180)) || flt (fz 360) inlon then 1 else result in
  result.
(** qc.py:860-878 time_check. *)
Definition ftime_check (inhour : fl) : Z := if fle (fz 24) inhour || flt inhour (fz 0) then 1 else 0.
(** qc.py:609-612, the loop over regions; the region dictionary is that of M_Checks. *)
Fixpoint fbl_regions_loop (regs : list Z) (inlat inlon : fl) (result : Z) : res Z :=
  match regs with
  | [] => Ok result
  | regid :: rest =>
      let! r := bl_region regid in
      let '(x0, y0, x1, y1) := r in
      let result := if (fle (fq x0) inlon && fle inlon (fq x1)) && (fle (fq y0) inlat && fle inlat (fq y1)) then 1 else result in
      fbl_regions_loop rest inlat inlon result
  end.
(** qc.py:528-629 blacklist. *)
Definition fblacklist (inid : option string) (indeck : option Z) (inyear inmonth : Z) (inlat inlon : fl) (inpt : option Z) : res Z :=
  let id_is s := match inid with Some i => String.eqb i s | None => false end in
  let deck_is z := match indeck with Some d => d =? z | None => false end in
  let inlon := if flt (fz 180) inlon then fsub inlon (fz 360) else inlon in
  let result := 0 in
  let result := if feq inlat (fz 0) && feq inlon (fz 0) then 1 else result in
  let result := match inpt with Some p => if p =? 13 then 1 else result | None => result end in
  let result := if id_is "SUPERIGORINA"%string then 1 else result in
  let! result :=
    (if deck_is 732 then
       match bl_year_to_regions inyear with
       | Some regs => fbl_regions_loop regs inlat inlon result
       | None => Ok result
       end
     else Ok result) in
  let result := if deck_is 874 then 1 else result in
  let result :=
    if ((inyear =? 2005) && (inmonth =? 11)) || ((inyear =? 2005) && (inmonth =? 12)) || ((inyear =? 2006) && (inmonth =? 1))
    then (match inid with Some i => if mem_string i bl_ids then 1 else result | None => result end)
    else result in
  Ok result.
(** The regions of Extended_IMMA.py:1429-1434 and qc.py:1801-1805. *)
Definition fmat_region (lo la : fl) : bool :=
  let from a x := fle (fz a) x in
  let upto x b := fle x (fz b) in
  (from (-80) lo && upto lo 0 && (from 40 la && upto la 55))
  || (from (-10) lo && upto lo 30 && (from 35 la && upto la 45))
  || (from 15 lo && upto lo 45 && (from (-10) la && upto la 40))
  || (from 15 lo && upto lo 95 && from (-10) la && upto la 15)
  || (from 95 lo && upto lo 105 && (from (-10) la && upto la 5)).
(** qc.py:756-774 hard_limit. *)
Definition fhard_limit (val lo hi : fl) : res Z :=
  assert! (flt lo hi);
  if fle lo val && fle val hi then Ok 0 else Ok 1.
(** qc.py:777-797 supersat_check. *)
Definition fsupersat_check (invaltd invalt : fl) : Z := if flt invalt invaltd then 1 else 0.
(** qc.py:800-833 sst_freeze_check. *)
Definition fsst_freeze_check (insst sst_uncertainty freezing_point n_sigma : fl) : Z :=
  if flt insst (fsub freezing_point (fmul n_sigma sst_uncertainty)) then 1 else 0.
(** qc.py:917-940 wind_consistency. *)
Definition fwind_consistency (windspeed winddirection variablelimit : fl) : Z :=
  let result := 0 in
  let result := if feq winddirection (fz 361) && negb (feq windspeed (fz 0)) then 1 else result in
  let result := if feq winddirection (fz 362) && flt variablelimit windspeed then 1 else result in
  result.
