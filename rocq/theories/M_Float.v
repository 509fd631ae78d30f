(** The places where the code turns a float into an integer or compares a difference of floats, in double precision (IEEE 754 binary64,
    rounding to the nearest, ties to even), as Python 2 computes them.  The other model files use exact rational numbers; the theorems
    about this file say how far the two can be apart.  The numbers are those of Flocq. No proofs here. *)
Require Import String ZArith QArith List Bool.
From Flocq Require Import Core.Core IEEE754.BinarySingleNaN.
Require Import Verif.M_Base Verif.M_Calendar.
Import ListNotations.
Open Scope Z_scope.

(** A Python float and its operations; a float division by zero, which raises, is not told apart from one that gives an infinity. *)
Definition fl : Type := binary_float 53 1024.
Definition p53 : Prec_gt_0 53 := eq_refl.
Definition p1024 : Prec_lt_emax 53 1024 := eq_refl.
Definition fadd (x y : fl) : fl := @Bplus 53 1024 p53 p1024 mode_NE x y.
Definition fsub (x y : fl) : fl := @Bminus 53 1024 p53 p1024 mode_NE x y.
Definition fmul (x y : fl) : fl := @Bmult 53 1024 p53 p1024 mode_NE x y.
Definition fdiv (x y : fl) : fl := @Bdiv 53 1024 p53 p1024 mode_NE x y.
Definition fopp (x : fl) : fl := @Bopp 53 1024 x.
Definition fabs (x : fl) : fl := @Babs 53 1024 x.
(** An int that meets a float. *)
Definition fz (n : Z) : fl := @binary_normalize 53 1024 p53 p1024 mode_NE n 0 false.
(** A decimal literal n/d: the double nearest to it, for n and d below 2^53. *)
Definition fq (q : Q) : fl := fdiv (fz (Qnum q)) (fz (Zpos (Qden q))).
(** [x < y], [x <= y], [x == y]; false if one is a NaN. *)
Definition flt (x y : fl) : bool := match Bcompare x y with Some Lt => true | _ => false end.
Definition fle (x y : fl) : bool := match Bcompare x y with Some Lt => true | Some Eq => true | _ => false end.
Definition feq (x y : fl) : bool := match Bcompare x y with Some Eq => true | _ => false end.
(** [int(x)]: truncation; OverflowError or ValueError if x is not finite. *)
Definition fint (x : fl) : res Z := if is_finite x then Ok (Btrunc x) else Err OtherError.
(** [int(math.floor(x))]. *)
Definition ffloor (x : fl) : res Z :=
  let! n := fint x in if flt x (fz n) then Ok (n - 1) else Ok n.
(** [int(round(x))] of Python 2: the nearest integer, halves away from zero, computed without an error in between. *)
Definition fround (x : fl) : res Z :=
  if is_finite x then
    let n := Btrunc x in
    let rest := fabs (fsub x (fz n)) in
    if fle (fq (1 # 2)) rest then Ok (if flt x (fz 0) then n - 1 else n + 1) else Ok n
  else Err OtherError.

(** qc.py:1452-1480 mds_lat_to_yindex; res = 1.0 unless given. *)
Definition fmds_lat_to_yindex (lat rs : fl) : res Z :=
  let lat_local := lat in
  let lat_local := if feq lat_local (fz (-90)) then fadd lat_local (fq (1 # 1000)) else lat_local in
  let lat_local := if feq lat_local (fz 90) then fsub lat_local (fq (1 # 1000)) else lat_local in
  let! k := fint (fdiv lat_local rs) in
  if flt (fz 0) lat then fint (fsub (fsub (fdiv (fz 90) rs) (fz 1)) (fz k))
  else fint (fsub (fdiv (fz 90) rs) (fz k)).

(** qc.py:1485-1513 lat_to_yindex for the int res = 1, which is the default. *)
Definition flat_to_yindex1 (lat : fl) : res Z :=
  let! yindex := fint (fsub (fz 90) lat) in
  let yindex := if 180 <=? yindex then 179 else yindex in
  let yindex := if yindex <? 0 then 0 else yindex in
  Ok yindex.
(** The same for any other res. *)
Definition flat_to_yindex (lat rs : fl) : res Z :=
  let! yindex := fint (fdiv (fsub (fz 90) lat) rs) in
  let! yindex := if fle (fdiv (fz 180) rs) (fz yindex) then fint (fsub (fdiv (fz 180) rs) (fz 1)) else Ok yindex in
  let yindex := if yindex <? 0 then 0 else yindex in
  Ok yindex.

(** qc.py:1523-1547 mds_lon_to_xindex; res = 1.0 unless given. *)
Definition fmds_lon_to_xindex (lon rs : fl) : res Z :=
  let long_local := lon in
  let long_local := if feq long_local (fz (-180)) then fadd long_local (fq (1 # 1000)) else long_local in
  let long_local := if feq long_local (fz 180) then fsub long_local (fq (1 # 1000)) else long_local in
  let! k := fint (fdiv long_local rs) in
  if flt (fz 0) long_local then fint (fadd (fz k) (fdiv (fz 180) rs))
  else fint (fsub (fadd (fz k) (fdiv (fz 180) rs)) (fz 1)).

(** qc.py:1564-1571: a longitude brought into [-180, 180). *)
Definition finlon (lon : fl) : fl :=
  let inlon := lon in
  let inlon := if fle (fz 180) inlon then fadd (fz (-180)) (fsub inlon (fz 180)) else inlon in
  if flt inlon (fz (-180)) then fadd inlon (fz 360) else inlon.
(** qc.py:1573-1574, the loop on an int: [while xindex >= 360: xindex -= 360]; None is out of fuel. *)
Fixpoint fwrap1 (fuel : nat) (x : Z) : option Z :=
  if 360 <=? x then match fuel with O => None | S f => fwrap1 f (x - 360) end else Some x.
(** qc.py:1583-1584, the loop on a float: [while xindex >= 360 / res: xindex -= 360 / res]. *)
Fixpoint fwrap (fuel : nat) (x w : fl) : option fl :=
  if fle w x then match fuel with O => None | S f => fwrap f (fsub x w) w end else Some x.
(** qc.py:1550-1585 lon_to_xindex for the int res = 1, which is the default. *)
Definition flon_to_xindex1 (lon : fl) : res Z :=
  let! xindex := fint (fadd (finlon lon) (fz 180)) in
  match fwrap1 (Z.to_nat xindex) xindex with Some x => Ok x | None => Err OtherError end.
(** The same for any other res. *)
Definition flon_to_xindex (lon rs : fl) : res Z :=
  let! xindex := fint (fdiv (fadd (finlon lon) (fz 180)) rs) in
  match fwrap (Z.to_nat xindex) (fz xindex) (fdiv (fz 360) rs) with Some x => fint x | None => Err OtherError end.

(** Extended_IMMA.py:467-469, calculate_dt: hour and minute of the decimal hour HR. *)
Definition fhour_minute (hr : fl) : res (Z * Z) :=
  let! rounded_hour := ffloor hr in
  let! rounded_minute := ffloor (fmul (fz 60) (fsub hr (fz rounded_hour))) in
  Ok (rounded_hour, rounded_minute).

(** qc.py:1375-1380, the end of time_difference, in which the first time is not after the second. *)
Definition ftd_forward (year1 month1 day1 : Z) (hour1 : fl) (year2 month2 day2 : Z) (hour2 : fl) : res fl :=
  let! j1 := jul_day year1 month1 day1 in
  let first_day := fadd (fz j1) (fdiv hour1 (fz 24)) in
  let! j2 := jul_day year2 month2 day2 in
  let last_day := fadd (fz j2) (fdiv hour2 (fz 24)) in
  Ok (fmul (fz 24) (fsub last_day first_day)).
(** qc.py:1338-1380 time_difference for hours that are not missing; the recursion is unfolded once. *)
Definition ftime_difference (year1 month1 day1 : Z) (hour1 : fl) (year2 month2 day2 : Z) (hour2 : fl) : res fl :=
  assert! (fle (fz 0) hour1 && flt hour1 (fz 24)) && (fle (fz 0) hour2 && flt hour2 (fz 24));
  if (year2 <? year1) || ((year1 =? year2) && (month2 <? month1)) || ((year1 =? year2) && (month1 =? month2) && (day2 <? day1))
     || ((year1 =? year2) && (month1 =? month2) && (day1 =? day2) && flt hour2 hour1)
  then let! t := ftd_forward year2 month2 day2 hour2 year1 month1 day1 hour1 in Ok (fmul (fz (-1)) t)
  else ftd_forward year1 month1 day1 hour1 year2 month2 day2 hour2.

(** IMMA1.py:122-124, decode: [int(text) * scale] for a text that stands for n. *)
Definition fdecode (scale : fl) (n : Z) : fl := fmul (fz n) scale.
(** IMMA1.py:138-140, encode: [Tmp /= scale; Tmp = int(Tmp + 0.5)]. *)
Definition fencode (scale : fl) (x : fl) : res Z := fint (fadd (fdiv x scale) (fq (1 # 2))).
(** Extended_IMMA.py:76-91 with 771: [int(pvar(x, mdi, scale))] for a value that is not missing. *)
Definition fpvar (x scale : fl) : res Z := fround (fmul x scale).

(** qc.py:697-723 climatology_check for values that are not missing: [abs(inval - inclimav) > limit]. *)
Definition ffar (x mean limit : fl) : bool := flt limit (fabs (fsub x mean)).
(** Extended_IMMA.py:3103-3109: the flag for a probability. *)
Definition fflag (ppp : fl) : res Z :=
  if flt (fz 0) ppp then let! flag := ffloor (fmul ppp (fz 10)) in Ok (if 9 <? flag then 9 else flag) else Ok 0.
