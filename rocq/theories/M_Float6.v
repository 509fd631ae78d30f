(** The points around a position and the interpolation between them in double precision.  No proofs here. *)
Require Import ZArith QArith List Bool.
Require Import Verif.M_Base Verif.M_Float.
Import ListNotations.
Open Scope Z_scope.

(** The literal 0.5. *)
Definition fhalf : fl := fq (1 # 2).
(** qc.py:1516-1520 xindex_to_lon for the int res = 1, which is the default. *)
Definition fxindex_to_lon1 (xindex : Z) : res fl :=
  assert! (0 <=? xindex);
  assert! (xindex <? 360);
  Ok (fadd (fsub (fz xindex) (fz 180)) (fdiv (fz 1) (fz 2))).
(** qc.py:1445-1449 yindex_to_lat for the int res = 1, which is the default. *)
Definition fyindex_to_lat1 (yindex : Z) : res fl :=
  assert! (0 <=? yindex);
  assert! (yindex <? 180);
  Ok (fsub (fsub (fz 90) (fz yindex)) (fdiv (fz 1) (fz 2))).
(** qc.py:367-397 get_four_surrounding_points; result (x1, x2, y1, y2). *)
Definition fget_four_surrounding_points (lat lon : fl) (max90 : Z) : res (fl * fl * fl * fl) :=
  assert! (fle (fz (-90)) lat && fle lat (fz 90));
  assert! (fle (fz (-180)) lon && fle lon (fz 180));
  let! x2_index := flon_to_xindex1 (fadd lon fhalf) in
  let! x2 := fxindex_to_lon1 x2_index in
  let x2 := if flt x2 lon then fadd x2 (fz 360) else x2 in
  let! x1_index := flon_to_xindex1 (fsub lon fhalf) in
  let! x1 := fxindex_to_lon1 x1_index in
  let x1 := if flt lon x1 then fsub x1 (fz 360) else x1 in
  let! y2 := (if fle (fadd lat fhalf) (fz 90) then let! k := flat_to_yindex1 (fadd lat fhalf) in fyindex_to_lat1 k
              else Ok (if max90 =? 0 then fq (905 # 10) else fq (895 # 10))) in
  let! y1 := (if fle (fz (-90)) (fsub lat fhalf) then let! k := flat_to_yindex1 (fsub lat fhalf) in fyindex_to_lat1 k
              else Ok (if max90 =? 0 then fopp (fq (905 # 10)) else fopp (fq (895 # 10)))) in
  Ok (x1, x2, y1, y2).

(** max and min of a list of floats: the first of the largest (smallest). *)
Definition fmax (x y : fl) : fl := if flt x y then y else x.
Definition fmin (x y : fl) : fl := if flt y x then y else x.
(** qc.py:295-318 bilinear_interp for corner values that are not missing. *)
Definition fbilinear_interp (x1 x2 y1 y2 x y q11 q12 q21 q22 : fl) : res fl :=
  assert! (fle x1 x && fle x x2);
  assert! (fle y1 y && fle y y2);
  assert! (flt x1 x2);
  assert! (flt y1 y2);
  let val := fmul (fmul q11 (fsub x2 x)) (fsub y2 y) in
  let val := fadd val (fmul (fmul q21 (fsub x x1)) (fsub y2 y)) in
  let val := fadd val (fmul (fmul q12 (fsub x2 x)) (fsub y y1)) in
  let val := fadd val (fmul (fmul q22 (fsub x x1)) (fsub y y1)) in
  let val := fdiv val (fmul (fsub x2 x1) (fsub y2 y1)) in
  assert! (fle val (fadd (fq (1 # 10000)) (fmax (fmax (fmax q11 q12) q21) q22)));
  assert! (fle (fadd (fopp (fq (1 # 10000))) (fmin (fmin (fmin q11 q12) q21) q22)) val);
  Ok val.

(** Extended_IMMA.py:380-388 lon of a report with the longitude x. *)
Definition flon (x : fl) : fl := if flt (fz 180) x then fsub x (fz 360) else x.
