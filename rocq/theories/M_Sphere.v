(** Model of spherical_geometry.py and angle_diff over the real numbers.  No proofs here.

    Simplification: arguments are real numbers, so the assertions against None and NaN always hold; floating
    point rounding is not modelled. *)
Require Import Reals ZArith.
Require Import Verif.M_Base Verif.M_Real.
Open Scope R_scope.

(** spherical_geometry.py:8-9. *)
Definition earths_radius : R := 6371.0088.
Definition radians_per_degree : R := PI / 180.

(** math.fmod: the remainder with the sign of the dividend. *)
Definition Rtrunc (x : R) : R := if Rle_dec 0 x then IZR (Int_part x) else - IZR (Int_part (- x)).
Definition fmod (x y : R) : R := x - y * Rtrunc (x / y).

(** spherical_geometry.py:38-77 angular_distance. *)
Definition angular_distance (lat1 lon1 lat2 lon2 : R) : R :=
  let lat1 := lat1 * radians_per_degree in
  let lon1 := lon1 * radians_per_degree in
  let lat2 := lat2 * radians_per_degree in
  let lon2 := lon2 * radians_per_degree in
  let delta_lambda := Rabs (lon1 - lon2) in
  let bit1 := cos lat2 * sin delta_lambda in
  let bit1 := bit1 * bit1 in
  let bit2 := cos lat1 * sin lat2 - sin lat1 * cos lat2 * cos delta_lambda in
  let bit2 := bit2 * bit2 in
  let topbit := sqrt (bit1 + bit2) in
  let bottombit := sin lat1 * sin lat2 + cos lat1 * cos lat2 * cos delta_lambda in
  atan2 topbit bottombit.

(** spherical_geometry.py:12-35 sphere_distance. *)
Definition sphere_distance (lat1 lon1 lat2 lon2 : R) : R := angular_distance lat1 lon1 lat2 lon2 * earths_radius.

(** spherical_geometry.py:80-108 lat_lon_from_course_and_distance. *)
Definition lat_lon_from_course_and_distance (lat1 lon1 tc d : R) : R * R :=
  let lat1 := lat1 * radians_per_degree in
  let lon1 := lon1 * radians_per_degree in
  let tcr := tc * radians_per_degree in
  let dr := d / earths_radius in
  let lat := asin (sin lat1 * cos dr + cos lat1 * sin dr * cos tcr) in
  let dlon := atan2 (sin tcr * sin dr * cos lat1) (cos dr - sin lat1 * sin lat) in
  let lon := fmod (lon1 + dlon + PI) (2 * PI) - PI in
  (lat / radians_per_degree, lon / radians_per_degree).

(** spherical_geometry.py:160-163: the course worked out when the first formula gave NaN; angles in radians. *)
Definition course_after_nan (lat1 lon1 lat2 lon2 : R) : R :=
  fmod (atan2 (sin (lon1 - lon2) * cos lat2) (cos lat1 * sin lat2 - sin lat1 * cos lat2 * cos (lon1 - lon2))) (2 * PI).

(** spherical_geometry.py:111-170 course_between_points; [None] is the NaN of lines 152 and 160.  At points
    opposite each other [sin d] is 0 and numpy's quotient is not a number in general: theorems exclude them. *)
Definition course_between_points (lat1 lon1 lat2 lon2 : R) : R :=
  let d := angular_distance lat1 lon1 lat2 lon2 in
  let tc1 :=
    if Req_EM_T d 0 then 0
    else
      let lat1 := lat1 * radians_per_degree in
      let lon1 := lon1 * radians_per_degree in
      let lat2 := lat2 * radians_per_degree in
      let lon2 := lon2 * radians_per_degree in
      let ratio := (sin lat2 - sin lat1 * cos d) / (sin d * cos lat1) in
      let tc1 :=
        if Rlt_dec (cos lat1) 0.0000001 then Some (if Rlt_dec 0 lat1 then PI else 2 * PI)
        else if Rlt_dec 0 (sin (lon2 - lon1)) then
          if Rge_dec 1 ratio then if Rge_dec ratio (-1) then Some (acos ratio) else None else None
        else
          if Rge_dec 1 ratio then if Rge_dec ratio (-1) then Some (2 * PI - acos ratio) else None else None in
      match tc1 with
      | Some tc => tc
      | None => course_after_nan lat1 lon1 lat2 lon2
      end in
  tc1 / radians_per_degree.

(** spherical_geometry.py:173-215 intermediate_point. *)
Definition intermediate_point (lat1 lon1 lat2 lon2 f : R) : res (R * R) :=
  if Rle_dec f 1 then
    let d := angular_distance lat1 lon1 lat2 lon2 in
    if Req_EM_T d 0 then Ok (lat1, lon1)
    else
      let lat1 := lat1 * radians_per_degree in
      let lon1 := lon1 * radians_per_degree in
      let lat2 := lat2 * radians_per_degree in
      let lon2 := lon2 * radians_per_degree in
      let a := sin ((1 - f) * d) / sin d in
      let b := sin (f * d) / sin d in
      let x := a * cos lat1 * cos lon1 + b * cos lat2 * cos lon2 in
      let y := a * cos lat1 * sin lon1 + b * cos lat2 * sin lon2 in
      let z := a * sin lat1 + b * sin lat2 in
      Ok (atan2 z (sqrt (x * x + y * y)) / radians_per_degree, atan2 y x / radians_per_degree)
  else Err AssertionError.

(** Extended_IMMA.py:1820-1834: the last part of predict_next_point, from the positions of the last two reports,
    the time between them (not below 0.00001 in size) and the time ahead.  The stored speed and course are those
    of [MarineReport.__sub__] (Extended_IMMA.py:487-503). *)
Definition predict_from (lat1 lon1 lat2 lon2 time_diff timediff : R) : R * R :=
  let speed := sphere_distance lat2 lon2 lat1 lon1 / time_diff in
  let course := course_between_points lat1 lon1 lat2 lon2 in
  let distance := speed * (time_diff + timediff) in
  lat_lon_from_course_and_distance lat1 lon1 course distance.

(** qc.py:1040-1056 angle_diff. *)
Definition angle_diff (angle1 angle2 : R) : R :=
  let diff := Rabs (angle1 - angle2) in
  if Rlt_dec PI diff then 2 * PI - diff else diff.
