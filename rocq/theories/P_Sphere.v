(** Property theorems C39 and C40 (distances, courses and angles on the globe). *)
Require Import Reals ZArith Lra.
Require Import Verif.M_Base Verif.M_Real Verif.M_Sphere Verif.S_Sphere Verif.L_Sphere.
Open Scope R_scope.

(* ------------------------------------------------------------------ C39 *)

(** The distance is the Earth's radius times the angle between the two points seen from the centre. *)
Theorem C39_central_angle : forall lat1 lon1 lat2 lon2,
  sphere_distance lat1 lon1 lat2 lon2 = 6371.0088 * acos (dot (point lat1 lon1) (point lat2 lon2)) /\
  0 <= angular_distance lat1 lon1 lat2 lon2 <= PI /\ cos (angular_distance lat1 lon1 lat2 lon2) = dot (point lat1 lon1) (point lat2 lon2).
Proof.
  intros. destruct (angular_cos lat1 lon1 lat2 lon2) as [A [B _]]. split; [|split; assumption].
  unfold sphere_distance, earths_radius. rewrite angular_acos. ring.
Qed.
Print Assumptions C39_central_angle.

(** A metric: symmetric, zero only for the same place, triangle inequality; half the circumference at most, and
    only for opposite places. *)
Theorem C39_symmetric : forall lat1 lon1 lat2 lon2, sphere_distance lat1 lon1 lat2 lon2 = sphere_distance lat2 lon2 lat1 lon1.
Proof. intros. unfold sphere_distance. now rewrite angular_sym. Qed.
Print Assumptions C39_symmetric.
Theorem C39_zero : forall lat1 lon1 lat2 lon2, sphere_distance lat1 lon1 lat2 lon2 = 0 <-> point lat1 lon1 = point lat2 lon2.
Proof.
  intros. rewrite <- angular_zero. unfold sphere_distance, earths_radius. split; intro H; [|rewrite H; ring]. apply Rmult_integral in H. destruct H as [H|H]; [exact H|lra].
Qed.
Print Assumptions C39_zero.
Theorem C39_triangle : forall lat1 lon1 lat2 lon2 lat3 lon3,
  sphere_distance lat1 lon1 lat3 lon3 <= sphere_distance lat1 lon1 lat2 lon2 + sphere_distance lat2 lon2 lat3 lon3.
Proof. intros. unfold sphere_distance, earths_radius. pose proof (angular_triangle lat1 lon1 lat2 lon2 lat3 lon3). lra. Qed.
Print Assumptions C39_triangle.
Theorem C39_half_circumference : forall lat1 lon1 lat2 lon2, 0 <= sphere_distance lat1 lon1 lat2 lon2 <= PI * 6371.0088 /\
  (sphere_distance lat1 lon1 lat2 lon2 = PI * 6371.0088 <-> point lat1 lon1 = opp (point lat2 lon2)).
Proof.
  intros. rewrite <- angular_pi. destruct (angular_cos lat1 lon1 lat2 lon2) as [A _]. unfold sphere_distance, earths_radius. split; [lra|]. split; intro H; [lra|rewrite H; ring].
Qed.
Print Assumptions C39_half_circumference.

(** Whole turns of either longitude, or turning both by the same angle, change nothing. *)
Theorem C39_longitudes : forall lat1 lon1 lat2 lon2 j k s,
  sphere_distance lat1 (lon1 + 360 * IZR j) lat2 (lon2 + 360 * IZR k) = sphere_distance lat1 lon1 lat2 lon2 /\
  sphere_distance lat1 (lon1 + s) lat2 (lon2 + s) = sphere_distance lat1 lon1 lat2 lon2.
Proof. intros. unfold sphere_distance. now rewrite angular_turn, angular_shift. Qed.
Print Assumptions C39_longitudes.

(** Along a meridian and along the equator the angle is the difference of the coordinates. *)
Theorem C39_meridian : forall lat1 lat2 lon, Rabs (lat1 - lat2) <= 180 -> sphere_distance lat1 lon lat2 lon = Rabs (rad (lat1 - lat2)) * 6371.0088.
Proof. intros. unfold sphere_distance. now rewrite angular_meridian. Qed.
Print Assumptions C39_meridian.
Theorem C39_equator : forall lon1 lon2, Rabs (lon1 - lon2) <= 180 -> sphere_distance 0 lon1 0 lon2 = Rabs (rad (lon1 - lon2)) * 6371.0088.
Proof. intros. unfold sphere_distance. now rewrite angular_equator. Qed.
Print Assumptions C39_equator.

(** Setting out from a place (not a pole) with a course for a distance ends where the great circle leads, at a
    latitude in range. *)
Theorem C39_destination : forall lat1 lon1 tc d lat lon, -90 < lat1 < 90 ->
  lat_lon_from_course_and_distance lat1 lon1 tc d = (lat, lon) ->
  point lat lon = travel lat1 lon1 tc (d / 6371.0088) /\ -90 <= lat <= 90.
Proof. exact destination_spec. Qed.
Print Assumptions C39_destination.

(** "The longitude of the destination is between -180 and 180" fails when sailing west across the date line. *)
Theorem C39_destination_range_refuted : forall lon1 deg, -180 <= lon1 -> 0 < deg < 90 -> lon1 - deg < -180 ->
  exists lat lon, lat_lon_from_course_and_distance 0 lon1 270 (6371.0088 * rad deg) = (lat, lon) /\ lon < -180.
Proof. intros lon1 deg A B C. exists 0, (lon1 - deg). split; [now apply destination_west|exact C]. Qed.
Print Assumptions C39_destination_range_refuted.

(** Following the course between two places over their distance leads from the first to the second. *)
Theorem C39_course : forall lat1 lon1 lat2 lon2, -90 <= lat2 <= 90 -> 0.0000001 <= cos (rad lat1) ->
  0 < angular_distance lat1 lon1 lat2 lon2 < PI ->
  travel lat1 lon1 (course_between_points lat1 lon1 lat2 lon2) (sphere_distance lat1 lon1 lat2 lon2 / 6371.0088) = point lat2 lon2 /\
  0 <= course_between_points lat1 lon1 lat2 lon2 <= 360.
Proof.
  intros lat1 lon1 lat2 lon2 A B C. destruct (course_spec lat1 lon1 lat2 lon2 A B C) as [D E]. split; [|exact E].
  replace (sphere_distance lat1 lon1 lat2 lon2 / 6371.0088) with (angular_distance lat1 lon1 lat2 lon2) by (unfold sphere_distance, earths_radius; field; lra). exact D.
Qed.
Print Assumptions C39_course.

(** Course and destination are inverse to each other. *)
Theorem C39_round_trip : forall lat1 lon1 lat2 lon2 lat lon, -90 < lat1 < 90 -> -90 <= lat2 <= 90 -> 0.0000001 <= cos (rad lat1) ->
  0 < angular_distance lat1 lon1 lat2 lon2 < PI ->
  lat_lon_from_course_and_distance lat1 lon1 (course_between_points lat1 lon1 lat2 lon2) (sphere_distance lat1 lon1 lat2 lon2) = (lat, lon) ->
  point lat lon = point lat2 lon2.
Proof.
  intros lat1 lon1 lat2 lon2 lat lon L L2 A C H. apply C39_destination in H; [|exact L]. destruct H as [H _]. rewrite H. now apply C39_course.
Qed.
Print Assumptions C39_round_trip.

(** The same place has course 0; from the North Pole, and so near it that the cosine of the latitude is below 1e-7, every course is
    south; from the South Pole and near it every course is north, given as 360. *)
Theorem C39_course_special : (forall lat lon, course_between_points lat lon lat lon = 0) /\
  (forall lon1 lat2 lon2, 0 < angular_distance 90 lon1 lat2 lon2 -> course_between_points 90 lon1 lat2 lon2 = 180) /\
  (forall lat1 lon1 lat2 lon2, cos (rad lat1) < 0.0000001 -> 0 < angular_distance lat1 lon1 lat2 lon2 ->
     (0 < lat1 -> course_between_points lat1 lon1 lat2 lon2 = 180) /\ (lat1 <= 0 -> course_between_points lat1 lon1 lat2 lon2 = 360)).
Proof.
  split; [|split; [exact course_pole|exact course_near_pole]]. intros lat lon. unfold course_between_points. cbv zeta.
  destruct (Req_EM_T (angular_distance lat lon lat lon) 0) as [_|H]; [unfold Rdiv; ring|]. exfalso. apply H. now apply angular_zero.
Qed.
Print Assumptions C39_course_special.

(** When rounding makes the first formula of the course invalid, a second formula is used.  It takes longitudes to grow to the
    west: over all pairs of points it gives the course mirrored east to west (the course that leads to the second
    point is its negative), and between -180 and 180 instead of between 0 and 360.  East along the equator becomes west. *)
Theorem C39_second_formula_refuted :
  (forall lat1 lon1 lat2 lon2, let c := course_after_nan (rad lat1) (rad lon1) (rad lat2) (rad lon2) / (PI / 180) in
     travel lat1 lon1 (- c) (sphere_distance lat1 lon1 lat2 lon2 / 6371.0088) = point lat2 lon2 /\ -180 < c <= 180) /\
  course_after_nan (rad 0) (rad 0) (rad 0) (rad 90) / (PI / 180) = -90 /\
  travel 0 0 90 (PI / 2) = point 0 90 /\ travel 0 0 (-90) (PI / 2) = point 0 (-90).
Proof.
  split; [|split; [|split]].
  - intros lat1 lon1 lat2 lon2. cbv zeta. replace (sphere_distance lat1 lon1 lat2 lon2 / 6371.0088) with (angular_distance lat1 lon1 lat2 lon2) by (unfold sphere_distance, earths_radius; field; lra).
    apply course_after_nan_mirror.
  - destruct (course_after_nan_mirror 0 0 0 90) as [A B]. cbv zeta in A, B. unfold radians_per_degree in A, B. set (c := course_after_nan _ _ _ _ / (PI / 180)) in *. clearbody c.
    assert (D : angular_distance 0 0 0 90 = PI / 2).
    { apply angular_unique; [pose proof PI_RGT_0; lra|]. rewrite dot_points. unfold rad. replace (0 * (PI / 180)) with 0 by ring. replace (90 * (PI / 180)) with (PI / 2) by field.
      replace (0 - PI / 2) with (- (PI / 2)) by ring. rewrite cos_neg, cos_PI2, sin_0. ring. }
    rewrite D in A. unfold travel, point, north, east, lin in A. rewrite cos_PI2, sin_PI2 in A. injection A as _ A2 A3.
    unfold rad in A2, A3. replace (0 * (PI / 180)) with 0 in A2, A3 by ring. replace (90 * (PI / 180)) with (PI / 2) in A2 by field.
    rewrite sin_PI2, cos_0, sin_0 in A2. rewrite sin_0, cos_0 in A3. pose proof PI_RGT_0 as PP.
    assert (S : sin (- c * (PI / 180)) = sin (PI / 2)) by (rewrite sin_PI2; lra).
    assert (C : cos (- c * (PI / 180)) = 0) by lra.
    assert (E : - c * (PI / 180) = PI / 2); [|apply Rmult_eq_reg_r with (PI / 180); lra].
    assert (BB : - PI <= - c * (PI / 180) < PI) by (assert (KK : PI = 180 * (PI / 180)) by field; assert (0 < PI / 180) by lra; set (k := PI / 180) in *; clearbody k; split; nra).
    destruct (Rle_dec 0 (- c * (PI / 180))) as [P|P].
    + apply cos_inj; [lra|lra|]. rewrite cos_PI2. exact C.
    + exfalso. rewrite sin_PI2 in S. assert (sin (- c * (PI / 180)) <= 0); [|lra]. rewrite <- (Ropp_involutive (- c * (PI / 180))), sin_neg.
      assert (0 <= sin (- (- c * (PI / 180)))) by (apply sin_ge_0; lra). lra.
  - unfold travel, point, north, east, lin, rad. rewrite cos_PI2, sin_PI2. replace (0 * (PI / 180)) with 0 by ring. replace (90 * (PI / 180)) with (PI / 2) by field. rewrite cos_PI2, sin_PI2, cos_0, sin_0. f_equal; [f_equal|]; ring.
  - unfold travel, point, north, east, lin, rad. rewrite cos_PI2, sin_PI2. replace (0 * (PI / 180)) with 0 by ring. replace (-90 * (PI / 180)) with (- (PI / 2)) by field. rewrite cos_neg, sin_neg, cos_PI2, sin_PI2, cos_0, sin_0. f_equal; [f_equal|]; ring.
Qed.
Print Assumptions C39_second_formula_refuted.

(** The point a fraction of the way is that fraction of the distance from the start and the rest from the end. *)
Theorem C39_intermediate : forall lat1 lon1 lat2 lon2 f lat lon, 0 <= f <= 1 -> angular_distance lat1 lon1 lat2 lon2 < PI ->
  intermediate_point lat1 lon1 lat2 lon2 f = Ok (lat, lon) ->
  sphere_distance lat1 lon1 lat lon = f * sphere_distance lat1 lon1 lat2 lon2 /\
  sphere_distance lat lon lat2 lon2 = (1 - f) * sphere_distance lat1 lon1 lat2 lon2.
Proof.
  intros lat1 lon1 lat2 lon2 f lat lon F D H. destruct (intermediate_spec lat1 lon1 lat2 lon2 f lat lon F D H) as [A B]. unfold sphere_distance. rewrite A, B. split; ring.
Qed.
Print Assumptions C39_intermediate.
Theorem C39_intermediate_accepts : forall lat1 lon1 lat2 lon2 f, (exists p, intermediate_point lat1 lon1 lat2 lon2 f = Ok p) <-> f <= 1.
Proof.
  intros. unfold intermediate_point. destruct (Rle_dec f 1) as [H|H]; split; intro K; try assumption.
  - cbv zeta. destruct (Req_EM_T _ 0); eauto.
  - destruct K as [p K]. discriminate.
  - contradiction.
Qed.
Print Assumptions C39_intermediate_accepts.

(** The predicted next position continues the great circle through the last two positions at the same speed. *)
Theorem C39_predict : forall lat1 lon1 lat2 lon2 td t lat lon, -90 < lat1 < 90 -> -90 <= lat2 <= 90 -> 0.0000001 <= cos (rad lat1) ->
  0 < angular_distance lat1 lon1 lat2 lon2 < PI -> td <> 0 -> predict_from lat1 lon1 lat2 lon2 td t = (lat, lon) ->
  exists course, travel lat1 lon1 course (angular_distance lat1 lon1 lat2 lon2) = point lat2 lon2 /\
    travel lat1 lon1 course (angular_distance lat1 lon1 lat2 lon2 * (1 + t / td)) = point lat lon.
Proof.
  intros lat1 lon1 lat2 lon2 td t lat lon L L2 A D T H. exists (course_between_points lat1 lon1 lat2 lon2). split.
  - now apply course_spec.
  - symmetry. now apply predict_spec.
Qed.
Print Assumptions C39_predict.

(** A quarter of the way round the equator meets the conditions. *)
Example C39_ex : angular_distance 0 0 0 90 = PI / 2 /\ 0 < angular_distance 0 0 0 90 < PI /\ 0.0000001 <= cos (rad 0) /\ point 0 0 <> point 0 90.
Proof.
  assert (E : angular_distance 0 0 0 90 = PI / 2).
  { rewrite angular_equator; [|rewrite Rabs_left; lra]. pose proof PI_RGT_0. unfold rad. rewrite Rabs_left; lra. }
  pose proof PI_RGT_0. split; [exact E|]. split; [lra|]. split; [replace (rad 0) with 0 by (unfold rad; ring); rewrite cos_0; lra|]. intro K. apply angular_zero in K. lra.
Qed.

(* ------------------------------------------------------------------ C40 *)

(** Within a turn of each other: the smallest rotation that takes one to the other, between 0 and pi. *)
Theorem C40_smallest : forall a b, Rabs (a - b) <= 2 * PI -> 0 <= angle_diff a b <= PI /\
  (forall k : Z, angle_diff a b <= Rabs (a - b + 2 * IZR k * PI)) /\ exists k : Z, angle_diff a b = Rabs (a - b + 2 * IZR k * PI).
Proof. intros a b H. split; [now apply angle_diff_range|now apply angle_diff_least]. Qed.
Print Assumptions C40_smallest.
Theorem C40_symmetric : forall a b, angle_diff a b = angle_diff b a /\ cos (angle_diff a b) = cos (a - b).
Proof. intros. split; [apply angle_diff_sym|apply angle_diff_cos]. Qed.
Print Assumptions C40_symmetric.

(** "Never negative" fails for angles more than a turn apart. *)
Theorem C40_negative_refuted : forall a b, 2 * PI < Rabs (a - b) -> angle_diff a b < 0.
Proof. intros a b H. unfold angle_diff. cbv zeta. pose proof PI_RGT_0. destruct (Rlt_dec PI (Rabs (a - b))); lra. Qed.
Print Assumptions C40_negative_refuted.
Example C40_ex : angle_diff (7 / 4 * PI) 0 = PI / 4 /\ Rabs (7 / 4 * PI - 0) <= 2 * PI /\ 2 * PI < Rabs (3 * PI - 0).
Proof. pose proof PI_RGT_0. unfold angle_diff. cbv zeta. rewrite !Rabs_right by lra. destruct (Rlt_dec PI (7 / 4 * PI - 0)); lra. Qed.
