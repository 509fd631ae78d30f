(** Proofs about positions on the globe. *)
Require Import Reals ZArith Lia Lra Nsatz.
Require Import Verif.M_Base Verif.M_Real Verif.L_Real Verif.M_Sphere Verif.S_Sphere.
Open Scope R_scope.

Lemma sc1 : forall x, sin x * sin x + cos x * cos x = 1.
Proof. intro x. pose proof (sin2_cos2 x) as H. unfold Rsqr in H. exact H. Qed.
Lemma cos_Rabs : forall x, cos (Rabs x) = cos x.
Proof. intro x. unfold Rabs. destruct (Rcase_abs x); [apply cos_neg|reflexivity]. Qed.
Lemma sin_Rabs2 : forall x, sin (Rabs x) * sin (Rabs x) = sin x * sin x.
Proof. intro x. unfold Rabs. destruct (Rcase_abs x); [rewrite sin_neg; ring|reflexivity]. Qed.

Lemma point_unit : forall a b, dot (point a b) (point a b) = 1.
Proof. intros a b. unfold dot, point. pose proof (sc1 (rad a)). pose proof (sc1 (rad b)). nsatz. Qed.
Lemma dot_comm : forall u v, dot u v = dot v u.
Proof. intros [[a b] c] [[d e] f]. cbn. ring. Qed.
Lemma dot_points : forall la1 lo1 la2 lo2, dot (point la1 lo1) (point la2 lo2) = sin (rad la1) * sin (rad la2) + cos (rad la1) * cos (rad la2) * cos (rad lo1 - rad lo2).
Proof. intros. unfold dot, point. rewrite cos_minus. ring. Qed.

Lemma angular_cos : forall la1 lo1 la2 lo2, 0 <= angular_distance la1 lo1 la2 lo2 <= PI /\ cos (angular_distance la1 lo1 la2 lo2) = dot (point la1 lo1) (point la2 lo2) /\
  0 <= sin (angular_distance la1 lo1 la2 lo2).
Proof.
  intros la1 lo1 la2 lo2. rewrite dot_points. unfold angular_distance. cbv zeta.
  change (la1 * radians_per_degree) with (rad la1). change (la2 * radians_per_degree) with (rad la2).
  change (lo1 * radians_per_degree) with (rad lo1). change (lo2 * radians_per_degree) with (rad lo2).
  set (a := rad la1). set (b := rad la2). set (l := rad lo1 - rad lo2). rewrite cos_Rabs.
  match goal with |- context [atan2 (sqrt ?t) ?c] => set (top := t); set (bot := c) end.
  assert (T : top = 1 - bot * bot).
  { unfold top, bot. replace (cos b * sin (Rabs l) * (cos b * sin (Rabs l))) with (cos b * cos b * (sin (Rabs l) * sin (Rabs l))) by ring. rewrite sin_Rabs2.
    pose proof (sc1 a). pose proof (sc1 b). pose proof (sc1 l). nsatz. }
  assert (T0 : 0 <= top) by (unfold top; apply Rplus_le_le_0_compat; apply Rle_0_sqr).
  destruct (atan2_polar (sqrt top) bot) as [X Y]. cbv zeta in X, Y.
  replace (sqrt (bot * bot + sqrt top * sqrt top)) with 1 in X, Y.
  2:{ rewrite sqrt_sqrt by exact T0. rewrite T. replace (bot * bot + (1 - bot * bot)) with 1 by ring. now rewrite sqrt_1. }
  split; [split|split].
  - apply atan2_nonneg, sqrt_pos.
  - apply atan2_bound.
  - lra.
  - pose proof (sqrt_pos top). lra.
Qed.

Lemma cos_inj_pi : forall a b, 0 <= a <= PI -> 0 <= b <= PI -> cos a = cos b -> a = b.
Proof. intros a b A B H. apply cos_inj; assumption. Qed.
Lemma angular_unique : forall la1 lo1 la2 lo2 d, 0 <= d <= PI -> cos d = dot (point la1 lo1) (point la2 lo2) -> angular_distance la1 lo1 la2 lo2 = d.
Proof. intros la1 lo1 la2 lo2 d D H. destruct (angular_cos la1 lo1 la2 lo2) as [B [C _]]. apply cos_inj_pi; auto. congruence. Qed.
Lemma angular_acos : forall la1 lo1 la2 lo2, angular_distance la1 lo1 la2 lo2 = acos (dot (point la1 lo1) (point la2 lo2)).
Proof. intros. destruct (angular_cos la1 lo1 la2 lo2) as [B [C _]]. rewrite <- C. symmetry. now apply acos_cos. Qed.

Lemma unit_dot_1 : forall u v, dot u u = 1 -> dot v v = 1 -> (dot u v = 1 <-> u = v).
Proof.
  intros [[a b] c] [[d e] f] U V. cbn in *. split.
  - intro H. assert (K : (a - d) * (a - d) + (b - e) * (b - e) + (c - f) * (c - f) = 0) by nra.
    pose proof (Rle_0_sqr (a - d)) as K1. pose proof (Rle_0_sqr (b - e)) as K2. pose proof (Rle_0_sqr (c - f)) as K3. unfold Rsqr in *.
    assert (Z0 : forall x, x * x = 0 -> x = 0) by (intros x X; apply Rmult_integral in X; tauto).
    assert (a - d = 0) by (apply Z0; lra). assert (b - e = 0) by (apply Z0; lra). assert (c - f = 0) by (apply Z0; lra). f_equal; [f_equal|]; lra.
  - intro H. injection H as -> -> ->. exact V.
Qed.
Lemma unit_dot_m1 : forall u v, dot u u = 1 -> dot v v = 1 -> (dot u v = -1 <-> u = opp v).
Proof.
  intros u v U V. rewrite <- (unit_dot_1 u (opp v) U).
  - destruct u as [[a b] c], v as [[d e] f]. cbn. split; intro; lra.
  - destruct v as [[d e] f]. cbn in *. lra.
Qed.
Lemma pi_pos : 0 < PI. Proof. exact PI_RGT_0. Qed.

Lemma angular_sym : forall la1 lo1 la2 lo2, angular_distance la1 lo1 la2 lo2 = angular_distance la2 lo2 la1 lo1.
Proof. intros. rewrite !angular_acos. now rewrite dot_comm. Qed.
Lemma angular_zero : forall la1 lo1 la2 lo2, angular_distance la1 lo1 la2 lo2 = 0 <-> point la1 lo1 = point la2 lo2.
Proof.
  intros. rewrite <- (unit_dot_1 _ _ (point_unit la1 lo1) (point_unit la2 lo2)). destruct (angular_cos la1 lo1 la2 lo2) as [B [C _]]. split; intro H.
  - rewrite <- C, H. apply cos_0.
  - apply angular_unique; [pose proof pi_pos; lra|]. now rewrite cos_0.
Qed.
Lemma angular_pi : forall la1 lo1 la2 lo2, angular_distance la1 lo1 la2 lo2 = PI <-> point la1 lo1 = opp (point la2 lo2).
Proof.
  intros. rewrite <- (unit_dot_m1 _ _ (point_unit la1 lo1) (point_unit la2 lo2)). destruct (angular_cos la1 lo1 la2 lo2) as [B [C _]]. split; intro H.
  - rewrite <- C, H. apply cos_PI.
  - apply angular_unique; [pose proof pi_pos; lra|]. now rewrite cos_PI.
Qed.

Lemma rad_turn : forall lo k, rad (lo + 360 * IZR k) = rad lo + 2 * IZR k * PI.
Proof. intros. unfold rad. field. Qed.
Lemma cos_period_Z : forall x k, cos (x + 2 * IZR k * PI) = cos x.
Proof.
  intros x k. destruct (Z_le_gt_dec 0 k) as [H|H].
  - destruct (IZN k H) as [n ->]. rewrite <- INR_IZR_INZ. apply cos_period.
  - destruct (IZN (- k)) as [n E]; [lia|]. replace k with (- Z.of_nat n)%Z by lia. rewrite opp_IZR, <- INR_IZR_INZ.
    rewrite <- (cos_period (x + 2 * - INR n * PI) n). f_equal. ring.
Qed.
Lemma sin_period_Z : forall x k, sin (x + 2 * IZR k * PI) = sin x.
Proof.
  intros x k. destruct (Z_le_gt_dec 0 k) as [H|H].
  - destruct (IZN k H) as [n ->]. rewrite <- INR_IZR_INZ. apply sin_period.
  - destruct (IZN (- k)) as [n E]; [lia|]. replace k with (- Z.of_nat n)%Z by lia. rewrite opp_IZR, <- INR_IZR_INZ.
    rewrite <- (sin_period (x + 2 * - INR n * PI) n). f_equal. ring.
Qed.
Lemma point_turn : forall la lo k, point la (lo + 360 * IZR k) = point la lo.
Proof. intros. unfold point. rewrite rad_turn, cos_period_Z, sin_period_Z. reflexivity. Qed.
Lemma angular_turn : forall la1 lo1 la2 lo2 j k, angular_distance la1 (lo1 + 360 * IZR j) la2 (lo2 + 360 * IZR k) = angular_distance la1 lo1 la2 lo2.
Proof. intros. now rewrite !angular_acos, !point_turn. Qed.
Lemma angular_shift : forall la1 lo1 la2 lo2 s, angular_distance la1 (lo1 + s) la2 (lo2 + s) = angular_distance la1 lo1 la2 lo2.
Proof. intros. rewrite !angular_acos, !dot_points. do 2 f_equal. f_equal. f_equal. unfold rad. ring. Qed.

(** The triangle inequality. *)
Definition cross (u v : vec) : vec := let '(a, b, c) := u in let '(d, e, f) := v in (b * f - c * e, c * d - a * f, a * e - b * d).
Lemma lagrange : forall u v, dot (cross u v) (cross u v) = dot u u * dot v v - dot u v * dot u v.
Proof. intros [[a b] c] [[d e] f]. cbn. ring. Qed.
Lemma binet : forall u v w, dot (cross u v) (cross v w) = dot u v * dot v w - dot u w * dot v v.
Proof. intros [[a b] c] [[d e] f] [[g h] i]. cbn. ring. Qed.
Lemma cauchy : forall u v, dot u v * dot u v <= dot u u * dot v v.
Proof. intros u v. pose proof (lagrange u v). assert (0 <= dot (cross u v) (cross u v)) by (destruct (cross u v) as [[a b] c]; cbn; nra). lra. Qed.
Lemma dot_self_nonneg : forall u, 0 <= dot u u.
Proof. intros [[a b] c]. cbn. nra. Qed.
Lemma angular_triangle : forall la1 lo1 la2 lo2 la3 lo3,
  angular_distance la1 lo1 la3 lo3 <= angular_distance la1 lo1 la2 lo2 + angular_distance la2 lo2 la3 lo3.
Proof.
  intros. destruct (angular_cos la1 lo1 la2 lo2) as [[A1 A2] [A3 A4]]. destruct (angular_cos la2 lo2 la3 lo3) as [[B1 B2] [B3 B4]].
  destruct (angular_cos la1 lo1 la3 lo3) as [[C1 C2] [C3 C4]].
  set (u := point la1 lo1) in *. set (v := point la2 lo2) in *. set (w := point la3 lo3) in *.
  set (p := angular_distance la1 lo1 la2 lo2) in *. set (q := angular_distance la2 lo2 la3 lo3) in *. set (s := angular_distance la1 lo1 la3 lo3) in *.
  destruct (Rle_lt_dec PI (p + q)) as [H|H]; [lra|]. apply Rnot_lt_le. intro K.
  assert (cos s < cos (p + q)) by (apply cos_decreasing_1; lra).
  rewrite cos_plus in *. rewrite A3, B3, C3 in *.
  assert (U : dot u u = 1) by apply point_unit. assert (V : dot v v = 1) by apply point_unit. assert (W : dot w w = 1) by apply point_unit.
  pose proof (lagrange u v) as L1. pose proof (lagrange v w) as L2. pose proof (binet u v w) as L3. pose proof (cauchy (cross u v) (cross v w)) as L4.
  rewrite U, V, W in *. pose proof (sc1 p) as S1. pose proof (sc1 q) as S2. rewrite A3 in S1. rewrite B3 in S2.
  assert (E : (dot u v * dot v w - dot u w) * (dot u v * dot v w - dot u w) <= (sin p * sin q) * (sin p * sin q)).
  { replace (dot u v * dot v w - dot u w) with (dot (cross u v) (cross v w)) by lra. eapply Rle_trans; [exact L4|]. right. rewrite L1, L2. nra. }
  assert (0 <= sin p * sin q) by nra. nra.
Qed.

(** Along a meridian and along the equator. *)
Lemma rad_bound : forall x a, Rabs x <= a -> Rabs (rad x) <= rad a.
Proof. intros x a H. unfold rad. rewrite Rabs_mult. rewrite (Rabs_right (PI / 180)) by (pose proof pi_pos; lra). apply Rmult_le_compat_r; [pose proof pi_pos; lra|exact H]. Qed.
Lemma angular_meridian : forall la1 la2 lo, Rabs (la1 - la2) <= 180 -> angular_distance la1 lo la2 lo = Rabs (rad (la1 - la2)).
Proof.
  intros la1 la2 lo H. apply angular_unique.
  - split; [apply Rabs_pos|]. apply rad_bound in H. replace (rad 180) with PI in H by (unfold rad; field). exact H.
  - rewrite cos_Rabs, dot_points. replace (rad lo - rad lo) with 0 by ring. rewrite cos_0. replace (rad (la1 - la2)) with (rad la1 - rad la2) by (unfold rad; ring). rewrite cos_minus. ring.
Qed.
Lemma angular_equator : forall lo1 lo2, Rabs (lo1 - lo2) <= 180 -> angular_distance 0 lo1 0 lo2 = Rabs (rad (lo1 - lo2)).
Proof.
  intros lo1 lo2 H. apply angular_unique.
  - split; [apply Rabs_pos|]. apply rad_bound in H. replace (rad 180) with PI in H by (unfold rad; field). exact H.
  - rewrite cos_Rabs, dot_points. replace (rad 0) with 0 by (unfold rad; ring). rewrite sin_0, cos_0. replace (rad (lo1 - lo2)) with (rad lo1 - rad lo2) by (unfold rad; ring). ring.
Qed.

(** Destinations. *)
Lemma Rtrunc_Z : forall x, exists k : Z, Rtrunc x = IZR k.
Proof. intro x. unfold Rtrunc. destruct (Rle_dec 0 x); [eauto|]. exists (- Int_part (- x))%Z. now rewrite opp_IZR. Qed.
Lemma fmod_turns : forall x, exists k : Z, fmod x (2 * PI) = x + 2 * IZR k * PI.
Proof. intro x. unfold fmod. destruct (Rtrunc_Z (x / (2 * PI))) as [k ->]. exists (- k)%Z. rewrite opp_IZR. ring. Qed.
Lemma Int_part_bounds : forall x, IZR (Int_part x) <= x < IZR (Int_part x) + 1.
Proof. intro x. destruct (base_Int_part x) as [A B]. lra. Qed.
Lemma Rtrunc_bounds : forall x, (0 <= x -> Rtrunc x <= x < Rtrunc x + 1) /\ (x < 0 -> x <= Rtrunc x < x + 1).
Proof.
  intro x. unfold Rtrunc. destruct (Rle_dec 0 x) as [H|H]; split; intro K; try lra.
  - apply Int_part_bounds.
  - pose proof (Int_part_bounds (- x)). lra.
Qed.
Lemma fmod_range : forall x, (0 <= x -> 0 <= fmod x (2 * PI) < 2 * PI) /\ (x < 0 -> -2 * PI < fmod x (2 * PI) <= 0).
Proof.
  intro x. pose proof pi_pos as P. unfold fmod. set (q := x / (2 * PI)). assert (E : x = 2 * PI * q) by (unfold q; field; lra).
  destruct (Rtrunc_bounds q) as [A B]. split; intro H.
  - assert (0 <= q) by (unfold q; apply Rmult_le_pos; [exact H|left; apply Rinv_0_lt_compat; lra]). specialize (A H0). rewrite E. nra.
  - assert (q < 0) by (apply Rnot_le_lt; intro; nra). specialize (B H0). rewrite E. nra.
Qed.

Lemma rpd_pos : 0 < radians_per_degree. Proof. unfold radians_per_degree. pose proof pi_pos. lra. Qed.
Lemma rad_div : forall x, rad (x / radians_per_degree) = x.
Proof. intro x. unfold rad, radians_per_degree. pose proof pi_pos. field. lra. Qed.
Lemma cos_lat_nonneg : forall la, -90 <= la <= 90 -> 0 <= cos (rad la).
Proof. intros la H. apply cos_ge_0; unfold rad; pose proof pi_pos; nra. Qed.
Lemma cos_lat_pos : forall la, -90 < la < 90 -> 0 < cos (rad la).
Proof. intros la H. apply cos_gt_0; unfold rad; pose proof pi_pos; nra. Qed.

(** Scaling both arguments of the angle. *)
Lemma sqrt_scale : forall k x y, 0 < k -> sqrt (k * x * (k * x) + k * y * (k * y)) = k * sqrt (x * x + y * y).
Proof. intros k x y K. replace (k * x * (k * x) + k * y * (k * y)) with (k * k * (x * x + y * y)) by ring. rewrite sqrt_mult_alt by nra. rewrite sqrt_square by lra. reflexivity. Qed.

Lemma deg_90 : forall x, - (PI / 2) <= x <= PI / 2 -> -90 <= x / radians_per_degree <= 90.
Proof.
  intros x H. pose proof rpd_pos as P. assert (E : x / radians_per_degree * radians_per_degree = x) by (field; lra).
  assert (90 * radians_per_degree = PI / 2) by (unfold radians_per_degree; field). split; apply Rmult_le_reg_r with radians_per_degree; lra.
Qed.
Lemma destination_spec : forall lat1 lon1 tc d lat lon, -90 < lat1 < 90 ->
  lat_lon_from_course_and_distance lat1 lon1 tc d = (lat, lon) ->
  point lat lon = travel lat1 lon1 tc (d / earths_radius) /\ -90 <= lat <= 90.
Proof.
  intros lat1 lon1 tc d lat lon L H. unfold lat_lon_from_course_and_distance in H. cbv zeta in H.
  change (lat1 * radians_per_degree) with (rad lat1) in H. change (lon1 * radians_per_degree) with (rad lon1) in H. change (tc * radians_per_degree) with (rad tc) in H.
  set (r := d / earths_radius) in *. pose proof (cos_lat_pos lat1 L) as CP.
  set (s := sin (rad lat1) * cos r + cos (rad lat1) * sin r * cos (rad tc)) in *.
  pose proof (sc1 (rad lat1)) as S1. pose proof (sc1 r) as S2. pose proof (sc1 (rad tc)) as S3.
  set (X := cos r * cos (rad lat1) - sin r * cos (rad tc) * sin (rad lat1)). set (Y := sin r * sin (rad tc)).
  assert (N : X * X + Y * Y + s * s = 1) by (unfold X, Y, s; nsatz).
  assert (SB : -1 <= s <= 1) by nra.
  rewrite (sin_asin s SB) in H.
  assert (EB : cos r - sin (rad lat1) * s = cos (rad lat1) * X).
  { unfold X, s. transitivity (cos r * (1 - sin (rad lat1) * sin (rad lat1)) - sin (rad lat1) * cos (rad lat1) * sin r * cos (rad tc)); [ring|].
    replace (1 - sin (rad lat1) * sin (rad lat1)) with (cos (rad lat1) * cos (rad lat1)) by lra. ring. }
  assert (EA : sin (rad tc) * sin r * cos (rad lat1) = cos (rad lat1) * Y) by (unfold Y; ring).
  rewrite EA, EB in H. clear EA EB.
  set (dl := atan2 (cos (rad lat1) * Y) (cos (rad lat1) * X)) in *.
  assert (CA : 0 <= cos (asin s)) by (apply cos_ge_0; pose proof (asin_bound s); lra).
  assert (CA2 : cos (asin s) * cos (asin s) = X * X + Y * Y) by (pose proof (sc1 (asin s)) as T; rewrite (sin_asin s SB) in T; lra).
  assert (CA3 : cos (asin s) = sqrt (X * X + Y * Y)) by (rewrite <- CA2; symmetry; now apply sqrt_square).
  destruct (atan2_polar (cos (rad lat1) * Y) (cos (rad lat1) * X)) as [PX PY]. cbv zeta in PX, PY. rewrite sqrt_scale in PX, PY by exact CP. fold dl in PX, PY. rewrite <- CA3 in PX, PY.
  assert (PX' : X = cos (asin s) * cos dl) by nra. assert (PY' : Y = cos (asin s) * sin dl) by nra.
  injection H as <- <-. destruct (fmod_turns (rad lon1 + dl + PI)) as [k E]. split.
  - unfold point, travel, north, east, lin, point. rewrite !rad_div, E, (sin_asin s SB).
    replace (rad lon1 + dl + PI + 2 * IZR k * PI - PI) with (rad lon1 + dl + 2 * IZR k * PI) by ring. rewrite cos_period_Z, sin_period_Z, cos_plus, sin_plus.
    f_equal; [f_equal|].
    + transitivity (cos (rad lon1) * X - sin (rad lon1) * Y); [rewrite PX', PY'; ring|]. unfold X, Y. ring.
    + transitivity (sin (rad lon1) * X + cos (rad lon1) * Y); [rewrite PX', PY'; ring|]. unfold X, Y. ring.
    + unfold s. ring.
  - apply deg_90. pose proof (asin_bound s). lra.
Qed.

(** Courses. *)
Lemma course_frame : forall la1 lo1 la2 lo2, let u := point la1 lo1 in let v := point la2 lo2 in
  v = lin (dot u v) u 1 (lin (dot (north la1 lo1) v) (north la1 lo1) (dot (east la1 lo1) v) (east la1 lo1)).
Proof.
  intros. unfold u, v, point, north, east, lin, dot. pose proof (sc1 (rad la1)) as A. pose proof (sc1 (rad lo1)) as B.
  f_equal; [f_equal|]; nsatz.
Qed.
Lemma course_parts : forall la1 lo1 la2 lo2, let u := point la1 lo1 in let v := point la2 lo2 in
  dot u v * dot u v + dot (north la1 lo1) v * dot (north la1 lo1) v + dot (east la1 lo1) v * dot (east la1 lo1) v = 1 /\
  cos (rad la1) * dot (north la1 lo1) v = sin (rad la2) - sin (rad la1) * dot u v /\
  dot (east la1 lo1) v = cos (rad la2) * sin (rad lo2 - rad lo1).
Proof.
  intros. unfold u, v, point, north, east, dot. rewrite sin_minus.
  pose proof (sc1 (rad la1)) as A. pose proof (sc1 (rad lo1)) as B. pose proof (sc1 (rad la2)) as C. pose proof (sc1 (rad lo2)) as D.
  split; [|split].
  - nsatz.
  - nsatz.
  - ring.
Qed.
Lemma course_spec : forall lat1 lon1 lat2 lon2, -90 <= lat2 <= 90 -> 0.0000001 <= cos (rad lat1) ->
  0 < angular_distance lat1 lon1 lat2 lon2 < PI ->
  let tc := course_between_points lat1 lon1 lat2 lon2 in
  travel lat1 lon1 tc (angular_distance lat1 lon1 lat2 lon2) = point lat2 lon2 /\ 0 <= tc <= 360.
Proof.
  intros lat1 lon1 lat2 lon2 L2 C1 D tc. unfold tc, course_between_points. cbv zeta. clear tc.
  set (d := angular_distance lat1 lon1 lat2 lon2) in *. destruct (angular_cos lat1 lon1 lat2 lon2) as [_ [CD SD]]. fold d in CD, SD.
  change (lat1 * radians_per_degree) with (rad lat1). change (lat2 * radians_per_degree) with (rad lat2). change (lon1 * radians_per_degree) with (rad lon1). change (lon2 * radians_per_degree) with (rad lon2).
  destruct (Req_EM_T d 0) as [Z|_]; [lra|]. destruct (Rlt_dec (cos (rad lat1)) 0.0000001) as [Z|_]; [lra|].
  assert (SP : 0 < sin d) by (apply sin_gt_0; lra).
  pose proof (course_frame lat1 lon1 lat2 lon2) as F. pose proof (course_parts lat1 lon1 lat2 lon2) as [P1 [P2 P3]]. cbv zeta in F, P1, P2, P3. rewrite <- CD in F, P1, P2.
  set (n := dot (north lat1 lon1) (point lat2 lon2)) in *. set (e := dot (east lat1 lon1) (point lat2 lon2)) in *.
  assert (RT : (sin (rad lat2) - sin (rad lat1) * cos d) / (sin d * cos (rad lat1)) = n / sin d) by (rewrite <- P2; field; lra).
  rewrite RT. set (q := n / sin d). assert (NQ : n = sin d * q) by (unfold q; field; lra).
  pose proof (sc1 d) as S1. pose proof (cos_lat_nonneg lat2 L2) as C2.
  set (g := e / sin d). assert (EG : e = sin d * g) by (unfold g; field; lra).
  assert (QG : q * q + g * g = 1) by (apply Rmult_eq_reg_l with (sin d * sin d); [rewrite NQ, EG in P1; lra|nra]).
  assert (QB : -1 <= q <= 1) by nra.
  assert (SA : sin (acos q) = Rabs g).
  { rewrite sin_acos by exact QB. replace (1 - Rsqr q) with (Rsqr g) by (unfold Rsqr; lra). apply sqrt_Rsqr_abs. }
  pose proof (acos_bound q) as AB. pose proof rpd_pos as RP. pose proof pi_pos as PP.
  assert (FIN : forall t, cos t = q -> sin t = g -> travel lat1 lon1 (t / radians_per_degree) d = point lat2 lon2).
  { intros t TC TS. rewrite F. unfold travel. rewrite rad_div, TC, TS. fold n e. rewrite NQ, EG. destruct (point lat1 lon1) as [[a b] c], (north lat1 lon1) as [[a' b'] c'], (east lat1 lon1) as [[a2 b2] c2].
    cbn. f_equal; [f_equal|]; ring. }
  assert (RNG : forall t, 0 <= t <= 2 * PI -> 0 <= t / radians_per_degree <= 360).
  { intros t T. assert (E : t / radians_per_degree * radians_per_degree = t) by (field; lra). assert (360 * radians_per_degree = 2 * PI) by (unfold radians_per_degree; field).
    split; apply Rmult_le_reg_r with radians_per_degree; lra. }
  destruct (Rge_dec 1 q) as [_|Z]; [|lra]. destruct (Rge_dec q (-1)) as [_|Z]; [|lra].
  destruct (Rlt_dec 0 (sin (rad lon2 - rad lon1))) as [W|W].
  - split; [|apply RNG; lra]. apply FIN; [now apply cos_acos|]. rewrite SA. apply Rabs_right. apply Rle_ge. unfold g. rewrite P3. apply Rmult_le_pos; [nra|left; now apply Rinv_0_lt_compat].
  - split; [|apply RNG; lra]. apply FIN.
    + replace (2 * PI - acos q) with (- acos q + 2 * PI) by ring. rewrite cos_wrap_plus, cos_neg. now apply cos_acos.
    + replace (2 * PI - acos q) with (- acos q + 2 * PI) by ring. rewrite sin_wrap_plus, sin_neg, SA.
      assert (g <= 0). { unfold g. rewrite P3. assert (0 < / sin d) by now apply Rinv_0_lt_compat. unfold Rdiv. assert (cos (rad lat2) * sin (rad lon2 - rad lon1) <= 0) by nra. nra. }
      rewrite Rabs_left1 by assumption. ring.
Qed.
Lemma course_after_nan_mirror : forall lat1 lon1 lat2 lon2, let c := course_after_nan (rad lat1) (rad lon1) (rad lat2) (rad lon2) / radians_per_degree in
  travel lat1 lon1 (- c) (angular_distance lat1 lon1 lat2 lon2) = point lat2 lon2 /\ -180 < c <= 180.
Proof.
  intros lat1 lon1 lat2 lon2 c. unfold c, course_after_nan. clear c.
  set (d := angular_distance lat1 lon1 lat2 lon2) in *. destruct (angular_cos lat1 lon1 lat2 lon2) as [_ [CD SD]]. fold d in CD, SD.
  pose proof (course_frame lat1 lon1 lat2 lon2) as F. pose proof (course_parts lat1 lon1 lat2 lon2) as [P1 [_ P3]]. cbv zeta in F, P1, P3. rewrite <- CD in F, P1.
  assert (N : dot (north lat1 lon1) (point lat2 lon2) = cos (rad lat1) * sin (rad lat2) - sin (rad lat1) * cos (rad lat2) * cos (rad lon1 - rad lon2))
    by (unfold dot, north, point; rewrite cos_minus; ring).
  set (X := cos (rad lat1) * sin (rad lat2) - sin (rad lat1) * cos (rad lat2) * cos (rad lon1 - rad lon2)) in *.
  set (Y := sin (rad lon1 - rad lon2) * cos (rad lat2)).
  assert (E : dot (east lat1 lon1) (point lat2 lon2) = - Y) by (rewrite P3; unfold Y; replace (rad lon2 - rad lon1) with (- (rad lon1 - rad lon2)) by ring; rewrite sin_neg; ring).
  rewrite N, E in F, P1. clear N E P3. pose proof (sc1 d) as S1.
  destruct (atan2_polar Y X) as [PX PY]. cbv zeta in PX, PY.
  assert (SQ : sqrt (X * X + Y * Y) = sin d) by (replace (X * X + Y * Y) with (Rsqr (sin d)) by (unfold Rsqr; lra); now apply sqrt_Rsqr).
  rewrite SQ in PX, PY. pose proof pi_pos as PP. pose proof rpd_pos as RP. destruct (atan2_bound Y X) as [B1 B2].
  assert (FM : fmod (atan2 Y X) (2 * PI) = atan2 Y X).
  { destruct (fmod_turns (atan2 Y X)) as [k K]. destruct (fmod_range (atan2 Y X)) as [R1 R2]. destruct (Rle_dec 0 (atan2 Y X)) as [G|G].
    - specialize (R1 G). assert (k = 0)%Z as -> by (assert (-1 < IZR k < 1) as [U V] by (rewrite K in R1; split; nra); apply lt_IZR in U, V; lia). rewrite K; ring.
    - assert (H : atan2 Y X < 0) by lra. specialize (R2 H). assert (k = 0)%Z as -> by (assert (-1 < IZR k < 1) as [U V] by (rewrite K in R2; split; nra); apply lt_IZR in U, V; lia). rewrite K; ring. }
  rewrite FM. split.
  - rewrite F. unfold travel. clear FM B1 B2 F P1 SQ. clearbody X Y d. set (t := atan2 Y X) in *. clearbody t. replace (- (t / radians_per_degree)) with ((- t) / radians_per_degree) by (field; lra). rewrite rad_div, cos_neg, sin_neg, PX, PY.
    destruct (point lat1 lon1) as [[a b] c], (north lat1 lon1) as [[a' b'] c'], (east lat1 lon1) as [[a2 b2] c2]. cbn. f_equal; [f_equal|]; ring.
  - assert (K : atan2 Y X / radians_per_degree * radians_per_degree = atan2 Y X) by (field; lra). assert (K2 : 180 * radians_per_degree = PI) by (unfold radians_per_degree; field).
    split; [apply Rmult_lt_reg_r with radians_per_degree|apply Rmult_le_reg_r with radians_per_degree]; lra.
Qed.
Lemma course_pole : forall lon1 lat2 lon2, 0 < angular_distance 90 lon1 lat2 lon2 -> course_between_points 90 lon1 lat2 lon2 = 180.
Proof.
  intros lon1 lat2 lon2 D. unfold course_between_points. cbv zeta. destruct (Req_EM_T (angular_distance 90 lon1 lat2 lon2) 0) as [Z|_]; [lra|].
  assert (E : 90 * radians_per_degree = PI / 2) by (unfold radians_per_degree; field). rewrite E, cos_PI2. destruct (Rlt_dec 0 0.0000001) as [_|Z]; [|lra].
  pose proof pi_pos. destruct (Rlt_dec 0 (PI / 2)) as [_|Z]; [|lra]. unfold radians_per_degree. field. lra.
Qed.
Lemma course_near_pole : forall lat1 lon1 lat2 lon2, cos (rad lat1) < 0.0000001 -> 0 < angular_distance lat1 lon1 lat2 lon2 ->
  (0 < lat1 -> course_between_points lat1 lon1 lat2 lon2 = 180) /\ (lat1 <= 0 -> course_between_points lat1 lon1 lat2 lon2 = 360).
Proof.
  intros lat1 lon1 lat2 lon2 C D. pose proof pi_pos. assert (RP : 0 < radians_per_degree) by (unfold radians_per_degree; lra). unfold course_between_points. cbv zeta. change (lat1 * radians_per_degree) with (rad lat1). destruct (Req_EM_T (angular_distance lat1 lon1 lat2 lon2) 0) as [Z|_]; [lra|].
  destruct (Rlt_dec (cos (rad lat1)) 0.0000001) as [_|Z]; [|lra]. unfold rad. split; intros L.
  - destruct (Rlt_dec 0 (lat1 * _)) as [_|Z]; [unfold radians_per_degree; field; lra|]. exfalso. apply Z. now apply Rmult_lt_0_compat.
  - destruct (Rlt_dec 0 (lat1 * _)) as [Z|_]; [nra|]. unfold radians_per_degree; field; lra.
Qed.

(** Intermediate points. *)
Lemma polar_point : forall x y z, x * x + y * y + z * z = 1 ->
  point (atan2 z (sqrt (x * x + y * y)) / radians_per_degree) (atan2 y x / radians_per_degree) = (x, y, z).
Proof.
  intros x y z H. unfold point. rewrite !rad_div. set (r := sqrt (x * x + y * y)).
  assert (R2 : r * r = x * x + y * y) by (apply sqrt_sqrt; nra).
  destruct (atan2_polar z r) as [A B]. destruct (atan2_polar y x) as [C D]. cbv zeta in A, B, C, D. fold r in C, D.
  replace (sqrt (r * r + z * z)) with 1 in A, B by (rewrite R2, H; now rewrite sqrt_1). rewrite <- (Rmult_1_l (cos (atan2 z r))), <- A, <- C, <- D. f_equal. lra.
Qed.
Lemma intermediate_spec : forall lat1 lon1 lat2 lon2 f lat lon, 0 <= f <= 1 -> angular_distance lat1 lon1 lat2 lon2 < PI ->
  intermediate_point lat1 lon1 lat2 lon2 f = Ok (lat, lon) ->
  angular_distance lat1 lon1 lat lon = f * angular_distance lat1 lon1 lat2 lon2 /\
  angular_distance lat lon lat2 lon2 = (1 - f) * angular_distance lat1 lon1 lat2 lon2.
Proof.
  intros lat1 lon1 lat2 lon2 f lat lon F D H. unfold intermediate_point in H. destruct (Rle_dec f 1) as [_|Z]; [|lra]. cbv zeta in H.
  destruct (angular_cos lat1 lon1 lat2 lon2) as [[B1 B2] [CD SD]].
  destruct (Req_EM_T (angular_distance lat1 lon1 lat2 lon2) 0) as [Z|NZ].
  - injection H as <- <-. assert (angular_distance lat1 lon1 lat1 lon1 = 0) by now apply angular_zero. split; [rewrite H, Z; ring|rewrite Z; ring].
  - change (lat1 * radians_per_degree) with (rad lat1) in H. change (lat2 * radians_per_degree) with (rad lat2) in H. change (lon1 * radians_per_degree) with (rad lon1) in H. change (lon2 * radians_per_degree) with (rad lon2) in H.
    set (d := angular_distance lat1 lon1 lat2 lon2) in *. assert (SP : 0 < sin d) by (apply sin_gt_0; lra).
    set (A := (1 - f) * d) in *. set (B := f * d) in *. assert (AB : d = A + B) by (unfold A, B; ring).
    set (a := sin A / sin d) in *. set (b := sin B / sin d) in *.
    assert (Ea : sin A = a * sin d) by (unfold a; field; lra). assert (Eb : sin B = b * sin d) by (unfold b; field; lra).
    pose proof (sc1 A) as SA. pose proof (sc1 B) as SB. pose proof (sin_plus A B) as SAB. pose proof (cos_plus A B) as CAB. rewrite <- AB in SAB, CAB.
    pose proof (point_unit lat1 lon1) as U. pose proof (point_unit lat2 lon2) as V. rewrite CD in CAB.
    assert (NORM : a * a + b * b + 2 * a * b * cos d = 1).
    { apply Rmult_eq_reg_l with (sin d * sin d); [|nra]. replace (sin d * sin d * (a * a + b * b + 2 * a * b * cos d)) with ((a * sin d) * (a * sin d) + (b * sin d) * (b * sin d) + 2 * (a * sin d) * (b * sin d) * cos d) by ring.
      rewrite <- Ea, <- Eb. rewrite CD. rewrite CAB, SAB. clear - SA SB. nsatz. }
    assert (DU : a + b * cos d = cos B).
    { apply Rmult_eq_reg_l with (sin d); [|lra]. replace (sin d * (a + b * cos d)) with (a * sin d + b * sin d * cos d) by ring. rewrite <- Ea, <- Eb. rewrite CD, CAB, SAB. clear - SA SB. nsatz. }
    assert (DV : a * cos d + b = cos A).
    { apply Rmult_eq_reg_l with (sin d); [|lra]. replace (sin d * (a * cos d + b)) with (a * sin d * cos d + b * sin d) by ring. rewrite <- Ea, <- Eb. rewrite CD, CAB, SAB. clear - SA SB. nsatz. }
    match type of H with Ok (atan2 ?z (sqrt (?x * ?x + ?y * ?y)) / _, _) = _ => pose proof (polar_point x y z) as PP; set (X := x) in *; set (Y := y) in *; set (Z := z) in * end.
    assert (VEC : (X, Y, Z) = lin a (point lat1 lon1) b (point lat2 lon2)) by (unfold X, Y, Z, lin, point; apply f_equal2; [apply f_equal2|]; ring).
    assert (LD : forall w, dot w (lin a (point lat1 lon1) b (point lat2 lon2)) = a * dot w (point lat1 lon1) + b * dot w (point lat2 lon2)) by (intros [[p q] r]; destruct (point lat1 lon1) as [[? ?] ?], (point lat2 lon2) as [[? ?] ?]; cbn; ring).
    assert (UNIT : X * X + Y * Y + Z * Z = 1).
    { change (X * X + Y * Y + Z * Z) with (dot (X, Y, Z) (X, Y, Z)). rewrite VEC, LD. rewrite (dot_comm _ (point lat1 lon1)), (dot_comm _ (point lat2 lon2)), !LD, U, V. rewrite (dot_comm (point lat2 lon2)), <- CD. rewrite <- NORM at 3. ring. }
    specialize (PP UNIT). injection H as <- <-. split; apply angular_unique.
    + unfold B. split; [nra|]. nra.
    + rewrite PP, VEC, LD, U, <- CD, <- DU. ring.
    + unfold A. split; [nra|]. nra.
    + rewrite PP, VEC, dot_comm, LD, V, (dot_comm (point lat2 lon2)), <- CD, <- DV. ring.
Qed.

(** Predicted points lie on the great circle through the last two. *)
Lemma predict_spec : forall lat1 lon1 lat2 lon2 td t lat lon, -90 < lat1 < 90 -> td <> 0 ->
  predict_from lat1 lon1 lat2 lon2 td t = (lat, lon) ->
  point lat lon = travel lat1 lon1 (course_between_points lat1 lon1 lat2 lon2) (angular_distance lat1 lon1 lat2 lon2 * (1 + t / td)).
Proof.
  intros lat1 lon1 lat2 lon2 td t lat lon L T H. unfold predict_from in H. cbv zeta in H. apply destination_spec in H; [|exact L]. destruct H as [H _]. rewrite H.
  f_equal. unfold sphere_distance. rewrite (angular_sym lat2). unfold earths_radius. field. split; [exact T|lra].
Qed.

(** A destination can get a longitude below -180. *)
Lemma atan2_small : forall r, 0 < r < PI / 2 -> atan2 (- sin r) (cos r) = - r.
Proof.
  intros r H. unfold atan2. assert (0 < cos r) by (apply cos_gt_0; lra). destruct (Rlt_dec 0 (cos r)) as [_|Z]; [|lra].
  replace (- sin r / cos r) with (tan (- r)) by (unfold tan; rewrite sin_neg, cos_neg; reflexivity). apply atan_tan. lra.
Qed.
Lemma destination_west : forall lon1 deg, -180 <= lon1 -> 0 < deg < 90 -> lon1 - deg < -180 ->
  lat_lon_from_course_and_distance 0 lon1 270 (earths_radius * rad deg) = (0, lon1 - deg).
Proof.
  intros lon1 deg L D W. unfold lat_lon_from_course_and_distance. cbv zeta.
  replace (0 * radians_per_degree) with 0 by ring. replace (270 * radians_per_degree) with (3 * (PI / 2)) by (unfold radians_per_degree; field).
  replace (earths_radius * rad deg / earths_radius) with (rad deg) by (unfold earths_radius; field; lra). rewrite sin_0, cos_0, cos_3PI2, sin_3PI2.
  replace (0 * cos (rad deg) + 1 * sin (rad deg) * 0) with 0 by ring. rewrite asin_0. replace (-1 * sin (rad deg) * 1) with (- sin (rad deg)) by ring. replace (cos (rad deg) - 0 * sin 0) with (cos (rad deg)) by ring.
  pose proof pi_pos as PP. assert (DR : 0 < rad deg < PI / 2) by (unfold rad; nra). rewrite atan2_small by exact DR.
  assert (E : fmod (lon1 * radians_per_degree + - rad deg + PI) (2 * PI) = lon1 * radians_per_degree + - rad deg + PI).
  { unfold fmod. set (x := lon1 * radians_per_degree + - rad deg + PI). assert (X : - PI < x < 0) by (unfold x, radians_per_degree, rad in *; nra).
    assert (Q : -1 < x / (2 * PI) < 0). { assert (E : x = x / (2 * PI) * (2 * PI)) by (field; lra). split; apply Rnot_le_lt; intro; nra. }
    assert (Rtrunc (x / (2 * PI)) = 0). { unfold Rtrunc. destruct (Rle_dec 0 (x / (2 * PI))); [lra|]. assert (Int_part (- (x / (2 * PI))) = 0%Z) as ->; [|lra].
      pose proof (Int_part_bounds (- (x / (2 * PI)))) as [I1 I2]. assert (Int_part (- (x / (2 * PI))) < 1)%Z by (apply lt_IZR; lra). assert (-1 < Int_part (- (x / (2 * PI))))%Z by (apply lt_IZR; lra). lia. }
    rewrite H. ring. }
  rewrite E. pose proof rpd_pos. f_equal; [field; lra|]. unfold rad. change (PI / 180) with radians_per_degree. field. lra.
Qed.

(** Angle differences. *)
Lemma angle_diff_sym : forall a b, angle_diff a b = angle_diff b a.
Proof. intros. unfold angle_diff. now rewrite Rabs_minus_sym. Qed.
Lemma angle_diff_cos : forall a b, cos (angle_diff a b) = cos (a - b).
Proof.
  intros. unfold angle_diff. cbv zeta. destruct (Rlt_dec PI (Rabs (a - b))).
  - replace (2 * PI - Rabs (a - b)) with (- Rabs (a - b) + 2 * PI) by ring. now rewrite cos_wrap_plus, cos_neg, cos_Rabs.
  - apply cos_Rabs.
Qed.
Lemma angle_diff_range : forall a b, Rabs (a - b) <= 2 * PI -> 0 <= angle_diff a b <= PI.
Proof. intros a b H. unfold angle_diff. cbv zeta. pose proof (Rabs_pos (a - b)). destruct (Rlt_dec PI (Rabs (a - b))); lra. Qed.
Lemma angle_diff_least : forall a b, Rabs (a - b) <= 2 * PI ->
  (forall k : Z, angle_diff a b <= Rabs (a - b + 2 * IZR k * PI)) /\ exists k : Z, angle_diff a b = Rabs (a - b + 2 * IZR k * PI).
Proof.
  intros a b H. pose proof pi_pos as PP. set (x := a - b) in *. split.
  - intro k. unfold angle_diff. cbv zeta. fold x.
    assert (K : (k <= -2 \/ k = -1 \/ k = 0 \/ k = 1 \/ 2 <= k)%Z) by lia.
    replace (2 * IZR k * PI) with (2 * (IZR k * PI)) by ring.
    assert (Y : IZR k * PI <= -2 * PI \/ IZR k * PI = - PI \/ IZR k * PI = 0 \/ IZR k * PI = PI \/ 2 * PI <= IZR k * PI).
    { destruct K as [K|[->|[->|[->|K]]]]; [left|right; left|right; right; left|right; right; right; left|right; right; right; right]; try ring; apply IZR_le in K; apply Rmult_le_compat_r; lra. }
    set (y := IZR k * PI) in *. clearbody y. clear K. unfold Rabs in *. destruct (Rcase_abs x); destruct (Rcase_abs (x + 2 * y)); destruct (Rlt_dec PI _); destruct Y as [Y|[Y|[Y|[Y|Y]]]]; lra.
  - unfold angle_diff. cbv zeta. fold x. unfold Rabs in H |- *. destruct (Rcase_abs x) as [S|S].
    + destruct (Rlt_dec PI (- x)); [exists 1%Z|exists 0%Z]; destruct (Rcase_abs _); lra.
    + destruct (Rlt_dec PI x); [exists (-1)%Z|exists 0%Z]; destruct (Rcase_abs _); lra.
Qed.
