(** Lemmas: how far the formulas of the program are from those of the almanac. *)
Require Import ZArith Reals Lra Lia Machin.
Require Import Verif.M_Real Verif.L_Real Verif.M_SunR Verif.S_SunR Verif.L_SunR Verif.S_Sphere Verif.L_Sphere Verif.S_Almanac.
Open Scope R_scope.

Lemma pi_bounds : 3.14159265 < PI < 3.14159266.
Proof.
  pose proof (PI_2_3_7_ineq 4) as [A B]. cbn [Nat.mul Nat.add sum_f_R0] in A, B. unfold tg_alt, PI_2_3_7_tg, Ratan_seq in A, B. cbn [Nat.mul Nat.add pow INR] in A, B. lra.
Qed.
Lemma abs_le : forall x c, - c <= x -> x <= c -> Rabs x <= c.
Proof. intros x c A B. apply Rabs_le. lra. Qed.
Lemma abs_inv : forall x c, Rabs x <= c -> - c <= x <= c.
Proof. intros x c H. pose proof (Rle_abs x). pose proof (Rle_abs (- x)). rewrite Rabs_Ropp in *. lra. Qed.
(** The sum of two such terms is largest at an end. *)
Lemma ends1 : forall a b c t lo hi, lo <= t <= hi -> Rabs (a + b * lo) <= c -> Rabs (a + b * hi) <= c -> Rabs (a + b * t) <= c.
Proof. intros a b c t lo hi T L H. apply abs_inv in L, H. apply abs_le; destruct (Rle_dec 0 b); nra. Qed.
Lemma ends2 : forall a b a' b' c t lo hi, lo <= t <= hi -> Rabs (a + b * lo) + Rabs (a' + b' * lo) <= c -> Rabs (a + b * hi) + Rabs (a' + b' * hi) <= c ->
  Rabs (a + b * t) + Rabs (a' + b' * t) <= c.
Proof.
  intros a b a' b' c t lo hi T L H.
  assert (P : Rabs (a + b * t + (a' + b' * t)) <= c). { replace (a + b * t + (a' + b' * t)) with ((a + a') + (b + b') * t) by ring. apply (ends1 _ _ _ _ lo hi T).
    - eapply Rle_trans; [|exact L]. replace (a + a' + (b + b') * lo) with ((a + b * lo) + (a' + b' * lo)) by ring. apply Rabs_triang.
    - eapply Rle_trans; [|exact H]. replace (a + a' + (b + b') * hi) with ((a + b * hi) + (a' + b' * hi)) by ring. apply Rabs_triang. }
  assert (M : Rabs (a + b * t - (a' + b' * t)) <= c). { replace (a + b * t - (a' + b' * t)) with ((a - a') + (b - b') * t) by ring. apply (ends1 _ _ _ _ lo hi T).
    - eapply Rle_trans; [|exact L]. replace (a - a' + (b - b') * lo) with ((a + b * lo) + - (a' + b' * lo)) by ring. eapply Rle_trans; [apply Rabs_triang|]. rewrite Rabs_Ropp. lra.
    - eapply Rle_trans; [|exact H]. replace (a - a' + (b - b') * hi) with ((a + b * hi) + - (a' + b' * hi)) by ring. eapply Rle_trans; [apply Rabs_triang|]. rewrite Rabs_Ropp. lra. }
  apply abs_inv in P, M. unfold Rabs. destruct (Rcase_abs (a + b * t)), (Rcase_abs (a' + b' * t)); lra.
Qed.
Lemma sin_abs_le : forall x, Rabs (sin x) <= Rabs x.
Proof.
  assert (P : forall x, 0 <= x -> Rabs (sin x) <= x).
  { intros x X. destruct (Rle_lt_dec x 1) as [L|L]; [|pose proof (SIN_bound x); apply abs_le; lra].
    destruct X as [X|<-]; [|rewrite sin_0, Rabs_R0; lra]. pose proof (sin_lt_x x X). pose proof pi_bounds. assert (0 < sin x) by (apply sin_gt_0; lra). rewrite Rabs_pos_eq; lra. }
  intro x. destruct (Rle_lt_dec 0 x) as [L|L]; [rewrite (Rabs_pos_eq x) by exact L; now apply P|]. rewrite (Rabs_left x L). rewrite <- Rabs_Ropp, <- sin_neg. apply P. lra.
Qed.
Lemma sin_lip : forall x y, Rabs (sin x - sin y) <= Rabs (x - y).
Proof.
  intros x y. rewrite form4. rewrite !Rabs_mult. pose proof (sin_abs_le ((x - y) / 2)) as S. pose proof (COS_bound ((x + y) / 2)) as C.
  assert (C1 : Rabs (cos ((x + y) / 2)) <= 1) by (apply abs_le; lra). rewrite (Rabs_pos_eq 2) by lra.
  assert (H : Rabs ((x - y) / 2) = Rabs (x - y) / 2) by (unfold Rdiv; rewrite Rabs_mult, (Rabs_pos_eq (/ 2)) by lra; reflexivity). rewrite H in S.
  pose proof (Rabs_pos (sin ((x - y) / 2))). pose proof (Rabs_pos (cos ((x + y) / 2))). nra.
Qed.

(* ---- the elements ---- *)
Definition days2000 (t : R) : R := t - 7304.5.
Lemma anomaly_close : forall t, -29220 <= t <= 43830 -> Rabs (mean_anomaly t - (rad (anomaly (days2000 t)) + 38 * PI)) <= 1 / 15000.
Proof.
  intros t T. unfold mean_anomaly, theta, degrad, anomaly, days2000, rad.
  match goal with |- Rabs ?x <= _ => assert (E : x = (- 0.031271 - (357.528 - 0.9856003 * 7304.5) * (PI / 180) - 38 * PI) + (- 4.5396e-7 + (360 / 365.25 - 0.9856003) * (PI / 180)) * t) by lra; rewrite E end.
  pose proof pi_bounds. apply (ends1 _ _ _ _ (-29220) 43830 T); apply abs_le; lra.
Qed.
(** The difference of the longitudes by its parts. *)
Lemma longitude_parts : forall t, -29220 <= t <= 43830 ->
  Rabs (long_of_sun t - rad (ecliptic_longitude (days2000 t)) - 2 * IZR 20 * PI) <=
  Rabs ((4.900968 - rad (280.460 - 0.9856474 * 7304.5) - 40 * PI) + (3.6747e-7 + (360 / 365.25 - 0.9856474) * (PI / 180)) * t) + Rabs ((0.033434 - rad 1.915) + - 2.3e-9 * t) + 3e-6.
Proof.
  intros t T. pose proof (anomaly_close t T) as G. set (g := mean_anomaly t) in *. set (g' := rad (anomaly (days2000 t)) + 38 * PI) in *. pose proof pi_bounds as PB.
  assert (S1 : sin (rad (anomaly (days2000 t))) = sin g') by (unfold g'; replace (rad (anomaly (days2000 t)) + 38 * PI) with (rad (anomaly (days2000 t)) + 2 * IZR 19 * PI) by (cbn; ring); now rewrite sin_period_Z).
  assert (S2 : sin (rad (2 * anomaly (days2000 t))) = sin (2 * g')).
  { unfold g'. replace (2 * (rad (anomaly (days2000 t)) + 38 * PI)) with (rad (2 * anomaly (days2000 t)) + 2 * IZR 38 * PI) by (unfold rad; cbn; field). now rewrite sin_period_Z. }
  unfold long_of_sun, ecliptic_longitude, mean_longitude. rewrite S1, S2. fold g. unfold theta, degrad.
  set (A := 4.900968 - rad (280.460 - 0.9856474 * 7304.5) - 40 * PI + (3.6747e-7 + (360 / 365.25 - 0.9856474) * (PI / 180)) * t). set (B := 0.033434 - rad 1.915 + - 2.3e-9 * t).
  assert (BB : Rabs B <= 1 / 1000) by (unfold B; apply (ends1 _ _ _ _ (-29220) 43830 T); unfold rad; apply abs_le; lra).
  match goal with |- Rabs ?x <= _ => assert (E : x = A + B * sin g + rad 1.915 * (sin g - sin g') + (0.000349 - rad 0.020) * sin (2 * g) + rad 0.020 * (sin (2 * g) - sin (2 * g'))) by (unfold A, B, rad, days2000; lra); rewrite E end.
  pose proof (sin_lip g g') as L1. pose proof (sin_lip (2 * g) (2 * g')) as L2. replace (2 * g - 2 * g') with (2 * (g - g')) in L2 by ring. rewrite Rabs_mult, (Rabs_pos_eq 2) in L2 by lra.
  assert (T1 : Rabs (B * sin g) <= Rabs B) by (rewrite Rabs_mult; pose proof (SIN_bound g); assert (Rabs (sin g) <= 1) by (apply abs_le; lra); pose proof (Rabs_pos B); nra).
  assert (T2 : Rabs (rad 1.915 * (sin g - sin g')) <= 2.3e-6) by (rewrite Rabs_mult, (Rabs_pos_eq (rad 1.915)) by (unfold rad; lra); unfold rad; pose proof (Rabs_pos (sin g - sin g')); nra).
  assert (T3 : Rabs ((0.000349 - rad 0.020) * sin (2 * g)) <= 1e-7).
  { rewrite Rabs_mult. pose proof (SIN_bound (2 * g)). assert (Rabs (sin (2 * g)) <= 1) by (apply abs_le; lra). assert (Rabs (0.000349 - rad 0.020) <= 1e-7) by (unfold rad; apply abs_le; lra).
    pose proof (Rabs_pos (sin (2 * g))). pose proof (Rabs_pos (0.000349 - rad 0.020)). nra. }
  assert (T4 : Rabs (rad 0.020 * (sin (2 * g) - sin (2 * g'))) <= 1e-7) by (rewrite Rabs_mult, (Rabs_pos_eq (rad 0.020)) by (unfold rad; lra); unfold rad; pose proof (Rabs_pos (sin (2 * g) - sin (2 * g'))); nra).
  set (x1 := B * sin g) in *. set (x2 := rad 1.915 * (sin g - sin g')) in *. set (x3 := (0.000349 - rad 0.020) * sin (2 * g)) in *. set (x4 := rad 0.020 * (sin (2 * g) - sin (2 * g'))) in *.
  pose proof (Rabs_triang (A + x1 + x2 + x3) x4). pose proof (Rabs_triang (A + x1 + x2) x3). pose proof (Rabs_triang (A + x1) x2). pose proof (Rabs_triang A x1). lra.
Qed.
Lemma rabs_cases : forall x, (0 <= x /\ Rabs x = x) \/ (x < 0 /\ Rabs x = - x).
Proof. intro x. destruct (Rle_lt_dec 0 x); [left|right]; (split; [assumption|]); [now apply Rabs_pos_eq|now apply Rabs_left]. Qed.
Ltac cases2 := match goal with |- Rabs ?x + Rabs ?y <= _ => destruct (rabs_cases x) as [[? ->]|[? ->]], (rabs_cases y) as [[? ->]|[? ->]] end.
Lemma longitude_after : forall t, -1 <= t <= 43830 -> close (long_of_sun t) (rad (ecliptic_longitude (days2000 t))) 0.009.
Proof.
  intros t T. exists 20%Z. eapply Rle_trans; [apply longitude_parts; lra|]. pose proof pi_bounds.
  match goal with |- ?x + ?y + 3e-6 <= ?z => cut (x + y <= z - 3e-6); [lra|] end. apply (ends2 _ _ _ _ _ _ (-1) 43830 T); cases2; unfold rad in *; lra.
Qed.
Lemma longitude_before : forall t, -29220 <= t <= 0 -> close (long_of_sun t) (rad (ecliptic_longitude (days2000 t))) 0.0128.
Proof.
  intros t T. exists 20%Z. eapply Rle_trans; [apply longitude_parts; lra|]. pose proof pi_bounds.
  match goal with |- ?x + ?y + 3e-6 <= ?z => cut (x + y <= z - 3e-6); [lra|] end. apply (ends2 _ _ _ _ _ _ (-29220) 0 T); cases2; unfold rad in *; lra.
Qed.
Lemma obliquity_after : forall t, -1 <= t <= 43830 -> close (angle_of_elliptic t) (rad (obliquity (days2000 t))) 0.0021.
Proof.
  intros t T. exists 0%Z. unfold angle_of_elliptic, obliquity, days2000, rad. pose proof pi_bounds.
  match goal with |- Rabs ?x <= _ => assert (E : x = (0.409140 - (23.439 + 0.0000004 * 7304.5) * (PI / 180)) + (- 6.2149e-9 + 0.0000004 * (PI / 180)) * t) by lra; rewrite E end.
  apply (ends1 _ _ _ _ (-1) 43830 T); apply abs_le; lra.
Qed.
Lemma obliquity_before : forall t, -29220 <= t <= 0 -> close (angle_of_elliptic t) (rad (obliquity (days2000 t))) 0.0013.
Proof.
  intros t T. exists 0%Z. unfold angle_of_elliptic, obliquity, days2000, rad. pose proof pi_bounds.
  match goal with |- Rabs ?x <= _ => assert (E : x = (0.409140 - (23.439 + 0.0000004 * 7304.5) * (PI / 180)) + (- 6.2149e-9 + 0.0000004 * (PI / 180)) * t) by lra; rewrite E end.
  apply (ends1 _ _ _ _ (-29220) 0 T); apply abs_le; lra.
Qed.
(** Sidereal time: the whole days and the whole years are whole turns. *)
Definition code_sidereal (year : Z) (t f lon : R) : R := 1.759335 + 2 * PI * (t / 365.25 - IZR (delyear year)) + 3.694e-7 * t + f * (15 * PI / 180) + lon * (PI / 180).
Lemma sidereal_parts : forall year t f lon m, t = IZR m + f / 24 ->
  code_sidereal year t f lon - rad (greenwich_sidereal_time (days2000 t) + lon) - 2 * IZR (20 - delyear year - (m - 7304)) * PI =
  (1.759335 - rad (280.46062 - 180 - 0.98564737 * 7304.5) - 2 * 20 * PI) + (3.694e-7 + (360 / 365.25 - 0.98564737) * (PI / 180)) * t.
Proof.
  intros year t f lon m T. unfold code_sidereal, greenwich_sidereal_time, days2000, rad. rewrite !minus_IZR. assert (M : IZR m = t - f / 24) by lra. rewrite M. lra.
Qed.
Lemma sidereal_after : forall year t f lon m, t = IZR m + f / 24 -> -1 <= t <= 43830 -> close (code_sidereal year t f lon) (rad (greenwich_sidereal_time (days2000 t) + lon)) 0.0067.
Proof.
  intros year t f lon m E T. exists (20 - delyear year - (m - 7304))%Z. rewrite (sidereal_parts year t f lon m E). pose proof pi_bounds. apply (ends1 _ _ _ _ (-1) 43830 T); unfold rad; apply abs_le; lra.
Qed.
Lemma sidereal_before : forall year t f lon m, t = IZR m + f / 24 -> -29220 <= t <= 0 -> close (code_sidereal year t f lon) (rad (greenwich_sidereal_time (days2000 t) + lon)) 0.0037.
Proof.
  intros year t f lon m E T. exists (20 - delyear year - (m - 7304))%Z. rewrite (sidereal_parts year t f lon m E). pose proof pi_bounds. apply (ends1 _ _ _ _ (-29220) 0 T); unfold rad; apply abs_le; lra.
Qed.

(* ---- the elevation ---- *)
Lemma asin_step : forall z u v d, dot z z = 1 -> dot u u = 1 -> dot v v = 1 -> 0 <= d <= PI -> cos d <= dot u v -> Rabs (asin (dot z u) - asin (dot z v)) <= d.
Proof.
  assert (H : forall z u v d, dot z z = 1 -> dot u u = 1 -> dot v v = 1 -> 0 <= d <= PI -> cos d <= dot u v -> asin (dot z u) - asin (dot z v) <= d).
  { intros z u v d Z U V D C. assert (ZU : -1 <= dot z u <= 1) by (pose proof (cauchy z u) as K; rewrite Z, U in K; nra). assert (ZV : -1 <= dot z v <= 1) by (pose proof (cauchy z v) as K; rewrite Z, V in K; nra).
    pose proof (sin_asin _ ZU) as SA. pose proof (sin_asin _ ZV) as SB. pose proof (asin_bound (dot z u)) as BA. pose proof (asin_bound (dot z v)) as BB.
    set (a := asin (dot z u)) in *. set (b := asin (dot z v)) in *. apply Rnot_lt_le. intro L.
    assert (CA : 0 <= cos a) by (apply cos_ge_0; lra). assert (CB : 0 <= cos b) by (apply cos_ge_0; lra).
    pose proof (cauchy (cross u z) (cross z v)) as K. rewrite binet, !lagrange, Z, U, V in K. rewrite (dot_comm u z) in K. rewrite <- SA, <- SB in K.
    pose proof (sc1 a) as P. pose proof (sc1 b) as Q. replace (1 * 1 - sin a * sin a) with (cos a * cos a) in K by lra. replace (1 * 1 - sin b * sin b) with (cos b * cos b) in K by lra.
    assert (M : dot u v <= sin a * sin b + cos a * cos b). { assert (0 <= cos a * cos b) by (now apply Rmult_le_pos). nra. }
    assert (X : cos (a - b) < cos d). { apply cos_decreasing_1; lra. }
    rewrite cos_minus in X. lra. }
  intros z u v d Z U V D C. apply abs_le; [|now apply (H z u v d)]. pose proof (H z v u d Z V U D) as K. rewrite (dot_comm v u) in K. specialize (K C). lra.
Qed.
(** The zenith of a latitude at a sidereal time, and the sun at a longitude on the ecliptic. *)
Definition zenith (phi x : R) : vec := (cos phi * cos x, cos phi * sin x, sin phi).
Definition sun (l e : R) : vec := (cos l, sin l * cos e, sin l * sin e).
Lemma zenith_unit : forall p x, dot (zenith p x) (zenith p x) = 1.
Proof. intros p x. cbn. pose proof (sc1 p). pose proof (sc1 x). replace (_ + _ + _) with (sin p * sin p + cos p * cos p * (sin x * sin x + cos x * cos x)) by ring. rewrite H0. lra. Qed.
Lemma sun_unit : forall l e, dot (sun l e) (sun l e) = 1.
Proof. intros l e. cbn. pose proof (sc1 l). pose proof (sc1 e). replace (_ + _ + _) with (cos l * cos l + sin l * sin l * (sin e * sin e + cos e * cos e)) by ring. rewrite H0. lra. Qed.
Lemma zenith_turn : forall p x y d, cos (x - y) >= cos d -> cos d <= dot (zenith p x) (zenith p y).
Proof. intros p x y d H. replace (dot (zenith p x) (zenith p y)) with (sin p * sin p + cos p * cos p * cos (x - y)) by (cbn; rewrite cos_minus; ring). pose proof (sc1 p). pose proof (COS_bound d). nra. Qed.
Lemma sun_turn : forall l l' e e' d d', cos (l - l') >= cos d -> cos (e - e') >= cos d' -> cos d <= dot (sun l e) (sun l' e) /\ cos d' <= dot (sun l' e) (sun l' e').
Proof.
  intros l l' e e' d d' H K. split.
  - replace (dot (sun l e) (sun l' e)) with (cos l * cos l' + sin l * sin l' * (sin e * sin e + cos e * cos e)) by (cbn; ring). rewrite sc1. rewrite cos_minus in H. lra.
  - replace (dot (sun l' e) (sun l' e')) with (cos l' * cos l' + sin l' * sin l' * cos (e - e')) by (cbn; rewrite cos_minus; ring). pose proof (sc1 l'). pose proof (COS_bound d'). nra.
Qed.
Lemma close_cos : forall a b d, 0 <= d <= 180 -> close a b d -> 0 <= rad d <= PI /\ cos (a - b) >= cos (rad d).
Proof.
  intros a b d D [k H]. pose proof PI_RGT_0. assert (R : 0 <= rad d <= PI) by (unfold rad; split; nra). split; [exact R|]. set (x := a - b - 2 * IZR k * PI) in *.
  replace (a - b) with (x + 2 * IZR k * PI) by (unfold x; ring). rewrite cos_period_Z, <- (cos_Rabs x). apply Rle_ge. apply cos_decr_1; pose proof (Rabs_pos x); lra.
Qed.
Lemma elevation_close : forall p x x' l l' e e' dx dl de, 0 <= dx <= 180 -> 0 <= dl <= 180 -> 0 <= de <= 180 -> close x x' dx -> close l l' dl -> close e e' de ->
  Rabs (asin (dot (zenith p x) (sun l e)) - asin (dot (zenith p x') (sun l' e'))) <= rad (dx + dl + de).
Proof.
  intros p x x' l l' e e' dx dl de DX DL DE CX CL CE. destruct (close_cos _ _ _ DX CX) as [RX HX]. destruct (close_cos _ _ _ DL CL) as [RL HL]. destruct (close_cos _ _ _ DE CE) as [RE HE].
  destruct (sun_turn l l' e e' _ _ HL HE) as [SL SE]. pose proof (zenith_turn p x x' _ HX) as SX.
  pose proof (asin_step (sun l e) (zenith p x) (zenith p x') _ (sun_unit _ _) (zenith_unit _ _) (zenith_unit _ _) RX SX) as A1.
  pose proof (asin_step (zenith p x') (sun l e) (sun l' e) _ (zenith_unit _ _) (sun_unit _ _) (sun_unit _ _) RL SL) as A2.
  pose proof (asin_step (zenith p x') (sun l' e) (sun l' e') _ (zenith_unit _ _) (sun_unit _ _) (sun_unit _ _) RE SE) as A3.
  rewrite !(dot_comm (sun l e) (zenith _ _)) in A1. apply abs_inv in A1, A2, A3. replace (rad (dx + dl + de)) with (rad dx + rad dl + rad de) by (unfold rad; ring). apply abs_le; lra.
Qed.
Lemma sin_elevation_dot : forall lat l e ra dec h x, equatorial l e ra dec -> same_direction h (x - ra) -> sin_elevation lat dec h = dot (zenith (rad lat) x) (sun l e).
Proof.
  intros lat l e ra dec h x [A [B [C _]]] [D _]. unfold sin_elevation. rewrite D, cos_minus. replace (lat * PI / 180) with (rad lat) by (unfold rad; field). cbn. rewrite <- A, <- B, <- C. ring.
Qed.
Lemma degrees_of : forall e s, -90 <= e <= 90 -> sin (rad e) = s -> rad e = asin s.
Proof. intros e s B <-. symmetry. apply asin_sin. unfold rad. pose proof PI_RGT_0. split; nra. Qed.
Lemma elevation_almanac : forall year day hour minute lat lon m dx dl de e, let t := sun_time year day hour minute in
  t = IZR m + (hour + minute / 60) / 24 -> 0 <= dx <= 60 -> 0 <= dl <= 60 -> 0 <= de <= 60 ->
  close (code_sidereal year t (hour + minute / 60) lon) (rad (greenwich_sidereal_time (days2000 t) + lon)) dx ->
  close (long_of_sun t) (rad (ecliptic_longitude (days2000 t))) dl -> close (angle_of_elliptic t) (rad (obliquity (days2000 t))) de ->
  almanac_elevation (days2000 t) lat lon e -> Rabs (elevation year day hour minute lat lon - e) <= dx + dl + de.
Proof.
  intros year day hour minute lat lon m dx dl de e t T DX DL DE CX CL CE [BE [ra' [dec' [EQ' S']]]].
  destruct (solar_elevation year day hour minute lat lon) as [ra [dec [h [EQ [SD [S [_ B]]]]]]]. fold t in EQ, SD.
  replace (elevation year day hour minute lat lon * PI / 180) with (rad (elevation year day hour minute lat lon)) in S by (unfold rad; field).
  rewrite (sin_elevation_dot lat _ _ ra dec h (code_sidereal year t (hour + minute / 60) lon) EQ SD) in S.
  rewrite (sin_elevation_dot lat _ _ ra' dec' _ (rad (greenwich_sidereal_time (days2000 t) + lon)) EQ' (conj eq_refl eq_refl)) in S'.
  apply degrees_of in S; [|exact B]. apply degrees_of in S'; [|exact BE].
  pose proof (elevation_close (rad lat) _ _ _ _ _ _ dx dl de ltac:(lra) ltac:(lra) ltac:(lra) CX CL CE) as K. rewrite <- S, <- S' in K.
  unfold rad in K. pose proof PI_RGT_0 as P. replace (elevation year day hour minute lat lon * (PI / 180) - e * (PI / 180)) with ((elevation year day hour minute lat lon - e) * (PI / 180)) in K by ring.
  rewrite Rabs_mult, (Rabs_pos_eq (PI / 180)) in K by lra. apply Rmult_le_reg_r with (PI / 180); [lra|exact K].
Qed.
(** There is such an elevation. *)
Lemma almanac_total : forall n lat lon, exists e, almanac_elevation n lat lon e.
Proof.
  intros n lat lon. set (l := rad (ecliptic_longitude n)). set (e := rad (obliquity n)). set (x := rad (greenwich_sidereal_time n + lon)).
  assert (EQ : exists ra dec, equatorial l e ra dec).
  { exists (atan2 (sin l * cos e) (cos l)), (asin (sin l * sin e)). pose proof (sc1 l) as L. pose proof (sc1 e) as E. assert (B : -1 <= sin l * sin e <= 1) by (split; nra).
    destruct (atan2_polar (sin l * cos e) (cos l)) as [X Y]. cbv zeta in X, Y.
    assert (C : cos (asin (sin l * sin e)) = sqrt (cos l * cos l + sin l * cos e * (sin l * cos e))). { rewrite cos_asin by exact B. f_equal. unfold Rsqr. nra. }
    unfold equatorial. rewrite C, sin_asin by exact B. split; [lra|]. split; [lra|]. split; [reflexivity|]. apply asin_bound. }
  destruct EQ as [ra [dec EQ]]. set (s := sin_elevation lat dec (x - ra)). assert (B : -1 <= s <= 1) by (apply combo_bound; apply COS_bound).
  exists (asin s / (PI / 180)). pose proof PI_RGT_0. pose proof (asin_bound s). split.
  - split; [apply Rmult_le_reg_r with (PI / 180); [lra|]; replace (asin s / (PI / 180) * (PI / 180)) with (asin s) by (field; lra); lra|apply Rmult_le_reg_r with (PI / 180); [lra|]; replace (asin s / (PI / 180) * (PI / 180)) with (asin s) by (field; lra); lra].
  - exists ra, dec. split; [exact EQ|]. unfold rad at 1. replace (asin s / (PI / 180) * (PI / 180)) with (asin s) by (field; lra). now apply sin_asin.
Qed.

(* ---- the equinox of 1979 ---- *)
Lemma sin_lower : forall x, 0 <= x <= 1 -> x - x * x * x / 6 <= sin x.
Proof.
  intros x X. pose proof pi_bounds as P. destruct (sin_bound x 0 ltac:(lra) ltac:(lra)) as [L _].
  unfold sin_approx, sin_term in L. cbn in L. lra.
Qed.
Lemma cos_lower : forall x, 1 - x * x / 2 <= cos x.
Proof.
  intro x. replace x with (2 * (x / 2)) at 3 by field. rewrite cos_2a_sin. pose proof (sin_abs_le (x / 2)) as H. pose proof (Rabs_pos (sin (x / 2))) as N. apply Rsqr_le_abs_1 in H. unfold Rsqr in H. lra.
Qed.
(** At the pole the elevation is the declination. *)
Lemma pole_sine : forall n lon e, almanac_elevation n 90 lon e -> -90 <= e <= 90 /\ sin (rad e) = sin (rad (ecliptic_longitude n)) * sin (rad (obliquity n)).
Proof.
  intros n lon e [B [ra [dec [[_ [_ [D _]]] S]]]]. split; [exact B|]. rewrite S. unfold sin_elevation. replace (90 * PI / 180) with (PI / 2) by field. rewrite sin_PI2, cos_PI2, D. ring.
Qed.
Lemma obliquity_sine : forall n, -10000 <= n <= 0 -> 0.38 <= sin (rad (obliquity n)).
Proof.
  intros n N. pose proof pi_bounds as P. pose proof (sin_lip (rad (obliquity n)) (PI / 6)) as L. rewrite sin_PI6 in L.
  assert (D : Rabs (rad (obliquity n) - PI / 6) <= 0.12). { unfold rad, obliquity. apply abs_le; nra. }
  assert (X : Rabs (sin (rad (obliquity n)) - 1 / 2) <= 0.12) by lra. apply abs_inv in X. lra.
Qed.
(** The longitude of the sun 20 turns and [a] degrees of anomaly short of 90 degrees past perihelion. *)
Lemma longitude_near : forall n a, anomaly n = 90 - a - 7200 -> 0 <= a <= 20 ->
  mean_longitude n + 1.915 * (1 - rad a * rad a / 2) - 0.02 <= ecliptic_longitude n <= mean_longitude n + 1.935.
Proof.
  intros n a A B. unfold ecliptic_longitude. rewrite A. replace (rad (90 - a - 7200)) with (PI / 2 - rad a + 2 * IZR (-20) * PI) by (unfold rad; field). rewrite sin_period_Z, sin_shift.
  pose proof (cos_lower (rad a)). pose proof (COS_bound (rad a)). pose proof (SIN_bound (rad (2 * (90 - a - 7200)))). lra.
Qed.
Lemma sine_up : forall l o, 0.3 <= l <= 1 -> 0.38 <= o -> 0.00198 <= sin (rad l) * o.
Proof.
  intros l o L O. pose proof pi_bounds as P. assert (R : 0.00523 <= rad l <= 0.0175) by (unfold rad; split; nra). pose proof (sin_lower (rad l) ltac:(lra)) as S. assert (0.00522 <= sin (rad l)) by nra. nra.
Qed.
