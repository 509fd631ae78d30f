(** Lemmas about the solar elevation over the reals. *)
Require Import ZArith Reals Lra Lia.
Require Import Verif.M_Real Verif.L_Real Verif.M_SunR Verif.S_SunR.
Open Scope R_scope.

Lemma degrad_pos : 0 < degrad.
Proof. unfold degrad. pose proof PI_RGT_0. lra. Qed.

Lemma combo_bound : forall a b c, -1 <= c <= 1 -> -1 <= sin a * sin b + cos a * cos b * c <= 1.
Proof.
  intros a b c [C1 C2].
  pose proof (COS_bound (a - b)) as [P1 P2]. rewrite cos_minus in P1, P2. pose proof (COS_bound (a + b)) as [Q1 Q2]. rewrite cos_plus in Q1, Q2.
  destruct (Rle_dec 0 (cos a * cos b)) as [L|L]; split; nra.
Qed.
Lemma clip1_id : forall x, -1 <= x <= 1 -> clip1 x = x.
Proof. intros x H. unfold clip1. destruct (Rlt_dec 1 x); [lra|]. destruct (Rlt_dec x (-1)); lra. Qed.

(** Local sidereal time minus right ascension, without the wraps. *)
Definition raw_hour_angle (year : Z) (t hour minute lon : R) : R :=
  1.759335 + 2 * PI * (t / 365.25 - IZR (delyear year)) + 3.694e-7 * t + (time_in_hours hour minute * 15 + lon) * degrad
  - atan2 (sin (long_of_sun t) * cos (angle_of_elliptic t)) (cos (long_of_sun t)).
Lemma cos_hour_angle : forall year t hour minute lon, cos (hour_angle year t hour minute lon) = cos (raw_hour_angle year t hour minute lon).
Proof.
  intros year t hour minute lon. unfold hour_angle.
  set (l := local_siderial_time year t hour minute lon). set (r := right_ascension t).
  replace (cos (if Rlt_dec (l - r) 0 then l - r + 2 * PI else l - r)) with (cos (l - r)) by (destruct (Rlt_dec (l - r) 0); [now rewrite cos_wrap_plus|reflexivity]).
  unfold r, right_ascension, raw_hour_angle. set (r0 := atan2 _ _).
  replace (cos (l - (if Rlt_dec r0 0 then r0 + 2 * PI else r0))) with (cos (l - r0)).
  2: { destruct (Rlt_dec r0 0); [|reflexivity]. replace (l - (r0 + 2 * PI)) with (l - r0 - 2 * PI) by ring. now rewrite cos_wrap_minus. }
  unfold l, local_siderial_time. set (s := siderial_time year t). set (x := (time_in_hours hour minute * 15 + lon) * degrad).
  replace (cos ((if Rle_dec (2 * PI) (s + x) then s + x - 2 * PI else s + x) - r0)) with (cos (s + x - r0)).
  2: { destruct (Rle_dec (2 * PI) (s + x)); [|reflexivity]. replace (s + x - 2 * PI - r0) with (s + x - r0 - 2 * PI) by ring. now rewrite cos_wrap_minus. }
  unfold s, siderial_time. set (s0 := 1.759335 + 2 * PI * (t / 365.25 - IZR (delyear year)) + 3.694e-7 * t).
  destruct (Rle_dec (2 * PI) s0); [|reflexivity]. replace (s0 - 2 * PI + x - r0) with (s0 + x - r0 - 2 * PI) by ring. now rewrite cos_wrap_minus.
Qed.

Lemma phi_eq : forall lat, lat * degrad = lat * PI / 180.
Proof. intro lat. unfold degrad. field. Qed.

Lemma elevation_sine : forall year day hour minute lat lon, let t := sun_time year day hour minute in
  sin (elevation year day hour minute lat lon * PI / 180) = sin_elevation lat (declination t) (raw_hour_angle year t hour minute lon) /\
  -90 <= elevation year day hour minute lat lon <= 90.
Proof.
  intros year day hour minute lat lon t. unfold elevation. fold t. rewrite cos_hour_angle, phi_eq. fold (sin_elevation lat (declination t) (raw_hour_angle year t hour minute lon)).
  set (s := sin_elevation _ _ _). assert (B : -1 <= s <= 1) by (apply combo_bound; apply COS_bound).
  rewrite (clip1_id s B). pose proof degrad_pos as D. pose proof PI_RGT_0 as P. split.
  - replace (asin s / degrad * PI / 180) with (asin s) by (unfold degrad; field; lra). now apply sin_asin.
  - pose proof (asin_bound s) as [A1 A2]. replace (-90) with (- (PI / 2) / degrad) by (unfold degrad; field; lra). replace 90 with (PI / 2 / degrad) by (unfold degrad; field; lra).
    split; apply Rmult_le_compat_r; try assumption; apply Rlt_le; now apply Rinv_0_lt_compat.
Qed.
Lemma elevation_positive : forall year day hour minute lat lon, let t := sun_time year day hour minute in
  (0 < elevation year day hour minute lat lon <-> 0 < sin_elevation lat (declination t) (raw_hour_angle year t hour minute lon)).
Proof.
  intros year day hour minute lat lon t. unfold elevation. fold t. rewrite cos_hour_angle, phi_eq. fold (sin_elevation lat (declination t) (raw_hour_angle year t hour minute lon)).
  set (s := sin_elevation _ _ _). assert (B : -1 <= s <= 1) by (apply combo_bound; apply COS_bound).
  rewrite (clip1_id s B), <- (asin_pos_iff s B). pose proof degrad_pos as D. split; intro H.
  - replace (asin s) with (asin s / degrad * degrad) by (field; lra). now apply Rmult_lt_0_compat.
  - now apply Rdiv_lt_0_compat.
Qed.
Lemma elevation_lon_period : forall year day hour minute lat lon, elevation year day hour minute lat (lon + 360) = elevation year day hour minute lat lon.
Proof.
  intros. unfold elevation. rewrite !cos_hour_angle. do 5 f_equal. unfold raw_hour_angle.
  set (a := 1.759335 + _ + _). set (b := atan2 _ _). replace (a + (time_in_hours hour minute * 15 + (lon + 360)) * degrad - b) with (a + (time_in_hours hour minute * 15 + lon) * degrad - b + 2 * PI) by (unfold degrad; field).
  apply cos_wrap_plus.
Qed.
(** Right ascension and declination are those of the direction of the sun: the ecliptic longitude turned by
    the obliquity. *)
Lemma sun_direction : forall t, cos (declination t) * cos (right_ascension t) = cos (long_of_sun t) /\
  cos (declination t) * sin (right_ascension t) = sin (long_of_sun t) * cos (angle_of_elliptic t) /\
  sin (declination t) = sin (long_of_sun t) * sin (angle_of_elliptic t).
Proof.
  intro t. unfold declination, right_ascension. set (l := long_of_sun t). set (e := angle_of_elliptic t).
  pose proof (sin2_cos2 l) as Sl. pose proof (sin2_cos2 e) as Se. unfold Rsqr in *.
  assert (B : -1 <= sin l * sin e <= 1) by (pose proof (SIN_bound l); pose proof (SIN_bound e); split; nra).
  rewrite (cos_asin _ B), (sin_asin _ B). destruct (atan2_polar (sin l * cos e) (cos l)) as [P1 P2].
  replace (1 - (sin l * sin e)²) with (cos l * cos l + sin l * cos e * (sin l * cos e)).
  2: { unfold Rsqr. transitivity (cos l * cos l + sin l * sin l * (cos e * cos e)); [ring|]. replace (cos e * cos e) with (1 - sin e * sin e) by lra. replace (cos l * cos l) with (1 - sin l * sin l) by lra. ring. }
  set (r := sqrt _) in *. split; [|split; [|reflexivity]]; destruct (Rlt_dec (atan2 (sin l * cos e) (cos l)) 0); rewrite ?cos_wrap_plus, ?sin_wrap_plus; symmetry; assumption.
Qed.
Lemma declination_obliquity : forall t, Rabs (sin (declination t)) <= Rabs (sin (angle_of_elliptic t)).
Proof.
  intro t. destruct (sun_direction t) as [_ [_ E]]. rewrite E, Rabs_mult. pose proof (SIN_bound (long_of_sun t)) as [A1 A2].
  assert (Rabs (sin (long_of_sun t)) <= 1) by (apply Rabs_le; split; lra). pose proof (Rabs_pos (sin (angle_of_elliptic t))). nra.
Qed.

Lemma hour_angle_direction : forall year t hour minute lon,
  same_direction (hour_angle year t hour minute lon)
    (1.759335 + 2 * PI * (t / 365.25 - IZR (delyear year)) + 3.694e-7 * t + (time_in_hours hour minute * 15 + lon) * degrad - right_ascension t).
Proof.
  intros. unfold same_direction, hour_angle. set (r := right_ascension t). unfold local_siderial_time, siderial_time. set (x := (time_in_hours hour minute * 15 + lon) * degrad).
  set (s0 := 1.759335 + _ + _).
  assert (W : forall p : Prop, forall (d : {p} + {~ p}) u, same_direction (if d then u - 2 * PI else u) u) by (intros p d u; unfold same_direction; destruct d; rewrite ?cos_wrap_minus, ?sin_wrap_minus; auto).
  assert (A : forall u v w, same_direction u v -> same_direction (u + w) (v + w)).
  { intros u v w [E1 E2]. unfold same_direction. rewrite !cos_plus, !sin_plus, E1, E2. auto. }
  set (s1 := if Rle_dec (2 * PI) s0 then s0 - 2 * PI else s0). assert (S1 : same_direction s1 s0) by apply W.
  set (s2 := if Rle_dec (2 * PI) (s1 + x) then s1 + x - 2 * PI else s1 + x). assert (S2 : same_direction s2 (s1 + x)) by apply W.
  assert (S3 : same_direction (s2 - r) (s0 + x - r)).
  { unfold Rminus. apply A. destruct S2 as [P1 P2]. destruct (A _ _ x S1) as [Q1 Q2]. split; congruence. }
  destruct S3 as [E1 E2]. destruct (Rlt_dec (s2 - r) 0); rewrite ?cos_wrap_plus, ?sin_wrap_plus; auto.
Qed.
Lemma solar_elevation : forall year day hour minute lat lon, let t := sun_time year day hour minute in
  exists ra dec h, equatorial (long_of_sun t) (angle_of_elliptic t) ra dec /\
    same_direction h (1.759335 + 2 * PI * (t / 365.25 - IZR (delyear year)) + 3.694e-7 * t + (hour + minute / 60) * (15 * PI / 180) + lon * (PI / 180) - ra) /\
    sin (elevation year day hour minute lat lon * PI / 180) = sin_elevation lat dec h /\
    (0 < elevation year day hour minute lat lon <-> 0 < sin_elevation lat dec h) /\
    -90 <= elevation year day hour minute lat lon <= 90.
Proof.
  intros year day hour minute lat lon t. exists (right_ascension t), (declination t), (hour_angle year t hour minute lon).
  destruct (sun_direction t) as [A [B C]]. destruct (elevation_sine year day hour minute lat lon) as [D E]. pose proof (elevation_positive year day hour minute lat lon) as F. fold t in D, F.
  assert (G : sin_elevation lat (declination t) (hour_angle year t hour minute lon) = sin_elevation lat (declination t) (raw_hour_angle year t hour minute lon)) by (unfold sin_elevation; now rewrite cos_hour_angle).
  rewrite G. split; [repeat split; auto; apply asin_bound|]. split; [|auto].
  assert (X : (hour + minute / 60) * (15 * PI / 180) + lon * (PI / 180) = (time_in_hours hour minute * 15 + lon) * degrad) by (unfold time_in_hours, degrad; field).
  set (u := 1.759335 + _ + _). assert (Y : u + (hour + minute / 60) * (15 * PI / 180) + lon * (PI / 180) - right_ascension t = u + (time_in_hours hour minute * 15 + lon) * degrad - right_ascension t) by (rewrite <- X; ring).
  rewrite Y.
  apply hour_angle_direction.
Qed.
(** At the poles the elevation does not depend on the longitude: it is the declination. *)
Lemma elevation_pole : forall year day hour minute lon, elevation year day hour minute 90 lon = declination (sun_time year day hour minute) / degrad.
Proof.
  intros. unfold elevation. rewrite phi_eq. replace (90 * PI / 180) with (PI / 2) by field. rewrite sin_PI2, cos_PI2. set (d := declination _).
  replace (1 * sin d + 0 * cos d * _) with (sin d) by ring. rewrite clip1_id by apply SIN_bound. f_equal. apply asin_sin. apply asin_bound.
Qed.
