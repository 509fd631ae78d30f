(** C83: all the results of the sun angle. *)
Require Import ZArith Reals Lra Lia Bool.
Require Import Verif.M_Base Verif.M_Real Verif.L_Real Verif.M_SunR Verif.S_SunR Verif.L_SunR Verif.S_Sphere Verif.L_Sphere Verif.L_Almanac Verif.M_Sunangle Verif.S_Sunangle Verif.L_Sunangle.
Open Scope R_scope.

(** What the arguments must be. *)
Definition arguments (day : Z) (hour minute sec lat : R) : Prop :=
  (1 <= day <= 366)%Z /\ 0 <= hour < 24 /\ 0 <= minute < 60 /\ 0 <= sec < 60 /\ -90 <= lat <= 90.

Lemma in_range_iff : forall x lo hi, in_range x lo hi = true <-> lo <= x < hi.
Proof. intros x lo hi. unfold in_range. destruct (Rle_dec lo x), (Rlt_dec x hi); split; intro H; try discriminate; try reflexivity; lra. Qed.
Lemma lat_range_iff : forall lat, (if Rle_dec (-90) lat then if Rle_dec lat 90 then true else false else false) = true <-> -90 <= lat <= 90.
Proof. intro x. destruct (Rle_dec (-90) x), (Rle_dec x 90); split; intro H; try discriminate; try reflexivity; lra. Qed.
Lemma day_range_iff : forall d, ((0 <? d)%Z && (d <=? 366)%Z = true) <-> (1 <= d <= 366)%Z.
Proof. intro d. rewrite andb_true_iff, Z.ltb_lt, Z.leb_le. lia. Qed.
Lemma bool_not : forall b (P : Prop), (b = true <-> P) -> ~ P -> b = false.
Proof. intros [|] P H N; [exfalso; apply N; now apply H|reflexivity]. Qed.

(** Anything else raises an AssertionError. *)
Theorem C83_rejects : forall year day hour minute sec zone dasvtm lat lon, ~ arguments day hour minute sec lat ->
  sunangle year day hour minute sec zone dasvtm lat lon = Err AssertionError.
Proof.
  intros year day hour minute sec zone dasvtm lat lon N. unfold sunangle, arguments in *.
  destruct ((0 <? day)%Z && (day <=? 366)%Z) eqn:A; [|reflexivity]. apply day_range_iff in A. destruct (in_range hour 0 24) eqn:B; [|reflexivity]. apply in_range_iff in B.
  destruct (in_range minute 0 60) eqn:C; [|reflexivity]. apply in_range_iff in C. destruct (in_range sec 0 60) eqn:D; [|reflexivity]. apply in_range_iff in D.
  destruct (if Rle_dec (-90) lat then if Rle_dec lat 90 then true else false else false) eqn:E; [|reflexivity]. apply lat_range_iff in E. exfalso. apply N. tauto.
Qed.
Print Assumptions C83_rejects.

Lemma sunangle_run : forall year day hour minute sec zone dasvtm lat lon, arguments day hour minute sec lat ->
  sunangle year day hour minute sec zone dasvtm lat lon =
  let hh := hour + zone - dasvtm in let mm := minute + sec / 60 in let t := sun_time year day hh mm in
  let sid := local_siderial_time year t hh mm lon / degrad in let hra := hour_angle year t hh mm lon / degrad in
  bind (sun_azimuth (lat * degrad) (declination t) (hour_angle year t hh mm lon) (elevation year day hh mm lat lon * degrad))
    (fun az => Ok (mkangles az (elevation year day hh mm lat lon) (right_ascension t / degrad) (if Rlt_dec hra 0 then 360 + hra else hra) (if Rlt_dec sid 0 then 360 + sid else sid) (declination t / degrad))).
Proof.
  intros year day hour minute sec zone dasvtm lat lon [A [B [C [D E]]]]. unfold sunangle. rewrite (proj2 (day_range_iff day) A), (proj2 (in_range_iff hour 0 24) B), (proj2 (in_range_iff minute 0 60) C), (proj2 (in_range_iff sec 0 60) D), (proj2 (lat_range_iff lat) E). reflexivity.
Qed.
Lemma rad_deg : forall x, rad (x / degrad) = x.
Proof. intro x. unfold rad, degrad. field. pose proof PI_RGT_0. lra. Qed.
Lemma turned : forall x, same_direction (rad (if Rlt_dec (x / degrad) 0 then 360 + x / degrad else x / degrad)) x.
Proof.
  intro x. destruct (Rlt_dec (x / degrad) 0); [|rewrite rad_deg; split; reflexivity]. replace (rad (360 + x / degrad)) with (x + 2 * PI) by (rewrite <- (rad_deg x) at 1; unfold rad; field; unfold degrad; pose proof PI_RGT_0; lra).
  unfold same_direction. now rewrite cos_wrap_plus, sin_wrap_plus.
Qed.
Lemma ra_range : forall t, 0 <= right_ascension t < 2 * PI.
Proof.
  intro t. unfold right_ascension. pose proof (atan2_bound (sin (long_of_sun t) * cos (angle_of_elliptic t)) (cos (long_of_sun t))) as B. pose proof PI_RGT_0. destruct (Rlt_dec _ 0); lra.
Qed.
Lemma local_direction : forall year t hour minute lon,
  same_direction (local_siderial_time year t hour minute lon) (1.759335 + 2 * PI * (t / 365.25 - IZR (delyear year)) + 3.694e-7 * t + (hour + minute / 60) * (15 * PI / 180) + lon * (PI / 180)).
Proof.
  intros year t hour minute lon. set (s0 := 1.759335 + 2 * PI * (t / 365.25 - IZR (delyear year)) + 3.694e-7 * t).
  replace (s0 + (hour + minute / 60) * (15 * PI / 180) + lon * (PI / 180)) with (s0 + (time_in_hours hour minute * 15 + lon) * degrad) by (unfold time_in_hours, degrad; field).
  set (x := (time_in_hours hour minute * 15 + lon) * degrad). unfold local_siderial_time. fold x. unfold siderial_time. fold s0.
  assert (W : forall u, same_direction (if Rle_dec (2 * PI) u then u - 2 * PI else u) u) by (intro u; unfold same_direction; destruct (Rle_dec (2 * PI) u); rewrite ?cos_wrap_minus, ?sin_wrap_minus; auto).
  destruct (W s0) as [C1 S1]. set (s1 := if Rle_dec (2 * PI) s0 then s0 - 2 * PI else s0) in *. destruct (W (s1 + x)) as [C2 S2].
  split; [rewrite C2, !cos_plus, C1, S1; reflexivity|rewrite S2, !sin_plus, C1, S1; reflexivity].
Qed.

(** The results: the elevation of C45 and C82; the right ascension, from 0 to 360 degrees, and the declination of the sun; local sidereal
    time; and the hour angle, which is local sidereal time less right ascension.  The time zone is added to the hour and summer time taken
    off. *)
Theorem C83_results : forall year day hour minute sec zone dasvtm lat lon r, sunangle year day hour minute sec zone dasvtm lat lon = Ok r ->
  let hours := hour + zone - dasvtm in let minutes := minute + sec / 60 in let t := sun_time year day hours minutes in
  s_elevation r = elevation year day hours minutes lat lon /\
  equatorial (long_of_sun t) (angle_of_elliptic t) (rad (s_rta r)) (rad (s_dec r)) /\ 0 <= s_rta r < 360 /\
  same_direction (rad (s_sid r)) (1.759335 + 2 * PI * (t / 365.25 - IZR (delyear year)) + 3.694e-7 * t + (hours + minutes / 60) * (15 * PI / 180) + lon * (PI / 180)) /\
  same_direction (rad (s_hra r)) (rad (s_sid r) - rad (s_rta r)).
Proof.
  intros year day hour minute sec zone dasvtm lat lon r R hours minutes t.
  assert (A : arguments day hour minute sec lat).
  { destruct (Classical_Prop.classic (arguments day hour minute sec lat)) as [A|N]; [exact A|]. rewrite (C83_rejects _ _ _ _ _ _ _ _ _ N) in R. discriminate R. }
  rewrite (sunangle_run _ _ _ _ _ _ _ _ _ A) in R. cbv zeta in R. fold hours in R. fold minutes in R. fold t in R. destruct (sun_azimuth _ _ _ _) as [az|]; [|discriminate R]. cbn [bind] in R. injection R as <-. cbn [s_elevation s_rta s_dec s_sid s_hra].
  destruct (sun_direction t) as [D1 [D2 D3]]. rewrite !rad_deg. split; [reflexivity|]. split; [repeat split; auto; apply asin_bound|]. pose proof (ra_range t) as RA. pose proof PI_RGT_0 as P.
  split; [split; [apply Rmult_le_pos; [lra|]; apply Rlt_le, Rinv_0_lt_compat; unfold degrad; lra|apply Rmult_lt_reg_r with degrad; [unfold degrad; lra|]; unfold Rdiv; rewrite Rmult_assoc, Rinv_l by (unfold degrad; lra); unfold degrad; lra]|].
  pose proof (turned (local_siderial_time year t hours minutes lon)) as [C1 S1]. pose proof (turned (hour_angle year t hours minutes lon)) as [C2 S2]. destruct (local_direction year t hours minutes lon) as [C3 S3].
  split; [split; congruence|]. unfold same_direction. rewrite C2, S2, cos_minus, sin_minus, C1, S1, <- cos_minus, <- sin_minus.
  unfold hour_angle. match goal with |- context [Rlt_dec ?x 0] => destruct (Rlt_dec x 0) end; rewrite ?cos_wrap_plus, ?sin_wrap_plus; auto.
Qed.
Print Assumptions C83_results.

(** The sun is neither within a millionth of a radian of the zenith nor at the nadir. *)
Definition off_zenith (e : R) : Prop := -90 < e /\ 0.000001 < Rabs (rad e - rad 90).

Lemma azimuth_ok : forall year day hour minute sec zone dasvtm lat lon, arguments day hour minute sec lat -> -90 < lat < 90 -> lat <> 0 ->
  let e := elevation year day (hour + zone - dasvtm) (minute + sec / 60) lat lon in off_zenith e ->
  exists r, sunangle year day hour minute sec zone dasvtm lat lon = Ok r /\ 0 <= s_azimuth r <= 360 /\
    (0 < lat -> seen_at lat (s_dec r) (s_hra r) (s_azimuth r) (s_elevation r)) /\
    (lat < 0 -> seen_mirrored lat (s_dec r) (s_hra r) (s_azimuth r) (s_elevation r)).
Proof.
  intros year day hour minute sec zone dasvtm lat lon A LB L0 e [E1 E2]. rewrite (sunangle_run _ _ _ _ _ _ _ _ _ A). cbv zeta. set (hh := hour + zone - dasvtm) in *. set (mm := minute + sec / 60) in *. set (t := sun_time year day hh mm) in *. fold e.
  pose proof PI_RGT_0 as P. destruct (elevation_sine year day hh mm lat lon) as [S B]. fold t in S. fold e in S, B. unfold sin_elevation in S. rewrite <- (cos_hour_angle year t hh mm lon) in S.
  set (h := hour_angle year t hh mm lon) in *. change (lat * degrad) with (rad lat). change (e * degrad) with (rad e). replace (lat * PI / 180) with (rad lat) in S by (unfold rad; field). replace (e * PI / 180) with (rad e) in S by (unfold rad; field).
  replace (rad 90) with (PI / 2) in E2 by (unfold rad; field).
  assert (NE : e <> 90) by (intro X; rewrite X in E2; replace (rad 90 - PI / 2) with 0 in E2 by (unfold rad; field); rewrite Rabs_R0 in E2; lra).
  assert (EB : - (PI / 2) < rad e < PI / 2) by (unfold rad; split; nra). assert (PB : - (PI / 2) < rad lat < PI / 2) by (unfold rad; split; nra). assert (CP : 0 < cos (rad lat)) by (apply cos_gt_0; lra).
  assert (SP : (0 < lat -> 0 < sin (rad lat)) /\ (lat < 0 -> sin (rad lat) < 0)).
  { split; intro L; [apply sin_gt_0; unfold rad in *; nra|]. assert (0 < sin (- rad lat)) by (apply sin_gt_0; unfold rad in *; nra). rewrite sin_neg in H. lra. }
  assert (NZ : sin (rad lat) <> 0) by (destruct SP as [S1 S2]; destruct (Rtotal_order lat 0) as [L|[L|L]]; [specialize (S2 L); lra|contradiction|specialize (S1 L); lra]).
  destruct (azimuth_parts (rad lat) (declination t) h (rad e) EB S E2 NZ CP) as [az [Z [R [Q1 [Q2 Q3]]]]]. rewrite Z. cbn [bind]. eexists. split; [reflexivity|]. cbn [s_azimuth s_dec s_hra s_elevation]. split; [exact R|].
  unfold seen_at, seen_mirrored, eastward, northward, upward. rewrite !rad_deg. destruct (turned h) as [C1 S1]. rewrite C1, S1.
  split; intro L; (split; [exact Q1|]); (split; [|exact S]); [apply Q2|apply Q3]; now apply SP.
Qed.
(** North of the equator the azimuth and the elevation are the direction of the sun. *)
Theorem C83_azimuth : forall year day hour minute sec zone dasvtm lat lon, arguments day hour minute sec lat -> 0 < lat < 90 ->
  off_zenith (elevation year day (hour + zone - dasvtm) (minute + sec / 60) lat lon) ->
  exists r, sunangle year day hour minute sec zone dasvtm lat lon = Ok r /\ 0 <= s_azimuth r <= 360 /\ seen_at lat (s_dec r) (s_hra r) (s_azimuth r) (s_elevation r).
Proof.
  intros year day hour minute sec zone dasvtm lat lon A L O. destruct (azimuth_ok year day hour minute sec zone dasvtm lat lon A ltac:(lra) ltac:(lra) O) as [r [E [R [H _]]]]. exists r. split; [exact E|]. split; [exact R|]. apply H. lra.
Qed.
Print Assumptions C83_azimuth.
(** South of the equator north and south are exchanged: the test of which side the sun is on divides an inequality by the sine of the
    latitude, which is negative there. *)
Theorem C83_azimuth_south_refuted : forall year day hour minute sec zone dasvtm lat lon, arguments day hour minute sec lat -> -90 < lat < 0 ->
  off_zenith (elevation year day (hour + zone - dasvtm) (minute + sec / 60) lat lon) ->
  exists r, sunangle year day hour minute sec zone dasvtm lat lon = Ok r /\ seen_mirrored lat (s_dec r) (s_hra r) (s_azimuth r) (s_elevation r).
Proof.
  intros year day hour minute sec zone dasvtm lat lon A L O. destruct (azimuth_ok year day hour minute sec zone dasvtm lat lon A ltac:(lra) ltac:(lra) O) as [r [E [R [_ H]]]]. exists r. split; [exact E|]. apply H. lra.
Qed.
Print Assumptions C83_azimuth_south_refuted.
(** On the equator it raises, which is why the day tests step aside by 0.0001 degrees. *)
Theorem C83_equator_refuted : forall year day hour minute sec zone dasvtm lon, arguments day hour minute sec 0 ->
  off_zenith (elevation year day (hour + zone - dasvtm) (minute + sec / 60) 0 lon) ->
  sunangle year day hour minute sec zone dasvtm 0 lon = Err ZeroDivisionError.
Proof.
  intros year day hour minute sec zone dasvtm lon A [_ O]. rewrite (sunangle_run _ _ _ _ _ _ _ _ _ A). cbv zeta. unfold sun_azimuth. replace (2 * PI / 4) with (rad 90) by (unfold rad; field).
  match goal with |- context [Rabs (?x * degrad - rad 90)] => change (x * degrad) with (rad x) end. destruct (Rlt_dec 0.000001 _) as [_|F]; [|contradiction].
  replace (0 * degrad) with 0 by ring. destruct (Req_EM_T (sin 0) 0) as [_|F]; [reflexivity|]. exfalso. apply F, sin_0.
Qed.
Print Assumptions C83_equator_refuted.
(** Within a millionth of a radian of the zenith the azimuth is 0 if the sun is south of it, and 180 otherwise: this too is the wrong way
    round. *)
Theorem C83_zenith_refuted : forall year day hour minute sec zone dasvtm lat lon, arguments day hour minute sec lat ->
  Rabs (rad (elevation year day (hour + zone - dasvtm) (minute + sec / 60) lat lon) - rad 90) <= 0.000001 ->
  exists r, sunangle year day hour minute sec zone dasvtm lat lon = Ok r /\ (s_dec r < lat -> s_azimuth r = 0) /\ (lat <= s_dec r -> s_azimuth r = 180).
Proof.
  intros year day hour minute sec zone dasvtm lat lon A O. rewrite (sunangle_run _ _ _ _ _ _ _ _ _ A). cbv zeta. unfold sun_azimuth. replace (2 * PI / 4) with (rad 90) by (unfold rad; field).
  match goal with |- context [Rabs (?x * degrad - rad 90)] => change (x * degrad) with (rad x) end. destruct (Rlt_dec 0.000001 _) as [F|_]; [lra|]. cbn [bind]. eexists. split; [reflexivity|]. cbn [s_dec s_azimuth].
  set (d := declination _). change (lat * degrad) with (rad lat). assert (Q : rad lat - d = (lat - d / degrad) * degrad) by (unfold rad, degrad; field; pose proof PI_RGT_0; lra). pose proof degrad_pos as P.
  split; intro H; destruct (Rlt_dec 0 (rad lat - d)) as [K|K]; try reflexivity; exfalso; rewrite Q in K; nra.
Qed.
Print Assumptions C83_zenith_refuted.

(** Noon of 1 January 2000 at 60 degrees north and south. *)
Lemma off_zenith_60 : forall lat, lat = 60 \/ lat = -60 -> off_zenith (elevation 2000 1 (12 + 0 - 0) (0 + 0 / 60) lat 0).
Proof.
  intros lat L. destruct (elevation_sine 2000 1 (12 + 0 - 0) (0 + 0 / 60) lat 0) as [S B]. set (e := elevation 2000 1 (12 + 0 - 0) (0 + 0 / 60) lat 0) in *. cbv zeta in S. replace (e * PI / 180) with (rad e) in S by (unfold rad; field).
  set (t := sun_time 2000 1 (12 + 0 - 0) (0 + 0 / 60)) in *. assert (T : t = 7304.5) by (unfold t, sun_time, delyear, time_in_hours; cbn; lra).
  pose proof (declination_obliquity t) as D. pose proof (sin_abs_le (angle_of_elliptic t)) as O. assert (OB : Rabs (angle_of_elliptic t) <= 0.42) by (rewrite T; unfold angle_of_elliptic; apply abs_le; lra).
  assert (SD : - 0.42 <= sin (declination t) <= 0.42) by (assert (X : Rabs (sin (declination t)) <= 0.42) by lra; apply abs_inv in X; lra). unfold sin_elevation in S. set (c := cos (raw_hour_angle 2000 t (12 + 0 - 0) (0 + 0 / 60) 0)) in *.
  assert (CL : cos (lat * PI / 180) = 1 / 2). { destruct L as [-> | ->]; [replace (60 * PI / 180) with (PI / 3) by field|replace (-60 * PI / 180) with (- (PI / 3)) by field; rewrite cos_neg]; apply cos_PI3. }
  rewrite CL in S. assert (CB : -1 <= c <= 1) by apply COS_bound. pose proof (COS_bound (declination t)) as DB. pose proof (SIN_bound (lat * PI / 180)) as LB.
  assert (CC : -1 <= cos (declination t) * c <= 1) by (split; nra). assert (SS : - 0.42 <= sin (lat * PI / 180) * sin (declination t) <= 0.42) by (split; nra).
  assert (SE : - 0.92 <= sin (rad e) <= 0.92) by (rewrite S; lra). split.
  - assert (N : e <> -90). { intro X. rewrite X in SE. replace (rad (-90)) with (- (PI / 2)) in SE by (unfold rad; field). rewrite sin_neg, sin_PI2 in SE. lra. } lra.
  - pose proof (sin_lip (rad e) (rad 90)) as LP. replace (sin (rad 90)) with 1 in LP by (unfold rad; replace (90 * (PI / 180)) with (PI / 2) by field; now rewrite sin_PI2). assert (0.08 <= Rabs (sin (rad e) - 1)) by (rewrite Rabs_left; lra). lra.
Qed.
Example C83_ex : forall lat, lat = 60 \/ lat = -60 -> arguments 1 12 0 0 lat /\ off_zenith (elevation 2000 1 (12 + 0 - 0) (0 + 0 / 60) lat 0).
Proof. intros lat L. split; [unfold arguments; repeat split; try lia; lra|now apply off_zenith_60]. Qed.
(** Under the sun, wherever that is, at noon of that day. *)
Example C83_zenith_ex : exists lat lon, arguments 1 12 0 0 lat /\ Rabs (rad (elevation 2000 1 (12 + 0 - 0) (0 + 0 / 60) lat lon) - rad 90) <= 0.000001.
Proof.
  set (t := sun_time 2000 1 (12 + 0 - 0) (0 + 0 / 60)). set (h0 := raw_hour_angle 2000 t (12 + 0 - 0) (0 + 0 / 60) 0). exists (declination t / degrad), (- h0 / degrad).
  pose proof PI_RGT_0 as P. pose proof degrad_pos as DP. pose proof (asin_bound (sin (long_of_sun t) * sin (angle_of_elliptic t))) as AB. fold (declination t) in AB.
  split. { unfold arguments. split; [lia|]. split; [lra|]. split; [lra|]. split; [lra|]. assert (X : declination t = declination t / degrad * degrad) by (field; lra). set (x := declination t / degrad) in *. rewrite X in AB. unfold degrad in AB. nra. }
  destruct (elevation_sine 2000 1 (12 + 0 - 0) (0 + 0 / 60) (declination t / degrad) (- h0 / degrad)) as [S B]. set (e := elevation _ _ _ _ _ _) in *. cbv zeta in S. fold t in S. replace (e * PI / 180) with (rad e) in S by (unfold rad; field).
  assert (H : raw_hour_angle 2000 t (12 + 0 - 0) (0 + 0 / 60) (- h0 / degrad) = 0) by (unfold h0, raw_hour_angle; field; lra).
  rewrite H in S. unfold sin_elevation in S. replace (declination t / degrad * PI / 180) with (declination t) in S by (unfold degrad; field; lra). rewrite cos_0, Rmult_1_r in S.
  pose proof (sin2_cos2 (declination t)) as Q. unfold Rsqr in Q. rewrite Q in S.
  assert (E : rad e = PI / 2). { rewrite <- (asin_sin (rad e)) by (unfold rad; split; nra). rewrite S. apply asin_1. }
  rewrite E. replace (rad 90) with (PI / 2) by (unfold rad; field). rewrite Rminus_diag_eq by reflexivity. rewrite Rabs_R0. lra.
Qed.
