(** C82: the sun of the day test against the Astronomical Almanac. *)
Require Import ZArith QArith Qround Qreals Reals Lra Lia.
Require Import Verif.M_Base Verif.S_Calendar Verif.L_Calendar Verif.M_Sun Verif.S_Sun Verif.L_Sun Verif.M_SunR Verif.S_SunR Verif.S_Sphere Verif.L_Sphere Verif.S_Almanac Verif.L_Almanac Verif.P_Sun.
Open Scope R_scope.

(** The elements, t days after the start of 2 January 1980, which is 7304.5 days before noon of 1 January 2000: the longitude of the sun
    is within 0.009 degrees of the almanac's until the end of 2099 and within 0.0128 degrees back to 1900. *)
Theorem C82_longitude : forall t,
  (-1 <= t <= 43830 -> close (long_of_sun t) (rad (ecliptic_longitude (t - 7304.5))) 0.009) /\
  (-29220 <= t <= 0 -> close (long_of_sun t) (rad (ecliptic_longitude (t - 7304.5))) 0.0128).
Proof. intro t. split; [apply longitude_after|apply longitude_before]. Qed.
Print Assumptions C82_longitude.
Theorem C82_obliquity : forall t,
  (-1 <= t <= 43830 -> close (angle_of_elliptic t) (rad (obliquity (t - 7304.5))) 0.0021) /\
  (-29220 <= t <= 0 -> close (angle_of_elliptic t) (rad (obliquity (t - 7304.5))) 0.0013).
Proof. intro t. split; [apply obliquity_after|apply obliquity_before]. Qed.
Print Assumptions C82_obliquity.

Lemma hours : forall hour minute, 0 <= hour < 24 -> 0 <= minute < 60 -> 0 <= (hour + minute / 60) / 24 <= 25 / 24.
Proof. intros hour minute H M. lra. Qed.
Lemma after_bound : forall d n, valid d -> (1980 <= yr d <= 2099)%Z -> days_later n (mkdate 1980 1 1) d -> 0 <= INR n <= 43829.
Proof.
  intros d n V Y D. split; [apply pos_INR|]. apply days_later_jdd in D. unfold jdd at 2 in D. cbn [yr mo dy] in D.
  pose proof (jd_in_year d V) as [_ U]. pose proof (jd_next_year (yr d)) as NY. pose proof (jd_year_mono (yr d + 1) 2100 ltac:(lia)) as M. change (jd 2100 1 1) with 2488070%Z in M.
  rewrite INR_IZR_INZ. apply IZR_le. change (jd 1980 1 1) with 2444240%Z in D. lia.
Qed.
Lemma before_bound : forall d n, valid d -> (1901 <= yr d < 1980)%Z -> days_later n d (mkdate 1980 1 1) -> 1 <= INR n <= 29000.
Proof.
  intros d n V Y D. apply days_later_jdd in D. unfold jdd at 1 in D. cbn [yr mo dy] in D.
  pose proof (jd_in_year d V) as [L U]. pose proof (jd_next_year (yr d)) as NY. pose proof (jd_year_mono 1901 (yr d) ltac:(lia)) as M. pose proof (jd_year_mono (yr d + 1) 1980 ltac:(lia)) as M2.
  change (jd 1901 1 1) with 2415386%Z in M. change (jd 1980 1 1) with 2444240%Z in *. rewrite INR_IZR_INZ. split; apply IZR_le; lia.
Qed.

(** From 1980 to 2099 the elevation is within 0.018 degrees of the almanac's, anywhere and at any time.  There are 7305 days from 1 January 1980
    to 1 January 2000, and half a day to noon. *)
Theorem C82_elevation : forall d k hour minute lat lon n e, valid d -> (1980 <= yr d <= 2099)%Z -> day_number d k -> days_later n (mkdate 1980 1 1) d ->
  0 <= hour < 24 -> 0 <= minute < 60 -> almanac_elevation (INR n + (hour + minute / 60) / 24 - 7305.5) lat lon e ->
  Rabs (elevation (yr d) k hour minute lat lon - e) <= 0.018.
Proof.
  intros d k hour minute lat lon n e V Y K D H M A. pose proof (after_bound d n V Y D) as NB. pose proof (hours hour minute H M) as HB.
  pose proof (proj1 (C45_time d k hour minute n V K) Y D) as T. set (t := sun_time (yr d) k hour minute) in *.
  replace (INR n + (hour + minute / 60) / 24 - 7305.5) with (days2000 t) in A by (unfold days2000; lra). assert (TB : -1 <= t <= 43830) by lra.
  assert (TM : t = IZR (Z.of_nat n - 1) + (hour + minute / 60) / 24) by (rewrite minus_IZR, <- INR_IZR_INZ; exact T).
  pose proof (elevation_almanac (yr d) k hour minute lat lon (Z.of_nat n - 1) 0.0067 0.009 0.0021 e TM ltac:(lra) ltac:(lra) ltac:(lra) (sidereal_after _ _ _ _ _ TM TB) (longitude_after t TB) (obliquity_after t TB) A). lra.
Qed.
Print Assumptions C82_elevation.
(** The same in leap years from 1904 to 1976. *)
Theorem C82_leap_years : forall d k hour minute lat lon n e, valid d -> (1901 <= yr d < 1980)%Z -> leap_year (yr d) -> day_number d k -> days_later n d (mkdate 1980 1 1) ->
  0 <= hour < 24 -> 0 <= minute < 60 -> almanac_elevation (- INR n + (hour + minute / 60) / 24 - 7305.5) lat lon e ->
  Rabs (elevation (yr d) k hour minute lat lon - e) <= 0.018.
Proof.
  intros d k hour minute lat lon n e V Y L K D H M A. pose proof (before_bound d n V Y D) as NB. pose proof (hours hour minute H M) as HB.
  pose proof (proj2 (C45_time d k hour minute n V K) Y L D) as T. set (t := sun_time (yr d) k hour minute) in *.
  replace (- INR n + (hour + minute / 60) / 24 - 7305.5) with (days2000 t) in A by (unfold days2000; lra). assert (TB : -29220 <= t <= 0) by lra.
  assert (TM : t = IZR (- Z.of_nat n - 1) + (hour + minute / 60) / 24) by (rewrite minus_IZR, opp_IZR, <- INR_IZR_INZ; exact T).
  pose proof (elevation_almanac (yr d) k hour minute lat lon (- Z.of_nat n - 1) 0.0037 0.0128 0.0013 e TM ltac:(lra) ltac:(lra) ltac:(lra) (sidereal_before _ _ _ _ _ TM TB) (longitude_before t TB) (obliquity_before t TB) A). lra.
Qed.
Print Assumptions C82_leap_years.
(** In the other years before 1980 it is the elevation of the almanac at the same time of the day before. *)
Theorem C82_day_early_refuted : forall d k hour minute lat lon n e, valid d -> (1901 <= yr d < 1980)%Z -> ~ leap_year (yr d) -> day_number d k -> days_later n d (mkdate 1980 1 1) ->
  0 <= hour < 24 -> 0 <= minute < 60 -> almanac_elevation (- INR n + (hour + minute / 60) / 24 - 7305.5 - 1) lat lon e ->
  Rabs (elevation (yr d) k hour minute lat lon - e) <= 0.018.
Proof.
  intros d k hour minute lat lon n e V Y L K D H M A. pose proof (before_bound d n V Y D) as NB. pose proof (hours hour minute H M) as HB.
  pose proof (C45_time_refuted d k hour minute n V K Y L D) as T. set (t := sun_time (yr d) k hour minute) in *.
  replace (- INR n + (hour + minute / 60) / 24 - 7305.5 - 1) with (days2000 t) in A by (unfold days2000; lra). assert (TB : -29220 <= t <= 0) by lra.
  assert (TM : t = IZR (- Z.of_nat n - 2) + (hour + minute / 60) / 24) by (rewrite minus_IZR, opp_IZR, <- INR_IZR_INZ; exact T).
  pose proof (elevation_almanac (yr d) k hour minute lat lon (- Z.of_nat n - 2) 0.0037 0.0128 0.0013 e TM ltac:(lra) ltac:(lra) ltac:(lra) (sidereal_before _ _ _ _ _ TM TB) (longitude_before t TB) (obliquity_before t TB) A). lra.
Qed.
Print Assumptions C82_day_early_refuted.

(** The day test: with any computed elevation that has the sign of the formula's, a report is by day if the almanac has the sun more than
    0.018 degrees above the horizon at the instant looked at, and by night if it has it more than 0.018 degrees below. *)
Theorem C82_day_test : forall elev, elevation_like elev ->
  (forall y k a b c d, (0 < elev y k a b c d)%Q <-> 0 < elevation y k (Q2R a) (Q2R b) (Q2R c) (Q2R d)) ->
  forall d h la lo since d' hh mm k la' lo' n e,
  valid d -> (0 <= h <= 24)%Q -> (-90 <= la <= 90)%Q -> instant_before d h since d' hh mm -> hour_ok hh -> day_number d' k -> aside la la' -> aside lo lo' ->
  (1980 <= yr d' <= 2099)%Z -> days_later n (mkdate 1980 1 1) d' ->
  almanac_elevation (INR n + (Q2R hh + Q2R mm / 60) / 24 - 7305.5) (Q2R la') (Q2R lo') e ->
  exists x, day_test elev (Some (yr d)) (Some (mo d)) (Some (dy d)) (Some h) (Some la) lo since = Ok x /\
    (0.018 < e -> x = 1%Z) /\ (e < - 0.018 -> x = 0%Z).
Proof.
  intros elev He Sg d h la lo since d' hh mm k la' lo' n e V A B I H K L1 L2 Y D E.
  assert (V' : valid d') by (apply (days_later_valid _ _ _ D); exists 31%Z; split; [apply mh_31; auto|cbn; lia]).
  destruct (C45_day_test_sun elev He Sg d h la lo since d' hh mm k la' lo' V A B I H K L1 L2) as [x [R X]]. exists x. split; [exact R|].
  assert (HR : 0 <= Q2R hh < 24). { destruct H as [H1 H2]. apply Qle_Rle in H1. apply Qlt_Rlt in H2. unfold Q2R at 1 in H1. unfold Q2R at 2 in H2. cbn in H1, H2. lra. }
  assert (MR : 0 <= Q2R mm < 60).
  { destruct I as [M _]. apply Qeq_eqR in M. rewrite M. rewrite Q2R_mult, Q2R_minus. pose proof (Qfloor_le h) as F1. pose proof (Qlt_floor h) as F2. apply Qle_Rle in F1. apply Qlt_Rlt in F2.
    replace (Q2R (inject_Z (Qfloor h + 1))) with (Q2R (inject_Z (Qfloor h)) + 1) in F2 by (unfold Q2R; cbn [Qnum Qden inject_Z]; rewrite plus_IZR; lra).
    replace (Q2R 60) with 60 by (unfold Q2R; cbn; lra). lra. }
  pose proof (C82_elevation d' k (Q2R hh) (Q2R mm) (Q2R la') (Q2R lo') n e V' Y K D HR MR E) as C. apply abs_inv in C.
  split; intro G; destruct X as [[-> P]|[-> P]]; try reflexivity; exfalso; lra.
Qed.
Print Assumptions C82_day_test.

(** A report this puts on the wrong side: at 15:00 on 21 March 1979 at the north pole, wherever the longitude is said to be, the sun is more
    than 0.1 degrees up in the almanac an hour before, and the day test finds night. *)
Theorem C82_equinox_refuted : forall elev, elevation_like elev ->
  (forall y k a b c d, (0 < elev y k a b c d)%Q <-> 0 < elevation y k (Q2R a) (Q2R b) (Q2R c) (Q2R d)) ->
  forall lo, days_later (Z.to_nat 286) (mkdate 1979 3 21) (mkdate 1980 1 1) /\
  (exists e, almanac_elevation (- 286 + 14 / 24 - 7305.5) 90 (Q2R lo) e) /\
  (forall e, almanac_elevation (- 286 + 14 / 24 - 7305.5) 90 (Q2R lo) e -> 0.1 < e) /\
  day_test elev (Some 1979%Z) (Some 3%Z) (Some 21%Z) (Some 15%Q) (Some 90%Q) lo 1 = Ok 0%Z.
Proof.
  intros elev He Sg lo. set (d := mkdate 1979 3 21). assert (V : valid d) by (exists 31%Z; split; [apply mh_31; auto|cbn; lia]).
  assert (V0 : valid (mkdate 1980 1 1)) by (exists 31%Z; split; [apply mh_31; auto|cbn; lia]). assert (D : days_later (Z.to_nat 286) d (mkdate 1980 1 1)) by (apply days_later_iff; [exact V|exact V0|reflexivity]).
  assert (K : day_number d 80). { split; [lia|]. apply days_later_iff; [exists 31%Z; split; [apply mh_31; auto|cbn; lia]|exact V|reflexivity]. }
  pose proof pi_bounds as P. split; [exact D|]. split; [apply almanac_total|]. split.
  - intros e E. destruct (pole_sine _ _ _ E) as [B S]. set (n := - 286 + 14 / 24 - 7305.5) in *. pose proof (obliquity_sine n ltac:(unfold n; lra)) as O.
    destruct (longitude_near n (90 - 7200 - anomaly n)) as [L1 L2]; [ring|unfold anomaly, n; lra|].
    assert (R : 0 <= rad (90 - 7200 - anomaly n) <= 0.2461) by (unfold rad, anomaly, n; split; nra). assert (RR : rad (90 - 7200 - anomaly n) * rad (90 - 7200 - anomaly n) <= 0.0606) by nra.
    assert (LB : 0.3 <= ecliptic_longitude n + 7200 <= 1) by (unfold mean_longitude in *; unfold n in *; lra).
    pose proof (sine_up _ _ LB O) as U. replace (rad (ecliptic_longitude n + 7200)) with (rad (ecliptic_longitude n) + 2 * IZR 20 * PI) in U by (unfold rad; field). rewrite sin_period_Z, <- S in U.
    apply Rnot_le_lt. intro C. destruct (Rle_dec 0 e) as [E0|E0].
    + pose proof (sin_abs_le (rad e)) as A. assert (G : 0 <= rad e <= 0.00176) by (unfold rad; split; nra). rewrite (Rabs_pos_eq (rad e)) in A by lra. apply abs_inv in A. lra.
    + assert (G : - PI <= rad e <= 0) by (unfold rad; split; nra). assert (0 <= sin (- rad e)) by (apply sin_ge_0; lra). rewrite sin_neg in H. lra.
  - assert (lo' : exists l', aside lo l'). { destruct (Qeq_dec lo 0) as [Z|Z]; [exists (1 # 10000)%Q; right; split; [exact Z|reflexivity]|exists lo; left; split; [exact Z|reflexivity]]. } destruct lo' as [l' A].
    assert (I : instant_before d 15 1 d 14 0) by (split; [reflexivity|left; repeat split; discriminate]).
    destruct (C45_day_test_sun elev He Sg d 15 90 lo 1 d 14 0 80 90 l' V ltac:(split; discriminate) ltac:(split; discriminate) I ltac:(split; [discriminate|reflexivity]) K ltac:(left; split; [discriminate|reflexivity]) A) as [x [R [[_ X]|[-> _]]]]; [|exact R]. exfalso. clear R.
    destruct (almanac_total (- INR (Z.to_nat 286) + (Q2R 14 + Q2R 0 / 60) / 24 - 7305.5 - 1) (Q2R 90) (Q2R l')) as [e E].
    assert (Q14 : Q2R 14 = 14) by (unfold Q2R; cbn; lra). assert (Q0 : Q2R 0 = 0) by (unfold Q2R; cbn; lra). assert (Q90 : Q2R 90 = 90) by (unfold Q2R; cbn; lra). rewrite Q14, Q0, Q90 in E, X.
    assert (NL : ~ leap_year (yr d)) by (cbn [yr d]; unfold leap_year; intros [[q Y] _]; lia).
    pose proof (C82_day_early_refuted d 80 14 0 90 (Q2R l') (Z.to_nat 286) e V ltac:(cbn; lia) NL K D ltac:(lra) ltac:(lra) E) as C. apply abs_inv in C.
    destruct (pole_sine _ _ _ E) as [B S]. replace (INR (Z.to_nat 286)) with 286 in * by (rewrite INR_IZR_INZ; reflexivity). match type of S with context [obliquity ?m] => set (n := m) in * end. pose proof (obliquity_sine n ltac:(unfold n; lra)) as O.
    destruct (longitude_near n (90 - 7200 - anomaly n)) as [L1 L2]; [ring|unfold anomaly, n; lra|].
    assert (R : 0 <= rad (90 - 7200 - anomaly n) <= 0.264) by (unfold rad, anomaly, n; split; nra). assert (RR : rad (90 - 7200 - anomaly n) * rad (90 - 7200 - anomaly n) <= 0.07) by nra.
    assert (LB : 0.3 <= - (ecliptic_longitude n + 7200) <= 1) by (unfold mean_longitude in *; unfold n in *; lra).
    pose proof (sine_up _ _ LB O) as U. replace (rad (- (ecliptic_longitude n + 7200))) with (- (rad (ecliptic_longitude n) + 2 * IZR 20 * PI)) in U by (unfold rad; field). rewrite sin_neg, sin_period_Z in U.
    assert (U' : sin (rad e) <= - 0.00198) by (rewrite S; lra). assert (E1 : - 0.018 <= e) by lra.
    destruct (Rle_dec 0 e) as [E0|E0].
    + assert (0 <= sin (rad e)) by (apply sin_ge_0; unfold rad; nra). lra.
    + pose proof (sin_abs_le (rad e)) as Z. assert (G : - 0.0004 <= rad e <= 0) by (unfold rad; split; nra). rewrite (Rabs_left1 (rad e)) in Z by lra. apply abs_inv in Z. lra.
Qed.
Print Assumptions C82_equinox_refuted.

(** Noon of 1 January 2000, in the almanac day 0, at Greenwich. *)
Example C82_ex : day_number (mkdate 2000 1 1) 1 /\ days_later (Z.to_nat 7305) (mkdate 1980 1 1) (mkdate 2000 1 1) /\
  exists e, almanac_elevation (INR (Z.to_nat 7305) + (12 + 0 / 60) / 24 - 7305.5) 51.5 0 e /\ Rabs (elevation 2000 1 12 0 51.5 0 - e) <= 0.018.
Proof.
  assert (V0 : valid (mkdate 1980 1 1)) by (exists 31%Z; split; [apply mh_31; auto|cbn; lia]). assert (V : valid (mkdate 2000 1 1)) by (exists 31%Z; split; [apply mh_31; auto|cbn; lia]).
  assert (K : day_number (mkdate 2000 1 1) 1) by (split; [lia|apply dl_0]).
  assert (D : days_later (Z.to_nat 7305) (mkdate 1980 1 1) (mkdate 2000 1 1)) by (apply days_later_iff; [exact V0|exact V|reflexivity]).
  split; [exact K|]. split; [exact D|]. destruct (almanac_total (INR (Z.to_nat 7305) + (12 + 0 / 60) / 24 - 7305.5) 51.5 0) as [e E]. exists e. split; [exact E|].
  exact (C82_elevation (mkdate 2000 1 1) 1 12 0 51.5 0 (Z.to_nat 7305) e V ltac:(cbn; lia) K D ltac:(lra) ltac:(lra) E).
Qed.
