(** C45 day and night: the day test, the drifter day test and the solar elevation they use. *)
Require Import ZArith QArith Qround Reals Qreals List Bool Lia Lqa.
Require Import Verif.M_Base Verif.L_Base Verif.S_Calendar Verif.L_Calendar Verif.M_Sun Verif.S_Sun Verif.L_Sun Verif.M_SunR Verif.S_SunR Verif.L_SunR Verif.L_SunT.
Import ListNotations.
Open Scope Z_scope.

(** A made-up sun for the examples: up between six and eighteen hours. *)
Definition toy_sun (y k : Z) (hh mm la lo : Q) : Q := if Qleb 6 hh && Qltb hh 18 then 30%Q else (-30)%Q.
Lemma toy_sun_ok : elevation_like toy_sun.
Proof.
  split.
  - intros y k a a' b b' c c' d d' A _ _ _. unfold toy_sun.
    assert (E1 : Qleb 6 a = Qleb 6 a') by (destruct (Qleb 6 a) eqn:X, (Qleb 6 a') eqn:Y; auto; qprop; lra).
    assert (E2 : Qltb a 18 = Qltb a' 18) by (destruct (Qltb a 18) eqn:X, (Qltb a' 18) eqn:Y; auto; qprop; lra).
    rewrite E1, E2. reflexivity.
  - intros. unfold toy_sun. destruct (Qleb 6 a && Qltb a 18); split; discriminate.
Qed.

(** For a real date, a time of day and a latitude, the day test gives 1 exactly when the sun is above the
    horizon at the instant [since] hours before the report, and 0 otherwise; that instant may lie on the
    previous day, also across the ends of months and years. *)
Theorem C45_day_test : forall elev, elevation_like elev -> forall d h la lo since d' hh mm k la' lo',
  valid d -> (0 <= h <= 24)%Q -> (-90 <= la <= 90)%Q -> instant_before d h since d' hh mm -> hour_ok hh -> day_number d' k -> aside la la' -> aside lo lo' ->
  exists x, day_test elev (Some (yr d)) (Some (mo d)) (Some (dy d)) (Some h) (Some la) lo since = Ok x /\
    ((x = 1 /\ (0 < elev (yr d') k hh mm la' lo')%Q) \/ (x = 0 /\ (elev (yr d') k hh mm la' lo' <= 0)%Q)).
Proof. exact day_test_ok. Qed.
Print Assumptions C45_day_test.

(** That instant exists for all hours below 24 and all offsets up to a day, on a day that has a number. *)
Theorem C45_instant : forall d h since, valid d -> (0 <= h)%Q -> (h < 24)%Q -> (0 <= since <= 24)%Q ->
  exists d' hh mm k, instant_before d h since d' hh mm /\ hour_ok hh /\ (0 <= mm < 60)%Q /\ valid d' /\ day_number d' k /\ 1 <= k <= 366.
Proof.
  intros d h since V A B C. destruct (instant_exists d h since V A B C) as [d' [hh [mm [I [H [M [V' _]]]]]]]. destruct (dayinyear_ok d' V') as [k [_ [K R]]].
  exists d', hh, mm, k. auto 10.
Qed.
Print Assumptions C45_instant.

(** It is [since] hours before the report. *)
Theorem C45_instant_exact : forall d h since d' hh mm, valid d -> instant_before d h since d' hh mm ->
  exists n, ((n = 0 /\ d' = d) \/ (n = 1 /\ next d' d)) /\ (hh + mm / 60 == h - since + 24 * inject_Z n)%Q.
Proof.
  intros d h since d' hh mm V [M [[E [A _]]|[N [A _]]]]; [exists 0|exists 1]; (split; [auto|]); rewrite M, A; cbn [inject_Z]; field.
Qed.
Print Assumptions C45_instant_exact.

(** The day number counts the days from 1 January. *)
Theorem C45_day_of_year : forall d, valid d -> exists k, M_Calendar.dayinyear (yr d) (mo d) (dy d) = Ok k /\ day_number d k /\ 1 <= k <= 366.
Proof. exact dayinyear_ok. Qed.
Print Assumptions C45_day_of_year.

(** Anything that is not a date, an hour or a latitude is rejected; a missing year counts as night. *)
Theorem C45_rejects : forall elev y m d h la lo since,
  ~ 1 <= m <= 12 \/ ~ 1 <= d <= 31 \/ ~ (0 <= h <= 24)%Q \/ ~ (-90 <= la <= 90)%Q \/ (exists y0, y = Some y0 /\ ~ valid (mkdate y0 m d)) ->
  day_test elev y (Some m) (Some d) (Some h) (Some la) lo since = Err AssertionError.
Proof. exact day_test_rejects. Qed.
Print Assumptions C45_rejects.
Theorem C45_no_year : forall elev m d h la lo since, 1 <= m <= 12 -> 1 <= d <= 31 -> (0 <= h <= 24)%Q -> (-90 <= la <= 90)%Q ->
  day_test elev None (Some m) (Some d) (Some h) (Some la) lo since = Ok 0.
Proof. exact day_test_no_year. Qed.
Print Assumptions C45_no_year.

(** The drifter day test: true exactly when the sun is above the given elevation at the time of the report. *)
Theorem C45_track_day_test : forall elev, elevation_like elev -> forall d h la lo k la' lo' lim,
  valid d -> hour_ok h -> (-90 <= la <= 90)%Q -> day_number d k -> aside la la' -> aside lo lo' ->
  exists b, track_day_test elev (Some (yr d)) (Some (mo d)) (Some (dy d)) (Some h) (Some la) (Some lo) lim = Ok b /\
    (b = true <-> (lim < elev (yr d) k (inject_Z (Qfloor h)) ((h - inject_Z (Qfloor h)) * 60) la' lo')%Q).
Proof. exact track_day_ok. Qed.
Print Assumptions C45_track_day_test.

(** Both tests accept hour 24 in their own checks and then fail on it: hour 24 is not an hour for the elevation. *)
Theorem C45_hour_24_refuted : forall elev d la lo, valid d -> (-90 <= la <= 90)%Q ->
  day_test elev (Some (yr d)) (Some (mo d)) (Some (dy d)) (Some 24%Q) (Some la) lo 0 = Err AssertionError /\
  forall lim, track_day_test elev (Some (yr d)) (Some (mo d)) (Some (dy d)) (Some 24%Q) (Some la) (Some lo) lim = Err AssertionError.
Proof. intros elev d la lo V L. split; [now apply day_test_24|]. intro lim. now apply track_day_24. Qed.
Print Assumptions C45_hour_24_refuted.

(** Half past midnight on 1 March 2000, an hour before: 23:30 on 29 February, day 60. *)
Example C45_ex : instant_before (mkdate 2000 3 1) (1 # 2) 1 (mkdate 2000 2 29) 23 30 /\ valid (mkdate 2000 3 1) /\
  M_Calendar.dayinyear 2000 2 29 = Ok 60 /\
  day_test toy_sun (Some 2000) (Some 3) (Some 1) (Some (1 # 2)%Q) (Some 10%Q) 20 1 = Ok 0 /\
  day_test toy_sun (Some 2000) (Some 3) (Some 1) (Some (15 # 2)%Q) (Some 10%Q) 20 1 = Ok 1.
Proof.
  assert (F : month_has 2000 2 29) by (apply month_has_iff; split; [lia|reflexivity]).
  split; [split; [reflexivity|right; split; [exact (next_month _ _ _ F eq_refl)|split; reflexivity]]|].
  split; [exists 31; split; [apply mh_31; cbn; lia|cbn; lia]|]. split; [reflexivity|]. split; reflexivity.
Qed.

(* ------------------------------------------------------------------ the elevation formula *)
Open Scope R_scope.

(** The elevation is the angle whose sine is sin(lat) sin(dec) + cos(lat) cos(dec) cos(h), where (ra, dec)
    are the equatorial coordinates of the sun's ecliptic longitude and h is local sidereal time less right
    ascension, up to whole turns: none of the wraps into one turn and none of the clips changes it. *)
Theorem C45_elevation : forall year day hour minute lat lon, let t := sun_time year day hour minute in
  exists ra dec h, equatorial (long_of_sun t) (angle_of_elliptic t) ra dec /\
    same_direction h (1.759335 + 2 * PI * (t / 365.25 - IZR (delyear year)) + 3.694e-7 * t + (hour + minute / 60) * (15 * PI / 180) + lon * (PI / 180) - ra) /\
    sin (elevation year day hour minute lat lon * PI / 180) = sin_elevation lat dec h /\
    (0 < elevation year day hour minute lat lon <-> 0 < sin_elevation lat dec h) /\
    -90 <= elevation year day hour minute lat lon <= 90.
Proof. exact solar_elevation. Qed.
Print Assumptions C45_elevation.

(** A full turn of longitude changes nothing; at the pole the elevation is the declination; the sine of the
    declination never exceeds that of the obliquity. *)
Theorem C45_longitude_turn : forall year day hour minute lat lon, elevation year day hour minute lat (lon + 360) = elevation year day hour minute lat lon.
Proof. exact elevation_lon_period. Qed.
Print Assumptions C45_longitude_turn.
Theorem C45_pole : forall year day hour minute lon, elevation year day hour minute 90 lon = declination (sun_time year day hour minute) / (PI / 180).
Proof. exact elevation_pole. Qed.
Print Assumptions C45_pole.
Theorem C45_declination : forall t, Rabs (sin (declination t)) <= Rabs (sin (angle_of_elliptic t)).
Proof. exact declination_obliquity. Qed.
Print Assumptions C45_declination.

(** The time in the formula is the number of days, the time of day included, since 2 January 1980, for every date from
    1980 to 2099; for the years before, back to 1901, it is so in leap years. *)
Theorem C45_time : forall d k hour minute n, valid d -> day_number d k ->
  ((1980 <= yr d <= 2099)%Z -> days_later n (mkdate 1980 1 1) d -> sun_time (yr d) k hour minute = INR n - 1 + (hour + minute / 60) / 24) /\
  ((1901 <= yr d < 1980)%Z -> leap_year (yr d) -> days_later n d (mkdate 1980 1 1) -> sun_time (yr d) k hour minute = - INR n - 1 + (hour + minute / 60) / 24).
Proof.
  intros d k hour minute n V K. split.
  - intros Y D. apply days_later_jdd in D. unfold jdd at 2 in D. cbn [yr mo dy] in D. rewrite (sun_time_days d k hour minute V ltac:(lia) K). destruct (Z_lt_dec (yr d) 1980); [lia|].
    replace (jdd d - jd 1980 1 1)%Z with (Z.of_nat n) by lia. rewrite <- INR_IZR_INZ. ring.
  - intros Y [[q Q] _] D. apply days_later_jdd in D. unfold jdd at 1 in D. cbn [yr mo dy] in D. rewrite (sun_time_days d k hour minute V ltac:(lia) K). destruct (Z_lt_dec (yr d) 1980); [|lia].
    destruct (Z.eq_dec (yr d mod 4) 0) as [_|M]; [|exfalso; apply M; rewrite Q; apply Z.mod_mul; lia]. replace (jdd d - jd 1980 1 1)%Z with (- Z.of_nat n)%Z by lia. rewrite opp_IZR, <- INR_IZR_INZ. ring.
Qed.
Print Assumptions C45_time.
(** In the other years before 1980 it is a day too early: the correction for years before 1980 is applied on top of a
    division that already rounds down. *)
Theorem C45_time_refuted : forall d k hour minute n, valid d -> day_number d k -> (1901 <= yr d < 1980)%Z -> ~ leap_year (yr d) -> days_later n d (mkdate 1980 1 1) ->
  sun_time (yr d) k hour minute = - INR n - 2 + (hour + minute / 60) / 24.
Proof.
  intros d k hour minute n V K Y L D. apply days_later_jdd in D. unfold jdd at 1 in D. cbn [yr mo dy] in D. rewrite (sun_time_days d k hour minute V ltac:(lia) K). destruct (Z_lt_dec (yr d) 1980); [|lia].
  destruct (Z.eq_dec (yr d mod 4) 0) as [M|M].
  - exfalso. apply L. split; [exists (yr d / 4)%Z; pose proof (Z.div_mod (yr d) 4 ltac:(lia)); lia|]. left. intros [q Q]. lia.
  - replace (jdd d - jd 1980 1 1)%Z with (- Z.of_nat n)%Z by lia. rewrite opp_IZR, <- INR_IZR_INZ. ring.
Qed.
Print Assumptions C45_time_refuted.
Example C45_time_ex : day_number (mkdate 1980 1 1) 1 /\ sun_time 1980 1 12 0 = -1 + 12 / 24.
Proof.
  split; [split; [lia|apply dl_0]|].
  change 1980%Z with (yr (mkdate 1980 1 1)) at 1.
  rewrite (proj1 (C45_time (mkdate 1980 1 1) 1 12 0 0 ltac:(exists 31%Z; split; [apply mh_31; auto|cbn; lia]) ltac:(split; [lia|apply dl_0])) ltac:(cbn; lia) (dl_0 _)). cbn [INR]. field.
Qed.

(** With any computed elevation that has the sign of the formula's, the day test says whether the sun is up. *)
Theorem C45_day_test_sun : forall elev, elevation_like elev ->
  (forall y k a b c d, (0 < elev y k a b c d)%Q <-> 0 < elevation y k (Q2R a) (Q2R b) (Q2R c) (Q2R d)) ->
  forall d h la lo since d' hh mm k la' lo',
  valid d -> (0 <= h <= 24)%Q -> (-90 <= la <= 90)%Q -> instant_before d h since d' hh mm -> hour_ok hh -> day_number d' k -> aside la la' -> aside lo lo' ->
  exists x, day_test elev (Some (yr d)) (Some (mo d)) (Some (dy d)) (Some h) (Some la) lo since = Ok x /\
    ((x = 1%Z /\ 0 < elevation (yr d') k (Q2R hh) (Q2R mm) (Q2R la') (Q2R lo')) \/ (x = 0%Z /\ elevation (yr d') k (Q2R hh) (Q2R mm) (Q2R la') (Q2R lo') <= 0)).
Proof.
  intros elev He Sg d h la lo since d' hh mm k la' lo' V A B I H K L1 L2.
  destruct (day_test_ok elev He d h la lo since d' hh mm k la' lo' V A B I H K L1 L2) as [x [E [[X P]|[X P]]]]; exists x; (split; [exact E|]).
  - left. split; [exact X|]. now apply Sg.
  - right. split; [exact X|]. apply Rnot_lt_le. intro Q. apply Sg in Q. exact (Qlt_not_le _ _ Q P).
Qed.
Print Assumptions C45_day_test_sun.

(** Such an elevation exists: the sign of the formula's. *)
Definition sign_sun (y k : Z) (a b c d : Q) : Q := if Rlt_dec 0 (elevation y k (Q2R a) (Q2R b) (Q2R c) (Q2R d)) then 1%Q else 0%Q.
Example C45_sun_ex : elevation_like sign_sun /\
  (forall y k a b c d, (0 < sign_sun y k a b c d)%Q <-> 0 < elevation y k (Q2R a) (Q2R b) (Q2R c) (Q2R d)).
Proof.
  split; [split|].
  - intros y k a a' b b' c c' d d' A B C D. unfold sign_sun. apply Qeq_eqR in A, B, C, D. rewrite A, B, C, D. reflexivity.
  - intros. unfold sign_sun. destruct (Rlt_dec _ _); split; discriminate.
  - intros. unfold sign_sun. destruct (Rlt_dec _ _); split; auto; try discriminate; try reflexivity; contradiction.
Qed.
