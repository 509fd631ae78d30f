(** Property theorems C07, C08, C09, C18, C50 (single-report checks). *)
Require Import String ZArith QArith Qround Qabs List Bool Lia Lqa.
Require Import Verif.M_Base Verif.L_Base Verif.M_Checks Verif.S_Checks Verif.L_Checks.
Import ListNotations.
Open Scope Z_scope.

(* ------------------------------------------------------------------ C07 *)

Theorem C07_position_check : forall lat lon,
  (position_check (Some (Fin lat)) (Some (Fin lon)) = Ok 0 <-> (-90 <= lat /\ lat <= 90 /\ -180 <= lon /\ lon <= 360)%Q) /\
  (position_check (Some (Fin lat)) (Some (Fin lon)) = Ok 1 <-> ~ (-90 <= lat /\ lat <= 90 /\ -180 <= lon /\ lon <= 360)%Q).
Proof. exact position_check_fin. Qed.
Print Assumptions C07_position_check.

(** Missing or NaN coordinates raise instead of returning a flag. *)
Theorem C07_position_check_missing : forall lat lon,
  lat = None \/ lon = None \/ lat = Some NaN \/ lon = Some NaN -> position_check lat lon = Err AssertionError.
Proof. exact position_check_bad. Qed.
Print Assumptions C07_position_check_missing.

Theorem C07_time_check : forall h,
  (time_check (Some (Fin h)) = 0 <-> (0 <= h /\ h < 24)%Q) /\
  (time_check (Some (Fin h)) = 1 <-> ~ (0 <= h /\ h < 24)%Q) /\ time_check None = 1.
Proof. exact time_check_spec. Qed.
Print Assumptions C07_time_check.

(** Finding: an hour that is NaN (not None) passes the time check. *)
Theorem C07_nan_hour_fails_refuted : exists h, h = NaN /\ time_check (Some h) = 0.
Proof. exists NaN. split; reflexivity. Qed.
Print Assumptions C07_nan_hour_fails_refuted.

(** A report's longitude is brought from [-180,360] into [-180,180], moving by 0 or 360 degrees. *)
Theorem C07_report_longitude : forall lon, (-180 <= lon)%Q -> (lon <= 360)%Q ->
  (-180 <= report_lon lon /\ report_lon lon <= 180)%Q /\
  ((report_lon lon == lon)%Q \/ (report_lon lon == lon - 360)%Q).
Proof. exact report_lon_spec. Qed.
Print Assumptions C07_report_longitude.

Example C07_ex : position_check (Some (Fin (-90))) (Some (Fin 360)) = Ok 0 /\
  position_check (Some (Fin (901 # 10))) (Some (Fin 0)) = Ok 1 /\ position_check (Some PInf) (Some (Fin 0)) = Ok 1 /\
  time_check (Some (Fin (2399 # 100))) = 0 /\ time_check (Some (Fin 24)) = 1.
Proof. repeat split. Qed.

(* ------------------------------------------------------------------ C08 *)

(** climatology_check: fails exactly when the value is further than the limit from the normal. *)
Theorem C08_climatology_check : forall v c l,
  (climatology_check (Some (Fin v)) (Some (Fin c)) (Some (Fin l)) = 1 <-> (l < v - c \/ l < c - v)%Q) /\
  (climatology_check (Some (Fin v)) (Some (Fin c)) (Some (Fin l)) = 0 <-> (c - l <= v /\ v <= c + l)%Q).
Proof. exact climatology_check_fin. Qed.
Print Assumptions C08_climatology_check.

Theorem C08_climatology_check_missing : forall v c l,
  v = None \/ c = None \/ l = None -> climatology_check v c l = 1.
Proof. exact climatology_check_missing. Qed.
Print Assumptions C08_climatology_check_missing.

(** Every input gives 0 or 1, and widening the limit never turns a pass into a failure. *)
Theorem C08_climatology_check_bool : forall v c l, climatology_check v c l = 0 \/ climatology_check v c l = 1.
Proof. exact climatology_check_bool. Qed.
Print Assumptions C08_climatology_check_bool.

Theorem C08_climatology_check_mono : forall v c l l', (l <= l')%Q ->
  climatology_check v c (Some (Fin l)) = 0 -> climatology_check v c (Some (Fin l')) = 0.
Proof. exact climatology_check_mono. Qed.
Print Assumptions C08_climatology_check_mono.

(** Finding: a NaN value passes every climatology limit. *)
Theorem C08_nan_fails_climatology_refuted : forall c l, climatology_check (Some NaN) (Some c) (Some l) = 0.
Proof. exact climatology_check_nan. Qed.
Print Assumptions C08_nan_fails_climatology_refuted.

Theorem C08_value_check : forall A (v : option A),
  (value_check v = 1 <-> v = None) /\ (value_check v = 0 <-> v <> None).
Proof. exact value_check_spec. Qed.
Print Assumptions C08_value_check.

Theorem C08_no_normal_check : forall A (v : option A),
  (no_normal_check v = 1 <-> v = None) /\ (no_normal_check v = 0 <-> v <> None).
Proof. exact value_check_spec. Qed.
Print Assumptions C08_no_normal_check.

Theorem C08_hard_limit : forall v lo hi, (lo < hi)%Q ->
  (hard_limit (Some (Fin v)) (Fin lo, Fin hi) = Ok 0 <-> (lo <= v /\ v <= hi)%Q) /\
  (hard_limit (Some (Fin v)) (Fin lo, Fin hi) = Ok 1 <-> (v < lo \/ hi < v)%Q).
Proof. exact hard_limit_fin. Qed.
Print Assumptions C08_hard_limit.

Theorem C08_hard_limit_missing_or_not_finite : forall lo hi, (lo < hi)%Q ->
  hard_limit None (Fin lo, Fin hi) = Ok 1 /\ hard_limit (Some NaN) (Fin lo, Fin hi) = Ok 1 /\
  hard_limit (Some PInf) (Fin lo, Fin hi) = Ok 1 /\ hard_limit (Some NInf) (Fin lo, Fin hi) = Ok 1.
Proof. exact hard_limit_missing_or_nan. Qed.
Print Assumptions C08_hard_limit_missing_or_not_finite.

Theorem C08_hard_limit_bad_limits : forall v lo hi, ~ (lo < hi)%Q ->
  hard_limit v (Fin lo, Fin hi) = Err AssertionError.
Proof. exact hard_limit_bad_limits. Qed.
Print Assumptions C08_hard_limit_bad_limits.

Theorem C08_hard_limit_mono : forall v lo hi lo' hi', (lo' <= lo)%Q -> (hi <= hi')%Q ->
  hard_limit v (Fin lo, Fin hi) = Ok 0 -> hard_limit v (Fin lo', Fin hi') = Ok 0.
Proof. exact hard_limit_mono. Qed.
Print Assumptions C08_hard_limit_mono.

(** Supersaturation: flagged exactly when the dew point exceeds the air temperature. *)
Theorem C08_supersat_check : forall td t,
  (supersat_check (Some (Fin td)) (Some (Fin t)) = 1 <-> (t < td)%Q) /\
  (supersat_check (Some (Fin td)) (Some (Fin t)) = 0 <-> (td <= t)%Q).
Proof. exact supersat_spec. Qed.
Print Assumptions C08_supersat_check.

Theorem C08_supersat_missing : forall td t, td = None \/ t = None -> supersat_check td t = 1.
Proof. exact supersat_missing. Qed.
Print Assumptions C08_supersat_missing.

(** Freezing check: flagged exactly when SST < freezing point - n_sigma * uncertainty. *)
Theorem C08_freeze_check : forall s u f n,
  (sst_freeze_check (Some (Fin s)) (Some (Fin u)) (Some (Fin f)) (Fin n) = Ok 1 <-> (s < f - n * u)%Q) /\
  (sst_freeze_check (Some (Fin s)) (Some (Fin u)) (Some (Fin f)) (Fin n) = Ok 0 <-> (f - n * u <= s)%Q).
Proof. exact freeze_spec. Qed.
Print Assumptions C08_freeze_check.

Theorem C08_freeze_missing : forall u f n, sst_freeze_check None (Some u) (Some f) n = Ok 0 /\
  (forall s, sst_freeze_check s None (Some f) n = Err AssertionError) /\
  (forall s, sst_freeze_check s (Some u) None n = Err AssertionError).
Proof. exact freeze_missing. Qed.
Print Assumptions C08_freeze_missing.

Theorem C08_freeze_mono : forall s s' u f n, (s <= s')%Q ->
  sst_freeze_check (Some (Fin s)) (Some (Fin u)) (Some (Fin f)) (Fin n) = Ok 0 ->
  sst_freeze_check (Some (Fin s')) (Some (Fin u)) (Some (Fin f)) (Fin n) = Ok 0.
Proof. exact sst_freeze_mono. Qed.
Print Assumptions C08_freeze_mono.

Example C08_ex : climatology_check (Some (Fin (281 # 10))) (Some (Fin 20)) (Some (Fin 8)) = 1 /\
  climatology_check (Some (Fin 28)) (Some (Fin 20)) (Some (Fin 8)) = 0 /\
  hard_limit (Some (Fin (-80))) (Fin (-80), Fin 65) = Ok 0 /\
  sst_freeze_check (Some (Fin (-19 # 10))) (Some (Fin 0)) (Some (Fin (-18 # 10))) (Fin 2) = Ok 1 /\
  (-80 < 65)%Q /\ (-100 <= -80)%Q.
Proof. repeat split; vm_compute; congruence. Qed.

(* ------------------------------------------------------------------ C09 *)

(** Fails exactly when |obs - clim| exceeds the multiplier times the standard deviation
    clipped to the allowed range. *)
Theorem C09_stdev_check : forall v c s lo hi k, (lo < hi)%Q -> (0 < lo)%Q -> (0 < k)%Q ->
  (climatology_plus_stdev_check (Some (Fin v)) (Some (Fin c)) (Some (Fin s)) (Fin lo, Fin hi) (Fin k) = Ok 1 <->
   exists sd, (lo <= sd /\ sd <= hi)%Q /\
     ((lo <= s /\ s <= hi)%Q -> (sd == s)%Q) /\ ((s < lo)%Q -> (sd == lo)%Q) /\ ((hi < s)%Q -> (sd == hi)%Q) /\
     (k * sd < v - c \/ k * sd < c - v)%Q) /\
  (climatology_plus_stdev_check (Some (Fin v)) (Some (Fin c)) (Some (Fin s)) (Fin lo, Fin hi) (Fin k) = Ok 0 \/
   climatology_plus_stdev_check (Some (Fin v)) (Some (Fin c)) (Some (Fin s)) (Fin lo, Fin hi) (Fin k) = Ok 1).
Proof. exact stdev_check_spec. Qed.
Print Assumptions C09_stdev_check.

Theorem C09_stdev_check_missing : forall v c s lo hi k, (lo < hi)%Q -> (0 < k)%Q ->
  v = None \/ c = None \/ s = None ->
  climatology_plus_stdev_check v c s (Fin lo, Fin hi) (Fin k) = Ok 1.
Proof. exact stdev_check_missing. Qed.
Print Assumptions C09_stdev_check_missing.

Theorem C09_stdev_check_raises : forall v c s lo hi k, ~ (lo < hi)%Q \/ ~ (0 < k)%Q ->
  climatology_plus_stdev_check v c s (Fin lo, Fin hi) (Fin k) = Err AssertionError.
Proof. exact stdev_check_raises. Qed.
Print Assumptions C09_stdev_check_raises.

(** A smaller anomaly or a larger multiplier never turns a pass into a failure. *)
Theorem C09_stdev_check_mono : forall v v' c s lo hi k k', (lo < hi)%Q -> (0 < lo)%Q -> (0 < k)%Q -> (k <= k')%Q ->
  (Qabs (v' - c) <= Qabs (v - c))%Q ->
  climatology_plus_stdev_check (Some (Fin v)) (Some (Fin c)) (Some (Fin s)) (Fin lo, Fin hi) (Fin k) = Ok 0 ->
  climatology_plus_stdev_check (Some (Fin v')) (Some (Fin c)) (Some (Fin s)) (Fin lo, Fin hi) (Fin k') = Ok 0.
Proof. exact stdev_check_mono_Qabs. Qed.
Print Assumptions C09_stdev_check_mono.

(** A value that is not a number passes the check against the standard deviation. *)
Theorem C09_stdev_nan_fails_refuted : forall c s lo hi k, (lo < hi)%Q -> (0 < lo)%Q -> (0 < k)%Q ->
  climatology_plus_stdev_check (Some NaN) (Some (Fin c)) (Some (Fin s)) (Fin lo, Fin hi) (Fin k) = Ok 0.
Proof. exact stdev_nan_passes. Qed.
Print Assumptions C09_stdev_nan_fails_refuted.

(** Low-bar variant: both the normalised anomaly and the absolute anomaly must be exceeded. *)
Theorem C09_lowbar_check : forall v c s k b, (0 < k)%Q -> (0 < s)%Q ->
  (climatology_plus_stdev_with_lowbar (Some (Fin v)) (Some (Fin c)) (Some (Fin s)) (Fin k) (Fin b) = Ok 1 <->
    (k * s < Qabs (v - c) /\ b < Qabs (v - c))%Q) /\
  (climatology_plus_stdev_with_lowbar (Some (Fin v)) (Some (Fin c)) (Some (Fin s)) (Fin k) (Fin b) = Ok 0 <->
    (Qabs (v - c) <= k * s \/ Qabs (v - c) <= b)%Q).
Proof. exact lowbar_check_spec_Qabs. Qed.
Print Assumptions C09_lowbar_check.

Theorem C09_lowbar_other : forall v c s k b,
  (~ (0 < k)%Q -> climatology_plus_stdev_with_lowbar v c s (Fin k) b = Err AssertionError) /\
  ((0 < k)%Q -> v = None \/ c = None \/ s = None -> climatology_plus_stdev_with_lowbar v c s (Fin k) b = Ok 1) /\
  ((0 < k)%Q -> forall v' c', climatology_plus_stdev_with_lowbar (Some v') (Some c') (Some (Fin 0)) (Fin k) b = Err ZeroDivisionError).
Proof. exact lowbar_check_other. Qed.
Print Assumptions C09_lowbar_other.

Example C09_ex :
  climatology_plus_stdev_check (Some (Fin 10)) (Some (Fin 5)) (Some (Fin (1#10))) (Fin 1, Fin 4) (Fin 4) = Ok 1 /\
  climatology_plus_stdev_check (Some (Fin 10)) (Some (Fin 5)) (Some (Fin 9)) (Fin 1, Fin 4) (Fin 4) = Ok 0 /\
  climatology_plus_stdev_with_lowbar (Some (Fin 10)) (Some (Fin 5)) (Some (Fin 1)) (Fin 4) (Fin 6) = Ok 0 /\
  (1 < 4)%Q /\ (0 < 1)%Q.
Proof. repeat split. Qed.

(* ------------------------------------------------------------------ C18 *)

(** blacklist always answers 0 or 1, and 1 exactly when one of the listed rules applies to
    the position with its longitude reduced to [-180,180]. *)
Theorem C18_blacklist : forall id deck year month lat lon lon' pt,
  ((lon <= 180)%Q -> lon' = lon) -> ((180 < lon)%Q -> lon' = (lon - 360)%Q) ->
  exists r, blacklist id deck year month lat lon pt = Ok r /\ (r = 0 \/ r = 1) /\
   (r = 1 <-> blacklisted id deck year month lat lon' pt).
Proof. exact blacklist_spec'. Qed.
Print Assumptions C18_blacklist.

Theorem C18_id_is_generic : forall id y, id_is_generic id y = true <-> generic id y.
Proof. exact id_is_generic_spec. Qed.
Print Assumptions C18_id_is_generic.

Example C18_ex : blacklist (Some "ABC"%string) (Some 732) 1974 3 (-47) (302) None = Ok 1 /\
  blacklist (Some "ABC"%string) (Some 732) 1975 3 (-47) (302) None = Ok 0 /\
  blacklist None None 2000 1 0 360 (Some 1) = Ok 1 /\
  blacklist (Some "53902    "%string) None 2006 1 10 10 (Some 7) = Ok 1 /\
  id_is_generic (Some "2        "%string) 1941 = true /\ id_is_generic (Some "2        "%string) 1942 = false.
Proof. repeat split. Qed.

(* ------------------------------------------------------------------ C50 *)

(** Flagged exactly for direction 361 (calm) with non-zero speed, or direction 362 (variable)
    with a speed above the limit. *)
Theorem C50_wind_consistency : forall w d l,
  wind_consistency (Some (Fin w)) (Some (Fin d)) (Fin l) = 1 <->
  ((d == 361 /\ ~ w == 0) \/ (d == 362 /\ l < w))%Q.
Proof. exact wind_consistency_fin. Qed.
Print Assumptions C50_wind_consistency.

Theorem C50_wind_consistency_bool : forall w d l, wind_consistency w d l = 0 \/ wind_consistency w d l = 1.
Proof. exact wind_consistency_bool. Qed.
Print Assumptions C50_wind_consistency_bool.

(** A missing direction passes; a missing speed is flagged exactly for calm. *)
Theorem C50_wind_consistency_missing : forall w d l,
  wind_consistency w None l = 0 /\
  (wind_consistency None (Some (Fin d)) l = 1 <-> (d == 361)%Q).
Proof. exact wind_consistency_missing. Qed.
Print Assumptions C50_wind_consistency_missing.

Example C50_ex : wind_consistency (Some (Fin 3)) (Some (Fin 361)) (Fin 3) = 1 /\
  wind_consistency (Some (Fin 3)) (Some (Fin 362)) (Fin 3) = 0 /\ wind_consistency (Some (Fin 0)) (Some (Fin 361)) (Fin 3) = 0.
Proof. repeat split. Qed.
