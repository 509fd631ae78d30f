(** C41 humidity formulas and the humidity variables of reports. *)
Require Import String Reals ZArith QArith Qreals List Bool Lra Lia.
From Coquelicot Require Import Rcomplements.
Require Import Verif.M_Base Verif.M_Report Verif.S_Report Verif.L_Report3 Verif.M_Bayes Verif.L_Bayes Verif.M_Hum Verif.S_Hum Verif.L_Hum Verif.L_Hum2 Verif.L_Hum3.
Import ListNotations.
Open Scope R_scope.

(** Every function computes its formula; the rounded result is the nearest tenth, halves away from zero. *)
Theorem C41_formulas : forall td t p, temperature td -> temperature t -> exists e es, vapour td t p e /\ vapour t t p es /\
  forall roundit : bool, let out (x y : R) := if roundit then nearest_tenth x y else y = x in
    (exists y, vap roundit (Some td) (Some t) (Some p) = Ok (Some y) /\ out e y) /\
    (exists y, sh roundit (Some td) (Some t) (Some p) = Ok (Some y) /\ out (specific e p) y) /\
    (exists y, rh roundit (Some td) (Some t) (Some p) = Ok (Some y) /\ out (e / es * 100) y) /\
    (exists y, wb roundit (Some td) (Some t) (Some p) = Ok (Some y) /\ out (bulb e td t p) y) /\
    (exists y, dpd roundit (Some td) (Some t) = Ok (Some y) /\ out (t - td) y).
Proof.
  intros td t p Td T. destruct (e_of_ok td t p Td) as [e [E V]]. destruct (e_of_ok t t p T) as [es [Es Vs]].
  exists e, es. split; [exact V|]. split; [exact Vs|]. intros roundit out. unfold vap, sh, rh, wb, with3. rewrite E, Es. cbn [bind].
  rewrite specific_model, wet_bulb_bulb.
  assert (O : forall x, out x (rounded roundit x)) by (intro x; unfold out; destruct roundit; [apply rounded_nearest|reflexivity]).
  repeat split; eexists; (split; [reflexivity|apply O]).
Qed.
Print Assumptions C41_formulas.
Theorem C41_one_value : (forall td t p e e', vapour td t p e -> vapour td t p e' -> e = e') /\ (forall x y z, nearest_tenth x y -> nearest_tenth x z -> y = z).
Proof. exact (conj vapour_fun nearest_unique). Qed.
Print Assumptions C41_one_value.

(** Missing inputs give a missing output. *)
Theorem C41_missing : forall roundit td t p, td = None \/ t = None \/ p = None ->
  vap roundit td t p = Ok None /\ sh roundit td t p = Ok None /\ rh roundit td t p = Ok None /\ wb roundit td t p = Ok None /\
  (td = None \/ t = None -> dpd roundit td t = Ok None).
Proof. intros b [td|] [t|] [p|] [H|[H|H]]; try discriminate H; repeat split; intros [K|K]; try discriminate K; reflexivity. Qed.
Print Assumptions C41_missing.

(** The vapour pressures over water and over ice are positive and grow with the dew point. *)
Theorem C41_increasing : forall p x y, 0 < p -> temperature x -> temperature y -> x < y ->
  0 < over_water p x < over_water p y /\ 0 < over_ice p x < over_ice p y.
Proof. intros. auto using water_pos, ice_pos, water_incr, ice_incr. Qed.
Print Assumptions C41_increasing.

(** Finding: the vapour pressure of a report need not grow with its dew point: at 2.85 degrees and 1000 hPa
    the pressure for -25 is taken over water, for -24 over ice: 0.8 and 0.7 hPa. *)
Theorem C41_increasing_refuted : exists t p td td', td < td' /\ td' < t /\ temperature td /\ temperature t /\ 0 < p /\
  vap true (Some td) (Some t) (Some p) = Ok (Some (8 / 10)) /\ vap true (Some td') (Some t) (Some p) = Ok (Some (7 / 10)).
Proof.
  destruct not_monotone as [e [e' [E [E' [L [B B']]]]]].
  assert (T1 : temperature (-25)) by (unfold temperature; lra). assert (T2 : temperature (-24)) by (unfold temperature; lra).
  exists 2.85, 1000, (-25), (-24). split; [lra|]. split; [lra|]. split; [exact T1|]. split; [unfold temperature; lra|]. split; [lra|].
  destruct (e_of_ok (-25) 2.85 1000 T1) as [a [A V]]. destruct (e_of_ok (-24) 2.85 1000 T2) as [a' [A' V']].
  rewrite (vapour_fun _ _ _ _ _ V E) in A. rewrite (vapour_fun _ _ _ _ _ V' E') in A'.
  unfold vap, with3. rewrite A, A'. cbn [bind]. unfold rounded.
  rewrite (rnd_unique (e * 10) 8) by lra. rewrite (rnd_unique (e' * 10) 7) by lra. split; reflexivity.
Qed.
Print Assumptions C41_increasing_refuted.

(** Saturated air: relative humidity 100, no dew point depression, wet bulb equal to the temperature. *)
Theorem C41_saturated : forall t p, temperature t -> 0 < p ->
  rh false (Some t) (Some t) (Some p) = Ok (Some 100) /\ rh true (Some t) (Some t) (Some p) = Ok (Some 100) /\
  dpd false (Some t) (Some t) = Ok (Some 0) /\ dpd true (Some t) (Some t) = Ok (Some 0) /\
  wb false (Some t) (Some t) (Some p) = Ok (Some t).
Proof.
  intros t p T P. destruct (e_of_ok t t p T) as [e [E V]]. pose proof (vapour_pos _ _ _ _ P V) as E0.
  unfold rh, wb, dpd, with3. rewrite E. cbn [bind]. rewrite wet_bulb_bulb, bulb_same by auto. unfold rounded.
  replace (e / e * 100) with 100 by (field; lra). replace (t - t) with 0 by ring. rewrite Rmult_0_l, (rnd_IZR 0).
  replace (100 * 10) with (IZR 1000) by lra. rewrite rnd_IZR. repeat split; repeat apply f_equal; field.
Qed.
Print Assumptions C41_saturated.

(** Below saturation (dew point not above the temperature): relative humidity positive and, rounded, at most
    100; above it at least 100.  Unrounded it stays on its side except where one pressure is over water and
    the other over ice. *)
Theorem C41_relative_humidity : forall td t p, temperature td -> temperature t -> 0 < p <= 1100 -> td <= t ->
  exists r r', rh false (Some td) (Some t) (Some p) = Ok (Some r) /\ rh true (Some td) (Some t) (Some p) = Ok (Some r') /\
    0 < r < 100.05 /\ 0 <= r' <= 100 /\ (t <= 0 \/ 0 < bulb (over_water p td) td t p -> r <= 100).
Proof.
  intros td t p Td T P L. assert (P0 : 0 < p) by lra.
  destruct (e_of_ok td t p Td) as [e [E V]]. destruct (e_of_ok t t p T) as [es [Es Vs]].
  destruct (below_saturation td t p e es P Td T L V Vs) as [A B].
  pose proof (vapour_pos _ _ _ _ P0 V) as E0. pose proof (vapour_pos _ _ _ _ P0 Vs) as S0.
  unfold rh, with3. rewrite E, Es. cbn [bind]. eexists; eexists. split; [reflexivity|]. split; [reflexivity|].
  assert (R0 : 0 < e / es) by (apply Rdiv_lt_0_compat; auto). assert (R1 : e / es < 1.0005) by (apply Rlt_div_l; lra).
  split; [unfold rounded; lra|]. split.
  - unfold rounded. assert (0 <= rnd (e / es * 100 * 10) <= 1000)%Z.
    { split; [rewrite <- (rnd_IZR 0) at 1; apply rnd_mono; lra|].
      destruct (rnd_bounds (e / es * 100 * 10)) as [U _]. assert (rnd (e / es * 100 * 10) < 1001)%Z; [|lia]. apply lt_IZR. lra. }
    destruct H as [H1 H2]. apply IZR_le in H1, H2. lra.
  - intro H. specialize (B H). unfold rounded. assert (e / es <= 1) by (apply Rle_div_l; lra). lra.
Qed.
Print Assumptions C41_relative_humidity.
Theorem C41_supersaturated : forall td t p, temperature td -> temperature t -> 0 < p <= 1100 -> t <= td ->
  exists r r', rh false (Some td) (Some t) (Some p) = Ok (Some r) /\ rh true (Some td) (Some t) (Some p) = Ok (Some r') /\
    99.95 < r /\ 100 <= r' /\ (0 < t \/ bulb (over_water p td) td t p <= 0 -> 100 <= r).
Proof.
  intros td t p Td T P L. assert (P0 : 0 < p) by lra.
  destruct (e_of_ok td t p Td) as [e [E V]]. destruct (e_of_ok t t p T) as [es [Es Vs]].
  destruct (above_saturation td t p e es P Td T L V Vs) as [A B].
  pose proof (vapour_pos _ _ _ _ P0 V) as E0. pose proof (vapour_pos _ _ _ _ P0 Vs) as S0.
  unfold rh, with3. rewrite E, Es. cbn [bind]. eexists; eexists. split; [reflexivity|]. split; [reflexivity|].
  assert (R1 : 0.9995002 < e / es) by (apply (proj1 (Rlt_div_r _ e es S0)); lra).
  split; [unfold rounded; lra|]. split.
  - unfold rounded. assert (1000 <= rnd (e / es * 100 * 10))%Z.
    { destruct (rnd_bounds (e / es * 100 * 10)) as [U _]. assert (999 < rnd (e / es * 100 * 10))%Z; [|lia]. apply lt_IZR. lra. }
    apply IZR_le in H. lra.
  - intro H. specialize (B H). unfold rounded. assert (1 <= e / es) by (apply Rle_div_r; lra). lra.
Qed.
Print Assumptions C41_supersaturated.
(** Finding: unrounded, air below saturation can have a relative humidity above 100 (ice against water). *)
Theorem C41_relative_humidity_refuted : exists td t r, td < t /\ temperature td /\ temperature t /\ rh false (Some td) (Some t) (Some 1013) = Ok (Some r) /\ 100 < r.
Proof.
  destruct over_100 as [td [t [p [e [es [L [Td [T [-> [V [Vs G]]]]]]]]]]].
  destruct (e_of_ok td t 1013 Td) as [a [A V']]. destruct (e_of_ok t t 1013 T) as [b [B Vs']].
  rewrite (vapour_fun _ _ _ _ _ V' V) in A. rewrite (vapour_fun _ _ _ _ _ Vs' Vs) in B.
  exists td, t. eexists. split; [exact L|]. split; [exact Td|]. split; [exact T|]. unfold rh, with3. rewrite A, B. cbn [bind]. split; [reflexivity|].
  unfold rounded. assert (0 < es) by (eapply vapour_pos; [|exact Vs]; lra). assert (1 < e / es) by (apply Rlt_div_r; lra). lra.
Qed.
Print Assumptions C41_relative_humidity_refuted.

(** The wet bulb temperature lies between dew point and temperature, also after rounding all three. *)
Theorem C41_wet_bulb : forall td t p, temperature td -> temperature t -> 0 < p -> td <= t ->
  exists w w' lo hi, wb false (Some td) (Some t) (Some p) = Ok (Some w) /\ wb true (Some td) (Some t) (Some p) = Ok (Some w') /\
    td <= w <= t /\ nearest_tenth td lo /\ nearest_tenth t hi /\ lo <= w' <= hi.
Proof.
  intros td t p Td T P L. destruct (e_of_ok td t p Td) as [e [E V]]. pose proof (vapour_pos _ _ _ _ P V) as E0.
  destruct (bulb_between e td t p E0 P Td L) as [A B]. exists (bulb e td t p), (rounded true (bulb e td t p)), (rounded true td), (rounded true t).
  unfold wb, with3. rewrite E. cbn [bind]. rewrite wet_bulb_bulb. repeat split; auto using rounded_nearest, rounded_mono.
Qed.
Print Assumptions C41_wet_bulb.

(** Specific humidity: between 0 and 1000 g/kg, growing with the vapour pressure; the two conversions
    between it and vapour pressure undo each other. *)
Theorem C41_specific : forall e p, 0 < e -> e < p ->
  (exists q, sh_from_vap false e p = Ok q /\ q = specific e p /\ 0 < q < 1000 /\ vap_from_sh false q p = Ok e) /\
  (forall e', e < e' -> e' < p -> specific e p < specific e' p).
Proof.
  intros e p E P. split.
  - exists (specific e p). unfold sh_from_vap. rewrite Rdivide_ok by (apply Rgt_not_eq; lra). cbn [bind].
    replace (rounded false (1000 * (0.622 * e / (p - (1 - 0.622) * e)))) with (specific e p) by (symmetry; apply specific_model).
    split; [reflexivity|]. split; [reflexivity|].
    assert (S0 : 0 < specific e p) by (apply Rdiv_lt_0_compat; lra). split; [split; [exact S0|apply specific_1000; auto]|].
    unfold vap_from_sh. rewrite Rdivide_ok by (apply Rgt_not_eq; lra). cbn [bind]. unfold rounded. apply f_equal.
    unfold specific. field. split; lra.
  - intros e' L L'. apply (specific_incr e e' p); lra.
Qed.
Print Assumptions C41_specific.
Theorem C41_specific_back : forall q p, 0 < q < 1000 -> 0 < p -> exists e, vap_from_sh false q p = Ok e /\ 0 < e < p /\ sh_from_vap false e p = Ok q.
Proof.
  intros q p Q P. unfold vap_from_sh. rewrite Rdivide_ok by (apply Rgt_not_eq; lra). cbn [bind]. unfold rounded. eexists. split; [reflexivity|].
  set (e := q / 1000 * p / (0.622 + 0.378 * (q / 1000))).
  assert (E : 0 < e < p).
  { split; [apply Rdiv_lt_0_compat; [apply Rmult_lt_0_compat; lra|lra]|]. apply Rlt_div_l; [lra|]. nra. }
  split; [exact E|]. unfold sh_from_vap. rewrite Rdivide_ok by (apply Rgt_not_eq; lra). cbn [bind]. unfold rounded. apply f_equal.
  unfold e. replace 0.622 with (311 / 500) by lra. replace 0.378 with (189 / 500) by lra. field. lra.
Qed.
Print Assumptions C41_specific_back.

(** The dew point computed from the vapour pressure is the one the pressure came from: over water, and over
    ice for temperatures not above freezing and dew points of -0.01 or less. *)
Theorem C41_dew_point : forall td t p, 0 < p -> temperature td ->
  (0 < bulb (over_water p td) td t p -> td_from_vap false (over_water p td) p t = td) /\
  (p <= 1100 -> td <= -0.01 -> t <= 0 -> vapour td t p (over_ice p td) /\ td_from_vap false (over_ice p td) p t = td).
Proof.
  intros td t p P T. split; [intro B; apply td_water; auto|]. intros P' L L'. split.
  - right. split; [|reflexivity]. destruct (Rle_dec td t).
    + destruct (bulb_between (over_water p td) td t p); auto using water_pos. lra.
    + destruct (bulb_between' (over_water p td) td t p); auto using water_pos; lra.
  - apply td_ice; auto.
Qed.
Print Assumptions C41_dew_point.

(** calculate_humidity_variables on a report with dew point, temperature and a normal pressure: each of the five
    variables gets the rounded value of its formula; if the relative humidity exceeds 150 the variables asked
    for are missing; nothing else of the report changes. *)
Theorem C41_report : forall r names q sd td t, wf_report r -> (forall n, In n names -> In n humidity_names) ->
  assoc "SLP" (r_clim r) = Some (Some q, sd) -> getvar r "DPT" = Some td -> getvar r "AT" = Some t ->
  temperature (Q2R td) -> temperature (Q2R t) -> 0 < Q2R q ->
  exists r' e es rel, calculate_humidity_variables r names = Ok r' /\ hum_same r r' /\
    vapour (Q2R td) (Q2R t) (Q2R q) e /\ vapour (Q2R t) (Q2R t) (Q2R q) es /\ nearest_tenth (100 * (e / es)) rel /\
    forall n x, In (n, x) (humidities e es (Q2R td) (Q2R t) (Q2R q)) ->
      (150 < rel /\ In n names -> getvar r' n = None) /\
      (rel <= 150 \/ ~ In n names -> exists v, getvar r' n = Some v /\ nearest_tenth x (Q2R v)).
Proof. exact calculate_ok. Qed.
Print Assumptions C41_report.

(** Without normal pressure the variables asked for are missing; without dew point or temperature all five are. *)
Theorem C41_report_missing : forall r names, wf_report r -> (forall n, In n names -> In n humidity_names) ->
  (forall sd, assoc "SLP" (r_clim r) = Some (None, sd) ->
     exists r', calculate_humidity_variables r names = Ok r' /\ hum_same r r' /\ (forall n, In n names -> getvar r' n = None) /\ (forall n, ~ In n names -> getvar r' n = getvar r n)) /\
  (forall q sd, assoc "SLP" (r_clim r) = Some (Some q, sd) -> getvar r "DPT" = None \/ getvar r "AT" = None ->
     exists r', calculate_humidity_variables r names = Ok r' /\ hum_same r r' /\ (forall n, In n humidity_names -> getvar r' n = None)) /\
  (assoc "SLP" (r_clim r) = None -> calculate_humidity_variables r names = Err KeyError).
Proof. exact calculate_missing. Qed.
Print Assumptions C41_report_missing.
Theorem C41_report_names : forall r names n, In n names -> ~ In n humidity_names -> calculate_humidity_variables r names = Err AssertionError.
Proof. exact calculate_bad_names. Qed.
Print Assumptions C41_report_names.

(** A report with temperature 15, dew point 10 and normal pressure 1013 meets the hypotheses. *)
Definition humid : report := {| r_id := Some "SHIP1"%string; r_uid := None;
  r_data := [Some 2000; Some 1; Some 1; Some 12; Some 50; Some 0; None; None; None; Some 15; None; None; None; None; None; Some 10;
             None; None; None; None; None; None; None; None; None; None]%Q;
  r_dt := None; r_qc := []; r_ext := []; r_clim := [("SLP"%string, (Some 1013%Q, None))] |}.
Example C41_ex : wf_report humid /\ (forall n, In n humidity_names -> In n humidity_names) /\ assoc "SLP"%string (r_clim humid) = Some (Some 1013%Q, None) /\
  getvar humid "DPT" = Some 10%Q /\ getvar humid "AT" = Some 15%Q /\ temperature (Q2R 10) /\ temperature (Q2R 15) /\ 0 < Q2R 1013 /\
  temperature (-10) /\ temperature 0 /\ 0 < bulb (over_water 1013 10) 10 15 1013.
Proof.
  assert (T : temperature 10) by (unfold temperature; lra).
  repeat split; auto; try (unfold Q2R; cbn; lra); try lra.
  destruct (bulb_between (over_water 1013 10) 10 15 1013); auto; try lra. apply water_pos; lra.
Qed.
