(** C70: hours, minutes and time differences in double precision. *)
Require Import ZArith QArith Reals Lra Lia Bool.
From Flocq Require Import Core.Core IEEE754.BinarySingleNaN.
Require Import Verif.S_Calendar Verif.M_Base Verif.M_Calendar Verif.L_Calendar Verif.L_Calendar2 Verif.M_Float Verif.S_Float Verif.L_Float Verif.L_Float2 Verif.L_Float3 Verif.L_Float4.
Open Scope R_scope.

(** The hour and the minute of a time stamp: in range, the hour exact, the minute at most 4e-15 minutes late and less than one early. *)
Theorem C70_minute : forall x h, is_double x h -> 0 <= h < 24 -> exists H M, fhour_minute x = Ok (H, M) /\ (0 <= H <= 23)%Z /\ (0 <= M <= 59)%Z /\
  IZR H <= h < IZR H + 1 /\ IZR M - 4 / 1000000000000000 <= 60 * (h - IZR H) < IZR M + 1.
Proof.
  intros x h I B. destruct (hour_minute_ok x h I B) as [H [M [K [E [B1 [B2 [C1 C2]]]]]]]. exists H, M. split; [exact K|]. split; [exact B1|]. split; [exact B2|]. split.
  - rewrite E. split; [apply Zfloor_lb|apply Zfloor_ub].
  - cbn in C1. split; lra.
Qed.
Print Assumptions C70_minute.
(** For an hour read from a record, as a number n of hundredths: the time stamp is the last whole minute up to that time or, if n
    hundredths of an hour are a whole number of minutes, it may be one minute early. *)
Theorem C70_hundredths : forall n, (0 <= n < 2400)%Z -> exists H M, fhour_minute (fdecode (fq (1 # 100)) n) = Ok (H, M) /\ (0 <= H <= 23)%Z /\ (0 <= M <= 59)%Z /\
  ((60 * H + M = 3 * n / 5)%Z \/ ((n mod 5 = 0)%Z /\ (60 * H + M = 3 * n / 5 - 1)%Z)).
Proof. exact decimal_minute. Qed.
Print Assumptions C70_hundredths.
(** Whole hours are exact. *)
Theorem C70_whole_hours : forall x j, is_double x (IZR j) -> (0 <= j < 24)%Z -> fhour_minute x = Ok (j, 0%Z).
Proof.
  intros x j I B. assert (JB : 0 <= IZR j < 24) by (split; [apply IZR_le|apply IZR_lt]; lia). destruct (hour_minute_ok x _ I JB) as [H [M [K [E [B1 [B2 [C1 C2]]]]]]]. rewrite Zfloor_IZR in E. subst H.
  rewrite K. repeat f_equal. assert (IZR M < 1) by (cbn in C1; lra). assert (M < 1)%Z by now apply lt_IZR. lia.
Qed.
Print Assumptions C70_whole_hours.
(** Finding: 12.35 hours, that is 12:21, is given the time stamp 12:20. *)
Theorem C70_minute_refuted : fhour_minute (fdecode (fq (1 # 100)) 1235) = Ok (12, 20)%Z /\ (1235 * 60 = (12 * 60 + 21) * 100)%Z.
Proof. split; [vm_compute|]; reflexivity. Qed.
Print Assumptions C70_minute_refuted.

(** A day of the calendar in the years 1 to 6000, and an hour of that day. *)
Definition moment (d : date) (x : fl) (h : R) : Prop := valid d /\ (1 <= yr d <= 6000)%Z /\ is_double x h /\ 0 <= h < 24.
Definition between (d1 : date) (x1 : fl) (d2 : date) (x2 : fl) : res fl := ftime_difference (yr d1) (mo d1) (dy d1) x1 (yr d2) (mo d2) (dy d2) x2.
Lemma days_jdd : forall n d1 d2, valid d1 -> valid d2 -> days_later n d1 d2 -> (jdd d2 - jdd d1 = Z.of_nat n)%Z.
Proof. intros n d1 d2 V1 V2 D. apply days_later_iff in D; [|assumption|assumption]. lia. Qed.
(** The difference between two times is the exact one up to 3e-8 hours (a tenth of a millisecond), in both directions alike. *)
Theorem C70_difference : forall n d1 x1 h1 d2 x2 h2, moment d1 x1 h1 -> moment d2 x2 h2 -> days_later n d1 d2 ->
  exists x x' t, between d1 x1 d2 x2 = Ok x /\ is_double x t /\ between d2 x2 d1 x1 = Ok x' /\ is_double x' (- t) /\ Rabs (t - (24 * INR n + (h2 - h1))) <= 3 / 100000000.
Proof.
  intros n d1 x1 h1 d2 x2 h2 [V1 [Y1 [I1 B1]]] [V2 [Y2 [I2 B2]]] D.
  destruct (difference_ok d1 d2 x1 h1 x2 h2 (conj V1 Y1) (conj V2 Y2) I1 I2 B1 B2) as [x [t [X [I [T E]]]]]. destruct (difference_ok d2 d1 x2 h2 x1 h1 (conj V2 Y2) (conj V1 Y1) I2 I1 B2 B1) as [x' [t' [X' [I' [T' E']]]]].
  exists x, x', t. split; [exact X|]. split; [exact I|]. split; [exact X'|]. split.
  - enough (t' = - t) as <- by exact I'. cbv beta zeta in T, T'. pose proof (flater_spec d1 x1 h1 d2 x2 h2 I1 I2) as F1. pose proof (flater_spec d2 x2 h2 d1 x1 h1 I2 I1) as F2.
    destruct (jdd_order d1 d2 V1 V2) as [O1 O2]. destruct (jdd_order d2 d1 V2 V1) as [O3 _].
    destruct (flater d1 x1 d2 x2) eqn:G1, (flater d2 x2 d1 x1) eqn:G2.
    + exfalso. destruct (proj1 F1 eq_refl) as [P|[-> P]]; destruct (proj1 F2 eq_refl) as [Q|[Q1 Q]]; try (apply O1 in Q); try (apply O3 in P); subst; try lia; lra.
    + rewrite T, T'. ring.
    + rewrite T, T'. ring.
    + (* the same moment *) assert (J : jdd d1 = jdd d2). { destruct (Z.lt_trichotomy (jdd d1) (jdd d2)) as [L|[L|L]]; [|exact L|]; exfalso; [apply O1 in L|apply O3 in L]; [enough (false = true) by discriminate; apply F2; now left|enough (false = true) by discriminate; apply F1; now left]. }
      apply O2 in J. subst d2. assert (h1 = h2). { apply Rle_antisym; apply Rnot_lt_le; intros L; enough (false = true) by discriminate; [apply F1|apply F2]; right; (split; [reflexivity|lra]). } subst h2.
      assert (Z0 : rnd 0 = 0) by (apply rnd_id, (dbl_Z 0); lia). rewrite Rminus_diag_eq in T by reflexivity. rewrite Rminus_diag_eq in T' by reflexivity. rewrite T, T', Z0, Rmult_0_r, Z0. ring.
  - rewrite (days_jdd n d1 d2 V1 V2 D), <- INR_IZR_INZ in E. exact E.
Qed.
Print Assumptions C70_difference.
(** Its sign follows the order of time. *)
Theorem C70_sign : forall d1 x1 h1 d2 x2 h2, moment d1 x1 h1 -> moment d2 x2 h2 -> earlier d1 d2 \/ (d1 = d2 /\ h1 <= h2) ->
  exists x t, between d1 x1 d2 x2 = Ok x /\ is_double x t /\ 0 <= t.
Proof.
  intros d1 x1 h1 d2 x2 h2 [V1 [Y1 [I1 B1]]] [V2 [Y2 [I2 B2]]] D.
  destruct (difference_ok d1 d2 x1 h1 x2 h2 (conj V1 Y1) (conj V2 Y2) I1 I2 B1 B2) as [x [t [X [I [T _]]]]]. exists x, t. split; [exact X|]. split; [exact I|]. cbv beta zeta in T.
  destruct (jdd_order d1 d2 V1 V2) as [O1 O2]. destruct (jdd_order d2 d1 V2 V1) as [O3 O4].
  destruct (flater d1 x1 d2 x2) eqn:G.
  - exfalso. apply (flater_spec d1 x1 h1 d2 x2 h2 I1 I2) in G. destruct D as [D|[-> D]], G as [G|[G1 G]]; try (apply O1 in D); try (apply O3 in G); subst; try lia; lra.
  - rewrite T. apply diff_nonneg, day_mono; [assumption|assumption|]. destruct D as [D|[-> D]]; [left; now apply O1|right; now split].
Qed.
Print Assumptions C70_sign.
(** Times on different days at the same hour, from the year 1031 on, are exactly 24 hours per day apart. *)
Theorem C70_whole_days : forall n d1 x1 d2 x2 h, moment d1 x1 h -> moment d2 x2 h -> days_later n d1 d2 -> (1031 <= yr d1)%Z ->
  exists x, between d1 x1 d2 x2 = Ok x /\ is_double x (24 * INR n).
Proof.
  intros n d1 x1 d2 x2 h [V1 [Y1 [I1 B1]]] [V2 [Y2 [I2 B2]]] D L.
  destruct (difference_ok d1 d2 x1 h x2 h (conj V1 Y1) (conj V2 Y2) I1 I2 B1 B2) as [x [t [X [I [T _]]]]]. exists x. split; [exact X|]. cbv beta zeta in T.
  pose proof (days_jdd n d1 d2 V1 V2 D) as N. destruct (years_j d1 (conj V1 Y1)) as [_ J1]. destruct (years_j d2 (conj V2 Y2)) as [_ J2].
  assert (J3 : (2097152 <= jdd d1)%Z). { destruct (valid_bounds d1 V1) as [M DD]. pose proof (jd_bounds (yr d1) (mo d1) (dy d1) 1031 6000 M DD ltac:(lia) ltac:(lia)) as K. unfold jdd. cbn in K. lia. }
  destruct (part_ok x1 h I1 B1) as [_ [F _]]. rewrite (day_grid (jdd d1) (rnd (h / 24))) in T by (lia || exact F). rewrite (day_grid (jdd d2) (rnd (h / 24))) in T by (lia || exact F). set (g := IZR (ZnearestE _) * _) in T.
  destruct (flater d1 x1 d2 x2) eqn:G.
  - exfalso. apply (flater_spec d1 x1 h d2 x2 h I1 I2) in G. destruct G as [G|[_ G]]; [|lra]. destruct (jdd_order d2 d1 V2 V1) as [O _]. apply O in G. lia.
  - replace (IZR (jdd d2) + g - (IZR (jdd d1) + g)) with (IZR (Z.of_nat n)) in T by (rewrite <- N, minus_IZR; ring). rewrite (rnd_id (IZR (Z.of_nat n))) in T by (apply dbl_Z; lia). rewrite <- mult_IZR, rnd_id in T by (apply dbl_Z; lia).
    rewrite T, mult_IZR in I. now rewrite INR_IZR_INZ.
Qed.
Print Assumptions C70_whole_days.
(** Hours outside a day are refused. *)
Theorem C70_hours : forall d1 x1 h1 d2 x2 h2, is_double x1 h1 -> is_double x2 h2 -> ~ (0 <= h1 < 24 /\ 0 <= h2 < 24) -> between d1 x1 d2 x2 = Err AssertionError.
Proof.
  intros d1 x1 h1 d2 x2 h2 I1 I2 B. unfold between, ftime_difference. rewrite (fle_is _ _ _ _ (is_fz 0 ltac:(lia)) I1), (flt_is _ _ _ _ I1 (is_fz 24 ltac:(lia))), (fle_is _ _ _ _ (is_fz 0 ltac:(lia)) I2), (flt_is _ _ _ _ I2 (is_fz 24 ltac:(lia))).
  destruct (Rle_bool_spec 0 h1), (Rlt_bool_spec h1 24), (Rle_bool_spec 0 h2), (Rlt_bool_spec h2 24); cbn [andb py_assert bind]; try reflexivity. exfalso. apply B. lra.
Qed.
Print Assumptions C70_hours.
(** Cases in point: 31 December 2003 at 12 hours and 1 January 2004 at 18 hours. *)
Example C70_ex : exists d1 d2, moment d1 (fz 12) 12 /\ moment d2 (fz 18) 18 /\ days_later 1 d1 d2 /\ earlier d1 d2 /\ (1031 <= yr d1)%Z /\ exists x, between d1 (fz 12) d2 (fz 18) = Ok x /\ feq x (fz 30) = true.
Proof.
  exists (mkdate 2003 12 31), (mkdate 2004 1 1). unfold moment. cbn [yr mo dy]. repeat split; try lia; try lra; try (apply (is_fz 12); lia); try (apply (is_fz 18); lia).
  - exists 31%Z. cbn. split; [|lia]. apply mh_31. lia.
  - exists 31%Z. cbn. split; [|lia]. apply mh_31. lia.
  - eapply dl_S; [apply dl_0|]. apply (next_year 2003).
  - unfold earlier. cbn. lia.
  - assert (E : match between (mkdate 2003 12 31) (fz 12) (mkdate 2004 1 1) (fz 18) with Ok x => feq x (fz 30) | Err _ => false end = true) by (vm_compute; reflexivity).
    destruct (between _ _ _ _) as [x|]; [|discriminate E]. exists x. split; [reflexivity|exact E].
Qed.
(** Finding: two different times of a day, 1e-9 hours apart, are no hours apart; so a difference of zero does not mean the same time. *)
Theorem C70_instant_refuted : let x1 := fz 12 in let x2 := fadd (fz 12) (fdiv (fz 1) (fz 1000000000)) in flt x1 x2 = true /\ exists x, between (mkdate 2004 1 1) x1 (mkdate 2004 1 1) x2 = Ok x /\ feq x (fz 0) = true.
Proof. cbv zeta. split; [vm_compute; reflexivity|].
  assert (E : match between (mkdate 2004 1 1) (fz 12) (mkdate 2004 1 1) (fadd (fz 12) (fdiv (fz 1) (fz 1000000000))) with Ok x => feq x (fz 0) | Err _ => false end = true) by (vm_compute; reflexivity).
  destruct (between _ _ _ _) as [x|]; [|discriminate E]. exists x. split; [reflexivity|exact E].
Qed.
Print Assumptions C70_instant_refuted.
