(** Lemmas about the day tests. *)
Require Import ZArith QArith Qround List Bool Lia Lqa.
Require Import Verif.M_Base Verif.L_Base Verif.M_Calendar Verif.S_Calendar Verif.L_Calendar Verif.L_Calendar2 Verif.M_Sun Verif.S_Sun.
Import ListNotations.
Open Scope Z_scope.

Lemma py_nth_prefix : forall y m, 1 <= m <= 12 -> exists n, py_nth (get_month_lengths y) (m - 1) = Ok n /\ month_has y m n.
Proof. intros y m H. destruct (month_has_exists y m H) as [n M]. exists n. split; [|exact M]. apply (proj1 (month_has_iff _ _ _) M). Qed.

Lemma months_sum : forall y m, 1 <= m <= 12 -> jd y m 1 - jd y 1 1 = sumZ (firstn (Z.to_nat (m - 1)) (get_month_lengths y)).
Proof.
  intros y m H. 
  assert (St : forall k, 1 <= k < 12 -> jd y (k + 1) 1 - jd y k 1 = nth (Z.to_nat (k - 1)) (get_month_lengths y) 0).
  { intros k Hk. destruct (py_nth_prefix y k ltac:(lia)) as [n [E M]]. pose proof (jd_next_month y k n M ltac:(lia)) as J. rewrite (jd_day y k n) in J.
    pose proof (py_nth_Ok_nonneg _ _ _ _ E ltac:(lia)) as P. rewrite (nth_error_nth _ _ 0 P). lia. }
  unfold get_month_lengths in *. destruct (py_isleap y);
    assert (C : m = 1 \/ m = 2 \/ m = 3 \/ m = 4 \/ m = 5 \/ m = 6 \/ m = 7 \/ m = 8 \/ m = 9 \/ m = 10 \/ m = 11 \/ m = 12) by lia;
    pose proof (St 1 ltac:(lia)) as S1; pose proof (St 2 ltac:(lia)) as S2; pose proof (St 3 ltac:(lia)) as S3; pose proof (St 4 ltac:(lia)) as S4;
    pose proof (St 5 ltac:(lia)) as S5; pose proof (St 6 ltac:(lia)) as S6; pose proof (St 7 ltac:(lia)) as S7; pose proof (St 8 ltac:(lia)) as S8;
    pose proof (St 9 ltac:(lia)) as S9; pose proof (St 10 ltac:(lia)) as S10; pose proof (St 11 ltac:(lia)) as S11; clear St;
    change (1 + 1) with 2 in *; change (2 + 1) with 3 in *; change (3 + 1) with 4 in *; change (4 + 1) with 5 in *; change (5 + 1) with 6 in *; change (6 + 1) with 7 in *;
    change (7 + 1) with 8 in *; change (8 + 1) with 9 in *; change (9 + 1) with 10 in *; change (10 + 1) with 11 in *; change (11 + 1) with 12 in *;
    change (Z.to_nat (1 - 1)) with 0%nat in S1; change (Z.to_nat (2 - 1)) with 1%nat in S2; change (Z.to_nat (3 - 1)) with 2%nat in S3; change (Z.to_nat (4 - 1)) with 3%nat in S4;
    change (Z.to_nat (5 - 1)) with 4%nat in S5; change (Z.to_nat (6 - 1)) with 5%nat in S6; change (Z.to_nat (7 - 1)) with 6%nat in S7; change (Z.to_nat (8 - 1)) with 7%nat in S8;
    change (Z.to_nat (9 - 1)) with 8%nat in S9; change (Z.to_nat (10 - 1)) with 9%nat in S10; change (Z.to_nat (11 - 1)) with 10%nat in S11; cbn [nth] in *;
    destruct C as [->|[->|[->|[->|[->|[->|[->|[->|[->|[->|[->| ->]]]]]]]]]]];
    match goal with |- _ = sumZ ?l => let v := eval vm_compute in (sumZ l) in change (sumZ l) with v end; lia.
Qed.

Lemma jan1 : forall y, valid (mkdate y 1 1).
Proof. intro y. exists 31. split; [constructor; cbn [mo]; lia|cbn [dy]; lia]. Qed.

Lemma dayinyear_ok : forall d, valid d -> exists k, dayinyear (yr d) (mo d) (dy d) = Ok k /\ day_number d k /\ 1 <= k <= 366.
Proof.
  intros d V. pose proof (jd_in_year d V) as R. pose proof (valid_bounds d V) as [B1 B2].
  assert (Y : jd (yr d) 12 31 - jd (yr d) 1 1 <= 365).
  { rewrite (jd_day (yr d) 12 31). pose proof (months_sum (yr d) 12 ltac:(lia)) as M. unfold get_month_lengths in M.
    destruct (py_isleap (yr d)); match type of M with _ = sumZ ?l => let v := eval vm_compute in (sumZ l) in change (sumZ l) with v in M end; lia. }
  exists (jdd d - jd (yr d) 1 1 + 1). assert (RK : 1 <= jdd d - jd (yr d) 1 1 + 1 <= 366) by lia. split; [|split; [|exact RK]].
  - unfold dayinyear. rewrite (proj2 (Z.leb_le 1 (mo d))), (proj2 (Z.leb_le (mo d) 12)), (proj2 (Z.leb_le 1 (dy d))) by lia. cbn [andb py_assert bind].
    destruct V as [n [M D]]. rewrite (proj2 (proj1 (month_has_iff _ _ _) M)). cbn [bind]. rewrite (proj2 (Z.leb_le (dy d) n)) by lia. cbn [py_assert bind].
    pose proof (months_sum (yr d) (mo d) B1) as MS.
    assert (E : (if 1 <? mo d then dy d + sumZ (firstn (Z.to_nat (mo d - 1)) (get_month_lengths (yr d))) else dy d) = jdd d - jd (yr d) 1 1 + 1).
    { unfold jdd. rewrite (jd_day (yr d) (mo d) (dy d)). destruct (1 <? mo d) eqn:Q0; [lia|]. assert (mo d = 1) as -> by lia. lia. }
    rewrite E. rewrite (proj2 (Z.leb_le 1 _)), (proj2 (Z.leb_le _ 366)) by lia. reflexivity.
  - split; [lia|]. apply days_later_iff; [apply jan1|exact V|]. unfold jdd at 2. cbn [yr mo dy]. lia.
Qed.
Lemma day_number_fun : forall d k k', day_number d k -> day_number d k' -> k = k'.
Proof. intros d k k' [A B] [A' B']. apply days_later_jdd in B, B'. lia. Qed.
Lemma dayinyear_number : forall d k, valid d -> day_number d k -> dayinyear (yr d) (mo d) (dy d) = Ok k /\ 1 <= k <= 366.
Proof. intros d k V D. destruct (dayinyear_ok d V) as [k' [E [D' R]]]. rewrite (day_number_fun d k k' D D'). auto. Qed.

Lemma day_number_prev : forall d d' k, next d' d -> day_number d k -> 1 < k -> yr d' = yr d /\ day_number d' (k - 1).
Proof.
  intros d d' k N [A B] K. pose proof (next_valid_l _ _ N) as V'. pose proof (jdd_next _ _ N) as J. pose proof (days_later_jdd _ _ _ B) as E.
  assert (Y : yr d' = yr d).
  { inversion N; subst; cbn [yr]; auto. exfalso. apply days_later_jdd in B. cbn [yr] in B. lia. }
  split; [exact Y|]. split; [lia|]. apply days_later_iff; [apply jan1|exact V'|]. rewrite Y. lia.
Qed.
Lemma day_number_newyear : forall d d', next d' d -> day_number d 1 -> d' = mkdate (yr d - 1) 12 31.
Proof.
  intros d d' N [_ B]. apply days_later_jdd in B. pose proof (next_valid_r _ _ N) as V.
  assert (E : d = mkdate (yr d) 1 1) by (apply jdd_inj; [exact V|apply jan1|]; change (Z.of_nat (Z.to_nat (1 - 1))) with 0 in B; lia).
  inversion N as [y m dd n M D X1 X2|y m n M Lm X1 X2|y X1 X2]; subst; cbn [yr] in *.
  - injection E as _ E. lia.
  - injection E as E. pose proof (month_has_range _ _ _ M). lia.
  - f_equal. lia.
Qed.

Lemma off_zero_aside : forall x, aside x (off_zero x).
Proof. intro x. unfold off_zero. destruct (Qeqb x 0) eqn:E; qprop; [right|left]; split; auto; reflexivity. Qed.
Lemma aside_fun : forall x a b, aside x a -> aside x b -> (a == b)%Q.
Proof. intros x a b [[A A']|[A A']] [[B B']|[B B']]; try contradiction; rewrite A', B'; reflexivity. Qed.
Lemma off_zero_range : forall la, (-90 <= la <= 90)%Q -> (-90 <= off_zero la <= 90)%Q.
Proof. intros la H. unfold off_zero. destruct (Qeqb la 0); lra. Qed.

Section Tests.
Variable elev : Z -> Z -> Q -> Q -> Q -> Q -> Q.
Hypothesis He : elevation_like elev.

Lemma sun_ok : forall y k hh mm la lo, 1 <= k <= 366 -> (0 <= hh /\ hh < 24)%Q -> (0 <= mm /\ mm < 60)%Q -> (-90 <= la <= 90)%Q ->
  sun_elevation elev y k hh mm la lo = Ok (elev y k hh mm la lo).
Proof.
  intros y k hh mm la lo K [H1 H2] [M1 M2] [L1 L2]. unfold sun_elevation.
  rewrite (proj2 (Z.ltb_lt 0 k)), (proj2 (Z.leb_le k 366)), (proj2 (Qleb_true 0 hh) H1), (proj2 (Qltb_true hh 24) H2), (proj2 (Qleb_true 0 mm) M1), (proj2 (Qltb_true mm 60) M2), (proj2 (Qleb_true la 90) L2), (proj2 (Qleb_true (-90) la) L1) by lia.
  cbn [andb py_assert bind]. destruct (proj2 He y k hh mm la lo) as [E1 E2]. rewrite (proj2 (Qleb_true _ 180) E2), (proj2 (Qleb_true (-180) _) E1). reflexivity.
Qed.
Lemma sun_bad_hour : forall y k hh mm la lo, 1 <= k <= 366 -> ~ (0 <= hh /\ hh < 24)%Q -> sun_elevation elev y k hh mm la lo = Err AssertionError.
Proof.
  intros y k hh mm la lo K H. unfold sun_elevation. rewrite (proj2 (Z.ltb_lt 0 k)), (proj2 (Z.leb_le k 366)) by lia. cbn [andb py_assert bind].
  destruct (Qleb 0 hh) eqn:A; [|reflexivity]. destruct (Qltb hh 24) eqn:B; [|reflexivity]. qprop. exfalso. apply H. split; assumption.
Qed.

Lemma minutes_ok : forall h, (0 <= (h - inject_Z (Qfloor h)) * 60 /\ (h - inject_Z (Qfloor h)) * 60 < 60)%Q.
Proof. intro h. pose proof (Qfloor_le h). pose proof (Qlt_floor h) as P. rewrite inject_Z_plus in P. change (inject_Z 1) with 1%Q in P. split; lra. Qed.

Lemma day_test_guards : forall d h la, valid d -> (0 <= h <= 24)%Q -> (-90 <= la <= 90)%Q ->
  (1 <=? mo d) && (mo d <=? 12) = true /\ (1 <=? dy d) && (dy d <=? 31) = true /\ Qleb 0 h && Qleb h 24 = true /\ Qleb la 90 && Qleb (-90) la = true.
Proof.
  intros d h la V [H1 H2] [L1 L2]. pose proof (valid_bounds d V) as [B1 B2].
  rewrite (proj2 (Qleb_true 0 h) H1), (proj2 (Qleb_true h 24) H2), (proj2 (Qleb_true la 90) L2), (proj2 (Qleb_true (-90) la) L1). 
  split; [lia|]. split; [lia|]. split; reflexivity.
Qed.

Lemma day_test_ok : forall d h la lo since d' hh mm k la' lo',
  valid d -> (0 <= h <= 24)%Q -> (-90 <= la <= 90)%Q ->
  instant_before d h since d' hh mm -> hour_ok hh -> day_number d' k -> aside la la' -> aside lo lo' ->
  exists x, day_test elev (Some (yr d)) (Some (mo d)) (Some (dy d)) (Some h) (Some la) lo since = Ok x /\
    ((x = 1 /\ (0 < elev (yr d') k hh mm la' lo')%Q) \/ (x = 0 /\ (elev (yr d') k hh mm la' lo' <= 0)%Q)).
Proof.
  intros d h la lo since d' hh mm k la' lo' V H L [Em I] [H1 H2] D Al Ao. destruct (day_test_guards d h la V H L) as [G1 [G2 [G3 G4]]].
  unfold day_test. rewrite G1, G2, G3, G4. cbn [py_assert bind]. destruct (dayinyear_ok d V) as [k0 [E0 [D0 K0]]]. rewrite E0. cbn [bind].
  pose proof (minutes_ok h) as MO. pose proof (off_zero_range la L) as LR.
  assert (FIN : forall e, (e == elev (yr d') k hh mm la' lo')%Q -> exists x, Ok (if Qltb 0 e then 1 else 0) = Ok x /\ ((x = 1 /\ (0 < elev (yr d') k hh mm la' lo')%Q) \/ (x = 0 /\ (elev (yr d') k hh mm la' lo' <= 0)%Q))).
  { intros e E. eexists. split; [reflexivity|]. destruct (Qltb 0 e) eqn:Q0; qprop; [left|right]; (split; [reflexivity|lra]). }
  assert (EQ : forall hx, (hx == hh)%Q -> (elev (yr d') k hx ((h - inject_Z (Qfloor h)) * 60) (off_zero la) (off_zero lo) == elev (yr d') k hh mm la' lo')%Q).
  { intros hx X. apply (proj1 He); [exact X|symmetry; exact Em|eapply aside_fun; [apply off_zero_aside|exact Al]|eapply aside_fun; [apply off_zero_aside|exact Ao]]. }
  destruct I as [[-> [Eh P]]|[N [Eh P]]].
  - rewrite (proj2 (Qltb_false (inject_Z (Qfloor h) - since) 0)) by lra. cbn [bind]. rewrite <- (day_number_fun d k k0 D D0) in *. rewrite sun_ok by (auto; split; lra).
    cbn [bind]. apply FIN. apply EQ. lra.
  - rewrite (proj2 (Qltb_true (inject_Z (Qfloor h) - since) 0)) by lra. destruct (k0 - 1 <=? 0) eqn:Q0.
    + assert (k0 = 1) by lia. subst k0. pose proof (day_number_newyear d d' N D0) as ->. cbn [yr] in *.
      destruct (dayinyear_number _ k (next_valid_l _ _ N) D) as [E1 K1]. cbn [yr mo dy] in E1. rewrite E1. cbn [bind]. rewrite sun_ok by (auto; split; lra).
      cbn [bind]. apply FIN. apply EQ. lra.
    + destruct (day_number_prev d d' k0 N D0 ltac:(lia)) as [Y D1]. rewrite <- (day_number_fun d' k (k0 - 1) D D1). cbn [bind].
      destruct (dayinyear_number d' k (next_valid_l _ _ N) D) as [_ K1]. rewrite <- Y. rewrite sun_ok by (auto; split; lra).
      cbn [bind]. apply FIN. apply EQ. lra.
Qed.

(** The instant exists for the usual arguments, and is [since] hours before. *)
Lemma instant_exists : forall d h since, valid d -> (0 <= h)%Q -> (h < 24)%Q -> (0 <= since <= 24)%Q ->
  exists d' hh mm, instant_before d h since d' hh mm /\ hour_ok hh /\ (0 <= mm /\ mm < 60)%Q /\ valid d' /\
    (24 * inject_Z (jdd d' - jdd d) + hh + mm / 60 == h - since)%Q.
Proof.
  intros d h since V H1 H2 [S1 S2]. pose proof (minutes_ok h) as MO. pose proof (Qfloor_le h) as F1. pose proof (Qlt_floor h) as F2. rewrite inject_Z_plus in F2. change (inject_Z 1) with 1%Q in F2.
  assert (F0 : (0 <= inject_Z (Qfloor h))%Q). { change 0%Q with (inject_Z 0). apply inject_Z_le. change 0 with (Qfloor 0). now apply Qfloor_resp_le. }
  assert (F3 : (inject_Z (Qfloor h) <= 23)%Q).
  { change 23%Q with (inject_Z 23). apply inject_Z_le. assert (Qfloor h < 24); [|lia]. apply inject_Z_lt_inv. change (inject_Z 24) with 24%Q. lra. }
  destruct (Qlt_le_dec (inject_Z (Qfloor h) - since) 0) as [L|L].
  - assert (P : exists d', next d' d).
    { destruct d as [y m dd]. destruct V as [n [M D]]. cbn [yr mo dy] in *. pose proof (month_has_range _ _ _ M).
      destruct (Z.eq_dec dd 1) as [->|N1].
      - destruct (Z.eq_dec m 1) as [->|Nm].
        + exists (mkdate (y - 1) 12 31). replace y with (y - 1 + 1) at 2 by lia. apply next_year.
        + destruct (month_has_exists y (m - 1) ltac:(lia)) as [n' M']. exists (mkdate y (m - 1) n'). replace m with (m - 1 + 1) at 2 by lia. eapply next_month; [exact M'|lia].
      - exists (mkdate y m (dd - 1)). replace dd with (dd - 1 + 1) at 2 by lia. eapply next_day; [exact M|lia]. }
    destruct P as [d' N]. exists d', (inject_Z (Qfloor h) - since + 24)%Q, ((h - inject_Z (Qfloor h)) * 60)%Q.
    split; [split; [reflexivity|right; split; [exact N|split; [reflexivity|lra]]]|]. split; [split; lra|]. split; [exact MO|]. split; [eapply next_valid_l; eauto|].
    rewrite (jdd_next _ _ N). replace (jdd d' - (jdd d' + 1)) with (-1) by lia. change (inject_Z (-1)) with (-1)%Q. field.
  - exists d, (inject_Z (Qfloor h) - since)%Q, ((h - inject_Z (Qfloor h)) * 60)%Q.
    split; [split; [reflexivity|left; split; [reflexivity|split; [reflexivity|lra]]]|]. split; [split; lra|]. split; [exact MO|]. split; [exact V|].
    rewrite Z.sub_diag. change (inject_Z 0) with 0%Q. field.
Qed.

Lemma day_test_no_year : forall m d h la lo since, 1 <= m <= 12 -> 1 <= d <= 31 -> (0 <= h <= 24)%Q -> (-90 <= la <= 90)%Q ->
  day_test elev None (Some m) (Some d) (Some h) (Some la) lo since = Ok 0.
Proof.
  intros m d h la lo since M D [H1 H2] [L1 L2]. unfold day_test.
  rewrite (proj2 (Qleb_true 0 h) H1), (proj2 (Qleb_true h 24) H2), (proj2 (Qleb_true la 90) L2), (proj2 (Qleb_true (-90) la) L1). 
  replace ((1 <=? m) && (m <=? 12)) with true by lia. replace ((1 <=? d) && (d <=? 31)) with true by lia. reflexivity.
Qed.
Lemma day_test_rejects : forall y m d h la lo since,
  ~ (1 <= m <= 12) \/ ~ (1 <= d <= 31) \/ ~ (0 <= h <= 24)%Q \/ ~ (-90 <= la <= 90)%Q \/ (exists y0, y = Some y0 /\ ~ valid (mkdate y0 m d)) ->
  day_test elev y (Some m) (Some d) (Some h) (Some la) lo since = Err AssertionError.
Proof.
  intros y m d h la lo since H. unfold day_test.
  destruct ((1 <=? m) && (m <=? 12)) eqn:A; [|reflexivity]. destruct ((1 <=? d) && (d <=? 31)) eqn:B; [|reflexivity].
  destruct (Qleb 0 h && Qleb h 24) eqn:C; [|reflexivity]. destruct (Qleb la 90 && Qleb (-90) la) eqn:D; [|reflexivity]. cbn [py_assert bind].
  apply andb_true_iff in A, B, C, D. destruct A, B, C as [C1 C2], D as [D1 D2]. qprop.
  destruct H as [H|[H|[H|[H|[y0 [-> H]]]]]]; try lia; try (exfalso; apply H; split; assumption).
  assert (E : dayinyear y0 m d = Err AssertionError); [|rewrite E; reflexivity].
  unfold dayinyear. replace ((1 <=? m) && (m <=? 12)) with true by lia. replace (1 <=? d) with true by lia. cbn [py_assert bind].
  destruct (py_nth_prefix y0 m ltac:(lia)) as [n [E M]]. rewrite E. cbn [bind]. destruct (d <=? n) eqn:Q0; [|reflexivity].
  exfalso. apply H. exists n. split; [exact M|]. cbn [dy]. lia.
Qed.
(** Hour 24 without going back. *)
Lemma day_test_24 : forall d la lo, valid d -> (-90 <= la <= 90)%Q ->
  day_test elev (Some (yr d)) (Some (mo d)) (Some (dy d)) (Some 24%Q) (Some la) lo 0 = Err AssertionError.
Proof.
  intros d la lo V L. destruct (day_test_guards d 24 la V ltac:(split; lra) L) as [G1 [G2 [G3 G4]]].
  unfold day_test. rewrite G1, G2, G3, G4. cbn [py_assert bind]. destruct (dayinyear_ok d V) as [k0 [E0 [D0 K0]]]. rewrite E0. cbn [bind].
  change (Qltb (inject_Z (Qfloor 24) - 0) 0) with false. cbn [bind]. rewrite sun_bad_hour; [reflexivity|exact K0|]. intros [_ X]. vm_compute in X. discriminate.
Qed.

(* ---- the tracking version ---- *)

Lemma track_day_ok : forall d h la lo k la' lo' lim, valid d -> hour_ok h -> (-90 <= la <= 90)%Q -> day_number d k -> aside la la' -> aside lo lo' ->
  exists b, track_day_test elev (Some (yr d)) (Some (mo d)) (Some (dy d)) (Some h) (Some la) (Some lo) lim = Ok b /\
    (b = true <-> (lim < elev (yr d) k (inject_Z (Qfloor h)) ((h - inject_Z (Qfloor h)) * 60) la' lo')%Q).
Proof.
  intros d h la lo k la' lo' lim V [H1 H2] L D Al Ao. destruct (day_test_guards d h la V ltac:(split; lra) L) as [G1 [G2 [G3 G4]]].
  unfold track_day_test. rewrite G1, G2, G3, G4. cbn [py_assert bind]. destruct (dayinyear_number d k V D) as [E0 K0]. rewrite E0. cbn [bind].
  assert (F0 : (0 <= inject_Z (Qfloor h))%Q). { change 0%Q with (inject_Z 0). apply inject_Z_le. change 0 with (Qfloor 0). now apply Qfloor_resp_le. }
  pose proof (Qfloor_le h) as F1.
  rewrite sun_ok; [|exact K0|split; lra|apply minutes_ok|now apply off_zero_range]. cbn [bind]. eexists. split; [reflexivity|]. rewrite Qltb_true.
  rewrite (proj1 He (yr d) k _ (inject_Z (Qfloor h)) _ ((h - inject_Z (Qfloor h)) * 60)%Q (off_zero la) la' (off_zero lo) lo'); try reflexivity; eapply aside_fun; eauto; apply off_zero_aside.
Qed.
Lemma track_day_24 : forall d la lo lim, valid d -> (-90 <= la <= 90)%Q ->
  track_day_test elev (Some (yr d)) (Some (mo d)) (Some (dy d)) (Some 24%Q) (Some la) (Some lo) lim = Err AssertionError.
Proof.
  intros d la lo lim V L. destruct (day_test_guards d 24 la V ltac:(split; lra) L) as [G1 [G2 [G3 G4]]].
  unfold track_day_test. rewrite G1, G2, G3, G4. cbn [py_assert bind]. destruct (dayinyear_ok d V) as [k0 [E0 [D0 K0]]]. rewrite E0. cbn [bind].
  rewrite sun_bad_hour; [reflexivity|exact K0|]. intros [_ X]. vm_compute in X. discriminate.
Qed.
End Tests.
