(** Property theorems C01-C06 (calendar). Statements only; proofs are in L_Calendar*.v. *)
Require Import String ZArith QArith List Bool Lia Lqa Sorted.
Require Import Verif.M_Base Verif.M_Calendar Verif.S_Calendar Verif.L_Calendar Verif.L_Calendar2.
Import ListNotations.
Open Scope Z_scope.

(* ------------------------------------------------------------------ C01 *)

(** The day after any valid date has exactly the next Julian day number. *)
Theorem C01_jul_day_next : forall d d', next d d' ->
  exists j, jul_day (yr d) (mo d) (dy d) = Ok j /\ jul_day (yr d') (mo d') (dy d') = Ok (j + 1).
Proof. exact jul_day_next_lemma. Qed.
Print Assumptions C01_jul_day_next.

Example C01_jul_day_next_ex : next (mkdate 1900 2 28) (mkdate 1900 3 1) /\ next (mkdate 1999 12 31) (mkdate 2000 1 1).
Proof.
  split.
  - apply (next_month 1900 2 28); [|lia]. apply mh_28.
    intros [_ [H|H]]; [apply H; exists 19; reflexivity | destruct H as [k H]; lia].
  - apply (next_year 1999).
Qed.

(** d' is n days after d exactly when the Julian day numbers differ by n. *)
Theorem C01_jul_day_counts_days : forall n d d', valid d -> valid d' ->
  (days_later n d d' <->
   exists j, jul_day (yr d) (mo d) (dy d) = Ok j /\ jul_day (yr d') (mo d') (dy d') = Ok (j + Z.of_nat n)).
Proof. exact jul_day_counts_days. Qed.
Print Assumptions C01_jul_day_counts_days.

(** Later valid dates have larger numbers, different dates different numbers. *)
Theorem C01_jul_day_order : forall d d', valid d -> valid d' ->
  exists j j', jul_day (yr d) (mo d) (dy d) = Ok j /\ jul_day (yr d') (mo d') (dy d') = Ok j' /\
    (earlier d d' <-> j < j') /\ (d = d' <-> j = j').
Proof. exact jul_day_order. Qed.
Print Assumptions C01_jul_day_order.

(** Months outside 1..12 or days outside 1..31 raise. *)
Theorem C01_jul_day_rejects : forall y m d, ~ (1 <= m <= 12 /\ 1 <= d <= 31) ->
  jul_day y m d = Err AssertionError.
Proof. exact jul_day_err. Qed.
Print Assumptions C01_jul_day_rejects.

(** The absolute value is the usual astronomical Julian day number. *)
Example C01_anchor : jul_day 2000 1 1 = Ok 2451545 /\ valid (mkdate 2000 1 1) /\ valid (mkdate 2004 2 29).
Proof.
  split; [reflexivity|]. split.
  - exists 31; split; [constructor; simpl; lia | simpl; lia].
  - exists 29; split; [|simpl; lia]. apply mh_29. split; [exists 501; reflexivity|].
    left. intros [k H]. simpl in H. lia.
Qed.

(* ------------------------------------------------------------------ C02 *)

(** If d2 is n days after d1, the difference of (d1,h1) and (d2,h2) is 24 n + h2 - h1 hours. *)
Theorem C02_time_difference_elapsed : forall n d1 d2 h1 h2,
  valid d1 -> days_later n d1 d2 -> hour_ok h1 -> hour_ok h2 ->
  exists t, time_difference (yr d1) (mo d1) (dy d1) (Some h1) (yr d2) (mo d2) (dy d2) (Some h2) = Ok (Some t) /\
    (t == 24 * inject_Z (Z.of_nat n) + (h2 - h1))%Q.
Proof. exact time_difference_elapsed. Qed.
Print Assumptions C02_time_difference_elapsed.

Example C02_elapsed_ex : valid (mkdate 1999 12 31) /\ days_later 1 (mkdate 1999 12 31) (mkdate 2000 1 1) /\
  hour_ok (23#2) /\ hour_ok 0.
Proof.
  split; [exists 31; split; [constructor; simpl; lia | simpl; lia]|].
  split; [econstructor; [constructor | apply (next_year 1999)]|].
  unfold hour_ok. repeat split; lra.
Qed.

Theorem C02_time_difference_antisym : forall d1 d2 h1 h2,
  valid d1 -> valid d2 -> hour_ok h1 -> hour_ok h2 ->
  exists t t', time_difference (yr d1) (mo d1) (dy d1) (Some h1) (yr d2) (mo d2) (dy d2) (Some h2) = Ok (Some t) /\
   time_difference (yr d2) (mo d2) (dy d2) (Some h2) (yr d1) (mo d1) (dy d1) (Some h1) = Ok (Some t') /\
   (t' == - t)%Q.
Proof. exact time_difference_antisym. Qed.
Print Assumptions C02_time_difference_antisym.

Theorem C02_time_difference_additive : forall d1 d2 d3 h1 h2 h3,
  valid d1 -> valid d2 -> valid d3 -> hour_ok h1 -> hour_ok h2 -> hour_ok h3 ->
  exists t12 t23 t13,
   time_difference (yr d1) (mo d1) (dy d1) (Some h1) (yr d2) (mo d2) (dy d2) (Some h2) = Ok (Some t12) /\
   time_difference (yr d2) (mo d2) (dy d2) (Some h2) (yr d3) (mo d3) (dy d3) (Some h3) = Ok (Some t23) /\
   time_difference (yr d1) (mo d1) (dy d1) (Some h1) (yr d3) (mo d3) (dy d3) (Some h3) = Ok (Some t13) /\
   (t13 == t12 + t23)%Q.
Proof. exact time_difference_additive. Qed.
Print Assumptions C02_time_difference_additive.

(** Positive exactly when the second instant is later, zero exactly for equal instants. *)
Theorem C02_time_difference_sign : forall d1 d2 h1 h2,
  valid d1 -> valid d2 -> hour_ok h1 -> hour_ok h2 ->
  exists t, time_difference (yr d1) (mo d1) (dy d1) (Some h1) (yr d2) (mo d2) (dy d2) (Some h2) = Ok (Some t) /\
   ((0 < t)%Q <-> earlier d1 d2 \/ (d1 = d2 /\ (h1 < h2)%Q)) /\
   ((t == 0)%Q <-> d1 = d2 /\ (h1 == h2)%Q).
Proof. exact time_difference_sign. Qed.
Print Assumptions C02_time_difference_sign.

Theorem C02_time_difference_missing : forall y1 m1 d1 h1 y2 m2 d2 h2,
  time_difference y1 m1 d1 h1 y2 m2 d2 h2 = Ok None <-> h1 = None \/ h2 = None.
Proof. exact time_difference_missing. Qed.
Print Assumptions C02_time_difference_missing.

Theorem C02_time_difference_bad_hour : forall y1 m1 d1 h1 y2 m2 d2 h2,
  ~ (hour_ok h1 /\ hour_ok h2) ->
  time_difference y1 m1 d1 (Some h1) y2 m2 d2 (Some h2) = Err AssertionError.
Proof. exact time_difference_bad_hour. Qed.
Print Assumptions C02_time_difference_bad_hour.

(** Without validity of the dates the sign can be wrong: 31 February against 1 March. *)
Theorem C02_sign_without_valid_dates_refuted : exists y1 m1 d1 h1 y2 m2 d2 h2 t,
  earlier (mkdate y1 m1 d1) (mkdate y2 m2 d2) /\ hour_ok h1 /\ hour_ok h2 /\
  time_difference y1 m1 d1 (Some h1) y2 m2 d2 (Some h2) = Ok (Some t) /\ (t < 0)%Q.
Proof.
  exists 2001, 2, 31, 0%Q, 2001, 3, 1, 0%Q. eexists.
  split; [right; simpl; lia|]. split; [split; lra|]. split; [split; lra|].
  split; [vm_compute; reflexivity | reflexivity].
Qed.
Print Assumptions C02_sign_without_valid_dates_refuted.

(* ------------------------------------------------------------------ C03 *)

(** Day number = 1 + days elapsed since 1 January in a 365-day year. *)
Theorem C03_day_in_year_elapsed : forall m d, md_valid m d -> ~ (m = 2 /\ d = 29) ->
  exists n, day_in_year m d = Ok (Z.of_nat n + 1) /\
            days_later n (mkdate 2003 1 1) (mkdate 2003 m d).
Proof. exact day_in_year_elapsed. Qed.
Print Assumptions C03_day_in_year_elapsed.

Theorem C03_feb29_is_mar1 : day_in_year 2 29 = day_in_year 3 1 /\ day_in_year 3 1 = Ok 60.
Proof. split; reflexivity. Qed.
Print Assumptions C03_feb29_is_mar1.

(** Any impossible month/day (even for leap years) raises. *)
Theorem C03_day_in_year_rejects : forall m d, ~ md_valid m d -> day_in_year m d = Err AssertionError.
Proof. exact day_in_year_bad. Qed.
Print Assumptions C03_day_in_year_rejects.

Theorem C03_day_in_year_range : forall m d n, day_in_year m d = Ok n -> 1 <= n <= 365 /\ md_valid m d.
Proof. exact day_in_year_range. Qed.
Print Assumptions C03_day_in_year_range.

Theorem C03_day_in_year_surjective : forall n, 1 <= n <= 365 ->
  exists m d, valid (mkdate 2003 m d) /\ day_in_year m d = Ok n.
Proof. exact day_in_year_surj. Qed.
Print Assumptions C03_day_in_year_surjective.

(** The pentad of day number n is the p with 5(p-1) < n <= 5p: pentads are 5 consecutive days. *)
Theorem C03_which_pentad : forall m d n p, day_in_year m d = Ok n ->
  (which_pentad m d = Ok p <-> 5 * (p - 1) < n <= 5 * p).
Proof. exact which_pentad_five. Qed.
Print Assumptions C03_which_pentad.

Theorem C03_which_pentad_range : forall m d,
  (md_valid m d -> exists p, which_pentad m d = Ok p /\ 1 <= p <= 73) /\
  (~ md_valid m d -> which_pentad m d = Err AssertionError).
Proof. exact which_pentad_total. Qed.
Print Assumptions C03_which_pentad_range.

(** pentad_to_month_day gives the first of the five days; which_pentad inverts it. *)
Theorem C03_pentad_to_month_day : forall p,
  (1 <= p <= 73 -> exists m d, pentad_to_month_day p = Ok (m, d) /\
      day_in_year m d = Ok (5 * (p - 1) + 1) /\ which_pentad m d = Ok p) /\
  (~ 1 <= p <= 73 -> pentad_to_month_day p = Err AssertionError).
Proof. exact pentad_round_trip. Qed.
Print Assumptions C03_pentad_to_month_day.

(** All at once: the number of the day, counted in a common year, and of the five-day period. *)
Theorem C03_day_in_year_exact : forall m d n, day_in_year m d = Ok n <-> common_day m d n.
Proof. exact day_in_year_common. Qed.
Print Assumptions C03_day_in_year_exact.

Theorem C03_which_pentad_exact : forall m d p, which_pentad m d = Ok (p + 1) <-> pentad m d p.
Proof. exact which_pentad_pentad. Qed.
Print Assumptions C03_which_pentad_exact.

Example C03_ex : md_valid 2 29 /\ md_valid 12 31 /\ ~ md_valid 2 30 /\
  which_pentad 12 31 = Ok 73 /\ which_pentad 2 29 = which_pentad 3 1.
Proof.
  repeat split.
  - exists 29; split; [|simpl; lia]. apply mh_29. apply isleap_iff. reflexivity.
  - exists 31; split; [constructor; simpl; lia | simpl; lia].
  - intros [n [H1 H2]]. simpl in *. inversion H1; lia.
Qed.

(* ------------------------------------------------------------------ C04 *)

(** yesterday returns the date whose next day is the input, and None triples otherwise
    (years outside 1..9999 or invalid dates). *)
Theorem C04_yesterday : forall y m d y' m' d',
  yesterday y m d = Some (y', m', d') <->
  next (mkdate y' m' d') (mkdate y m d) /\ 1 <= y' /\ y <= 9999.
Proof. exact yesterday_iff. Qed.
Print Assumptions C04_yesterday.

Theorem C04_next_month : forall y m, 1 <= m <= 12 ->
  ym_ok (next_month_is y m) /\ month_number (next_month_is y m) = month_number (y, m) + 1.
Proof. exact next_month_spec. Qed.
Print Assumptions C04_next_month.

Theorem C04_last_month : forall y m, 1 <= m <= 12 ->
  ym_ok (last_month_was y m) /\ month_number (last_month_was y m) = month_number (y, m) - 1.
Proof. exact last_month_spec. Qed.
Print Assumptions C04_last_month.

Theorem C04_months_inverse : forall y m, 1 <= m <= 12 ->
  last_month_was (fst (next_month_is y m)) (snd (next_month_is y m)) = (y, m) /\
  next_month_is (fst (last_month_was y m)) (snd (last_month_was y m)) = (y, m).
Proof. exact month_inverse. Qed.
Print Assumptions C04_months_inverse.

Example C04_ex : yesterday 2000 3 1 = Some (2000, 2, 29) /\ yesterday 1900 3 1 = Some (1900, 2, 28) /\
  yesterday 2001 2 29 = None /\ yesterday 1 1 1 = None /\ yesterday 2001 1 1 = Some (2000, 12, 31).
Proof. repeat split. Qed.

(** season(0) should be rejected but is answered like December. *)
Theorem C04_season_zero_refuted : exists m, ~ 1 <= m <= 12 /\ season m <> Ok None.
Proof. exists 0. split; [lia|]. vm_compute. discriminate. Qed.
Print Assumptions C04_season_zero_refuted.

Theorem C04_season : forall m, m <> 0 ->
  season m = Ok (if (m =? 12) || (m =? 1) || (m =? 2) then Some "DJF"%string
                 else if (3 <=? m) && (m <=? 5) then Some "MAM"%string
                 else if (6 <=? m) && (m <=? 8) then Some "JJA"%string
                 else if (9 <=? m) && (m <=? 11) then Some "SON"%string else None).
Proof. exact season_spec. Qed.
Print Assumptions C04_season.

(* ------------------------------------------------------------------ C05 *)

(** For a non-empty month interval the generator stops (every fuel from the interval length on
    gives the same answer) and yields exactly the months of the interval, each once, ascending. *)
Theorem C05_year_month_gen : forall y1 m1 y2 m2 fuel,
  1 <= m1 <= 12 -> 1 <= m2 <= 12 -> month_number (y1, m1) <= month_number (y2, m2) ->
  (Z.to_nat (12 * (y2 - y1) + m2 - m1) <= fuel)%nat ->
  exists l, year_month_gen fuel y1 m1 y2 m2 = Ok (Some l) /\
    Z.of_nat (length l) = 12 * (y2 - y1) + m2 - m1 + 1 /\
    (forall ym, In ym l <-> ym_ok ym /\ month_number (y1, m1) <= month_number ym <= month_number (y2, m2)) /\
    StronglySorted (fun a b => month_number a < month_number b) l.
Proof. exact year_month_gen_spec. Qed.
Print Assumptions C05_year_month_gen.

Example C05_ex : year_month_gen 100 1999 11 2001 2 =
  Ok (Some [(1999,11);(1999,12);(2000,1);(2000,2);(2000,3);(2000,4);(2000,5);(2000,6);(2000,7);
            (2000,8);(2000,9);(2000,10);(2000,11);(2000,12);(2001,1);(2001,2)]).
Proof. reflexivity. Qed.

(** Finding: with an end month before the start month in the same year, or an end month
    outside 1..12, the assertions pass and the generator never stops. *)
Theorem C05_termination_refuted : forall y1 m1 y2 m2,
  y1 <= y2 -> 1 <= m1 <= 12 -> ~ 1 <= m2 <= 12 \/ month_number (y2, m2) < month_number (y1, m1) ->
  forall fuel, year_month_gen fuel y1 m1 y2 m2 = Ok None.
Proof. exact (fun y1 m1 y2 m2 a b c fuel => year_month_gen_diverges fuel y1 m1 y2 m2 a b c). Qed.
Print Assumptions C05_termination_refuted.

Example C05_termination_refuted_ex : 2000 <= 2000 /\ 1 <= 5 <= 12 /\ month_number (2000, 3) < month_number (2000, 5).
Proof. unfold month_number; simpl; lia. Qed.

(* ------------------------------------------------------------------ C06 *)

(** With a month 1..12: pass exactly the valid dates in 1850..2024, fail exactly the others. *)
Theorem C06_date_check : forall y m d, 1 <= m <= 12 ->
  (date_check (Some y) (Some m) (Some d) = Ok 0 <-> (valid (mkdate y m d) /\ 1850 <= y <= 2024)) /\
  (date_check (Some y) (Some m) (Some d) = Ok 1 <-> ~ (valid (mkdate y m d) /\ 1850 <= y <= 2024)).
Proof. exact date_check_valid_month. Qed.
Print Assumptions C06_date_check.

Theorem C06_date_check_missing : 
  (forall y m, date_check (Some y) (Some m) None = Ok 1) /\
  (forall y m d, y = None \/ m = None -> date_check y m d = Err AssertionError).
Proof. exact (conj date_check_no_day date_check_missing). Qed.
Print Assumptions C06_date_check_missing.

Theorem C06_date_check_low_month : forall y m d, -11 <= m <= 0 ->
  date_check (Some y) (Some m) (Some d) = Ok 1.
Proof. exact date_check_bad_month_low. Qed.
Print Assumptions C06_date_check_low_month.

(** Finding: a month above 12 (or below -11) with a positive day raises IndexError
    instead of failing the check. *)
Theorem C06_bad_month_fails_refuted : forall y m d, 12 < m \/ m < -11 -> 1 <= d ->
  date_check (Some y) (Some m) (Some d) = Err IndexError.
Proof. exact date_check_bad_month_high. Qed.
Print Assumptions C06_bad_month_fails_refuted.

Example C06_ex : date_check (Some 2000) (Some 2) (Some 29) = Ok 0 /\ date_check (Some 1900) (Some 2) (Some 29) = Ok 1 /\
  date_check (Some 2025) (Some 1) (Some 1) = Ok 1 /\ date_check (Some 2000) (Some 13) (Some 1) = Err IndexError.
Proof. repeat split. Qed.

(** The month flag of a report: 1 exactly in the month being processed. *)
Theorem C06_month_match : forall y1 m1 y2 m2,
  (month_match y1 m1 y2 m2 = 1 <-> (y1, m1) = (y2, m2)) /\ (month_match y1 m1 y2 m2 = 0 <-> (y1, m1) <> (y2, m2)).
Proof.
  intros. unfold month_match. destruct ((y1 =? y2) && (m1 =? m2)) eqn:E; rewrite ?andb_true_iff, ?andb_false_iff, ?Z.eqb_eq, ?Z.eqb_neq in E;
    split; split; intro H; try congruence; try discriminate; try (destruct E; congruence).
Qed.
Print Assumptions C06_month_match.
Example C06_month_match_ex : month_match 1999 12 1999 12 = 1 /\ month_match 1999 12 2000 12 = 0.
Proof. split; reflexivity. Qed.
