(** Proofs about the calendar model. *)
Require Import String ZArith QArith List Bool Lia Lqa.
Require Import ZifyBool.
Require Import Verif.M_Base Verif.L_Base Verif.M_Calendar Verif.S_Calendar.
Import ListNotations.
Open Scope Z_scope.
Ltac Zify.zify_post_hook ::= Z.div_mod_to_equations.

Lemma isleap_iff : forall y, py_isleap y = true <-> leap_year y.
Proof.
  intro y. unfold py_isleap, leap_year.
  rewrite <- !Z.mod_divide by lia.
  destruct (Z.eqb_spec (y mod 4) 0), (Z.eqb_spec (y mod 100) 0), (Z.eqb_spec (y mod 400) 0);
    simpl; split; intros; try discriminate; try tauto; try reflexivity; intuition.
Qed.

Lemma isleap_false : forall y, py_isleap y = false <-> ~ leap_year y.
Proof. intro y. rewrite <- isleap_iff. destruct (py_isleap y); split; congruence. Qed.

Lemma month_cases : forall m, 1 <= m <= 12 ->
  m = 1 \/ m = 2 \/ m = 3 \/ m = 4 \/ m = 5 \/ m = 6 \/ m = 7 \/ m = 8 \/ m = 9 \/
  m = 10 \/ m = 11 \/ m = 12.
Proof. intros; lia. Qed.

Ltac month_split H :=
  apply month_cases in H;
  destruct H as [->|[->|[->|[->|[->|[->|[->|[->|[->|[->|[->| ->]]]]]]]]]]].

Lemma month_has_range : forall y m n, month_has y m n -> 1 <= m <= 12 /\ 28 <= n <= 31.
Proof. intros y m n H; inversion H; subst; lia. Qed.

Lemma month_has_iff : forall y m n,
  month_has y m n <-> (1 <= m <= 12 /\ py_nth (get_month_lengths y) (m - 1) = Ok n).
Proof.
  intros y m n. unfold get_month_lengths. split.
  - intro H. split. { apply month_has_range in H; tauto. }
    inversion H; subst.
    + destruct (py_isleap y); repeat (destruct H0 as [->|H0]; [reflexivity|]); subst; reflexivity.
    + destruct (py_isleap y); repeat (destruct H0 as [->|H0]; [reflexivity|]); subst; reflexivity.
    + apply isleap_iff in H0. rewrite H0. reflexivity.
    + apply isleap_false in H0. rewrite H0. reflexivity.
  - intros [Hm H]. destruct (py_isleap y) eqn:E.
    + month_split Hm; vm_compute in H; injection H as <-;
        try (constructor; lia); apply mh_29; now apply isleap_iff.
    + month_split Hm; vm_compute in H; injection H as <-;
        try (constructor; lia); apply mh_28; now apply isleap_false.
Qed.

Lemma month_has_exists : forall y m, 1 <= m <= 12 -> exists n, month_has y m n.
Proof.
  intros y m Hm. destruct (py_isleap y) eqn:E.
  - month_split Hm; eexists; try (constructor; lia). apply mh_29; now apply isleap_iff.
  - month_split Hm; eexists; try (constructor; lia). apply mh_28; now apply isleap_false.
Qed.

Lemma month_has_det : forall y m n n', month_has y m n -> month_has y m n' -> n = n'.
Proof. intros y m n n' H H'; apply month_has_iff in H, H'. destruct H, H'. congruence. Qed.

(** numeric form of the length of February *)
Definition feb (y : Z) : Z := if py_isleap y then 29 else 28.

Lemma month_has_num : forall y m n, month_has y m n ->
  (m = 2 /\ n = feb y) \/ ((m = 1 \/ m = 3 \/ m = 5 \/ m = 7 \/ m = 8 \/ m = 10 \/ m = 12) /\ n = 31)
  \/ ((m = 4 \/ m = 6 \/ m = 9 \/ m = 11) /\ n = 30).
Proof.
  intros y m n H; unfold feb; inversion H; subst.
  - tauto.
  - tauto.
  - apply isleap_iff in H0. rewrite H0. auto.
  - apply isleap_false in H0. rewrite H0. auto.
Qed.

(** value of jul_day on accepted arguments *)
Definition jd (y m d : Z) : Z :=
  let a := (14 - m) / 12 in
  let y' := y + 4800 - a in
  let m' := m + 12 * a - 3 in
  d + ((153 * m' + 2) / 5) + 365 * y' + y' / 4 - y' / 100 + y' / 400 - 32045.

Lemma jul_day_jd : forall y m d, 1 <= m <= 12 -> 1 <= d <= 31 -> jul_day y m d = Ok (jd y m d).
Proof.
  intros y m d Hm Hd. unfold jul_day.
  rewrite (py_assert_true ((1 <=? m) && (m <=? 12))) by lia. simpl.
  rewrite (py_assert_true ((1 <=? d) && (d <=? 31))) by lia. simpl. reflexivity.
Qed.

Lemma jul_day_err : forall y m d, ~ (1 <= m <= 12 /\ 1 <= d <= 31) -> jul_day y m d = Err AssertionError.
Proof.
  intros y m d H. unfold jul_day, py_assert.
  destruct ((1 <=? m) && (m <=? 12)) eqn:E1; simpl; [|reflexivity].
  destruct ((1 <=? d) && (d <=? 31)) eqn:E2; simpl; [lia|reflexivity].
Qed.

Lemma valid_bounds : forall d, valid d -> 1 <= mo d <= 12 /\ 1 <= dy d <= 31.
Proof.
  intros d [n [H1 H2]]. apply month_has_range in H1. lia.
Qed.

Lemma jul_day_valid : forall d, valid d -> jul_day (yr d) (mo d) (dy d) = Ok (jd (yr d) (mo d) (dy d)).
Proof. intros d H. apply valid_bounds in H. apply jul_day_jd; tauto. Qed.

(** days before year y (proleptic, offset), and its step *)
Definition era (y : Z) := 365 * y + y / 4 - y / 100 + y / 400.

Lemma era_step : forall y, era (y + 1) = era y + 337 + feb (y + 1).
Proof.
  intro y. unfold era, feb, py_isleap.
  destruct (Z.eqb_spec ((y+1) mod 4) 0), (Z.eqb_spec ((y+1) mod 100) 0), (Z.eqb_spec ((y+1) mod 400) 0);
    cbn [andb orb negb]; lia.
Qed.

Lemma feb_period : forall y, feb (y + 4800) = feb y.
Proof.
  intro y. unfold feb, py_isleap.
  replace ((y + 4800) mod 4) with (y mod 4) by lia.
  replace ((y + 4800) mod 100) with (y mod 100) by lia.
  replace ((y + 4800) mod 400) with (y mod 400) by lia. reflexivity.
Qed.

Lemma feb_range : forall y, 28 <= feb y <= 29.
Proof. intro y; unfold feb; destruct (py_isleap y); lia. Qed.

Lemma era_mono : forall y y', y <= y' -> era y <= era y'.
Proof. intros y y' H; unfold era; lia. Qed.

(** jd in terms of era: March-based years *)
Lemma jd_era : forall y m d, 1 <= m <= 12 ->
  jd y m d = d - 32045 +
   (if m =? 1 then 306 + era (y + 4799) else if m =? 2 then 337 + era (y + 4799)
    else if m =? 3 then 0 + era (y + 4800) else if m =? 4 then 31 + era (y + 4800)
    else if m =? 5 then 61 + era (y + 4800) else if m =? 6 then 92 + era (y + 4800)
    else if m =? 7 then 122 + era (y + 4800) else if m =? 8 then 153 + era (y + 4800)
    else if m =? 9 then 184 + era (y + 4800) else if m =? 10 then 214 + era (y + 4800)
    else if m =? 11 then 245 + era (y + 4800) else 275 + era (y + 4800)).
Proof.
  intros y m d Hm. unfold jd, era. cbv zeta.
  month_split Hm;
  match goal with |- context [(14 - ?k) / 12] =>
    let v := eval vm_compute in ((14 - k) / 12) in change ((14 - k) / 12) with v end;
  match goal with |- context [(153 * ?k + 2) / 5] =>
    let v := eval vm_compute in ((153 * k + 2) / 5) in change ((153 * k + 2) / 5) with v end;
  rewrite ?Z.sub_0_r; replace (y + 4800 - 1) with (y + 4799) by lia;
  cbn [Z.eqb Pos.eqb]; lia.
Qed.

Lemma era_year : forall y, era (y + 4800) = era (y + 4799) + 337 + feb y.
Proof.
  intro y. replace (y + 4800) with ((y + 4799) + 1) by lia.
  rewrite era_step. replace (y + 4799 + 1) with (y + 4800) by lia. now rewrite feb_period.
Qed.

Opaque era feb.

Ltac eqb_split :=
  repeat match goal with |- context [if ?a =? ?b then _ else _] => destruct (Z.eqb_spec a b); try lia end.

(** jd is linear in the day *)
Lemma jd_day : forall y m d, jd y m d = jd y m 1 + (d - 1).
Proof. intros; unfold jd; lia. Qed.

Lemma jd_next_month : forall y m n, month_has y m n -> m < 12 -> jd y (m + 1) 1 = jd y m n + 1.
Proof.
  intros y m n H Hm. pose proof (month_has_range _ _ _ H). apply month_has_num in H.
  rewrite !jd_era by lia. pose proof (era_year y).
  eqb_split; lia.
Qed.

Lemma jd_next_year : forall y, jd (y + 1) 1 1 = jd y 12 31 + 1.
Proof.
  intro y. rewrite !jd_era by lia. eqb_split. replace (y + 1 + 4799) with (y + 4800) by lia. lia.
Qed.

Lemma next_valid_r : forall d d', next d d' -> valid d'.
Proof.
  intros d d' H; inversion H; subst; unfold valid; simpl.
  - exists n. split; auto; lia.
  - pose proof (month_has_range _ _ _ H0).
    destruct (month_has_exists y (m + 1)) as [k Hk]; [lia|].
    exists k. split; auto. apply month_has_range in Hk. lia.
  - exists 31. split; [constructor; lia | lia].
Qed.

Lemma next_valid_l : forall d d', next d d' -> valid d.
Proof.
  intros d d' H; inversion H; subst; unfold valid; simpl.
  - exists n. split; auto; lia.
  - pose proof (month_has_range _ _ _ H0). exists n; split; auto; lia.
  - exists 31. split; [constructor; lia | lia].
Qed.

Definition jdd (d : date) : Z := jd (yr d) (mo d) (dy d).

Lemma jdd_next : forall d d', next d d' -> jdd d' = jdd d + 1.
Proof.
  intros d d' H; inversion H; subst; unfold jdd; simpl.
  - rewrite (jd_day y m (d0 + 1)), (jd_day y m d0). lia.
  - now apply jd_next_month.
  - apply jd_next_year.
Qed.

Lemma next_total : forall d, valid d -> exists d', next d d'.
Proof.
  intros [y m d] [n [H1 H2]]; simpl in *.
  destruct (Z.eq_dec d n) as [->|Hd].
  - destruct (Z.eq_dec m 12) as [->|Hm].
    + replace n with 31. 2: { apply month_has_num in H1. lia. }
      eexists; apply next_year.
    + eexists; eapply next_month; eauto. apply month_has_range in H1. lia.
  - eexists; eapply next_day; eauto. lia.
Qed.

Lemma next_det : forall d d1 d2, next d d1 -> next d d2 -> d1 = d2.
Proof.
  intros d d1 d2 H1 H2.
  inversion H1; subst; inversion H2; subst; try reflexivity;
   try (match goal with
        | A : month_has ?y ?m ?n, B : month_has ?y ?m ?k |- _ =>
            pose proof (month_has_det _ _ _ _ A B); subst
        end); try lia; try reflexivity;
   match goal with A : month_has _ _ _ |- _ => apply month_has_num in A; lia end.
Qed.

Lemma days_later_jdd : forall n d d', days_later n d d' -> jdd d' = jdd d + Z.of_nat n.
Proof.
  induction 1; [lia|]. apply jdd_next in H0. lia.
Qed.

Lemma days_later_valid : forall n d d', days_later n d d' -> valid d -> valid d'.
Proof. induction 1; intros; auto. now apply next_valid_r in H0. Qed.

Lemma days_later_total : forall n d, valid d -> exists d', days_later n d d'.
Proof.
  induction n; intros d H.
  - exists d; constructor.
  - destruct (IHn d H) as [d1 H1]. destruct (next_total d1) as [d2 H2].
    { eapply days_later_valid; eauto. }
    exists d2. econstructor; eauto.
Qed.

(** monotonicity of first-of-month and first-of-year *)
Lemma jd_year_mono : forall y y', y <= y' -> jd y 1 1 <= jd y' 1 1.
Proof.
  intros y y' H. rewrite !jd_era by lia. eqb_split.
  pose proof (era_mono (y + 4799) (y' + 4799) ltac:(lia)). lia.
Qed.

Lemma jd_in_year : forall d, valid d -> jd (yr d) 1 1 <= jdd d <= jd (yr d) 12 31.
Proof.
  intros [y m d] H. pose proof (valid_bounds _ H) as [Hm Hd]. destruct H as [n [H1 H2]]. simpl in *.
  unfold jdd; cbn [yr mo dy]. apply month_has_num in H1.
  rewrite !jd_era by lia. pose proof (era_year y). pose proof (feb_range y).
  split; eqb_split.
Qed.

Lemma jd_month_mono_step : forall y m m', 1 <= m -> m < m' -> m' <= 12 ->
  forall n, month_has y m n -> jd y m n < jd y m' 1.
Proof.
  intros y m m' H1 H2. remember (Z.to_nat (m' - m - 1)) as k eqn:Hk.
  revert m' H2 Hk. induction k; intros m' H2 Hk H3 n Hn.
  - replace m' with (m + 1) by lia. rewrite (jd_next_month y m n); auto; lia.
  - assert (Hlt : m < m' - 1) by lia.
    specialize (IHk (m' - 1) Hlt ltac:(lia) ltac:(lia) n Hn).
    destruct (month_has_exists y (m' - 1)) as [p Hp]; [lia|].
    pose proof (jd_next_month y (m' - 1) p Hp ltac:(lia)) as Hj.
    replace (m' - 1 + 1) with m' in Hj by lia.
    pose proof (jd_day y (m' - 1) p). apply month_has_range in Hp. lia.
Qed.

Lemma jdd_mono : forall d d', valid d -> valid d' -> earlier d d' -> jdd d < jdd d'.
Proof.
  intros d d' Hv Hv' H.
  pose proof (valid_bounds _ Hv). pose proof (valid_bounds _ Hv').
  destruct H as [H|[Hy [H|[Hm H]]]].
  - pose proof (jd_in_year d Hv). pose proof (jd_in_year d' Hv').
    pose proof (jd_year_mono (yr d + 1) (yr d') ltac:(lia)).
    pose proof (jd_next_year (yr d)). lia.
  - destruct Hv as [n [Hn1 Hn2]].
    pose proof (jd_month_mono_step (yr d) (mo d) (mo d') ltac:(lia) H ltac:(lia) n Hn1).
    unfold jdd. rewrite <- Hy.
    rewrite (jd_day (yr d) (mo d) n) in H2.
    rewrite (jd_day (yr d) (mo d) (dy d)), (jd_day (yr d) (mo d') (dy d')). lia.
  - unfold jdd. rewrite Hy, Hm, (jd_day (yr d') (mo d') (dy d)), (jd_day (yr d') (mo d') (dy d')). lia.
Qed.

Lemma earlier_trichotomy : forall d d', earlier d d' \/ d = d' \/ earlier d' d.
Proof.
  intros [y m d] [y' m' d']; unfold earlier; simpl.
  destruct (Z.lt_trichotomy y y') as [|[->|]]; try lia.
  destruct (Z.lt_trichotomy m m') as [|[->|]]; try lia.
  destruct (Z.lt_trichotomy d d') as [|[->|]]; try lia.
  right; left; reflexivity.
Qed.

Lemma jdd_inj : forall d d', valid d -> valid d' -> jdd d = jdd d' -> d = d'.
Proof.
  intros d d' H H' E. destruct (earlier_trichotomy d d') as [L|[L|L]]; auto;
  [apply jdd_mono in L | apply jdd_mono in L]; auto; lia.
Qed.

Lemma earlier_iff_jdd : forall d d', valid d -> valid d' -> (earlier d d' <-> jdd d < jdd d').
Proof.
  intros d d' H H'; split; [now apply jdd_mono|]. intro L.
  destruct (earlier_trichotomy d d') as [E|[E|E]]; auto.
  - subst; lia.
  - apply jdd_mono in E; auto; lia.
Qed.

Lemma days_later_iff : forall n d d', valid d -> valid d' ->
  (days_later n d d' <-> jdd d' = jdd d + Z.of_nat n).
Proof.
  intros n d d' H H'; split; [apply days_later_jdd|]. intro E.
  destruct (days_later_total n d H) as [e He].
  replace d' with e; auto.
  apply jdd_inj; auto. { eapply days_later_valid; eauto. }
  rewrite (days_later_jdd _ _ _ He). lia.
Qed.
