(** More proofs about the calendar model: time differences, pentads, months. *)
Require Import String ZArith QArith List Bool Lia Lqa Sorted.
Require Import ZifyBool.
Require Import Verif.M_Base Verif.L_Base Verif.M_Calendar Verif.S_Calendar Verif.L_Calendar.
Import ListNotations.
Open Scope Z_scope.
Ltac Zify.zify_post_hook ::= Z.div_mod_to_equations.

(* ---------- jul_day ---------- *)

Lemma jul_day_next_lemma : forall d d', next d d' ->
  exists j, jul_day (yr d) (mo d) (dy d) = Ok j /\ jul_day (yr d') (mo d') (dy d') = Ok (j + 1).
Proof.
  intros d d' H. exists (jdd d). split.
  - apply jul_day_valid. eapply next_valid_l; eauto.
  - rewrite jul_day_valid by (eapply next_valid_r; eauto). f_equal. exact (jdd_next _ _ H).
Qed.

Lemma jul_day_counts_days : forall n d d', valid d -> valid d' ->
  (days_later n d d' <->
   exists j, jul_day (yr d) (mo d) (dy d) = Ok j /\ jul_day (yr d') (mo d') (dy d') = Ok (j + Z.of_nat n)).
Proof.
  intros n d d' H H'. rewrite (days_later_iff n d d' H H').
  rewrite !jul_day_valid by assumption. unfold jdd. split.
  - intro E. exists (jd (yr d) (mo d) (dy d)). split; congruence.
  - intros [j [E1 E2]]. injection E1 as <-. injection E2 as E2. exact E2.
Qed.

Lemma jul_day_order : forall d d', valid d -> valid d' ->
  exists j j', jul_day (yr d) (mo d) (dy d) = Ok j /\ jul_day (yr d') (mo d') (dy d') = Ok j' /\
    (earlier d d' <-> j < j') /\ (d = d' <-> j = j').
Proof.
  intros d d' H H'. exists (jdd d), (jdd d').
  rewrite !jul_day_valid by assumption. repeat split; auto.
  - now apply jdd_mono.
  - now apply earlier_iff_jdd.
  - intros ->; reflexivity.
  - now apply jdd_inj.
Qed.

(* ---------- time_difference ---------- *)

Lemma hours_asserted : forall h1 h2, hour_ok h1 -> hour_ok h2 ->
  (Qleb 0 h1 && Qltb h1 24) && (Qleb 0 h2 && Qltb h2 24) = true.
Proof.
  intros h1 h2 [A B] [C D].
  apply andb_true_iff; split; apply andb_true_iff; split; qprop; assumption.
Qed.

Lemma td_forward_val : forall d1 h1 d2 h2, valid d1 -> valid d2 ->
  exists t, td_forward (yr d1) (mo d1) (dy d1) h1 (yr d2) (mo d2) (dy d2) h2 = Ok (Some t) /\
    (t == 24 * inject_Z (jdd d2 - jdd d1) + h2 - h1)%Q.
Proof.
  intros d1 h1 d2 h2 H1 H2. unfold td_forward.
  rewrite !jul_day_valid by assumption. simpl.
  eexists; split; [reflexivity|]. fold (jdd d1) (jdd d2). rewrite inject_Z_minus. field.
Qed.

Lemma time_difference_val : forall d1 h1 d2 h2, valid d1 -> valid d2 -> hour_ok h1 -> hour_ok h2 ->
  exists t, time_difference (yr d1) (mo d1) (dy d1) (Some h1) (yr d2) (mo d2) (dy d2) (Some h2) = Ok (Some t) /\
    (t == 24 * inject_Z (jdd d2 - jdd d1) + h2 - h1)%Q.
Proof.
  intros d1 h1 d2 h2 V1 V2 H1 H2. unfold time_difference.
  rewrite (py_assert_true _ (hours_asserted _ _ H1 H2)).
  rewrite ?bind_ok. cbv beta.
  destruct (td_later _ _ _ _ _ _ _ _).
  - destruct (td_forward_val d2 h2 d1 h1 V2 V1) as [t [E Ht]]. rewrite E.
    rewrite ?bind_ok. cbv beta iota.
    eexists; split; [reflexivity|].
    rewrite Ht. replace (jdd d2 - jdd d1) with (- (jdd d1 - jdd d2)) by lia.
    rewrite inject_Z_opp. ring.
  - apply td_forward_val; assumption.
Qed.

Lemma jdd_days_later : forall n d1 d2, days_later n d1 d2 -> jdd d2 - jdd d1 = Z.of_nat n.
Proof. intros n d1 d2 H. apply days_later_jdd in H. lia. Qed.

Lemma time_difference_elapsed : forall n d1 d2 h1 h2,
  valid d1 -> days_later n d1 d2 -> hour_ok h1 -> hour_ok h2 ->
  exists t, time_difference (yr d1) (mo d1) (dy d1) (Some h1) (yr d2) (mo d2) (dy d2) (Some h2) = Ok (Some t) /\
    (t == 24 * inject_Z (Z.of_nat n) + (h2 - h1))%Q.
Proof.
  intros n d1 d2 h1 h2 V1 D H1 H2.
  destruct (time_difference_val d1 h1 d2 h2 V1 (days_later_valid _ _ _ D V1) H1 H2) as [t [E Ht]].
  exists t; split; auto. rewrite Ht, (jdd_days_later _ _ _ D). ring.
Qed.

Lemma time_difference_antisym : forall d1 d2 h1 h2,
  valid d1 -> valid d2 -> hour_ok h1 -> hour_ok h2 ->
  exists t t', time_difference (yr d1) (mo d1) (dy d1) (Some h1) (yr d2) (mo d2) (dy d2) (Some h2) = Ok (Some t) /\
   time_difference (yr d2) (mo d2) (dy d2) (Some h2) (yr d1) (mo d1) (dy d1) (Some h1) = Ok (Some t') /\
   (t' == - t)%Q.
Proof.
  intros d1 d2 h1 h2 V1 V2 H1 H2.
  destruct (time_difference_val d1 h1 d2 h2 V1 V2 H1 H2) as [t [E Ht]].
  destruct (time_difference_val d2 h2 d1 h1 V2 V1 H2 H1) as [t' [E' Ht']].
  exists t, t'; repeat split; auto. rewrite Ht, Ht', !inject_Z_minus. ring.
Qed.

Lemma time_difference_additive : forall d1 d2 d3 h1 h2 h3,
  valid d1 -> valid d2 -> valid d3 -> hour_ok h1 -> hour_ok h2 -> hour_ok h3 ->
  exists t12 t23 t13,
   time_difference (yr d1) (mo d1) (dy d1) (Some h1) (yr d2) (mo d2) (dy d2) (Some h2) = Ok (Some t12) /\
   time_difference (yr d2) (mo d2) (dy d2) (Some h2) (yr d3) (mo d3) (dy d3) (Some h3) = Ok (Some t23) /\
   time_difference (yr d1) (mo d1) (dy d1) (Some h1) (yr d3) (mo d3) (dy d3) (Some h3) = Ok (Some t13) /\
   (t13 == t12 + t23)%Q.
Proof.
  intros d1 d2 d3 h1 h2 h3 V1 V2 V3 H1 H2 H3.
  destruct (time_difference_val d1 h1 d2 h2 V1 V2 H1 H2) as [t [E Ht]].
  destruct (time_difference_val d2 h2 d3 h3 V2 V3 H2 H3) as [t' [E' Ht']].
  destruct (time_difference_val d1 h1 d3 h3 V1 V3 H1 H3) as [t'' [E'' Ht'']].
  exists t, t', t''; repeat split; auto. rewrite Ht, Ht', Ht'', !inject_Z_minus. ring.
Qed.

(** [t] is positive, zero or negative according to the calendar order of the instants *)
Lemma time_difference_sign : forall d1 d2 h1 h2,
  valid d1 -> valid d2 -> hour_ok h1 -> hour_ok h2 ->
  exists t, time_difference (yr d1) (mo d1) (dy d1) (Some h1) (yr d2) (mo d2) (dy d2) (Some h2) = Ok (Some t) /\
   ((0 < t)%Q <-> earlier d1 d2 \/ (d1 = d2 /\ (h1 < h2)%Q)) /\
   ((t == 0)%Q <-> d1 = d2 /\ (h1 == h2)%Q).
Proof.
  intros d1 d2 h1 h2 V1 V2 H1 H2.
  destruct (time_difference_val d1 h1 d2 h2 V1 V2 H1 H2) as [t [E Ht]].
  exists t; split; auto. destruct H1 as [A1 B1], H2 as [A2 B2].
  destruct (earlier_trichotomy d1 d2) as [L|[L|L]].
  - pose proof (jdd_mono _ _ V1 V2 L) as J.
    assert (1 <= inject_Z (jdd d2 - jdd d1))%Q.
    { change 1%Q with (inject_Z 1). apply inject_Z_le. lia. }
    split; split; intros; auto; try lra.
    destruct H0 as [-> _]. exfalso; lia.
  - subst d2. replace (jdd d1 - jdd d1) with 0 in Ht by lia. change (inject_Z 0) with 0%Q in Ht.
    split; split; intros.
    + right; split; auto; lra.
    + destruct H as [L|[_ L]]; [unfold earlier in L; exfalso; lia | lra].
    + split; auto; lra.
    + lra.
  - pose proof (jdd_mono _ _ V2 V1 L) as J.
    assert (inject_Z (jdd d2 - jdd d1) <= -1)%Q.
    { change (-1)%Q with (inject_Z (-1)). apply inject_Z_le. lia. }
    split; split; intros; try lra.
    + exfalso. destruct H0 as [E1|[E1 _]]; [|subst; lia]. apply jdd_mono in E1; auto; lia.
    + destruct H0 as [-> _]. exfalso; lia.
Qed.

Lemma time_difference_missing : forall y1 m1 d1 h1 y2 m2 d2 h2,
  time_difference y1 m1 d1 h1 y2 m2 d2 h2 = Ok None <-> h1 = None \/ h2 = None.
Proof.
  intros. unfold time_difference. destruct h1 as [h1|], h2 as [h2|]; try (split; tauto).
  split; [|intros [E|E]; discriminate].
  intro H. exfalso.
  destruct (py_assert _); [|discriminate]. simpl in H.
  assert (F : forall a b c d e f g h, td_forward a b c d e f g h <> Ok None).
  { clear. intros a b c d e f g h. unfold td_forward. destruct (jul_day a b c); simpl; try discriminate.
    destruct (jul_day e f g); simpl; discriminate. }
  destruct (td_later _ _ _ _ _ _ _ _).
  - destruct (td_forward y2 m2 d2 h2 y1 m1 d1 h1) as [[t|]|]; simpl in H; discriminate.
  - now apply F in H.
Qed.

Lemma time_difference_bad_hour : forall y1 m1 d1 h1 y2 m2 d2 h2,
  ~ (hour_ok h1 /\ hour_ok h2) ->
  time_difference y1 m1 d1 (Some h1) y2 m2 d2 (Some h2) = Err AssertionError.
Proof.
  intros. unfold time_difference, py_assert.
  destruct ((Qleb 0 h1 && Qltb h1 24) && (Qleb 0 h2 && Qltb h2 24)) eqn:E; [|reflexivity].
  exfalso; apply H. qprop. unfold hour_ok. tauto.
Qed.

(* ---------- day_in_year and pentads ---------- *)

Lemma get_ml_2004 : forall m, 1 <= m <= 12 -> exists n, py_nth (get_month_lengths 2004) (m - 1) = Ok n /\ month_has 2004 m n.
Proof.
  intros m Hm. destruct (month_has_exists 2004 m Hm) as [n Hn]. exists n. split; auto.
  now apply month_has_iff in Hn.
Qed.

Lemma day_in_year_bad : forall m d, ~ md_valid m d -> day_in_year m d = Err AssertionError.
Proof.
  intros m d H. unfold day_in_year.
  unfold py_assert at 1. destruct (1 <=? m) eqn:E1; [|reflexivity]. simpl.
  unfold py_assert at 1. destruct (m <=? 12) eqn:E2; [|reflexivity]. simpl.
  unfold py_assert at 1. destruct (1 <=? d) eqn:E3; [|reflexivity].
  rewrite ?bind_ok. cbv beta.
  destruct (get_ml_2004 m ltac:(lia)) as [n [E Hn]]. rewrite E.
  rewrite ?bind_ok. cbv beta.
  unfold py_assert. destruct (d <=? n) eqn:E4; [|reflexivity].
  exfalso; apply H. exists n. simpl. split; auto. lia.
Qed.

Lemma day_in_year_good : forall m d, md_valid m d ->
  day_in_year m d = Ok (if (m =? 2) && (d =? 29) then 60 else jd 2003 m d - jd 2003 1 1 + 1).
Proof.
  intros m d [n [H1 H2]]; simpl in *. pose proof (month_has_range _ _ _ H1) as [Hm _].
  pose proof (proj1 (month_has_iff _ _ _) H1) as [_ E].
  unfold day_in_year.
  rewrite (py_assert_true (1 <=? m)) by lia. rewrite (py_assert_true (m <=? 12)) by lia.
  rewrite (py_assert_true (1 <=? d)) by lia.
  rewrite ?bind_ok. cbv beta. rewrite E.
  rewrite ?bind_ok. cbv beta.
  rewrite (py_assert_true (d <=? n)) by lia.
  rewrite ?bind_ok. cbv beta.
  rewrite (jd_day 2003 m d).
  destruct ((m =? 2) && (d =? 29)) eqn:F.
  - replace m with 2 by lia. replace (2 =? 1) with false by reflexivity.
    vm_compute. reflexivity.
  - month_split Hm; simpl (_ =? _); cbv iota;
     match goal with |- context [sumZ ?l] => let v := eval vm_compute in (sumZ l) in change (sumZ l) with v
                | _ => idtac end;
     repeat match goal with |- context [jd 2003 ?k 1] =>
        let v := eval vm_compute in (jd 2003 k 1) in change (jd 2003 k 1) with v end;
     f_equal; lia.
Qed.

Lemma md_valid_2003 : forall m d, md_valid m d -> ~ (m = 2 /\ d = 29) -> valid (mkdate 2003 m d).
Proof.
  intros m d [n [H1 H2]] N; simpl in *.
  destruct (month_has_exists 2003 m) as [k Hk]. { apply month_has_range in H1; lia. }
  exists k; simpl; split; auto.
  apply month_has_num in H1, Hk.
  change (feb 2004) with 29 in H1. change (feb 2003) with 28 in Hk. lia.
Qed.

Lemma valid_2003_0101 : valid (mkdate 2003 1 1).
Proof. exists 31; split; simpl; [constructor; lia | lia]. Qed.

Lemma valid_2003_1231 : valid (mkdate 2003 12 31).
Proof. exists 31; split; simpl; [constructor; lia | lia]. Qed.

(** day number = 1 + days elapsed since 1 January of a 365-day year *)
Lemma day_in_year_elapsed : forall m d, md_valid m d -> ~ (m = 2 /\ d = 29) ->
  exists n, day_in_year m d = Ok (Z.of_nat n + 1) /\
            days_later n (mkdate 2003 1 1) (mkdate 2003 m d).
Proof.
  intros m d H N. pose proof (md_valid_2003 m d H N) as V.
  pose proof (jd_in_year _ V) as R. unfold jdd in R; cbn [yr mo dy] in R.
  exists (Z.to_nat (jd 2003 m d - jd 2003 1 1)). split.
  - rewrite day_in_year_good by assumption. replace ((m =? 2) && (d =? 29)) with false by lia.
    f_equal. lia.
  - apply days_later_iff; auto using valid_2003_0101. unfold jdd; cbn [yr mo dy]. lia.
Qed.

Lemma day_in_year_range : forall m d n, day_in_year m d = Ok n -> 1 <= n <= 365 /\ md_valid m d.
Proof.
  intros m d n H.
  assert (V : md_valid m d).
  { destruct (month_has_exists 2004 m) as [k Hk].
    - destruct (Z_le_dec 1 m); [destruct (Z_le_dec m 12)|]; try lia;
        rewrite day_in_year_bad in H; try discriminate;
        intros [k [Hk _]]; apply month_has_range in Hk; simpl in Hk; lia.
    - destruct (Z_le_dec 1 d); [destruct (Z_le_dec d k)|].
      + exists k; simpl; split; auto.
      + rewrite day_in_year_bad in H; try discriminate. intros [k' [Hk' A]]; simpl in *.
        pose proof (month_has_det _ _ _ _ Hk Hk'). lia.
      + rewrite day_in_year_bad in H; try discriminate. intros [k' [Hk' A]]; simpl in *. lia. }
  split; auto.
  rewrite day_in_year_good in H by assumption.
  destruct ((m =? 2) && (d =? 29)) eqn:F.
  - injection H as <-. lia.
  - pose proof (md_valid_2003 m d V ltac:(lia)) as V'.
    pose proof (jd_in_year _ V') as R. unfold jdd in R; cbn [yr mo dy] in R.
    injection H as <-. change (jd 2003 12 31) with (jd 2003 1 1 + 364) in R. lia.
Qed.

(** every number 1..365 is the day number of some day *)
Lemma day_in_year_surj : forall n, 1 <= n <= 365 -> exists m d, valid (mkdate 2003 m d) /\ day_in_year m d = Ok n.
Proof.
  intros n Hn.
  destruct (days_later_total (Z.to_nat (n - 1)) _ valid_2003_0101) as [e He].
  assert (Ve : valid e) by (eapply days_later_valid; eauto; apply valid_2003_0101).
  pose proof (days_later_jdd _ _ _ He) as J.
  assert (Hy : yr e = 2003).
  { destruct (Z.lt_trichotomy (yr e) 2003) as [L|[L|L]]; auto; exfalso.
    - pose proof (jdd_mono e (mkdate 2003 1 1) Ve valid_2003_0101). unfold earlier in H; simpl in H. lia.
    - pose proof (jdd_mono (mkdate 2003 12 31) e valid_2003_1231 Ve). unfold earlier in H; simpl in H.
      assert (jdd (mkdate 2003 12 31) = jdd (mkdate 2003 1 1) + 364) by reflexivity. lia. }
  destruct e as [y m d]; simpl in Hy; subst y.
  exists m, d. split; auto.
  assert (M : md_valid m d).
  { destruct Ve as [k [Hk1 Hk2]]; cbn [yr mo dy] in Hk1, Hk2.
    destruct (month_has_exists 2004 m) as [k' Hk'].
    { clear J. apply month_has_range in Hk1. lia. }
    clear J. exists k'; cbn [yr mo dy]; split; auto.
    apply month_has_num in Hk1, Hk'. change (feb 2004) with 29 in Hk'. change (feb 2003) with 28 in Hk1. lia. }
  rewrite day_in_year_good by assumption.
  destruct ((m =? 2) && (d =? 29)) eqn:F.
  - exfalso. destruct Ve as [k [Hk1 Hk2]]; cbn [yr mo dy] in Hk1, Hk2. apply month_has_num in Hk1.
    change (feb 2003) with 28 in Hk1. clear J. lia.
  - unfold jdd in J; cbn [yr mo dy] in J. f_equal. lia.
Qed.

Lemma which_pentad_good : forall m d n, day_in_year m d = Ok n ->
  which_pentad m d = Ok ((n - 1) / 5 + 1).
Proof.
  intros m d n H. pose proof (day_in_year_range _ _ _ H) as [R V].
  pose proof (valid_bounds _ V) as [B1 B2]; simpl in *.
  unfold which_pentad.
  rewrite (py_assert_true ((m <=? 12) && (1 <=? m))) by lia.
  rewrite (py_assert_true ((d <=? 31) && (1 <=? d))) by lia.
  rewrite ?bind_ok. cbv beta. rewrite H.
  rewrite ?bind_ok. cbv beta zeta.
  rewrite (py_assert_true (1 <=? (n - 1) / 5 + 1)) by lia.
  rewrite (py_assert_true ((n - 1) / 5 + 1 <=? 73)) by lia. reflexivity.
Qed.

Lemma which_pentad_bad : forall m d, ~ md_valid m d -> which_pentad m d = Err AssertionError.
Proof.
  intros m d H. unfold which_pentad, py_assert at 1.
  destruct ((m <=? 12) && (1 <=? m)); [|reflexivity]. simpl.
  unfold py_assert at 1. destruct ((d <=? 31) && (1 <=? d)); [|reflexivity]. simpl.
  rewrite day_in_year_bad by assumption. reflexivity.
Qed.

Definition pentad_sweep : bool :=
  forallb (fun k => let p := Z.of_nat k in
     match pentad_to_month_day p with
     | Ok (m, d) => match day_in_year m d with Ok n => n =? 5 * (p - 1) + 1 | _ => false end
     | Err _ => false end) (seq 1 73).

Lemma pentad_to_month_day_good : forall p, 1 <= p <= 73 ->
  exists m d, pentad_to_month_day p = Ok (m, d) /\ day_in_year m d = Ok (5 * (p - 1) + 1).
Proof.
  intros p Hp. assert (S : pentad_sweep = true) by (vm_compute; reflexivity).
  unfold pentad_sweep in S. rewrite forallb_forall in S.
  specialize (S (Z.to_nat p)). rewrite Z2Nat.id in S by lia.
  specialize (S ltac:(apply in_seq; lia)). cbv zeta in S.
  destruct (pentad_to_month_day p) as [[m d]|]; [|discriminate].
  exists m, d. split; auto.
  destruct (day_in_year m d); [|discriminate]. f_equal. lia.
Qed.

Lemma pentad_to_month_day_bad : forall p, ~ 1 <= p <= 73 -> pentad_to_month_day p = Err AssertionError.
Proof.
  intros p Hp. unfold pentad_to_month_day, py_assert.
  destruct ((0 <? p) && (p <? 74)) eqn:E; [lia | reflexivity].
Qed.

(* ---------- yesterday ---------- *)

Lemma datetime_ok_iff : forall y m d, datetime_ok y m d = true <-> (1 <= y <= 9999 /\ valid (mkdate y m d)).
Proof.
  intros y m d. unfold datetime_ok, valid; simpl. split.
  - intro H. repeat (apply andb_true_iff in H; destruct H as [H ?]).
    split; [lia|].
    destruct (month_has_exists y m) as [n Hn]; [lia|].
    exists n; split; auto. apply month_has_iff in Hn. destruct Hn as [_ Hn]. rewrite Hn in H0. lia.
  - intros [Hy [n [H1 H2]]]. pose proof (month_has_range _ _ _ H1).
    apply month_has_iff in H1. destruct H1 as [_ ->]. lia.
Qed.

Lemma yesterday_iff : forall y m d y' m' d',
  yesterday y m d = Some (y', m', d') <->
  next (mkdate y' m' d') (mkdate y m d) /\ 1 <= y' /\ y <= 9999.
Proof.
  intros y m d y' m' d'. unfold yesterday.
  destruct (datetime_ok y m d) eqn:V.
  - apply datetime_ok_iff in V. destruct V as [Hy [n [H1 H2]]]; simpl in *.
    pose proof (month_has_range _ _ _ H1) as [Rm Rn].
    destruct (1 <? d) eqn:Ed.
    + split.
      * intro E; injection E as <- <- <-. split; [|lia].
        replace d with (d - 1 + 1) at 2 by lia. econstructor; eauto; lia.
      * intros [N _]. inversion N; subst; try lia.
        f_equal. f_equal. lia.
    + destruct (1 <? m) eqn:Em.
      * destruct (month_has_exists y (m - 1)) as [k Hk]; [lia|].
        pose proof (proj1 (month_has_iff _ _ _) Hk) as [_ E1].
        replace (m - 1 - 1) with (m - 2) in E1 by lia. rewrite E1. split.
        -- intro E; injection E as <- <- <-. split; [|lia].
           replace d with 1 by lia. replace m with (m - 1 + 1) at 2 by lia. econstructor; eauto. lia.
        -- intros [N _]. inversion N as [? ? ? k' A B|? ? k' A B|?]; subst; try lia.
           replace (m' + 1 - 1) with m' in * by lia.
           pose proof (month_has_det _ _ _ _ Hk A). subst. reflexivity.
      * destruct (1 <? y) eqn:Ey.
        -- split.
           ++ intro E; injection E as <- <- <-. split; [|lia].
              replace d with 1 by lia. replace m with 1 by lia.
              replace y with (y - 1 + 1) at 2 by lia. constructor.
           ++ intros [N _]. inversion N as [? ? ? k' A B|? ? k' A B|?]; subst; try lia.
              ** apply month_has_range in A. lia.
              ** f_equal. f_equal. f_equal. lia.
        -- split; [discriminate|]. intros [N ?]. inversion N as [? ? ? k' A B|? ? k' A B|?]; subst; try lia.
           apply month_has_range in A. lia.
  - split; [discriminate|]. intros [N [A B]]. exfalso.
    assert (datetime_ok y m d = true); [|congruence].
    apply datetime_ok_iff. split; [|eapply next_valid_r; eauto].
    inversion N; subst; lia.
Qed.

(* ---------- month stepping ---------- *)

Lemma next_month_spec : forall y m, 1 <= m <= 12 ->
  ym_ok (next_month_is y m) /\ month_number (next_month_is y m) = month_number (y, m) + 1.
Proof.
  intros y m H. unfold next_month_is, ym_ok, month_number.
  destruct (12 <? m + 1) eqn:E; cbn [fst snd]; lia.
Qed.

Lemma last_month_spec : forall y m, 1 <= m <= 12 ->
  ym_ok (last_month_was y m) /\ month_number (last_month_was y m) = month_number (y, m) - 1.
Proof.
  intros y m H. unfold last_month_was, ym_ok, month_number.
  destruct (m - 1 =? 0) eqn:E; cbn [fst snd]; lia.
Qed.

Lemma month_number_inj : forall a b, ym_ok a -> ym_ok b -> month_number a = month_number b -> a = b.
Proof.
  intros [y m] [y' m']; unfold ym_ok, month_number; cbn [fst snd]. intros. f_equal; lia.
Qed.

Lemma month_inverse : forall y m, 1 <= m <= 12 ->
  last_month_was (fst (next_month_is y m)) (snd (next_month_is y m)) = (y, m) /\
  next_month_is (fst (last_month_was y m)) (snd (last_month_was y m)) = (y, m).
Proof.
  intros y m H. unfold next_month_is, last_month_was.
  destruct (12 <? m + 1) eqn:E; destruct (m - 1 =? 0) eqn:F; simpl; split;
  repeat match goal with |- context [if ?b then _ else _] => destruct b eqn:? end; f_equal; lia.
Qed.

(* ---------- year_month_gen ---------- *)

Lemma ym_loop_step : forall k y m y2 m2,
  (y =? y2) && (m =? m2) = false ->
  ym_loop (S k) y m y2 m2 =
  match ym_loop k (fst (next_month_is y m)) (snd (next_month_is y m)) y2 m2 with
  | Some l => Some ((y, m) :: l) | None => None end.
Proof.
  intros k y m y2 m2 H. simpl ym_loop at 1. rewrite H. unfold next_month_is.
  destruct (12 <? m + 1); reflexivity.
Qed.

Lemma ym_loop_spec : forall n y m y2 m2 fuel,
  1 <= m <= 12 -> 1 <= m2 <= 12 ->
  month_number (y2, m2) = month_number (y, m) + Z.of_nat n -> (n <= fuel)%nat ->
  exists l, ym_loop fuel y m y2 m2 = Some l /\ length l = S n /\
    (forall ym, In ym l <-> ym_ok ym /\ month_number (y, m) <= month_number ym <= month_number (y2, m2)) /\
    StronglySorted (fun a b => month_number a < month_number b) l.
Proof.
  induction n; intros y m y2 m2 fuel Hm Hm2 Hn Hf.
  - assert (E : (y, m) = (y2, m2)).
    { apply month_number_inj; unfold ym_ok; simpl; auto; lia. }
    injection E as -> ->. exists [(y2, m2)].
    split. { destruct fuel; simpl; rewrite !Z.eqb_refl; reflexivity. }
    split; [reflexivity|]. split.
    + intro ym; split.
      * intros [<-|[]]. unfold ym_ok; simpl snd. lia.
      * intros [A B]. left. symmetry. apply month_number_inj; auto. lia.
    + repeat constructor.
  - destruct fuel as [|fuel]; [lia|].
    destruct ((y =? y2) && (m =? m2)) eqn:E.
    { exfalso. replace y2 with y in Hn by lia. replace m2 with m in Hn by lia. lia. }
    rewrite ym_loop_step by assumption.
    destruct (next_month_spec y m Hm) as [O1 O2].
    destruct (next_month_is y m) as [y' m'] eqn:Enm. simpl fst; simpl snd.
    unfold ym_ok in O1; simpl in O1.
    destruct (IHn y' m' y2 m2 fuel O1 Hm2 ltac:(lia) ltac:(lia)) as [l [L1 [L2 [L3 L4]]]].
    rewrite L1. exists ((y, m) :: l). split; auto. split; [cbn [length]; lia|]. split.
    + intro ym; split.
      * intros [<-|I]; [unfold ym_ok; simpl snd; lia|]. apply L3 in I. destruct I; split; [assumption|lia].
      * intros [A B]. destruct (Z.eq_dec (month_number ym) (month_number (y, m))) as [Q|Q].
        -- left. symmetry. apply month_number_inj; auto.
        -- right. apply L3. split; auto. lia.
    + constructor; auto. apply Forall_forall. intros b I. apply L3 in I. lia.
Qed.

Lemma year_month_gen_spec : forall y1 m1 y2 m2 fuel,
  1 <= m1 <= 12 -> 1 <= m2 <= 12 -> month_number (y1, m1) <= month_number (y2, m2) ->
  (Z.to_nat (12 * (y2 - y1) + m2 - m1) <= fuel)%nat ->
  exists l, year_month_gen fuel y1 m1 y2 m2 = Ok (Some l) /\
    Z.of_nat (length l) = 12 * (y2 - y1) + m2 - m1 + 1 /\
    (forall ym, In ym l <-> ym_ok ym /\ month_number (y1, m1) <= month_number ym <= month_number (y2, m2)) /\
    StronglySorted (fun a b => month_number a < month_number b) l.
Proof.
  intros y1 m1 y2 m2 fuel H1 H2 H3 Hf.
  unfold month_number in H3; cbn [fst snd] in H3.
  unfold year_month_gen.
  rewrite (py_assert_true (y1 <=? y2)) by lia.
  rewrite (py_assert_true ((0 <? m1) && (m1 <=? 12))) by lia.
  rewrite ?bind_ok. cbv beta.
  destruct (ym_loop_spec (Z.to_nat (12 * (y2 - y1) + m2 - m1)) y1 m1 y2 m2 fuel) as [l [L1 [L2 [L3 L4]]]]; auto.
  - unfold month_number; cbn [fst snd]. lia.
  - exists l. rewrite L1. repeat split; auto; try apply L3; auto. lia.
Qed.

Lemma ym_loop_diverges : forall fuel y m y2 m2,
  1 <= m <= 12 -> ~ 1 <= m2 <= 12 \/ month_number (y2, m2) < month_number (y, m) ->
  ym_loop fuel y m y2 m2 = None.
Proof.
  induction fuel; intros y m y2 m2 Hm H.
  - simpl. destruct ((y =? y2) && (m =? m2)) eqn:E; auto.
    exfalso. assert (y = y2) by lia. assert (m = m2) by lia. subst. lia.
  - rewrite ym_loop_step.
    2: { destruct ((y =? y2) && (m =? m2)) eqn:E; auto.
         exfalso. assert (y = y2) by lia. assert (m = m2) by lia. subst. lia. }
    destruct (next_month_spec y m Hm) as [O1 O2].
    rewrite IHfuel; auto. destruct H; auto. right.
    destruct (next_month_is y m). simpl fst; simpl snd. lia.
Qed.

Lemma year_month_gen_diverges : forall fuel y1 m1 y2 m2,
  y1 <= y2 -> 1 <= m1 <= 12 -> ~ 1 <= m2 <= 12 \/ month_number (y2, m2) < month_number (y1, m1) ->
  year_month_gen fuel y1 m1 y2 m2 = Ok None.
Proof.
  intros. unfold year_month_gen.
  rewrite (py_assert_true (y1 <=? y2)) by lia.
  rewrite (py_assert_true ((0 <? m1) && (m1 <=? 12))) by lia.
  rewrite ?bind_ok. cbv beta. f_equal. now apply ym_loop_diverges.
Qed.

(* ---------- date_check ---------- *)

Lemma date_check_valid_month : forall y m d, 1 <= m <= 12 ->
  (date_check (Some y) (Some m) (Some d) = Ok 0 <-> (valid (mkdate y m d) /\ 1850 <= y <= 2024)) /\
  (date_check (Some y) (Some m) (Some d) = Ok 1 <-> ~ (valid (mkdate y m d) /\ 1850 <= y <= 2024)).
Proof.
  intros y m d Hm. unfold date_check, valid; simpl.
  destruct (month_has_exists y m Hm) as [n Hn].
  pose proof (proj1 (month_has_iff _ _ _) Hn) as [_ E]. rewrite E.
  replace ((m <? 1) || (12 <? m)) with false by lia. simpl.
  assert (V : (exists k, month_has y m k /\ 1 <= d <= k) <-> 1 <= d <= n).
  { split.
    - intros [k [Hk ?]]. pose proof (month_has_det _ _ _ _ Hn Hk). lia.
    - intro; exists n; auto. }
  rewrite V.
  destruct (d <? 1) eqn:D1; [split; split; intro H; try discriminate; try reflexivity; try lia|].
  destruct (n <? d) eqn:D2; [split; split; intro H; try discriminate; try reflexivity; try lia|].
  destruct ((2024 <? y) || (y <? 1850)) eqn:Y; split; split; intro H; try discriminate; try reflexivity; try lia.
Qed.

Lemma date_check_no_day : forall y m, date_check (Some y) (Some m) None = Ok 1.
Proof. reflexivity. Qed.

Lemma date_check_missing : forall y m d, y = None \/ m = None -> date_check y m d = Err AssertionError.
Proof. intros [y|] [m|] d [H|H]; try discriminate; reflexivity. Qed.

Lemma gml_length : forall y, length (get_month_lengths y) = 12%nat.
Proof. intro y; unfold get_month_lengths; destruct (py_isleap y); reflexivity. Qed.

Lemma date_check_bad_month_low : forall y m d, -11 <= m <= 0 -> date_check (Some y) (Some m) (Some d) = Ok 1.
Proof.
  intros y m d H. unfold date_check.
  replace ((m <? 1) || (12 <? m)) with true by lia.
  destruct (d <? 1); [reflexivity|].
  assert (exists ml, py_nth (get_month_lengths y) (m - 1) = Ok ml) as [ml ->].
  { unfold py_nth. rewrite gml_length.
    replace (m - 1 <? 0) with true by lia.
    replace ((m - 1 + Z.of_nat 12 <? 0) || (Z.of_nat 12 <=? m - 1 + Z.of_nat 12)) with false by lia.
    destruct (nth_error (get_month_lengths y) (Z.to_nat (m - 1 + Z.of_nat 12))) eqn:E; eauto.
    apply nth_error_None in E. rewrite gml_length in E. lia. }
  simpl. destruct (ml <? d); reflexivity.
Qed.

Lemma date_check_bad_month_high : forall y m d, 12 < m \/ m < -11 -> 1 <= d ->
  date_check (Some y) (Some m) (Some d) = Err IndexError.
Proof.
  intros y m d H Hd. unfold date_check.
  replace (d <? 1) with false by lia.
  assert (py_nth (get_month_lengths y) (m - 1) = Err IndexError) as ->; [|reflexivity].
  unfold py_nth. rewrite gml_length.
  destruct (m - 1 <? 0) eqn:E.
  - replace ((m - 1 + Z.of_nat 12 <? 0) || (Z.of_nat 12 <=? m - 1 + Z.of_nat 12)) with true by lia. reflexivity.
  - replace ((m - 1 <? 0) || (Z.of_nat 12 <=? m - 1)) with true by lia. reflexivity.
Qed.

Lemma which_pentad_five : forall m d n p, day_in_year m d = Ok n ->
  (which_pentad m d = Ok p <-> 5 * (p - 1) < n <= 5 * p).
Proof.
  intros m d n p H. rewrite (which_pentad_good m d n H). split.
  - intro E. injection E as <-. pose proof (Z.div_mod (n - 1) 5). pose proof (Z.mod_pos_bound (n - 1) 5). lia.
  - intro E. f_equal. pose proof (Z.div_unique (n - 1) 5 (p - 1) (n - 1 - 5 * (p - 1))). lia.
Qed.

Lemma which_pentad_total : forall m d,
  (md_valid m d -> exists p, which_pentad m d = Ok p /\ 1 <= p <= 73) /\
  (~ md_valid m d -> which_pentad m d = Err AssertionError).
Proof.
  intros m d; split; [|apply which_pentad_bad].
  intro V. pose proof (day_in_year_good m d V) as E.
  pose proof (day_in_year_range _ _ _ E) as [R _].
  eexists; split; [exact (which_pentad_good _ _ _ E)|].
  match type of R with _ <= ?k <= _ => set (n := k) in * end.
  pose proof (Z.div_mod (n - 1) 5). pose proof (Z.mod_pos_bound (n - 1) 5). lia.
Qed.

Lemma pentad_round_trip : forall p,
  (1 <= p <= 73 -> exists m d, pentad_to_month_day p = Ok (m, d) /\
      day_in_year m d = Ok (5 * (p - 1) + 1) /\ which_pentad m d = Ok p) /\
  (~ 1 <= p <= 73 -> pentad_to_month_day p = Err AssertionError).
Proof.
  intro p; split; [|apply pentad_to_month_day_bad].
  intro Hp. destruct (pentad_to_month_day_good p Hp) as [m [d [E1 E2]]].
  exists m, d. repeat split; auto. rewrite (which_pentad_good _ _ _ E2). f_equal.
  replace (5 * (p - 1) + 1 - 1) with ((p - 1) * 5) by lia. rewrite Z.div_mul; lia.
Qed.

Lemma season_spec : forall m, m <> 0 ->
  season m = Ok (if (m =? 12) || (m =? 1) || (m =? 2) then Some "DJF"%string
                 else if (3 <=? m) && (m <=? 5) then Some "MAM"%string
                 else if (6 <=? m) && (m <=? 8) then Some "JJA"%string
                 else if (9 <=? m) && (m <=? 11) then Some "SON"%string else None).
Proof.
  intros m Hm. unfold season.
  destruct ((m <? 0) || (12 <? m)) eqn:E.
  - assert (m < 0 \/ 12 < m). { apply orb_true_iff in E. destruct E as [E|E]; apply Z.ltb_lt in E; auto. }
    replace ((m =? 12) || (m =? 1) || (m =? 2)) with false.
    2: { symmetry; rewrite !orb_false_iff, !Z.eqb_neq; lia. }
    destruct (Z.leb_spec 3 m), (Z.leb_spec m 5), (Z.leb_spec 6 m), (Z.leb_spec m 8), (Z.leb_spec 9 m), (Z.leb_spec m 11);
      simpl; auto; lia.
  - apply orb_false_iff in E. rewrite !Z.ltb_ge in E. assert (Hm' : 1 <= m <= 12) by lia.
    month_split Hm'; reflexivity.
Qed.

Lemma day_in_year_common : forall m d n, day_in_year m d = Ok n <-> common_day m d n.
Proof.
  intros m d n. split.
  - intro H. destruct (day_in_year_range m d n H) as [_ V].
    destruct (Z.eq_dec m 2) as [M|M]; [destruct (Z.eq_dec d 29) as [D|D]|].
    + left. subst m d. assert (E : day_in_year 2 29 = Ok 60) by reflexivity. assert (Ok n = Ok 60) by congruence. injection H0 as ->. lia.
    + right. destruct (day_in_year_elapsed m d V ltac:(lia)) as [k [A B]]. exists k. split; [congruence|exact B].
    + right. destruct (day_in_year_elapsed m d V ltac:(lia)) as [k [A B]]. exists k. split; [congruence|exact B].
  - intros [[-> [-> ->]]|[k [-> H]]]; [reflexivity|].
    pose proof (days_later_valid _ _ _ H valid_2003_0101) as V. pose proof (days_later_jdd _ _ _ H) as J.
    assert (N : ~ (m = 2 /\ d = 29)).
    { intros [-> ->]. destruct V as [z [Z1 Z2]]. cbn [yr mo dy] in *. inversion Z1; subst; try lia.
      match goal with L : leap_year 2003 |- _ => destruct L as [[q Q] _] end. lia. }
    assert (W : md_valid m d).
    { destruct V as [z [Z1 Z2]]. cbn [yr mo dy] in *. inversion Z1; subst.
      - exists 31. split; [now constructor|exact Z2].
      - exists 30. split; [now constructor|exact Z2].
      - exists 29. split; [apply mh_29; apply isleap_iff; reflexivity|exact Z2].
      - exists 29. split; [apply mh_29; apply isleap_iff; reflexivity|cbn [dy]; lia]. }
    destruct (day_in_year_elapsed m d W N) as [k' [A B]]. rewrite A. apply days_later_jdd in B. f_equal. lia.
Qed.
Lemma which_pentad_pentad : forall m d p, which_pentad m d = Ok (p + 1) <-> pentad m d p.
Proof.
  intros m d p. split.
  - intro H. destruct (day_in_year m d) as [n|e] eqn:E.
    + exists n. split; [now apply day_in_year_common|]. apply (which_pentad_five m d n (p + 1) E) in H. lia.
    + exfalso. destruct (which_pentad_total m d) as [_ T].
      assert (N : ~ md_valid m d).
      { intro V. destruct (Z.eq_dec m 2) as [M|M]; [destruct (Z.eq_dec d 29) as [D|D]|].
        - subst. discriminate E.
        - destruct (day_in_year_elapsed m d V ltac:(lia)) as [k [A _]]. congruence.
        - destruct (day_in_year_elapsed m d V ltac:(lia)) as [k [A _]]. congruence. }
      rewrite (T N) in H. discriminate.
  - intros [n [C R]]. apply day_in_year_common in C. apply (which_pentad_five m d n (p + 1) C). lia.
Qed.
