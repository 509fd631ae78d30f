(** Lemmas for the tracking quality control: the four checks one after the other. *)
Require Import String ZArith QArith Qround List Bool Lia Lqa.
Require Import Verif.M_Base Verif.L_Base Verif.S_Calendar Verif.S_Sun Verif.M_Report Verif.S_Report Verif.L_Report Verif.L_Report3 Verif.M_Voyage Verif.S_Voyage Verif.M_Track Verif.S_Track Verif.L_Track5 Verif.M_Drifter Verif.S_Drifter Verif.S_Tail Verif.S_Tail2 Verif.P_Drifter Verif.P_Tail Verif.M_Tracking Verif.S_Tracking Verif.L_Tracking Verif.L_Tracking2.
Import ListNotations.
Open Scope string_scope.
Open Scope list_scope.
Open Scope Z_scope.

Ltac keys := let t' := fresh in let f' := fresh in let H := fresh in intros t' f' H; unfold here in H; cbn in H; repeat destruct H as [H|H]; try contradiction; injection H as <- <-; unfold same_key; cbn; discriminate.
Definition kPos : list (string * string) := here "POS" ["drf_agr"; "drf_spd"].
Definition kTail : list (string * string) := here "SST" ["drf_tail1"; "drf_tail2"].
Definition kBias : list (string * string) := here "SST" ["drf_bias"; "drf_noise"; "drf_short"].

Lemma ch_more : forall L L' r r', incl L L' -> ch L r r' -> ch L' r r'.
Proof. intros L L' r r' I [A B]. split; [exact A|]. intros t f H. apply B. intros t' f' J. apply H. now apply I. Qed.
Lemma ch_F2 : forall L L' a b c, incl L L' -> Forall2 (ch L') a b -> Forall2 (ch L) b c -> Forall2 (ch L') a c.
Proof.
  intros L L' a b c I F. revert c. induction F as [|x y a b H F IH]; intros c G; inversion G; subst; constructor; auto.
  eapply ch_more; [|eapply ch_trans; [exact H|eassumption]]. intros k K. apply in_app_or in K. destruct K; auto.
Qed.
Lemma ch_only : forall r r', ch drifter_flags r r' -> only_tracked r r'.
Proof. intros r r' [[A1 [A2 [A3 [A4 [A5 A6]]]]] B]. repeat split; auto. Qed.

(** Flags that may be written in all. *)
Definition kAll := drifter_flags.
Lemma on_track_ch : forall r r', ch kAll r r' -> (on_track r <-> on_track r').
Proof. intros r r' [_ C]. unfold on_track. rewrite !C by (unfold kAll, drifter_flags; keys). reflexivity. Qed.
Lemma afloat_ch : forall r r', ch (kTail ++ kBias) r r' -> (afloat r <-> afloat r').
Proof. intros r r' [_ C]. unfold afloat, on_track. rewrite !C by (unfold kTail, kBias; keys). reflexivity. Qed.
Lemma good_sst_ch : forall r r', ch kAll r r' -> (good_sst r <-> good_sst r').
Proof.
  intros r r' [_ C]. unfold good_sst. rewrite (C "SST" "bbud") by (unfold kAll, drifter_flags; keys).
  split; intros [A B]; (split; [|exact B]); intros f I; specialize (A f I); cbn in I; repeat destruct I as [<-|I]; try contradiction; rewrite C in * by (unfold kAll, drifter_flags; keys); exact A.
Qed.
Lemma incl_tb : incl (kTail ++ kBias) kAll.
Proof. intros x I. cbn in I. unfold kAll, drifter_flags. cbn. tauto. Qed.
Lemma incl_b : incl kBias (kTail ++ kBias).
Proof. intros x I. apply in_or_app. now right. Qed.
Lemma incl_t : incl kTail (kTail ++ kBias).
Proof. intros x I. apply in_or_app. now left. Qed.
Lemma fit_tails_ch : forall r r', ch (kTail ++ kBias) r r' -> (fit_for_tails r <-> fit_for_tails r').
Proof. intros r r' C. unfold fit_for_tails. rewrite (afloat_ch r r' C), (good_sst_ch r r' (ch_more _ _ _ _ incl_tb C)). reflexivity. Qed.
Lemma fit_bias_ch : forall r r', ch kBias r r' -> (fit_for_bias r <-> fit_for_bias r').
Proof.
  intros r r' C. unfold fit_for_bias. rewrite (fit_tails_ch r r' (ch_more _ _ _ _ incl_b C)). destruct C as [_ C]. rewrite !C by (unfold kBias; keys). reflexivity.
Qed.

Lemma passes_track : forall r, passes track_filter r = true <-> on_track r.
Proof.
  intro r. unfold passes. rewrite Z.eqb_eq. rewrite (proj1 (test_report_spec track_filter r)). unfold on_track, track_filter. split.
  - intro H. repeat split; apply H; cbn; tauto.
  - intros [A [B [C [D E]]]] t f v I. cbn in I. repeat destruct I as [I|I]; try contradiction; injection I as <- <- <-; assumption.
Qed.
Lemma passes_tail : forall r, passes_bayes tail_filter r = true <-> fit_for_tails r.
Proof.
  intro r. unfold passes_bayes, passes. rewrite andb_true_iff, Z.eqb_eq, Z.ltb_lt. rewrite (proj1 (test_report_spec tail_filter r)). unfold fit_for_tails, afloat, good_sst, on_track, tail_filter. split.
  - intros [H K]. repeat split; try exact K; try (apply H; cbn; tauto). intros f I. apply H. cbn in *. repeat destruct I as [<-|I]; tauto.
  - intros [[[A [B [C [D E]]]] [F G]] [H K]]. split; [|exact K]. intros t f v I. cbn in I. repeat destruct I as [I|I]; try contradiction; injection I as <- <- <-; try assumption; apply H; cbn; tauto.
Qed.
Lemma passes_bias : forall r, passes_bayes bias_filter r = true <-> fit_for_bias r.
Proof.
  intro r. unfold fit_for_bias. rewrite <- passes_tail. unfold passes_bayes, passes. rewrite !andb_true_iff, !Z.eqb_eq, Z.ltb_lt. rewrite (proj1 (test_report_spec bias_filter r)), (proj1 (test_report_spec tail_filter r)). unfold bias_filter. split.
  - intros [H K]. repeat split; try exact K; try (apply H; apply in_or_app; cbn; tauto). intros t f v I. apply H, in_or_app. now left.
  - intros [[H K] [A B]]. split; [|exact K]. intros t f v I. apply in_app_or in I. destruct I as [I|I]; [now apply H|]. cbn in I. repeat destruct I as [I|I]; try contradiction; injection I as <- <- <-; assumption.
Qed.

Lemma stamped_core : forall r r', core r r' -> stamped r -> stamped r'.
Proof.
  intros r r' C [la [lo [d [h [mi [A [B [D [E F]]]]]]]]]. pose proof (core_data _ _ C) as K. exists la, lo, d, h, mi. split; [eapply data_located; eauto|]. repeat split; try tauto.
  destruct C as [_ [_ [_ [-> _]]]]. exact F.
Qed.
Lemma matched_core : forall r r' bg ice var, core r r' -> matched r bg ice var -> matched r' bg ice var.
Proof.
  intros r r' bg ice var C M. pose proof (core_data _ _ C) as K. assert (X : forall n, In n ["OSTIA"; "ICE"; "BGVAR"] -> getext r' n = getext r n) by (intros n N; apply core_ext; [exact C|now apply not_motion]).
  destruct M as [A B D E F [s G] [la [lo [H I]]]]. constructor; auto; try (rewrite X; [assumption|cbn; tauto]).
  - exists s. rewrite (data_same_var r r'); auto. cbn. tauto.
  - exists la, lo. split; [eapply data_at_pos; eauto|exact I].
Qed.

Definition start_ok (reps : list report) : Prop :=
  one_drifter reps /\ trackable reps /\ minutes_in_order reps /\ sst_matched reps.
Lemma start_ch : forall L reps reps', incl L kAll -> Forall2 (ch L) reps reps' -> start_ok reps -> start_ok reps'.
Proof.
  intros L reps reps' I F [[id A] [B [C D]]].
  assert (K : Forall2 (ch kAll) reps reps') by (eapply Forall2_impl'; [|exact F]; intros; eapply ch_more; eauto). clear F I.
  assert (G : forall r', In r' reps' -> exists r, In r reps /\ ch kAll r r').
  { intros r' J. apply In_nth_error in J. destruct J as [i J]. destruct (Forall2_nth_back _ _ _ _ _ K _ _ J) as [r [N H]]. exists r. split; [eapply nth_error_In; eauto|exact H]. }
  split; [|split; [|split]].
  - exists id. apply Forall_forall. intros r' J. destruct (G r' J) as [r [N [H _]]]. rewrite Forall_forall in A. destruct (A r N) as [A1 A2]. split; [destruct H as [-> _]; exact A1|].
    unfold getint in *. rewrite (data_same_var r r'); [exact A2|now apply core_data|cbn; tauto].
  - intros r' J T. destruct (G r' J) as [r [N H]]. apply (stamped_core r r'); [apply H|]. apply B; [exact N|]. now apply (on_track_ch r r' H).
  - intros i j a' b' t Lt N N' T T' E H. destruct (Forall2_nth_back _ _ _ _ _ K _ _ N) as [a [M HA]], (Forall2_nth_back _ _ _ _ _ K _ _ N') as [b [M' HB]].
    apply (C i j a b t Lt M M'); [now apply (on_track_ch a a' HA)|now apply (on_track_ch b b' HB)| |].
    + destruct HA as [[_ [_ [_ [EA _]]]] _], HB as [[_ [_ [_ [EB _]]]] _]. congruence.
    + eapply data_hours; [apply data_same_sym, core_data, HA|apply data_same_sym, core_data, HB|exact H].
  - intros r' J T S. destruct (G r' J) as [r [N H]]. destruct (D r N) as [bg [ice [var M]]]; [now apply (on_track_ch r r' H)|now apply (good_sst_ch r r' H)|].
    exists bg, ice, var. apply (matched_core r r'); [apply H|exact M].
Qed.

Section Chain.
Variable sp : sphere.
Variable elev : Z -> Z -> Q -> Q -> Q -> Q -> Q.
Variable sq : Q -> Q.
Hypothesis W : well_defined sp.
Hypothesis DL : distance_like (sp_dist sp).
Hypothesis HE : elevation_like elev.
Hypothesis HS : forall a b, (a == b -> sq a == sq b)%Q.

Lemma are_refl : forall l, are l l.
Proof. induction l; constructor; auto. intro k. reflexivity. Qed.
Lemma drifters : forall reps v0 v, start_ok reps -> Forall2 core v0 v -> (forall r, In r v0 -> In r reps) -> Forall (fun r => getint r "PT" = Some 7) v.
Proof.
  intros reps v0 v [[id A] _] F I. rewrite Forall_forall in A. apply Forall_forall. intros r J. apply In_nth_error in J. destruct J as [i J]. destruct (Forall2_nth_back _ _ _ _ _ F _ _ J) as [r0 [N H]].
  destruct (A r0 (I r0 (nth_error_In _ _ N))) as [_ P7]. unfold getint in *. rewrite (data_same_var r0 r); [exact P7|now apply core_data|cbn; tauto].
Qed.
Lemma assess : forall reps v0 v, start_ok reps -> Forall2 core v0 v -> (forall r, In r v0 -> In r reps /\ fit_for_tails r) -> assessable v.
Proof.
  intros reps v0 v [_ [_ [_ D]]] F I r J. apply In_nth_error in J. destruct J as [i J]. destruct (Forall2_nth_back _ _ _ _ _ F _ _ J) as [r0 [N H]].
  destruct (I r0 (nth_error_In _ _ N)) as [I1 [[I2 _] I3]]. destruct (D r0 I1 I2 I3) as [bg [ice [var M]]]. exists bg, ice, var. eapply matched_core; eauto.
Qed.

(** One stage on reports that are fit. *)
Lemma stage_fit : forall (want : report -> bool) (P : report -> Prop) (check : list report -> res (list report)) (type : string) (flags : list string)
  (verdict : list report -> list (nat -> Prop) -> Prop) (reps : list report), start_ok reps ->
  (forall r, want r = true <-> P r) -> (forall r, P r -> on_track r) ->
  (forall v v' bads, Forall2 core v v' -> verdict v bads -> verdict v' bads) ->
  (forall r r', ch (here type flags) r r' -> (P r <-> P r')) ->
  (forall v0 v, Forall2 core v0 v -> (forall r, In r v0 -> In r reps /\ P r) -> timed v ->
     exists bads v', length bads = length flags /\ verdict v bads /\ check v = Ok v' /\ flags_are type (combine flags bads) v v') ->
  exists reps', stage sp want (if_drifter sp check false) reps = Ok reps' /\ Forall2 (ch (here type flags)) reps reps' /\ flagged_in type flags P verdict reps reps'.
Proof.
  intros want P check type flags verdict reps OK WP PT IV IP R. destruct OK as [[id A] [B [C D]]] eqn:EO. clear EO.
  apply (stage_ok sp want P WP reps id); auto.
  - intros r I. rewrite Forall_forall in A. now apply A.
  - intros i j a b t L N N' PA PB. apply (C i j a b t L N N'); auto.
  - intros v0 v F I T. destruct (R v0 v F I T) as [bads [v' [X1 [X2 [X3 X4]]]]].
    destruct (if_drifter_ok sp check (combine flags bads) type v) as [w [E FA]]; [|eauto|exists bads, w; auto].
    apply (drifters reps v0 v); [split; [now exists id|auto]|exact F|]. intros r J. now apply I.
Qed.

Variable p : track_params.
Variables half half' : nat.
Hypothesis S1 : tp_smooth p = 2 * Z.of_nat half + 1.
Hypothesis S2 : 1 <= tp_aground p.
Hypothesis S3 : (0 <= tp_speed p)%Q.
Hypothesis S4 : (0 < tp_speed_win p)%Q.
Hypothesis S5 : (0 <= iq_ship (tp_iquam p))%Q.
Hypothesis S6 : (0 <= iq_d (tp_iquam p))%Q.
Hypothesis S7 : (0 < iq_t (tp_iquam p))%Q.
Hypothesis S8 : tail_params_ok (tp_tail p) half'.
Hypothesis S9 : bias_params_ok (tp_bias p).

Let agr := runs_aground (sp_dist sp) half (tp_aground p).
Let spd := picked_up (sp_dist sp) (iq_ship (tp_iquam p)) (iq_d (tp_iquam p)) (iq_t (tp_iquam p)) (iq_n (tp_iquam p)) (tp_speed p) (tp_speed_win p).
Let tai := has_tails elev sq (tp_tail p) half'.
Let bia := off_background elev sq (tp_bias p).

Lemma chain_ok : forall reps, start_ok reps ->
  exists reps', track_checks sp elev sq p reps = Ok reps' /\ Forall2 only_tracked reps reps' /\
    flagged_in "POS" ["drf_agr"] on_track agr reps reps' /\ flagged_in "POS" ["drf_spd"] on_track spd reps reps' /\
    flagged_in "SST" ["drf_tail1"; "drf_tail2"] fit_for_tails tai reps reps' /\
    flagged_in "SST" ["drf_bias"; "drf_noise"; "drf_short"] fit_for_bias bia reps reps'.
Proof.
  intros reps0 OK0.
  assert (OT : forall f r r', ch (here "POS" [f]) r r' -> In f ["drf_agr"; "drf_spd"] -> on_track r <-> on_track r').
  { intros f r r' C I. apply on_track_ch. eapply ch_more; [|exact C]. intros x J. cbn in *. repeat destruct I as [<-|I]; unfold kAll, drifter_flags; cbn; tauto. }
  destruct (stage_fit (passes track_filter) on_track (new_aground_check sp (tp_smooth p) (tp_aground p)) "POS" ["drf_agr"] agr reps0 OK0 passes_track (fun r H => H)) as [reps1 [E1 [C1 F1]]].
  { apply runs_aground_d. } { intros r r' C. eapply OT; [exact C|cbn; tauto]. }
  { intros v0 v F I T. rewrite S1. destruct (C33_new_aground_check sp half (tp_aground p) v W T S2) as [v' [E FE]].
    eexists [_], v'. split; [reflexivity|]. split; [apply are_refl|]. split; [exact E|]. now apply exactly_are. }
  assert (OK1 : start_ok reps1) by (eapply start_ch; [|exact C1|exact OK0]; intros x I; cbn in *; unfold kAll, drifter_flags; cbn; tauto).
  destruct (stage_fit (passes track_filter) on_track (new_speed_check sp (tp_iquam p) (tp_speed p) (tp_speed_win p)) "POS" ["drf_spd"] spd reps1 OK1 passes_track (fun r H => H)) as [reps2 [E2 [C2 F2]]].
  { apply picked_up_d. } { intros r r' C. eapply OT; [exact C|cbn; tauto]. }
  { intros v0 v F I T. destruct (C34_new_speed_check sp (tp_iquam p) (tp_speed p) (tp_speed_win p) v T DL S3 S4 S5 S6 S7) as [v' [removed [E [SR FE]]]].
    eexists [_], v'. split; [reflexivity|]. split; [exists removed; split; [exact SR|apply are_refl]|]. split; [exact E|]. now apply exactly_are. }
  assert (OK2 : start_ok reps2) by (eapply start_ch; [|exact C2|exact OK1]; intros x I; cbn in *; unfold kAll, drifter_flags; cbn; tauto).
  destruct (stage_fit (passes_bayes tail_filter) fit_for_tails (sst_tail_check elev sq (tp_tail p)) "SST" ["drf_tail1"; "drf_tail2"] tai reps2 OK2 passes_tail (fun r H => proj1 (proj1 H))) as [reps3 [E3 [C3 F3]]].
  { apply has_tails_d. } { intros r r' C. apply fit_tails_ch. eapply ch_more; [apply incl_t|exact C]. }
  { intros v0 v F I T. destruct (C35_tail_check elev sq (tp_tail p) half' v HE HS T (assess reps2 v0 v OK2 F I) S8) as [obs [v' [CO [E FE]]]].
    eexists [_; _], v'. split; [reflexivity|]. split; [exists obs; split; [exact CO|apply are_refl]|]. split; [exact E|exact FE]. }
  assert (OK3 : start_ok reps3) by (eapply start_ch; [|exact C3|exact OK2]; intros x I; cbn in *; unfold kAll, drifter_flags; cbn; tauto).
  destruct (stage_fit (passes_bayes bias_filter) fit_for_bias (sst_biased_noisy_check elev sq (tp_bias p)) "SST" ["drf_bias"; "drf_noise"; "drf_short"] bia reps3 OK3 passes_bias (fun r H => proj1 (proj1 (proj1 H)))) as [reps4 [E4 [C4 F4]]].
  { apply off_background_d. } { intros r r' C. apply fit_bias_ch. exact C. }
  { intros v0 v F I T. assert (A : assessable v) by (apply (assess reps3 v0 v OK3 F); intros r J; destruct (I r J) as [I1 [I2 _]]; auto).
    destruct (C36_bias_noise_check elev sq (tp_bias p) v HE HS T A S9) as [obs [v' [CO [E FE]]]].
    eexists [_; _; _], v'. split; [reflexivity|]. split; [exists obs; split; [exact CO|apply are_refl]|]. split; [exact E|exact FE]. }
  assert (X34 : Forall2 (ch (kTail ++ kBias)) reps2 reps4).
  { eapply ch_F2; [apply incl_b| |exact C4]. eapply Forall2_impl'; [|exact C3]. intros a b. apply ch_more, incl_t. }
  assert (X02 : Forall2 (ch kPos) reps0 reps2).
  { eapply ch_F2; [|eapply Forall2_impl'; [|exact C1]|exact C2]; [intros x I; cbn in *; tauto|]. intros a b. apply ch_more. intros x I. cbn in *. tauto. }
  assert (X04 : Forall2 (ch kAll) reps0 reps4).
  { eapply ch_F2; [apply incl_tb| |exact X34]. eapply Forall2_impl'; [|exact X02]. intros a b. apply ch_more. intros x I. cbn in *. unfold kAll, drifter_flags. cbn. tauto. }
  assert (X24 : Forall2 (ch (here "POS" ["drf_spd"] ++ kTail ++ kBias)) reps1 reps4).
  { eapply ch_F2; [|eapply Forall2_impl'; [|exact C2]|exact X34]; [intros x I; apply in_or_app; now right|]. intros a b. apply ch_more. intros x I. apply in_or_app. now left. }
  assert (X03 : Forall2 (ch (kPos ++ kTail)) reps0 reps3).
  { eapply ch_F2; [|eapply Forall2_impl'; [|exact X02]|exact C3]; [intros x I; apply in_or_app; now right|]. intros a b. apply ch_more. intros x I. apply in_or_app. now left. }
  exists reps4. split; [|split; [|split; [|split; [|split]]]].
  - unfold track_checks, new_buoy_aground_check, new_buoy_speed_check, buoy_tail_check, buoy_bias_noise_check. rewrite E1. cbn [bind]. rewrite E2. cbn [bind]. rewrite E3. cbn [bind]. exact E4.
  - eapply Forall2_impl'; [|exact X04]. apply ch_only.
  - eapply flagged_later; [exact F1|exact X24| |apply runs_aground_d|].
    + intros r r' C. apply on_track_ch. eapply ch_more; [|exact C]. intros x I. cbn in *. unfold kAll, drifter_flags. cbn. tauto.
    + intros f t' f' [<-|[]]. revert t' f'. unfold kTail, kBias. keys.
  - eapply flagged_later; [|exact X34| |apply picked_up_d|].
    + eapply flagged_before; [exact F2|exact C1|]. intros f t' f' [<-|[]]. revert t' f'. keys.
    + intros r r' C. apply on_track_ch. eapply ch_more; [|exact C]. apply incl_tb.
    + intros f t' f' [<-|[]]. revert t' f'. unfold kTail, kBias. keys.
  - eapply flagged_later; [|exact C4| |apply has_tails_d|].
    + eapply flagged_before; [exact F3|exact X02|]. intros f t' f' I. revert t' f'. unfold kPos. repeat destruct I as [<-|I]; try contradiction; keys.
    + intros r r' C. apply fit_tails_ch. eapply ch_more; [apply incl_b|exact C].
    + intros f t' f' I. revert t' f'. repeat destruct I as [<-|I]; try contradiction; keys.
  - eapply flagged_before; [exact F4|exact X03|]. intros f t' f' I. revert t' f'. unfold kPos, kTail. repeat destruct I as [<-|I]; try contradiction; keys.
Qed.
End Chain.
