(** The main program comes to an end: the files written. *)
Require Import String Ascii ZArith QArith Qround List Bool Lia Lqa Sorted.
Require Import Verif.M_Base Verif.L_Base Verif.M_Calendar Verif.S_Calendar Verif.L_Calendar Verif.L_Calendar2 Verif.P_Calendar Verif.M_Report Verif.S_Report Verif.L_Report Verif.L_Report2 Verif.L_Report3 Verif.M_Imma Verif.M_ImmaTables Verif.S_Imma Verif.M_Grid
  Verif.S_Grid Verif.S_Clim Verif.M_Voyage Verif.S_Voyage Verif.L_Voyage Verif.M_Track Verif.S_Track Verif.M_BaseQC Verif.S_BaseQC Verif.S_Sun Verif.P_BaseQC Verif.S_Hum Verif.M_Files Verif.M_Print Verif.S_Print Verif.P_Print
  Verif.M_Main Verif.S_Main Verif.S_Main2 Verif.L_Main Verif.L_Main2 Verif.L_Main3 Verif.L_Main4 Verif.L_Main5 Verif.L_Main6 Verif.L_Main7 Verif.P_Main Verif.P_Main2 Verif.S_Total Verif.L_Total Verif.L_Total2 Verif.L_Total3.
Import ListNotations.
Open Scope string_scope.
Open Scope list_scope.
Open Scope Z_scope.

Section Total.
Variable E : setup.
Hypothesis EQ : equipped E.
Let HUM : humidity_only (e_hum E) := eq_hum E EQ.

Definition drift_ok (r : report) : Prop := on_globe r /\ clock_ok r.
Lemma drift_frame : forall K r r', frame K r r' -> drift_ok r -> drift_ok r'.
Proof. intros K r r' F [A B]. split; [eapply globe_frame; eassumption|eapply clock_frame; eassumption]. Qed.
Lemma sub_total : forall sp a b, drift_ok a -> drift_ok b -> exists m, rep_sub sp a b = Ok m.
Proof.
  intros sp a b [[la [lo [A1 [A2 _]]]] CA] [[la' [lo' [B1 [B2 _]]]] CB]. unfold rep_sub. rewrite A1, A2, B1, B2. cbv zeta.
  assert (T : exists t, rep_timediff a b = Ok t).
  { unfold rep_timediff. destruct CB as [H|[d [h [Y [M [D [V [H HO]]]]]]]]; [rewrite H; eauto|]. rewrite H. destruct CA as [H'|[d' [h' [Y' [M' [D' [V' [H' HO']]]]]]]]; [rewrite H'; eauto|].
    rewrite H', Y, M, D, Y', M', D'. destruct (C02_time_difference_sign d d' h h' V V' HO HO') as [t [T _]]. rewrite T. eauto. }
  destruct T as [[t|] T]; rewrite T; cbn [bind]; [destruct (Qeqb t 0)|]; eauto.
Qed.
Lemma add_total : forall sp l v, Forall drift_ok v -> Forall drift_ok l -> exists v', add_reports sp v l = Ok v'.
Proof.
  intros sp. induction l as [|r l IH]; intros v FV FL; cbn [add_reports]; [eauto|]. inversion FL; subst. unfold add_report. destruct (rev v) as [|p w] eqn:R.
  - cbn [bind]. apply IH; [|assumption]. constructor; [|constructor]. eapply drift_frame; [apply (set_motion_frame [])|assumption].
  - assert (P : drift_ok p) by (rewrite Forall_forall in FV; apply FV; apply in_rev; rewrite R; now left). destruct (sub_total sp r p H1 P) as [m S]. rewrite S. cbn [bind]. apply IH; [|assumption]. apply Forall_app. split; [exact FV|]. constructor; [|constructor]. eapply drift_frame; [apply (set_motion_frame [])|assumption].
Qed.
Lemma drifters_total : forall y m, 1 <= m <= 12 -> forall ids reps, NoDup (concat (map snd ids)) -> (forall id l, In (id, l) ids -> l = positions reps id) ->
  (forall r, In r reps -> test_report drifter_filter r = 0 -> drift_ok r /\ of_month y m r /\ printable r) -> exists names files, drifter_output E y m ids reps = Ok (names, files).
Proof.
  intros y m M ids reps0 N0 P0 D0.
  enough (G : forall ids reps, NoDup (concat (map snd ids)) -> (forall id l, In (id, l) ids -> exists sel v, voyage_of E drifter_filter reps l = Ok (sel, v) /\
    match v with [] => True | r0 :: _ => match r_id r0 with None => True | Some id => exists fs, voyage_write_output (e_str_of E) v (e_runid E) (e_dir E y m) y m = Ok fs end end) -> exists names files, drifter_output E y m ids reps = Ok (names, files)).
  { apply G; [exact N0|]. intros id l I. pose proof (P0 id l I) as EL.
    assert (LIM : forall i, In i l -> (i < length reps0)%nat) by (intros i J; rewrite EL in J; apply In_positions in J; destruct J as [r [J _]]; apply nth_error_Some; congruence).
    destruct (pick_total drifter_filter reps0 l LIM) as [sel [sub [P1 [P2 F]]]]. pose proof P1 as P1'. rewrite (pick_spec drifter_filter reps0 l LIM) in P1'. apply ok_inj in P1'.
    assert (ALL : Forall (fun r => drift_ok r /\ of_month y m r /\ printable r) sub).
    { apply Forall_forall. intros r J. apply In_nth_error in J. destruct J as [k J]. destruct (forall2_nth _ _ _ _ _ _ _ F J) as [i [A B]]. apply D0; [exact (nth_error_In _ _ B)|].
      apply nth_error_In in A. rewrite <- P1' in A. apply filter_In in A. destruct A as [_ A]. unfold passes in A. rewrite B in A. now apply Z.eqb_eq in A. }
    destruct (add_total (e_sphere E) sub []) as [v V]; [constructor|eapply Forall_impl; [|exact ALL]; intros r X; apply X|].
    exists sel, v. split; [unfold voyage_of; rewrite P1; cbn [bind]; rewrite P2; cbn [bind]; rewrite V; reflexivity|].
    destruct v as [|r0 v]; [exact Logic.I|]. destruct (r_id r0) as [i|] eqn:RI; [|exact Logic.I].
    pose proof (add_reports_frame _ _ _ _ V [] [] (Forall2_nil _)) as FR. cbn [app] in FR.
    assert (OM : Forall (fun r => of_month y m r /\ printable r) (r0 :: v)).
    { clear - FR ALL. induction FR as [|r r' l l' FM FR IH]; [constructor|]. inversion ALL as [|? ? [_ [[O1 O2] [[u [U1 U2]] U3]]] A']; subst. constructor; [|now apply IH]. split.
      - split; [rewrite (frame_int _ _ _ _ FM); [exact O1|apply not_motion; reflexivity]|rewrite (frame_int _ _ _ _ FM); [exact O2|apply not_motion; reflexivity]].
      - destruct FM as [Q1 [Q2 _]]. split; [exists u; split; [congruence|exact U2]|]. intros j Z. apply U3. congruence. }
    assert (PK' : picked (of_month y m) (r0 :: v) (r0 :: v)) by (apply picked_all; eapply Forall_impl; [|exact OM]; intros r [Z _]; exact Z).
    assert (PR' : Forall printable (r0 :: v)) by (eapply Forall_impl; [|exact OM]; intros r [_ Z]; exact Z).
    destruct (C49_voyage_output (e_str_of E) (eq_text E EQ) r0 v (r0 :: v) (e_runid E) (e_dir E y m) y m i ltac:(lia) PK' PR' RI) as [ys [ms [content [fs' [safe [_ [_ [_ [W' _]]]]]]]]]. eauto. }
  clear ids reps0 N0 P0 D0. induction ids as [|[id l] ids IH]; intros reps N H; cbn [drifter_output]; [eauto|]. destruct (H id l (or_introl eq_refl)) as [sel [v [V C]]]. rewrite V. cbn [bind].
  assert (X : exists names files, match v with [] => Ok ([], []) | r0 :: _ => match r_id r0 with None => Ok ([], []) | Some id => let! files := voyage_write_output (e_str_of E) v (e_runid E) (e_dir E y m) y m in Ok ([(id ++ "," ++ safe_filename id ++ newline_s)%string], files) end end = Ok (names, files)).
  { destruct v as [|r0 v]; [eauto|]. destruct (r_id r0); [|eauto]. destruct C as [fs W]. rewrite W. cbn [bind]. eauto. }
  destruct X as [n [f X]]. rewrite X. cbn [bind]. cbn [map snd concat] in N. destruct (IH (put_back sel v reps) (concat_skip _ _ N)) as [n' [f' Y]]; [|rewrite Y; cbn [bind]; eauto].
  intros id' l' I. destruct (H id' l' (or_intror I)) as [sel' [w [V' C']]]. exists sel', w. split; [|exact C'].
  apply voyage_put; [exact V'|]. assert (SEL : incl sel l). { unfold voyage_of in V. do 3 step V. apply ok_inj in V. injection V as <- <-. exact (proj1 (picked_sub _ _ _ _ X0)). }
  intros i J K. apply SEL in K. assert (Q : In i (concat (map snd ids))) by (apply in_concat; exists l'; split; [apply in_map_iff; exists (id', l'); auto|exact J]). revert K Q. clear - N. induction l as [|x l IHl]; [intros []|].
  inversion N; subst. intros [->|K] Q; [apply H1; apply in_app_iff; auto|]. now apply IHl.
Qed.

Section Month.
Variables year month : Z.
Hypothesis IO : in_order E year month.
Let M : 1 <= month <= 12 := io_month _ _ _ IO.
Lemma month_total : exists files, run_month E year month = Ok files.
Proof.
  destruct (deck_total E EQ year month IO) as [d CD]. unfold run_month. rewrite CD. cbn [bind].
  destruct (deck_spec E HUM year month d M CD) as [a [b [c [after [PA [PB [PC [IX [SH [BU [F1 F2]]]]]]]]]]].
  pose proof (frames_all _ _ _ F1 F2) as FA.
  assert (IX' : index_ok (d_reps d) (d_ids d)) by (apply (index_frames _ _ _ _ F2), (index_frames _ _ _ _ F1), IX).
  rewrite before_is in PA. rewrite (after_is year month M) in PC.
  assert (AB : Forall (able E) (d_reps d)).
  { apply (all_able E _ _ FA). apply Forall_app. split; [eapply (part_able E EQ year month IO); [|exact PA]; now left|]. apply Forall_app. split; [eapply (part_able E EQ year month IO); [|exact PB]; right; now left|]. eapply (part_able E EQ year month IO); [|exact PC]. do 2 right. now left. }
  assert (NE : d_reps d <> []).
  { intro Z. assert (Z1 : a ++ b ++ c = []) by (rewrite Z in FA; destruct (a ++ b ++ c); [reflexivity|inversion FA]). apply app_eq_nil in Z1. destruct Z1 as [-> Z1]. apply app_eq_nil in Z1. destruct Z1 as [-> ->].
    destruct (io_some _ _ _ IO) as [y [m [lines [line [im [I [L [J U]]]]]]]].
    assert (G : forall ym, part E year month ym [] -> (y, m) = ym -> False).
    { intros ym [ims [R F]] <-. cbn [fst snd] in *. inversion F; subst. rewrite L in R. cbn [records] in R. exact (read_off_in E y m lines [] line im R J U). }
    destruct I as [I|[I|[I|[]]]]; symmetry in I; (eapply G; [|exact I]; assumption). }
  destruct (deck_picked E HUM year month d M CD) as [lm [DM PM]].
  assert (X1 : Forall printable lm).
  { destruct DM as [ims [R F]]. cbn [fst snd] in *.
    assert (Q : Forall plain_record ims).
    { unfold records in R. destruct (e_lines E year month) as [lines|] eqn:L; [|subst ims; constructor]. eapply read_off_good; [exact R|]. intros line im J U.
      destruct (io_records _ _ _ IO year month lines line im ltac:(right; now left) L J U) as [_ [_ K]]. now apply K. }
    clear - F Q. induction F as [|im r ims reps A F IH]; [constructor|]. inversion Q as [|? ? [[u [U1 U2]] I1] Q']; subst. constructor; [|now apply IH].
    destruct (fn_made _ _ _ _ _ _ _ A) as [MI [MU _]]. split.
    - destruct MU as [[s [S1 S2]]|[S1 S2]]; [|destruct S1; eauto]. exists s. split; [exact S2|]. congruence.
    - intros i I. destruct MI as [[s [S1 S2]]|[S1 S2]]; [|congruence]. apply I1. congruence. }
  destruct (C49_deck_output (e_str_of E) (eq_text E EQ) (d_reps d) lm (e_runid E) (e_dir E year month) year month false ltac:(lia) NE PM X1) as [ys [ms [content [files [_ [_ [W _]]]]]]]. rewrite W. cbn [bind].
  destruct (e_tracking E) eqn:ET; [|eauto].
  destruct (drifters_total year month M (d_ids d) (d_reps d) (groups_disjoint _ _ IX')) as [names [more DR]]; [apply IX'| |rewrite DR; cbn [bind]; eauto].
  intros r I T. apply drifter_lets in T. destruct T as [T1 T2]. rewrite Forall_forall in AB. specialize (AB r I). split; [split; [apply (ab_globe _ _ AB)|now apply (ab_clock _ _ AB)]|].
  assert (O : of_month year month r) by (destruct (C44_month_match E year month d r HUM M CD I) as [[A B]|[A B]]; [tauto|congruence]). split; [exact O|].
  rewrite Forall_forall in X1. apply X1. clear - PM I O. induction PM as [|x l l' P PM IH|x l l' P PM IH]; [destruct I|destruct I as [->|I]; [now left|right; auto]|destruct I as [->|I]; [contradiction|auto]].
Qed.
End Month.
Lemma months_total : forall months, (forall y m, In (y, m) months -> in_order E y m) -> exists files, run_months E months = Ok files.
Proof.
  induction months as [|[y m] months IH]; intro H; cbn [run_months]; [eauto|]. destruct (month_total y m (H y m (or_introl eq_refl))) as [a A]. rewrite A. cbn [bind]. destruct IH as [b B]; [intros y' m' I; apply H; now right|]. rewrite B. cbn [bind]. eauto.
Qed.
End Total.
