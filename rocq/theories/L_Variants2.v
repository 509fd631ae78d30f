(** The two programs as instances of the shared loops. *)
Require Import String Ascii ZArith QArith Qround List Bool Lia Sorted Permutation.
Require Import Verif.M_Base Verif.L_Base Verif.M_Calendar Verif.M_Checks Verif.M_Report Verif.S_Report Verif.L_Report Verif.L_Report2 Verif.L_Report3
  Verif.S_Sun Verif.M_Imma Verif.M_Grid Verif.M_Voyage Verif.M_Track Verif.M_Buddy Verif.M_BaseQC Verif.S_BaseQC Verif.L_BaseQC Verif.L_BaseQC2 Verif.P_BaseQC
  Verif.M_Print Verif.S_Print Verif.L_Print Verif.M_Main Verif.S_Hum Verif.S_Main Verif.S_Main2 Verif.M_Variants Verif.S_Variants
  Verif.L_Main Verif.L_Main2 Verif.L_Main3 Verif.L_Main4 Verif.L_Main5 Verif.L_Main6 Verif.L_Main7 Verif.L_Variants.
Import ListNotations.
Open Scope string_scope.
Open Scope list_scope.
Open Scope Z_scope.

Lemma sst_base_frame : forall elev p r r', perform_base_sst_qc elev p r = Ok r' -> exists r1, do_fix_missing_hour r = Ok r1 /\ frame base_keys r1 r'.
Proof.
  intros elev p r r' H. unfold perform_base_sst_qc, base_positional in H. step H. step X. exists y0. split; [reflexivity|].
  eapply frame_trans; [|unfold do_base_sst_qc in H; qc_walk H].
  step X. eapply frame_trans; [unfold is_buoy in X1; qc_walk X1|].
  step X. eapply frame_trans; [unfold is_ship in X2; qc_walk X2|].
  step X. eapply frame_trans; [unfold is_deck_780 in X3; qc_walk X3|].
  step X. eapply frame_trans; [unfold do_position_check in X4; qc_walk X4|].
  step X. eapply frame_trans; [unfold do_date_check in X5; qc_walk X5|].
  step X. eapply frame_trans; [unfold do_time_check in X6; qc_walk X6|].
  step X. eapply frame_trans; [unfold do_blacklist in X7; qc_walk X7|].
  unfold do_day_check in X; qc_walk X.
Qed.
Lemma sst_coords : forall elev p r r', perform_base_sst_qc elev p r = Ok r' -> exists la lo, getvar r "LAT" = Some la /\ getvar r "LON" = Some lo.
Proof.
  intros elev p r r' H. unfold perform_base_sst_qc, base_positional in H. step H. clear H. rename X into H. do 5 step H.
  assert (F : frame base_keys y0 y3).
  { eapply frame_trans; [unfold is_buoy in X0; qc_walk X0|]. eapply frame_trans; [unfold is_ship in X1; qc_walk X1|]. unfold is_deck_780 in X2; qc_walk X2. }
  apply frame_holds in F. unfold do_position_check, set_qc_r in X3. step X3.
  assert (S : same_where r y3).
  { eapply same_where_trans; [|apply (holds_where _ _ _ F); cbn; tauto]. destruct (fix_shape _ _ X) as [->|[_ [_ [_ [r2 [d [S ->]]]]]]]; [repeat split|].
    apply holds_setvar in S. change (same_where r r2). apply (holds_where _ _ _ S); cbn; intuition discriminate. }
  destruct S as [A [B _]]. rewrite <- A, <- B. destruct (getvar y3 "LAT") as [la|], (getvar y3 "LON") as [lo|]; try discriminate. eauto.
Qed.
Definition sound_base (E : setup) : Prop := elevation_like (e_elev E) /\ sane (e_base E).
Lemma with_ext_id : forall r, with_ext r (r_ext r) = r. Proof. destruct r; reflexivity. Qed.

Section Hires.
Variable E : setup.
Definition hires_base := perform_base_sst_qc (e_elev E) (e_base E).
Lemma hires_ready : forall year month y m st bg line im st' r, usable (e_tables E) (e_excluded E) y m line im ->
  prepare_hires E year month y m st bg im = Ok (st', r) -> vready E get_value hires_base year month y m im r.
Proof.
  intros year month y m st bg line im st' r U H. unfold prepare_hires in H. do 4 step H. apply ok_inj in H. injection H as <- <-.
  rewrite <- (with_ext_id y0) in X0. exact (proj1 (ready_of E get_value hires_base (sst_base_frame _ _) (sst_coords _ _) _ _ _ _ _ _ _ _ _ _ _ U X X0 X1 X2)).
Qed.
Definition hires_keys : list string := ["POStrk"; "POSfew"; "SSTrep"].
Lemma hires_checks_frame : forall v v', ship_checks_hires E v = Ok v' -> frames hires_keys v v'.
Proof.
  intros v v' H. unfold ship_checks_hires in H. step H.
  eapply frames_trans; [eapply frames_incl; [|eapply track_frame, X]; unfold incl, hires_keys; cbn [In]; tauto|].
  eapply frames_incl; [|eapply repeated_frame, H]. unfold incl, hires_keys. cbn [In append]. tauto.
Qed.
Definition hires_tab := base_sst_flags (e_elev E) (e_base E).
Lemma hires_tab_ok : sound_base E -> forall r, processable (view r) -> wf_report r -> exists r', hires_base r = Ok r' /\ flagged r' (hires_tab (view r')).
Proof. intros [A B] r P W. destruct (C46_sst (e_elev E) (e_base E) r A B P W) as [r' [X [Y _]]]. eauto. Qed.
End Hires.

Section Track.
Variable E : setup.
Definition track_base := perform_base_qc (e_elev E) (e_base E).
Lemma track_ready_back : forall year month y m st bg line im st' r, usable (e_tables E) (e_excluded E) y m line im ->
  prepare_track E year month y m st bg im = Ok (st', r) -> vready E get_value_mds_style track_base year month y m im r /\
    (e_tracking E = true -> 1985 <= y -> current E y m st -> current E y m st' /\ right_background E y m bg r).
Proof.
  intros year month y m st bg line im st' r U H. unfold prepare_track in H. step H. step H. destruct y1 as [st1 r3]. do 3 step H. apply ok_inj in H. injection H as <- <-.
  destruct (background_shape _ _ _ _ _ _ _ _ X0) as [ex [E3 _]]. pose proof X1 as X1'. rewrite E3 in X1'.
  destruct (ready_of E get_value_mds_style track_base (base_frame _ _) (base_coords _ _) _ _ _ _ _ _ _ _ _ _ _ U X X1' X2 X3) as [R [W XT]]. split; [exact R|].
  intros T Y C.
  assert (MO : getint y0 "MO" = Some m) by (destruct W as [_ [_ [M _]]]; unfold getint; rewrite <- M; apply (vr_month _ _ _ _ _ _ _ _ _ R)).
  destruct (background_ok E y m st bg y0 st1 r3 T Y C (ex_intro _ m MO) X0) as [C1 [B1 [W1 _]]]. split; [exact C1|]. eapply right_keep; [exact B1| |].
  - destruct W1 as [P1 [P2 [P3 P4]]], W as [W1' [W2 [W3 W4]]]. repeat split; congruence.
  - intros n N. rewrite (XT n N), E3. reflexivity.
Qed.
Lemma track_ready : forall year month y m st bg line im st' r, usable (e_tables E) (e_excluded E) y m line im ->
  prepare_track E year month y m st bg im = Ok (st', r) -> vready E get_value_mds_style track_base year month y m im r.
Proof. intros year month y m st bg line im st' r U H. exact (proj1 (track_ready_back _ _ _ _ _ _ _ _ _ _ U H)). Qed.
Lemma track_back : forall year month y m bg lines st d st' d', e_tracking E = true -> 1985 <= y -> current E y m st -> read_lines_by E (prepare_track E year month) y m bg lines st d = Ok (st', d') ->
  current E y m st' /\ exists ims reps, read_off (usable (e_tables E) (e_excluded E) y m) lines ims /\
    Forall2 (fun im r => made_plain im r /\ right_background E y m bg r) ims reps /\ d_reps d' = d_reps d ++ reps.
Proof.
  intros year month y m bg lines st d st' d' T Y. revert st d st' d'. induction lines as [|line lines IH]; intros st d st' d' C H; cbn [read_lines_by] in H.
  - injection H as <- <-. split; [exact C|]. exists [], []. rewrite app_nil_r. repeat split; constructor.
  - step H. pose proof (accept_spec _ _ _ _ _ X) as A. destruct y0 as [im|].
    + step H. destruct y0 as [st1 r]. destruct (track_ready_back _ _ _ _ _ _ _ _ _ _ A X0) as [RD BK]. destruct (BK T Y C) as [C1 B]. destruct (IH _ _ _ _ C1 H) as [C2 [ims [reps [P [Q R]]]]]. split; [exact C2|].
      exists (im :: ims), (r :: reps). split; [now constructor|]. split; [|rewrite R; cbn [deck_append d_reps]; now rewrite <- app_assoc].
      constructor; [|exact Q]. split; [|exact B]. apply (vr_made _ _ _ _ _ _ _ _ _ RD).
    + destruct (IH _ _ _ _ C H) as [C2 [ims [reps [P [Q R]]]]]. split; [exact C2|]. exists ims, reps. split; [now constructor|]. auto.
Qed.
Definition track_keys : list string := ["POStrk"; "POSfew"; "POSiquam_track"; "SSTspike"; "DPTrepsat"; "DPTround"; "SSTrep"].
Lemma track_checks_frame : forall v v', ship_checks_track E v = Ok v' -> frames track_keys v v'.
Proof.
  intros v v' H. unfold ship_checks_track in H. do 5 step H.
  eapply frames_trans; [eapply frames_incl; [|eapply track_frame, X]; unfold incl, track_keys; cbn [In]; tauto|].
  eapply frames_trans; [eapply frames_incl; [|eapply iquam_frame, X0]; unfold incl, track_keys; cbn [In]; tauto|].
  eapply frames_trans; [eapply frames_incl; [|eapply spike_frame, X1]; unfold incl, track_keys; cbn [In append]; tauto|].
  eapply frames_trans; [eapply frames_incl; [|eapply saturated_frame, X2]; unfold incl, track_keys; cbn [In]; tauto|].
  eapply frames_trans; [eapply frames_incl; [|eapply rounded_frame, X3]; unfold incl, track_keys; cbn [In append]; tauto|].
  eapply frames_incl; [|eapply repeated_frame, H]. unfold incl, track_keys. cbn [In append]. tauto.
Qed.
Definition track_tab := base_flags (e_elev E) (e_base E).
Lemma track_tab_ok : sound_base E -> forall r, processable (view r) -> wf_report r -> exists r', track_base r = Ok r' /\ flagged r' (track_tab (view r')).
Proof. intros [A B] r P W. destruct (C46_base_qc (e_elev E) (e_base E) r A B P W) as [r' [X [Y _]]]. eauto. Qed.
End Track.
