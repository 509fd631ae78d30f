(** The high resolution and the tracking-only program come to an end: the files written. *)
Require Import String Ascii ZArith QArith Qround List Bool Lia Lqa Sorted.
Require Import Verif.M_Base Verif.L_Base Verif.M_Calendar Verif.S_Calendar Verif.L_Calendar Verif.L_Calendar2 Verif.P_Calendar Verif.M_Report Verif.S_Report Verif.L_Report Verif.L_Report2 Verif.L_Report3 Verif.M_Imma Verif.M_ImmaTables Verif.S_Imma Verif.M_Grid
  Verif.S_Grid Verif.L_Grid Verif.L_Mds Verif.S_Clim Verif.L_Clim Verif.P_Grid Verif.M_Voyage Verif.S_Voyage Verif.L_Voyage Verif.P_Voyage Verif.M_Track Verif.S_Track Verif.P_Track Verif.M_Buddy Verif.S_Buddy Verif.L_Buddy Verif.P_Buddy Verif.M_BaseQC Verif.S_BaseQC Verif.S_Sun Verif.P_BaseQC Verif.S_Hum Verif.M_Files Verif.M_Print Verif.S_Print Verif.P_Print
  Verif.M_Main Verif.S_Main Verif.S_Main2 Verif.L_Main Verif.L_Main2 Verif.L_Main3 Verif.L_Main4 Verif.L_Main5 Verif.L_Main6 Verif.L_Main7 Verif.P_Main Verif.P_Main2 Verif.M_Variants Verif.S_Variants Verif.L_Variants Verif.L_Variants2 Verif.P_Variants
  Verif.S_Total Verif.L_Total Verif.L_Total2 Verif.L_Total3 Verif.L_Total4 Verif.S_Total2 Verif.L_Total6.
Import ListNotations.
Open Scope string_scope.
Open Scope list_scope.
Open Scope Z_scope.

Lemma drifters_by_total : forall E write y m, (forall r0 v id, picked (of_month y m) (r0 :: v) (r0 :: v) -> Forall printable (r0 :: v) -> r_id r0 = Some id -> exists fs, write (r0 :: v) = Ok fs) ->
  forall ids reps, NoDup (concat (map snd ids)) -> (forall id l, In (id, l) ids -> l = positions reps id) ->
  (forall r, In r reps -> test_report drifter_filter r = 0 -> drift_ok r /\ of_month y m r /\ printable r) -> exists names files, drifters_by E write ids reps = Ok (names, files).
Proof.
  intros E write y m WR ids reps0 N0 P0 D0.
  enough (G : forall ids reps, NoDup (concat (map snd ids)) -> (forall id l, In (id, l) ids -> exists sel v, voyage_of E drifter_filter reps l = Ok (sel, v) /\
    match v with [] => True | r0 :: _ => match r_id r0 with None => True | Some id => exists fs, write v = Ok fs end end) -> exists names files, drifters_by E write ids reps = Ok (names, files)).
  { apply G; [exact N0|]. intros id l I. pose proof (P0 id l I) as EL.
    assert (LIM : forall i, In i l -> (i < length reps0)%nat) by (intros i J; rewrite EL in J; apply In_positions in J; destruct J as [r [J _]]; apply nth_error_Some; congruence).
    destruct (pick_total drifter_filter reps0 l LIM) as [sel [sub [P1 [P2 F]]]]. pose proof P1 as P1'. rewrite (pick_spec drifter_filter reps0 l LIM) in P1'. apply ok_inj in P1'.
    assert (ALL : Forall (fun r => drift_ok r /\ of_month y m r /\ printable r) sub).
    { apply Forall_forall. intros r J. apply In_nth_error in J. destruct J as [k J]. destruct (forall2_nth _ _ _ _ _ _ _ F J) as [i [A B]]. apply D0; [exact (nth_error_In _ _ B)|].
      apply nth_error_In in A. rewrite <- P1' in A. apply filter_In in A. destruct A as [_ A]. unfold passes in A. rewrite B in A. now apply Z.eqb_eq in A. }
    destruct (add_total (e_sphere E) sub []) as [v V]; [constructor|eapply Forall_impl; [|exact ALL]; intros r X; apply X|].
    exists sel, v. split; [unfold voyage_of; rewrite P1; cbn [bind]; rewrite P2; cbn [bind]; rewrite V; reflexivity|].
    destruct v as [|r0 v]; [exact Logic.I|]. destruct (r_id r0) as [i|] eqn:RI; [|exact Logic.I].
    pose proof (add_reports_frame _ _ _ _ V [] [] (Forall2_nil _)) as FR. cbn [app] in FR.
    assert (OM : Forall (fun r => of_month y m r /\ printable r) (r0 :: v)).
    { clear - FR ALL. induction FR as [|r r' l l' FM FR IH]; [constructor|]. inversion ALL as [|? ? [_ [[O1 O2] [[u [U1 U2]] U3]]] A']; subst. constructor; [|now apply IH]. split.
      - split; [rewrite (frame_int _ _ _ _ FM); [exact O1|apply not_motion; reflexivity]|rewrite (frame_int _ _ _ _ FM); [exact O2|apply not_motion; reflexivity]].
      - destruct FM as [Q1 [Q2 _]]. split; [exists u; split; [congruence|exact U2]|]. intros j Z. apply U3. congruence. }
    apply (WR r0 v i); [apply picked_all; eapply Forall_impl; [|exact OM]; intros r [Z _]; exact Z|eapply Forall_impl; [|exact OM]; intros r [_ Z]; exact Z|exact RI]. }
  clear ids reps0 N0 P0 D0. induction ids as [|[id l] ids IH]; intros reps N H; cbn [drifters_by]; [eauto|]. destruct (H id l (or_introl eq_refl)) as [sel [v [V C]]]. rewrite V. cbn [bind].
  assert (X : exists names files, match v with [] => Ok ([], []) | r0 :: _ => match r_id r0 with None => Ok ([], []) | Some id => let! files := write v in Ok ([(id ++ "," ++ safe_filename id ++ newline_s)%string], files) end end = Ok (names, files)).
  { destruct v as [|r0 v]; [eauto|]. destruct (r_id r0); [|eauto]. destruct C as [fs W]. rewrite W. cbn [bind]. eauto. }
  destruct X as [n [f X]]. rewrite X. cbn [bind]. cbn [map snd concat] in N. destruct (IH (put_back sel v reps) (concat_skip _ _ N)) as [n' [f' Y]]; [|rewrite Y; cbn [bind]; eauto].
  intros id' l' I. destruct (H id' l' (or_intror I)) as [sel' [w [V' C']]]. exists sel', w. split; [|exact C'].
  apply voyage_put; [exact V'|]. assert (SEL : incl sel l). { unfold voyage_of in V. do 3 step V. apply ok_inj in V. injection V as <- <-. exact (proj1 (picked_sub _ _ _ _ X0)). }
  intros i J K. apply SEL in K. assert (Q : In i (concat (map snd ids))) by (apply in_concat; exists l'; split; [apply in_map_iff; exists (id', l'); auto|exact J]). revert K Q. clear - N. induction l as [|x l IHl]; [intros []|].
  inversion N; subst. intros [->|K] Q; [apply H1; apply in_app_iff; auto|]. now apply IHl.
Qed.
Lemma months_by_total : forall one (ok : Z -> Z -> Prop), (forall y m, ok y m -> exists files, one y m = Ok files) -> forall months, (forall y m, In (y, m) months -> ok y m) -> exists files, months_by one months = Ok files.
Proof.
  intros one ok H. induction months as [|[y m] months IH]; intro F; cbn [months_by]; [eauto|]. destruct (H y m (F y m (or_introl eq_refl))) as [a A]. rewrite A. cbn [bind]. destruct IH as [b B]; [intros y' m' I; apply F; now right|]. rewrite B. cbn [bind]. eauto.
Qed.
Lemma run_by_total : forall one (ok : Z -> Z -> Prop), (forall y m, ok y m -> exists files, one y m = Ok files) -> forall y1 m1 y2 m2, 1 <= m1 <= 12 -> 1 <= m2 <= 12 -> month_number (y1, m1) <= month_number (y2, m2) ->
  (forall y m, 1 <= m <= 12 -> month_number (y1, m1) <= month_number (y, m) <= month_number (y2, m2) -> ok y m) ->
  exists n files, forall fuel, (n <= fuel)%nat -> run_by one fuel y1 m1 y2 m2 = Ok (Some files).
Proof.
  intros one ok T y1 m1 y2 m2 A B C H. set (n := Z.to_nat (12 * (y2 - y1) + m2 - m1)).
  destruct (C05_year_month_gen y1 m1 y2 m2 n A B C (le_n _)) as [l [G [_ [I S1]]]].
  destruct (months_by_total one ok T l) as [files F].
  { intros y m J. apply I in J. destruct J as [J1 J2]. now apply H. }
  exists n, files. intros fuel L. destruct (C05_year_month_gen y1 m1 y2 m2 fuel A B C L) as [l' [G' [_ [I' S2]]]].
  assert (l' = l).
  { clear -I I' S1 S2. assert (J : forall x, In x l' <-> In x l) by (intro x; rewrite I, I'; tauto). clear I I'. revert l' S2 J. induction S1 as [|a l S1 IH F]; intros l' S2 J.
    - destruct l' as [|b l']; [reflexivity|]. destruct (proj1 (J b) (or_introl eq_refl)).
    - destruct S2 as [|b l' S2 F2]; [destruct (proj2 (J a) (or_introl eq_refl))|]. rewrite Forall_forall in F, F2.
      assert (b = a). { destruct (proj1 (J b) (or_introl eq_refl)) as [K|K]; [auto|]. destruct (proj2 (J a) (or_introl eq_refl)) as [K'|K']; [auto|]. pose proof (F _ K). pose proof (F2 _ K'). lia. }
      subst b. f_equal. apply IH; [exact S2|]. intro x. split; intro K.
      + destruct (proj1 (J x) (or_intror K)) as [->|K']; [pose proof (F2 _ K); lia|exact K'].
      + destruct (proj2 (J x) (or_intror K)) as [->|K']; [pose proof (F _ K); lia|exact K']. }
  subst l'. unfold run_by. rewrite G'. cbn [bind]. rewrite F. reflexivity.
Qed.
(** A report made from a placeable record is on the globe; noting the month always works. *)
Lemma placed_globe : forall im r, (forall n, In n VARLIST -> getvar r n = seen_number im n) -> placeable im -> on_globe r.
Proof.
  intros im r V W. destruct (pl_lat _ W) as [la [LA LA']]. destruct (pl_lon _ W) as [lo [LO LO']].
  destruct (lon_west r lo) as [l [A B]]; [rewrite V by (apply mem_In; reflexivity); apply number_seen, LO|exact LO'|].
  exists la, l. split; [unfold lat; rewrite V by (apply mem_In; reflexivity); apply number_seen, LA|]. auto.
Qed.
Lemma note_total : forall year month r, exists r', note_month year month r = Ok r'.
Proof.
  intros year month r. unfold note_month. set (z := match getint r "YR" with Some _ => _ | None => _ end).
  assert (Z01 : 0 <= z <= 9). { unfold z. destruct (getint r "YR"); [|lia]. destruct (getint r "MO"); [|lia]. unfold month_match. destruct (_ && _)%bool; lia. }
  unfold set_qc, py_assert. replace ((0 <=? z) && (z <=? 9))%bool with true by (symmetry; apply andb_true_iff; split; apply Z.leb_le; lia). cbn [bind]. change (mem "POS" special_qc_types || mem "POS" VARLIST)%bool with true. cbn [bind]. eauto.
Qed.
Lemma made_processable : forall tb ex y m line im r1 e cl, usable tb ex y m line im -> 1 <= y -> 1 <= m <= 12 -> placeable im -> report_of im = Ok r1 -> assoc "SLP" cl = None ->
  processable (view (with_clim (with_ext r1 e) cl)) /\ wf_report (with_clim (with_ext r1 e) cl).
Proof.
  intros tb ex y m line im r1 e cl U Y M W E1 CL. destruct (usable_year _ _ _ _ _ _ U) as [UY UM]. destruct (report_of_spec _ _ E1) as [_ [_ [V1 [W1 _]]]]. split; [|exact W1].
  assert (V : forall n, mem n VARLIST = true -> getvar (with_clim (with_ext r1 e) cl) n = seen_number im n).
  { intros n N. rewrite <- (V1 n) by (apply mem_In, N). unfold getvar. destruct (index_of_In n VARLIST) as [i [I _]]; [apply mem_In, N|]. rewrite I. reflexivity. }
  split; [|split].
  - destruct (pl_lat _ W) as [la [LA _]]. destruct (pl_lon _ W) as [lo [LO _]]. exists la, lo. cbn [view s_var]. rewrite !V by reflexivity. split; now apply number_seen.
  - exists y, m. split; [|split; [|lia]]; eexists; cbn [view s_var]; (rewrite V by reflexivity); rewrite ?UY, ?UM; (split; [reflexivity|reflexivity]).
  - intros z Z. cbn [view s_sd] in Z. unfold getnorm_stdev in Z. cbn [with_clim r_clim] in Z. rewrite CL in Z. discriminate.
Qed.
Lemma mean_sst : forall E get c r, on_globe r -> e_lib E "SST" "mean" = Some c -> (forall r, on_globe r -> exists o, look get c r = Ok o) -> r_clim r = [] ->
  exists cl, add_means E get ["SST"] r = Ok (with_clim r cl) /\ assoc "SLP" cl = None.
Proof.
  intros E get c r G L H Z. cbn [add_means]. unfold field_of. rewrite L. cbn [bind]. destruct (H r G) as [o O]. rewrite O. cbn [bind]. eexists. split; [reflexivity|]. rewrite Z. reflexivity.
Qed.
Lemma base_dsi : forall K r rf r8 r9 year month, do_fix_missing_hour r = Ok rf -> frame K rf r8 -> note_month year month r8 = Ok r9 -> dsi_of r9 = dsi_of r.
Proof.
  intros K r rf r8 r9 year month F1 F2 E9. unfold note_month in E9. rewrite (frame_dsi _ _ _ (set_qc_frame _ _ _ _ _ E9)), (frame_dsi _ _ _ F2).
  unfold dsi_of. destruct (fix_shape _ _ F1) as [->|[_ [_ [_ [r' [d [S ->]]]]]]]; [reflexivity|]. destruct (setvar_shape _ _ _ _ S) as [_ [_ [_ [Q _]]]]. cbn [with_dt r_ext]. now rewrite Q.
Qed.
Lemma means_dsi : forall E get names r r', add_means E get names r = Ok r' -> dsi_of r' = dsi_of r.
Proof.
  intros E get. induction names as [|n names IH]; intros r r' H; cbn [add_means] in H; [apply ok_inj in H; now subst|]. do 2 step H. rewrite (IH _ _ H). reflexivity.
Qed.

Section Hires.
Variable E : setup.
Hypothesis HQ : hires_equipped E.
Let SQ := hq_sst E HQ.
Let SB : sound_base E := conj (sq_elev E SQ) (sq_base E SQ).
Lemma hires_prep : forall year month y m st bg line im, usable (e_tables E) (e_excluded E) y m line im -> 1 <= y <= 9999 -> 1 <= m <= 12 -> placeable im ->
  (e_tracking E = true -> trackable y m im) -> loaded_ok st -> True -> exists st' r, prepare_hires E year month y m st bg im = Ok (st', r) /\ loaded_ok st'.
Proof.
  intros year month y m st bg line im U Y M W _ L _. destruct (report_of_total _ _ _ _ _ _ U Y M (pl_hour _ W) (pl_heading _ W)) as [r1 E1]. unfold prepare_hires. rewrite E1. cbn [bind].
  destruct (report_of_spec _ _ E1) as [_ [_ [V1 [W1 [Q1 [C1 _]]]]]]. destruct (hq_mean E HQ) as [c [LC WC]].
  destruct (mean_sst E get_value c r1 (placed_globe _ _ V1 W) LC) as [cl [E4 CL]]; [intros r G; now apply look_value|exact C1|]. rewrite E4. cbn [bind].
  destruct (made_processable _ _ _ _ _ _ r1 (r_ext r1) cl U ltac:(lia) M W E1 CL) as [P WF]. rewrite with_ext_id in P, WF.
  destruct (hires_tab_ok E SB _ P WF) as [r8 [E8 _]]. unfold hires_base in E8. rewrite E8. cbn [bind]. destruct (note_total year month r8) as [r9 E9]. rewrite E9. cbn [bind]. eauto.
Qed.
Lemma hires_head : forall year month y m st bg im st' r, prepare_hires E year month y m st bg im = Ok (st', r) -> heading_known r.
Proof.
  intros year month y m st bg im st' r H. apply dsi_heading. unfold prepare_hires in H. do 4 step H. apply ok_inj in H. injection H as <- <-. destruct (sst_base_frame _ _ _ _ X1) as [rf [F1 F2]].
  rewrite (base_dsi _ _ _ _ _ _ _ F1 F2 X2), (means_dsi _ _ _ _ _ X0). exact (report_of_dsi _ _ X).
Qed.
Lemma hires_ct : forall v v1, track_check (e_sphere E) (e_track E) v = Ok v1 -> Forall is_located v1 -> exists v', ship_checks_hires E v = Ok v'.
Proof.
  intros v v1 T L. unfold ship_checks_hires. rewrite T. cbn [bind]. destruct (C26_repeated_values (e_prt E) "SST" v1 (fst (e_rep E)) (snd (e_rep E)) (sq_rep E SQ) ltac:(cbn; tauto)) as [v' [A _]]. eauto.
Qed.
Lemma hires_in_tab : forall o, incl (kind_flags o ++ place_flags o ++ sst_flags (e_base E) o) (hires_tab E o).
Proof. intros o x I. unfold hires_tab, base_sst_flags, base_pos_flags. rewrite !in_app_iff in *. tauto. Qed.
Lemma hires_flagged : forall year month y m im r, 1 <= y -> 1 <= m <= 12 -> vready E get_value (hires_base E) year month y m im r -> flagged r (hires_tab E (view r)).
Proof. exact (vbase_ok E get_value (hires_base E) (sst_coords _ _) (hires_tab E) (fun r => eq_refl) (fun o => eq_refl) (sound_base E) (hires_tab_ok E) SB). Qed.
Section Month.
Variables year month : Z.
Hypothesis RB : readable E year month.
Let M : 1 <= month <= 12 := rb_month _ _ _ RB.
Lemma hires_deck_total : exists d, hires_deck E year month = Ok d.
Proof.
  exact (vdeck_total E SQ get_value (hires_base E) (prepare_hires E) (fun _ => Ok None) (fun _ => True) (hires_ready E) hires_prep hires_head (fun m _ => ex_intro _ None (conj eq_refl I))
    (ship_checks_hires E) hires_keys (hires_checks_frame E) eq_refl hires_ct (hires_tab E) hires_in_tab hires_flagged year month RB).
Qed.
Lemma hires_month_total : some_record E year month -> month_plain E year month -> exists files, hires_month E year month = Ok files.
Proof.
  intros SR MP. destruct hires_deck_total as [d CD]. unfold hires_month. rewrite CD. cbn [bind].
  destruct (vdeck_picked E get_value (hires_base E) (sst_coords _ _) (prepare_hires E) (fun _ => Ok None) (hires_ready E) (ship_checks_hires E) hires_keys (hires_checks_frame E) eq_refl (hires_tab E) (fun r => eq_refl) (fun o => eq_refl) (sound_base E) (hires_tab_ok E) year month d M CD) as [l [D P]].
  pose proof (vprintable _ _ _ _ _ _ _ _ _ D MP) as PR.
  assert (N : d_reps d <> []) by exact (vdeck_some E get_value (hires_base E) (prepare_hires E) (fun _ => Ok None) (hires_ready E) (ship_checks_hires E) hires_keys (hires_checks_frame E) year month RB d SR CD).
  destruct (deck_flags (d_reps d) l ("hires_" ++ e_runid E)%string (e_dir E year month) year month ltac:(lia) N P PR) as [f [W _]]. rewrite W. cbn [bind]. destruct (e_tracking E) eqn:ET; [|eauto].
  destruct (vdeck_done E get_value (hires_base E) (sst_coords _ _) (prepare_hires E) (fun _ => Ok None) (hires_ready E) (ship_checks_hires E) hires_keys (hires_checks_frame E) eq_refl (hires_tab E) (fun r => eq_refl) (fun o => eq_refl) (sound_base E) (hires_tab_ok E) year month d M CD) as [_ [_ [_ [_ [IX _]]]]].
  pose proof (vdeck_sable E get_value (hires_base E) (prepare_hires E) (fun _ => Ok None) (hires_ready E) (ship_checks_hires E) hires_keys (hires_checks_frame E) eq_refl (hires_tab E) hires_in_tab hires_flagged year month RB d CD) as AB.
  destruct (drifters_by_total E (fun v => voyage_write_qc v ("hires_" ++ e_runid E)%string (e_dir E year month) year month hires_flags) year month) with (ids := d_ids d) (reps := d_reps d) as [names [more DR]]; [| |apply IX| |rewrite DR; cbn [bind]; eauto].
  - intros r0 v id PK PP RI. destruct (voyage_flags_file r0 v (r0 :: v) ("hires_" ++ e_runid E)%string (e_dir E year month) year month id ltac:(lia) PK PP RI) as [g [G1 _]]. eauto.
  - exact (groups_disjoint _ _ IX).
  - intros r I T. apply drifter_lets in T. destruct T as [T1 T2]. rewrite Forall_forall in AB. specialize (AB r I). split; [split; [apply (sb_globe _ _ AB)|now apply (sb_clock _ _ AB)]|].
    assert (O : of_month year month r).
    { destruct (vmatch E get_value (hires_base E) (sst_coords _ _) (prepare_hires E) (fun _ => Ok None) (hires_ready E) (ship_checks_hires E) hires_keys (hires_checks_frame E) eq_refl (hires_tab E) (fun r => eq_refl) (fun o => eq_refl) (sound_base E) (hires_tab_ok E) year month d r M CD I) as [[A B]|[A B]]; [tauto|congruence]. }
    split; [exact O|]. rewrite Forall_forall in PR. apply PR. clear - P I O. induction P as [|x l l' Q P IH|x l l' Q P IH]; [destruct I|destruct I as [->|I]; [now left|right; auto]|destruct I as [->|I]; [contradiction|auto]].
Qed.
End Month.
End Hires.

Section Track.
Variable E : setup.
Hypothesis TQ : track_equipped E.
Let SQ := tq_sst E TQ.
Let SB : sound_base E := conj (sq_elev E SQ) (sq_base E SQ).
Lemma track_prep : forall year month y m st bg line im, usable (e_tables E) (e_excluded E) y m line im -> 1 <= y <= 9999 -> 1 <= m <= 12 -> placeable im ->
  (e_tracking E = true -> trackable y m im) -> loaded_ok st -> variance_ok E bg -> exists st' r, prepare_track E year month y m st bg im = Ok (st', r) /\ loaded_ok st'.
Proof.
  intros year month y m st bg line im U Y M W T L V. destruct (report_of_total _ _ _ _ _ _ U Y M (pl_hour _ W) (pl_heading _ W)) as [r1 E1]. unfold prepare_track. rewrite E1. cbn [bind].
  destruct (report_of_spec _ _ E1) as [_ [_ [V1 [W1 [Q1 [C1 _]]]]]]. destruct (tq_mean E TQ) as [c [LC WC]]. pose proof (placed_globe _ _ V1 W) as GL1.
  assert (D1 : e_tracking E = true -> forall d, getint r1 "DY" = Some d -> valid (on y m d)).
  { intros ET d D. apply (tr_day _ _ _ (T ET)). assert (K : getvar r1 "DY" = Some (inject_Z d)) by (apply getint_var; [reflexivity|reflexivity|exact D]). rewrite <- K, V1 by (apply mem_In; reflexivity). apply seen_number_field. }
  destruct (background_total E y m st bg r1 (tq_ostia E TQ) ltac:(lia) L V GL1 D1) as [st1 [r3 [E3 L1]]]. rewrite E3. cbn [bind].
  destruct (background_shape _ _ _ _ _ _ _ _ E3) as [ex [E3' _]]. assert (GL3 : on_globe r3) by (rewrite E3'; exact GL1).
  destruct (mean_sst E get_value_mds_style c r3 GL3 LC) as [cl [E4 CL]]; [intros r G; now apply look_mds|rewrite E3'; exact C1|]. rewrite E4. cbn [bind].
  destruct (made_processable _ _ _ _ _ _ r1 ex cl U ltac:(lia) M W E1 CL) as [P WF]. rewrite <- E3' in P, WF.
  destruct (track_tab_ok E SB _ P WF) as [r8 [E8 _]]. unfold track_base in E8. rewrite E8. cbn [bind]. destruct (note_total year month r8) as [r9 E9]. rewrite E9. cbn [bind]. eauto.
Qed.
Lemma track_head : forall year month y m st bg im st' r, prepare_track E year month y m st bg im = Ok (st', r) -> heading_known r.
Proof.
  intros year month y m st bg im st' r H. apply dsi_heading. unfold prepare_track in H. step H. step H. destruct y1 as [st1 r3]. do 3 step H. apply ok_inj in H. injection H as <- <-. destruct (base_frame _ _ _ _ X2) as [rf [F1 F2]].
  rewrite (base_dsi _ _ _ _ _ _ _ F1 F2 X3), (means_dsi _ _ _ _ _ X1), (background_dsi _ _ _ _ _ _ _ _ X0). exact (report_of_dsi _ _ X).
Qed.
Lemma track_load : forall m, 1 <= m <= 12 -> exists bg, load_track E m = Ok bg /\ variance_ok E bg.
Proof.
  intros m M. unfold load_track, variance_ok. destruct (e_tracking E) eqn:ET; [|exists None; split; [reflexivity|discriminate]]. destruct (tq_variance E TQ ET m M) as [c [C O]]. rewrite C. cbn [bind]. exists (Some c). eauto.
Qed.
Lemma track_ct : forall v v1, track_check (e_sphere E) (e_track E) v = Ok v1 -> Forall is_located v1 -> exists v', ship_checks_track E v = Ok v'.
Proof.
  intros v v1 T L1. destruct (sq_sphere E SQ) as [S1 S2]. unfold ship_checks_track. rewrite T. cbn [bind].
  assert (C : exists v2, iquam_track_check (e_sphere E) (e_iquam E) v1 = Ok v2).
  { destruct (tq_iquam E TQ) as [Q1 [Q2 [Q3 Q4]]]. destruct v1 as [|r0 l]; [eexists; reflexivity|]. destruct (generic_report r0) eqn:G.
    - destruct (C28_generic_pass (e_sphere E) (e_iquam E) (r0 :: l) r0 l eq_refl G) as [v2 [C _]]. eauto.
    - destruct (C28_iquam (e_sphere E) (e_iquam E) (r0 :: l) r0 l eq_refl G S2 L1) as [v2 [rm [C _]]]; [|exact Q3|exact Q4|eauto]. unfold iquam_limit. destruct (pt_buoy r0); assumption. }
  destruct C as [v2 C]. rewrite C. cbn [bind]. assert (L2 : Forall is_located v2) by (eapply frames_located; [eapply iquam_frame, C|exact L1]).
  assert (D : exists v3, spike_check (e_sphere E) (e_spike E) "SST" v2 = Ok v3).
  { destruct (tq_spike E TQ) as [Q1 Q2]. destruct (C29_spike (e_sphere E) (e_spike E) "SST" v2) as [v3 [rm [D _]]]; [cbn; tauto|exact S2|exact L2| |eauto]. unfold spike_delta. destruct v2; [lra|]. destruct (pt_buoy _); assumption. }
  destruct D as [v3 D]. rewrite D. cbn [bind]. assert (L3 : Forall is_located v3) by (eapply frames_located; [eapply spike_frame, D|exact L2]).
  destruct (C25_saturated_runs (e_sphere E) (fst (e_sat E)) (snd (e_sat E)) v3 (tq_sat E TQ) L3) as [v4 [F _]]. rewrite F. cbn [bind].
  destruct (tq_round E TQ) as [R1 R2]. destruct (C27_rounded_values (e_prt E) "DPT" v4 (fst (e_round E)) (snd (e_round E)) R2) as [v5 [G _]]; [cbn; tauto|exact R1|]. rewrite G. cbn [bind].
  destruct (C26_repeated_values (e_prt E) "SST" v5 (fst (e_rep E)) (snd (e_rep E)) (sq_rep E SQ) ltac:(cbn; tauto)) as [v' [A _]]. eauto.
Qed.
Lemma track_in_tab : forall o, incl (kind_flags o ++ place_flags o ++ sst_flags (e_base E) o) (track_tab E o).
Proof. intros o x I. unfold track_tab, base_flags. rewrite !in_app_iff in *. tauto. Qed.
Lemma track_flagged : forall year month y m im r, 1 <= y -> 1 <= m <= 12 -> vready E get_value_mds_style (track_base E) year month y m im r -> flagged r (track_tab E (view r)).
Proof. exact (vbase_ok E get_value_mds_style (track_base E) (base_coords _ _) (track_tab E) (fun r => eq_refl) (fun o => eq_refl) (sound_base E) (track_tab_ok E) SB). Qed.
Section Month.
Variables year month : Z.
Hypothesis RB : readable E year month.
Let M : 1 <= month <= 12 := rb_month _ _ _ RB.
Lemma track_deck_total : exists d, track_deck E year month = Ok d.
Proof.
  exact (vdeck_total E SQ get_value_mds_style (track_base E) (prepare_track E) (load_track E) (variance_ok E) (track_ready E) track_prep track_head track_load
    (ship_checks_track E) track_keys (track_checks_frame E) eq_refl track_ct (track_tab E) track_in_tab track_flagged year month RB).
Qed.
Lemma track_month_total : (e_tracking E = true -> month_plain E year month) -> exists files, track_month E year month = Ok files.
Proof.
  intros MP. destruct track_deck_total as [d CD]. unfold track_month. rewrite CD. cbn [bind]. destruct (e_tracking E) eqn:ET; [|eauto]. specialize (MP eq_refl).
  destruct (vdeck_picked E get_value_mds_style (track_base E) (base_coords _ _) (prepare_track E) (load_track E) (track_ready E) (ship_checks_track E) track_keys (track_checks_frame E) eq_refl (track_tab E) (fun r => eq_refl) (fun o => eq_refl) (sound_base E) (track_tab_ok E) year month d M CD) as [l [D P]].
  pose proof (vprintable _ _ _ _ _ _ _ _ _ D MP) as PR.
  destruct (vdeck_done E get_value_mds_style (track_base E) (base_coords _ _) (prepare_track E) (load_track E) (track_ready E) (ship_checks_track E) track_keys (track_checks_frame E) eq_refl (track_tab E) (fun r => eq_refl) (fun o => eq_refl) (sound_base E) (track_tab_ok E) year month d M CD) as [_ [_ [_ [_ [IX _]]]]].
  pose proof (vdeck_sable E get_value_mds_style (track_base E) (prepare_track E) (load_track E) (track_ready E) (ship_checks_track E) track_keys (track_checks_frame E) eq_refl (track_tab E) track_in_tab track_flagged year month RB d CD) as AB.
  destruct (drifters_by_total E (fun v => voyage_write_output (e_str_of E) v (e_runid E) (e_dir E year month) year month) year month) with (ids := d_ids d) (reps := d_reps d) as [names [more DR]]; [| |apply IX| |rewrite DR; cbn [bind]; eauto].
  - intros r0 v id PK PP RI. destruct (C49_voyage_output (e_str_of E) (tq_text E TQ) r0 v (r0 :: v) (e_runid E) (e_dir E year month) year month id ltac:(lia) PK PP RI) as [ys [ms [content [fs' [safe [_ [_ [_ [W' _]]]]]]]]]. eauto.
  - exact (groups_disjoint _ _ IX).
  - intros r I T. apply drifter_lets in T. destruct T as [T1 T2]. rewrite Forall_forall in AB. specialize (AB r I). split; [split; [apply (sb_globe _ _ AB)|now apply (sb_clock _ _ AB)]|].
    assert (O : of_month year month r).
    { destruct (vmatch E get_value_mds_style (track_base E) (base_coords _ _) (prepare_track E) (load_track E) (track_ready E) (ship_checks_track E) track_keys (track_checks_frame E) eq_refl (track_tab E) (fun r => eq_refl) (fun o => eq_refl) (sound_base E) (track_tab_ok E) year month d r M CD I) as [[A B]|[A B]]; [tauto|congruence]. }
    split; [exact O|]. rewrite Forall_forall in PR. apply PR. clear - P I O. induction P as [|x l l' Q P IH|x l l' Q P IH]; [destruct I|destruct I as [->|I]; [now left|right; auto]|destruct I as [->|I]; [contradiction|auto]].
Qed.
End Month.
End Track.

(* ---- records that stop the programs ---- *)

Section Stop.
Variable E : setup.
Variable prep : Z -> Z -> loaded -> option clim -> imma -> res (loaded * report).
Variable load : Z -> res (option clim).
Variable checks : list report -> res (list report).
Hypothesis MADE : forall y m st bg im x, prep y m st bg im = Ok x -> exists r, report_of im = Ok r.
Lemma lines_by_reports : forall y m bg lines st d st' d', read_lines_by E prep y m bg lines st d = Ok (st', d') ->
  forall line im, In line lines -> usable (e_tables E) (e_excluded E) y m line im -> exists r, report_of im = Ok r.
Proof.
  intros y m bg. induction lines as [|l lines IH]; intros st d st' d' H line im I U; [destruct I|]. cbn [read_lines_by] in H.
  destruct (accept E y m l) as [o|e] eqn:A; [cbn [bind] in H|discriminate]. pose proof (accept_spec _ _ _ _ _ A) as K. destruct o as [im'|].
  - destruct (prep y m st bg im') as [[st1 r1]|e] eqn:P; [cbn [bind] in H|discriminate]. destruct I as [<-|I]; [|exact (IH _ _ _ _ H line im I U)].
    assert (im' = im) by (destruct U as [U _], K as [K _]; congruence). subst im'. eapply MADE, P.
  - destruct I as [<-|I]; [destruct (K im U)|exact (IH _ _ _ _ H line im I U)].
Qed.
Lemma window_by_reports : forall w st d st' d', read_window_by E prep load w st d = Ok (st', d') ->
  forall y m lines line im, In (y, m) w -> e_lines E y m = Some lines -> In line lines -> usable (e_tables E) (e_excluded E) y m line im -> exists r, report_of im = Ok r.
Proof.
  induction w as [|[ry rm] w IH]; intros st d st' d' H y m lines line im I L J U; [destruct I|]. cbn [read_window_by] in H.
  destruct (load rm) as [bg|e]; [cbn [bind] in H|discriminate]. destruct (e_lines E ry rm) as [ls|] eqn:X.
  - destruct (read_lines_by E prep ry rm bg ls st d) as [[st1 d1]|e] eqn:R; [cbn [bind] in H|discriminate]. destruct I as [I|I]; [|exact (IH _ _ _ _ H _ _ _ _ _ I L J U)].
    injection I as -> ->. rewrite L in X. injection X as <-. exact (lines_by_reports _ _ _ _ _ _ _ _ R _ _ J U).
  - destruct I as [I|I]; [injection I as -> ->; congruence|exact (IH _ _ _ _ H _ _ _ _ _ I L J U)].
Qed.
Lemma deck_by_stops : forall year month y m lines line im, 1 <= month <= 12 -> In (y, m) (window year month) -> e_lines E y m = Some lines -> In line lines -> usable (e_tables E) (e_excluded E) y m line im ->
  (forall r, report_of im <> Ok r) -> exists e, deck_by E prep load checks year month = Err e.
Proof.
  intros year month y m lines line im M I L J U N. destruct (deck_by E prep load checks year month) as [d|e] eqn:D; [|eauto]. exfalso. unfold deck_by in D. rewrite (window_spec year month M) in D. cbn [bind] in D.
  destruct (read_window_by E prep load _ _ _) as [[st1 d1]|e] eqn:R; [|discriminate]. rewrite (window_is year month M) in I. destruct (window_by_reports _ _ _ _ _ R y m lines line im) as [r K]; try assumption. exact (N r K).
Qed.
End Stop.
