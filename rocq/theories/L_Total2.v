(** The main program comes to an end: files and ships. *)
Require Import String Ascii ZArith QArith Qround List Bool Lia Lqa Sorted.
Require Import Verif.M_Base Verif.L_Base Verif.M_Calendar Verif.S_Calendar Verif.L_Calendar Verif.M_Report Verif.S_Report Verif.L_Report Verif.L_Report2 Verif.L_Report3 Verif.M_Imma Verif.M_ImmaTables Verif.S_Imma Verif.M_Grid
  Verif.S_Clim Verif.M_Voyage Verif.S_Voyage Verif.P_Voyage Verif.M_Track Verif.S_Track Verif.P_Track Verif.M_BaseQC Verif.S_BaseQC Verif.S_Sun Verif.P_BaseQC Verif.S_Hum Verif.M_Main Verif.S_Main Verif.S_Main2
  Verif.L_Main Verif.L_Main2 Verif.L_Main3 Verif.L_Main4 Verif.L_Main5 Verif.L_Main6 Verif.P_Main Verif.P_Main2 Verif.S_Total Verif.L_Total.
Import ListNotations.
Open Scope string_scope.
Open Scope list_scope.
Open Scope Z_scope.

(* ---- headings ---- *)

Definition dsi_of (r : report) : option (option Q) := assoc "dsi" (r_ext r).
Definition dsi_ok (o : option (option Q)) : Prop := match o with Some (Some d) => exists k, 0 <= k <= 8 /\ (d == inject_Z (45 * k))%Q | _ => True end.
Lemma dsi_heading : forall r, dsi_ok (dsi_of r) -> heading_known r.
Proof. intros r H d D. unfold getvar in D. change (index_of "dsi" VARLIST) with (Err ValueError : res nat) in D. unfold dsi_ok, dsi_of in H. destruct (assoc "dsi" (r_ext r)) as [o|]; [|discriminate]. subst o. exact H. Qed.
Lemma convert_ok : forall k o, py_nth ds_convert k = Ok o -> dsi_ok (Some o).
Proof.
  intros k o H. assert (I : In o ds_convert) by (unfold py_nth in H; destruct (_ || _)%bool; [discriminate|]; destruct (nth_error _ _) eqn:N; [|discriminate]; apply ok_inj in H; subst; exact (nth_error_In _ _ N)). cbn in I.
  repeat (destruct I as [<-|I]; [try exact Logic.I; cbn [dsi_ok]; first [exists 0; split; [lia|reflexivity]|exists 1; split; [lia|reflexivity]|exists 2; split; [lia|reflexivity]|exists 3; split; [lia|reflexivity]|
    exists 4; split; [lia|reflexivity]|exists 5; split; [lia|reflexivity]|exists 6; split; [lia|reflexivity]|exists 7; split; [lia|reflexivity]|exists 8; split; [lia|reflexivity]]|]). destruct I.
Qed.
Lemma report_of_dsi : forall im r, report_of im = Ok r -> dsi_ok (dsi_of r).
Proof.
  intros im r H. unfold report_of, new_report in H. step H. unfold calculate_dsi_vsi in H. step H. apply ok_inj in H. subst r. unfold dsi_of, setext. cbn [r_ext with_ext assoc].
  change (("dsi" =? "vsi")%string) with false. change (("dsi" =? "dsi")%string) with true. destruct (getint y "DS"); [eapply convert_ok, X0|]. apply ok_inj in X0. subst. exact I.
Qed.
Lemma background_dsi : forall E y m st bg r st' r', background E y m st bg r = Ok (st', r') -> dsi_of r' = dsi_of r.
Proof.
  intros E y m st bg r st' r' H. unfold background in H. destruct (getint r "DY"); [|apply ok_inj in H; now injection H as <- <-]. destruct (_ && _)%bool; [|apply ok_inj in H; now injection H as <- <-].
  step H. destruct (snd y0) as [[a b]|]; [|discriminate]. destruct bg; [|discriminate]. do 3 step H. apply ok_inj in H. injection H as <- <-. reflexivity.
Qed.
Lemma frame_dsi : forall K r r', frame K r r' -> dsi_of r' = dsi_of r.
Proof. intros K r r' [_ [_ [_ [_ [_ [X _]]]]]]. apply X. cbn. intuition discriminate. Qed.
Lemma prepare_heading : forall E, humidity_only (e_hum E) -> forall year month y m st bg im st' r, prepare E year month y m st bg im = Ok (st', r) -> heading_known r.
Proof.
  intros E HUM year month y m st bg im st' r H. apply dsi_heading. unfold prepare in H.
  step H. rename y0 into r1, X into E1. step H. rename y0 into r2, X into E2. step H. destruct y0 as [st1 r3]. rename X into E3.
  step H. rename y0 into r4, X into E4. step H. rename y0 into r5, X into E5. step H. rename y0 into r6, X into E6.
  step H. rename y0 into r7, X into E7. step H. rename y0 into r8, X into E8. step H. rename y0 into r9, X into E9. injection H as <- <-.
  pose proof (report_of_dsi _ _ E1) as D1. pose proof (setvar_shape _ _ _ _ E2) as [_ [_ [_ [X2 _]]]]. pose proof (background_dsi _ _ _ _ _ _ _ _ E3) as D3.
  destruct (climate_chain _ _ _ _ _ E4 E5 E6) as [_ [cl E6']]. destruct (HUM _ _ E7) as [[_ [_ [_ [A4 _]]]] _]. destruct (base_frame _ _ _ _ E8) as [rf [F1 F2]].
  rewrite (frame_dsi _ _ _ (set_qc_frame _ _ _ _ _ E9)), (frame_dsi _ _ _ F2).
  assert (F : dsi_of rf = dsi_of r7). { unfold dsi_of. destruct (fix_shape _ _ F1) as [->|[_ [_ [_ [r' [d [S ->]]]]]]]; [reflexivity|]. destruct (setvar_shape _ _ _ _ S) as [_ [_ [_ [K _]]]]. cbn [with_dt r_ext]. now rewrite K. }
  rewrite F. replace (dsi_of r7) with (dsi_of r1); [exact D1|]. unfold dsi_of in *. rewrite A4, E6'. cbn [with_clim r_ext]. now rewrite D3, X2.
Qed.
Lemma read_lines_heading : forall E, humidity_only (e_hum E) -> forall year month y m bg lines st d st' d', read_lines E year month y m bg lines st d = Ok (st', d') -> Forall heading_known (d_reps d) -> Forall heading_known (d_reps d').
Proof.
  intros E HUM year month y m bg. induction lines as [|line lines IH]; intros st d st' d' H F; cbn [read_lines] in H; [apply ok_inj in H; injection H as <- <-; exact F|].
  step H. destruct y0 as [im|]; [|eapply IH; eassumption]. step H. destruct y0 as [st1 r]. eapply IH; [exact H|]. unfold deck_append. cbn [d_reps]. apply Forall_app. split; [exact F|]. constructor; [eapply prepare_heading; eassumption|constructor].
Qed.
Lemma read_window_heading : forall E, humidity_only (e_hum E) -> forall year month window st d st' d', read_window E year month window st d = Ok (st', d') -> Forall heading_known (d_reps d) -> Forall heading_known (d_reps d').
Proof.
  intros E HUM year month. induction window as [|[y m] w IH]; intros st d st' d' H F; cbn [read_window] in H; [apply ok_inj in H; injection H as <- <-; exact F|].
  step H. destruct (e_lines E y m) as [lines|]; [|eapply IH; eassumption]. step H. destruct y1 as [st1 d1]. eapply IH; [exact H|]. eapply read_lines_heading; eassumption.
Qed.

(* ---- files ---- *)

Section Total.
Variable E : setup.
Hypothesis EQ : equipped E.
Let HUM : humidity_only (e_hum E) := eq_hum E EQ.
Definition line_fine (y m : Z) (line : string) : Prop := (exists o, accept E y m line = Ok o) /\
  forall im, usable (e_tables E) (e_excluded E) y m line im -> workable y m im /\ (e_tracking E = true -> trackable y m im).
Lemma read_lines_total : forall year month y m bg, 1 <= y <= 9999 -> 1 <= m <= 12 -> variance_ok E bg -> forall lines st d, Forall (line_fine y m) lines -> loaded_ok st ->
  exists st' d', read_lines E year month y m bg lines st d = Ok (st', d') /\ loaded_ok st'.
Proof.
  intros year month y m bg Y M V. induction lines as [|line lines IH]; intros st d F L; cbn [read_lines]; [eauto|]. inversion F as [|? ? [[o A] W] F']; subst. rewrite A. cbn [bind].
  pose proof (accept_spec _ _ _ _ _ A) as U. destruct o as [im|]; [|now apply IH]. destruct (W im U) as [W1 W2].
  destruct (prepare_total E EQ year month y m st bg line im U Y M W1 W2 L V) as [st1 [r [P L1]]]. rewrite P. cbn [bind]. now apply IH.
Qed.
Lemma read_window_total : forall year month w st d, (forall y m, In (y, m) w -> 1 <= y <= 9999 /\ 1 <= m <= 12 /\ forall lines, e_lines E y m = Some lines -> Forall (line_fine y m) lines) -> loaded_ok st ->
  exists st' d', read_window E year month w st d = Ok (st', d').
Proof.
  intros year month. induction w as [|[y m] w IH]; intros st d H L; cbn [read_window]; [eauto|]. destruct (H y m (or_introl eq_refl)) as [Y [M F]].
  assert (B : exists bg, (if e_tracking E then let! c := e_bgvar E m in Ok (Some c) else Ok None) = Ok bg /\ variance_ok E bg).
  { unfold variance_ok. destruct (e_tracking E) eqn:ET; [|exists None; split; [reflexivity|discriminate]]. destruct (eq_variance E EQ ET m M) as [c [C O]]. rewrite C. cbn [bind]. exists (Some c). eauto. }
  destruct B as [bg [B V]]. rewrite B. cbn [bind]. assert (H' : forall y m, In (y, m) w -> 1 <= y <= 9999 /\ 1 <= m <= 12 /\ forall lines, e_lines E y m = Some lines -> Forall (line_fine y m) lines) by (intros y' m' I; apply H; now right).
  destruct (e_lines E y m) as [lines|] eqn:EL; [|now apply IH]. destruct (read_lines_total year month y m bg Y M V lines st d (F lines eq_refl) L) as [st1 [d1 [R L1]]]. rewrite R. cbn [bind]. now apply IH.
Qed.

(* ---- ships ---- *)

Lemma frames_located : forall K v v', frames K v v' -> Forall is_located v -> Forall is_located v'.
Proof.
  intros K v v' F. induction F as [|r r' v v' A F IH]; intro L; [constructor|]. inversion L; subst. constructor; [|now apply IH].
  destruct H1 as [la [lo [d [h L1]]]]. exists la, lo, d, h. destruct L1. pose proof (fun n N => frame_getvar K r r' n A (not_motion n N)) as G. pose proof (fun n N => frame_int K r r' n A (not_motion n N)) as GI.
  constructor; try assumption; unfold lat, lon in *; rewrite ?G, ?GI by reflexivity; assumption.
Qed.
Lemma all_repeated_total : forall names v, (forall n, In n names -> In n ["SST"; "AT"; "AT2"; "DPT"; "SLP"]) -> exists v', all_repeated E names v = Ok v'.
Proof.
  induction names as [|n names IH]; intros v H; cbn [all_repeated]; [eauto|].
  destruct (C26_repeated_values (e_prt E) n v (fst (e_rep E)) (snd (e_rep E)) (eq_rep E EQ) (H n (or_introl eq_refl))) as [v' [A _]]. rewrite A. cbn [bind]. apply IH. intros n' N. apply H. now right.
Qed.
Lemma voyage_checked : forall sub, Forall is_located sub -> Forall heading_known sub -> in_time_order sub ->
  exists v v', add_reports (e_sphere E) [] sub = Ok v /\ ship_checks E v = Ok v'.
Proof.
  intros sub L H T. destruct (eq_sphere E EQ) as [S1 S2].
  assert (A : exists v v1, add_reports (e_sphere E) [] sub = Ok v /\ track_check (e_sphere E) (e_track E) v = Ok v1).
  { destruct sub as [|r0 l]; [exists [], []; split; reflexivity|]. destruct (generic_report r0) eqn:G; [|destruct (pt_buoy r0) eqn:P; [|destruct (le_lt_dec 2 (length l)) as [K|K]]].
    - destruct (C30_not_checked (e_sphere E) (e_track E) r0 l L (or_introl G)) as [v [v' [A [B _]]]]. eauto.
    - destruct (C30_not_checked (e_sphere E) (e_track E) r0 l L (or_intror (or_introl P))) as [v [v' [A [B _]]]]. eauto.
    - destruct (C30_track_check (e_sphere E) (e_track E) r0 l S1 L T H G P K) as [v [v' [amax [A [B _]]]]]. eauto.
    - destruct (C30_not_checked (e_sphere E) (e_track E) r0 l L (or_intror (or_intror K))) as [v [v' [A [B _]]]]. eauto. }
  destruct A as [v [v1 [A B]]]. exists v. unfold ship_checks. rewrite B. cbn [bind].
  assert (L0 : Forall is_located v) by (eapply (frames_located []); [exact (add_reports_frame (e_sphere E) sub [] v A [] [] (Forall2_nil _))|exact L]).
  assert (L1 : Forall is_located v1) by (eapply frames_located; [eapply track_frame, B|exact L0]).
  assert (C : exists v2, iquam_track_check (e_sphere E) (e_iquam E) v1 = Ok v2).
  { destruct (eq_iquam E EQ) as [Q1 [Q2 [Q3 Q4]]]. destruct v1 as [|r0 l]; [eexists; reflexivity|]. destruct (generic_report r0) eqn:G.
    - destruct (C28_generic_pass (e_sphere E) (e_iquam E) (r0 :: l) r0 l eq_refl G) as [v2 [C _]]. eauto.
    - destruct (C28_iquam (e_sphere E) (e_iquam E) (r0 :: l) r0 l eq_refl G S2 L1) as [v2 [rm [C _]]]; [|exact Q3|exact Q4|eauto]. unfold iquam_limit. destruct (pt_buoy r0); assumption. }
  destruct C as [v2 C]. rewrite C. cbn [bind]. assert (L2 : Forall is_located v2) by (eapply frames_located; [eapply iquam_frame, C|exact L1]).
  assert (D : exists v3, spike_check (e_sphere E) (e_spike E) "SST" v2 = Ok v3).
  { destruct (eq_spike E EQ) as [Q1 Q2]. destruct (C29_spike (e_sphere E) (e_spike E) "SST" v2) as [v3 [rm [D _]]]; [cbn; tauto|exact S2|exact L2| |eauto]. unfold spike_delta. destruct v2; [lra|]. destruct (pt_buoy _); assumption. }
  destruct D as [v3 D]. rewrite D. cbn [bind]. assert (L3 : Forall is_located v3) by (eapply frames_located; [eapply spike_frame, D|exact L2]).
  destruct (C25_saturated_runs (e_sphere E) (fst (e_sat E)) (snd (e_sat E)) v3 (eq_sat E EQ) L3) as [v4 [F _]]. rewrite F. cbn [bind].
  destruct (eq_round E EQ) as [R1 R2]. destruct (C27_rounded_values (e_prt E) "DPT" v4 (fst (e_round E)) (snd (e_round E)) R2) as [v5 [G _]]; [cbn; tauto|exact R1|]. rewrite G. cbn [bind].
  destruct (all_repeated_total ["SST"; "AT"; "AT2"; "DPT"; "SLP"] v5) as [v6 K]; [auto|]. eauto.
Qed.

(** The ships one after the other. *)
Definition ship_fine (reps : list report) (l : list nat) : Prop := exists sel v v', voyage_of E position_filter reps l = Ok (sel, v) /\ ship_checks E v = Ok v'.
Lemma all_ships_total : forall ids reps, NoDup (concat (map snd ids)) -> (forall id l, In (id, l) ids -> ship_fine reps l) -> exists reps', all_ships E position_filter ids reps = Ok reps'.
Proof.
  induction ids as [|[id l] ids IH]; intros reps N H; cbn [all_ships]; [eauto|]. destruct (H id l (or_introl eq_refl)) as [sel [v [v' [V C]]]]. rewrite V. cbn [bind]. rewrite C. cbn [bind].
  cbn [map snd concat] in N. apply IH; [exact (concat_skip _ _ N)|]. intros id' l' I. destruct (H id' l' (or_intror I)) as [sel' [w [w' [V' C']]]]. exists sel', w, w'. split; [|exact C'].
  apply voyage_put; [exact V'|]. assert (SEL : incl sel l). { unfold voyage_of in V. do 3 step V. apply ok_inj in V. injection V as <- <-. exact (proj1 (picked_sub _ _ _ _ X)). }
  intros i J K. apply SEL in K. assert (Q : In i (concat (map snd ids))) by (apply in_concat; exists l'; split; [apply in_map_iff; exists (id', l'); auto|exact J]). revert K Q. clear - N. induction l as [|x l IHl]; [intros []|].
  inversion N; subst. intros [->|K] Q; [apply H1; apply in_app_iff; auto|]. now apply IHl.
Qed.
Lemma pick_total : forall f reps l, (forall i, In i l -> (i < length reps)%nat) -> exists sel sub, M_Report.pick f reps l = Ok sel /\ M_Track.pick reps sel = Ok sub /\ Forall2 (fun i r => nth_error reps i = Some r) sel sub.
Proof.
  intros f reps l H. rewrite (pick_spec f reps l H). set (sel := filter _ l). exists sel.
  assert (K : forall i, In i sel -> (i < length reps)%nat) by (intros i I; apply H; apply filter_In in I; tauto).
  assert (P : exists sub, M_Track.pick reps sel = Ok sub).
  { clear - K. induction sel as [|i sel IH]; [eexists; reflexivity|]. destruct IH as [sub IH]; [intros j J; apply K; now right|]. unfold M_Track.pick in *. cbn [mapM].
    unfold vget at 1. destruct (nth_error reps i) as [r|] eqn:N; [|apply nth_error_None in N; specialize (K i (or_introl eq_refl)); lia]. cbn [bind]. rewrite IH. cbn [bind]. eauto. }
  destruct P as [sub P]. exists sub. split; [reflexivity|]. split; [exact P|]. apply pick_nth, P.
Qed.
Lemma filter_sorted : forall (f : nat -> bool) l, StronglySorted lt l -> StronglySorted lt (filter f l).
Proof.
  intros f l H. induction H as [|x l H IH F]; [constructor|]. cbn [filter]. destruct (f x); [|exact IH]. constructor; [exact IH|]. apply Forall_forall. intros y Y. apply filter_In in Y. rewrite Forall_forall in F. apply F. tauto.
Qed.
Lemma seq_sorted : forall n k, StronglySorted lt (seq k n).
Proof. induction n as [|n IH]; intro k; cbn [seq]; constructor; [apply IH|]. apply Forall_forall. intros i I. apply in_seq in I. lia. Qed.
Lemma sorted_next : forall (l : list nat) i a b, StronglySorted lt l -> nth_error l i = Some a -> nth_error l (S i) = Some b -> (a < b)%nat.
Proof.
  intros l i a b H. revert i. induction H as [|x l H IH F]; intros [|i] A B; try discriminate.
  - cbn in A, B. injection A as <-. rewrite Forall_forall in F. apply F. apply (nth_error_In _ 0%nat). exact B.
  - exact (IH i A B).
Qed.
Lemma forall2_nth : forall A B (P : A -> B -> Prop) l l' i y, Forall2 P l l' -> nth_error l' i = Some y -> exists x, nth_error l i = Some x /\ P x y.
Proof. intros A B P l l' i y H. revert i. induction H as [|x z l l' X H IH]; intros [|i] N; try discriminate; [injection N as <-; exists x; auto|exact (IH i N)]. Qed.

(** Reports in order of time, ship by ship. *)
Definition ships_in_order (reps : list report) : Prop :=
  forall i j a b t, (i < j)%nat -> nth_error reps i = Some a -> nth_error reps j = Some b -> r_id a = r_id b -> hours_between a b t -> (0 <= t)%Q.
Lemma ship_fine_all : forall reps id l, l = positions reps id -> ships_in_order reps -> Forall heading_known reps -> (forall r, In r reps -> test_report position_filter r = 0 -> is_located r) -> ship_fine reps l.
Proof.
  intros reps id l EL O HK LO. assert (LIM : forall i, In i l -> (i < length reps)%nat) by (intros i I; rewrite EL in I; apply In_positions in I; destruct I as [r [J _]]; apply nth_error_Some; congruence).
  destruct (pick_total position_filter reps l LIM) as [sel [sub [P1 [P2 F]]]]. pose proof P1 as P1'. rewrite (pick_spec position_filter reps l LIM) in P1'. apply ok_inj in P1'.
  assert (IN : forall i, In i sel -> exists r, nth_error reps i = Some r /\ r_id r = id /\ test_report position_filter r = 0).
  { intros i I. rewrite <- P1' in I. apply filter_In in I. destruct I as [I J]. rewrite EL in I. apply In_positions in I. destruct I as [r [A B]]. exists r. split; [exact A|]. split; [exact B|]. unfold passes in J. rewrite A in J. now apply Z.eqb_eq in J. }
  assert (SO : StronglySorted lt sel) by (rewrite <- P1', EL; unfold positions; apply filter_sorted, filter_sorted, seq_sorted).
  assert (ALL : forall r, In r sub -> In r reps /\ test_report position_filter r = 0).
  { intros r I. apply In_nth_error in I. destruct I as [k K]. destruct (forall2_nth _ _ _ _ _ _ _ F K) as [i [A B]]. destruct (IN i (nth_error_In _ _ A)) as [r' [C [_ D]]]. assert (r' = r) by congruence. subst r'. split; [exact (nth_error_In _ _ B)|exact D]. }
  destruct (voyage_checked sub) as [v [v' [A B]]].
  - apply Forall_forall. intros r I. destruct (ALL r I). now apply LO.
  - apply Forall_forall. intros r I. destruct (ALL r I). rewrite Forall_forall in HK. now apply HK.
  - intros k a b t NA NB HB. destruct (forall2_nth _ _ _ _ _ _ _ F NA) as [i [A1 A2]]. destruct (forall2_nth _ _ _ _ _ _ _ F NB) as [j [B1 B2]]. apply (O i j a b t (sorted_next _ _ _ _ SO A1 B1) A2 B2); [|exact HB].
    destruct (IN i (nth_error_In _ _ A1)) as [ra [X1 [X2 _]]]. destruct (IN j (nth_error_In _ _ B1)) as [rb [Y1 [Y2 _]]]. congruence.
  - exists sel, v, v'. split; [|exact B]. unfold voyage_of. rewrite P1. cbn [bind]. rewrite P2. cbn [bind]. rewrite A. reflexivity.
Qed.
Lemma located_when : forall im r la lo d h, made_from im r -> located r la lo d h -> when im d h.
Proof.
  intros im r la lo d h [_ [_ [N [_ HR]]]] L. destruct L.
  assert (F : forall n, mem n VARLIST = true -> mem n ("HR" :: "AT2" :: humidity_names) = false -> number_field im n (getvar r n)).
  { intros n A B. apply N; [apply mem_In, A|]. intro K. apply mem_In in K. congruence. }
  pose proof (getint_var r "YR" _ eq_refl eq_refl loc_y) as YV. pose proof (getint_var r "MO" _ eq_refl eq_refl loc_m) as MV. pose proof (getint_var r "DY" _ eq_refl eq_refl loc_d) as DV.
  split; [rewrite <- YV; apply F; reflexivity|]. split; [rewrite <- MV; apply F; reflexivity|]. split; [rewrite <- DV; apply F; reflexivity|]. split; [exact loc_valid|]. split; [exact loc_hour|].
  destruct HR as [HR|[HR [D7 [[y [YY Y]] H0]]]]; [left; rewrite <- loc_h; exact HR|right]. split; [exact HR|]. split; [change 701%Q with (inject_Z 701); rewrite <- D7; apply F; reflexivity|]. split; [|congruence].
  rewrite YV in YY. injection YY as YY. congruence.
Qed.
Lemma order_of_records : forall ims reps, chronological ims -> Forall2 made_from ims reps -> ships_in_order reps.
Proof.
  intros ims reps C F i j a b t L A B I [la [lo [d [h [la' [lo' [d' [h' [LA [LB EL]]]]]]]]]].
  destruct (forall2_nth _ _ _ _ _ _ _ F A) as [ia [A1 A2]]. destruct (forall2_nth _ _ _ _ _ _ _ F B) as [ib [B1 B2]].
  apply (C i j ia ib (r_id a) d h d' h' t L A1 B1); [apply A2|rewrite I; apply B2|eapply located_when; eassumption|eapply located_when; eassumption|exact EL].
Qed.

(** A report with good flags of place, date and time is located. *)
Lemma lets_position : forall r, test_report position_filter r = 0 -> zero_flags "POS" ["date"; "time"; "pos"; "blklst"] r.
Proof. intros r T f I. apply (proj1 (proj1 (test_report_spec _ r)) T). cbn in I |- *. repeat (destruct I as [<-|I]; [tauto|]). destruct I. Qed.
Lemma flag_zero : forall r t v f P, flagged r t -> In (v, f, P) t -> get_qc r v f = 0 -> ~ P.
Proof. intros r t v f P F I G. destruct (F v f P I) as [[A _]|[_ B]]; [congruence|exact B]. Qed.
Lemma place_located : forall year month y m im r, ready E year month y m im r -> workable y m im -> 1 <= y -> 1 <= m <= 12 -> get_qc r "POS" "date" = 0 -> get_qc r "POS" "time" = 0 -> is_located r /\ on_globe r.
Proof.
  intros year month y m im r R W Y M ZD ZT. pose proof (base_ok E year month y m im r (eq_elev E EQ) (eq_base E EQ) Y M (eq_slp E EQ) R) as FL.
  pose proof (rd_made _ _ _ _ _ _ _ R) as MF. destruct MF as [_ [_ [N [_ HR]]]].
  assert (F : forall n, mem n VARLIST = true -> mem n ("HR" :: "AT2" :: humidity_names) = false -> number_field im n (getvar r n)).
  { intros n A B. apply N; [apply mem_In, A|]. intro K. apply mem_In in K. congruence. }
  destruct (wk_lat _ _ _ W) as [la [LA LA']]. destruct (wk_lon _ _ _ W) as [lo [LO LO']].
  assert (VA : lat r = Some la) by (unfold lat; apply (field_fun im "LAT"); [apply F; reflexivity|exact LA]).
  assert (VO : getvar r "LON" = Some lo) by (apply (field_fun im "LON"); [apply F; reflexivity|exact LO]).
  destruct (lon_west r lo VO LO') as [l [VL VL']].
  split; [|exists la, l; auto].
  assert (ND : ~ ~ dated (view r)) by (apply (flag_zero r _ "POS" "date" _ FL); [cbn; tauto|exact ZD]).
  assert (NT : ~ ~ timed (view r)) by (apply (flag_zero r _ "POS" "time" _ FL); [cbn; tauto|exact ZT]).
  destruct (getvar r "HR") as [h|] eqn:GH; [|exfalso; apply NT; intros [h [K _]]; cbn [view s_var] in K; congruence].
  assert (H24 : (0 <= h < 24)%Q).
  { destruct (Qlt_le_dec h 0) as [A|A]; [exfalso; apply NT; intros [h' [K K']]; cbn [view s_var] in K; assert (h' = h) by congruence; subst; lra|]. destruct (Qlt_le_dec h 24) as [B|B]; [auto|]. exfalso; apply NT; intros [h' [K K']]; cbn [view s_var] in K; assert (h' = h) by congruence; subst; lra. }
  destruct (getint r "DY") as [d|] eqn:GD; [|exfalso; apply ND; intros [d [[_ [_ [q [K _]]]] _]]; cbn [view s_var] in K; unfold getint in GD; rewrite K in GD; discriminate].
  pose proof (getint_var r "DY" _ eq_refl eq_refl GD) as DV. pose proof (rd_year _ _ _ _ _ _ _ R) as GY. pose proof (rd_month _ _ _ _ _ _ _ R) as GM.
  destruct (month_has_exists y m M) as [n MH].
  assert (D : 1 <= d <= n).
  { assert (X : ~ ~ (1 <= d <= n)).
    { intro K. apply ND. intros [[yy mm dd] [[[q1 [Q1 Q1']] [[q2 [Q2 Q2']] [q3 [Q3 Q3']]]] [[n' [V1 V2]] _]]]. cbn [yr mo dy] in *. cbn [view s_var] in Q1, Q2, Q3. apply K.
      pose proof (getint_var r "YR" _ eq_refl eq_refl GY) as YV. pose proof (getint_var r "MO" _ eq_refl eq_refl GM) as MV.
      rewrite YV in Q1. rewrite MV in Q2. rewrite DV in Q3. injection Q1 as <-. injection Q2 as <-. injection Q3 as <-. assert (QZ : forall a b, (inject_Z a == inject_Z b)%Q -> a = b) by (intros a b Q; unfold Qeq in Q; cbn in Q; lia). apply QZ in Q1'. apply QZ in Q2'. apply QZ in Q3'. subst.
      pose proof (month_has_det _ _ _ _ MH V1). subst. exact V2. }
    lia. }
  exists la, l, (on y m d), h. constructor; try assumption. exists n. cbn [on yr mo dy]. auto.
Qed.
End Total.
