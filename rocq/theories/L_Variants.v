(** Lemmas about the high resolution program and the tracking-only program: the loops they share, the reports they make. *)
Require Import String Ascii ZArith QArith Qround List Bool Lia Sorted Permutation.
Require Import Verif.M_Base Verif.L_Base Verif.M_Calendar Verif.S_Calendar Verif.L_Calendar Verif.P_Calendar Verif.M_Checks Verif.M_Report Verif.S_Report Verif.L_Report Verif.L_Report2 Verif.L_Report3
  Verif.S_Sun Verif.M_Imma Verif.S_Imma Verif.L_Imma Verif.M_Grid Verif.M_Voyage Verif.M_Track Verif.M_Buddy Verif.M_BaseQC Verif.S_BaseQC Verif.L_BaseQC Verif.L_BaseQC2 Verif.P_BaseQC Verif.M_Files Verif.S_Files Verif.L_Files
  Verif.M_Print Verif.S_Print Verif.L_Print Verif.P_Print Verif.M_Main Verif.S_Hum Verif.S_Main Verif.S_Main2 Verif.M_Variants Verif.S_Variants
  Verif.L_Main Verif.L_Main2 Verif.L_Main3 Verif.L_Main4 Verif.L_Main5 Verif.L_Main6 Verif.L_Main7.
Import ListNotations.
Open Scope string_scope.
Open Scope list_scope.
Open Scope Z_scope.

(* ---- one ship after the other ---- *)

Section Ships.
Variable E : setup.
Variable checks : list report -> res (list report).
Variable KS : list string.
Hypothesis CHK : forall v v', checks v = Ok v' -> frames KS v v'.
Definition ship_done_by (f : qc_filter) (reps reps' : list report) (l : list nat) : Prop :=
  exists sel sub v v', M_Report.pick f reps l = Ok sel /\ M_Track.pick reps sel = Ok sub /\ add_reports (e_sphere E) [] sub = Ok v /\ checks v = Ok v' /\
    Forall2 (fun i r => nth_error reps' i = Some r) sel v' /\ (forall i, In i l -> ~ In i sel -> nth_error reps' i = nth_error reps i).
Lemma all_ships_by_spec : forall f ids reps reps', all_ships_by E checks f ids reps = Ok reps' -> NoDup (concat (map snd ids)) ->
  length reps' = length reps /\
  (forall i, ~ In i (concat (map snd ids)) -> nth_error reps' i = nth_error reps i) /\
  (forall id l, In (id, l) ids -> ship_done_by f reps reps' l).
Proof.
  intros f. induction ids as [|[id l] ids IH]; intros reps reps' H N; cbn [all_ships_by] in H.
  - apply ok_inj in H. subst. repeat split. intros id l [].
  - cbn [map snd concat] in N. assert (ND : NoDup l /\ NoDup (concat (map snd ids)) /\ (forall i, In i l -> ~ In i (concat (map snd ids)))).
    { clear - N. induction l as [|x l IH]; cbn in N; [repeat split; auto; constructor|]. inversion N; subst. destruct (IH H2) as [A [B C]]. rewrite in_app_iff in H1.
      repeat split; auto; [constructor; tauto|]. intros i [<-|I]; [tauto|now apply C]. }
    destruct ND as [N1 [N2 N3]]. step H. destruct y as [sel v]. step H. rename y into v'. destruct (IH _ _ H N2) as [L [O S]].
    unfold voyage_of in X. do 3 step X. apply ok_inj in X. injection X as -> ->.
    destruct (picked_sub _ _ _ _ X1) as [P1 P2]. specialize (P2 N1). pose proof (pick_nth _ _ _ X2) as F. destruct (forall2_nth_len _ _ _ F) as [FL FB].
    assert (LV : length v' = length sel).
    { rewrite (frames_length _ _ _ (CHK _ _ X0)). rewrite (frames_length [] _ _ (add_reports_frame _ _ _ _ X3 [] [] (Forall2_nil _))). exact FL. }
    split; [now rewrite L, put_back_length|]. split; [|intros id' l' [I|I]].
    + intros i I. cbn [map snd concat] in I. rewrite in_app_iff in I. rewrite O by tauto. apply put_back_other. intro J. apply I. left. now apply P1.
    + injection I as <- <-. exists sel, y0, v, v'. repeat split; auto.
      * pose proof (put_back_same sel v' reps P2 LV FB) as Q. clear - Q O N3 P1. assert (K : forall i, In i sel -> nth_error reps' i = nth_error (put_back sel v' reps) i) by (intros i I; apply O, N3, P1, I).
        revert Q K. generalize (put_back sel v' reps). intros w. clear. intros Q K. induction Q as [|i r s v A Q IH]; [constructor|]. constructor; [rewrite K by (now left); exact A|]. apply IH. intros j J. apply K. now right.
      * intros i I J. rewrite O by (now apply N3). now apply put_back_other.
    + assert (D : forall i, In i l' -> ~ In i l) by (intros i I' J; apply (N3 i J), in_concat; exists l'; split; [apply in_map_iff; now exists (id', l')|exact I']).
      assert (EQ : forall i, In i l' -> nth_error (put_back sel v' reps) i = nth_error reps i) by (intros i I'; apply put_back_other; intro J; exact (D i I' (P1 i J))).
      destruct (S id' l' I) as [sel' [sub' [w [w' [A [B [C [D' [G K]]]]]]]]]. exists sel', sub', w, w'. rewrite (pick_ext f l' reps _ EQ) in A. destruct (picked_sub _ _ _ _ A) as [Q1 _].
      rewrite (tpick_ext sel' reps) in B by (intros i I'; apply EQ, Q1, I'). repeat split; auto. intros i I' J. rewrite K by assumption. now apply EQ.
Qed.

Lemma ships_placed_by : forall f reps ids reps', index_ok reps ids -> all_ships_by E checks f ids reps = Ok reps' ->
  (forall r, In r reps -> exists sub v v', placed (fun r' => r_id r' = r_id r /\ test_report f r' = 0) reps reps' sub v' /\ add_reports (e_sphere E) [] sub = Ok v /\ checks v = Ok v') /\
  Forall2 (fun r r' => test_report f r <> 0 -> r' = r) reps reps'.
Proof.
  intros f reps ids reps' IX H. destruct (all_ships_by_spec _ _ _ _ H (groups_disjoint _ _ IX)) as [L [O S]]. pose proof IX as [N [P M]].
  assert (LIM : forall id l, In (id, l) ids -> forall i, In i l -> (i < length reps)%nat).
  { intros id l I i J. rewrite (P id l I) in J. apply In_positions in J. destruct J as [r [J _]]. apply nth_error_Some. congruence. }
  split.
  - intros r I. specialize (M r I). apply in_map_iff in M. destruct M as [[id l] [Z J]]. cbn in Z. subst id. destruct (S _ _ J) as [sel [sub [v [v' [A [B [C [D [F K]]]]]]]]].
    exists sub, v, v'. split; [|auto]. rewrite (pick_spec f reps l (LIM _ _ J)) in A. apply ok_inj in A. rewrite (P _ _ J) in A. unfold positions in A. rewrite filter_filter in A.
    assert (BP : forall r', id_eqb (r_id r') (r_id r) && (test_report f r' =? 0) = true <-> r_id r' = r_id r /\ test_report f r' = 0) by (intro r'; rewrite andb_true_iff, id_eqb_eq, Z.eqb_eq; tauto).
    eapply (placed_index (fun r' => r_id r' = r_id r /\ test_report f r' = 0) (fun r' => id_eqb (r_id r') (r_id r) && (test_report f r' =? 0)) BP reps reps' [] [] eq_refl L sel); [|exact (pick_nth _ _ _ B)|exact F].
    rewrite <- A. apply filter_ext. intro i. unfold has_id, passes. cbn [app]. destruct (nth_error reps i); reflexivity.
  - assert (Q : forall i r r', nth_error reps i = Some r -> nth_error reps' i = Some r' -> test_report f r <> 0 -> r' = r).
    { intros i r r' A B T. specialize (M r (nth_error_In _ _ A)). apply in_map_iff in M. destruct M as [[id l] [Z J]]. cbn in Z. subst id. destruct (S _ _ J) as [sel [sub [v [v' [A' [_ [_ [_ [_ K]]]]]]]]].
      assert (X : nth_error reps' i = nth_error reps i); [|congruence]. apply K.
      - rewrite (P _ _ J). apply In_positions. eauto.
      - rewrite (pick_spec f reps l (LIM _ _ J)) in A'. apply ok_inj in A'. rewrite <- A'. rewrite filter_In. intros [_ Y]. unfold passes in Y. rewrite A in Y. apply Z.eqb_eq in Y. contradiction. }
    clear - Q L. revert reps' Q L. induction reps as [|r reps IH]; intros [|r' reps'] Q L; cbn in L; try discriminate; constructor; [intro; apply (Q 0%nat r r'); auto|].
    apply IH; [|lia]. intros i. apply (Q (S i)).
Qed.

Lemma all_ships_by_frame : forall f ids reps reps', Forall (fun p => NoDup (snd p)) ids -> all_ships_by E checks f ids reps = Ok reps' -> frames KS reps reps'.
Proof.
  intros f. induction ids as [|[id l] ids IH]; intros reps reps' N H; cbn [all_ships_by] in H; [injection H as <-; apply frames_refl|].
  step H. destruct y as [sel v]. step H. inversion N; subst. cbn [snd] in *. destruct (voyage_frame E KS _ _ _ _ _ X) as [sub [A [B C]]].
  eapply frames_trans; [|eapply IH; [eassumption|exact H]]. destruct (picked_sub _ _ _ _ C) as [_ D].
  eapply put_back_frame; [exact A|eapply frames_trans; [exact B|eapply CHK, X0]|auto|apply frames_refl|auto].
Qed.
End Ships.
Definition sst_bud_keys : list string := ["SSTbbud"; "SSTbud"].
Lemma sst_buddies_frame : forall E l l', sst_buddies E l = Ok l' -> frames sst_bud_keys l l'.
Proof.
  intros E l l' H. unfold sst_buddies in H. step H. eapply frames_trans; [eapply frames_incl; [|eapply bayes_frame, X]; unfold incl, sst_bud_keys; cbn [In append]; tauto|].
  eapply frames_incl; [|eapply mds_frame, H]. unfold incl, sst_bud_keys. cbn [In append]. tauto.
Qed.

(* ---- a whole report ---- *)

Section Report.
Variable E : setup.
Variable get : clim -> Q -> Q -> Z -> Z -> res (option Q).
Variable base : report -> res report.
Hypothesis BASE : forall r r', base r = Ok r' -> exists r1, do_fix_missing_hour r = Ok r1 /\ frame base_keys r1 r'.
Hypothesis PLACE : forall r r', base r = Ok r' -> exists la lo, getvar r "LAT" = Some la /\ getvar r "LON" = Some lo.
Record vready (year month y m : Z) (im : imma) (r : report) : Prop := {
  vr_made : made_plain im r;
  vr_wf : wf_report r;
  vr_year : getint r "YR" = Some y;
  vr_month : getint r "MO" = Some m;
  vr_match : get_qc r "POS" "month_match" = month_match year month y m;
  vr_climate : mean_set E get r "SST";
  vr_only : only_sst_normal r;
  vr_place : exists la lo, getvar r "LAT" = Some la /\ getvar r "LON" = Some lo;
  vr_base : exists r0 r1, wf_report r0 /\ r_qc r0 = [] /\ r_clim r0 = r_clim r /\ getint r0 "YR" = Some y /\ getint r0 "MO" = Some m /\
    base r0 = Ok r1 /\ set_qc r1 "POS" "month_match" (month_match year month y m) = Ok r }.
Lemma ready_of : forall year month y m line im r1 e r7 r8 r9, usable (e_tables E) (e_excluded E) y m line im ->
  report_of im = Ok r1 -> add_means E get ["SST"] (with_ext r1 e) = Ok r7 -> base r7 = Ok r8 -> note_month year month r8 = Ok r9 ->
  vready year month y m im r9 /\ same_where r1 r9 /\ (forall n, ~ In n motion -> assoc n (r_ext r9) = assoc n e).
Proof.
  intros year month y m line im r1 e r7 r8 r9 [_ [_ [[yv [YA YI]] [mv [MA MI]]]]] E1 E4 E8 E9.
  destruct (report_of_spec _ _ E1) as [I1 [U1 [V1 [W1 [Q1 [C1 X1]]]]]].
  destruct (add_means_spec _ _ _ _ _ E4 ltac:(nodup)) as [cl [E4' [CL CO]]]. assert (S17 : holds_on [] r1 r7) by (subst r7; now apply holds_data).
  destruct (BASE _ _ E8) as [rf [F1 F2]]. pose proof (frame_holds _ _ _ F2) as H8.
  assert (HF : holds_on ["HR"] r7 rf).
  { destruct (fix_shape _ _ F1) as [->|[_ [_ [_ [r' [d [S ->]]]]]]]; [repeat split; auto|]. eapply holds_trans; [eapply holds_setvar, S|].
    eapply holds_incl; [|apply (holds_data r' (with_dt r' d)); reflexivity]. intros k []. }
  unfold note_month in E9. pose proof (frame_holds _ _ _ (set_qc_frame _ _ _ _ _ E9)) as H9.
  assert (S79 : holds_on ["HR"] r7 r9).
  { eapply holds_trans; [exact HF|]. eapply holds_trans; [eapply holds_incl; [|exact H8]; intros k []|eapply holds_incl; [|exact H9]; intros k []]. }
  assert (S19 : holds_on ["HR"] r1 r9).
  { eapply holds_trans; [eapply holds_incl; [|exact S17]; intros k []|exact S79]. }
  assert (L : forall n, mem n VARLIST = true -> In n VARLIST) by (intro n; apply mem_In).
  assert (V7 : forall n, In n VARLIST -> number_field im n (getvar r7 n)).
  { intros n I. destruct S17 as [_ [_ [G _]]]. rewrite G; [|exact I|intros []]. rewrite V1 by exact I. apply seen_number_field. }
  assert (YF := V7 "YR" (L "YR" eq_refl)). assert (MF := V7 "MO" (L "MO" eq_refl)).
  assert (Y7 : getint r7 "YR" = Some y). { unfold getint. rewrite (listed_int im "YR" yv y _ ltac:(cbn; tauto) YA YI YF). now rewrite py_int_inject. }
  assert (M7 : getint r7 "MO" = Some m). { unfold getint. rewrite (listed_int im "MO" mv m _ ltac:(cbn; tauto) MA MI MF). now rewrite py_int_inject. }
  assert (Y9 : getvar r9 "YR" = getvar r7 "YR") by (apply S79; [apply L; reflexivity|cbn; intuition discriminate]).
  assert (M9 : getvar r9 "MO" = getvar r7 "MO") by (apply S79; [apply L; reflexivity|cbn; intuition discriminate]).
  assert (Y8 : getint r8 "YR" = Some y). { rewrite <- Y7. unfold getint. rewrite <- Y9. now destruct H9 as [_ [_ [G _]]]; rewrite G by (try apply L; cbn; tauto || reflexivity). }
  assert (M8 : getint r8 "MO" = Some m). { rewrite <- M7. unfold getint. rewrite <- M9. now destruct H9 as [_ [_ [G _]]]; rewrite G by (try apply L; cbn; tauto || reflexivity). }
  rewrite Y8, M8 in E9.
  assert (Q7 : r_qc r7 = []) by (subst r7; exact Q1).
  assert (W7 : wf_report r7) by (apply S17, W1).
  assert (C8 : r_clim r8 = r_clim r7).
  { destruct F2 as [_ [_ [_ [_ [G _]]]]]. rewrite G. destruct (fix_shape _ _ F1) as [->|[_ [_ [_ [r' [d [S ->]]]]]]]; [reflexivity|]. cbn. now destruct (setvar_shape _ _ _ _ S) as [_ [_ [_ [_ [K _]]]]]. }
  assert (C9 : r_clim r9 = r_clim r8) by (destruct (set_qc_frame _ _ _ _ _ E9) as [_ [_ [_ [_ [G _]]]]]; exact G).
  assert (W79 : same_where r7 r9) by (apply (holds_where _ _ _ S79); cbn; intuition discriminate).
  split; [|split].
  2: { eapply same_where_trans; [|exact W79]. subst r7. repeat split. }
  2: { intros n N. destruct (set_qc_frame _ _ _ _ _ E9) as [_ [_ [_ [_ [_ [X9 _]]]]]]. rewrite X9 by exact N. destruct F2 as [_ [_ [_ [_ [_ [X8 _]]]]]]. rewrite X8 by exact N.
    assert (XF : r_ext rf = r_ext r7).
    { destruct (fix_shape _ _ F1) as [->|[_ [_ [_ [r' [d [S ->]]]]]]]; [reflexivity|]. apply setvar_shape in S. apply S. }
    rewrite XF. subst r7. reflexivity. }
  constructor.
  - destruct S19 as [B1 [B2 [B3 B4]]]. split; [rewrite B1; exact I1|]. split; [rewrite B2; exact U1|]. split.
    + intros n I N. rewrite (B3 n I) by (cbn; intros [Z|[]]; congruence). rewrite (V1 n I). apply seen_number_field.
    + pose proof (V7 "HR" (L "HR" eq_refl)) as HR7.
      assert (R9 : getvar r9 "HR" = getvar rf "HR").
      { destruct H9 as [_ [_ [G _]]]. rewrite G by (try apply L; cbn; tauto || reflexivity). destruct H8 as [_ [_ [G' _]]]. now rewrite G' by (try apply L; cbn; tauto || reflexivity). }
      destruct (fix_shape _ _ F1) as [->|[FN [FD [FY [r' [d [S Frf]]]]]]]; [left; now rewrite R9|].
      right. split; [now rewrite <- FN|]. split; [|split].
      * destruct S79 as [_ [_ [G _]]]. rewrite G; [|apply L; reflexivity|cbn; intuition discriminate]. now apply getint_var.
      * exists y. split; [|rewrite Y7 in FY; exact FY]. rewrite Y9. apply (listed_int im "YR" yv y _ ltac:(cbn; tauto) YA YI YF).
      * rewrite R9, Frf. change (getvar r' "HR" = Some 0%Q). rewrite (set_get_var _ _ _ _ W7 S). reflexivity.
  - apply S19, W1.
  - unfold getint. rewrite Y9. exact Y7.
  - unfold getint. rewrite M9. exact M7.
  - exact (set_get_same _ _ _ _ _ E9).
  - destruct (CL "SST" (or_introl eq_refl)) as [c [LC LK]]. exists c. split; [exact LC|]. rewrite (look_ext get c r7 r9 W79), LK. unfold getnorm. now rewrite C9, C8.
  - assert (Z : forall n, n <> "SST" -> assoc n (r_clim r9) = None).
    { intros n N. rewrite C9, C8, E4'. cbn [with_clim r_clim]. rewrite CO by (intros [Z|[]]; congruence). cbn [with_ext r_clim]. rewrite C1. reflexivity. }
    split; [intros n N; unfold getnorm; now rewrite Z|]. intro n. destruct (String.eqb_spec n "SST") as [->|N]; [|unfold getnorm_stdev; now rewrite Z].
    unfold getnorm_stdev. rewrite C9, C8. cbn [add_means] in E4. step E4. step E4. apply ok_inj in E4. subst r7. reflexivity.
  - destruct (PLACE _ _ E8) as [la [lo [LA LO]]]. exists la, lo. destruct S79 as [_ [_ [G _]]]. rewrite !G; try (apply L; reflexivity); try (cbn; intuition discriminate). auto.
  - exists r7, r8. repeat split; auto. congruence.
Qed.

(* ---- reading ---- *)

Variable prep : Z -> Z -> Z -> Z -> loaded -> option clim -> imma -> res (loaded * report).
Variable load : Z -> res (option clim).
Hypothesis READY : forall year month y m st bg line im st' r, usable (e_tables E) (e_excluded E) y m line im ->
  prep year month y m st bg im = Ok (st', r) -> vready year month y m im r.
Lemma read_lines_by_spec : forall year month y m bg lines st d st' d', read_lines_by E (prep year month) y m bg lines st d = Ok (st', d') ->
  exists ims reps, read_off (usable (e_tables E) (e_excluded E) y m) lines ims /\ Forall2 (vready year month y m) ims reps /\ d' = fold_left deck_append reps d.
Proof.
  intros year month y m bg. induction lines as [|line lines IH]; intros st d st' d' H; cbn [read_lines_by] in H.
  - injection H as <- <-. exists [], []. repeat split; constructor.
  - step H. pose proof (accept_spec _ _ _ _ _ X) as A. destruct y0 as [im|].
    + step H. destruct y0 as [st1 r]. destruct (IH _ _ _ _ H) as [ims [reps [P [Q R]]]]. exists (im :: ims), (r :: reps). split; [now constructor|]. split; [|exact R].
      constructor; [|exact Q]. eapply READY; eassumption.
    + destruct (IH _ _ _ _ H) as [ims [reps [P [Q R]]]]. exists ims, reps. split; [now constructor|]. auto.
Qed.
(** The reports of a file, ready. *)
Definition vpart (year month : Z) (ym : Z * Z) (reps : list report) : Prop :=
  exists ims, records (usable (e_tables E) (e_excluded E) (fst ym) (snd ym)) (e_lines E (fst ym) (snd ym)) ims /\ Forall2 (vready year month (fst ym) (snd ym)) ims reps.
Lemma read_window_by_spec : forall year month window st d st' d', read_window_by E (prep year month) load window st d = Ok (st', d') ->
  exists parts, Forall2 (vpart year month) window parts /\ d' = fold_left deck_append (concat parts) d.
Proof.
  intros year month. induction window as [|[y m] window IH]; intros st d st' d' H; cbn [read_window_by] in H.
  - injection H as <- <-. exists []. split; [constructor|reflexivity].
  - step H. destruct (e_lines E y m) as [lines|] eqn:L.
    + step H. destruct y1 as [st1 d1]. destruct (read_lines_by_spec _ _ _ _ _ _ _ _ _ _ X0) as [ims [reps [A [B C]]]]. destruct (IH _ _ _ _ H) as [parts [P Q]].
      exists (reps :: parts). split; [constructor; [|exact P]; exists ims; cbn [fst snd]; rewrite L; split; assumption|]. cbn [concat]. now rewrite fold_left_app, <- C.
    + destruct (IH _ _ _ _ H) as [parts [P Q]]. exists ([] :: parts). split; [|exact Q]. constructor; [|exact P]. exists []. cbn [fst snd]. rewrite L. split; [reflexivity|constructor].
Qed.

(* ---- the deck ---- *)

Variable checks : list report -> res (list report).
Variable K : list string.
Hypothesis CHK : forall v v', checks v = Ok v' -> frames K v v'.
Hypothesis FREE : forallb (fun k => negb (mem k ("POSmonth_match" :: base_keys))) K = true.
Lemma vdeck_spec : forall y m d, 1 <= m <= 12 -> deck_by E (prep y m) load checks y m = Ok d -> exists a b c after,
  vpart y m (last_month_was y m) a /\ vpart y m (y, m) b /\ vpart y m (next_month_is y m) c /\
  index_ok (a ++ b ++ c) (d_ids d) /\ all_ships_by E checks position_filter (d_ids d) (a ++ b ++ c) = Ok after /\ sst_buddies E after = Ok (d_reps d) /\
  frames K (a ++ b ++ c) after /\ frames sst_bud_keys after (d_reps d).
Proof.
  intros y m d M H. unfold deck_by in H. rewrite (window_spec y m M) in H. cbn [bind] in H. step H. destruct y0 as [st d0]. destruct (read_window_by_spec _ _ _ _ _ _ _ X) as [parts [P D]].
  inversion P as [|? ? ? ? PA P1]; subst. inversion P1 as [|? ? ? ? PB P2]; subst. inversion P2 as [|? ? ? ? PC P3]; subst. inversion P3; subst. clear P P1 P2 P3.
  rename y0 into a, y1 into b, y2 into c. do 2 step H. apply ok_inj in H. subst d. cbn [d_ids d_reps].
  assert (R : d_reps (fold_left deck_append (concat [a; b; c]) new_deck) = a ++ b ++ c) by (rewrite appends_reps; cbn [concat]; rewrite app_nil_r; reflexivity).
  pose proof (index_ok_appends (concat [a; b; c]) new_deck index_ok_new) as I. rewrite R in *. exists a, b, c, y0. split; [exact PA|]. split; [exact PB|]. split; [exact PC|]. split; [exact I|]. split; [exact X0|]. split; [exact X1|]. split.
  - eapply (all_ships_by_frame E checks K CHK), X0. destruct I as [_ [I _]]. apply Forall_forall. intros [id l] J. cbn [snd]. rewrite (I _ _ J). unfold positions. apply NoDup_filter, seq_NoDup.
  - apply (sst_buddies_frame E _ _ X1).
Qed.
Variable tab : seen -> list (string * string * Prop).
Hypothesis TABV : forall r, tab (view' r) = tab (view r).
Hypothesis TABK : forall o, forallb (fun k => mem k base_keys) (keys (tab o)) = true.
Variable sound : Prop.
Hypothesis TABOK : sound -> forall r, processable (view r) -> wf_report r -> exists r', base r = Ok r' /\ flagged r' (tab (view r')).
Lemma tab_frame : forall K r r', frame K r r' -> tab (view r') = tab (view r).
Proof.
  intros K' r r' [A [_ [B [_ [C [D _]]]]]]. rewrite <- !TABV. f_equal. unfold view', getnorm, getnorm_stdev. rewrite A, B, C. f_equal. rewrite D; [reflexivity|].
  cbn. intuition discriminate.
Qed.
Lemma tabbed_frame : forall K r r', frame K r r' -> forallb (fun k => negb (mem k base_keys)) K = true -> flagged r (tab (view r)) -> flagged r' (tab (view r')).
Proof.
  intros K' r r' F D H v f P I. rewrite (tab_frame _ _ _ F) in I. destruct F as [_ [_ [_ [_ [_ [_ F]]]]]]. rewrite F; [now apply H|].
  intro J. rewrite forallb_forall in D. specialize (D _ J). apply negb_true_iff in D. apply in_keys in I. unfold key in I. cbn [fst snd] in I.
  pose proof (TABK (view r)) as X. rewrite forallb_forall in X. specialize (X _ I). congruence.
Qed.
Lemma vbase_ok : sound -> forall year month y m im r, 1 <= y -> 1 <= m <= 12 -> vready year month y m im r -> flagged r (tab (view r)).
Proof.
  intros SO year month y m im r Y M R. destruct (vr_base _ _ _ _ _ _ R) as [r0 [r1 [W [_ [CL [YR [MO [B S]]]]]]]].
  assert (P : processable (view r0)).
  { split; [|split].
    - destruct (PLACE _ _ B) as [la [lo [A C]]]. exists la, lo. split; assumption.
    - exists y, m. split; [apply int_number; [now cbn; auto|exact YR]|]. split; [apply int_number; [now cbn; auto|exact MO]|]. auto.
    - intros z Z. exfalso. cbn [view s_sd] in Z. destruct (vr_only _ _ _ _ _ _ R) as [_ O]. specialize (O "SLP"). unfold getnorm_stdev in O, Z. rewrite <- CL in O. congruence. }
  destruct (TABOK SO _ P W) as [r1' [B' F]]. rewrite B in B'. apply ok_inj in B'. subst r1'.
  eapply tabbed_frame; [exact (set_qc_frame _ _ _ _ _ S)|reflexivity|exact F].
Qed.
Record vfinished (year month y m : Z) (im : imma) (r : report) : Prop := {
  vf_made : made_plain im r;
  vf_month : of_month y m r;
  vf_match : get_qc r "POS" "month_match" = month_match year month y m;
  vf_mean : exists c, e_lib E "SST" "mean" = Some c /\ normal_at get c r (getnorm r "SST");
  vf_only : only_sst_normal r;
  vf_base : sound -> 1 <= y -> 1 <= m <= 12 -> flagged r (tab (view r)) }.
Lemma frame_plain : forall K im r r', frame K r r' -> made_plain im r -> made_plain im r'.
Proof.
  intros K' im r r' F [A [B [C G]]]. assert (V : forall n, In n VARLIST -> getvar r' n = getvar r n) by (intros n I; apply (frame_getvar K'); [exact F|]; intro J; cbn in J; repeat (destruct J as [<-|J]; [apply mem_In in I; discriminate|]); contradiction).
  assert (L : forall n, mem n VARLIST = true -> getvar r' n = getvar r n) by (intros n I; apply V, mem_In, I). destruct F as [F1 [F2 _]]. unfold made_plain, hour_repaired. rewrite F1, F2.
  rewrite !L by reflexivity. repeat split; auto. intros n I J. rewrite V by exact I. now apply C.
Qed.
Definition vkeys : list string := K ++ sst_bud_keys.
Lemma vkeys_free : forallb (fun k => negb (mem k ("POSmonth_match" :: base_keys))) vkeys = true.
Proof. unfold vkeys. rewrite forallb_app, FREE. reflexivity. Qed.
Lemma vfinish : forall year month y m im r r', vready year month y m im r -> frame vkeys r r' -> vfinished year month y m im r'.
Proof.
  intros year month y m im r r' R F. pose proof (frame_where _ _ _ F) as W.
  assert (YR : getint r' "YR" = Some y) by (rewrite (frame_int _ _ _ _ F); [apply (vr_year _ _ _ _ _ _ R)|apply not_motion; reflexivity]).
  assert (MO : getint r' "MO" = Some m) by (rewrite (frame_int _ _ _ _ F); [apply (vr_month _ _ _ _ _ _ R)|apply not_motion; reflexivity]).
  assert (PL : exists la lo, getvar r' "LAT" = Some la /\ getvar r' "LON" = Some lo).
  { rewrite !(frame_getvar _ _ _ _ F) by (apply not_motion; reflexivity). apply (vr_place _ _ _ _ _ _ R). }
  assert (CL : r_clim r' = r_clim r) by apply F. pose proof vkeys_free as VF. rewrite forallb_forall in VF.
  constructor.
  - eapply frame_plain; [exact F|]. apply (vr_made _ _ _ _ _ _ R).
  - split; assumption.
  - transitivity (get_qc r "POS" "month_match"); [|apply (vr_match _ _ _ _ _ _ R)]. apply F. intro J. specialize (VF _ J). discriminate.
  - destruct (vr_climate _ _ _ _ _ _ R) as [c [LC LK]]. exists c. split; [exact LC|]. apply look_normal; [exact PL|eauto|]. rewrite (look_ext get c r r' W), LK. unfold getnorm. now rewrite CL.
  - destruct (vr_only _ _ _ _ _ _ R) as [O1 O2]. split; [intros n N; specialize (O1 n N)|intro n; specialize (O2 n)]; unfold getnorm, getnorm_stdev in *; now rewrite CL.
  - intros SO Y M. eapply tabbed_frame; [exact F| |eapply vbase_ok; eassumption]. apply forallb_forall. intros k I. specialize (VF k I). apply negb_true_iff in VF. apply negb_true_iff.
    destruct (mem k base_keys) eqn:B; [|reflexivity]. apply mem_In in B. assert (Z : In k ("POSmonth_match" :: base_keys)) by (now right). apply mem_In in Z. congruence.
Qed.
Lemma vfinish_all : forall year month y m ims reps reps', Forall2 (vready year month y m) ims reps -> frames vkeys reps reps' -> Forall2 (vfinished year month y m) ims reps'.
Proof.
  intros year month y m ims reps reps' R. revert reps'. induction R as [|im r ims reps A R IH]; intros reps' F; inversion F; subst; constructor; [|now apply IH]. eapply vfinish; eassumption.
Qed.
(** The files of the window after all checks. *)
Definition vdone (year month : Z) (ym : Z * Z) (reps : list report) : Prop :=
  exists ims, records (usable (e_tables E) (e_excluded E) (fst ym) (snd ym)) (e_lines E (fst ym) (snd ym)) ims /\ Forall2 (vfinished year month (fst ym) (snd ym)) ims reps.
Lemma vpart_done : forall year month ym reps reps', vpart year month ym reps -> frames vkeys reps reps' -> vdone year month ym reps'.
Proof. intros year month ym reps reps' [ims [A B]] F. exists ims. split; [exact A|]. eapply vfinish_all; eassumption. Qed.
Lemma vframes : forall a b c, frames K a b -> frames sst_bud_keys b c -> frames vkeys a c.
Proof.
  intros a b c A B. eapply frames_trans; [eapply frames_incl; [|exact A]|eapply frames_incl; [|exact B]]; intros k J; unfold vkeys; apply in_app_iff; auto.
Qed.
Lemma vdeck_done : forall y m d, 1 <= m <= 12 -> deck_by E (prep y m) load checks y m = Ok d -> exists a b c, d_reps d = a ++ b ++ c /\ index_ok (d_reps d) (d_ids d) /\
  vdone y m (last_month_was y m) a /\ vdone y m (y, m) b /\ vdone y m (next_month_is y m) c.
Proof.
  intros y m d M H. destruct (vdeck_spec y m d M H) as [a [b [c [after [PA [PB [PC [IX [_ [_ [F1 F2]]]]]]]]]]].
  assert (IX' : index_ok (d_reps d) (d_ids d)) by (apply (index_frames _ _ _ _ F2), (index_frames _ _ _ _ F1), IX).
  pose proof (vframes _ _ _ F1 F2) as F. apply Forall2_app_inv_l in F. destruct F as [a' [bc' [FA [F Z]]]]. apply Forall2_app_inv_l in F. destruct F as [b' [c' [FB [FC ->]]]].
  exists a', b', c'. split; [exact Z|]. split; [exact IX'|]. split; [|split]; eapply vpart_done; eassumption.
Qed.
Lemma vdone_month : forall year month ym reps, vdone year month ym reps -> Forall (of_month (fst ym) (snd ym)) reps.
Proof. intros year month ym reps [ims [_ F]]. induction F as [|im r ims reps R F IH]; constructor; [apply (vf_month _ _ _ _ _ _ R)|exact IH]. Qed.
Lemma vdone_other : forall year month ym reps y m, vdone year month ym reps -> ym <> (y, m) -> Forall (fun r => ~ of_month y m r) reps.
Proof.
  intros year month ym reps y m D N. apply vdone_month in D. eapply Forall_impl; [|exact D]. intros r [A B] [A' B']. apply N. destruct ym. cbn [fst snd] in *. congruence.
Qed.
Lemma vdeck_picked : forall y m d, 1 <= m <= 12 -> deck_by E (prep y m) load checks y m = Ok d -> exists l, vdone y m (y, m) l /\ picked (of_month y m) (d_reps d) l.
Proof.
  intros y m d M H. destruct (vdeck_done y m d M H) as [a [b [c [-> [_ [A [B C]]]]]]]. exists b. split; [exact B|].
  enough (X : picked (of_month y m) (a ++ b ++ c) ([] ++ b ++ [])) by (rewrite app_nil_r in X; exact X). apply picked_app; [|apply picked_app].
  - apply picked_none. eapply vdone_other; [exact A|]. now apply last_month_other.
  - apply picked_all. exact (vdone_month _ _ _ _ B).
  - apply picked_none. eapply vdone_other; [exact C|]. now apply next_month_other.
Qed.
Lemma vdeck_each : forall y m d r, 1 <= m <= 12 -> deck_by E (prep y m) load checks y m = Ok d -> In r (d_reps d) -> exists y' m' im, 1 <= m' <= 12 /\ vfinished y m y' m' im r.
Proof.
  intros y m d r M H I. destruct (vdeck_done y m d M H) as [a [b [c [R [_ [A [B C]]]]]]]. rewrite R in I.
  assert (D : exists ym l, vdone y m ym l /\ In r l /\ 1 <= snd ym <= 12).
  { rewrite !in_app_iff in I. destruct I as [I|[I|I]]; [exists (last_month_was y m), a|exists (y, m), b|exists (next_month_is y m), c]; (split; [assumption|]); (split; [assumption|]).
    - apply (C04_last_month y m M).
    - exact M.
    - apply (C04_next_month y m M). }
  destruct D as [ym [l [[ims [_ F]] [J MM]]]].
  assert (G : exists im, vfinished y m (fst ym) (snd ym) im r) by (clear - F J; induction F as [|im x ims l A F IH]; [destruct J|]; destruct J as [->|J]; eauto).
  destruct G as [im G]. exists (fst ym), (snd ym), im. auto.
Qed.
Lemma vmatch : forall y m d r, 1 <= m <= 12 -> deck_by E (prep y m) load checks y m = Ok d -> In r (d_reps d) ->
  (get_qc r "POS" "month_match" = 1 /\ of_month y m r) \/ (get_qc r "POS" "month_match" = 0 /\ ~ of_month y m r).
Proof.
  intros y m d r M H I. destruct (vdeck_each y m d r M H I) as [y' [m' [im [_ G]]]]. pose proof (vf_match _ _ _ _ _ _ G) as X. destruct (vf_month _ _ _ _ _ _ G) as [YR MO]. rewrite X.
  destruct (C06_month_match y m y' m') as [E1 E0]. unfold of_month. rewrite YR, MO.
  destruct (Z.eq_dec y y') as [->|N]; [destruct (Z.eq_dec m m') as [->|N]|].
  - left. split; [now apply E1|auto].
  - right. split; [apply E0; congruence|intros [_ Z]; congruence].
  - right. split; [apply E0; congruence|intros [Z _]; congruence].
Qed.
(** The reports of the month can be printed if its records can. *)
Lemma vprintable : forall year month y m reps, vdone year month (y, m) reps ->
  (forall lines line im, e_lines E y m = Some lines -> In line lines -> usable (e_tables E) (e_excluded E) y m line im -> plain_record im) -> Forall printable reps.
Proof.
  intros year month y m reps [ims [R F]] PL. cbn [fst snd] in *.
  assert (Q : Forall plain_record ims).
  { unfold records in R. destruct (e_lines E y m) as [lines|] eqn:L; [|subst ims; constructor]. specialize (PL lines).
    assert (PL' : forall line im, In line lines -> usable (e_tables E) (e_excluded E) y m line im -> plain_record im) by (intros; eapply PL; eauto). clear - R PL'.
    induction R as [|x im lines ims U R IH|x lines ims U R IH]; [constructor| |].
    - constructor; [eapply PL'; [now left|exact U]|]. apply IH. intros z im' I. apply PL'. now right.
    - apply IH. intros z im' I. apply PL'. now right. }
  clear - F Q. induction F as [|im r ims reps A F IH]; [constructor|]. inversion Q as [|? ? [[u [U1 U2]] I1] Q']; subst. constructor; [|now apply IH].
  destruct (vf_made _ _ _ _ _ _ A) as [MI [MU _]]. split.
  - destruct MU as [[s [S1 S2]]|[S1 S2]]; [|destruct S1; eauto]. exists s. split; [exact S2|]. congruence.
  - intros i I. destruct MI as [[s [S1 S2]]|[S1 S2]]; [|congruence]. apply I1. congruence.
Qed.
(** Lines that stop the program. *)
Lemma read_lines_by_accepts : forall year month y m bg lines st d st' d', read_lines_by E (prep year month) y m bg lines st d = Ok (st', d') ->
  forall line, In line lines -> exists o, accept E y m line = Ok o.
Proof.
  intros year month y m bg. induction lines as [|l lines IH]; intros st d st' d' H line I; [destruct I|]. cbn [read_lines_by] in H. step H. destruct I as [<-|I]; [eauto|].
  destruct y0 as [im|]; [step H; destruct y0 as [st1 r]|]; eapply IH; eassumption.
Qed.
Lemma read_window_by_accepts : forall year month window st d st' d', read_window_by E (prep year month) load window st d = Ok (st', d') ->
  forall y m lines line, In (y, m) window -> e_lines E y m = Some lines -> In line lines -> exists o, accept E y m line = Ok o.
Proof.
  intros year month. induction window as [|[y0 m0] window IH]; intros st d st' d' H y m lines line I L J; [destruct I|]. cbn [read_window_by] in H. step H. rename y1 into bg. destruct I as [I|I].
  - injection I as -> ->. rewrite L in H. step H. destruct y0 as [st1 d1]. eapply read_lines_by_accepts; eassumption.
  - destruct (e_lines E y0 m0) as [l0|]; [step H; destruct y1 as [st1 d1]|]; eapply IH; eassumption.
Qed.
Lemma deck_accepts : forall y m d, 1 <= m <= 12 -> deck_by E (prep y m) load checks y m = Ok d ->
  forall ym lines line, In ym [last_month_was y m; (y, m); next_month_is y m] -> e_lines E (fst ym) (snd ym) = Some lines -> In line lines -> exists o, accept E (fst ym) (snd ym) line = Ok o.
Proof.
  intros y m d M H [y' m'] lines line I L J. unfold deck_by in H. rewrite (window_spec y m M) in H. cbn [bind] in H. step H. destruct y0 as [st d0].
  eapply read_window_by_accepts; eassumption.
Qed.
End Report.

(* ---- drifters ---- *)

Section Drifters.
Variable E : setup.
Variable write : list report -> res (list file).
Definition vcontributes (reps : list report) (l : list nat) (part : list string * list file) : Prop :=
  exists sel v, voyage_of E drifter_filter reps l = Ok (sel, v) /\
    match v with
    | [] => part = ([], [])
    | r0 :: _ => match r_id r0 with
                 | None => part = ([], [])
                 | Some id => exists fs, write v = Ok fs /\ part = ([(id ++ "," ++ safe_filename id ++ newline_s)%string], fs)
                 end
    end.
Lemma vdrifter_parts : forall ids reps names files, drifters_by E write ids reps = Ok (names, files) -> NoDup (concat (map snd ids)) ->
  exists parts, Forall2 (fun il part => vcontributes reps (snd il) part) ids parts /\ names = concat (map fst parts) /\ files = concat (map snd parts).
Proof.
  induction ids as [|[id l] ids IH]; intros reps names files H N; cbn [drifters_by] in H; [apply ok_inj in H; injection H as <- <-; exists []; repeat split; constructor|].
  cbn [map snd concat] in N. pose proof (concat_skip _ _ N) as N2. step H. destruct y as [sel v]. step H. destruct y as [ns fs]. step H. destruct y as [ns' fs']. apply ok_inj in H. injection H as <- <-.
  destruct (IH _ _ _ X1 N2) as [parts [F [E1 E2]]]. exists ((ns, fs) :: parts). cbn [map fst snd concat]. split; [|split; congruence]. constructor.
  - exists sel, v. split; [exact X|]. destruct v as [|r0 v]; [apply ok_inj in X0; congruence|]. destruct (r_id r0) as [i|]; [|apply ok_inj in X0; congruence]. step X0. apply ok_inj in X0. injection X0 as <- <-. exists y. auto.
  - assert (SEL : incl sel l). { unfold voyage_of in X. do 3 step X. apply ok_inj in X. injection X as <- <-. exact (proj1 (picked_sub _ _ _ _ X2)). }
    assert (D : forall l', In l' (map snd ids) -> forall i, In i l' -> ~ In i sel).
    { intros l' I i J K. clear - N I J K SEL. apply SEL in K. assert (Q : In i (concat (map snd ids))) by (apply in_concat; eauto). revert K Q. clear - N. induction l as [|x l IHl]; [intros []|]. inversion N; subst. intros [->|K] Q; [apply H1; apply in_app_iff; auto|]. now apply IHl. }
    clear - F D. induction F as [|[id' l'] part ids parts C F IH]; constructor.
    + destruct C as [sel' [v' [V C]]]. exists sel', v'. split; [|exact C]. cbn [snd] in *. apply (voyage_put' E _ reps l' _ sel v V). intros i I. apply (D l'); [now left|exact I].
    + apply IH. intros l'' I. apply D. now right.
Qed.
Variable G : string -> list report -> list file -> Prop.
Variable reps : list report.
Variable drifting : string -> report -> Prop.
Hypothesis DR : forall id r, In r reps -> (r_id r = Some id /\ test_report drifter_filter r = 0 <-> drifting id r).
Hypothesis WR : forall id sub r0 v fs, picked (drifting id) reps sub -> frames [] sub (r0 :: v) -> r_id r0 = Some id -> write (r0 :: v) = Ok fs -> G id (r0 :: v) fs.
Lemma drifters_by_spec : forall oids names files, index_ok reps oids -> drifters_by E write oids reps = Ok (names, files) ->
  exists ids groups, files = concat groups /\ NoDup ids /\ (forall id, In id ids <-> exists r, In r reps /\ drifting id r) /\ Forall2 id_line ids names /\
    Forall2 (fun id group => exists sub v, picked (drifting id) reps sub /\ frames [] sub v /\ G id v group) ids groups.
Proof.
  intros oids names files IX' H. destruct (vdrifter_parts oids reps names files H (groups_disjoint _ _ IX')) as [parts [FP [EN EM]]].
  assert (K : Forall2 (fun il part => part = ([], []) /\ (forall id, fst il = Some id -> ~ exists r, In r reps /\ drifting id r) \/
      exists id line group, fst il = Some id /\ part = ([line], group) /\ (exists r, In r reps /\ drifting id r) /\ id_line id line /\
        exists sub v, picked (drifting id) reps sub /\ frames [] sub v /\ G id v group) oids parts).
  { destruct IX' as [N1 [N2 N3]]. assert (POS : Forall (fun il => snd il = positions reps (fst il)) oids) by (apply Forall_forall; intros [id l] I; exact (N2 id l I)).
    clear - FP POS DR WR. induction FP as [|[oid l] part ids parts C F IH]; constructor; [|inversion POS; subst; now apply IH]. inversion POS as [|? ? EL _]; subst. cbn [fst snd] in *.
    destruct C as [sel [v [V C]]]. destruct (voyage_picked E drifter_filter reps oid l sel v EL V) as [sub [PK FR]].
    assert (SUB : forall r, In r sub -> In r reps /\ r_id r = oid /\ test_report drifter_filter r = 0) by (clear - PK; induction PK as [|x l l' P PK IH|x l l' P PK IH]; intros r I; [destruct I|destruct I as [->|I]; [split; [now left|exact P]|destruct (IH r I); split; [now right|assumption]]|destruct (IH r I); split; [now right|assumption]]).
    assert (ALL : forall r, In r reps -> r_id r = oid /\ test_report drifter_filter r = 0 -> In r sub) by (clear - PK; induction PK as [|x l l' P PK IH|x l l' P PK IH]; intros r I Q; [destruct I|destruct I as [->|I]; [now left|right; auto]|destruct I as [->|I]; [contradiction|auto]]).
    destruct v as [|r0 v].
    - left. split; [exact C|]. inversion FR; subst. intros id -> [r [I D]]. apply (DR id r I) in D. exact (ALL r I D).
    - destruct sub as [|r1 sub]; [inversion FR|]. inversion FR as [|? ? ? ? [ID0 [_ [_ _]]] FR']; subst. destruct (SUB r1 (or_introl eq_refl)) as [I1 [ID1 T1]]. rewrite ID0, ID1 in C. destruct oid as [id|]; [|left; split; [exact C|intros ? [=]]].
      destruct C as [fs [W ->]]. right. exists id, (id ++ "," ++ safe_filename id ++ newline_s)%string, fs. split; [reflexivity|]. split; [reflexivity|]. split; [exists r1; split; [exact I1|now apply DR]|].
      split; [exists (safe_filename id); split; [apply safe_made; reflexivity|reflexivity]|].
      assert (PK' : picked (drifting id) reps (r1 :: sub)).
      { clear - PK DR. assert (DR' : forall r, In r reps -> r_id r = Some id /\ test_report drifter_filter r = 0 <-> drifting id r) by (intros r I; now apply DR). clear DR. induction PK as [|x l l' P PK IH|x l l' P PK IH].
        * constructor.
        * apply pick_yes; [apply DR'; [now left|exact P]|]. apply IH. intros r I. apply DR'. now right.
        * apply pick_no; [intro Q; apply P; apply DR' in Q; [exact Q|now left]|]. apply IH. intros r I. apply DR'. now right. }
      exists (r1 :: sub), (r0 :: v). split; [exact PK'|]. split; [exact FR|]. eapply WR; [exact PK'|exact FR|congruence|exact W]. }
  assert (Gt : exists ids lines groups, NoDup ids /\ (forall id, In id ids -> In (Some id) (map fst oids)) /\ (forall id, In id ids <-> In (Some id) (map fst oids) /\ exists r, In r reps /\ drifting id r) /\ Forall2 id_line ids lines /\
    Forall2 (fun id group => exists sub v, picked (drifting id) reps sub /\ frames [] sub v /\ G id v group) ids groups /\
    concat (map fst parts) = lines /\ concat (map snd parts) = concat groups).
  { destruct IX' as [N1 _]. clear - K N1. induction K as [|[oid l] part ids parts C F IH]; [exists [], [], []; repeat split; try constructor; try contradiction; intuition|].
    cbn [map fst] in N1. inversion N1 as [|? ? N2 N3]; subst. destruct (IH N3) as [is_ [ls [gs [A1 [A0 [A2 [A3 [A4 [A5 A6]]]]]]]]]. destruct C as [[-> C]|[id [line [group [C1 [-> [C2 [C3 C4]]]]]]]].
    - exists is_, ls, gs. cbn [map fst snd concat app]. split; [exact A1|]. split; [intros id I; right; auto|]. split; [|repeat split; assumption]. intro id. rewrite A2. split; [intros [I J]; split; [now right|exact J]|]. intros [[I|I] J]; [destruct (C id I J)|auto].
    - cbn [fst] in C1. subst oid. exists (id :: is_), (line :: ls), (group :: gs). cbn [map fst snd concat app]. split; [constructor; [intro I; apply N2; now apply A0|exact A1]|]. split; [intros i [<-|I]; [now left|right; auto]|].
      split; [|split; [constructor; assumption|split; [constructor; assumption|split; [rewrite <- A5; reflexivity|rewrite <- A6; reflexivity]]]]. intro i. split.
      + intros [<-|I]; [split; [now left|exact C2]|]. apply A2 in I. destruct I as [I J]. split; [now right|exact J].
      + intros [[I|I] J]; [injection I as <-; now left|]. right. apply A2. auto. }
  destruct Gt as [ids [lines [groups [A1 [A0 [A2 [A3 [A4 [A5 A6]]]]]]]]]. exists ids, groups. split; [congruence|]. split; [exact A1|]. split; [|split; [congruence|exact A4]].
  intro id. rewrite A2. split; [intros [_ J]; exact J|]. intros [r [I D]]. split; [|eauto]. destruct IX' as [_ [_ N3]]. apply (DR id r I) in D. destruct D as [D _]. rewrite <- D. now apply N3.
Qed.
End Drifters.
