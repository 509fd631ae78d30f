(** The high resolution and the tracking-only program come to an end. *)
Require Import String Ascii ZArith QArith Qround List Bool Lia Lqa Sorted.
Require Import Verif.M_Base Verif.L_Base Verif.M_Calendar Verif.S_Calendar Verif.L_Calendar Verif.L_Calendar2 Verif.P_Calendar Verif.M_Report Verif.S_Report Verif.L_Report Verif.L_Report2 Verif.L_Report3 Verif.M_Imma Verif.M_ImmaTables Verif.S_Imma Verif.M_Grid
  Verif.S_Grid Verif.L_Grid Verif.L_Mds Verif.S_Clim Verif.L_Clim Verif.P_Grid Verif.M_Voyage Verif.S_Voyage Verif.L_Voyage Verif.P_Voyage Verif.M_Track Verif.S_Track Verif.P_Track Verif.M_Buddy Verif.S_Buddy Verif.L_Buddy Verif.P_Buddy Verif.M_BaseQC Verif.S_BaseQC Verif.S_Sun Verif.P_BaseQC Verif.S_Hum Verif.M_Files Verif.M_Print Verif.S_Print Verif.P_Print
  Verif.M_Main Verif.S_Main Verif.S_Main2 Verif.L_Main Verif.L_Main2 Verif.L_Main3 Verif.L_Main4 Verif.L_Main5 Verif.L_Main6 Verif.L_Main7 Verif.P_Main Verif.P_Main2 Verif.M_Variants Verif.S_Variants Verif.L_Variants Verif.L_Variants2 Verif.P_Variants
  Verif.S_Total Verif.L_Total Verif.L_Total2 Verif.L_Total3 Verif.L_Total4 Verif.S_Total2.
Import ListNotations.
Open Scope string_scope.
Open Scope list_scope.
Open Scope Z_scope.

(* ---- what the checks need of a report ---- *)

Section Common.
Variable E : setup.
Hypothesis SQ : sst_equipped E.
Record sable (r : report) : Prop := {
  sb_globe : on_globe r;
  sb_place : get_qc r "POS" "date" = 0 -> get_qc r "POS" "time" = 0 -> is_located r;
  sb_anom : get_qc r "SST" "noval" = 0 -> get_qc r "SST" "nonorm" = 0 -> exists a, getanom r "SST" = Some a;
  sb_small : forall a, get_qc r "SST" "clim" = 0 -> getanom r "SST" = Some a -> (- p_sst_anom (e_base E) <= a <= p_sst_anom (e_base E))%Q;
  sb_clock : e_tracking E = true -> get_qc r "POS" "isdrifter" = 1 -> clock_ok r }.
Definition settled : list string := ["POSdate"; "POStime"; "SSTnoval"; "SSTnonorm"; "SSTclim"; "POSisdrifter"].
Lemma sable_frame : forall K r r', forallb (fun k => negb (mem k K)) settled = true -> frame K r r' -> sable r -> sable r'.
Proof.
  intros K r r' N F [A B C G D]. rewrite forallb_forall in N.
  assert (Q : forall t f, In (t ++ f)%string settled -> get_qc r' t f = get_qc r t f) by (intros t f S; apply F; intro I; apply mem_In in I; specialize (N _ S); rewrite I in N; discriminate). constructor.
  - eapply globe_frame; eassumption.
  - rewrite !Q by (cbn; tauto). intros X Y. eapply located_frame; [exact F|auto].
  - rewrite !Q by (cbn; tauto). rewrite (anom_frame _ _ _ _ F) by reflexivity. exact C.
  - rewrite !Q by (cbn; tauto). rewrite (anom_frame _ _ _ _ F) by reflexivity. exact G.
  - rewrite Q by (cbn; tauto). intros T X. eapply clock_frame; [exact F|auto].
Qed.
Lemma all_sable : forall K l l', forallb (fun k => negb (mem k K)) settled = true -> frames K l l' -> Forall sable l -> Forall sable l'.
Proof. intros K l l' N F. induction F as [|r r' l l' A F IH]; intro H; [constructor|]. inversion H; subst. constructor; [eapply sable_frame; eassumption|auto]. Qed.

(* ---- neighbours ---- *)

Lemma sable_checkable : forall l, Forall sable l -> checkable sst_filter "SST" l.
Proof.
  intros l A r J T. rewrite Forall_forall in A. specialize (A r J). apply sst_lets in T. destruct T as [[P _] N].
  assert (L : is_located r) by (apply (sb_place _ A); apply P; cbn; tauto).
  destruct (cell_there r (sb_globe _ A) L) as [c C]. destruct (sb_anom _ A) as [a K]; [apply N; cbn; tauto|apply N; cbn; tauto|]. eauto.
Qed.
Lemma sst_buddies_total : forall l, Forall sable l -> exists l', sst_buddies E l = Ok l'.
Proof.
  intros l A. unfold sst_buddies. pose proof (sq_deviations E SQ) as D. assert (D0 : one_degree (e_sd_old E)) by (apply D; cbn; tauto).
  assert (D1 : one_degree (e_sd1 E)) by (apply D; cbn; tauto). assert (D2 : one_degree (e_sd2 E)) by (apply D; cbn; tauto). assert (D3 : one_degree (e_sd3 E)) by (apply D; cbn; tauto).
  destruct D0, D1, D2, D3.
  destruct (C37_bayes_accepts (e_xspan E) (e_sqrt E) (e_gross E (p_sst_anom (e_base E))) (e_sd1 E) (e_sd2 E) (e_sd3 E) (e_radius E) (e_sigma_m E) (e_noise E) "SST" sst_filter l) as [l1 K]; try assumption;
    [apply (sq_noise E SQ)|cbn; tauto|now apply sable_checkable|apply (sq_error E SQ)|apply (sq_root E SQ)| |].
  { intros r a bm bsd J T AN P. apply (sq_gross E SQ); [|exact P]. rewrite Forall_forall in A. apply sst_lets in T. apply (sb_small _ (A r J) a); [apply T; cbn; tauto|exact AN]. }
  unfold bayes. rewrite K. cbn [bind].
  assert (A1 : Forall sable l1) by (apply (all_sable ["SSTbbud"] l); [reflexivity| |exact A]; eapply frames_incl; [|eapply (bayes_frame E); unfold bayes; exact K]; intros k J; exact J).
  destruct (proj2 (C37_accepts (e_xspan E) (e_sd_old E) _ _ _ "SST" sst_filter l1 H H0 (sq_buddy E SQ))) as [l2 K2]; [split; [cbn; tauto|now apply sable_checkable]|]. unfold mds. eauto.
Qed.

(* ---- one ship, then all ---- *)

Lemma tracked_total : forall sub, Forall is_located sub -> Forall heading_known sub -> in_time_order sub ->
  exists v v1, add_reports (e_sphere E) [] sub = Ok v /\ track_check (e_sphere E) (e_track E) v = Ok v1 /\ Forall is_located v1.
Proof.
  intros sub L H T. destruct (sq_sphere E SQ) as [S1 S2].
  assert (A : exists v v1, add_reports (e_sphere E) [] sub = Ok v /\ track_check (e_sphere E) (e_track E) v = Ok v1).
  { destruct sub as [|r0 l]; [exists [], []; split; reflexivity|]. destruct (generic_report r0) eqn:G; [|destruct (pt_buoy r0) eqn:P; [|destruct (le_lt_dec 2 (length l)) as [K|K]]].
    - destruct (C30_not_checked (e_sphere E) (e_track E) r0 l L (or_introl G)) as [v [v' [A [B _]]]]. eauto.
    - destruct (C30_not_checked (e_sphere E) (e_track E) r0 l L (or_intror (or_introl P))) as [v [v' [A [B _]]]]. eauto.
    - destruct (C30_track_check (e_sphere E) (e_track E) r0 l S1 L T H G P K) as [v [v' [amax [A [B _]]]]]. eauto.
    - destruct (C30_not_checked (e_sphere E) (e_track E) r0 l L (or_intror (or_intror K))) as [v [v' [A [B _]]]]. eauto. }
  destruct A as [v [v1 [A B]]]. exists v, v1. split; [exact A|]. split; [exact B|].
  eapply frames_located; [eapply track_frame, B|]. eapply (frames_located []); [exact (add_reports_frame (e_sphere E) sub [] v A [] [] (Forall2_nil _))|exact L].
Qed.
Variable checks : list report -> res (list report).
Hypothesis CT : forall v v1, track_check (e_sphere E) (e_track E) v = Ok v1 -> Forall is_located v1 -> exists v', checks v = Ok v'.
Definition vship_fine (reps : list report) (l : list nat) : Prop := exists sel v v', voyage_of E position_filter reps l = Ok (sel, v) /\ checks v = Ok v'.
Lemma all_ships_by_total : forall ids reps, NoDup (concat (map snd ids)) -> (forall id l, In (id, l) ids -> vship_fine reps l) -> exists reps', all_ships_by E checks position_filter ids reps = Ok reps'.
Proof.
  induction ids as [|[id l] ids IH]; intros reps N H; cbn [all_ships_by]; [eauto|]. destruct (H id l (or_introl eq_refl)) as [sel [v [v' [V C]]]]. rewrite V. cbn [bind]. rewrite C. cbn [bind].
  cbn [map snd concat] in N. apply IH; [exact (concat_skip _ _ N)|]. intros id' l' I. destruct (H id' l' (or_intror I)) as [sel' [w [w' [V' C']]]]. exists sel', w, w'. split; [|exact C'].
  apply voyage_put; [exact V'|]. assert (SEL : incl sel l). { unfold voyage_of in V. do 3 step V. apply ok_inj in V. injection V as <- <-. exact (proj1 (picked_sub _ _ _ _ X)). }
  intros i J K. apply SEL in K. assert (Q : In i (concat (map snd ids))) by (apply in_concat; exists l'; split; [apply in_map_iff; exists (id', l'); auto|exact J]). revert K Q. clear - N. induction l as [|x l IHl]; [intros []|].
  inversion N; subst. intros [->|K] Q; [apply H1; apply in_app_iff; auto|]. now apply IHl.
Qed.
Lemma vship_fine_all : forall reps id l, l = positions reps id -> ships_in_order reps -> Forall heading_known reps -> (forall r, In r reps -> test_report position_filter r = 0 -> is_located r) -> vship_fine reps l.
Proof.
  intros reps id l EL O HK LO. assert (LIM : forall i, In i l -> (i < length reps)%nat) by (intros i I; rewrite EL in I; apply In_positions in I; destruct I as [r [J _]]; apply nth_error_Some; congruence).
  destruct (pick_total position_filter reps l LIM) as [sel [sub [P1 [P2 F]]]]. pose proof P1 as P1'. rewrite (pick_spec position_filter reps l LIM) in P1'. apply ok_inj in P1'.
  assert (IN : forall i, In i sel -> exists r, nth_error reps i = Some r /\ r_id r = id /\ test_report position_filter r = 0).
  { intros i I. rewrite <- P1' in I. apply filter_In in I. destruct I as [I J]. rewrite EL in I. apply In_positions in I. destruct I as [r [A B]]. exists r. split; [exact A|]. split; [exact B|]. unfold passes in J. rewrite A in J. now apply Z.eqb_eq in J. }
  assert (SO : StronglySorted lt sel) by (rewrite <- P1', EL; unfold positions; apply filter_sorted, filter_sorted, seq_sorted).
  assert (ALL : forall r, In r sub -> In r reps /\ test_report position_filter r = 0).
  { intros r I. apply In_nth_error in I. destruct I as [k K]. destruct (forall2_nth _ _ _ _ _ _ _ F K) as [i [A B]]. destruct (IN i (nth_error_In _ _ A)) as [r' [C [_ D]]]. assert (r' = r) by congruence. subst r'. split; [exact (nth_error_In _ _ B)|exact D]. }
  destruct (tracked_total sub) as [v [v1 [A [B L]]]].
  - apply Forall_forall. intros r I. destruct (ALL r I). now apply LO.
  - apply Forall_forall. intros r I. destruct (ALL r I). rewrite Forall_forall in HK. now apply HK.
  - intros k a b t NA NB HB. destruct (forall2_nth _ _ _ _ _ _ _ F NA) as [i [A1 A2]]. destruct (forall2_nth _ _ _ _ _ _ _ F NB) as [j [B1 B2]]. apply (O i j a b t (sorted_next _ _ _ _ SO A1 B1) A2 B2); [|exact HB].
    destruct (IN i (nth_error_In _ _ A1)) as [ra [X1 [X2 _]]]. destruct (IN j (nth_error_In _ _ B1)) as [rb [Y1 [Y2 _]]]. congruence.
  - destruct (CT v v1 B L) as [v' C]. exists sel, v, v'. split; [|exact C]. unfold voyage_of. rewrite P1. cbn [bind]. rewrite P2. cbn [bind]. rewrite A. reflexivity.
Qed.
(** The order of the reports is that of the records. *)
Lemma plain_when : forall im r la lo d h, made_plain im r -> located r la lo d h -> when im d h.
Proof.
  intros im r la lo d h [_ [_ [N HR]]] L. destruct L.
  assert (F : forall n, mem n VARLIST = true -> n <> "HR" -> number_field im n (getvar r n)) by (intros n A B; apply N; [apply mem_In, A|exact B]).
  pose proof (getint_var r "YR" _ eq_refl eq_refl loc_y) as YV. pose proof (getint_var r "MO" _ eq_refl eq_refl loc_m) as MV. pose proof (getint_var r "DY" _ eq_refl eq_refl loc_d) as DV.
  split; [rewrite <- YV; apply F; [reflexivity|discriminate]|]. split; [rewrite <- MV; apply F; [reflexivity|discriminate]|]. split; [rewrite <- DV; apply F; [reflexivity|discriminate]|]. split; [exact loc_valid|]. split; [exact loc_hour|].
  destruct HR as [HR|[HR [D7 [[y [YY Y]] H0]]]]; [left; rewrite <- loc_h; exact HR|right]. split; [exact HR|]. split; [change 701%Q with (inject_Z 701); rewrite <- D7; apply F; [reflexivity|discriminate]|]. split; [|congruence].
  rewrite YV in YY. injection YY as YY. congruence.
Qed.
Lemma order_of_plain : forall ims reps, chronological ims -> Forall2 made_plain ims reps -> ships_in_order reps.
Proof.
  intros ims reps C F i j a b t L A B I [la [lo [d [h [la' [lo' [d' [h' [LA [LB EL]]]]]]]]]].
  destruct (forall2_nth _ _ _ _ _ _ _ F A) as [ia [A1 A2]]. destruct (forall2_nth _ _ _ _ _ _ _ F B) as [ib [B1 B2]].
  apply (C i j ia ib (r_id a) d h d' h' t L A1 B1); [apply A2|rewrite I; apply B2|eapply plain_when; eassumption|eapply plain_when; eassumption|exact EL].
Qed.
End Common.

(* ---- a report as it is read ---- *)

Lemma vwindow_range : forall E year month, readable E year month -> forall y m, In (y, m) (window year month) -> 1 <= y <= 9999 /\ 1 <= m <= 12.
Proof.
  intros E year month RB. pose proof (rb_year _ _ _ RB) as Y. pose proof (rb_month _ _ _ RB) as M. intros y m I. unfold window, month_before, month_after in I. cbn [In] in I.
  destruct (Z.eqb_spec month 1), (Z.eqb_spec month 12); destruct I as [I|[I|[I|[]]]]; injection I as <- <-; lia.
Qed.
Section Ready.
Variable E : setup.
Variable get : clim -> Q -> Q -> Z -> Z -> res (option Q).
Variable base : report -> res report.
Variable tab : seen -> list (string * string * Prop).
Hypothesis TAB : forall o, incl (kind_flags o ++ place_flags o ++ sst_flags (e_base E) o) (tab o).
Hypothesis FLAGS : forall year month y m im r, 1 <= y -> 1 <= m <= 12 -> vready E get base year month y m im r -> flagged r (tab (view r)).
Lemma vready_located : forall year month y m im r, vready E get base year month y m im r -> placeable im -> 1 <= y -> 1 <= m <= 12 -> get_qc r "POS" "date" = 0 -> get_qc r "POS" "time" = 0 -> is_located r.
Proof.
  intros year month y m im r R W Y M ZD ZT. pose proof (FLAGS year month y m im r Y M R) as FL. pose proof (TAB (view r)) as TI.
  destruct (vr_made _ _ _ _ _ _ _ _ _ R) as [_ [_ [N HR]]].
  assert (F : forall n, mem n VARLIST = true -> n <> "HR" -> number_field im n (getvar r n)) by (intros n A B; apply N; [apply mem_In, A|exact B]).
  destruct (pl_lat _ W) as [la [LA LA']]. destruct (pl_lon _ W) as [lo [LO LO']].
  assert (VA : lat r = Some la) by (unfold lat; apply (field_fun im "LAT"); [apply F; [reflexivity|discriminate]|exact LA]).
  assert (VO : getvar r "LON" = Some lo) by (apply (field_fun im "LON"); [apply F; [reflexivity|discriminate]|exact LO]).
  destruct (lon_west r lo VO LO') as [l [VL VL']].
  assert (ND : ~ ~ dated (view r)) by (apply (flag_zero r _ "POS" "date" _ FL); [apply TI; cbn; tauto|exact ZD]).
  assert (NT : ~ ~ timed (view r)) by (apply (flag_zero r _ "POS" "time" _ FL); [apply TI; cbn; tauto|exact ZT]).
  destruct (getvar r "HR") as [h|] eqn:GH; [|exfalso; apply NT; intros [h [Q _]]; cbn [view s_var] in Q; congruence].
  assert (H24 : (0 <= h < 24)%Q).
  { destruct (Qlt_le_dec h 0) as [A|A]; [exfalso; apply NT; intros [h' [Q Q']]; cbn [view s_var] in Q; assert (h' = h) by congruence; subst; lra|]. destruct (Qlt_le_dec h 24) as [B|B]; [auto|]. exfalso; apply NT; intros [h' [Q Q']]; cbn [view s_var] in Q; assert (h' = h) by congruence; subst; lra. }
  destruct (getint r "DY") as [d|] eqn:GD; [|exfalso; apply ND; intros [d [[_ [_ [q [Q _]]]] _]]; cbn [view s_var] in Q; unfold getint in GD; rewrite Q in GD; discriminate].
  pose proof (getint_var r "DY" _ eq_refl eq_refl GD) as DV. pose proof (vr_year _ _ _ _ _ _ _ _ _ R) as GY. pose proof (vr_month _ _ _ _ _ _ _ _ _ R) as GM.
  destruct (month_has_exists y m M) as [n MH].
  assert (D : 1 <= d <= n).
  { assert (X : ~ ~ (1 <= d <= n)).
    { intro Z0. apply ND. intros [[yy mm dd] [[[q1 [Q1 Q1']] [[q2 [Q2 Q2']] [q3 [Q3 Q3']]]] [[n' [V1 V2]] _]]]. cbn [yr mo dy] in *. cbn [view s_var] in Q1, Q2, Q3. apply Z0.
      pose proof (getint_var r "YR" _ eq_refl eq_refl GY) as YV. pose proof (getint_var r "MO" _ eq_refl eq_refl GM) as MV.
      rewrite YV in Q1. rewrite MV in Q2. rewrite DV in Q3. injection Q1 as <-. injection Q2 as <-. injection Q3 as <-. assert (QZ : forall a b, (inject_Z a == inject_Z b)%Q -> a = b) by (intros a b Q; unfold Qeq in Q; cbn in Q; lia). apply QZ in Q1'. apply QZ in Q2'. apply QZ in Q3'. subst.
      pose proof (month_has_det _ _ _ _ MH V1). subst. exact V2. }
    lia. }
  exists la, l, (on y m d), h. constructor; try assumption. exists n. cbn [on yr mo dy]. auto.
Qed.
Lemma vready_sable : forall year month y m im r, vready E get base year month y m im r -> placeable im -> (e_tracking E = true -> trackable y m im) -> 1 <= y -> 1 <= m <= 12 -> sable E r.
Proof.
  intros year month y m im r R W T Y M. pose proof (FLAGS year month y m im r Y M R) as FL. pose proof (TAB (view r)) as TI.
  destruct (vr_made _ _ _ _ _ _ _ _ _ R) as [_ [_ [N HR]]].
  assert (F : forall n, mem n VARLIST = true -> n <> "HR" -> number_field im n (getvar r n)) by (intros n A B; apply N; [apply mem_In, A|exact B]).
  constructor.
  - destruct (pl_lat _ W) as [la [LA LA']]. destruct (pl_lon _ W) as [lo [LO LO']].
    assert (VA : lat r = Some la) by (unfold lat; apply (field_fun im "LAT"); [apply F; [reflexivity|discriminate]|exact LA]).
    assert (VO : getvar r "LON" = Some lo) by (apply (field_fun im "LON"); [apply F; [reflexivity|discriminate]|exact LO]).
    destruct (lon_west r lo VO LO') as [l [VL VL']]. exists la, l. auto.
  - intros A B. exact (vready_located _ _ _ _ _ _ R W Y M A B).
  - intros A B.
    assert (X1 : getvar r "SST" <> None) by (eapply (flag_zero r _ _ "noval" _ FL); [apply TI; cbn; tauto|exact A]).
    assert (X2 : getnorm r "SST" <> None) by (eapply (flag_zero r _ _ "nonorm" _ FL); [apply TI; cbn; tauto|exact B]).
    unfold getanom. unfold getnorm in X2. destruct (assoc "SST" (r_clim r)) as [[[c|] s]|]; try congruence. destruct (getvar r "SST") as [v|]; [eauto|congruence].
  - intros a A AN. set (lim := p_sst_anom (e_base E)) in *.
    assert (X : ~ anomalous (getvar r "SST") (getnorm r "SST") lim) by (eapply (flag_zero r _ _ "clim" _ FL); [apply TI; cbn; tauto|exact A]).
    unfold anomalous in X. unfold getanom in AN. unfold getnorm in X. destruct (assoc "SST" (r_clim r)) as [[[c|] s]|]; try discriminate. destruct (getvar r "SST") as [v|]; [|discriminate]. injection AN as <-.
    destruct (Qlt_le_dec lim (v - c)) as [L1|L1]; [exfalso; apply X; right; right; exists v, c; unfold far; auto|]. destruct (Qlt_le_dec lim (c - v)) as [L2|L2]; [exfalso; apply X; right; right; exists v, c; unfold far; auto|]. lra.
  - intros ET DR. specialize (T ET). destruct (getvar r "HR") as [h|] eqn:GH; [right|left; exact GH].
    assert (PT : number_field im "PT" (Some 7%Q)).
    { assert (IT : In ("POS", "isdrifter", one_of (view r) "PT" [7]) (tab (view r))) by (apply TI; cbn; tauto).
      destruct (FL "POS" "isdrifter" _ IT) as [[_ P]|[P _]]; [|congruence]. destruct P as [z [[<-|[]] [q [Q1 Q2]]]]. cbn [view s_var] in Q1.
      assert (GI : getint r "PT" = Some 7) by (unfold getint; rewrite Q1; f_equal; rewrite (py_int_comp q (inject_Z 7) Q2); apply py_int_inject).
      pose proof (getint_var r "PT" 7 eq_refl eq_refl GI) as Q. change 7%Q with (inject_Z 7). rewrite <- Q. apply F; [reflexivity|discriminate]. }
    assert (HO : hour_ok h).
    { destruct HR as [HR|[_ [_ [_ HR]]]]; [exact (pl_hour _ W h HR)|]. assert (h = 0%Q) by congruence. subst. unfold hour_ok. lra. }
    pose proof (vr_year _ _ _ _ _ _ _ _ _ R) as GY. pose proof (vr_month _ _ _ _ _ _ _ _ _ R) as GM.
    destruct (getint r "DY") as [d|] eqn:GD.
    + pose proof (getint_var r "DY" _ eq_refl eq_refl GD) as DV. exists (on y m d), h. cbn [on yr mo dy]. split; [exact GY|]. split; [exact GM|]. split; [reflexivity|]. split; [|split; [exact GH|exact HO]]. apply (tr_day _ _ _ T). rewrite <- DV. apply F; [reflexivity|discriminate].
    + exfalso. assert (DN : number_field im "DY" None).
      { assert (Q : getvar r "DY" = None) by (unfold getint in GD; destruct (getvar r "DY"); [discriminate|reflexivity]). rewrite <- Q. apply F; [reflexivity|discriminate]. }
      destruct (tr_drifter _ _ _ T PT DN) as [HN D7]. destruct HR as [HR|[_ [R7 [[y' [YY YL]] _]]]]; [pose proof (field_fun _ _ _ _ HR HN); discriminate|]. apply D7.
      split; [change 701%Q with (inject_Z 701); rewrite <- R7; apply F; [reflexivity|discriminate]|]. pose proof (getint_var r "YR" _ eq_refl eq_refl GY) as YV. rewrite YV in YY. injection YY as YY. lia.
Qed.
Section Month.
Variables year month : Z.
Hypothesis RB : readable E year month.
Lemma vpart_sable : forall ym reps, In ym (window year month) -> vpart E get base year month ym reps -> Forall (sable E) reps.
Proof.
  intros [y m] reps I [ims [R F]]. cbn [fst snd] in *. destruct (vwindow_range E year month RB y m I) as [Y MM].
  assert (Q : Forall (fun im => placeable im /\ (e_tracking E = true -> trackable y m im)) ims).
  { unfold records in R. destruct (e_lines E y m) as [lines|] eqn:L; [|subst; constructor]. eapply read_off_good; [exact R|]. intros line im J U. exact (rb_records _ _ _ RB y m lines line im I L J U). }
  clear R. induction F as [|im r ims reps A F IH]; [constructor|]. inversion Q as [|? ? [Q1 Q2] Q']; subst. constructor; [|now apply IH]. eapply vready_sable; try eassumption. lia.
Qed.
End Month.
End Ready.

(* ---- the deck ---- *)

Section Deck.
Variable E : setup.
Hypothesis SQ : sst_equipped E.
Variable get : clim -> Q -> Q -> Z -> Z -> res (option Q).
Variable base : report -> res report.
Variable prep : Z -> Z -> Z -> Z -> loaded -> option clim -> imma -> res (loaded * report).
Variable load : Z -> res (option clim).
Variable bg_ok : option clim -> Prop.
Hypothesis READY : forall year month y m st bg line im st' r, usable (e_tables E) (e_excluded E) y m line im -> prep year month y m st bg im = Ok (st', r) -> vready E get base year month y m im r.
Hypothesis PREP : forall year month y m st bg line im, usable (e_tables E) (e_excluded E) y m line im -> 1 <= y <= 9999 -> 1 <= m <= 12 -> placeable im ->
  (e_tracking E = true -> trackable y m im) -> loaded_ok st -> bg_ok bg -> exists st' r, prep year month y m st bg im = Ok (st', r) /\ loaded_ok st'.
Hypothesis HEAD : forall year month y m st bg im st' r, prep year month y m st bg im = Ok (st', r) -> heading_known r.
Hypothesis LOAD : forall m, 1 <= m <= 12 -> exists bg, load m = Ok bg /\ bg_ok bg.
Variable checks : list report -> res (list report).
Variable K : list string.
Hypothesis CHK : forall v v', checks v = Ok v' -> frames K v v'.
Hypothesis KS : forallb (fun k => negb (mem k K)) settled = true.
Hypothesis CT : forall v v1, track_check (e_sphere E) (e_track E) v = Ok v1 -> Forall is_located v1 -> exists v', checks v = Ok v'.
Variable tab : seen -> list (string * string * Prop).
Hypothesis TAB : forall o, incl (kind_flags o ++ place_flags o ++ sst_flags (e_base E) o) (tab o).
Hypothesis FLAGS : forall year month y m im r, 1 <= y -> 1 <= m <= 12 -> vready E get base year month y m im r -> flagged r (tab (view r)).

Definition vline_fine (y m : Z) (line : string) : Prop := (exists o, accept E y m line = Ok o) /\
  forall im, usable (e_tables E) (e_excluded E) y m line im -> placeable im /\ (e_tracking E = true -> trackable y m im).
Lemma vlines_total : forall year month y m bg, 1 <= y <= 9999 -> 1 <= m <= 12 -> bg_ok bg -> forall lines st d, Forall (vline_fine y m) lines -> loaded_ok st ->
  exists st' d', read_lines_by E (prep year month) y m bg lines st d = Ok (st', d') /\ loaded_ok st'.
Proof.
  intros year month y m bg Y M V. induction lines as [|line lines IH]; intros st d F L; cbn [read_lines_by]; [eauto|]. inversion F as [|? ? [[o A] W] F']; subst. rewrite A. cbn [bind].
  pose proof (accept_spec _ _ _ _ _ A) as U. destruct o as [im|]; [|now apply IH]. destruct (W im U) as [W1 W2].
  destruct (PREP year month y m st bg line im U Y M W1 W2 L V) as [st1 [r [P L1]]]. rewrite P. cbn [bind]. now apply IH.
Qed.
Lemma vwindow_total : forall year month w st d, (forall y m, In (y, m) w -> 1 <= y <= 9999 /\ 1 <= m <= 12 /\ forall lines, e_lines E y m = Some lines -> Forall (vline_fine y m) lines) -> loaded_ok st ->
  exists st' d', read_window_by E (prep year month) load w st d = Ok (st', d').
Proof.
  intros year month. induction w as [|[y m] w IH]; intros st d H L; cbn [read_window_by]; [eauto|]. destruct (H y m (or_introl eq_refl)) as [Y [M F]].
  destruct (LOAD m M) as [bg [B V]]. rewrite B. cbn [bind]. assert (H' : forall y m, In (y, m) w -> 1 <= y <= 9999 /\ 1 <= m <= 12 /\ forall lines, e_lines E y m = Some lines -> Forall (vline_fine y m) lines) by (intros y' m' I; apply H; now right).
  destruct (e_lines E y m) as [lines|] eqn:EL; [|now apply IH]. destruct (vlines_total year month y m bg Y M V lines st d (F lines eq_refl) L) as [st1 [d1 [R L1]]]. rewrite R. cbn [bind]. now apply IH.
Qed.
Lemma vlines_heading : forall year month y m bg lines st d st' d', read_lines_by E (prep year month) y m bg lines st d = Ok (st', d') -> Forall heading_known (d_reps d) -> Forall heading_known (d_reps d').
Proof.
  intros year month y m bg. induction lines as [|line lines IH]; intros st d st' d' H F; cbn [read_lines_by] in H; [apply ok_inj in H; injection H as <- <-; exact F|].
  step H. destruct y0 as [im|]; [|eapply IH; eassumption]. step H. destruct y0 as [st1 r]. eapply IH; [exact H|]. unfold deck_append. cbn [d_reps]. apply Forall_app. split; [exact F|]. constructor; [eapply HEAD; eassumption|constructor].
Qed.
Lemma vwindow_heading : forall year month w st d st' d', read_window_by E (prep year month) load w st d = Ok (st', d') -> Forall heading_known (d_reps d) -> Forall heading_known (d_reps d').
Proof.
  intros year month. induction w as [|[y m] w IH]; intros st d st' d' H F; cbn [read_window_by] in H; [apply ok_inj in H; injection H as <- <-; exact F|].
  step H. destruct (e_lines E y m) as [lines|]; [|eapply IH; eassumption]. step H. destruct y1 as [st1 d1]. eapply IH; [exact H|]. eapply vlines_heading; eassumption.
Qed.
Lemma made_all_plain : forall year month y m ims reps, Forall2 (vready E get base year month y m) ims reps -> Forall2 made_plain ims reps.
Proof. intros year month y m ims reps F. induction F as [|im r ims reps A F IH]; constructor; [apply (vr_made _ _ _ _ _ _ _ _ _ A)|exact IH]. Qed.

Section Month.
Variables year month : Z.
Hypothesis RB : readable E year month.
Let M : 1 <= month <= 12 := rb_month _ _ _ RB.
Lemma vdeck_total : exists d, deck_by E (prep year month) load checks year month = Ok d.
Proof.
  unfold deck_by. rewrite (window_spec year month M). cbn [bind]. rewrite <- (window_is year month M).
  destruct (vwindow_total year month (window year month) (-99, None) new_deck) as [st [d R]].
  - intros y m I. destruct (vwindow_range E year month RB y m I) as [Y MM]. split; [exact Y|]. split; [exact MM|]. intros lines L. apply Forall_forall. intros line J. destruct (get_table imma_tables 0) as [core|] eqn:GT; [|vm_compute in GT; discriminate]. split.
    + eapply accept_total; [apply (sq_tables E SQ)|exact GT|]. exact (rb_lines _ _ _ RB core y m lines line GT I L J).
    + intros im U. exact (rb_records _ _ _ RB y m lines line im I L J U).
  - left. reflexivity.
  - rewrite R. cbn [bind]. pose proof (vwindow_heading _ _ _ _ _ _ _ R (Forall_nil _)) as HK.
    destruct (read_window_by_spec E get base prep load READY _ _ _ _ _ _ _ R) as [parts [P D]]. unfold window in P.
    inversion P as [|? ? ? ? PA P1]; subst. inversion P1 as [|? ? ? ? PB P2]; subst. inversion P2 as [|? ? ? ? PC P3]; subst. inversion P3; subst. clear P P1 P2 P3.
    rename y into a, y0 into b, y1 into c.
    assert (RR : d_reps (fold_left deck_append (concat [a; b; c]) new_deck) = a ++ b ++ c) by (rewrite appends_reps; cbn [concat]; rewrite app_nil_r; reflexivity).
    pose proof (index_ok_appends (concat [a; b; c]) new_deck index_ok_new) as IX. rewrite RR in *. set (ids := d_ids _) in *.
    assert (AB : Forall (sable E) (a ++ b ++ c)).
    { apply Forall_app. split; [eapply (vpart_sable E get base tab TAB FLAGS year month RB); [|exact PA]; now left|]. apply Forall_app. split; [eapply (vpart_sable E get base tab TAB FLAGS year month RB); [|exact PB]; right; now left|]. eapply (vpart_sable E get base tab TAB FLAGS year month RB); [|exact PC]. do 2 right. now left. }
    assert (OR : ships_in_order (a ++ b ++ c)).
    { destruct PA as [ia [RA FA]]. destruct PB as [ib [RB' FB]]. destruct PC as [ic [RC FC]]. eapply order_of_plain; [exact (rb_time _ _ _ RB ia ib ic RA RB' RC)|]. apply Forall2_app; [eapply made_all_plain; exact FA|]. apply Forall2_app; eapply made_all_plain; eassumption. }
    destruct (all_ships_by_total E checks ids (a ++ b ++ c) (groups_disjoint _ _ IX)) as [after SH].
    + intros id l I. destruct IX as [_ [IX _]]. apply (vship_fine_all E SQ checks CT _ id l (IX id l I) OR HK). intros r J T. rewrite Forall_forall in AB. apply position_lets in T. apply (sb_place _ _ (AB r J)); apply T; cbn; tauto.
    + rewrite SH. cbn [bind]. assert (F : frames K (a ++ b ++ c) after).
      { eapply (all_ships_by_frame E checks K CHK), SH. destruct IX as [_ [IX _]]. apply Forall_forall. intros [id l] J. cbn [snd]. rewrite (IX _ _ J). unfold positions. apply NoDup_filter, seq_NoDup. }
      destruct (sst_buddies_total E SQ after) as [l BU]; [|rewrite BU; cbn [bind]; eauto]. apply (all_sable E K (a ++ b ++ c)); [exact KS|exact F|exact AB].
Qed.
(** What is known of the deck. *)
Lemma vdeck_sable : forall d, deck_by E (prep year month) load checks year month = Ok d -> Forall (sable E) (d_reps d).
Proof.
  intros d CD. destruct (vdeck_spec E get base prep load READY checks K CHK year month d M CD) as [a [b [c [after [PA [PB [PC [IX [SH [BU [F1 F2]]]]]]]]]]].
  apply (all_sable E sst_bud_keys after); [reflexivity|exact F2|]. apply (all_sable E K (a ++ b ++ c)); [exact KS|exact F1|].
  assert (W : window year month = [last_month_was year month; (year, month); next_month_is year month]) by (apply window_is, M).
  apply Forall_app. split; [eapply (vpart_sable E get base tab TAB FLAGS year month RB); [|exact PA]; rewrite W; now left|]. apply Forall_app. split; [eapply (vpart_sable E get base tab TAB FLAGS year month RB); [|exact PB]; rewrite W; right; now left|]. eapply (vpart_sable E get base tab TAB FLAGS year month RB); [|exact PC]. rewrite W. do 2 right. now left.
Qed.
Lemma vdeck_some : forall d, some_record E year month -> deck_by E (prep year month) load checks year month = Ok d -> d_reps d <> [].
Proof.
  intros d [y [m [lines [line [im [I [L [J U]]]]]]]] CD Z. destruct (vdeck_spec E get base prep load READY checks K CHK year month d M CD) as [a [b [c [after [PA [PB [PC [IX [SH [BU [F1 F2]]]]]]]]]]].
  rewrite Z in F2. inversion F2; subst. assert (Z1 : a ++ b ++ c = []) by (destruct (a ++ b ++ c); [reflexivity|inversion F1]). apply app_eq_nil in Z1. destruct Z1 as [-> Z1]. apply app_eq_nil in Z1. destruct Z1 as [-> ->].
  assert (G : forall ym, vpart E get base year month ym [] -> (y, m) = ym -> False).
  { intros ym [ims [R F]] <-. cbn [fst snd] in *. inversion F; subst. rewrite L in R. cbn [records] in R. exact (read_off_in E y m lines [] line im R J U). }
  rewrite (window_is year month M) in I. destruct I as [I|[I|[I|[]]]]; symmetry in I; (eapply G; [|exact I]; assumption).
Qed.
End Month.
End Deck.
