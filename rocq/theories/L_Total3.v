(** The main program comes to an end: the deck, the neighbours and the files. *)
Require Import String Ascii ZArith QArith Qround List Bool Lia Lqa Sorted.
Require Import Verif.M_Base Verif.L_Base Verif.M_Calendar Verif.S_Calendar Verif.L_Calendar Verif.L_Calendar2 Verif.P_Calendar Verif.M_Report Verif.S_Report Verif.L_Report Verif.L_Report2 Verif.L_Report3 Verif.M_Imma Verif.M_ImmaTables Verif.S_Imma Verif.M_Grid
  Verif.S_Grid Verif.L_Grid Verif.L_Mds Verif.S_Clim Verif.L_Clim Verif.P_Grid Verif.M_Voyage Verif.S_Voyage Verif.L_Voyage Verif.M_Track Verif.S_Track Verif.M_Buddy Verif.S_Buddy Verif.L_Buddy Verif.P_Buddy Verif.M_BaseQC Verif.S_BaseQC Verif.S_Sun Verif.P_BaseQC Verif.S_Hum Verif.M_Print Verif.S_Print Verif.P_Print
  Verif.M_Main Verif.S_Main Verif.S_Main2 Verif.L_Main Verif.L_Main2 Verif.L_Main3 Verif.L_Main4 Verif.L_Main5 Verif.L_Main6 Verif.L_Main7 Verif.P_Main Verif.S_Total Verif.L_Total Verif.L_Total2.
Import ListNotations.
Open Scope string_scope.
Open Scope list_scope.
Open Scope Z_scope.

Lemma valid_md : forall y m d, valid (on y m d) -> md_valid m d.
Proof.
  intros y m d [n [H K]]. unfold on in H, K. cbn [yr mo dy] in H, K. unfold md_valid.
  inversion H; subst; [exists 31|exists 30|exists 29|exists 29]; (split; [|cbn; lia]); [now apply mh_31|now apply mh_30| |]; apply mh_29; apply isleap_iff; reflexivity.
Qed.
Section Total.
Variable E : setup.
Hypothesis EQ : equipped E.
Let HUM : humidity_only (e_hum E) := eq_hum E EQ.

(** What the checks need of a report. *)
Definition clock_ok (r : report) : Prop := getvar r "HR" = None \/ exists d h, getint r "YR" = Some (yr d) /\ getint r "MO" = Some (mo d) /\ getint r "DY" = Some (dy d) /\ valid d /\ getvar r "HR" = Some h /\ hour_ok h.
Record able (r : report) : Prop := {
  ab_globe : on_globe r;
  ab_place : get_qc r "POS" "date" = 0 -> get_qc r "POS" "time" = 0 -> is_located r;
  ab_anom : forall t, In t ["SST"; "AT"; "DPT"; "SLP"] -> get_qc r t "noval" = 0 -> get_qc r t "nonorm" = 0 -> exists a, getanom r t = Some a;
  ab_small : forall t lim a, In (t, lim) [("SST", p_sst_anom (e_base E)); ("AT", p_at_anom (e_base E))] -> get_qc r t "clim" = 0 -> getanom r t = Some a -> (- lim <= a <= lim)%Q;
  ab_clock : e_tracking E = true -> get_qc r "POS" "isdrifter" = 1 -> clock_ok r }.
Lemma located_frame : forall K r r', frame K r r' -> is_located r -> is_located r'.
Proof. intros K r r' F L. assert (X : Forall is_located [r']) by (eapply (frames_located K [r]); [constructor; [exact F|constructor]|constructor; [exact L|constructor]]). now inversion X. Qed.
Lemma globe_frame : forall K r r', frame K r r' -> on_globe r -> on_globe r'.
Proof.
  intros K r r' F G. eapply globe_where; [exact (frame_where _ _ _ F)|exact G].
Qed.
Lemma anom_frame : forall K r r' t, frame K r r' -> mem t motion = false -> getanom r' t = getanom r t.
Proof. intros K r r' t F N. unfold getanom. destruct F as [A [B [C [D [CL X]]]]]. rewrite CL. rewrite (frame_getvar K r r' t); [reflexivity|repeat split; auto; apply X|now apply not_motion]. Qed.
Lemma clock_frame : forall K r r', frame K r r' -> clock_ok r -> clock_ok r'.
Proof.
  intros K r r' F [H|[d [h [A [B [C [D [G J]]]]]]]]; [left; rewrite (frame_getvar _ _ _ _ F); [exact H|apply not_motion; reflexivity]|].
  right. exists d, h. rewrite !(frame_int _ _ _ _ F) by (apply not_motion; reflexivity). rewrite (frame_getvar _ _ _ _ F) by (apply not_motion; reflexivity). auto 10.
Qed.
Lemma able_frame : forall r r', frame all_keys r r' -> able r -> able r'.
Proof.
  intros r r' F [A B C G D]. assert (Q : forall t f, mem (t ++ f)%string all_keys = false -> get_qc r' t f = get_qc r t f) by (intros t f N; apply F; intro I; apply mem_In in I; congruence). constructor.
  - eapply globe_frame; eassumption.
  - rewrite !Q by reflexivity. intros X Y. eapply located_frame; [exact F|auto].
  - intros t T. cbn in T. rewrite !Q by (repeat (destruct T as [<-|T]; [reflexivity|]); destruct T). intros X Y. destruct (C t T X Y) as [a K]. exists a. rewrite (anom_frame _ _ _ _ F) by (repeat (destruct T as [<-|T]; [reflexivity|]); destruct T). exact K.
  - intros t lim a I. assert (T : In t ["SST"; "AT"]) by (cbn in I |- *; destruct I as [K|[K|[]]]; inversion K; auto). cbn in T.
    rewrite Q by (repeat (destruct T as [<-|T]; [reflexivity|]); destruct T). rewrite (anom_frame _ _ _ _ F) by (repeat (destruct T as [<-|T]; [reflexivity|]); destruct T). exact (G t lim a I).
  - rewrite Q by reflexivity. intros T X. eapply clock_frame; [exact F|auto].
Qed.
Lemma all_able : forall l l', frames all_keys l l' -> Forall able l -> Forall able l'.
Proof. intros l l' F. induction F as [|r r' l l' A F IH]; intro H; [constructor|]. inversion H; subst. constructor; [eapply able_frame; eassumption|auto]. Qed.
Lemma ready_able : forall year month y m im r, ready E year month y m im r -> workable y m im -> (e_tracking E = true -> trackable y m im) -> 1 <= y -> 1 <= m <= 12 -> able r.
Proof.
  intros year month y m im r R W T Y M. pose proof (base_ok E year month y m im r (eq_elev E EQ) (eq_base E EQ) Y M (eq_slp E EQ) R) as FL.
  pose proof (rd_made _ _ _ _ _ _ _ R) as MF. destruct MF as [_ [_ [N [_ HR]]]].
  assert (F : forall n, mem n VARLIST = true -> mem n ("HR" :: "AT2" :: humidity_names) = false -> number_field im n (getvar r n)).
  { intros n A B. apply N; [apply mem_In, A|]. intro K. apply mem_In in K. congruence. }
  constructor.
  - destruct (wk_lat _ _ _ W) as [la [LA LA']]. destruct (wk_lon _ _ _ W) as [lo [LO LO']].
    assert (VA : lat r = Some la) by (unfold lat; apply (field_fun im "LAT"); [apply F; reflexivity|exact LA]).
    assert (VO : getvar r "LON" = Some lo) by (apply (field_fun im "LON"); [apply F; reflexivity|exact LO]).
    destruct (lon_west r lo VO LO') as [l [VL VL']]. exists la, l. auto.
  - intros A B. exact (proj1 (place_located E EQ _ _ _ _ _ _ R W Y M A B)).
  - intros t I A B.
    assert (X : getvar r t <> None /\ getnorm r t <> None).
    { cbn in I. repeat (destruct I as [<-|I]; [split; [eapply (flag_zero r _ _ "noval" _ FL); [|exact A]|eapply (flag_zero r _ _ "nonorm" _ FL); [|exact B]]; cbn; tauto|]). destruct I. }
    destruct X as [X1 X2]. unfold getanom. unfold getnorm in X2. destruct (assoc t (r_clim r)) as [[[c|] s]|]; try congruence. destruct (getvar r t) as [v|]; [eauto|congruence].
  - intros t lim a I A AN.
    assert (X : ~ anomalous (getvar r t) (getnorm r t) lim).
    { cbn in I. destruct I as [K|[K|[]]]; inversion K; subst; (eapply (flag_zero r _ _ "clim" _ FL); [|exact A]; cbn; tauto). }
    unfold anomalous in X. unfold getanom in AN. unfold getnorm in X. destruct (assoc t (r_clim r)) as [[[c|] s]|]; try discriminate. destruct (getvar r t) as [v|]; [|discriminate]. injection AN as <-.
    destruct (Qlt_le_dec lim (v - c)) as [L1|L1]; [exfalso; apply X; right; right; exists v, c; unfold far; auto|]. destruct (Qlt_le_dec lim (c - v)) as [L2|L2]; [exfalso; apply X; right; right; exists v, c; unfold far; auto|]. lra.
  - intros ET DR. specialize (T ET). destruct (getvar r "HR") as [h|] eqn:GH; [right|left; exact GH].
    assert (PT : number_field im "PT" (Some 7%Q)).
    { destruct (FL "POS" "isdrifter" _ (or_intror (or_introl eq_refl))) as [[_ P]|[P _]]; [|congruence]. destruct P as [z [[<-|[]] [q [Q1 Q2]]]]. cbn [view s_var] in Q1.
      assert (GI : getint r "PT" = Some 7) by (unfold getint; rewrite Q1; f_equal; rewrite (py_int_comp q (inject_Z 7) Q2); apply py_int_inject).
      pose proof (getint_var r "PT" 7 eq_refl eq_refl GI) as K. change 7%Q with (inject_Z 7). rewrite <- K. apply F; reflexivity. }
    assert (HO : hour_ok h).
    { destruct HR as [HR|[_ [_ [_ HR]]]]; [exact (wk_hour _ _ _ W h HR)|]. assert (h = 0%Q) by congruence. subst. unfold hour_ok. lra. }
    pose proof (rd_year _ _ _ _ _ _ _ R) as GY. pose proof (rd_month _ _ _ _ _ _ _ R) as GM.
    destruct (getint r "DY") as [d|] eqn:GD.
    + pose proof (getint_var r "DY" _ eq_refl eq_refl GD) as DV. exists (on y m d), h. cbn [on yr mo dy]. split; [exact GY|]. split; [exact GM|]. split; [reflexivity|]. split; [|split; [exact GH|exact HO]]. apply (tr_day _ _ _ T). rewrite <- DV. apply F; reflexivity.
    + exfalso. assert (DN : number_field im "DY" None).
      { assert (K : getvar r "DY" = None) by (unfold getint in GD; destruct (getvar r "DY"); [discriminate|reflexivity]). rewrite <- K. apply F; reflexivity. }
      destruct (tr_drifter _ _ _ T PT DN) as [HN D7]. destruct HR as [HR|[_ [R7 [[y' [YY YL]] _]]]]; [pose proof (field_fun _ _ _ _ HR HN); discriminate|]. apply D7.
      split; [change 701%Q with (inject_Z 701); rewrite <- R7; apply F; reflexivity|]. pose proof (getint_var r "YR" _ eq_refl eq_refl GY) as YV. rewrite YV in YY. injection YY as YY. lia.
Qed.

(* ---- neighbours ---- *)

Lemma cell_there : forall r, on_globe r -> is_located r -> exists c, in_cell r c.
Proof.
  intros r [la [lo [LA [LO [A B]]]]] [la' [lo' [d [h L]]]]. destruct L.
  assert (V : md_valid (mo d) (dy d)) by (apply (valid_md (yr d)); destruct d; exact loc_valid).
  destruct (proj1 (which_pentad_total (mo d) (dy d)) V) as [p [P _]].
  exists (mds_lon_to_xindex lo 1, mds_lat_to_yindex la 1, p - 1). exists la, lo, (mo d), (dy d). cbn [fst snd].
  split; [exact LA|]. split; [exact LO|]. split; [exact loc_m|]. split; [exact loc_d|]. split; [lra|]. split; [lra|]. split; [lra|]. split; [lra|].
  split; [apply (mds_lon_exact 1 90 ltac:(lia) one_90 ltac:(lra) lo); lra|]. split; [apply (mds_lat_exact 1 90 ltac:(lia) one_90 ltac:(lra) la); lra|].
  apply which_pentad_pentad. now rewrite Z.sub_add.
Qed.
Lemma able_checkable : forall f t l, In t ["SST"; "AT"; "DPT"; "SLP"] -> (forall r, test_report f r = 0 -> on_course r /\ near_normal t r) -> Forall able l -> checkable f t l.
Proof.
  intros f t l I H A r J T. rewrite Forall_forall in A. specialize (A r J). destruct (H r T) as [[P _] N].
  assert (L : is_located r) by (apply (ab_place _ A); apply P; cbn; tauto).
  destruct (cell_there r (ab_globe _ A) L) as [c C]. destruct (ab_anom _ A t I) as [a K]; [apply N; cbn; tauto|apply N; cbn; tauto|]. eauto.
Qed.
Lemma mds_total : forall t sd par f l, In t ["SST"; "AT"; "DPT"; "SLP"] -> (forall r, test_report f r = 0 -> on_course r /\ near_normal t r) -> one_degree sd -> params_ok (fst (fst par)) (snd (fst par)) (snd par) -> Forall able l ->
  exists l', mds E t sd par f l = Ok l' /\ Forall able l'.
Proof.
  intros t sd par f l I H [W N] P A. destruct (proj2 (C37_accepts (e_xspan E) sd _ _ _ t f l W N P)) as [l' K]; [split; [exact I|now apply able_checkable]|]. exists l'. split; [exact K|].
  apply (all_able l); [|exact A]. eapply frames_incl; [|eapply mds_frame; exact K]. intros k [<-|[]]. apply mem_In. cbn in I. repeat (destruct I as [<-|I]; [reflexivity|]). destruct I.
Qed.
Lemma bayes_total : forall t lim f l, In (t, lim) [("SST", p_sst_anom (e_base E)); ("AT", p_at_anom (e_base E))] -> (forall r, test_report f r = 0 -> on_course r /\ near_normal t r) -> Forall able l -> exists l', bayes E t lim f l = Ok l' /\ Forall able l'.
Proof.
  intros t lim f l I' H A. assert (I : In t ["SST"; "AT"]) by (cbn in I' |- *; destruct I' as [K|[K|[]]]; inversion K; auto).
  assert (LP : (0 < lim)%Q) by (cbn in I'; destruct I' as [K|[K|[]]]; inversion K; subst; apply (eq_limits E EQ)). pose proof (eq_deviations E EQ) as D. assert (D1 : one_degree (e_sd1 E)) by (apply D; cbn; tauto). assert (D2 : one_degree (e_sd2 E)) by (apply D; cbn; tauto). assert (D3 : one_degree (e_sd3 E)) by (apply D; cbn; tauto).
  destruct D1, D2, D3. destruct (C37_bayes_accepts (e_xspan E) (e_sqrt E) (e_gross E lim) (e_sd1 E) (e_sd2 E) (e_sd3 E) (e_radius E) (e_sigma_m E) (e_noise E) t f l) as [l' K]; try assumption; [apply (eq_noise E EQ)|apply able_checkable; [cbn in I |- *; tauto|exact H|exact A]|apply (eq_error E EQ)|apply (eq_root E EQ)| |].
  { intros r a bm bsd J T AN P. apply (eq_gross E EQ); [exact LP| |exact P]. rewrite Forall_forall in A. apply (ab_small _ (A r J) t lim a I'); [apply (H r T); cbn; tauto|exact AN]. }
  exists l'. split; [exact K|]. apply (all_able l); [|exact A]. eapply frames_incl; [|eapply bayes_frame; exact K]. intros k [<-|[]]. apply mem_In. cbn in I. repeat (destruct I as [<-|I]; [reflexivity|]). destruct I.
Qed.
Lemma buddies_total : forall l, Forall able l -> exists l', buddy_checks E l = Ok l'.
Proof.
  intros l A. unfold buddy_checks. pose proof (eq_deviations E EQ (e_sd_old E) (or_introl eq_refl)) as DO.
  assert (S : forall r, test_report sst_filter r = 0 -> on_course r /\ near_normal "SST" r) by (intros r T; apply sst_lets in T; split; apply T).
  assert (T : forall r, test_report at_filter r = 0 -> on_course r /\ near_normal "AT" r) by (intros r T; apply at_lets in T; split; apply T).
  assert (D : forall r, test_report dpt_filter r = 0 -> on_course r /\ near_normal "DPT" r) by (intros r T'; apply dpt_lets in T'; split; apply T').
  assert (P : forall r, test_report slp_filter r = 0 -> on_course r /\ near_normal "SLP" r) by (intros r T'; apply slp_lets in T'; split; apply T').
  destruct (bayes_total "SST" (p_sst_anom (e_base E)) sst_filter l ltac:(cbn; tauto) S A) as [l1 [K1 A1]]. rewrite K1. cbn [bind].
  destruct (mds_total "SST" (e_sd_old E) (e_buddy E) sst_filter l1 ltac:(cbn; tauto) S DO (eq_buddy E EQ) A1) as [l2 [K2 A2]]. rewrite K2. cbn [bind].
  destruct (bayes_total "AT" (p_at_anom (e_base E)) at_filter l2 ltac:(cbn; tauto) T A2) as [l3 [K3 A3]]. rewrite K3. cbn [bind].
  destruct (mds_total "AT" (e_sd_old E) (e_buddy E) at_filter l3 ltac:(cbn; tauto) T DO (eq_buddy E EQ) A3) as [l4 [K4 A4]]. rewrite K4. cbn [bind].
  destruct (eq_sd E EQ "DPT" ltac:(cbn; tauto)) as [c1 [L1 W1]]. destruct (eq_sd E EQ "SLP" ltac:(cbn; tauto)) as [c2 [L2 W2]]. unfold field_of. rewrite L1, L2. cbn [bind].
  destruct (mds_total "DPT" c1 (e_buddy E) dpt_filter l4 ltac:(cbn; tauto) D (conj W1 (eq_degree E EQ "DPT" c1 ltac:(cbn; tauto) L1)) (eq_buddy E EQ) A4) as [l5 [K5 A5]]. rewrite K5. cbn [bind].
  destruct (mds_total "SLP" c2 (e_slp_buddy E) slp_filter l5 ltac:(cbn; tauto) P (conj W2 (eq_degree E EQ "SLP" c2 ltac:(cbn; tauto) L2)) (eq_slp_buddy E EQ) A5) as [l6 [K6 _]]. eauto.
Qed.

(* ---- the deck ---- *)

Lemma made_all : forall year month y m ims reps, Forall2 (ready E year month y m) ims reps -> Forall2 made_from ims reps.
Proof. intros year month y m ims reps F. induction F as [|im r ims reps A F IH]; constructor; [apply (rd_made _ _ _ _ _ _ _ A)|exact IH]. Qed.
Lemma read_off_good : forall P lines ims (Q : imma -> Prop), read_off P lines ims -> (forall line im, In line lines -> P line im -> Q im) -> Forall Q ims.
Proof.
  intros P lines ims Q R. induction R as [|x im lines ims U R IH|x lines ims U R IH]; intro H; [constructor|constructor; [eapply H; [now left|exact U]|]|]; apply IH; intros z im' I; apply H; now right.
Qed.
Section Month.
Variables year month : Z.
Hypothesis IO : in_order E year month.
Let M : 1 <= month <= 12 := io_month _ _ _ IO.
Lemma window_range : forall y m, In (y, m) (window year month) -> 1 <= y <= 9999 /\ 1 <= m <= 12.
Proof.
  pose proof (io_year _ _ _ IO) as Y. intros y m I. unfold window, month_before, month_after in I. cbn [In] in I.
  destruct (Z.eqb_spec month 1), (Z.eqb_spec month 12); destruct I as [I|[I|[I|[]]]]; injection I as <- <-; lia.
Qed.
Lemma part_able : forall ym reps, In ym (window year month) -> part E year month ym reps -> Forall able reps.
Proof.
  intros [y m] reps I [ims [R F]]. cbn [fst snd] in *. destruct (window_range y m I) as [Y MM].
  assert (Q : Forall (fun im => workable y m im /\ (e_tracking E = true -> trackable y m im)) ims).
  { unfold records in R. destruct (e_lines E y m) as [lines|] eqn:L; [|subst; constructor]. eapply read_off_good; [exact R|]. intros line im J U. destruct (io_records _ _ _ IO y m lines line im I L J U) as [A [B _]]. auto. }
  clear - F Q Y MM EQ. induction F as [|im r ims reps A F IH]; [constructor|]. inversion Q as [|? ? [Q1 Q2] Q']; subst. constructor; [|now apply IH]. eapply ready_able; try eassumption. lia.
Qed.
Lemma deck_total : exists d, checked_deck E year month = Ok d.
Proof.
  unfold checked_deck. rewrite (window_spec year month M). cbn [bind]. rewrite <- (window_is year month M).
  destruct (read_window_total E EQ year month (window year month) (-99, None) new_deck) as [st [d R]].
  - intros y m I. destruct (window_range y m I) as [Y MM]. split; [exact Y|]. split; [exact MM|]. intros lines L. apply Forall_forall. intros line J. destruct (get_table imma_tables 0) as [core|] eqn:GT; [|vm_compute in GT; discriminate]. split.
    + eapply accept_total; [apply (eq_tables E EQ)|exact GT|]. exact (io_lines _ _ _ IO core y m lines line GT I L J).
    + intros im U. destruct (io_records _ _ _ IO y m lines line im I L J U) as [A [B _]]. auto.
  - left. reflexivity.
  - rewrite R. cbn [bind]. pose proof (read_window_heading E HUM _ _ _ _ _ _ _ R (Forall_nil _)) as HK.
    destruct (read_window_spec E HUM _ _ _ _ _ _ _ R) as [parts [P D]]. unfold window in P.
    inversion P as [|? ? ? ? PA P1]; subst. inversion P1 as [|? ? ? ? PB P2]; subst. inversion P2 as [|? ? ? ? PC P3]; subst. inversion P3; subst. clear P P1 P2 P3.
    rename y into a, y0 into b, y1 into c.
    assert (RR : d_reps (fold_left deck_append (concat [a; b; c]) new_deck) = a ++ b ++ c) by (rewrite appends_reps; cbn [concat]; rewrite app_nil_r; reflexivity).
    pose proof (index_ok_appends (concat [a; b; c]) new_deck index_ok_new) as IX. rewrite RR in *. set (ids := d_ids _) in *.
    assert (AB : Forall able (a ++ b ++ c)).
    { apply Forall_app. split; [eapply part_able; [|exact PA]; now left|]. apply Forall_app. split; [eapply part_able; [|exact PB]; right; now left|]. eapply part_able; [|exact PC]. do 2 right. now left. }
    assert (OR : ships_in_order (a ++ b ++ c)).
    { destruct PA as [ia [RA FA]]. destruct PB as [ib [RB FB]]. destruct PC as [ic [RC FC]]. eapply order_of_records; [exact (io_time _ _ _ IO ia ib ic RA RB RC)|]. apply Forall2_app; [eapply made_all; exact FA|]. apply Forall2_app; eapply made_all; eassumption. }
    destruct (all_ships_total E ids (a ++ b ++ c) (groups_disjoint _ _ IX)) as [after SH].
    + intros id l I. destruct IX as [_ [IX _]]. apply (ship_fine_all E EQ _ id l (IX id l I) OR HK). intros r J T. rewrite Forall_forall in AB. apply position_lets in T. apply (ab_place _ (AB r J)); apply T; cbn; tauto.
    + rewrite SH. cbn [bind]. assert (F : frames ship_keys (a ++ b ++ c) after).
      { eapply all_ships_frame, SH. destruct IX as [_ [IX _]]. apply Forall_forall. intros [id l] J. cbn [snd]. rewrite (IX _ _ J). unfold positions. apply NoDup_filter, seq_NoDup. }
      destruct (buddies_total after) as [l BU]; [|rewrite BU; cbn [bind]; eauto]. apply (all_able (a ++ b ++ c)); [|exact AB]. eapply frames_incl; [|exact F]. intros k K. unfold all_keys. apply in_app_iff. auto.
Qed.
End Month.
End Total.
