(** Lemmas about the main program: a report ready for the checks of ships. *)
Require Import String Ascii ZArith QArith Qround List Bool Lia.
Require Import Verif.M_Base Verif.L_Base Verif.M_Calendar Verif.M_Checks Verif.M_Report Verif.S_Report Verif.L_Report Verif.L_Report3 Verif.M_Imma Verif.M_Grid Verif.M_Voyage Verif.M_Track Verif.M_Buddy
  Verif.M_Hum Verif.M_BaseQC Verif.S_BaseQC Verif.P_BaseQC Verif.M_Print Verif.M_Main Verif.S_Hum Verif.S_Main Verif.L_Main Verif.L_Main2.
Import ListNotations.
Open Scope string_scope.
Open Scope list_scope.
Open Scope Z_scope.

Lemma calculate_dt_shape : forall r r', calculate_dt r = Ok r' -> exists d, r' = with_dt r d.
Proof.
  intros r r' E. unfold calculate_dt in E. repeat match type of E with
      | (match ?x with _ => _ end) = Ok _ => destruct x
      | (let! _ := ?x in _) = Ok _ => destruct x; [cbn [bind] in E|discriminate]
      | Ok _ = Ok _ => apply ok_inj in E; subst r'; eexists; reflexivity end.
Qed.
Lemma setvar_shape : forall r n v r', setvar r n v = Ok r' -> r_id r' = r_id r /\ r_uid r' = r_uid r /\ r_qc r' = r_qc r /\ r_ext r' = r_ext r /\ r_clim r' = r_clim r /\
  length (r_data r') = length (r_data r) /\ (mem n ["YR"; "DY"; "HR"] = false -> r_dt r' = r_dt r).
Proof.
  intros r n v r' H. unfold setvar in H. destruct (index_of n VARLIST) as [i|]; [|discriminate]. cbn [bind] in H. destruct (mem n ["YR"; "DY"; "HR"]).
  - destruct (calculate_dt_shape _ _ H) as [d ->]. cbn. rewrite update_length. repeat split. discriminate.
  - apply ok_inj in H. subst r'. cbn. rewrite update_length. repeat split.
Qed.
Lemma set_hum_only : forall r n v r', In n humidity_names -> setvar r n v = Ok r' -> hum_same r r' /\ length (r_data r') = length (r_data r).
Proof.
  intros r n v r' I H. destruct (setvar_shape _ _ _ _ H) as [A [B [C [D [F [G K]]]]]]. split; [|exact G]. repeat split; auto.
  - apply K. cbn in I. repeat (destruct I as [<-|I]; [reflexivity|]). contradiction.
  - intros m M. apply (set_get_other_var _ _ _ _ _ H). intros ->. contradiction.
Qed.
Lemma hum_trans : forall a b c, hum_same a b /\ length (r_data b) = length (r_data a) -> hum_same b c /\ length (r_data c) = length (r_data b) -> hum_same a c /\ length (r_data c) = length (r_data a).
Proof.
  intros a b c [[A0 [A1 [A2 [A3 [A4 [A5 A6]]]]]] AL] [[B0 [B1 [B2 [B3 [B4 [B5 B6]]]]]] BL].
  split; [|congruence]. repeat split; try congruence. intros n H. rewrite B6, A6 by exact H. reflexivity.
Qed.
Lemma clear_only : forall names r r', (forall n, In n names -> In n humidity_names) -> clear_vars names r = Ok r' -> hum_same r r' /\ length (r_data r') = length (r_data r).
Proof.
  induction names as [|n names IH]; intros r r' H X; cbn [clear_vars] in X; [apply ok_inj in X; subst; split; [repeat split|reflexivity]|].
  step X. eapply hum_trans; [eapply set_hum_only; [|exact X0]; apply H; now left|]. eapply IH; [|exact X]. intros m M. apply H. now right.
Qed.
(** The routine of the program is one. *)
Lemma calculate_only : forall names, humidity_only (fun r => calculate_humidity_variables r names).
Proof.
  intros names r r' H. unfold calculate_humidity_variables in H. step H. unfold py_assert in X. destruct (forallb _ names) eqn:F; [|discriminate].
  assert (N : forall n, In n names -> In n humidity_names).
  { intros n I. rewrite forallb_forall in F. specialize (F n I). apply mem_In in F. cbn in F |- *. tauto. }
  step H. destruct y0 as [q|]; [|eapply clear_only; eassumption].
  step H. step H. eapply hum_trans; [eapply set_hum_only; [|exact X2]; cbn; tauto|].
  step H. step H. eapply hum_trans; [eapply set_hum_only; [|exact X4]; cbn; tauto|].
  step H. step H. eapply hum_trans; [eapply set_hum_only; [|exact X6]; cbn; tauto|].
  step H. step H. eapply hum_trans; [eapply set_hum_only; [|exact X8]; cbn; tauto|].
  step H. step H. eapply hum_trans; [eapply set_hum_only; [|exact X10]; cbn; tauto|].
  step H; [eapply clear_only; eassumption|]. apply ok_inj in H. subst r'. split; [repeat split|reflexivity].
Qed.

(* ---- climatologies ---- *)

Definition same_where (r r' : report) : Prop :=
  getvar r' "LAT" = getvar r "LAT" /\ getvar r' "LON" = getvar r "LON" /\ getvar r' "MO" = getvar r "MO" /\ getvar r' "DY" = getvar r "DY".
Lemma same_where_trans : forall a b c, same_where a b -> same_where b c -> same_where a c.
Proof. intros a b c [A1 [A2 [A3 A4]]] [B1 [B2 [B3 B4]]]. repeat split; congruence. Qed.
Lemma look_ext : forall get c r r', same_where r r' -> look get c r' = look get c r.
Proof. intros get c r r' [A [B [C D]]]. unfold look, getint, lat, lon. rewrite A, B, C, D. reflexivity. Qed.
Lemma holds_where : forall K r r', holds_on K r r' -> ~ In "LAT" K -> ~ In "LON" K -> ~ In "MO" K -> ~ In "DY" K -> same_where r r'.
Proof.
  intros K r r' [_ [_ [H _]]] A B C D. repeat split; apply H; try assumption; apply mem_In; reflexivity.
Qed.
Lemma clim_where : forall r c, same_where r (with_clim r c). Proof. repeat split. Qed.
(** What add_means and add_stdevs put where. *)
Definition mean_set (E : setup) (get : clim -> Q -> Q -> Z -> Z -> res (option Q)) (r : report) (n : string) : Prop :=
  exists c, e_lib E n "mean" = Some c /\ look get c r = Ok (getnorm r n).
Definition sd_set (E : setup) (r : report) (n : string) : Prop :=
  exists c, e_lib E n "stdev" = Some c /\ look get_value c r = Ok (getnorm_stdev r n).
Lemma assoc_cons_other : forall A k k' (v : A) l, k <> k' -> assoc k ((k', v) :: l) = assoc k l.
Proof. intros A k k' v l N. cbn. destruct (String.eqb_spec k k'); congruence. Qed.
Lemma add_means_spec : forall E get names r r', add_means E get names r = Ok r' -> NoDup names -> exists cl, r' = with_clim r cl /\
  (forall n, In n names -> mean_set E get r' n) /\ (forall n, ~ In n names -> assoc n cl = assoc n (r_clim r)).
Proof.
  intros E get. induction names as [|n names IH]; intros r r' H N; cbn [add_means] in H.
  - apply ok_inj in H. subst. exists (r_clim r'). split; [destruct r'; reflexivity|]. split; [intros n []|reflexivity].
  - step H. step H. inversion N; subst. destruct (IH _ _ H H3) as [cl [A [B C]]]. exists cl. split; [rewrite A; reflexivity|]. split.
    + intros m [<-|M]; [|now apply B]. unfold mean_set, field_of in *. destruct (e_lib E n "mean") as [c|] eqn:L; [|discriminate]. apply ok_inj in X. subst y. exists c. split; [reflexivity|].
      rewrite A, (look_ext get c r) by (repeat split). rewrite X0. unfold getnorm. cbn [with_clim r_clim]. rewrite (C n H2). cbn. rewrite String.eqb_refl. reflexivity.
    + intros m M. rewrite C by (intro; apply M; now right). cbn [add_climate_variable with_clim r_clim]. apply assoc_cons_other. intros ->. apply M. now left.
Qed.
Lemma add_stdevs_spec : forall E names r r', add_stdevs E names r = Ok r' -> NoDup names -> exists cl, r' = with_clim r cl /\
  (forall n, In n names -> mean_set E get_value r' n /\ sd_set E r' n /\ assoc n cl <> None) /\ (forall n, ~ In n names -> assoc n cl = assoc n (r_clim r)).
Proof.
  intros E. induction names as [|n names IH]; intros r r' H N; cbn [add_stdevs] in H.
  - apply ok_inj in H. subst. exists (r_clim r'). split; [destruct r'; reflexivity|]. split; [intros n []|reflexivity].
  - do 4 step H. inversion N; subst. destruct (IH _ _ H H3) as [cl [A [B C]]]. exists cl. split; [rewrite A; reflexivity|]. split.
    + intros m [<-|M]; [|now apply B]. unfold mean_set, sd_set, field_of in *. destruct (e_lib E n "mean") as [c|] eqn:L; [|discriminate]. apply ok_inj in X. subst y.
      destruct (e_lib E n "stdev") as [c'|] eqn:L'; [|discriminate]. apply ok_inj in X1. subst y1. split; [exists c|split; [exists c'|]].
      * split; [reflexivity|]. rewrite A, (look_ext _ c r) by (repeat split). rewrite X0. unfold getnorm. cbn [with_clim r_clim]. rewrite (C n H2). cbn. rewrite String.eqb_refl. reflexivity.
      * split; [reflexivity|]. rewrite A, (look_ext _ c' r) by (repeat split). rewrite X2. unfold getnorm_stdev. cbn [with_clim r_clim]. rewrite (C n H2). cbn. rewrite String.eqb_refl. reflexivity.
      * rewrite (C n H2). cbn. rewrite String.eqb_refl. discriminate.
    + intros m M. rewrite C by (intro; apply M; now right). cbn [add_climate_variable with_clim r_clim]. apply assoc_cons_other. intros ->. apply M. now left.
Qed.
Definition mds_names : list string := ["SST"; "AT"].
Definition mean_names : list string := ["SLP2"; "SHU"; "CRH"; "CWB"; "DPD"].
Definition sd_names : list string := ["DPT"; "AT2"; "SLP"].
Definition climate_set (E : setup) (r : report) : Prop :=
  (forall n, In n mds_names -> mean_set E get_value_mds_style r n) /\
  (forall n, In n (mean_names ++ sd_names) -> mean_set E get_value r n) /\
  (forall n, In n sd_names -> sd_set E r n).
Lemma climate_keep : forall E r r', climate_set E r -> same_where r r' -> r_clim r' = r_clim r -> climate_set E r'.
Proof.
  intros E r r' [A [B C]] W K.
  assert (M : forall get n, mean_set E get r n -> mean_set E get r' n).
  { intros get n [c [X Y]]. exists c. split; [exact X|]. rewrite (look_ext get c r r' W), Y. unfold getnorm. now rewrite K. }
  split; [|split]; intros n I; [apply M, A, I|apply M, B, I|]. destruct (C n I) as [c [X Y]]. exists c. split; [exact X|].
  rewrite (look_ext _ c r r' W), Y. unfold getnorm_stdev. now rewrite K.
Qed.
Ltac nodup := repeat constructor; cbn; intuition discriminate.
Lemma climate_chain : forall E r r1 r2 r3, add_means E get_value_mds_style mds_names r = Ok r1 -> add_means E get_value mean_names r1 = Ok r2 -> add_stdevs E sd_names r2 = Ok r3 ->
  climate_set E r3 /\ exists cl, r3 = with_clim r cl.
Proof.
  intros E r r1 r2 r3 A B C. destruct (add_means_spec _ _ _ _ _ A ltac:(nodup)) as [c1 [A1 [A2 A3]]]. destruct (add_means_spec _ _ _ _ _ B ltac:(nodup)) as [c2 [B1 [B2 B3]]].
  destruct (add_stdevs_spec _ _ _ _ C ltac:(nodup)) as [c3 [C1 [C2 C3]]].
  assert (T : forall ra rb get n, mean_set E get ra n -> same_where ra rb -> assoc n (r_clim rb) = assoc n (r_clim ra) -> mean_set E get rb n).
  { intros ra rb get n [c [X Y]] W K. exists c. split; [exact X|]. rewrite (look_ext get c ra rb W), Y. unfold getnorm. now rewrite K. }
  split; [|exists c3; subst r3 r2 r1; reflexivity].
  assert (N2 : forall n, In n mean_names -> ~ In n sd_names) by (intros n I J; cbn in I, J; repeat (destruct I as [<-|I]; [intuition discriminate|]); contradiction).
  assert (N1 : forall n, In n mds_names -> ~ In n (mean_names ++ sd_names)) by (intros n I J; cbn in I, J; repeat (destruct I as [<-|I]; [intuition discriminate|]); contradiction).
  split; [|split].
  - intros n I. assert (J : ~ In n mean_names /\ ~ In n sd_names) by (split; intro; apply (N1 n I), in_app_iff; tauto). destruct J as [J1 J2].
    apply (T r1 r3 _ n); [now apply A2| |].
    + subst r3 r2. repeat split. + subst r3. cbn [with_clim r_clim]. rewrite C3 by exact J2. subst r2. cbn [with_clim r_clim]. now apply B3.
  - intros n I. apply in_app_iff in I. destruct I as [I|I]; [|now apply C2]. apply (T r2 r3 _ n); [now apply B2| |].
    + subst r3. repeat split. + subst r3. cbn [with_clim r_clim]. apply C3, N2, I.
  - intros n I. now apply C2.
Qed.

(* ---- background ---- *)

Lemma background_shape : forall E y m st bg r st' r', background E y m st bg r = Ok (st', r') -> exists e, r' = with_ext r e /\
  (e_tracking E && (1985 <=? y) = false -> e = r_ext r).
Proof.
  intros E y m st bg r st' r' H. unfold background in H. destruct (getint r "DY") as [day|].
  2: { injection H as <- <-. exists (r_ext r). destruct r; split; reflexivity. }
  destruct (e_tracking E && (1985 <=? y)).
  2: { injection H as <- <-. exists (r_ext r). destruct r; split; reflexivity. }
  step H. destruct (snd y0) as [[sst ice]|]; [|discriminate]. destruct bg as [v|]; [|discriminate]. do 3 step H. apply ok_inj in H. injection H as <- <-.
  eexists. split; [reflexivity|]. discriminate.
Qed.

(* ---- the hour ---- *)

Lemma fix_shape : forall r r1, do_fix_missing_hour r = Ok r1 -> r1 = r \/
  (getvar r "HR" = None /\ getint r "DCK" = Some 701 /\ (match getint r "YR" with Some y => y < 1860 | None => True end) /\
   exists r2 d, setvar r "HR" (Some 0%Q) = Ok r2 /\ r1 = with_dt r2 d).
Proof.
  intros r r1 H. unfold do_fix_missing_hour in H. destruct (int_is (getint r "DCK") 701) eqn:D; [|left; now injection H].
  destruct (match getint r "YR" with Some y => y <? 1860 | None => true end) eqn:Y; [|left; now injection H].
  destruct (getvar r "HR") eqn:R; [left; now injection H|]. cbn [andb] in H. right. split; [reflexivity|].
  split; [unfold int_is, int_in in D; destruct (getint r "DCK") as [z|]; [|discriminate]; cbn in D; rewrite orb_false_r in D; apply Z.eqb_eq in D; now subst|].
  split; [destruct (getint r "YR"); [now apply Z.ltb_lt|exact I]|]. step H. destruct (calculate_dt_shape _ _ H) as [d ->]. now exists y, d.
Qed.

Lemma py_int_eq : forall q z, (q == inject_Z z)%Q -> py_int q = z.
Proof.
  intros q z H. rewrite <- (py_int_inject z). unfold py_int. rewrite (Qfloor_comp q (inject_Z z) H).
  replace (Qle_bool 0 q) with (Qle_bool 0 (inject_Z z)). 2: { now rewrite H. } now rewrite (Qfloor_comp (- q) (- inject_Z z)) by (now rewrite H).
Qed.
Lemma listed_int : forall im n v z o, In n integer_variables -> assoc n (im_data im) = Some v -> is_int v z -> number_field im n o -> o = Some (inject_Z z).
Proof.
  intros im n v z o I A [->|[q [-> Q]]] F.
  - eapply field_fun; [exact F|]. left. eauto.
  - eapply field_fun; [exact F|]. right. left. exists q. split; [exact A|]. right. split; [exact I|]. now rewrite (py_int_eq q z Q).
Qed.

Lemma getint_var : forall r n z, mem n INTVARS = true -> mem n VARLIST = true -> getint r n = Some z -> getvar r n = Some (inject_Z z).
Proof.
  intros r n z I V H. apply mem_In in V. unfold getint in H. unfold getvar in H |- *. destruct (index_of_In n VARLIST V) as [i [J _]]. rewrite J in *.
  destruct (nth i (r_data r) None); [|discriminate]. rewrite I in *. rewrite py_int_inject in H. congruence.
Qed.

(* ---- a whole report ---- *)

Definition derived : list string := "HR" :: "AT2" :: humidity_names.
Lemma base_coords : forall elev p r r', perform_base_qc elev p r = Ok r' -> exists la lo, getvar r "LAT" = Some la /\ getvar r "LON" = Some lo.
Proof.
  intros elev p r r' H. unfold perform_base_qc in H. do 5 step H.
  assert (F : frame base_keys y y2).
  { eapply frame_trans; [unfold is_buoy in X0; qc_walk X0|]. eapply frame_trans; [unfold is_ship in X1; qc_walk X1|]. unfold is_deck_780 in X2; qc_walk X2. }
  apply frame_holds in F. unfold do_position_check, set_qc_r in X3. step X3.
  assert (S : same_where r y2).
  { eapply same_where_trans; [|apply (holds_where _ _ _ F); cbn; tauto]. destruct (fix_shape _ _ X) as [->|[_ [_ [_ [r2 [d [S ->]]]]]]]; [repeat split|].
    apply holds_setvar in S. change (same_where r r2). apply (holds_where _ _ _ S); cbn; intuition discriminate. }
  destruct S as [A [B _]]. rewrite <- A, <- B. destruct (getvar y2 "LAT") as [la|], (getvar y2 "LON") as [lo|]; try discriminate. eauto.
Qed.

Section Prepare.
Variable E : setup.
Hypothesis HUM : humidity_only (e_hum E).
Record ready (year month y m : Z) (im : imma) (r : report) : Prop := {
  rd_made : made_from im r;
  rd_wf : wf_report r;
  rd_year : getint r "YR" = Some y;
  rd_month : getint r "MO" = Some m;
  rd_match : get_qc r "POS" "month_match" = month_match year month y m;
  rd_climate : climate_set E r;
  rd_place : exists la lo, getvar r "LAT" = Some la /\ getvar r "LON" = Some lo;
  rd_base : exists r0 r1, wf_report r0 /\ r_qc r0 = [] /\ r_clim r0 = r_clim r /\ getint r0 "YR" = Some y /\ getint r0 "MO" = Some m /\
    perform_base_qc (e_elev E) (e_base E) r0 = Ok r1 /\ set_qc r1 "POS" "month_match" (month_match year month y m) = Ok r }.

Lemma prepare_ready : forall year month y m st bg line im st' r, usable (e_tables E) (e_excluded E) y m line im ->
  prepare E year month y m st bg im = Ok (st', r) -> ready year month y m im r.
Proof.
  intros year month y m st bg line im st' r [_ [_ [[yv [YA YI]] [mv [MA MI]]]]] H. unfold prepare in H.
  step H. rename y0 into r1, X into E1. step H. rename y0 into r2, X into E2. step H. destruct y0 as [st1 r3]. rename X into E3.
  step H. rename y0 into r4, X into E4. step H. rename y0 into r5, X into E5. step H. rename y0 into r6, X into E6.
  step H. rename y0 into r7, X into E7. step H. rename y0 into r8, X into E8. step H. rename y0 into r9, X into E9. injection H as <- <-.
  destruct (report_of_spec _ _ E1) as [I1 [U1 [V1 [W1 [Q1 [C1 X1]]]]]].
  pose proof (holds_setvar _ _ _ _ E2) as H2. pose proof (setvar_shape _ _ _ _ E2) as [_ [_ [Q2 _]]].
  destruct (background_shape _ _ _ _ _ _ _ _ E3) as [ex [E3' _]]. assert (H3 : holds_on [] r2 r3) by (subst r3; now apply holds_data).
  destruct (climate_chain _ _ _ _ _ E4 E5 E6) as [CL [cl E6']]. assert (H6 : holds_on [] r3 r6) by (subst r6; now apply holds_data).
  destruct (HUM _ _ E7) as [[A1 [A2 [A3 [A4 [A5 [A6 A7]]]]]] A8].
  assert (H7 : holds_on humidity_names r6 r7). { repeat split; auto. unfold wf_report. congruence. }
  destruct (base_frame _ _ _ _ E8) as [rf [F1 F2]].
  pose proof (frame_holds _ _ _ F2) as H8.
  assert (HF : holds_on ["HR"] r7 rf).
  { destruct (fix_shape _ _ F1) as [->|[_ [_ [_ [r' [d [S ->]]]]]]]; [repeat split; auto|]. eapply holds_trans; [eapply holds_setvar, S|].
    eapply holds_incl; [|apply (holds_data r' (with_dt r' d)); reflexivity]. intros k []. }
  pose proof (frame_holds _ _ _ (set_qc_frame _ _ _ _ _ E9)) as H9.
  assert (S27 : holds_on humidity_names r2 r7).
  { eapply holds_trans; [eapply holds_incl; [|exact H3]; intros k []|]. eapply holds_trans; [eapply holds_incl; [|exact H6]; intros k []|exact H7]. }
  assert (S79 : holds_on ["HR"] r7 r9).
  { eapply holds_trans; [exact HF|]. eapply holds_trans; [eapply holds_incl; [|exact H8]; intros k []|eapply holds_incl; [|exact H9]; intros k []]. }
  assert (S17 : holds_on ("AT2" :: humidity_names) r1 r7).
  { eapply holds_trans; [eapply holds_incl; [|exact H2]; intros k [<-|[]]; now left|]. eapply holds_incl; [|exact S27]. intros k I. now right. }
  assert (S19 : holds_on derived r1 r9).
  { eapply holds_trans; [eapply holds_incl; [|exact S17]; intros k I; right; exact I|]. eapply holds_incl; [|exact S79]. intros k [<-|[]]. now left. }
  assert (L : forall n, mem n VARLIST = true -> In n VARLIST) by (intro n; apply mem_In).
  assert (YF : number_field im "YR" (getvar r7 "YR")).
  { destruct S17 as [_ [_ [G _]]]. rewrite G; [|apply L; reflexivity|cbn; intuition discriminate]. rewrite V1 by (apply L; reflexivity). apply seen_number_field. }
  assert (MF : number_field im "MO" (getvar r7 "MO")).
  { destruct S17 as [_ [_ [G _]]]. rewrite G; [|apply L; reflexivity|cbn; intuition discriminate]. rewrite V1 by (apply L; reflexivity). apply seen_number_field. }
  assert (Y7 : getint r7 "YR" = Some y). { unfold getint. rewrite (listed_int im "YR" yv y _ ltac:(cbn; tauto) YA YI YF). now rewrite py_int_inject. }
  assert (M7 : getint r7 "MO" = Some m). { unfold getint. rewrite (listed_int im "MO" mv m _ ltac:(cbn; tauto) MA MI MF). now rewrite py_int_inject. }
  assert (Y9 : getvar r9 "YR" = getvar r7 "YR") by (apply S79; [apply L; reflexivity|cbn; intuition discriminate]).
  assert (M9 : getvar r9 "MO" = getvar r7 "MO") by (apply S79; [apply L; reflexivity|cbn; intuition discriminate]).
  assert (Y8 : getint r8 "YR" = Some y). { rewrite <- Y7. unfold getint. rewrite <- Y9. now destruct H9 as [_ [_ [G _]]]; rewrite G by (try apply L; cbn; tauto || reflexivity). }
  assert (M8 : getint r8 "MO" = Some m). { rewrite <- M7. unfold getint. rewrite <- M9. now destruct H9 as [_ [_ [G _]]]; rewrite G by (try apply L; cbn; tauto || reflexivity). }
  rewrite Y8, M8 in E9.
  assert (Q7 : r_qc r7 = []). { rewrite A3. subst r6 r3. cbn. rewrite Q2. exact Q1. }
  assert (W7 : wf_report r7) by (apply S17, W1).
  assert (C8 : r_clim r8 = r_clim r7).
  { destruct F2 as [_ [_ [_ [_ [G _]]]]]. rewrite G. destruct (fix_shape _ _ F1) as [->|[_ [_ [_ [r' [d [S ->]]]]]]]; [reflexivity|]. cbn. now destruct (setvar_shape _ _ _ _ S) as [_ [_ [_ [_ [K _]]]]]. }
  assert (C9 : r_clim r9 = r_clim r8) by (destruct (set_qc_frame _ _ _ _ _ E9) as [_ [_ [_ [_ [G _]]]]]; exact G).
  constructor.
  - destruct S19 as [B1 [B2 [B3 B4]]]. split; [rewrite B1; exact I1|]. split; [rewrite B2; exact U1|]. split; [|split].
    + intros n I N. rewrite (B3 n I N), (V1 n I). apply seen_number_field.
    + assert (AT2 : getvar r9 "AT2" = getvar r1 "AT").
      { destruct S79 as [_ [_ [G _]]]. rewrite G; [|apply L; reflexivity|cbn; intuition discriminate]. destruct S27 as [_ [_ [G' _]]]. rewrite G'; [|apply L; reflexivity|cbn; intuition discriminate].
        rewrite (set_get_var _ _ _ _ W1 E2). destruct (getvar r1 "AT"); reflexivity. }
      rewrite AT2, V1 by (apply L; reflexivity). apply seen_number_field.
    + assert (HR7 : number_field im "HR" (getvar r7 "HR")).
      { destruct S17 as [_ [_ [G _]]]. rewrite G; [|apply L; reflexivity|cbn; intuition discriminate]. rewrite V1 by (apply L; reflexivity). apply seen_number_field. }
      assert (R9 : getvar r9 "HR" = getvar rf "HR").
      { destruct H9 as [_ [_ [G _]]]. rewrite G by (try apply L; cbn; tauto || reflexivity). destruct H8 as [_ [_ [G' _]]]. now rewrite G' by (try apply L; cbn; tauto || reflexivity). }
      destruct (fix_shape _ _ F1) as [->|[FN [FD [FY [r' [d [S Frf]]]]]]]; [left; now rewrite R9|].
      right. split; [now rewrite <- FN|]. split; [|split].
      * destruct S79 as [_ [_ [G _]]]. rewrite G; [|apply L; reflexivity|cbn; intuition discriminate]. now apply getint_var.
      * exists y. split; [|rewrite Y7 in FY; exact FY]. rewrite Y9. apply (listed_int im "YR" yv y _ ltac:(cbn; tauto) YA YI YF).
      * rewrite R9, Frf. change (getvar r' "HR" = Some 0%Q). rewrite (set_get_var _ _ _ _ W7 S). reflexivity.
  - apply S19, W1.
  - unfold getint. rewrite Y9. exact Y7.
  - unfold getint. rewrite M9. exact M7.
  - exact (set_get_same _ _ _ _ _ E9).
  - apply (climate_keep E r6); [exact CL| |congruence]. eapply same_where_trans; [apply (holds_where _ _ _ H7); cbn; intuition discriminate|apply (holds_where _ _ _ S79); cbn; intuition discriminate].
  - destruct (base_coords _ _ _ _ E8) as [la [lo [LA LO]]]. exists la, lo. destruct S79 as [_ [_ [G _]]]. rewrite !G; try (apply L; reflexivity); try (cbn; intuition discriminate). auto.
  - exists r7, r8. repeat split; auto. congruence.
Qed.
End Prepare.
