(** The main program stops at a record that cannot be made into a report. *)
Require Import String Ascii ZArith QArith Qround List Bool Lia Lqa.
Require Import Verif.M_Base Verif.L_Base Verif.M_Calendar Verif.S_Calendar Verif.L_Calendar Verif.M_Report Verif.L_Report Verif.L_Report2 Verif.L_Report3 Verif.L_Grid Verif.M_Imma Verif.S_Imma Verif.M_Main Verif.S_Main Verif.S_Main2 Verif.L_Main Verif.L_Main2 Verif.L_Main3 Verif.L_Main4 Verif.P_Main Verif.S_Total Verif.L_Total.
Import ListNotations.
Open Scope string_scope.
Open Scope list_scope.
Open Scope Z_scope.

Lemma lines_reports : forall E year month y m bg lines st d st' d', read_lines E year month y m bg lines st d = Ok (st', d') ->
  forall line im, In line lines -> usable (e_tables E) (e_excluded E) y m line im -> exists r, report_of im = Ok r.
Proof.
  intros E year month y m bg. induction lines as [|l lines IH]; intros st d st' d' H line im I U; [destruct I|]. cbn [read_lines] in H.
  destruct (accept E y m l) as [o|e] eqn:A; [cbn [bind] in H|discriminate]. pose proof (accept_spec _ _ _ _ _ A) as K. destruct o as [im'|].
  - destruct (prepare E year month y m st bg im') as [[st1 r1]|e] eqn:P; [cbn [bind] in H|discriminate]. destruct I as [<-|I]; [|exact (IH _ _ _ _ H line im I U)].
    assert (im' = im) by (destruct U as [U _], K as [K _]; congruence). subst im'. unfold prepare in P. destruct (report_of im) as [r|e]; [eauto|discriminate].
  - destruct I as [<-|I]; [destruct (K im U)|exact (IH _ _ _ _ H line im I U)].
Qed.
Lemma window_reports : forall E year month w st d st' d', read_window E year month w st d = Ok (st', d') ->
  forall y m lines line im, In (y, m) w -> e_lines E y m = Some lines -> In line lines -> usable (e_tables E) (e_excluded E) y m line im -> exists r, report_of im = Ok r.
Proof.
  intros E year month. induction w as [|[ry rm] w IH]; intros st d st' d' H y m lines line im I L J U; [destruct I|]. cbn [read_window] in H.
  destruct (if e_tracking E then _ else _) as [bg|e]; [cbn [bind] in H|discriminate]. destruct (e_lines E ry rm) as [ls|] eqn:X.
  - destruct (read_lines E year month ry rm bg ls st d) as [[st1 d1]|e] eqn:R; [cbn [bind] in H|discriminate]. destruct I as [I|I]; [|exact (IH _ _ _ _ H _ _ _ _ _ I L J U)].
    injection I as -> ->. rewrite L in X. injection X as <-. exact (lines_reports _ _ _ _ _ _ _ _ _ _ _ R _ _ J U).
  - destruct I as [I|I]; [injection I as -> ->; congruence|exact (IH _ _ _ _ H _ _ _ _ _ I L J U)].
Qed.
Lemma deck_stops : forall E year month y m lines line im, 1 <= month <= 12 -> In (y, m) (window year month) -> e_lines E y m = Some lines -> In line lines -> usable (e_tables E) (e_excluded E) y m line im ->
  (forall r, report_of im <> Ok r) -> exists e, checked_deck E year month = Err e.
Proof.
  intros E year month y m lines line im M I L J U N. destruct (checked_deck E year month) as [d|e] eqn:D; [|eauto]. exfalso. unfold checked_deck in D. rewrite (window_spec year month M) in D. cbn [bind] in D.
  destruct (read_window E year month _ _ _) as [[st1 d1]|e] eqn:R; [|discriminate]. rewrite (window_is year month M) in I. destruct (window_reports _ _ _ _ _ _ _ _ R y m lines line im) as [r K]; try assumption. exact (N r K).
Qed.
Lemma bad_hour : forall tb ex y m line im d h, usable tb ex y m line im -> number_field im "DY" (Some (inject_Z d)) -> valid (on y m d) -> number_field im "HR" (Some h) -> (24 <= h \/ h < 0)%Q -> forall r, report_of im <> Ok r.
Proof.
  intros tb ex y m line im d h U DY V HR H r K. destruct (usable_year _ _ _ _ _ _ U) as [UY UM]. unfold report_of, new_report in K. cbv zeta in K. fold (bare im) in K.
  assert (YR : getint (bare im) "YR" = Some y) by (unfold getint; rewrite (bare_var im "YR" eq_refl), UY; now rewrite py_int_inject).
  assert (MO : getint (bare im) "MO" = Some m) by (unfold getint; rewrite (bare_var im "MO" eq_refl), UM; now rewrite py_int_inject).
  assert (D : getint (bare im) "DY" = Some d) by (unfold getint; rewrite (bare_var im "DY" eq_refl), (field_fun _ _ _ _ (seen_number_field im "DY") DY); now rewrite py_int_inject).
  assert (HH : getvar (bare im) "HR" = Some h) by (rewrite (bare_var im "HR" eq_refl); exact (field_fun _ _ _ _ (seen_number_field im "HR") HR)).
  destruct V as [n [MH DN]]. unfold on in MH, DN. cbn [yr mo dy] in MH, DN. pose proof (proj2 (proj1 (month_has_iff y m n) MH)) as ML.
  unfold calculate_dt in K. rewrite YR, MO, HH, D in K. replace (0 <? d) with true in K by (symmetry; apply Z.ltb_lt; lia). rewrite ML in K. cbn [bind] in K. replace (d <=? n) with true in K by (symmetry; apply Z.leb_le; lia).
  unfold mk_datetime in K. replace (datetime_ok y m d && (0 <=? Qfloor h) && (Qfloor h <=? 23))%bool with false in K; [discriminate|].
  symmetry. apply not_true_iff_false. intro X. apply andb_true_iff in X. destruct X as [X X2]. apply andb_true_iff in X. destruct X as [_ X1]. apply Z.leb_le in X1, X2. rewrite Zle_Qle in X1, X2.
  pose proof (Qfloor_le h). pose proof (Qlt_floor h) as Q2. rewrite inject_Z_plus in Q2. change (inject_Z 23) with 23%Q in X2. change (inject_Z 0) with 0%Q in X1. change (inject_Z 1) with 1%Q in Q2. destruct H; lra.
Qed.
