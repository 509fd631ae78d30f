(** The main program comes to an end: lines and reports. *)
Require Import String Ascii ZArith QArith Qround List Bool Lia Lqa.
Require Import Verif.M_Base Verif.L_Base Verif.M_Calendar Verif.S_Calendar Verif.L_Calendar Verif.M_Report Verif.S_Report Verif.L_Report Verif.L_Report2 Verif.L_Report3 Verif.M_Imma Verif.M_ImmaTables Verif.S_Imma Verif.L_Imma Verif.L_Imma2 Verif.L_Imma3 Verif.P_Imma Verif.M_Grid
  Verif.S_Clim Verif.L_Clim Verif.P_Grid Verif.M_Voyage Verif.S_Voyage Verif.M_Track Verif.S_Track Verif.M_BaseQC Verif.S_BaseQC Verif.S_Sun Verif.P_BaseQC Verif.S_Hum Verif.M_Main Verif.S_Main Verif.S_Main2
  Verif.L_Main Verif.L_Main2 Verif.L_Main3 Verif.L_Main4 Verif.L_Main5 Verif.L_Main6 Verif.P_Main Verif.P_Main2 Verif.S_Total.
Import ListNotations.
Open Scope string_scope.
Open Scope list_scope.
Open Scope Z_scope.

(* ---- lines ---- *)

Definition has (data : list (string * value)) (q : string) : Prop := assoc q data <> None.
Lemma has_cons : forall data p v q, has data q -> has ((p, v) :: data) q.
Proof. intros data p v q H. unfold has in *. cbn [assoc]. destruct (String.eqb q p); [discriminate|exact H]. Qed.
Lemma decode_has : forall t pos s data data', decode_from pos t s data = Ok data' -> (forall q, has data q -> has data' q) /\ (forall q, In q (names t) -> has data' q).
Proof.
  induction t as [|[p d] t IH]; intros pos s data data' H; cbn [decode_from] in H; [apply ok_inj in H; subst; split; [auto|intros q []]|].
  step H. destruct (IH _ _ _ _ H) as [A B]. split; [intros q Q; apply A, has_cons, Q|]. intros q [<-|Q]; [apply A; unfold has; cbn [assoc fst]; rewrite String.eqb_refl; discriminate|exact (B q Q)].
Qed.
Lemma read_has : forall fuel tables line att len r r', read_loop fuel tables line att len r = Some (Ok r') ->
  (forall q, has (im_data r) q -> has (im_data r') q) /\ (line <> "" -> exists t, get_table tables att = Ok t /\ forall q, In q (names t) -> has (im_data r') q).
Proof.
  induction fuel as [|fuel IH]; intros tables line att len r r' H; cbn [read_loop] in H; (destruct line as [|c line]; [injection H as <-; split; [auto|congruence]|]); [discriminate|].
  set (l0 := match len with Some n => _ | None => _ end) in H. destruct (get_table tables att) as [t|] eqn:T; [|discriminate]. destruct (decode t l0 (im_data r)) as [data|] eqn:D; [|discriminate].
  destruct (decode_has _ _ _ _ _ D) as [D1 D2].
  assert (G : forall r1, (forall q, has data q -> has (im_data r1) q) -> (forall q, has (im_data r) q -> has (im_data r1) q) /\ (String c line <> "" -> exists t0, Ok t = Ok t0 /\ forall q, In q (names t0) -> has (im_data r1) q)).
  { intros r1 K. split; [auto|]. intros _. exists t. auto. }
  destruct len as [n|]; [|injection H as <-; apply G; auto]. destruct (n =? 0); [injection H as <-; apply G; auto|]. destruct (drop_z n l0) as [|c1 l1] eqn:DZ; [injection H as <-; apply G; auto|].
  destruct (int_of_str _) as [a|]; [|discriminate]. destruct (isspace _).
  - destruct (get_table tables a) as [t'|]; [|discriminate]. apply G. exact (proj1 (IH _ _ _ _ _ _ H)).
  - destruct (int_of_str _) as [k|]; [|discriminate]. destruct (k =? 0); (destruct (get_table tables a) as [t'|]; [|discriminate]); apply G; exact (proj1 (IH _ _ _ _ _ _ H)).
Qed.
Lemma full_strip : forall line s, full_line line s -> ~ chars (fun c => c = "010"%char) line -> rstrip_newline line <> "".
Proof.
  intros line s [a [w [b [-> [W [NL _]]]]]] N.
  assert (R : rstrip_newline (a ++ w)%string = a).
  { unfold rstrip_newline. rewrite rstrip_by_app by (eapply chars_impl; [|exact W]; intros c ->; reflexivity). destruct (snoc_cases a) as [->|[t [c ->]]]; [reflexivity|]. apply rstrip_by_keep.
    destruct (Ascii.eqb newline c) eqn:C; [|reflexivity]. apply Ascii.eqb_eq in C. subst c. destruct (NL t). reflexivity. }
  rewrite R. intros ->. apply N. exact W.
Qed.
Lemma accept_total : forall E y m line core, e_tables E = imma_tables -> get_table imma_tables 0 = Ok core -> legible core line -> exists o, accept E y m line = Ok o.
Proof.
  intros E y m line core TB GT [NB [s [FL RD]]]. destruct (readstr (e_tables E) line new_imma) as [[im|e]|] eqn:RS.
  - pose proof (full_strip _ _ FL NB) as NE. pose proof RS as RS'. unfold readstr in RS'. cbv zeta in RS'. destruct (proj2 (read_has _ _ _ _ _ _ _ RS') NE) as [t [T1 T2]]. rewrite TB, GT in T1. apply ok_inj in T1. subst t.
    unfold accept. rewrite RS. assert (H : forall q, mem q (names core) = true -> has (im_data im) q) by (intros q Q; apply T2, mem_In, Q). vm_compute in GT. apply ok_inj in GT. subst core.
    pose proof (H "ID" eq_refl) as H1. pose proof (H "YR" eq_refl) as H2. pose proof (H "MO" eq_refl) as H3. clear H T2. unfold has in *.
    destruct (assoc "ID" (im_data im)) as [v|]; [|congruence]. destruct (match v with VStr _ => _ | _ => _ end); [eauto|]. destruct (assoc "YR" (im_data im)) as [v2|]; [|congruence]. destruct (int_value (Some v2) y); [|eauto].
    destruct (assoc "MO" (im_data im)) as [v3|]; [|congruence]. destruct (int_value (Some v3) m); eauto.
  - destruct (C44_readable E y m line s e core TB GT FL RS) as [[_ K] _]. exists None. apply K. exact RD.
  - exfalso. rewrite TB in RS. exact (C42_ends _ _ RS).
Qed.

(* ---- reports ---- *)

Lemma number_seen : forall im n o, number_field im n o -> seen_number im n = o.
Proof. intros im n o H. exact (field_fun im n _ _ (seen_number_field im n) H). Qed.
Definition bare (im : imma) : report :=
  {| r_id := text_of (assoc "ID" (im_data im)); r_uid := text_of (assoc "UID" (im_data im));
     r_data := init_data (map (fun n => (n, match assoc n (im_data im) with Some v => number_of v | None => None end)) VARLIST); r_dt := None; r_qc := []; r_ext := []; r_clim := [] |}.
Lemma bare_var : forall im n, mem n VARLIST = true -> getvar (bare im) n = seen_number im n.
Proof.
  intros im n M. apply mem_In in M. unfold getvar. destruct (index_of_In n VARLIST M) as [i [J K]]. rewrite J. unfold bare. cbn [r_data]. unfold init_data, seen_number, plain_number.
  rewrite (nth_map_index _ _ _ _ _ J). rewrite (assoc_map_self _ _ _ _ M). destruct (assoc n (im_data im)) as [[]|]; reflexivity.
Qed.
Lemma usable_year : forall tb ex y m line im, usable tb ex y m line im -> seen_number im "YR" = Some (inject_Z y) /\ seen_number im "MO" = Some (inject_Z m).
Proof.
  intros tb ex y m line im [_ [_ [[yv [YA YI]] [mv [MA MI]]]]]. split.
  - exact (listed_int im "YR" yv y _ ltac:(cbn; tauto) YA YI (seen_number_field im "YR")).
  - exact (listed_int im "MO" mv m _ ltac:(cbn; tauto) MA MI (seen_number_field im "MO")).
Qed.
Lemma hour_parts : forall h, (0 <= h < 24)%Q -> 0 <= Qfloor h <= 23 /\ 0 <= Qfloor (60 * (h - inject_Z (Qfloor h))) <= 59.
Proof.
  intros h [A B]. assert (F0 : (inject_Z (Qfloor h) <= h)%Q) by apply Qfloor_le. assert (F1 : (h < inject_Z (Qfloor h + 1))%Q) by apply Qlt_floor. rewrite inject_Z_plus in F1.
  assert (G : forall x a b, (inject_Z a <= x)%Q -> (x < inject_Z (b + 1))%Q -> a <= Qfloor x <= b).
  { intros x a b X Y. pose proof (Qfloor_le x) as Z1. pose proof (Qlt_floor x) as Z2. split.
    - assert (K : (inject_Z a < inject_Z (Qfloor x + 1))%Q) by (eapply Qle_lt_trans; eassumption). rewrite <- Zlt_Qlt in K. lia.
    - assert (K : (inject_Z (Qfloor x) < inject_Z (b + 1))%Q) by (eapply Qle_lt_trans; eassumption). rewrite <- Zlt_Qlt in K. lia. }
  split; [apply G; assumption|]. apply G; [change (inject_Z 0) with 0%Q; lra|]. change (inject_Z (59 + 1)) with 60%Q. change (inject_Z 1) with 1%Q in F1. lra.
Qed.
Lemma report_of_total : forall tb ex y m line im, usable tb ex y m line im -> 1 <= y <= 9999 -> 1 <= m <= 12 ->
  (forall h, number_field im "HR" (Some h) -> (0 <= h < 24)%Q) -> (forall k, number_field im "DS" (Some (inject_Z k)) -> 0 <= k <= 9) -> exists r, report_of im = Ok r.
Proof.
  intros tb ex y m line im U Y M WH WD. destruct (usable_year _ _ _ _ _ _ U) as [UY UM]. unfold report_of, new_report. cbv zeta. fold (bare im).
  assert (YR : getint (bare im) "YR" = Some y) by (unfold getint; rewrite (bare_var im "YR" eq_refl), UY; now rewrite py_int_inject).
  assert (MO : getint (bare im) "MO" = Some m) by (unfold getint; rewrite (bare_var im "MO" eq_refl), UM; now rewrite py_int_inject).
  assert (C : exists d, calculate_dt (bare im) = Ok (with_dt (bare im) d)).
  { unfold calculate_dt. rewrite YR, MO. destruct (getvar (bare im) "HR") as [h|] eqn:HR; [|eauto]. destruct (getint (bare im) "DY") as [d|]; [|eauto]. destruct (Z.ltb_spec 0 d); [|eauto].
    destruct (month_has_exists y m M) as [n MH]. pose proof (proj2 (proj1 (month_has_iff y m n) MH)) as ML. rewrite ML. cbn [bind]. destruct (Z.leb_spec d n); [|eauto].
    rewrite (bare_var im "HR" eq_refl) in HR. assert (H24 : (0 <= h < 24)%Q) by (apply WH; rewrite <- HR; apply seen_number_field).
    destruct (hour_parts h H24) as [A B]. unfold mk_datetime, datetime_ok. rewrite ML.
    replace ((1 <=? y) && (y <=? 9999) && (1 <=? m) && (m <=? 12) && (1 <=? d) && (d <=? n) && (0 <=? Qfloor h) && (Qfloor h <=? 23) && (0 <=? Qfloor (60 * (h - inject_Z (Qfloor h)))) && (Qfloor (60 * (h - inject_Z (Qfloor h))) <=? 59))%bool with true by
      (symmetry; repeat (apply andb_true_iff; split); apply Z.leb_le; lia). cbn [bind]. eauto. }
  destruct C as [dt C]. rewrite C. cbn [bind]. unfold calculate_dsi_vsi.
  assert (V : forall n, getvar (with_dt (bare im) dt) n = getvar (bare im) n) by reflexivity. unfold getint at 1. rewrite V, (bare_var im "DS" eq_refl).
  destruct (seen_number im "DS") as [q|] eqn:DS; [|cbn [bind]; eauto].
  assert (I : exists k, q = inject_Z k).
  { unfold seen_number in DS. destruct (plain_number im "DS") as [q0|]; [|discriminate]. change (mem "DS" INTVARS) with true in DS. injection DS as <-. eauto. }
  destruct I as [k ->]. rewrite py_int_inject.
  assert (K : 0 <= k <= 9) by (apply WD; rewrite <- DS; apply seen_number_field).
  assert (P : exists x, py_nth ds_convert k = Ok x).
  { assert (KK : k = 0 \/ k = 1 \/ k = 2 \/ k = 3 \/ k = 4 \/ k = 5 \/ k = 6 \/ k = 7 \/ k = 8 \/ k = 9) by lia. repeat (destruct KK as [->|KK]; [eexists; reflexivity|]). subst k. eexists; reflexivity. }
  destruct P as [x P]. rewrite P. cbn [bind]. eauto.
Qed.

(** Where a report is. *)
Definition on_globe (r : report) : Prop := exists la lo, lat r = Some la /\ lon r = Some lo /\ (-90 <= la <= 90)%Q /\ (-180 <= lo <= 180)%Q.
Lemma globe_where : forall r r', same_where r r' -> on_globe r -> on_globe r'.
Proof. intros r r' [A [B _]] [la [lo [C [D G]]]]. exists la, lo. unfold lat, lon in *. rewrite A, B. auto. Qed.
Lemma look_value : forall c r, clim_wf c -> on_globe r -> exists o, look get_value c r = Ok o.
Proof.
  intros c r W [la [lo [A [B [C D]]]]]. unfold look. rewrite A, B. destruct (getint r "MO") as [m|]; [|eauto]. destruct (getint r "DY") as [d|]; [|eauto].
  destruct (clim_date_ok m d) eqn:CD.
  - apply clim_date_ok_iff in CD. destruct (C15_get_value c la lo m d W CD) as [t [y [x [K _]]]]; try lra. rewrite K. eauto.
  - destruct (C15_get_value_bad_date c la lo m d) as [K _]; [|rewrite K; eauto]. intro V. apply clim_date_ok_iff in V. congruence.
Qed.
Lemma look_mds : forall c r, one_degree c -> on_globe r -> exists o, look get_value_mds_style c r = Ok o.
Proof.
  intros c r [W N] [la [lo [A [B [C D]]]]]. unfold look. rewrite A, B. destruct (getint r "MO") as [m|]; [|eauto]. destruct (getint r "DY") as [d|]; [|eauto].
  destruct (clim_date_ok m d) eqn:CD.
  - apply clim_date_ok_iff in CD. destruct (C15_get_value_mds_style c la lo m d W N CD) as [t [y [x [K _]]]]; try lra. rewrite K. eauto.
  - destruct (C15_get_value_bad_date c la lo m d) as [_ K]; [|rewrite K; eauto]. intro V. apply clim_date_ok_iff in V. congruence.
Qed.
Lemma look_ostia : forall c r, background_field c -> on_globe r -> exists o, ostia_at c r = Ok o.
Proof.
  intros c r [N [Y X]] [la [lo [A [B [C D]]]]]. unfold ostia_at. rewrite A, B. destruct (C15_get_value_ostia c la lo N Y X) as [y [x [K _]]]; try lra. rewrite K. eauto.
Qed.
Lemma clim_where : forall r cl, same_where r (with_clim r cl).
Proof. intros r cl. repeat split. Qed.
Lemma means_total : forall E get names r, on_globe r -> (forall n, In n names -> exists c, e_lib E n "mean" = Some c /\ forall r, on_globe r -> exists o, look get c r = Ok o) -> exists cl, add_means E get names r = Ok (with_clim r cl).
Proof.
  intros E get. induction names as [|n names IH]; intros r G H; cbn [add_means]; [exists (r_clim r); destruct r; reflexivity|].
  destruct (H n (or_introl eq_refl)) as [c [L K]]. unfold field_of. rewrite L. cbn [bind]. destruct (K r G) as [o O]. rewrite O. cbn [bind].
  destruct (IH (add_climate_variable r n o None)) as [cl I]; [eapply globe_where; [apply clim_where|exact G]|intros n' N; apply H; now right|]. rewrite I. exists cl. reflexivity.
Qed.
Lemma stdevs_total : forall E names r, on_globe r -> (forall n, In n names -> (exists c, e_lib E n "mean" = Some c /\ clim_wf c) /\ exists c, e_lib E n "stdev" = Some c /\ clim_wf c) -> exists cl, add_stdevs E names r = Ok (with_clim r cl).
Proof.
  intros E. induction names as [|n names IH]; intros r G H; cbn [add_stdevs]; [exists (r_clim r); destruct r; reflexivity|].
  destruct (H n (or_introl eq_refl)) as [[c [L K]] [s [L' K']]]. unfold field_of. rewrite L. cbn [bind]. destruct (look_value c r K G) as [o O]. rewrite O. cbn [bind].
  rewrite L'. cbn [bind]. destruct (look_value s r K' G) as [o' O']. rewrite O'. cbn [bind].
  destruct (IH (add_climate_variable r n o o')) as [cl I]; [eapply globe_where; [apply clim_where|exact G]|intros n' N; apply H; now right|]. rewrite I. exists cl. reflexivity.
Qed.
Lemma yesterday_valid : forall y m d, 2 <= y <= 9999 -> valid (on y m d) -> exists y' m' d', yesterday y m d = Some (y', m', d') /\ valid (on y' m' d').
Proof.
  intros y m d Y [n [MH D]]. cbn [on yr mo dy] in *. destruct (month_has_range _ _ _ MH) as [M _]. pose proof (proj2 (proj1 (month_has_iff y m n) MH)) as ML.
  unfold yesterday, datetime_ok. rewrite ML.
  replace ((1 <=? y) && (y <=? 9999) && (1 <=? m) && (m <=? 12) && (1 <=? d) && (d <=? n))%bool with true by (symmetry; repeat (apply andb_true_iff; split); apply Z.leb_le; lia).
  destruct (Z.ltb_spec 1 d); [exists y, m, (d - 1); split; [reflexivity|]; exists n; cbn; split; [exact MH|lia]|].
  destruct (Z.ltb_spec 1 m).
  - destruct (month_has_exists y (m - 1)) as [k K]; [lia|]. pose proof (proj2 (proj1 (month_has_iff y (m - 1) k) K)) as KL. replace (m - 1 - 1) with (m - 2) in KL by lia. rewrite KL. exists y, (m - 1), k. split; [reflexivity|].
    exists k. cbn. split; [exact K|]. destruct (month_has_range _ _ _ K). lia.
  - destruct (Z.ltb_spec 1 y); [|lia]. exists (y - 1), 12, 31. split; [reflexivity|]. exists 31. cbn. split; [|lia]. apply month_has_iff. split; [lia|]. unfold get_month_lengths. destruct (py_isleap _); reflexivity.
Qed.

Section Total.
Variable E : setup.
Hypothesis EQ : equipped E.
Let HUM : humidity_only (e_hum E) := eq_hum E EQ.

Definition loaded_ok (st : loaded) : Prop := fst st = -99 \/ exists sst ice, snd st = Some (sst, ice) /\ background_field sst /\ background_field ice.
Definition variance_ok (bg : option clim) : Prop := e_tracking E = true -> exists v, bg = Some v /\ one_degree v.
Lemma background_total : forall y m st bg r, (e_tracking E = true -> forall y m d, valid (on y m d) -> exists sst ice, e_ostia E (Some (y, m, d)) = Ok (sst, ice) /\ background_field sst /\ background_field ice) ->
  y <= 9999 -> loaded_ok st -> variance_ok bg -> on_globe r ->
  (e_tracking E = true -> forall d, getint r "DY" = Some d -> valid (on y m d)) ->
  exists st' r', background E y m st bg r = Ok (st', r') /\ loaded_ok st'.
Proof.
  intros y m st bg r OST Y L V G T. unfold background. destruct (getint r "DY") as [d|]; [|eauto]. destruct (e_tracking E) eqn:ET; [|cbn [andb]; eauto]. destruct (Z.leb_spec 1985 y) as [Y'|]; cbn [andb]; [|eauto].
  pose proof (T eq_refl d eq_refl) as D. destruct (V ET) as [v [-> VO]].
  assert (S : exists st1 sst ice, (if d =? fst st then Ok st else let! f := e_ostia E (yesterday y m d) in Ok (d, Some f)) = Ok st1 /\ snd st1 = Some (sst, ice) /\ background_field sst /\ background_field ice).
  { destruct (Z.eqb_spec d (fst st)) as [DE|N].
    - destruct L as [L|[sst [ice [L1 [L2 L3]]]]]; [exfalso; rewrite L in DE; destruct D as [n [_ D]]; cbn [on dy] in D; lia|]. exists st, sst, ice. auto.
    - destruct (yesterday_valid y m d ltac:(lia) D) as [y' [m' [d' [YE YV]]]]. rewrite YE. destruct (OST eq_refl y' m' d' YV) as [sst [ice [O [O1 O2]]]]. rewrite O. cbn [bind]. exists (d, Some (sst, ice)), sst, ice. auto. }
  destruct S as [st1 [sst [ice [S1 [S2 [S3 S4]]]]]]. rewrite S1. cbn [bind]. rewrite S2.
  destruct (look_ostia sst r S3 G) as [x X]. rewrite X. cbn [bind]. set (r1 := setext r "OSTIA" _). assert (G1 : on_globe r1) by exact G.
  destruct (look_ostia ice r1 S4 G1) as [x2 X2]. rewrite X2. cbn [bind]. assert (G2 : on_globe (setext r1 "ICE" x2)) by exact G.
  destruct (look_mds v (setext r1 "ICE" x2) VO G2) as [z Z]. rewrite Z. cbn [bind]. eexists. eexists. split; [reflexivity|]. right. exists sst, ice. auto.
Qed.

Lemma lon_west : forall r q, getvar r "LON" = Some q -> (-180 <= q <= 360)%Q -> exists l, lon r = Some l /\ (-180 <= l <= 180)%Q.
Proof. intros r q H R. unfold lon. rewrite H. eexists. split; [reflexivity|]. destruct (Qltb 180 q) eqn:L; qprop; lra. Qed.
Lemma prepare_total : forall year month y m st bg line im, usable (e_tables E) (e_excluded E) y m line im -> 1 <= y <= 9999 -> 1 <= m <= 12 -> workable y m im ->
  (e_tracking E = true -> trackable y m im) -> loaded_ok st -> variance_ok bg -> exists st' r, prepare E year month y m st bg im = Ok (st', r) /\ loaded_ok st'.
Proof.
  intros year month y m st bg line im U Y M W T L V. destruct (report_of_total _ _ _ _ _ _ U Y M (wk_hour _ _ _ W) (wk_heading _ _ _ W)) as [r1 E1]. unfold prepare. rewrite E1. cbn [bind].
  destruct (usable_year _ _ _ _ _ _ U) as [UY UM]. destruct (report_of_spec _ _ E1) as [_ [_ [V1 [W1 [Q1 [C1 _]]]]]].
  assert (VL : forall n, mem n VARLIST = true -> getvar r1 n = seen_number im n) by (intros n N; apply V1, mem_In, N).
  assert (E2 : exists r2, setvar r1 "AT2" (getvar r1 "AT") = Ok r2). { unfold setvar. destruct (index_of_In "AT2" VARLIST) as [i [I _]]; [apply mem_In; reflexivity|]. rewrite I. cbn [bind mem existsb]. cbn. eauto. }
  destruct E2 as [r2 E2]. rewrite E2. cbn [bind]. pose proof (holds_setvar _ _ _ _ E2) as H2.
  assert (G2V : forall n, mem n VARLIST = true -> n <> "AT2" -> getvar r2 n = seen_number im n).
  { intros n N NE. destruct H2 as [_ [_ [K _]]]. rewrite K; [apply VL, N|apply mem_In, N|intros [Z|[]]; congruence]. }
  assert (GL2 : on_globe r2).
  { destruct (wk_lat _ _ _ W) as [la [LA LA']]. destruct (wk_lon _ _ _ W) as [lo [LO LO']]. destruct (lon_west r2 lo) as [l [A B]]; [rewrite G2V by (reflexivity || discriminate); apply number_seen, LO|exact LO'|].
    exists la, l. split; [unfold lat; rewrite G2V by (reflexivity || discriminate); apply number_seen, LA|]. auto. }
  assert (D2 : e_tracking E = true -> forall d, getint r2 "DY" = Some d -> valid (on y m d)).
  { intros ET d D. apply (tr_day _ _ _ (T ET)). assert (K : getvar r2 "DY" = Some (inject_Z d)) by (apply getint_var; [reflexivity|reflexivity|exact D]). rewrite <- K, G2V by (reflexivity || discriminate). apply seen_number_field. }
  destruct (background_total y m st bg r2 (eq_ostia E EQ) ltac:(lia) L V GL2 D2) as [st1 [r3 [E3 L1]]]. rewrite E3. cbn [bind].
  destruct (background_shape _ _ _ _ _ _ _ _ E3) as [ex [E3' _]]. assert (GL3 : on_globe r3) by (subst r3; exact GL2).
  destruct (means_total E get_value_mds_style ["SST"; "AT"] r3 GL3) as [c4 E4].
  { intros n N. destruct (eq_mds E EQ n N) as [c [A B]]. exists c. split; [exact A|]. intros r G. now apply look_mds. }
  rewrite E4. cbn [bind]. assert (GL4 : on_globe (with_clim r3 c4)) by exact GL3.
  destruct (means_total E get_value ["SLP2"; "SHU"; "CRH"; "CWB"; "DPD"] (with_clim r3 c4) GL4) as [c5 E5].
  { intros n N. destruct (eq_mean E EQ n) as [c [A B]]; [cbn in N |- *; tauto|]. exists c. split; [exact A|]. intros r G. now apply look_value. }
  rewrite E5. cbn [bind]. assert (GL5 : on_globe (with_clim (with_clim r3 c4) c5)) by exact GL3.
  destruct (stdevs_total E ["DPT"; "AT2"; "SLP"] _ GL5) as [c6 E6].
  { intros n N. split; [apply (eq_mean E EQ); cbn in N |- *; tauto|now apply (eq_sd E EQ)]. }
  rewrite E6. cbn [bind]. set (r6 := with_clim (with_clim (with_clim r3 c4) c5) c6) in *.
  destruct (climate_chain _ _ _ _ _ E4 E5 E6) as [CL _].
  destruct (add_stdevs_spec _ _ _ _ E6) as [cl [R6 [SD6 _]]]; [repeat constructor; cbn; intuition discriminate|].
  assert (H23 : holds_on [] r2 r3) by (subst r3; now apply holds_data). assert (H36 : holds_on [] r3 r6) by (unfold r6; now apply holds_data).
  assert (W6 : wf_report r6) by (apply H36, H23, H2, W1).
  assert (V6 : forall n, mem n VARLIST = true -> n <> "AT2" -> getvar r6 n = seen_number im n).
  { intros n N NE. destruct H36 as [_ [_ [K _]]]. rewrite K by (try apply mem_In; auto). destruct H23 as [_ [_ [K' _]]]. rewrite K' by (try apply mem_In; auto). now apply G2V. }
  destruct (eq_works E EQ r6) as [r7 E7]; [exact W6| | |].
  { intro Z. destruct (SD6 "SLP") as [_ [_ K]]; [cbn; tauto|]. apply K. unfold r6 in Z. cbn [r_clim with_clim] in Z. rewrite <- Z. assert (X : r_clim r6 = cl) by (rewrite R6; reflexivity). rewrite <- X. reflexivity. }
  { intros n q N Q. apply (wk_warm _ _ _ W n q N). rewrite <- Q. destruct N as [<-|[<-|[]]]; rewrite V6 by (reflexivity || discriminate); apply seen_number_field. }
  rewrite E7. cbn [bind]. destruct (HUM _ _ E7) as [[A1 [A2 [A3 [A4 [A5 [A6 A7]]]]]] A8].
  assert (V7 : forall n, mem n VARLIST = true -> n <> "AT2" -> ~ In n humidity_names -> getvar r7 n = seen_number im n) by (intros n N NE NH; rewrite A7 by exact NH; now apply V6).
  assert (W7 : wf_report r7) by (unfold wf_report in *; congruence).
  assert (SW : same_where r6 r7) by (repeat split; apply A7; cbn; intuition discriminate).
  assert (P : processable (view r7)).
  { split; [|split].
    - destruct (wk_lat _ _ _ W) as [la [LA _]]. destruct (wk_lon _ _ _ W) as [lo [LO _]]. exists la, lo. cbn [view s_var]. rewrite !V7 by (reflexivity || discriminate || (cbn; intuition discriminate)). split; now apply number_seen.
    - exists y, m. split; [|split; [|lia]]; eexists; cbn [view s_var]; (rewrite V7 by (reflexivity || discriminate || (cbn; intuition discriminate))); rewrite ?UY, ?UM; (split; [reflexivity|reflexivity]).
    - intros z Z. cbn [view s_sd] in Z. destruct (climate_keep E r6 r7 CL SW A5) as [_ [_ C]]. destruct (C "SLP") as [c [LL K]]; [now cbn; auto|]. rewrite Z in K. unfold look in K.
      destruct (getint r7 "MO"), (getint r7 "DY"); try discriminate. destruct (lat r7), (lon r7); try (destruct (clim_date_ok _ _); discriminate).
      eapply get_value_nonneg; [|exact K]. intros ? ? ? ? VV. eapply (eq_slp E EQ); eassumption. }
  destruct (C46_base_qc _ _ _ (eq_elev E EQ) (eq_base E EQ) P W7) as [r8 [E8 _]]. rewrite E8. cbn [bind].
  set (z := match getint r8 "YR" with Some _ => _ | None => _ end). assert (Z01 : 0 <= z <= 9).
  { unfold z. destruct (getint r8 "YR"); [|lia]. destruct (getint r8 "MO"); [|lia]. unfold month_match. destruct (_ && _)%bool; lia. }
  assert (S : exists r9, set_qc r8 "POS" "month_match" z = Ok r9).
  { unfold set_qc, py_assert. replace ((0 <=? z) && (z <=? 9))%bool with true by (symmetry; apply andb_true_iff; split; apply Z.leb_le; lia). cbn [bind]. change (mem "POS" special_qc_types || mem "POS" VARLIST)%bool with true. cbn [bind]. eauto. }
  destruct S as [r9 S]. rewrite S. cbn [bind]. eauto.
Qed.
End Total.
