(** C44 the main program: month after month, a window of three months, the output of the month in the middle. *)
Require Import String Ascii ZArith QArith Qround List Bool Lia Sorted Permutation.
Require Import Verif.M_Base Verif.L_Base Verif.M_Calendar Verif.S_Calendar Verif.P_Calendar Verif.M_Report Verif.S_Report Verif.L_Report2 Verif.M_Imma Verif.M_ImmaTables Verif.M_Grid Verif.M_Voyage Verif.M_Track
  Verif.M_Buddy Verif.S_Sun Verif.M_BaseQC Verif.S_BaseQC Verif.P_BaseQC Verif.M_Print Verif.S_Files Verif.S_Print Verif.L_Print Verif.P_Print Verif.M_Main Verif.S_Hum Verif.M_Hum Verif.S_Main
  Verif.L_Main Verif.L_Main2 Verif.L_Main3 Verif.L_Main4 Verif.L_Main5 Verif.L_Main6 Verif.P_Voyage Verif.P_Buddy Verif.S_Imma.
Import ListNotations.
Open Scope string_scope.
Open Scope list_scope.
Open Scope Z_scope.

(** The program uses the humidity routine of M_Hum; any routine that sets only humidity variables will do. *)
Theorem C44_humidity : forall names, humidity_only (fun r => calculate_humidity_variables r names).
Proof. exact calculate_only. Qed.
Print Assumptions C44_humidity.

(** The reports made from the usable lines of the file of a month, one from each, in order. *)
Definition from_file (E : setup) (ym : Z * Z) (reps : list report) : Prop :=
  exists ims, records (usable (e_tables E) (e_excluded E) (fst ym) (snd ym)) (e_lines E (fst ym) (snd ym)) ims /\ Forall2 made_from ims reps /\
    Forall (of_month (fst ym) (snd ym)) reps.
Lemma done_from : forall E y m ym reps, done E y m ym reps -> from_file E ym reps.
Proof.
  intros E y m ym reps D. pose proof (done_month _ _ _ _ _ D) as M. destruct D as [ims [R F]]. exists ims. split; [exact R|]. split; [|exact M].
  clear - F. induction F as [|im r ims reps A F IH]; constructor; [apply (fn_made _ _ _ _ _ _ _ A)|exact IH].
Qed.
Lemma before_is : forall y m, last_month_was y m = month_before y m.
Proof. intros y m. unfold last_month_was, month_before. destruct (Z.eqb_spec m 1) as [->|N]; [reflexivity|]. destruct (Z.eqb_spec (m - 1) 0); [lia|reflexivity]. Qed.
Lemma after_is : forall y m, 1 <= m <= 12 -> next_month_is y m = month_after y m.
Proof. intros y m M. unfold next_month_is, month_after. destruct (Z.eqb_spec m 12) as [->|N]; [reflexivity|]. destruct (Z.ltb_spec 12 (m + 1)); [lia|reflexivity]. Qed.
Lemma window_is : forall y m, 1 <= m <= 12 -> window y m = [last_month_was y m; (y, m); next_month_is y m].
Proof. intros y m M. unfold window. now rewrite <- before_is, <- after_is. Qed.

(** C44.  The deck of a month holds one report for each usable line of the files of the month before, the month and the month
    after, in this order, and no other. *)
Theorem C44_window : forall E y m d, humidity_only (e_hum E) -> 1 <= m <= 12 -> checked_deck E y m = Ok d ->
  exists a b c, d_reps d = a ++ b ++ c /\ from_file E (month_before y m) a /\ from_file E (y, m) b /\ from_file E (month_after y m) c.
Proof.
  intros E y m d HUM M H. destruct (deck_done E HUM y m d M H) as [a [b [c [R [A [B C]]]]]]. exists a, b, c. split; [exact R|]. rewrite <- before_is, <- after_is by exact M. split; [|split]; eapply done_from; eassumption.
Qed.
Print Assumptions C44_window.

(** C44.  The output files of a month hold exactly one row for each usable line of the month's own file, in order. *)
Theorem C44_month : forall E y m files, humidity_only (e_hum E) -> (forall n q, float_text (e_str_of E n q)) -> 1 <= m <= 12 ->
  run_month E y m = Ok files ->
  (forall lines line im, e_lines E y m = Some lines -> In line lines -> usable (e_tables E) (e_excluded E) y m line im -> plain_record im) ->
  exists reps ys ms content flags more, from_file E (y, m) reps /\ int_text y ys /\ padded 2 m ms /\
    files = ((e_dir E y m ++ "/Variables_" ++ ys ++ ms ++ "_" ++ e_runid E ++ ".csv")%string, content) :: flags ++ more /\
    variable_file (e_str_of E) documented_vars reps content /\
    Forall2 (fun tn f => fst f = (e_dir E y m ++ "/" ++ fst tn ++ "_qc_" ++ ys ++ ms ++ "_" ++ e_runid E ++ ".csv")%string /\ flag_file (fst tn) (snd tn) reps (snd f)) documented_flags flags /\
    (e_tracking E = false -> more = []).
Proof.
  intros E y m files HUM STR M H PL. unfold run_month in H. step H. rename y0 into d. destruct (deck_picked E HUM y m d M X) as [l [D P]].
  assert (N : d_reps d <> []) by (intro Z; rewrite Z in H; rewrite C49_empty_deck_refuted in H; discriminate).
  assert (PR : Forall printable l).
  { destruct D as [ims [R F]]. cbn [fst snd] in *.
    assert (Q : Forall plain_record ims).
    { unfold records in R. destruct (e_lines E y m) as [lines|] eqn:L; [|subst ims; constructor]. specialize (PL lines).
      assert (PL' : forall line im, In line lines -> usable (e_tables E) (e_excluded E) y m line im -> plain_record im) by (intros; eapply PL; eauto). clear - R PL'.
      induction R as [|x im lines ims U R IH|x lines ims U R IH]; [constructor| |].
      - constructor; [eapply PL'; [now left|exact U]|]. apply IH. intros z im' I. apply PL'. now right.
      - apply IH. intros z im' I. apply PL'. now right. }
    clear - F Q. induction F as [|im r ims reps A F IH]; [constructor|]. inversion Q as [|? ? [[u [U1 U2]] I1] Q']; subst. constructor; [|now apply IH].
    destruct (fn_made _ _ _ _ _ _ _ A) as [MI [MU _]]. split.
    - destruct MU as [[s [S1 S2]]|[S1 S2]]; [|destruct S1; eauto]. exists s. split; [exact S2|]. congruence.
    - intros i I. destruct MI as [[s [S1 S2]]|[S1 S2]]; [|congruence]. apply I1. congruence. }
  destruct (C49_deck_output (e_str_of E) STR (d_reps d) l (e_runid E) (e_dir E y m) y m false ltac:(lia) N P PR) as [ys [ms [content [flags [YS [MS [W [VF FF]]]]]]]].
  rewrite W in H. cbn [bind] in H. exists l, ys, ms, content, flags.
  destruct (e_tracking E) eqn:T.
  - step H. destruct y0 as [names more]. apply ok_inj in H. eexists. split; [exact (done_from _ _ _ _ _ D)|]. split; [exact YS|]. split; [exact MS|]. split; [symmetry; exact H|]. split; [exact VF|]. split; [exact FF|]. discriminate.
  - apply ok_inj in H. exists []. split; [exact (done_from _ _ _ _ _ D)|]. split; [exact YS|]. split; [exact MS|]. split; [rewrite app_nil_r; symmetry; exact H|]. split; [exact VF|]. split; [exact FF|]. reflexivity.
Qed.
Print Assumptions C44_month.

(** Which reports of the deck are of the month is also noted in a flag. *)
Theorem C44_month_match : forall E y m d r, humidity_only (e_hum E) -> 1 <= m <= 12 -> checked_deck E y m = Ok d -> In r (d_reps d) ->
  (get_qc r "POS" "month_match" = 1 /\ of_month y m r) \/ (get_qc r "POS" "month_match" = 0 /\ ~ of_month y m r).
Proof.
  intros E y m d r HUM M H I. destruct (deck_done E HUM y m d M H) as [a [b [c [R [A [B C]]]]]]. rewrite R in I.
  assert (D : exists ym l, done E y m ym l /\ In r l) by (rewrite !in_app_iff in I; destruct I as [I|[I|I]]; eauto). clear - D. destruct D as [ym [l [[ims [_ F]] I]]].
  assert (G : exists im, finished E y m (fst ym) (snd ym) im r) by (clear - F I; induction F as [|im x ims l A F IH]; [destruct I|]; destruct I as [->|I]; eauto).
  destruct G as [im G]. pose proof (fn_match _ _ _ _ _ _ _ G) as K. destruct (fn_month _ _ _ _ _ _ _ G) as [YR MO]. rewrite K.
  destruct (C06_month_match y m (fst ym) (snd ym)) as [E1 E0]. unfold of_month. rewrite YR, MO.
  destruct (Z.eq_dec y (fst ym)) as [->|N]; [destruct (Z.eq_dec m (snd ym)) as [->|N]|].
  - left. split; [now apply E1|auto].
  - right. split; [apply E0; congruence|intros [_ Z]; congruence].
  - right. split; [apply E0; congruence|intros [Z _]; congruence].
Qed.
Print Assumptions C44_month_match.

(** C44.  The base flags of every report, after all later checks, are those the report itself demands (C46). *)
Theorem C44_base_flags : forall E y m d r y' m', humidity_only (e_hum E) -> 1 <= m <= 12 -> checked_deck E y m = Ok d -> In r (d_reps d) ->
  elevation_like (e_elev E) -> sane (e_base E) -> of_month y' m' r -> 1 <= y' ->
  (forall c t la lo q, e_lib E "SLP" "stdev" = Some c -> cval c t la lo = Some q -> (0 <= q)%Q) ->
  flagged r (base_flags (e_elev E) (e_base E) (view r)).
Proof.
  intros E y m d r y' m' HUM M H I EL SA OM Y SD. destruct (deck_done E HUM y m d M H) as [a [b [c [R [A [B C]]]]]]. rewrite R in I.
  assert (D : exists ym l, done E y m ym l /\ In r l /\ 1 <= snd ym <= 12).
  { rewrite !in_app_iff in I. destruct I as [I|[I|I]]; [exists (last_month_was y m), a|exists (y, m), b|exists (next_month_is y m), c]; (split; [assumption|]); (split; [assumption|]).
    - apply (C04_last_month y m M).
    - exact M.
    - apply (C04_next_month y m M). }
  destruct D as [ym [l [[ims [_ F]] [J MM]]]].
  assert (G : exists im, finished E y m (fst ym) (snd ym) im r) by (clear - F J; induction F as [|im x ims l A F IH]; [destruct J|]; destruct J as [->|J]; eauto).
  destruct G as [im G]. destruct (fn_month _ _ _ _ _ _ _ G) as [YR MO]. destruct OM as [YR' _]. apply (fn_base _ _ _ _ _ _ _ G); auto. congruence.
Qed.
Print Assumptions C44_base_flags.

(** C44.  The normals of every report: sea and air temperature from the one degree fields, the others by position; each at the
    report's place, month and day.  Three variables have standard deviations. *)
Theorem C44_climate : forall E y m d r, humidity_only (e_hum E) -> 1 <= m <= 12 -> checked_deck E y m = Ok d -> In r (d_reps d) ->
  (forall n, In n ["SST"; "AT"] -> exists c, e_lib E n "mean" = Some c /\ normal_at get_value_mds_style c r (getnorm r n)) /\
  (forall n, In n ["SLP2"; "SHU"; "CRH"; "CWB"; "DPD"; "DPT"; "AT2"; "SLP"] -> exists c, e_lib E n "mean" = Some c /\ normal_at get_value c r (getnorm r n)) /\
  (forall n, In n ["DPT"; "AT2"; "SLP"] -> exists c, e_lib E n "stdev" = Some c /\ normal_at get_value c r (getnorm_stdev r n)).
Proof.
  intros E y m d r HUM M H I. destruct (deck_done E HUM y m d M H) as [a [b [c [R [A [B C]]]]]]. rewrite R in I.
  assert (D : exists ym l, done E y m ym l /\ In r l) by (rewrite !in_app_iff in I; destruct I as [I|[I|I]]; eauto). clear - D. destruct D as [ym [l [[ims [_ F]] I]]].
  assert (G : exists im, finished E y m (fst ym) (snd ym) im r) by (clear - F I; induction F as [|im x ims l A F IH]; [destruct I|]; destruct I as [->|I]; eauto).
  destruct G as [im G]. split; [exact (fn_mds _ _ _ _ _ _ _ G)|]. split; [exact (fn_mean _ _ _ _ _ _ _ G)|exact (fn_sd _ _ _ _ _ _ _ G)].
Qed.
Print Assumptions C44_climate.

(** C44.  The ship checks are made on the voyages: for every identifier, the reports of the whole window with it that pass the
    position filter, in order, are made a voyage, checked, and take the results; other reports are left alone.  Then the whole deck
    goes through the buddy checks.  None of these checks changes anything but motion and its own flags. *)
Theorem C44_ships : forall E y m d, humidity_only (e_hum E) -> 1 <= m <= 12 -> checked_deck E y m = Ok d ->
  exists a b c after, from_file E (month_before y m) a /\ from_file E (y, m) b /\ from_file E (month_after y m) c /\
  let reps := a ++ b ++ c in
  (forall r, In r reps -> exists sub v v', placed (fun r' => r_id r' = r_id r /\ test_report position_filter r' = 0) reps after sub v' /\
    add_reports (e_sphere E) [] sub = Ok v /\ ship_checks E v = Ok v') /\
  Forall2 (fun r r' => test_report position_filter r <> 0 -> r' = r) reps after /\
  buddy_checks E after = Ok (d_reps d) /\
  frames ["POStrk"; "POSfew"; "POSiquam_track"; "SSTspike"; "DPTrepsat"; "DPTround"; "SSTrep"; "ATrep"; "AT2rep"; "DPTrep"; "SLPrep"] reps after /\
  frames ["SSTbbud"; "SSTbud"; "ATbbud"; "ATbud"; "DPTbud"; "SLPbud"] after (d_reps d).
Proof.
  intros E y m d HUM M H. destruct (deck_spec E HUM y m d M H) as [a [b [c [after [PA [PB [PC [IX [SH [BU [F1 F2]]]]]]]]]]].
  assert (PF : forall ym reps, part E y m ym reps -> from_file E ym reps).
  { intros ym reps P. apply (done_from E y m). eapply part_done; [exact P|apply frames_refl]. }
  exists a, b, c, after. rewrite <- before_is, <- after_is by exact M. split; [exact (PF _ _ PA)|]. split; [exact (PF _ _ PB)|]. split; [exact (PF _ _ PC)|]. cbv zeta.
  destruct (ships_placed E position_filter _ _ _ IX SH) as [S1 S2]. split; [exact S1|]. split; [exact S2|]. split; [exact BU|]. split; [exact F1|exact F2].
Qed.
Print Assumptions C44_ships.

(** C44.  The order in which the identifiers are gone through is irrelevant. *)
Theorem C44_order : forall E f reps ids ids' reps', (forall id l, In (id, l) ids -> l = positions reps id) -> NoDup (map fst ids) -> (forall r, In r reps -> In (r_id r) (map fst ids)) ->
  Permutation ids ids' -> all_ships E f ids reps = Ok reps' -> all_ships E f ids' reps = Ok reps'.
Proof.
  intros E f reps ids ids' reps' P N C PE H. eapply ships_perm; [exact PE| |exact H]. apply (groups_disjoint reps). split; [exact N|]. split; [exact P|exact C].
Qed.
Print Assumptions C44_order.

(** C44.  A run deals with every month from the first to the last, each once, in order of time. *)
Theorem C44_run : forall E y1 m1 y2 m2 fuel out, 1 <= m1 <= 12 -> 1 <= m2 <= 12 -> month_number (y1, m1) <= month_number (y2, m2) ->
  (Z.to_nat (12 * (y2 - y1) + m2 - m1) <= fuel)%nat -> run E fuel y1 m1 y2 m2 = Ok out ->
  exists months parts, (forall ym, In ym months <-> ym_ok ym /\ month_number (y1, m1) <= month_number ym <= month_number (y2, m2)) /\
    StronglySorted (fun a b => month_number a < month_number b) months /\
    Forall2 (fun ym files => run_month E (fst ym) (snd ym) = Ok files) months parts /\ out = Some (concat parts).
Proof.
  intros E y1 m1 y2 m2 fuel out M1 M2 L F H. destruct (C05_year_month_gen y1 m1 y2 m2 fuel M1 M2 L F) as [l [G [_ [I S]]]]. unfold run in H. rewrite G in H. cbn [bind] in H.
  step H. apply ok_inj in H. subst out. exists l.
  assert (K : forall l files, run_months E l = Ok files -> exists parts, Forall2 (fun ym files => run_month E (fst ym) (snd ym) = Ok files) l parts /\ files = concat parts).
  { clear. induction l as [|[y m] l IH]; intros files H; cbn [run_months] in H.
    - apply ok_inj in H. subst. exists []. split; [constructor|reflexivity].
    - do 2 step H. apply ok_inj in H. subst files. destruct (IH _ eq_refl) as [parts [P ->]]. exists (y0 :: parts). split; [constructor; assumption|reflexivity]. }
  destruct (K _ _ X) as [parts [P ->]]. exists parts. auto.
Qed.
Print Assumptions C44_run.

(** C44.  Within a file, every report with a day gets the background of the day before it, and the variance of its month, if the
    fields still in memory from an earlier file, if any, are not those noted for the same day number of another month. *)
Theorem C44_background : forall E year month y m bg lines st d st' d', humidity_only (e_hum E) -> e_tracking E = true -> 1985 <= y -> current E y m st ->
  read_lines E year month y m bg lines st d = Ok (st', d') ->
  exists ims reps, read_off (usable (e_tables E) (e_excluded E) y m) lines ims /\
    Forall2 (fun im r => made_from im r /\ right_background E y m bg r) ims reps /\ d_reps d' = d_reps d ++ reps.
Proof. intros E year month y m bg lines st d st' d' HUM T Y C H. exact (proj2 (read_back E HUM _ _ _ _ _ _ _ _ _ _ T Y C H)). Qed.
Print Assumptions C44_background.

(* ---- findings ---- *)

(** One blank line in any of the three files stops the program. *)
Theorem C44_blank_line_refuted : forall E y m ym lines line, 1 <= m <= 12 -> In ym (window y m) -> e_lines E (fst ym) (snd ym) = Some lines -> In line lines ->
  line = "" \/ line = newline_s -> exists e, run_month E y m = Err e.
Proof.
  intros E y m ym lines line M I L J B. rewrite (window_is y m M) in I. destruct (run_month E y m) as [files|e] eqn:H; [|eauto]. exfalso. destruct (run_accepts E y m files M H ym lines line I L J) as [o A].
  assert (K : accept E (fst ym) (snd ym) line = Err KeyError) by (destruct B as [-> | ->]; reflexivity). congruence.
Qed.
Print Assumptions C44_blank_line_refuted.
(** So does a line with an unreadable field before the identifier. *)
Theorem C44_unreadable_refuted : forall E y m ym lines line e, 1 <= m <= 12 -> In ym (window y m) -> e_lines E (fst ym) (snd ym) = Some lines -> In line lines ->
  readstr (e_tables E) line new_imma = Some (Err e) -> id_read E line = false -> exists e, run_month E y m = Err e.
Proof.
  intros E y m ym lines line e M I L J B ID. rewrite (window_is y m M) in I. destruct (run_month E y m) as [files|e'] eqn:H; [|eauto]. exfalso. destruct (run_accepts E y m files M H ym lines line I L J) as [o A].
  unfold accept in A. rewrite B, ID in A. discriminate.
Qed.
Print Assumptions C44_unreadable_refuted.
(** So does a usable record without latitude or longitude. *)
Theorem C44_no_position_refuted : forall E y m ym lines line im n, humidity_only (e_hum E) -> 1 <= m <= 12 -> In ym (window y m) -> e_lines E (fst ym) (snd ym) = Some lines -> In line lines ->
  usable (e_tables E) (e_excluded E) (fst ym) (snd ym) line im -> n = "LAT" \/ n = "LON" -> number_field im n None -> exists e, run_month E y m = Err e.
Proof.
  intros E y m ym lines line im n HUM M I L J U N F. rewrite (window_is y m M) in I. destruct (run_month E y m) as [files|e] eqn:H; [|eauto]. exfalso. exact (run_places E HUM y m files M H ym lines line im n I L J U N F).
Qed.
Print Assumptions C44_no_position_refuted.
(** And a window without any usable line. *)
Theorem C44_empty_refuted : forall E y m, humidity_only (e_hum E) -> 1 <= m <= 12 ->
  (forall ym lines line im, In ym (window y m) -> e_lines E (fst ym) (snd ym) = Some lines -> In line lines -> ~ usable (e_tables E) (e_excluded E) (fst ym) (snd ym) line im) ->
  exists e, run_month E y m = Err e.
Proof.
  intros E y m HUM M N. rewrite (window_is y m M) in N. destruct (run_month E y m) as [files|e] eqn:H; [|eauto]. exfalso. destruct (run_some E HUM y m files M H) as [ym [lines [line [im [I [L [J U]]]]]]]. exact (N ym lines line im I L J U).
Qed.
Print Assumptions C44_empty_refuted.

(* ---- a small run ---- *)

Definition grid (n ny nx : Z) (q : Q) : clim := {| cn := n; cny := ny; cnx := nx; cval := fun _ _ _ => Some q |}.
(** Background fields whose temperature tells the day. *)
Definition day_field (o : option (Z * Z * Z)) : res (clim * clim) :=
  match o with Some (y, m, d) => Ok (grid 1 3600 7200 ((27315 # 100) + inject_Z (100 * m + d))%Q, grid 1 3600 7200 0) | None => Err TypeError end.
Definition small (files : Z -> Z -> option (list string)) (tracking : bool) : setup :=
  {| e_tables := imma_tables; e_excluded := ["SHIP9    "]; e_lines := files; e_lib := fun _ _ => Some (grid 73 180 360 10); e_bgvar := fun _ => Ok (grid 73 180 360 1); e_ostia := day_field;
     e_hum := fun r => Ok r; e_elev := sun0; e_base := ex_p; e_sphere := flat; e_prt := fun q => q;
     e_track := {| tk_dir := 60; tk_speed := 10; tk_abs := 40; tk_mid := 150 |}; e_iquam := {| iq_buoy := 15; iq_ship := 60; iq_d := 10; iq_t := 1; iq_n := 5 |};
     e_spike := {| sk_space := 1 # 2; sk_time := 1 # 1; sk_ship := 1; sk_buoy := 1; sk_n := 5 |}; e_sat := (48%Q, 4); e_round := (20, 1 # 2); e_rep := (20, 7 # 10);
     e_xspan := near; e_sqrt := fun q => q; e_gross := fun _ _ _ _ => Some 0%Q; e_sd_old := grid 73 180 360 1; e_sd1 := grid 73 180 360 1; e_sd2 := grid 73 180 360 1; e_sd3 := grid 73 180 360 1;
     e_radius := (1, 1, 2); e_sigma_m := 1; e_noise := 1; e_buddy := (old_limits, old_thresholds, old_multipliers); e_slp_buddy := (old_limits, old_thresholds, old_multipliers);
     e_str_of := fun _ _ => "1.0"; e_runid := "RUN"; e_dir := fun _ _ => "OUT"; e_tracking := tracking |}.
Definition line_a : string := "1987 3151200 4500  2000           SHIP1                               110             100                    165      927    5                                               9815ABC123".
Definition line_b : string := "1987 2151200 4500  2000           SHIP1                               110             100                    165      927    5                                               9815ABC124".
Definition line_c : string := "1987 3161200 4500  2000           SHIP9                               110             100                    165      927    5                                               9815ABC125".
Definition small_files (y m : Z) : option (list string) := if y =? 1987 then if m =? 2 then Some [line_b] else if m =? 3 then Some [line_c; line_a; line_b] else None else None.
Lemma small_hum : forall files t, humidity_only (e_hum (small files t)).
Proof. intros files t r r' H. cbn [small e_hum] in H. apply ok_inj in H. subst r'. repeat split. Qed.
(** The conditions of the theorems hold for a window with lines of two months, one of them in the wrong file and one with an
    identifier that is left out; the output has the one row it should have. *)
Example C44_ex : let E := small small_files false in
  humidity_only (e_hum E) /\ (forall n q, float_text (e_str_of E n q)) /\
  (forall lines line im, e_lines E 1987 3 = Some lines -> In line lines -> usable (e_tables E) (e_excluded E) 1987 3 line im -> plain_record im) /\
  elevation_like (e_elev E) /\ sane (e_base E) /\ (forall c t la lo q, e_lib E "SLP" "stdev" = Some c -> cval c t la lo = Some q -> (0 <= q)%Q) /\
  (exists d, checked_deck E 1987 3 = Ok d /\ map r_uid (d_reps d) = [Some "ABC124"; Some "ABC123"]) /\
  exists files, run_month E 1987 3 = Ok files /\ length files = 7%nat /\
    nth_error files 5 = Some ("OUT/SLP_qc_198703_RUN.csv", ("UID,bud,clim,nonorm,noval,rep" ++ newline_s ++ "ABC123,0,1,0,1,0" ++ newline_s)%string).
Proof.
  cbv zeta. split; [apply small_hum|]. split; [intros n q; split; [discriminate|cbn; unfold white; intuition discriminate]|]. split.
  { intros lines line im L I [R [X [[yv [Y YI]] [mv [MV MI]]]]]. vm_compute in L. injection L as <-. destruct I as [<-|[<-|[<-|[]]]]; vm_compute in R; injection R as <-; vm_compute in X, Y, MV.
    - exfalso. apply (X _ eq_refl). now left.
    - split; [eexists; split; [vm_compute; reflexivity|]|intros i I; vm_compute in I; injection I as <-]; cbn; repeat split; discriminate.
    - exfalso. injection MV as <-. destruct MI as [MI|[q [MI _]]]; discriminate MI. }
  split; [exact (proj1 (proj2 C46_ex))|].
  split; [repeat split; (reflexivity || discriminate)|]. split; [intros c t la lo q L V; vm_compute in L; injection L as <-; vm_compute in V; injection V as <-; discriminate|]. split.
  - eexists. split; [vm_compute; reflexivity|reflexivity].
  - eexists. split; [vm_compute; reflexivity|]. split; reflexivity.
Qed.

(** The fields in memory are not marked with their month: a report of 15 March that comes first after one of 15 February gets the
    background of 14 February. *)
Theorem C44_background_refuted : exists E d r, humidity_only (e_hum E) /\ e_tracking E = true /\ checked_deck E 1987 3 = Ok d /\ In r (d_reps d) /\
  of_month 1987 3 r /\ getint r "DY" = Some 15 /\ (exists sst ice, e_ostia E (Some (1987, 2, 14)) = Ok (sst, ice) /\
    forall la lo, lat r = Some la -> lon r = Some lo -> exists o, get_value_ostia sst la lo = Ok o /\ getvar r "OSTIA" = celsius o) /\
  forall bg, ~ right_background E 1987 3 bg r.
Proof.
  exists (small small_files true). destruct (checked_deck (small small_files true) 1987 3) as [d|] eqn:D; [|vm_compute in D; discriminate D]. exists d.
  assert (Y : exists r, nth_error (d_reps d) 1 = Some r /\ of_month 1987 3 r /\ getint r "DY" = Some 15 /\ lat r = Some (4500 * (1 # 100))%Q /\ lon r = Some (2000 * (1 # 100))%Q /\
    getvar r "OSTIA" = celsius (Some ((27315 # 100) + inject_Z 214)%Q)).
  { vm_compute in D. injection D as <-. eexists. split; [reflexivity|]. split; [split; reflexivity|]. repeat split. }
  destruct Y as [r [N [M [DY [LA [LO O]]]]]]. exists r. split; [apply small_hum|]. split; [reflexivity|]. split; [reflexivity|]. split; [exact (nth_error_In _ _ N)|]. split; [exact M|]. split; [exact DY|]. split.
  - eexists. eexists. split; [reflexivity|]. intros la lo LA' LO'. rewrite LA in LA'. rewrite LO in LO'. injection LA' as <-. injection LO' as <-. eexists. split; [vm_compute; reflexivity|]. rewrite O. vm_compute. reflexivity.
  - intros bg R. destruct (R 15 DY) as [sst [ice [v [la [lo [o [R1 [_ [R3 [R4 [R5 [R6 _]]]]]]]]]]]]. rewrite LA in R3. rewrite LO in R4. injection R3 as <-. injection R4 as <-.
    vm_compute in R1. injection R1 as <- <-. vm_compute in R5. injection R5 as <-. rewrite O in R6. vm_compute in R6. discriminate R6.
Qed.
Print Assumptions C44_background_refuted.

(** With the tables of the program: an unreadable year stops it, an unreadable sea surface temperature leaves the line out. *)
Definition line_x : string := "19X7 3151200 4500  2000           SHIP1                               110             100                    165      927    5                                               9815ABC123".
Definition line_y : string := "1987 3151200 4500  2000           SHIP1                               110             1X0                    165      927    5                                               9815ABC123".
Example C44_unreadable_ex : forall files t, let E := small files t in
  (exists e, readstr (e_tables E) line_x new_imma = Some (Err e)) /\ id_read E line_x = false /\ accept E 1987 3 line_x = Err KeyError /\
  (exists e, readstr (e_tables E) line_y new_imma = Some (Err e)) /\ id_read E line_y = true /\ accept E 1987 3 line_y = Ok None.
Proof. intros files t. cbv zeta. split; [eexists; vm_compute; reflexivity|]. split; [reflexivity|]. split; [reflexivity|]. split; [eexists; vm_compute; reflexivity|]. split; reflexivity. Qed.
(** A usable line without latitude. *)
Definition line_z : string := "1987 3151200       2000           SHIP1                               110             100                    165      927    5                                               9815ABC123".
Example C44_no_position_ex : forall files t, let E := small files t in exists im, usable (e_tables E) (e_excluded E) 1987 3 line_z im /\ number_field im "LAT" None.
Proof.
  intros files t. eexists. split.
  - split; [vm_compute; reflexivity|]. split; [|split].
    + intros s H. vm_compute in H. injection H as <-. intros [H|[]]. discriminate H.
    + eexists. split; [vm_compute; reflexivity|]. now left.
    + eexists. split; [vm_compute; reflexivity|]. now left.
  - right. right. split; [intros [z H]; vm_compute in H; discriminate H|]. split; [intros [q H]; vm_compute in H; discriminate H|reflexivity].
Qed.
