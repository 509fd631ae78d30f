(** C60 the program for sea temperatures of high resolution, C61 the program that prepares the tracking control: what they read,
    which checks they make, what they write. *)
Require Import String Ascii ZArith QArith Qround List Bool Lia Sorted Permutation.
Require Import Verif.M_Base Verif.L_Base Verif.M_Calendar Verif.S_Calendar Verif.P_Calendar Verif.M_Report Verif.S_Report Verif.L_Report Verif.L_Report2 Verif.L_Report3 Verif.M_Imma Verif.S_Imma Verif.L_Imma Verif.M_Grid Verif.M_Voyage Verif.M_Track
  Verif.M_Buddy Verif.S_Sun Verif.M_BaseQC Verif.S_BaseQC Verif.P_BaseQC Verif.M_Files Verif.S_Files Verif.L_Files Verif.M_Print Verif.S_Print Verif.L_Print Verif.P_Print Verif.M_Main Verif.S_Hum Verif.S_Main Verif.S_Main2
  Verif.M_Variants Verif.S_Variants Verif.L_Main Verif.L_Main2 Verif.L_Main3 Verif.L_Main4 Verif.L_Main5 Verif.L_Main6 Verif.L_Main7 Verif.P_Main Verif.P_Main2 Verif.L_Variants Verif.L_Variants2.
Import ListNotations.
Open Scope string_scope.
Open Scope list_scope.
Open Scope Z_scope.

(** The reports made from the usable lines of the file of a month, one from each, in order. *)
Definition plain_file (E : setup) (ym : Z * Z) (reps : list report) : Prop :=
  exists ims, records (usable (e_tables E) (e_excluded E) (fst ym) (snd ym)) (e_lines E (fst ym) (snd ym)) ims /\ Forall2 made_plain ims reps /\
    Forall (of_month (fst ym) (snd ym)) reps.
Lemma vdone_plain : forall E get tab sound y m ym reps, vdone E get tab sound y m ym reps -> plain_file E ym reps.
Proof.
  intros E get tab sound y m ym reps D. pose proof (vdone_month _ _ _ _ _ _ _ _ D) as M. destruct D as [ims [R F]]. exists ims. split; [exact R|]. split; [|exact M].
  clear - F. induction F as [|im r ims reps A F IH]; constructor; [apply (vf_made _ _ _ _ _ _ _ _ _ _ A)|exact IH].
Qed.
Lemma vpart_plain : forall E get base y m ym reps, vpart E get base y m ym reps -> plain_file E ym reps.
Proof.
  intros E get base y m ym reps [ims [R F]]. exists ims. split; [exact R|]. clear R.
  induction F as [|im r ims reps A F [G1 G2]]; [split; constructor|]. split; constructor; auto; [apply (vr_made _ _ _ _ _ _ _ _ _ A)|split; [apply (vr_year _ _ _ _ _ _ _ _ _ A)|apply (vr_month _ _ _ _ _ _ _ _ _ A)]].
Qed.
(** The comparisons of sea temperatures with neighbours: by probability, then by limits. *)
Definition sst_control (E : setup) (fs : qc_filter) : list (list report -> res (list report)) :=
  [bayesian_buddy_check (e_xspan E) (e_sqrt E) (e_gross E (p_sst_anom (e_base E))) "SST" (e_sd1 E) (e_sd2 E) (e_sd3 E) (e_radius E) (e_sigma_m E) (e_noise E) fs;
   mds_buddy_check (e_xspan E) "SST" (e_sd_old E) (fst (fst (e_buddy E))) (snd (fst (e_buddy E))) (snd (e_buddy E)) fs].
Lemma sst_chain : forall E l l', sst_buddies E l = Ok l' -> chain (sst_control E sst_filter) l l'.
Proof. intros E l l' H. unfold sst_buddies in H. step H. unfold sst_control. repeat (eapply chain_step; [eassumption|]). apply chain_end. Qed.
Lemma placed_well : forall id l l' s s', placed (fun r' => r_id r' = id /\ test_report position_filter r' = 0) l l' s s' -> placed (fun r' => r_id r' = id /\ well_placed r') l l' s s'.
Proof.
  intros id l l' s s' P. induction P; [constructor|apply placed_yes; auto; destruct H; split; [auto|now apply position_lets]|apply placed_no; auto; intros [K1 K2]; apply H; split; [auto|now apply position_lets]].
Qed.
Lemma untouched_well : forall l l', Forall2 (fun r r' => test_report position_filter r <> 0 -> r' = r) l l' -> Forall2 (fun r r' => ~ well_placed r -> r' = r) l l'.
Proof. intros l l' S2. induction S2 as [|r r' l l' H F IH]; constructor; [|exact IH]. intro N. apply H. intro T. apply N. now apply position_lets. Qed.
Lemma sst_flags_plain : Forall plain documented_sst_flags.
Proof. repeat (apply Forall_cons; [vm_compute; repeat split; discriminate|]). apply Forall_nil. Qed.
Lemma deck_flags : forall reps l name dir year month, 0 <= month -> reps <> [] -> picked (of_month year month) reps l -> Forall printable l ->
  exists f, deck_write_qc reps name dir year month hires_flags false = Ok [f] /\ sst_flag_file dir year month name l f.
Proof.
  intros reps l name dir year month M N P PR. destruct (flag_body "SST" documented_sst_flags reps year month l N P PR ltac:(discriminate) sst_flags_plain) as [b [rows [B [C F]]]].
  unfold deck_write_qc, hires_flags. cbn [map_r]. change (fun (r : report) (header : bool) => print_qc_block r "SST" ["bud"; "clim"; "nonorm"; "freez"; "noval"; "nbud"; "bbud"; "rep"; "spike"; "hardlimit"] header true)
    with (fun (r : report) (header : bool) => print_qc_block r "SST" documented_sst_flags header true).
  rewrite B. cbn [bind test_name]. eexists. split; [reflexivity|]. exists (str_of_int year), (zero_pad 2 month). split; [apply str_of_int_int_text|]. split; [apply zero_pad_padded; lia|].
  split; [reflexivity|]. exists rows. auto.
Qed.
Lemma voyage_flags_file : forall r0 v l name dir year month id, 0 <= month -> picked (of_month year month) (r0 :: v) l -> Forall printable l -> r_id r0 = Some id ->
  exists f, voyage_write_qc (r0 :: v) name dir year month hires_flags = Ok [f] /\ sst_flag_file dir year month (id ++ "_" ++ name) l f.
Proof.
  intros r0 v l name dir year month id M P PR ID. destruct (flag_body "SST" documented_sst_flags (r0 :: v) year month l ltac:(discriminate) P PR ltac:(discriminate) sst_flags_plain) as [b [rows [B [C F]]]].
  unfold voyage_write_qc, hires_flags. cbn [map_r]. unfold first_id. cbn [first_rep bind]. rewrite ID. cbn [bind].
  change (fun (r : report) (header : bool) => print_qc_block r "SST" ["bud"; "clim"; "nonorm"; "freez"; "noval"; "nbud"; "bbud"; "rep"; "spike"; "hardlimit"] header true)
    with (fun (r : report) (header : bool) => print_qc_block r "SST" documented_sst_flags header true).
  rewrite B. cbn [bind]. eexists. split; [reflexivity|]. exists (str_of_int year), (zero_pad 2 month). split; [apply str_of_int_int_text|]. split; [apply zero_pad_padded; lia|].
  split; [cbn [fst]; rewrite ?app_assoc_s; reflexivity|]. exists rows. auto.
Qed.
(** The reports of a drifter in the voyage: of the month and printable. *)
Lemma drifting_month : forall y m reps lm sub v id, picked (of_month y m) reps lm -> Forall printable lm -> picked (fun r => r_id r = Some id /\ of_month y m r /\ get_qc r "POS" "isdrifter" = 1) reps sub -> frames [] sub v ->
  picked (of_month y m) v v /\ Forall printable v.
Proof.
  intros y m reps lm sub v id PM PR PK FR. rewrite Forall_forall in PR.
  assert (X : Forall (fun r => of_month y m r /\ printable r) sub).
  { apply Forall_forall. intros r I.
    assert (J : In r reps /\ of_month y m r) by (clear - PK I; induction PK as [|x l l' P PK IH|x l l' P PK IH]; [destruct I|destruct I as [->|I]; [split; [now left|apply P]|destruct (IH I); split; [now right|assumption]]|destruct (IH I); split; [now right|assumption]]).
    destruct J as [J O]. split; [exact O|]. apply PR. clear - PM J O. induction PM as [|x l l' P PM IH|x l l' P PM IH]; [destruct J|destruct J as [->|J]; [now left|right; auto]|destruct J as [->|J]; [contradiction|auto]]. }
  assert (Y : Forall (fun r => of_month y m r /\ printable r) v).
  { clear - X FR. induction FR as [|r r' l l' FM F IH]; [constructor|]. inversion X as [|? ? [[O1 O2] [[u [U1 U2]] U3]] X']; subst. constructor; [|now apply IH]. split.
    - split; [rewrite (frame_int _ _ _ _ FM); [exact O1|apply not_motion; reflexivity]|rewrite (frame_int _ _ _ _ FM); [exact O2|apply not_motion; reflexivity]].
    - destruct FM as [Q1 [Q2 _]]. split; [exists u; split; [congruence|exact U2]|]. intros i Z. apply U3. congruence. }
  split; [apply picked_all|]; (eapply Forall_impl; [|exact Y]); intros r [A B]; assumption.
Qed.
Lemma months_by_parts : forall one l files, months_by one l = Ok files -> exists parts, Forall2 (fun ym files => one (fst ym) (snd ym) = Ok files) l parts /\ files = concat parts.
Proof.
  intro one. induction l as [|[y m] l IH]; intros files H; cbn [months_by] in H.
  - apply ok_inj in H. subst. exists []. split; [constructor|reflexivity].
  - do 2 step H. apply ok_inj in H. subst files. destruct (IH _ eq_refl) as [parts [P ->]]. exists (y0 :: parts). split; [constructor; assumption|reflexivity].
Qed.
Lemma run_by_months : forall one y1 m1 y2 m2 fuel out, 1 <= m1 <= 12 -> 1 <= m2 <= 12 -> month_number (y1, m1) <= month_number (y2, m2) ->
  (Z.to_nat (12 * (y2 - y1) + m2 - m1) <= fuel)%nat -> run_by one fuel y1 m1 y2 m2 = Ok out ->
  exists months parts, (forall ym, In ym months <-> ym_ok ym /\ month_number (y1, m1) <= month_number ym <= month_number (y2, m2)) /\
    StronglySorted (fun a b => month_number a < month_number b) months /\
    Forall2 (fun ym files => one (fst ym) (snd ym) = Ok files) months parts /\ out = Some (concat parts).
Proof.
  intros one y1 m1 y2 m2 fuel out M1 M2 L F H. destruct (C05_year_month_gen y1 m1 y2 m2 fuel M1 M2 L F) as [l [G [_ [I S]]]]. unfold run_by in H. rewrite G in H. cbn [bind] in H.
  step H. apply ok_inj in H. subst out. exists l. destruct (months_by_parts _ _ _ X) as [parts [P ->]]. exists parts. auto.
Qed.

(** C60.  The deck of a month holds one report for each usable line of the files of the month before, the month and the month
    after, in this order, and no other. *)
Theorem C60_window : forall E y m d, 1 <= m <= 12 -> hires_deck E y m = Ok d ->
  exists a b c, d_reps d = a ++ b ++ c /\ plain_file E (month_before y m) a /\ plain_file E (y, m) b /\ plain_file E (month_after y m) c.
Proof.
  intros E y m d M H. destruct (vdeck_done E get_value (hires_base E) (sst_coords _ _) (prepare_hires E) (fun _ => Ok None) (hires_ready E) (ship_checks_hires E) hires_keys (hires_checks_frame E) eq_refl (hires_tab E) (fun r => eq_refl) (fun o => eq_refl) (sound_base E) (hires_tab_ok E) y m d M H) as [a [b [c [R [_ [A [B C]]]]]]]. exists a, b, c. split; [exact R|]. rewrite <- before_is, <- after_is by exact M. split; [|split]; eapply vdone_plain; eassumption.
Qed.
Print Assumptions C60_window.
(** C60.  Every report has the normal of sea temperature at its place and date (looked up by position), and no other normal. *)
Theorem C60_climate : forall E y m d r, 1 <= m <= 12 -> hires_deck E y m = Ok d -> In r (d_reps d) ->
  (exists c, e_lib E "SST" "mean" = Some c /\ normal_at get_value c r (getnorm r "SST")) /\ only_sst_normal r.
Proof.
  intros E y m d r M H I. destruct (vdeck_each E get_value (hires_base E) (sst_coords _ _) (prepare_hires E) (fun _ => Ok None) (hires_ready E) (ship_checks_hires E) hires_keys (hires_checks_frame E) eq_refl (hires_tab E) (fun r => eq_refl) (fun o => eq_refl) (sound_base E) (hires_tab_ok E) y m d r M H I) as [y' [m' [im [_ G]]]]. split; [exact (vf_mean _ _ _ _ _ _ _ _ _ _ G)|exact (vf_only _ _ _ _ _ _ _ _ _ _ G)].
Qed.
Print Assumptions C60_climate.
(** C60.  The base flags of every report, after all later checks, are those the report itself demands (C46); which reports are of the month
    is noted as well. *)
Theorem C60_base_flags : forall E y m d r y' m', 1 <= m <= 12 -> hires_deck E y m = Ok d -> In r (d_reps d) ->
  elevation_like (e_elev E) -> sane (e_base E) -> of_month y' m' r -> 1 <= y' ->
  flagged r (base_sst_flags (e_elev E) (e_base E) (view r)) /\
  ((get_qc r "POS" "month_match" = 1 /\ of_month y m r) \/ (get_qc r "POS" "month_match" = 0 /\ ~ of_month y m r)).
Proof.
  intros E y m d r y' m' M H I EL SA OM Y. split; [|exact (vmatch E get_value (hires_base E) (sst_coords _ _) (prepare_hires E) (fun _ => Ok None) (hires_ready E) (ship_checks_hires E) hires_keys (hires_checks_frame E) eq_refl (hires_tab E) (fun r => eq_refl) (fun o => eq_refl) (sound_base E) (hires_tab_ok E) y m d r M H I)].
  destruct (vdeck_each E get_value (hires_base E) (sst_coords _ _) (prepare_hires E) (fun _ => Ok None) (hires_ready E) (ship_checks_hires E) hires_keys (hires_checks_frame E) eq_refl (hires_tab E) (fun r => eq_refl) (fun o => eq_refl) (sound_base E) (hires_tab_ok E) y m d r M H I) as [y2 [m2 [im [M2 G]]]]. destruct (vf_month _ _ _ _ _ _ _ _ _ _ G) as [YR MO]. destruct OM as [YR' _]. apply (vf_base _ _ _ _ _ _ _ _ _ _ G); [split; assumption| |exact M2]. congruence.
Qed.
Print Assumptions C60_base_flags.
(** The checks of a ship, in order, with their parameters. *)
Definition C60_control (E : setup) : list (list report -> res (list report)) :=
  [track_check (e_sphere E) (e_track E); find_repeated_values (e_prt E) (fst (e_rep E)) (snd (e_rep E)) "SST"].
(** C60.  The reports of a ship that are well placed, of all three months, go through the checks of a ship; no other report is touched.
    Then the sea temperatures of the deck are compared with their neighbours; the reports fit for it take part. *)
Theorem C60_checks : forall E y m d, 1 <= m <= 12 -> hires_deck E y m = Ok d ->
  exists a b c after fs, plain_file E (month_before y m) a /\ plain_file E (y, m) b /\ plain_file E (month_after y m) c /\
  (forall r, In r (a ++ b ++ c) -> exists sub v v', placed (fun r' => r_id r' = r_id r /\ well_placed r') (a ++ b ++ c) after sub v' /\
     add_reports (e_sphere E) [] sub = Ok v /\ chain (C60_control E) v v') /\
  Forall2 (fun r r' => ~ well_placed r -> r' = r) (a ++ b ++ c) after /\
  lets_through fs fit_sst /\ chain (sst_control E fs) after (d_reps d) /\
  frames ["POStrk"; "POSfew"; "SSTrep"] (a ++ b ++ c) after /\ frames ["SSTbbud"; "SSTbud"] after (d_reps d).
Proof.
  intros E y m d M H. destruct (vdeck_spec E get_value (hires_base E) (prepare_hires E) (fun _ => Ok None) (hires_ready E) (ship_checks_hires E) hires_keys (hires_checks_frame E) y m d M H) as [a [b [c [after [PA [PB [PC [IX [SH [BU [F1 F2]]]]]]]]]]].
  exists a, b, c, after, sst_filter. rewrite <- before_is, <- after_is by exact M.
  split; [exact (vpart_plain _ _ _ _ _ _ _ PA)|]. split; [exact (vpart_plain _ _ _ _ _ _ _ PB)|]. split; [exact (vpart_plain _ _ _ _ _ _ _ PC)|].
  destruct (ships_placed_by E (ship_checks_hires E) hires_keys (hires_checks_frame E) position_filter _ _ _ IX SH) as [S1 S2]. split; [|split; [exact (untouched_well _ _ S2)|split; [exact sst_lets|split; [exact (sst_chain _ _ _ BU)|split; [exact F1|exact F2]]]]].
  intros r I. destruct (S1 r I) as [sub [v [v' [P [A C]]]]]. exists sub, v, v'. split; [exact (placed_well _ _ _ _ _ P)|]. split; [exact A|].
  unfold ship_checks_hires in C. repeat step C. unfold C60_control. repeat (eapply chain_step; [eassumption|]). apply chain_end.
Qed.
Print Assumptions C60_checks.

(** C60.  The flag file of a month holds exactly one row for each usable line of the month's own file, in order. *)
Theorem C60_month : forall E y m files, 1 <= m <= 12 -> hires_month E y m = Ok files ->
  (forall lines line im, e_lines E y m = Some lines -> In line lines -> usable (e_tables E) (e_excluded E) y m line im -> plain_record im) ->
  exists d reps f more, hires_deck E y m = Ok d /\ plain_file E (y, m) reps /\ picked (of_month y m) (d_reps d) reps /\ files = f :: more /\ sst_flag_file (e_dir E y m) y m ("hires_" ++ e_runid E) reps f /\ (e_tracking E = false -> more = []).
Proof.
  intros E y m files M H PL. unfold hires_month in H. step H. rename y0 into d, X into CD. destruct (vdeck_picked E get_value (hires_base E) (sst_coords _ _) (prepare_hires E) (fun _ => Ok None) (hires_ready E) (ship_checks_hires E) hires_keys (hires_checks_frame E) eq_refl (hires_tab E) (fun r => eq_refl) (fun o => eq_refl) (sound_base E) (hires_tab_ok E) y m d M CD) as [l [D P]].
  assert (N : d_reps d <> []) by (intro Z; rewrite Z in H; cbn in H; discriminate).
  destruct (deck_flags (d_reps d) l ("hires_" ++ e_runid E)%string (e_dir E y m) y m ltac:(lia) N P (vprintable _ _ _ _ _ _ _ _ _ D PL)) as [f [W F]].
  rewrite W in H. cbn [bind] in H. exists d, l, f. destruct (e_tracking E).
  - step H. destruct y0 as [names more]. apply ok_inj in H. eexists. split; [reflexivity|]. split; [exact (vdone_plain _ _ _ _ _ _ _ _ D)|]. split; [exact P|]. split; [symmetry; exact H|]. split; [exact F|]. discriminate.
  - apply ok_inj in H. exists []. split; [reflexivity|]. split; [exact (vdone_plain _ _ _ _ _ _ _ _ D)|]. split; [exact P|]. split; [symmetry; exact H|]. split; [exact F|]. reflexivity.
Qed.
Print Assumptions C60_month.
(** C60.  With tracking: the file of identifiers names every drifter with reports of the month once; the flags of its reports of the month, in
    order, go to a file of its own. *)
Theorem C60_drifters : forall E y m files, 1 <= m <= 12 -> e_tracking E = true -> hires_month E y m = Ok files ->
  (forall lines line im, e_lines E y m = Some lines -> In line lines -> usable (e_tables E) (e_excluded E) y m line im -> plain_record im) ->
  let drifting id r := r_id r = Some id /\ of_month y m r /\ get_qc r "POS" "isdrifter" = 1 in
  exists d f ids lines groups, hires_deck E y m = Ok d /\ files = f :: ((e_dir E y m ++ "/ID_file.txt")%string, String.concat "" lines) :: concat groups /\
    NoDup ids /\ (forall id, In id ids <-> exists r, In r (d_reps d) /\ drifting id r) /\ Forall2 id_line ids lines /\
    Forall2 (fun id group => exists sub v f, picked (drifting id) (d_reps d) sub /\ frames [] sub v /\ group = [f] /\ sst_flag_file (e_dir E y m) y m (id ++ "_hires_" ++ e_runid E) v f) ids groups.
Proof.
  intros E y m files M T H PL drifting. unfold hires_month in H. step H. rename y0 into d, X into CD. destruct (vdeck_picked E get_value (hires_base E) (sst_coords _ _) (prepare_hires E) (fun _ => Ok None) (hires_ready E) (ship_checks_hires E) hires_keys (hires_checks_frame E) eq_refl (hires_tab E) (fun r => eq_refl) (fun o => eq_refl) (sound_base E) (hires_tab_ok E) y m d M CD) as [l [D P]].
  pose proof (vprintable _ _ _ _ _ _ _ _ _ D PL) as PR.
  assert (N : d_reps d <> []) by (intro Z; rewrite Z in H; cbn in H; discriminate).
  destruct (deck_flags (d_reps d) l ("hires_" ++ e_runid E)%string (e_dir E y m) y m ltac:(lia) N P PR) as [f [W _]]. rewrite W in H. cbn [bind] in H. rewrite T in H. step H. destruct y0 as [names more]. apply ok_inj in H.
  destruct (vdeck_done E get_value (hires_base E) (sst_coords _ _) (prepare_hires E) (fun _ => Ok None) (hires_ready E) (ship_checks_hires E) hires_keys (hires_checks_frame E) eq_refl (hires_tab E) (fun r => eq_refl) (fun o => eq_refl) (sound_base E) (hires_tab_ok E) y m d M CD) as [_ [_ [_ [_ [IX _]]]]].
  destruct (drifters_by_spec E (fun v => voyage_write_qc v ("hires_" ++ e_runid E)%string (e_dir E y m) y m hires_flags)
    (fun id v group => exists f, group = [f] /\ sst_flag_file (e_dir E y m) y m (id ++ "_hires_" ++ e_runid E) v f) (d_reps d) drifting) with (oids := d_ids d) (names := names) (files := more) as [ids [groups [A1 [A2 [A3 [A4 A5]]]]]]; [| |exact IX|exact X|].
  - intros id r I. unfold drifting. rewrite drifter_lets. destruct (vmatch E get_value (hires_base E) (sst_coords _ _) (prepare_hires E) (fun _ => Ok None) (hires_ready E) (ship_checks_hires E) hires_keys (hires_checks_frame E) eq_refl (hires_tab E) (fun r => eq_refl) (fun o => eq_refl) (sound_base E) (hires_tab_ok E) y m d r M CD I) as [[A B]|[A B]]; rewrite A; split; intros K; intuition congruence.
  - intros id sub r0 v fs PK FR ID WV. destruct (drifting_month y m (d_reps d) l sub (r0 :: v) id P PR PK FR) as [B1 B2].
    destruct (voyage_flags_file r0 v (r0 :: v) ("hires_" ++ e_runid E)%string (e_dir E y m) y m id ltac:(lia) B1 B2 ID) as [g [G1 G2]]. exists g. split; [congruence|exact G2].
  - exists d, f, ids, names, groups. split; [reflexivity|]. split; [rewrite <- H, A1; reflexivity|]. split; [exact A2|]. split; [exact A3|]. split; [exact A4|].
    clear - A5. induction A5 as [|id g ids groups [sub [v [B1 [B2 [f [B3 B4]]]]]] F IH]; constructor; [exists sub, v, f; auto|exact IH].
Qed.
Print Assumptions C60_drifters.
(** C60.  A run deals with every month from the first to the last, each once, in order of time. *)
Theorem C60_run : forall E y1 m1 y2 m2 fuel out, 1 <= m1 <= 12 -> 1 <= m2 <= 12 -> month_number (y1, m1) <= month_number (y2, m2) ->
  (Z.to_nat (12 * (y2 - y1) + m2 - m1) <= fuel)%nat -> run_by (hires_month E) fuel y1 m1 y2 m2 = Ok out ->
  exists months parts, (forall ym, In ym months <-> ym_ok ym /\ month_number (y1, m1) <= month_number ym <= month_number (y2, m2)) /\
    StronglySorted (fun a b => month_number a < month_number b) months /\
    Forall2 (fun ym files => hires_month E (fst ym) (snd ym) = Ok files) months parts /\ out = Some (concat parts).
Proof. intro E. exact (run_by_months (hires_month E)). Qed.
Print Assumptions C60_run.
(** Finding: one blank line in any of the three files stops the program. *)
Theorem C60_blank_line_refuted : forall E y m ym lines line, 1 <= m <= 12 -> In ym (window y m) -> e_lines E (fst ym) (snd ym) = Some lines -> In line lines ->
  line = "" \/ line = newline_s -> exists e, hires_month E y m = Err e.
Proof.
  intros E y m ym lines line M I L J B. rewrite (window_is y m M) in I. destruct (hires_month E y m) as [files|e] eqn:H; [|eauto]. exfalso. unfold hires_month in H. step H.
  destruct (deck_accepts E (prepare_hires E) (fun _ => Ok None) (ship_checks_hires E) y m _ M X ym lines line I L J) as [o A].
  assert (K : accept E (fst ym) (snd ym) line = Err KeyError) by (destruct B as [-> | ->]; reflexivity). congruence.
Qed.
Print Assumptions C60_blank_line_refuted.
(** Finding: the column of the spike check is written, but the check is never made: the flag of every report is 9, not set. *)
Theorem C60_spike_refuted : forall E y m d r, 1 <= m <= 12 -> hires_deck E y m = Ok d -> In r (d_reps d) -> get_qc r "SST" "spike" = 9.
Proof.
  intros E y m d r M H I. destruct (vdeck_spec E get_value (hires_base E) (prepare_hires E) (fun _ => Ok None) (hires_ready E) (ship_checks_hires E) hires_keys (hires_checks_frame E) y m d M H) as [a [b [c [after [PA [PB [PC [_ [_ [_ [F1 F2]]]]]]]]]]].
  assert (V : forall r', In r' (a ++ b ++ c) -> get_qc r' "SST" "spike" = 9).
  { assert (W : forall ym l r', vpart E get_value (hires_base E) y m ym l -> In r' l -> get_qc r' "SST" "spike" = 9).
    { intros ym l r' [ims [_ F]] J. assert (G : exists im, vready E get_value (hires_base E) y m (fst ym) (snd ym) im r') by (clear - F J; induction F as [|im x ims l A F IH]; [destruct J|]; destruct J as [->|J]; eauto).
      destruct G as [im G]. destruct (vr_base _ _ _ _ _ _ _ _ _ G) as [r0 [r1 [_ [Q [_ [_ [_ [B S]]]]]]]]. destruct (set_qc_frame _ _ _ _ _ S) as [_ [_ [_ [_ [_ [_ K]]]]]]. rewrite K by (cbn; intuition discriminate).
      destruct (sst_base_frame _ _ _ _ B) as [r2 [X [_ [_ [_ [_ [_ [_ K2]]]]]]]]. rewrite K2 by (intro Z; apply mem_In in Z; discriminate Z).
      assert (Q2 : r_qc r2 = []) by (destruct (fix_shape _ _ X) as [->|[_ [_ [_ [r3 [dd [S3 ->]]]]]]]; [exact Q|]; cbn; apply setvar_shape in S3; destruct S3 as [_ [_ [S3 _]]]; congruence).
      unfold get_qc. rewrite Q2. reflexivity. }
    intros r' J. rewrite !in_app_iff in J. destruct J as [J|[J|J]]; eauto. }
  assert (U : forall K l l', frames K l l' -> ~ In "SSTspike" K -> (forall r', In r' l -> get_qc r' "SST" "spike" = 9) -> forall r', In r' l' -> get_qc r' "SST" "spike" = 9).
  { clear. intros K l l' F N. induction F as [|x x' l l' A F IH]; intros V r' J; [destruct J|]. destruct J as [<-|J]; [|apply IH; auto; intros; apply V; now right].
    destruct A as [_ [_ [_ [_ [_ [_ A]]]]]]. rewrite A by exact N. apply V. now left. }
  apply (U _ _ _ F2); [cbn; intuition discriminate| |exact I]. apply (U _ _ _ F1); [cbn; intuition discriminate|exact V].
Qed.
Print Assumptions C60_spike_refuted.

(** C61.  The deck of a month holds one report for each usable line of the files of the month before, the month and the month
    after, in this order, and no other. *)
Theorem C61_window : forall E y m d, 1 <= m <= 12 -> track_deck E y m = Ok d ->
  exists a b c, d_reps d = a ++ b ++ c /\ plain_file E (month_before y m) a /\ plain_file E (y, m) b /\ plain_file E (month_after y m) c.
Proof.
  intros E y m d M H. destruct (vdeck_done E get_value_mds_style (track_base E) (base_coords _ _) (prepare_track E) (load_track E) (track_ready E) (ship_checks_track E) track_keys (track_checks_frame E) eq_refl (track_tab E) (fun r => eq_refl) (fun o => eq_refl) (sound_base E) (track_tab_ok E) y m d M H) as [a [b [c [R [_ [A [B C]]]]]]]. exists a, b, c. split; [exact R|]. rewrite <- before_is, <- after_is by exact M. split; [|split]; eapply vdone_plain; eassumption.
Qed.
Print Assumptions C61_window.
(** C61.  Every report has the normal of sea temperature at its place and date (looked up by one degree boxes), and no other normal. *)
Theorem C61_climate : forall E y m d r, 1 <= m <= 12 -> track_deck E y m = Ok d -> In r (d_reps d) ->
  (exists c, e_lib E "SST" "mean" = Some c /\ normal_at get_value_mds_style c r (getnorm r "SST")) /\ only_sst_normal r.
Proof.
  intros E y m d r M H I. destruct (vdeck_each E get_value_mds_style (track_base E) (base_coords _ _) (prepare_track E) (load_track E) (track_ready E) (ship_checks_track E) track_keys (track_checks_frame E) eq_refl (track_tab E) (fun r => eq_refl) (fun o => eq_refl) (sound_base E) (track_tab_ok E) y m d r M H I) as [y' [m' [im [_ G]]]]. split; [exact (vf_mean _ _ _ _ _ _ _ _ _ _ G)|exact (vf_only _ _ _ _ _ _ _ _ _ _ G)].
Qed.
Print Assumptions C61_climate.
(** C61.  The base flags of every report, after all later checks, are those the report itself demands (C46); which reports are of the month
    is noted as well. *)
Theorem C61_base_flags : forall E y m d r y' m', 1 <= m <= 12 -> track_deck E y m = Ok d -> In r (d_reps d) ->
  elevation_like (e_elev E) -> sane (e_base E) -> of_month y' m' r -> 1 <= y' ->
  flagged r (base_flags (e_elev E) (e_base E) (view r)) /\
  ((get_qc r "POS" "month_match" = 1 /\ of_month y m r) \/ (get_qc r "POS" "month_match" = 0 /\ ~ of_month y m r)).
Proof.
  intros E y m d r y' m' M H I EL SA OM Y. split; [|exact (vmatch E get_value_mds_style (track_base E) (base_coords _ _) (prepare_track E) (load_track E) (track_ready E) (ship_checks_track E) track_keys (track_checks_frame E) eq_refl (track_tab E) (fun r => eq_refl) (fun o => eq_refl) (sound_base E) (track_tab_ok E) y m d r M H I)].
  destruct (vdeck_each E get_value_mds_style (track_base E) (base_coords _ _) (prepare_track E) (load_track E) (track_ready E) (ship_checks_track E) track_keys (track_checks_frame E) eq_refl (track_tab E) (fun r => eq_refl) (fun o => eq_refl) (sound_base E) (track_tab_ok E) y m d r M H I) as [y2 [m2 [im [M2 G]]]]. destruct (vf_month _ _ _ _ _ _ _ _ _ _ G) as [YR MO]. destruct OM as [YR' _]. apply (vf_base _ _ _ _ _ _ _ _ _ _ G); [split; assumption| |exact M2]. congruence.
Qed.
Print Assumptions C61_base_flags.
(** The checks of a ship, in order, with their parameters. *)
Definition C61_control (E : setup) : list (list report -> res (list report)) :=
  [track_check (e_sphere E) (e_track E); iquam_track_check (e_sphere E) (e_iquam E); spike_check (e_sphere E) (e_spike E) "SST";
   find_saturated_runs (e_sphere E) (fst (e_sat E)) (snd (e_sat E)); find_multiple_rounded_values (e_prt E) (fst (e_round E)) (snd (e_round E)) "DPT";
   find_repeated_values (e_prt E) (fst (e_rep E)) (snd (e_rep E)) "SST"].
(** C61.  The reports of a ship that are well placed, of all three months, go through the checks of a ship; no other report is touched.
    Then the sea temperatures of the deck are compared with their neighbours; the reports fit for it take part. *)
Theorem C61_checks : forall E y m d, 1 <= m <= 12 -> track_deck E y m = Ok d ->
  exists a b c after fs, plain_file E (month_before y m) a /\ plain_file E (y, m) b /\ plain_file E (month_after y m) c /\
  (forall r, In r (a ++ b ++ c) -> exists sub v v', placed (fun r' => r_id r' = r_id r /\ well_placed r') (a ++ b ++ c) after sub v' /\
     add_reports (e_sphere E) [] sub = Ok v /\ chain (C61_control E) v v') /\
  Forall2 (fun r r' => ~ well_placed r -> r' = r) (a ++ b ++ c) after /\
  lets_through fs fit_sst /\ chain (sst_control E fs) after (d_reps d) /\
  frames ["POStrk"; "POSfew"; "POSiquam_track"; "SSTspike"; "DPTrepsat"; "DPTround"; "SSTrep"] (a ++ b ++ c) after /\ frames ["SSTbbud"; "SSTbud"] after (d_reps d).
Proof.
  intros E y m d M H. destruct (vdeck_spec E get_value_mds_style (track_base E) (prepare_track E) (load_track E) (track_ready E) (ship_checks_track E) track_keys (track_checks_frame E) y m d M H) as [a [b [c [after [PA [PB [PC [IX [SH [BU [F1 F2]]]]]]]]]]].
  exists a, b, c, after, sst_filter. rewrite <- before_is, <- after_is by exact M.
  split; [exact (vpart_plain _ _ _ _ _ _ _ PA)|]. split; [exact (vpart_plain _ _ _ _ _ _ _ PB)|]. split; [exact (vpart_plain _ _ _ _ _ _ _ PC)|].
  destruct (ships_placed_by E (ship_checks_track E) track_keys (track_checks_frame E) position_filter _ _ _ IX SH) as [S1 S2]. split; [|split; [exact (untouched_well _ _ S2)|split; [exact sst_lets|split; [exact (sst_chain _ _ _ BU)|split; [exact F1|exact F2]]]]].
  intros r I. destruct (S1 r I) as [sub [v [v' [P [A C]]]]]. exists sub, v, v'. split; [exact (placed_well _ _ _ _ _ P)|]. split; [exact A|].
  unfold ship_checks_track in C. repeat step C. unfold C61_control. repeat (eapply chain_step; [eassumption|]). apply chain_end.
Qed.
Print Assumptions C61_checks.

(** C61.  Within a file, every report with a day gets the background of the day before it, and the variance of its month, if the
    fields still in memory from an earlier file, if any, are not those noted for the same day number of another month. *)
Theorem C61_background : forall E year month y m bg lines st d st' d', e_tracking E = true -> 1985 <= y -> current E y m st ->
  read_lines_by E (prepare_track E year month) y m bg lines st d = Ok (st', d') ->
  exists ims reps, read_off (usable (e_tables E) (e_excluded E) y m) lines ims /\
    Forall2 (fun im r => made_plain im r /\ right_background E y m bg r) ims reps /\ d_reps d' = d_reps d ++ reps.
Proof. intros E year month y m bg lines st d st' d' T Y C H. exact (proj2 (track_back E _ _ _ _ _ _ _ _ _ _ T Y C H)). Qed.
Print Assumptions C61_background.
(** C61.  With tracking the program writes the file of identifiers, which names every drifter with reports of the month once, and for each
    of them its reports of the month, in order, in files of its own.  Nothing else is written. *)
Theorem C61_drifters : forall E y m files, (forall n q, float_text (e_str_of E n q)) -> 1 <= m <= 12 -> e_tracking E = true -> track_month E y m = Ok files ->
  (forall lines line im, e_lines E y m = Some lines -> In line lines -> usable (e_tables E) (e_excluded E) y m line im -> plain_record im) ->
  let drifting id r := r_id r = Some id /\ of_month y m r /\ get_qc r "POS" "isdrifter" = 1 in
  exists d ids lines groups, track_deck E y m = Ok d /\ files = ((e_dir E y m ++ "/ID_file.txt")%string, String.concat "" lines) :: concat groups /\
    NoDup ids /\ (forall id, In id ids <-> exists r, In r (d_reps d) /\ drifting id r) /\ Forall2 id_line ids lines /\
    Forall2 (fun id group => exists sub v, picked (drifting id) (d_reps d) sub /\ frames [] sub v /\ drifter_files (e_str_of E) (e_runid E) (e_dir E y m) y m id v group) ids groups.
Proof.
  intros E y m files STR M T H PL drifting. unfold track_month in H. step H. rename y0 into d, X into CD. destruct (vdeck_picked E get_value_mds_style (track_base E) (base_coords _ _) (prepare_track E) (load_track E) (track_ready E) (ship_checks_track E) track_keys (track_checks_frame E) eq_refl (track_tab E) (fun r => eq_refl) (fun o => eq_refl) (sound_base E) (track_tab_ok E) y m d M CD) as [l [D P]].
  pose proof (vprintable _ _ _ _ _ _ _ _ _ D PL) as PR. rewrite T in H. step H. destruct y0 as [names more]. apply ok_inj in H.
  destruct (vdeck_done E get_value_mds_style (track_base E) (base_coords _ _) (prepare_track E) (load_track E) (track_ready E) (ship_checks_track E) track_keys (track_checks_frame E) eq_refl (track_tab E) (fun r => eq_refl) (fun o => eq_refl) (sound_base E) (track_tab_ok E) y m d M CD) as [_ [_ [_ [_ [IX _]]]]].
  destruct (drifters_by_spec E (fun v => voyage_write_output (e_str_of E) v (e_runid E) (e_dir E y m) y m)
    (fun id v group => drifter_files (e_str_of E) (e_runid E) (e_dir E y m) y m id v group) (d_reps d) drifting) with (oids := d_ids d) (names := names) (files := more) as [ids [groups [A1 [A2 [A3 [A4 A5]]]]]]; [| |exact IX|exact X|].
  - intros id r I. unfold drifting. rewrite drifter_lets. destruct (vmatch E get_value_mds_style (track_base E) (base_coords _ _) (prepare_track E) (load_track E) (track_ready E) (ship_checks_track E) track_keys (track_checks_frame E) eq_refl (track_tab E) (fun r => eq_refl) (fun o => eq_refl) (sound_base E) (track_tab_ok E) y m d r M CD I) as [[A B]|[A B]]; rewrite A; split; intros K; intuition congruence.
  - intros id sub r0 v fs PK FR ID W. destruct (drifting_month y m (d_reps d) l sub (r0 :: v) id P PR PK FR) as [B1 B2].
    destruct (C49_voyage_output (e_str_of E) STR r0 v (r0 :: v) (e_runid E) (e_dir E y m) y m id ltac:(lia) B1 B2 ID) as [ys [ms [content [fs' [safe [YS [MS [SF [W' [VF FF]]]]]]]]]].
    rewrite W in W'. apply ok_inj in W'. subst fs. exists ys, ms, content, safe, fs'. split; [exact YS|]. split; [exact MS|]. split; [exact SF|]. split; [reflexivity|]. split; [exact VF|exact FF].
  - exists d, ids, names, groups. split; [reflexivity|]. split; [rewrite <- H, A1; reflexivity|]. split; [exact A2|]. split; [exact A3|]. split; [exact A4|exact A5].
Qed.
Print Assumptions C61_drifters.
(** C61.  A run deals with every month from the first to the last, each once, in order of time. *)
Theorem C61_run : forall E y1 m1 y2 m2 fuel out, 1 <= m1 <= 12 -> 1 <= m2 <= 12 -> month_number (y1, m1) <= month_number (y2, m2) ->
  (Z.to_nat (12 * (y2 - y1) + m2 - m1) <= fuel)%nat -> run_by (track_month E) fuel y1 m1 y2 m2 = Ok out ->
  exists months parts, (forall ym, In ym months <-> ym_ok ym /\ month_number (y1, m1) <= month_number ym <= month_number (y2, m2)) /\
    StronglySorted (fun a b => month_number a < month_number b) months /\
    Forall2 (fun ym files => track_month E (fst ym) (snd ym) = Ok files) months parts /\ out = Some (concat parts).
Proof. intro E. exact (run_by_months (track_month E)). Qed.
Print Assumptions C61_run.
(** Finding: without the option for tracking the program does all its work and writes nothing. *)
Theorem C61_no_output_refuted : forall E y1 m1 y2 m2 fuel out, e_tracking E = false -> run_by (track_month E) fuel y1 m1 y2 m2 = Ok (Some out) -> out = [].
Proof.
  intros E y1 m1 y2 m2 fuel out T H. unfold run_by in H. step H. destruct y as [l|]; [|discriminate]. step H. apply ok_inj in H. injection H as <-.
  clear X. revert y X0. induction l as [|[y' m'] l IH]; intros out H; cbn [months_by] in H; [apply ok_inj in H; congruence|]. step H. step H. apply ok_inj in H. subst out. rewrite (IH _ eq_refl).
  unfold track_month in X. step X. rewrite T in X. apply ok_inj in X. subst. reflexivity.
Qed.
Print Assumptions C61_no_output_refuted.
(** Finding: one blank line in any of the three files stops the program. *)
Theorem C61_blank_line_refuted : forall E y m ym lines line, 1 <= m <= 12 -> In ym (window y m) -> e_lines E (fst ym) (snd ym) = Some lines -> In line lines ->
  line = "" \/ line = newline_s -> exists e, track_month E y m = Err e.
Proof.
  intros E y m ym lines line M I L J B. rewrite (window_is y m M) in I. destruct (track_month E y m) as [files|e] eqn:H; [|eauto]. exfalso. unfold track_month in H. step H.
  destruct (deck_accepts E (prepare_track E) (load_track E) (ship_checks_track E) y m _ M X ym lines line I L J) as [o A].
  assert (K : accept E (fst ym) (snd ym) line = Err KeyError) by (destruct B as [-> | ->]; reflexivity). congruence.
Qed.
Print Assumptions C61_blank_line_refuted.

(* ---- a window without any file ---- *)

(** C61.  A month without any file is no obstacle: the file of identifiers is empty. *)
Theorem C61_empty : forall E y m bg, 1 <= m <= 12 -> e_tracking E = true -> (forall ym, In ym (window y m) -> e_lines E (fst ym) (snd ym) = None /\ e_bgvar E (snd ym) = Ok bg) ->
  track_month E y m = Ok [((e_dir E y m ++ "/ID_file.txt")%string, ""%string)].
Proof.
  intros E y m bg M T N. assert (NB := N (month_before y m) ltac:(cbn; tauto)). assert (NM := N (y, m) ltac:(cbn; tauto)). assert (NA := N (month_after y m) ltac:(cbn; tauto)). clear N.
  rewrite <- before_is in NB. rewrite <- after_is in NA by exact M. unfold track_month, track_deck, deck_by. rewrite (window_spec y m M). destruct (last_month_was y m) as [y1 m1], (next_month_is y m) as [y2 m2]. cbn [fst snd] in *.
  destruct NB as [B1 B2], NM as [M1 M2], NA as [A1 A2]. cbn [bind read_window_by]. unfold load_track. rewrite T, B2. cbn [bind]. rewrite B1, M2. cbn [bind]. rewrite M1, A2. cbn [bind]. rewrite A1. cbn. reflexivity.
Qed.
Print Assumptions C61_empty.
(** Finding: the program of high resolution stops in the same case. *)
Theorem C60_empty_refuted : forall E y m, 1 <= m <= 12 -> (forall ym, In ym (window y m) -> e_lines E (fst ym) (snd ym) = None) -> hires_month E y m = Err IndexError.
Proof.
  intros E y m M N. assert (NB := N (month_before y m) ltac:(cbn; tauto)). assert (NM := N (y, m) ltac:(cbn; tauto)). assert (NA := N (month_after y m) ltac:(cbn; tauto)). clear N.
  rewrite <- before_is in NB. rewrite <- after_is in NA by exact M. unfold hires_month, hires_deck, deck_by. rewrite (window_spec y m M). destruct (last_month_was y m) as [y1 m1], (next_month_is y m) as [y2 m2]. cbn [fst snd] in *.
  cbn [bind read_window_by]. rewrite NB, NM, NA. cbn. reflexivity.
Qed.
Print Assumptions C60_empty_refuted.

(* ---- small runs ---- *)

(** The conditions of the theorems hold for a window with a drifter and a ship. *)
Example C60_ex : let E := small buoy_files true in
  (forall lines line im, e_lines E 1987 3 = Some lines -> In line lines -> usable (e_tables E) (e_excluded E) 1987 3 line im -> plain_record im) /\
  elevation_like (e_elev E) /\ sane (e_base E) /\ e_tracking E = true /\
  (exists d r, hires_deck E 1987 3 = Ok d /\ In r (d_reps d)) /\
  exists files, hires_month E 1987 3 = Ok files /\ map fst files = ["OUT/SST_qc_198703_hires_RUN.csv"; "OUT/ID_file.txt"; "OUT/SST_qc_198703_7654321  _hires_RUN.csv"] /\
    nth_error (map snd files) 1 = Some ("7654321  ,7654321  " ++ newline_s)%string.
Proof.
  cbv zeta. destruct C44_drifters_ex as [_ [_ [T [PL _]]]]. destruct C44_ex as [_ [_ [_ [EL [SA _]]]]]. split; [exact PL|]. split; [exact EL|]. split; [exact SA|]. split; [exact T|]. split.
  - destruct (hires_deck (small buoy_files true) 1987 3) as [d|] eqn:D; [|vm_compute in D; discriminate D]. vm_compute in D. injection D as <-. do 2 eexists. split; [reflexivity|]. now left.
  - destruct (hires_month (small buoy_files true) 1987 3) as [fs|] eqn:D; [|vm_compute in D; discriminate D]. exists fs. split; [reflexivity|]. vm_compute in D. injection D as <-. split; reflexivity.
Qed.
Example C61_ex : let E := small buoy_files true in
  (forall n q, float_text (e_str_of E n q)) /\
  (exists d r, track_deck E 1987 3 = Ok d /\ In r (d_reps d)) /\ current E 1987 3 (-99, None) /\
  (exists files, track_month E 1987 3 = Ok files /\ map fst files = ["OUT/ID_file.txt"; "OUT/Variables_198703_7654321  _RUN.csv"; "OUT/POS_qc_198703_7654321  _RUN.csv"; "OUT/SST_qc_198703_7654321  _RUN.csv"]) /\
  exists bg st d, read_lines_by E (prepare_track E 1987 3) 1987 3 (Some bg) [buoy_a; line_a] (-99, None) new_deck = Ok (st, d) /\ length (d_reps d) = 2%nat.
Proof.
  cbv zeta. destruct C44_drifters_ex as [_ [STR _]]. split; [exact STR|]. split; [|split; [exact I|split]].
  - destruct (track_deck (small buoy_files true) 1987 3) as [d|] eqn:D; [|vm_compute in D; discriminate D]. vm_compute in D. injection D as <-. do 2 eexists. split; [reflexivity|]. now left.
  - destruct (track_month (small buoy_files true) 1987 3) as [fs|] eqn:D; [|vm_compute in D; discriminate D]. exists fs. split; [reflexivity|]. vm_compute in D. injection D as <-. reflexivity.
  - exists (grid 73 180 360 1). destruct (read_lines_by (small buoy_files true) (prepare_track (small buoy_files true) 1987 3) 1987 3 (Some (grid 73 180 360 1)) [buoy_a; line_a] (-99, None) new_deck) as [[st d]|] eqn:D; [|vm_compute in D; discriminate D].
    exists st, d. split; [reflexivity|]. vm_compute in D. injection D as _ <-. reflexivity.
Qed.
