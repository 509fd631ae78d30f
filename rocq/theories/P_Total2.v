(** C68 the two other programs come to an end. *)
Require Import String Ascii ZArith QArith Qround List Bool Lia Lqa Sorted.
Require Import Verif.M_Base Verif.L_Base Verif.M_Calendar Verif.S_Calendar Verif.P_Calendar Verif.M_Report Verif.M_Imma Verif.M_ImmaTables Verif.S_Imma Verif.M_Grid Verif.S_Clim Verif.M_Main Verif.S_Main Verif.S_Main2
  Verif.L_Main Verif.L_Main2 Verif.L_Main3 Verif.L_Main4 Verif.P_Main Verif.P_Main2 Verif.M_Variants Verif.S_Variants Verif.L_Variants Verif.L_Variants2 Verif.P_Variants
  Verif.S_Total Verif.L_Total Verif.L_Total5 Verif.P_Total Verif.S_Total2 Verif.L_Total6 Verif.L_Total7.
Import ListNotations.
Open Scope string_scope.
Open Scope list_scope.
Open Scope Z_scope.

(** C68.  The high resolution program: with complete surroundings and files in order the checks of a month come to an end without an
    exception, *)
Theorem C68_hires_checked : forall E year month, hires_equipped E -> readable E year month -> exists d, hires_deck E year month = Ok d.
Proof. intros E year month HQ RB. now apply hires_deck_total. Qed.
Print Assumptions C68_hires_checked.
(** the files of a month are written if there is a usable record and those of the month can be printed, *)
Theorem C68_hires_month : forall E year month, hires_equipped E -> readable E year month -> some_record E year month -> month_plain E year month -> exists files, hires_month E year month = Ok files.
Proof. intros E year month HQ RB SR MP. now apply hires_month_total. Qed.
Print Assumptions C68_hires_month.
(** and so is a run over such months. *)
Theorem C68_hires_run : forall E y1 m1 y2 m2, hires_equipped E -> 1 <= m1 <= 12 -> 1 <= m2 <= 12 -> month_number (y1, m1) <= month_number (y2, m2) ->
  (forall y m, 1 <= m <= 12 -> month_number (y1, m1) <= month_number (y, m) <= month_number (y2, m2) -> readable E y m /\ some_record E y m /\ month_plain E y m) ->
  exists n files, forall fuel, (n <= fuel)%nat -> run_by (hires_month E) fuel y1 m1 y2 m2 = Ok (Some files).
Proof.
  intros E y1 m1 y2 m2 HQ. apply (run_by_total (hires_month E) (fun y m => readable E y m /\ some_record E y m /\ month_plain E y m)). intros y m [RB [SR MP]]. now apply hires_month_total.
Qed.
Print Assumptions C68_hires_run.
(** The tracking-only program: the same, and a window without any record does no harm. *)
Theorem C68_track_checked : forall E year month, track_equipped E -> readable E year month -> exists d, track_deck E year month = Ok d.
Proof. intros E year month TQ RB. now apply track_deck_total. Qed.
Print Assumptions C68_track_checked.
Theorem C68_track_month : forall E year month, track_equipped E -> readable E year month -> (e_tracking E = true -> month_plain E year month) -> exists files, track_month E year month = Ok files.
Proof. intros E year month TQ RB MP. now apply track_month_total. Qed.
Print Assumptions C68_track_month.
Theorem C68_track_run : forall E y1 m1 y2 m2, track_equipped E -> 1 <= m1 <= 12 -> 1 <= m2 <= 12 -> month_number (y1, m1) <= month_number (y2, m2) ->
  (forall y m, 1 <= m <= 12 -> month_number (y1, m1) <= month_number (y, m) <= month_number (y2, m2) -> readable E y m /\ (e_tracking E = true -> month_plain E y m)) ->
  exists n files, forall fuel, (n <= fuel)%nat -> run_by (track_month E) fuel y1 m1 y2 m2 = Ok (Some files).
Proof.
  intros E y1 m1 y2 m2 TQ. apply (run_by_total (track_month E) (fun y m => readable E y m /\ (e_tracking E = true -> month_plain E y m))). intros y m [RB MP]. now apply track_month_total.
Qed.
Print Assumptions C68_track_run.

(** Surroundings that are complete for the main program are complete for both; files in order for it are in order for both. *)
Lemma equipped_sst : forall E, equipped E -> sst_equipped E.
Proof.
  intros E Q. constructor; try apply Q. intros a mean sd A B. apply (eq_gross E Q); [apply Q|exact A|exact B].
Qed.
Theorem C68_surroundings : forall E, equipped E -> hires_equipped E /\ track_equipped E.
Proof.
  intros E Q. pose proof (equipped_sst E Q) as S1. destruct (eq_mds E Q "SST" ltac:(cbn; tauto)) as [c [L W]]. split.
  - constructor; [exact S1|]. exists c. split; [exact L|apply W].
  - constructor; [exact S1|exists c; auto|..]; try apply Q.
Qed.
Print Assumptions C68_surroundings.
Theorem C68_files : forall E y m, in_order E y m -> readable E y m /\ some_record E y m /\ month_plain E y m.
Proof.
  intros E y m IO. split; [|split].
  - constructor; try apply IO. intros y' m' lines line im I L J U. destruct (io_records _ _ _ IO y' m' lines line im I L J U) as [[A B C D _] [T _]]. split; [constructor; assumption|exact T].
  - apply IO.
  - intros lines line im L J U. destruct (io_records _ _ _ IO y m lines line im ltac:(right; now left) L J U) as [_ [_ P]]. now apply P.
Qed.
Print Assumptions C68_files.
(** The conditions hold for a month with a ship, a drifter and a line to be left out; both programs write their files. *)
Example C68_ex : let E := small mixed_files true in hires_equipped E /\ track_equipped E /\ readable E 1987 3 /\ some_record E 1987 3 /\ month_plain E 1987 3 /\
  (exists files, hires_month E 1987 3 = Ok files /\ length files = 3%nat) /\ exists files, track_month E 1987 3 = Ok files /\ length files = 4%nat.
Proof.
  destruct C63_ex as [Q [IO _]]. cbv zeta in *. destruct (C68_surroundings _ Q) as [A B]. destruct (C68_files _ _ _ IO) as [C [D F]].
  split; [exact A|]. split; [exact B|]. split; [exact C|]. split; [exact D|]. split; [exact F|]. split; (eexists; split; [vm_compute; reflexivity|reflexivity]).
Qed.

(** Finding: as in the main program, one usable line of a valid day with an hour of 24 or more stops both programs before the time check
    that should flag it. *)
Theorem C68_hour_refuted : forall E y m ry rm lines line im d h, 1 <= m <= 12 -> In (ry, rm) (window y m) -> e_lines E ry rm = Some lines -> In line lines ->
  usable (e_tables E) (e_excluded E) ry rm line im -> number_field im "DY" (Some (inject_Z d)) -> valid (on ry rm d) -> number_field im "HR" (Some h) -> (24 <= h)%Q ->
  (exists e, hires_month E y m = Err e) /\ exists e, track_month E y m = Err e.
Proof.
  intros E y m ry rm lines line im d h M I L J U D V H G.
  assert (N : forall r, report_of im <> Ok r) by (eapply bad_hour; try eassumption; now left). split.
  - destruct (deck_by_stops E (prepare_hires E y m) (fun _ => Ok None) (ship_checks_hires E)) with (year := y) (month := m) (y := ry) (m := rm) (lines := lines) (line := line) (im := im) as [e K]; try assumption.
    { intros y' m' st bg im' x P. unfold prepare_hires in P. destruct (report_of im') as [r|e]; [eauto|discriminate]. }
    exists e. unfold hires_month, hires_deck. rewrite K. reflexivity.
  - destruct (deck_by_stops E (prepare_track E y m) (load_track E) (ship_checks_track E)) with (year := y) (month := m) (y := ry) (m := rm) (lines := lines) (line := line) (im := im) as [e K]; try assumption.
    { intros y' m' st bg im' x P. unfold prepare_track in P. destruct (report_of im') as [r|e]; [eauto|discriminate]. }
    exists e. unfold track_month, track_deck. rewrite K. reflexivity.
Qed.
Print Assumptions C68_hour_refuted.
Definition hour_files (y m : Z) : option (list string) := if (y =? 1987) && (m =? 3) then Some [line_a; line_h] else None.
Example C68_hour_ex : let E := small hour_files true in exists lines im h, In (1987, 3) (window 1987 3) /\ e_lines E 1987 3 = Some lines /\ In line_h lines /\ usable (e_tables E) (e_excluded E) 1987 3 line_h im /\
  number_field im "DY" (Some (inject_Z 15)) /\ valid (on 1987 3 15) /\ number_field im "HR" (Some h) /\ (24 <= h)%Q.
Proof. cbv zeta. destruct (C63_hour_ex hour_files true) as [im [h H]]. exists [line_a; line_h], im, h. split; [cbn; tauto|]. split; [reflexivity|]. split; [cbn; tauto|exact H]. Qed.
