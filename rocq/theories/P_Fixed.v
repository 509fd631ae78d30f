(** C64: the fixed-width lines of a report. *)
Require Import String Ascii ZArith QArith Qabs List Bool Lia Lqa.
Require Import Verif.M_Base Verif.M_Report Verif.M_Fixed Verif.S_Report Verif.S_Imma Verif.S_Files Verif.S_Print Verif.S_Fixed Verif.L_Base Verif.L_Fixed.
Import ListNotations.
Open Scope string_scope.
Open Scope Z_scope.

(** Every field stands in its columns. *)
Theorem C64_report : forall r line, well_typed r -> digit_flags r -> all_fit r report_columns -> print_report r = Ok line -> line_shows r report_columns 168 line.
Proof. exact short_ok. Qed.
Print Assumptions C64_report.
Theorem C64_longform : forall r line, well_typed r -> digit_flags r -> all_fit r longform_columns -> print_longform_report r = Ok line -> line_shows r longform_columns 273 line.
Proof. exact long_ok. Qed.
Print Assumptions C64_longform.
(** Numbers of moderate size fit. *)
Theorem C64_fit : forall r, moderate r -> all_fit r report_columns /\ all_fit r longform_columns.
Proof.
  intros r M. split; (apply (moderate_fit r); [exact M|]; apply units_100); cbn; repeat (constructor; [try exact I; split; lra|]); constructor.
Qed.
Print Assumptions C64_fit.
(** There is a line as soon as the position, the year, the month and the deck are known. *)
Theorem C64_prints : forall r, ((exists line, print_report r = Ok line) <-> (forall v, In v ["LAT"; "LON"; "YR"; "MO"; "DCK"] -> getvar r v <> None)) /\
  ((exists line, print_longform_report r = Ok line) <-> (forall v, In v ["LAT"; "LON"; "YR"; "MO"; "DCK"] -> getvar r v <> None)).
Proof. intro r. split; [exact (prints_iff r)|exact (long_iff r)]. Qed.
Print Assumptions C64_prints.
(** Reports that print the same line have the same flags and, in the units of the columns, the same numbers. *)
Theorem C64_same : forall r r' line, well_typed r -> well_typed r' -> digit_flags r -> digit_flags r' ->
  (all_fit r report_columns -> all_fit r' report_columns -> print_report r = Ok line -> print_report r' = Ok line -> forall s w f, In (s, w, f) report_columns -> agree r r' f) /\
  (all_fit r longform_columns -> all_fit r' longform_columns -> print_longform_report r = Ok line -> print_longform_report r' = Ok line -> forall s w f, In (s, w, f) longform_columns -> agree r r' f).
Proof.
  intros r r' line W W' D D'. split; intros F F' P P'.
  - exact (lines_agree r r' report_columns 168 168 line (short_ok r line W D F P) (short_ok r' line W' D' F' P')).
  - exact (lines_agree r r' longform_columns 273 273 line (long_ok r line W D F P) (long_ok r' line W' D' F' P')).
Qed.
Print Assumptions C64_same.
(** Only nine characters of the identifier are printed: reports of different ships can print the same line. *)
Definition ship (id : string) : res report :=
  let! r := new_report (Some id) (Some "A1B2C3") [("YR", Some 1987); ("MO", Some 6); ("DY", Some 5); ("HR", Some (25 # 2)); ("LAT", Some (-5 # 2)); ("LON", Some 300);
    ("DS", Some 3); ("VS", Some 4); ("AT", Some (251 # 10)); ("DCK", Some 926)]%Q in
  set_qc (add_climate_variable r "AT" (Some 24%Q) None) "AT" "clim" 0.
Theorem C64_identifier_refuted : exists r r' line, ship "CALLSIGN12" = Ok r /\ ship "CALLSIGN13" = Ok r' /\ r_id r <> r_id r' /\ print_report r = Ok line /\ print_report r' = Ok line.
Proof. eexists. eexists. eexists. split; [vm_compute; reflexivity|]. split; [vm_compute; reflexivity|]. split; [discriminate|]. split; vm_compute; reflexivity. Qed.
Print Assumptions C64_identifier_refuted.
Example C64_ex : exists r, ship "SHIP1" = Ok r /\ well_typed r /\ digit_flags r /\ moderate r /\
  print_report r = Ok ("SHIP1     A1B2C3      -250   -6000    1987       6       5    1250     251     110  -32768  -32768     304     926  -32768 99999999 99999999 90999999 99999999 99999999" ++ newline_text)%string.
Proof.
  eexists. split; [vm_compute; reflexivity|]. split; [|split; [|split]].
  - intros v I. cbn in I. repeat (destruct I as [<-|I]; [vm_compute; try exact Logic.I; eexists; reflexivity|]). destruct I.
  - intros t n. unfold get_qc. cbn [r_qc assoc]. destruct (String.eqb (t ++ n) _); lia.
  - split.
    + intros v q E. unfold getvar in E. destruct (index_of v VARLIST) as [k|].
      * cbn [r_data] in E. do 26 (destruct k as [|k]; [cbn [nth] in E; try discriminate; destruct (mem v INTVARS); injection E as <-; vm_compute; discriminate|]). destruct k; discriminate.
      * cbn [r_ext assoc] in E. destruct (String.eqb v "vsi"); [injection E as <-; vm_compute; discriminate|]. destruct (String.eqb v "dsi"); [injection E as <-; vm_compute; discriminate|discriminate].
    + intros v q E. unfold getanom in E. cbn [r_clim assoc] in E. destruct (String.eqb_spec v "AT") as [->|N]; [vm_compute in E; injection E as <-; vm_compute; discriminate|discriminate].
  - vm_compute. reflexivity.
Qed.

(** Resetting the extra data leaves those worked out from the course and speed codes, and touches nothing else. *)
Theorem C64_reset : forall r r', reset_ext r = Ok r' ->
  (forall name, name <> "dsi" -> name <> "vsi" -> getext r' name = Err AssertionError) /\
  (exists r1, calculate_dsi_vsi r = Ok r1 /\ getext r' "dsi" = getext r1 "dsi" /\ getext r' "vsi" = getext r1 "vsi") /\
  (forall v, In v VARLIST -> getvar r' v = getvar r v) /\ (forall t n, get_qc r' t n = get_qc r t n) /\ (forall v, In v VARLIST -> getanom r' v = getanom r v) /\ r_id r' = r_id r /\ r_uid r' = r_uid r.
Proof.
  intros r r' H. unfold reset_ext, calculate_dsi_vsi in *. change (getint (with_ext r []) "DS") with (getint r "DS") in H. change (getvar (with_ext r []) "VS") with (getvar r "VS") in H. change (getint (with_ext r []) "YR") with (getint r "YR") in H.
  destruct (match getint r "DS" with Some d => py_nth ds_convert d | None => Ok None end) as [dsi|]; [cbn [bind] in *|discriminate]. injection H as <-. split.
  - intros name N1 N2. unfold getext, setext. cbn [with_ext r_ext assoc]. apply String.eqb_neq in N1, N2. now rewrite N1, N2.
  - split; [eexists; split; [reflexivity|now split]|].
    assert (G : forall e v, In v VARLIST -> getvar (with_ext r e) v = getvar r v) by (intros e v I; cbn in I; repeat (destruct I as [<-|I]; [reflexivity|]); destruct I).
    split; [intros v I; now apply (G _ v)|]. split; [reflexivity|]. split; [|now split]. intros v I. unfold getanom. cbn [setext with_ext r_clim]. pose proof (G (r_ext (setext (setext (with_ext r []) "dsi" dsi) "vsi" (match getvar r "VS" with Some v => if Qeqb v 0 then Some 0%Q else if match getint r "YR" with Some y => 1968 <=? y | None => false end then Some (v * 5 - 2)%Q else Some (v * 3 - 1)%Q | None => None end))) v I) as X. unfold with_ext in X. cbn [r_id r_uid r_data r_dt r_qc r_ext r_clim setext with_ext] in X. unfold setext, with_ext. cbn [r_id r_uid r_data r_dt r_qc r_ext r_clim]. rewrite X. reflexivity.
Qed.
Print Assumptions C64_reset.
Example C64_reset_ex : exists r r', ship "SHIP1" = Ok r /\ reset_ext (setext r "OSTIA" (Some 5%Q)) = Ok r' /\ getext r' "dsi" = Ok (Some 135%Q) /\ getext r' "OSTIA" = Err AssertionError.
Proof. eexists. eexists. split; [vm_compute; reflexivity|]. split; [vm_compute; reflexivity|]. split; vm_compute; reflexivity. Qed.
