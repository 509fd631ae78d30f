(** C49: the comma separated output. *)
Require Import String Ascii ZArith QArith List Bool Lia.
Require Import Verif.M_Base Verif.M_Calendar Verif.M_Report Verif.M_Imma Verif.M_Files Verif.M_Print.
Require Import Verif.S_Calendar Verif.S_Report Verif.S_Imma Verif.S_Files Verif.S_Print.
Require Import Verif.L_Base Verif.L_Report Verif.L_Imma Verif.L_Files Verif.L_Print.
Import ListNotations.
Open Scope string_scope.
Open Scope Z_scope.

(** The fields of a line and the lines of a file are determined by the text. *)
Theorem C49_fields_unique : forall fs gs s, csv_line fs s -> csv_line gs s -> fs = gs.
Proof. exact csv_line_inj. Qed.
Print Assumptions C49_fields_unique.
Theorem C49_lines_unique : forall l l' s, csv_file l s -> csv_file l' s -> l = l'.
Proof. intros l l' s A B. exact (csv_file_inj l s A l' B). Qed.
Print Assumptions C49_lines_unique.

(** C49.  For any columns, at least one, each with a name: the header holds UID, DATE, PENTAD (if the UID is asked for) and the
    names of the columns; the row of a report holds its UID, date, pentad and a cell for each column.  So both have the same
    number of fields. *)
Theorem C49_variable_block : forall str_of r r' vars printuid, (forall n q, float_text (str_of n q)) -> printable r ->
  vars <> [] -> Forall (fun v => v <> [] /\ v <> ["UID"] /\ plain (column v)) vars ->
  exists h s hs fs cells,
    print_variable_block str_of r' vars true printuid = Ok h /\ csv_line hs h /\
    print_variable_block str_of r vars false printuid = Ok s /\ csv_line fs s /\
    Forall2 (cell str_of r) vars cells /\
    (printuid = true -> hs = ("UID" :: "DATE" :: "PENTAD" :: map column vars) /\ variable_row str_of vars r fs) /\
    (printuid = false -> hs = map column vars /\ fs = cells) /\
    length hs = length fs.
Proof.
  intros str_of r r' vars b STR P N V.
  destruct (variable_block_header str_of STR r' vars b N) as [h [H HL]]. { eapply Forall_impl; [|exact V]. intros v [A [_ B]]. auto. }
  pose proof P as [[u [U PU]] PI].
  destruct (variable_block_row str_of STR r u vars b P U N) as [s [cells [E [F C]]]]. { eapply Forall_impl; [|exact V]. intros v [A [B _]]. auto. }
  eexists h, s, _, _, cells. split; [exact H|]. split; [exact HL|]. split; [exact E|]. split; [exact C|]. split; [exact F|]. pose proof (forall2_len _ _ _ _ _ F) as L.
  destruct b; (split; [|split]).
  - intros _. split; [reflexivity|]. exists u, (datestring (getint r "YR") (getint r "MO") (getint r "DY")), (str_of_int (pentad_of r)), cells.
    split; [exact U|]. split; [apply datestring_text|]. split; [apply pentad_of_text|]. split; [exact F|reflexivity].
  - discriminate.
  - cbn. rewrite map_length. lia.
  - discriminate.
  - intros _. split; reflexivity.
  - cbn. rewrite map_length. exact L.
Qed.
Print Assumptions C49_variable_block.
(** C49.  The same for flags: the header holds UID and the names of the flags, the row of a report its UID and the flags. *)
Theorem C49_flag_block : forall r r' type names printuid, printable r -> names <> [] -> Forall plain names ->
  exists h s hs fs cells,
    print_qc_block r' type names true printuid = Ok h /\ csv_line hs h /\
    print_qc_block r type names false printuid = Ok s /\ csv_line fs s /\
    Forall2 (fun n t => int_text (get_qc r type n) t) names cells /\
    (printuid = true -> hs = "UID" :: names /\ exists u, r_uid r = Some u /\ fs = u :: cells) /\
    (printuid = false -> hs = names /\ fs = cells) /\
    length hs = length fs.
Proof.
  intros r r' type names b [[u [U PU]] _] N V.
  destruct (flag_block_header r' type names b N V) as [h [H HL]]. destruct (flag_block_row r u type names b U PU N) as [s [cells [E [F C]]]].
  eexists h, s, _, _, cells. split; [exact H|]. split; [exact HL|]. split; [exact E|]. split; [exact C|]. split; [exact F|]. pose proof (forall2_len _ _ _ _ _ F) as L.
  destruct b; (split; [|split]); try discriminate.
  - intros _. split; [reflexivity|]. exists u. auto.
  - cbn. lia.
  - intros _. split; reflexivity.
  - exact L.
Qed.
Print Assumptions C49_flag_block.
(** A flag takes one character. *)
Theorem C49_flag_digit : forall z s, 0 <= z <= 9 -> (int_text z s <-> exists c, s = String c "" /\ digit c z).
Proof.
  intros z s Z. split.
  - intros [[_ P]|[X _]]; [|lia]. pose proof (padded_width 1 z s P ltac:(lia) ltac:(cbn; lia)) as L. destruct P as [D _].
    destruct D as [c d D|t y c d D' D].
    + exists c. auto.
    + rewrite length_app_s in L. pose proof (decimal_nonempty _ _ D'). cbn in L. lia.
  - intros [c [-> D]]. left. split; [lia|]. split; [apply dec_one, D|]. cbn. split; lia.
Qed.
Print Assumptions C49_flag_digit.
(** With no columns the header is an empty line, the row is not. *)
Theorem C49_no_columns_refuted : forall str_of r u, r_uid r = Some u ->
  print_variable_block str_of r [] true true = Ok (String "010" "") /\
  print_qc_block r "SST" [] true true = Ok (String "010" "") /\ print_qc_block r "SST" [] false true = Ok (u ++ String "010" "").
Proof.
  intros str_of r u U. split; [reflexivity|]. split; [reflexivity|]. unfold print_qc_block, append_each. cbn [map_r bind flat_map]. rewrite U. reflexivity.
Qed.
Print Assumptions C49_no_columns_refuted.
(** A report without UID cannot be printed. *)
Theorem C49_no_uid_refuted : forall r type names, r_uid r = None -> names <> [] -> print_qc_block r type names false true = Err TypeError.
Proof.
  intros r type names U N. unfold print_qc_block, append_each. destruct (map_r_ok _ _ (fun var => Ok (str_of_int (get_qc r type var))) (fun _ _ => True) names) as [cells [E F]].
  { apply Forall_forall. intros n _. eexists. split; reflexivity. }
  rewrite E. cbn [bind]. rewrite U. unfold finish. pose proof (forall2_nonempty _ _ _ _ _ F N) as NC. destruct cells as [|c cells]; [congruence|]. reflexivity.
Qed.
Print Assumptions C49_no_uid_refuted.

Lemma rectangular_vars : forall str_of vars l content, variable_file str_of vars l content -> report_table l content.
Proof.
  intros str_of vars l content [rows [C F]]. eexists _, rows. split; [exact C|]. split; [reflexivity|].
  clear C. induction F as [|r row l rows R F IH]; constructor; [|exact IH]. destruct R as [u [d [p [cells [U [_ [_ [G ->]]]]]]]].
  split; [|exact U]. cbn. rewrite map_length, (forall2_len _ _ _ _ _ G). reflexivity.
Qed.
Lemma rectangular_flags : forall type names l content, flag_file type names l content -> report_table l content.
Proof.
  intros type names l content [rows [C F]]. eexists _, rows. split; [exact C|]. split; [reflexivity|].
  clear C. induction F as [|r row l rows R F IH]; constructor; [|exact IH]. destruct R as [u [cells [U [G ->]]]].
  split; [|exact U]. cbn. rewrite (forall2_len _ _ _ _ _ G). reflexivity.
Qed.

Lemma deck_write_ok : forall str_of, (forall n q, float_text (str_of n q)) -> forall vars flags reps l runid dir year month test, 0 <= month ->
  reps <> [] -> picked (of_month year month) reps l -> Forall printable l ->
  vars <> [] -> Forall (fun v => v <> [] /\ v <> ["UID"] /\ plain (column v)) vars ->
  Forall (fun tn => snd tn <> [] /\ Forall plain (snd tn)) flags ->
  exists y m content files, int_text year y /\ padded 2 month m /\
    deck_write str_of vars flags reps runid dir year month test
    = Ok ((dir ++ "/" ++ (if test then "Test_" else "") ++ "Variables_" ++ y ++ m ++ "_" ++ runid ++ ".csv", content) :: files) /\
    variable_file str_of vars l content /\
    Forall2 (fun tn f => fst f = dir ++ "/" ++ (if test then "Test_" else "") ++ fst tn ++ "_qc_" ++ y ++ m ++ "_" ++ runid ++ ".csv" /\
                         flag_file (fst tn) (snd tn) l (snd f)) flags files.
Proof.
  intros str_of STR vars flags reps l runid dir year month test M N P PR NV V FL.
  destruct (variable_body str_of STR vars reps year month l N P PR NV V) as [body [rows [E [C F]]]].
  exists (str_of_int year), (zero_pad 2 month), body.
  destruct (map_r_ok _ _ (fun '(var, names) =>
    let! body := file_body reps year month (fun r header => print_qc_block r var names header true) in
    Ok (dir ++ "/" ++ test_name test (var ++ "_qc_" ++ str_of_int year ++ zero_pad 2 month ++ "_" ++ runid ++ ".csv"), body))
    (fun tn f => fst f = dir ++ "/" ++ (if test then "Test_" else "") ++ fst tn ++ "_qc_" ++ str_of_int year ++ zero_pad 2 month ++ "_" ++ runid ++ ".csv" /\
                         flag_file (fst tn) (snd tn) l (snd f)) flags) as [files [G H]].
  { eapply Forall_impl; [|exact FL]. intros [type names] [A B]. destruct (flag_body type names reps year month l N P PR A B) as [b [rows' [E' [C' F']]]].
    eexists. rewrite E'. cbn [bind]. split; [reflexivity|]. split; [destruct test; reflexivity|]. exists rows'. auto. }
  exists files. split; [apply str_of_int_int_text|]. split; [apply zero_pad_padded; lia|]. split; [|split; [exists rows; auto|exact H]].
  unfold deck_write. rewrite E. cbn [bind]. unfold deck_write_qc. rewrite G. cbn [bind]. destruct test; reflexivity.
Qed.

Ltac plain_columns := repeat (apply Forall_cons; [cbn; repeat split; discriminate|]); apply Forall_nil.
Ltac plain_flags := repeat (apply Forall_cons; [split; [discriminate|cbn [snd]; repeat (apply Forall_cons; [cbn; repeat split; discriminate|]); apply Forall_nil]|]); apply Forall_nil.

(** C49.  Writing the output of a deck gives a file of the variables and a file of flags for each type: each holds the
    header and, in the order of the deck, one row for each report of the month, and no other. *)
Theorem C49_deck_output : forall str_of, (forall n q, float_text (str_of n q)) -> forall reps l runid dir year month test, 0 <= month ->
  reps <> [] -> picked (of_month year month) reps l -> Forall printable l ->
  exists y m content files, int_text year y /\ padded 2 month m /\
    deck_write_output str_of reps runid dir year month test
    = Ok ((dir ++ "/" ++ (if test then "Test_" else "") ++ "Variables_" ++ y ++ m ++ "_" ++ runid ++ ".csv", content) :: files) /\
    variable_file str_of documented_vars l content /\
    Forall2 (fun tn f => fst f = dir ++ "/" ++ (if test then "Test_" else "") ++ fst tn ++ "_qc_" ++ y ++ m ++ "_" ++ runid ++ ".csv" /\
                         flag_file (fst tn) (snd tn) l (snd f)) documented_flags files.
Proof.
  intros str_of STR reps l runid dir year month test M N P PR.
  exact (deck_write_ok str_of STR output_vars output_flags reps l runid dir year month test M N P PR ltac:(discriminate) ltac:(plain_columns) ltac:(plain_flags)).
Qed.
Print Assumptions C49_deck_output.
Theorem C49_deck_min_output : forall str_of, (forall n q, float_text (str_of n q)) -> forall reps l runid dir year month test, 0 <= month ->
  reps <> [] -> picked (of_month year month) reps l -> Forall printable l ->
  exists y m content files, int_text year y /\ padded 2 month m /\
    deck_write_min_output str_of reps runid dir year month test
    = Ok ((dir ++ "/" ++ (if test then "Test_" else "") ++ "Variables_" ++ y ++ m ++ "_" ++ runid ++ ".csv", content) :: files) /\
    variable_file str_of documented_min_vars l content /\
    Forall2 (fun tn f => fst f = dir ++ "/" ++ (if test then "Test_" else "") ++ fst tn ++ "_qc_" ++ y ++ m ++ "_" ++ runid ++ ".csv" /\
                         flag_file (fst tn) (snd tn) l (snd f)) documented_min_flags files.
Proof.
  intros str_of STR reps l runid dir year month test M N P PR.
  exact (deck_write_ok str_of STR min_vars min_flags reps l runid dir year month test M N P PR ltac:(discriminate) ltac:(plain_columns) ltac:(plain_flags)).
Qed.
Print Assumptions C49_deck_min_output.
(** C49.  So all files are tables with the same number of rows, and the same UIDs in the same order: line by line they
    speak of the same report.  No two have the same name. *)
Theorem C49_same_reports : forall str_of, (forall n q, float_text (str_of n q)) -> forall reps l runid dir year month test files, 0 <= month ->
  reps <> [] -> picked (of_month year month) reps l -> Forall printable l ->
  deck_write_output str_of reps runid dir year month test = Ok files ->
  Forall (fun f => report_table l (snd f)) files /\ NoDup (map fst files).
Proof.
  intros str_of STR reps l runid dir year month test files M N P PR W.
  destruct (C49_deck_output str_of STR reps l runid dir year month test M N P PR) as [y [m [content [fl [_ [_ [E [V F]]]]]]]].
  rewrite W in E. injection E as ->. split.
  - constructor; [exact (rectangular_vars _ _ _ _ V)|]. clear - F. induction F as [|tn f a b [_ H] F IH]; constructor; [exact (rectangular_flags _ _ _ _ H)|exact IH].
  - assert (K : map fst fl = map (fun tn => dir ++ "/" ++ (if test then "Test_" else "") ++ fst tn ++ "_qc_" ++ y ++ m ++ "_" ++ runid ++ ".csv") documented_flags).
    { clear - F. induction F as [|tn f a b [H _] F IH]; [reflexivity|]. cbn [map]. rewrite H, IH. reflexivity. }
    cbn [map fst]. rewrite K. unfold documented_flags. cbn [map fst].
    repeat (apply NoDup_cons; [intro I; simpl in I; repeat (destruct I as [I|I]; [apply app_inj_l in I; apply (app_inj_l "/") in I; apply app_inj_l in I; discriminate I|]); contradiction|]). apply NoDup_nil.
Qed.
Print Assumptions C49_same_reports.
(** Writing the output of an empty deck raises. *)
Theorem C49_empty_deck_refuted : forall str_of runid dir year month test, deck_write_output str_of [] runid dir year month test = Err IndexError.
Proof. reflexivity. Qed.
Print Assumptions C49_empty_deck_refuted.

(** C49.  The output of a voyage: the same, but the file of variables is named after the identifier made safe, those of flags
    after the identifier as it is. *)
Theorem C49_voyage_output : forall str_of, (forall n q, float_text (str_of n q)) -> forall r0 reps l runid dir year month id, 0 <= month ->
  picked (of_month year month) (r0 :: reps) l -> Forall printable l -> r_id r0 = Some id ->
  exists y m content files safe, int_text year y /\ padded 2 month m /\ made_safe id safe /\
    voyage_write_output str_of (r0 :: reps) runid dir year month
    = Ok ((dir ++ "/" ++ "Variables_" ++ y ++ m ++ "_" ++ safe ++ "_" ++ runid ++ ".csv", content) :: files) /\
    variable_file str_of documented_voyage_vars l content /\
    Forall2 (fun tn f => fst f = dir ++ "/" ++ fst tn ++ "_qc_" ++ y ++ m ++ "_" ++ id ++ "_" ++ runid ++ ".csv" /\
                         flag_file (fst tn) (snd tn) l (snd f)) documented_voyage_flags files.
Proof.
  intros str_of STR r0 reps l runid dir year month id M P PR I.
  destruct (variable_body str_of STR voyage_vars (r0 :: reps) year month l ltac:(discriminate) P PR ltac:(discriminate) ltac:(plain_columns)) as [body [rows [E [C F]]]].
  exists (str_of_int year), (zero_pad 2 month), body.
  destruct (map_r_ok _ _ (fun '(var, names) =>
    let! id := first_id (r0 :: reps) in
    let! body := file_body (r0 :: reps) year month (fun r header => print_qc_block r var names header true) in
    Ok (dir ++ "/" ++ var ++ "_qc_" ++ str_of_int year ++ zero_pad 2 month ++ "_" ++ id ++ "_" ++ runid ++ ".csv", body))
    (fun tn f => fst f = dir ++ "/" ++ fst tn ++ "_qc_" ++ str_of_int year ++ zero_pad 2 month ++ "_" ++ id ++ "_" ++ runid ++ ".csv" /\
                         flag_file (fst tn) (snd tn) l (snd f)) voyage_flags) as [files [G H]].
  { eapply Forall_impl with (P := fun tn => snd tn <> [] /\ Forall plain (snd tn)); [|plain_flags]. intros [type names] [A B].
    destruct (flag_body type names (r0 :: reps) year month l ltac:(discriminate) P PR A B) as [b [rows' [E' [C' F']]]].
    eexists. rewrite E'. unfold first_id. cbn [first_rep bind]. rewrite I. cbn [bind]. split; [reflexivity|]. split; [reflexivity|]. exists rows'. auto. }
  exists files, (safe_filename id). split; [apply str_of_int_int_text|]. split; [apply zero_pad_padded; lia|]. split; [apply safe_made; reflexivity|].
  split; [|split; [exists rows; auto|exact H]].
  unfold voyage_write_output. unfold first_id at 1. cbn [first_rep bind]. rewrite I. cbn [bind]. rewrite E. cbn [bind]. unfold voyage_write_qc. rewrite G. reflexivity.
Qed.
Print Assumptions C49_voyage_output.
(** A platform with a slash in its identifier: the files of flags lie in another directory than the file of variables. *)
Theorem C49_voyage_name_refuted : forall str_of, (forall n q, float_text (str_of n q)) -> exists r0 runid dir year month name content fname fcontent files,
  printable r0 /\ voyage_write_output str_of [r0] runid dir year month = Ok ((name, content) :: (fname, fcontent) :: files) /\
  (exists a, name = dir ++ "/" ++ a /\ chars (fun c => c <> "/"%char) a) /\ ~ (exists a, fname = dir ++ "/" ++ a /\ chars (fun c => c <> "/"%char) a).
Proof.
  intros str_of STR. exists {| r_id := Some "A/B"; r_uid := Some "U1"; r_data := []; r_dt := None; r_qc := []; r_ext := []; r_clim := [] |}, "run", "out", 1987, 3.
  eexists _, _, _, _, _. split; [split; [exists "U1"; split; [reflexivity|cbn; repeat split; discriminate]|intros i I; injection I as <-; cbn; repeat split; discriminate]|].
  split; [reflexivity|]. split.
  - exists "Variables_198703_A_B_run.csv". split; [reflexivity|cbn; repeat split; discriminate].
  - intros [a [E A]]. vm_compute in E. injection E as <-. cbn [chars] in A. repeat match goal with H : _ /\ _ |- _ => destruct H end. congruence.
Qed.
Print Assumptions C49_voyage_name_refuted.
(** An identifier with a comma makes a row one field too long. *)
Theorem C49_comma_refuted : exists r h s hs fs, print_variable_block (fun _ _ => "0.0") r [["ID"]; ["SST"]] true true = Ok h /\ csv_line hs h /\
  print_variable_block (fun _ _ => "0.0") r [["ID"]; ["SST"]] false true = Ok s /\ csv_line fs s /\ length hs <> length fs.
Proof.
  exists {| r_id := Some "A,B"; r_uid := Some "U1"; r_data := []; r_dt := None; r_qc := []; r_ext := []; r_clim := [] |}. eexists _, _, ["UID"; "DATE"; "PENTAD"; "ID"; "SST"], ["U1"; "0000-00-00"; "0"; """A"; "B"""; "\N"].
  split; [reflexivity|]. split; [|split; [reflexivity|split; [|cbn; lia]]].
  - split; [discriminate|]. split; [repeat (constructor; [cbn; repeat split; discriminate|]); constructor|reflexivity].
  - split; [discriminate|]. split; [repeat (constructor; [cbn; repeat split; discriminate|]); constructor|reflexivity].
Qed.
Print Assumptions C49_comma_refuted.

(** C49.  The tracking file: one line holds the variables, the four blocks of flags and the background; header and rows
    have the same fields, one row for every report of the voyage. *)
Lemma track_pieces : forall a b c d e f va vb vc vd ve vf,
  csv_line a va -> csv_line b vb -> csv_line c vc -> csv_line d vd -> csv_line e ve -> csv_line f vf ->
  Forall (fun fs => exists fs' g, fs = (fs' ++ [g])%list /\ g <> "" /\ chars (fun c => ~ white c) g) [a; b; c; d; e] ->
  csv_line (a ++ b ++ c ++ d ++ e ++ f)%list (rstrip va ++ "," ++ rstrip vb ++ "," ++ rstrip vc ++ "," ++ rstrip vd ++ "," ++ rstrip ve ++ "," ++ vf).
Proof.
  intros a b c d e f va vb vc vd ve vf A B C D E F L. repeat (apply Forall_cons_iff in L; destruct L as [?L L]).
  rewrite (rstrip_line' a va A L0), (rstrip_line' b vb B L1), (rstrip_line' c vc C L2), (rstrip_line' d vd D L3), (rstrip_line' e ve E L4).
  destruct A as [NA [PA _]], B as [NB [PB _]], C as [NC [PC _]], D as [ND [PD _]], E as [NE [PE _]], F as [NF [PF ->]].
  assert (N5 : (e ++ f)%list <> []) by (destruct e; [congruence|discriminate]). assert (N4 : (d ++ e ++ f)%list <> []) by (destruct d; [congruence|discriminate]).
  assert (N3 : (c ++ d ++ e ++ f)%list <> []) by (destruct c; [congruence|discriminate]). assert (N2 : (b ++ c ++ d ++ e ++ f)%list <> []) by (destruct b; [congruence|discriminate]).
  split; [destruct a; [congruence|discriminate]|]. split; [rewrite !Forall_app; tauto|].
  rewrite !between_app by assumption. rewrite !app_assoc_s. reflexivity.
Qed.
Lemma cells_end : forall str_of r vars v cells, (forall n q, float_text (str_of n q)) -> Forall2 (cell str_of r) (vars ++ [[v]])%list cells -> v <> "ID" ->
  forall pre, exists fs' g, (pre ++ cells)%list = (fs' ++ [g])%list /\ g <> "" /\ chars (fun c => ~ white c) g.
Proof.
  intros str_of r vars v cells STR F N pre. apply Forall2_app_inv_l in F. destruct F as [c1 [c2 [F1 [F2 ->]]]]. inversion F2 as [|x g l l' C F3 E1 E2]; subst. inversion F3; subst.
  exists (pre ++ c1)%list, g. split; [rewrite app_assoc; reflexivity|]. assert (FT : float_text g).
  { inversion C; subst; try (exfalso; congruence); try apply STR; try (eapply int_text_float; eassumption).
    split; [discriminate|]. cbn. repeat split; try discriminate; intros W; apply is_space_white in W; discriminate. }
  destruct FT as [A B]. split; [exact A|]. eapply chars_impl; [|exact B]. intros c [X _]. exact X.
Qed.
Lemma flags_end : forall r type names n cells, Forall2 (fun n t => int_text (get_qc r type n) t) (names ++ [n])%list cells ->
  exists fs' g, cells = (fs' ++ [g])%list /\ g <> "" /\ chars (fun c => ~ white c) g.
Proof.
  intros r type names n cells F. apply Forall2_app_inv_l in F. destruct F as [c1 [c2 [F1 [F2 ->]]]]. inversion F2 as [|x g l l' C F3 E1 E2]; subst. inversion F3; subst.
  exists c1, g. split; [reflexivity|]. destruct (int_text_float _ _ C) as [A B]. split; [exact A|]. eapply chars_impl; [|exact B]. intros c [X _]. exact X.
Qed.
Lemma track_line_row : forall str_of r, (forall n q, float_text (str_of n q)) -> printable r -> exists s row, track_line str_of r false = Ok s /\ csv_line row s /\ track_row str_of r row.
Proof.
  intros str_of r STR P. pose proof P as [[u [U PU]] PI].
  destruct (variable_block_row str_of STR r u track_vars true P U ltac:(discriminate) ltac:(repeat (apply Forall_cons; [split; discriminate|]); apply Forall_nil)) as [s1 [c1 [E1 [F1 L1]]]].
  destruct (flag_block_row r u "POS" qc_block1 false U PU ltac:(discriminate)) as [s2 [c2 [E2 [F2 L2]]]].
  destruct (flag_block_row r u "SST" qc_block2 false U PU ltac:(discriminate)) as [s3 [c3 [E3 [F3 L3]]]].
  destruct (flag_block_row r u "POS" qc_block3 false U PU ltac:(discriminate)) as [s4 [c4 [E4 [F4 L4]]]].
  destruct (flag_block_row r u "SST" qc_block4 false U PU ltac:(discriminate)) as [s5 [c5 [E5 [F5 L5]]]].
  destruct (variable_block_row str_of STR r u track_vars2 false P U ltac:(discriminate) ltac:(repeat (apply Forall_cons; [split; discriminate|]); apply Forall_nil)) as [s6 [c6 [E6 [F6 L6]]]].
  eexists _, _. split; [unfold track_line; rewrite E1, E2, E3, E4, E5, E6; reflexivity|]. split.
  - apply (track_pieces _ _ _ _ _ _ _ _ _ _ _ _ L1 L2 L3 L4 L5 L6). repeat apply Forall_cons; [| | | | |apply Forall_nil].
    + exact (cells_end str_of r [["ID"]; ["LON"]; ["LAT"]; ["YR"]; ["MO"]; ["DY"]] "HR" c1 STR F1 ltac:(discriminate) _).
    + exact (flags_end r "POS" (removelast qc_block1) "isdrifter" c2 F2).
    + exact (flags_end r "SST" (removelast qc_block2) "hardlimit" c3 F3).
    + exact (flags_end r "POS" (removelast qc_block3) "drf_spd" c4 F4).
    + exact (flags_end r "SST" (removelast qc_block4) "drf_short" c5 F5).
  - exists u, (datestring (getint r "YR") (getint r "MO") (getint r "DY")), (str_of_int (pentad_of r)), c1, (c2 ++ c3 ++ c4 ++ c5)%list, c6.
    split; [exact U|]. split; [apply datestring_text|]. split; [apply pentad_of_text|]. split; [exact F1|]. split; [|split; [exact F6|]].
    + assert (K : forall type names cells, Forall2 (fun n t => int_text (get_qc r type n) t) names cells -> Forall2 (fun tn s => int_text (get_qc r (fst tn) (snd tn)) s) (map (pair type) names) cells).
      { clear. intros type names cells F. induction F; constructor; auto. }
      change track_flags with (map (pair "POS") qc_block1 ++ map (pair "SST") qc_block2 ++ map (pair "POS") qc_block3 ++ map (pair "SST") qc_block4)%list.
      repeat apply Forall2_app; apply K; assumption.
    + unfold vprefix. cbn [app]. rewrite <- !app_assoc. reflexivity.
Qed.
Lemma track_line_header : forall str_of r, (forall n q, float_text (str_of n q)) -> exists s, track_line str_of r true = Ok s /\ csv_line track_header s.
Proof.
  intros str_of r STR.
  destruct (variable_block_header str_of STR r track_vars true ltac:(discriminate) ltac:(plain_columns)) as [s1 [E1 L1]].
  destruct (flag_block_header r "POS" qc_block1 false ltac:(discriminate) ltac:(plain_columns)) as [s2 [E2 L2]].
  destruct (flag_block_header r "SST" qc_block2 false ltac:(discriminate) ltac:(plain_columns)) as [s3 [E3 L3]].
  destruct (flag_block_header r "POS" qc_block3 false ltac:(discriminate) ltac:(plain_columns)) as [s4 [E4 L4]].
  destruct (flag_block_header r "SST" qc_block4 false ltac:(discriminate) ltac:(plain_columns)) as [s5 [E5 L5]].
  destruct (variable_block_header str_of STR r track_vars2 false ltac:(discriminate) ltac:(plain_columns)) as [s6 [E6 L6]].
  eexists. split; [unfold track_line; rewrite E1, E2, E3, E4, E5, E6; reflexivity|].
  apply (track_pieces _ _ _ _ _ _ _ _ _ _ _ _ L1 L2 L3 L4 L5 L6).
  assert (W : forall s, forallb (fun c => negb (is_space c)) (list_ascii_of_string s) = true -> chars (fun c => ~ white c) s).
  { induction s as [|c s IH]; intro H; [exact I|]. cbn in H. apply andb_prop in H. destruct H as [A B]. split; [intro X; apply is_space_white in X; rewrite X in A; discriminate|apply IH, B]. }
  repeat apply Forall_cons; [| | | | |apply Forall_nil].
  - exists ["UID"; "DATE"; "PENTAD"; "ID"; "LON"; "LAT"; "YR"; "MO"; "DY"], "HR". split; [reflexivity|]. split; [discriminate|apply W; reflexivity].
  - exists (removelast qc_block1), "isdrifter". split; [reflexivity|]. split; [discriminate|apply W; reflexivity].
  - exists (removelast qc_block2), "hardlimit". split; [reflexivity|]. split; [discriminate|apply W; reflexivity].
  - exists (removelast qc_block3), "drf_spd". split; [reflexivity|]. split; [discriminate|apply W; reflexivity].
  - exists (removelast qc_block4), "drf_short". split; [reflexivity|]. split; [discriminate|apply W; reflexivity].
Qed.
Theorem C49_tracking_output : forall str_of, (forall n q, float_text (str_of n q)) -> forall r0 reps runid dir year month id, 0 <= month ->
  Forall printable (r0 :: reps) -> r_id r0 = Some id ->
  exists y m safe content rows, int_text year y /\ padded 2 month m /\ made_safe id safe /\
    write_tracking_output str_of (r0 :: reps) runid dir year month = Ok (dir ++ "/" ++ "Tracking_" ++ y ++ m ++ "_" ++ safe ++ "_" ++ runid ++ ".csv", content) /\
    csv_file (track_header :: rows) content /\ Forall2 (track_row str_of) (r0 :: reps) rows /\ Forall (fun row => length row = length track_header) rows.
Proof.
  intros str_of STR r0 reps runid dir year month id M PR I. exists (str_of_int year), (zero_pad 2 month), (safe_filename id).
  destruct (track_line_header str_of r0 STR) as [h [E C]].
  assert (K : forall l, Forall printable l -> exists ss rows, map_r (fun r => track_line str_of r false) l = Ok ss /\ Forall2 (track_row str_of) l rows /\ csv_file rows (String.concat "" ss)).
  { clear - STR. induction l as [|r l IH]; intro P; [exists [], []; split; [reflexivity|]; split; constructor|]. apply Forall_cons_iff in P. destruct P as [Pr P].
    destruct (track_line_row str_of r STR Pr) as [s [row [E [C R]]]]. destruct (IH P) as [ss [rows [F [G H]]]].
    exists (s :: ss), (row :: rows). cbn [map_r]. rewrite E. cbn [bind]. rewrite F. cbn [bind]. split; [reflexivity|]. split; [constructor; assumption|]. rewrite concat_empty_cons. constructor; assumption. }
  destruct (K (r0 :: reps) PR) as [ss [rows [F [G H]]]]. eexists _, rows. split; [apply str_of_int_int_text|]. split; [apply zero_pad_padded; lia|]. split; [apply safe_made; reflexivity|].
  split; [unfold write_tracking_output, first_id; cbn [first_rep bind]; rewrite I; cbn [bind]; rewrite E; cbn [bind]; rewrite F; reflexivity|].
  split; [unfold joined_by; rewrite concat_empty_cons; constructor; assumption|]. split; [exact G|].
  clear - G. induction G as [|r row l rows R G IH]; constructor; [|exact IH]. destruct R as [u [d [p [c1 [fl [c2 [_ [_ [_ [A [B [D ->]]]]]]]]]]]].
  unfold track_header. cbn [length]. rewrite !app_length, !map_length, <- (forall2_len _ _ _ _ _ A), <- (forall2_len _ _ _ _ _ B), <- (forall2_len _ _ _ _ _ D). reflexivity.
Qed.
Print Assumptions C49_tracking_output.

Definition C49_report (uid : string) (mo : Q) : report :=
  {| r_id := Some "SHIP 7"; r_uid := Some uid; r_data := [Some 1987; Some mo; Some 14; Some (13 # 2)]%Q; r_dt := None; r_qc := [("SSTbud", 1); ("POStrk", 0)]; r_ext := []; r_clim := [] |}.
Example C49_ex : picked (of_month 1987 3) [C49_report "A1" 3; C49_report "A2" 4; C49_report "A3" 3] [C49_report "A1" 3; C49_report "A3" 3] /\
  printable (C49_report "A1" 3) /\ (forall (n : string) (q : Q), float_text "0.5") /\
  print_variable_block (fun _ _ => "6.5") (C49_report "A1" 3) [["ID"]; ["YR"]; ["HR"]; ["SST"]; ["SST"; "anom"]] false true = Ok ("A1,1987-03-14,15,""SHIP 7"",1987,6.5,\N,\N" ++ String "010" "") /\
  print_qc_block (C49_report "A1" 3) "SST" ["bud"; "clim"] false true = Ok ("A1,1,9" ++ String "010" "").
Proof.
  split; [apply (filter_picked _ _ (in_month_iff 1987 3)); reflexivity|]. split; [split; [exists "A1"; split; [reflexivity|cbn; repeat split; discriminate]|intros i I; injection I as <-; cbn; repeat split; discriminate]|].
  split; [intros _ _; split; [discriminate|cbn; repeat split; try discriminate; intros W; apply is_space_white in W; discriminate]|]. split; reflexivity.
Qed.
