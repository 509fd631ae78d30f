(** Specification of comma separated files and of the texts in them. *)
Require Import String Ascii ZArith QArith List.
Require Import Verif.M_Base Verif.M_Calendar Verif.M_Report Verif.S_Calendar Verif.S_Report Verif.S_Imma Verif.S_Files.
Import ListNotations.
Open Scope string_scope.
Open Scope Z_scope.

(** A text a field can hold: no comma, no line end. *)
Definition plain (s : string) : Prop := chars (fun c => c <> ","%char /\ c <> "010"%char) s.
(** A line: its fields, commas between them, a line end. *)
Fixpoint between (fs : list string) : string :=
  match fs with [] => "" | [f] => f | f :: fs' => f ++ "," ++ between fs' end.
Definition csv_line (fs : list string) (s : string) : Prop :=
  fs <> [] /\ Forall plain fs /\ s = between fs ++ String "010" "".
(** A file: its lines one after the other. *)
Inductive csv_file : list (list string) -> string -> Prop :=
| csv_end : csv_file [] ""
| csv_more : forall fs l s t, csv_line fs s -> csv_file l t -> csv_file (fs :: l) (s ++ t).

(** The text of an integer: no zeros in front, a minus sign if it is negative. *)
Definition int_text (z : Z) (s : string) : Prop :=
  0 <= z /\ padded 1 z s \/ z < 0 /\ exists s', s = "-" ++ s' /\ padded 1 (- z) s'.
(** The text of a float: not empty, no white space, no comma. *)
Definition float_text (s : string) : Prop := s <> "" /\ chars (fun c => ~ white c /\ c <> ","%char) s.

(** The ISO date of a report, zeros if it has no valid date in a year of four digits. *)
Definition date_text (r : report) (s : string) : Prop :=
  (exists y m d ys ms ds, getint r "YR" = Some y /\ getint r "MO" = Some m /\ getint r "DY" = Some d /\
     1000 <= y <= 9999 /\ valid (mkdate y m d) /\ padded 4 y ys /\ padded 2 m ms /\ padded 2 d ds /\ s = ys ++ "-" ++ ms ++ "-" ++ ds) \/
  ((~ exists y m d, getint r "YR" = Some y /\ getint r "MO" = Some m /\ getint r "DY" = Some d /\ 1000 <= y <= 9999 /\ valid (mkdate y m d)) /\
   s = "0000-00-00").
(** The pentad of a report, counted from 1; 0 if it has no valid month and day. *)
Definition pentad_text (r : report) (s : string) : Prop :=
  (exists m d p, getint r "MO" = Some m /\ getint r "DY" = Some d /\ md_valid m d /\ pentad m d (p - 1) /\ int_text p s) \/
  ((~ exists m d, getint r "MO" = Some m /\ getint r "DY" = Some d /\ md_valid m d) /\ s = "0").

(** A cell of the variables: the identifier in quotes, an anomaly (two names), an integer, a float; \N if missing. *)
Inductive cell (str_of : string -> Q -> string) (r : report) : list string -> string -> Prop :=
| cell_no_id : forall l, r_id r = None -> cell str_of r ("ID" :: l) "\N"
| cell_id : forall l i, r_id r = Some i -> cell str_of r ("ID" :: l) (String """" "" ++ i ++ String """" "")
| cell_no_anom : forall v w l, v <> "ID" -> getanom r v = None -> cell str_of r (v :: w :: l) "\N"
| cell_anom : forall v w l q, v <> "ID" -> getanom r v = Some q -> cell str_of r (v :: w :: l) (str_of (v ++ "_anom") q)
| cell_none : forall v, v <> "ID" -> v <> "UID" -> getvar r v = None -> cell str_of r [v] "\N"
| cell_int : forall v z s, In v integer_variables -> getvar r v = Some (inject_Z z) -> int_text z s -> cell str_of r [v] s
| cell_float : forall v q, v <> "ID" -> v <> "UID" -> ~ In v integer_variables -> getvar r v = Some q -> cell str_of r [v] (str_of v q).
(** The name of a column: the names, underscores between them. *)
Fixpoint column (var : list string) : string :=
  match var with [] => "" | [v] => v | v :: var' => v ++ "_" ++ column var' end.

(** The row of a report in the file of variables, and in the file of the flags of a type. *)
Definition variable_row (str_of : string -> Q -> string) (vars : list (list string)) (r : report) (row : list string) : Prop :=
  exists u d p cells, r_uid r = Some u /\ date_text r d /\ pentad_text r p /\ Forall2 (cell str_of r) vars cells /\ row = u :: d :: p :: cells.
Definition flag_row (type : string) (names : list string) (r : report) (row : list string) : Prop :=
  exists u cells, r_uid r = Some u /\ Forall2 (fun n s => int_text (get_qc r type n) s) names cells /\ row = u :: cells.

(** The reports of a month, in order. *)
Definition of_month (y m : Z) (r : report) : Prop := getint r "YR" = Some y /\ getint r "MO" = Some m.
Inductive picked (P : report -> Prop) : list report -> list report -> Prop :=
| pick_nil : picked P [] []
| pick_yes : forall r l l', P r -> picked P l l' -> picked P (r :: l) (r :: l')
| pick_no : forall r l l', ~ P r -> picked P l l' -> picked P (r :: l) l'.

(** A report that can be printed: it has a UID; UID and ID hold no comma and no line end. *)
Definition printable (r : report) : Prop := (exists u, r_uid r = Some u /\ plain u) /\ (forall i, r_id r = Some i -> plain i).

(** The columns of the output files. *)
Definition documented_vars : list (list string) :=
  [["ID"]; ["YR"]; ["MO"]; ["DY"]; ["HR"]; ["LAT"]; ["LON"]; ["AT"]; ["AT"; "anom"]; ["SST"]; ["SST"; "anom"]; ["DPT"]; ["DPT"; "anom"];
   ["SLP"]; ["SLP"; "anom"]; ["OSTIA"]; ["W"]; ["D"]].
Definition documented_flags : list (string * list string) :=
  [("POS", ["day"; "isship"; "trk"; "date"; "time"; "pos"; "blklst"; "isbuoy"; "iquam_track"]);
   ("SST", ["bud"; "clim"; "nonorm"; "freez"; "noval"; "nbud"; "bbud"; "rep"; "spike"; "hardlimit"]);
   ("AT", ["bud"; "clim"; "nonorm"; "freez"; "noval"; "mat_blacklist"; "bbud"; "rep"; "hardlimit"]);
   ("DPT", ["bud"; "clim"; "nonorm"; "freez"; "noval"; "hum_blacklist"; "bbud"; "rep"; "ssat"; "repsat"; "round"; "hardlimit"]);
   ("SLP", ["bud"; "clim"; "nonorm"; "noval"; "rep"]);
   ("W", ["noval"; "hardlimit"; "consistency"; "wind_blacklist"])].
Definition documented_min_vars : list (list string) :=
  [["ID"]; ["YR"]; ["MO"]; ["DY"]; ["HR"]; ["LAT"]; ["LON"]; ["AT"]; ["AT"; "anom"]; ["SST"]; ["SST"; "anom"]; ["DPT"]; ["DPT"; "anom"]].
Definition documented_min_flags : list (string * list string) :=
  [("POS", ["day"; "isship"; "trk"; "date"; "time"; "pos"; "blklst"; "isbuoy"]);
   ("SST", ["bud"; "clim"; "nonorm"; "freez"; "noval"; "nbud"; "bbud"; "rep"]);
   ("AT", ["bud"; "clim"; "nonorm"; "freez"; "noval"; "mat_blacklist"; "bbud"; "rep"]);
   ("DPT", ["bud"; "clim"; "nonorm"; "freez"; "noval"; "hum_blacklist"; "bbud"; "rep"; "ssat"; "repsat"; "round"])].
Definition documented_voyage_vars : list (list string) :=
  [["ID"]; ["YR"]; ["MO"]; ["DY"]; ["HR"]; ["LAT"]; ["LON"]; ["AT"]; ["AT"; "anom"]; ["SST"]; ["SST"; "anom"]; ["DPT"]; ["DPT"; "anom"];
   ["SLP"]; ["SLP"; "anom"]; ["OSTIA"]; ["ICE"]; ["BGVAR"]].
Definition documented_voyage_flags : list (string * list string) :=
  [("POS", ["day"; "isship"; "trk"; "date"; "time"; "pos"; "blklst"; "isbuoy"; "iquam_track"; "isdrifter"]);
   ("SST", ["bud"; "clim"; "nonorm"; "freez"; "noval"; "nbud"; "bbud"; "rep"; "spike"; "hardlimit"])].

(** The file of the variables of the reports [l], and the file of their flags of a type. *)
Definition variable_file (str_of : string -> Q -> string) (vars : list (list string)) (l : list report) (content : string) : Prop :=
  exists rows, csv_file (("UID" :: "DATE" :: "PENTAD" :: map column vars) :: rows) content /\ Forall2 (variable_row str_of vars) l rows.
Definition flag_file (type : string) (names : list string) (l : list report) (content : string) : Prop :=
  exists rows, csv_file (("UID" :: names) :: rows) content /\ Forall2 (flag_row type names) l rows.
(** A table of reports: a header starting with UID, then for each report, in order, a row as long as the header that
    starts with its UID. *)
Definition report_table (l : list report) (content : string) : Prop :=
  exists header rows, csv_file (header :: rows) content /\ hd "" header = "UID" /\
    Forall2 (fun r row => length row = length header /\ r_uid r = Some (hd "" row)) l rows.

(** The tracking file: position and time, four blocks of flags, sea surface temperature and background. *)
Definition track_cols : list (list string) := [["ID"]; ["LON"]; ["LAT"]; ["YR"]; ["MO"]; ["DY"]; ["HR"]].
Definition track_cols2 : list (list string) := [["SST"]; ["OSTIA"]; ["BGVAR"]; ["ICE"]].
Definition track_flags : list (string * string) :=
  [("POS", "day"); ("POS", "isship"); ("POS", "trk"); ("POS", "date"); ("POS", "time"); ("POS", "pos"); ("POS", "blklst"); ("POS", "isbuoy");
   ("POS", "iquam_track"); ("POS", "isdrifter");
   ("SST", "bud"); ("SST", "clim"); ("SST", "nonorm"); ("SST", "freez"); ("SST", "noval"); ("SST", "nbud"); ("SST", "bbud"); ("SST", "rep");
   ("SST", "spike"); ("SST", "hardlimit"); ("POS", "drf_agr"); ("POS", "drf_spd");
   ("SST", "drf_tail1"); ("SST", "drf_tail2"); ("SST", "drf_bias"); ("SST", "drf_noise"); ("SST", "drf_short")].
Definition track_header : list string := ("UID" :: "DATE" :: "PENTAD" :: map column track_cols ++ map snd track_flags ++ map column track_cols2)%list.
Definition track_row (str_of : string -> Q -> string) (r : report) (row : list string) : Prop :=
  exists u d p c1 fl c2, r_uid r = Some u /\ date_text r d /\ pentad_text r p /\ Forall2 (cell str_of r) track_cols c1 /\
    Forall2 (fun tn s => int_text (get_qc r (fst tn) (snd tn)) s) track_flags fl /\ Forall2 (cell str_of r) track_cols2 c2 /\
    row = (u :: d :: p :: c1 ++ fl ++ c2)%list.
