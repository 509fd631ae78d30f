(** Specification vocabulary for reading back the files of the main program. *)
Require Import String Ascii ZArith QArith Qround List.
Require Import Verif.M_Base Verif.S_Calendar Verif.M_Report Verif.S_Report Verif.S_Imma Verif.S_Files Verif.S_Print.
Import ListNotations.
Open Scope string_scope.
Open Scope list_scope.
Open Scope Z_scope.

(** No quotation mark, no carriage return, and not the mark of a missing value. *)
Definition unquoted (s : string) : Prop := chars (fun c => c <> """"%char /\ c <> "013"%char) s /\ s <> "\N".
(** A report that can be read back: it can be printed, and its identifiers are unquoted. *)
Definition legible (r : report) : Prop := printable r /\ (forall u, r_uid r = Some u -> unquoted u) /\ (forall i, r_id r = Some i -> unquoted i).
(** Numbers are printed and read back; rnd is what the digits printed for a variable leave of its value. *)
Definition numbers_read (str_of : string -> Q -> string) (float_of : string -> res Q) (rnd : string -> Q -> Q) : Prop :=
  (forall v q, float_text (str_of v q) /\ unquoted (str_of v q) /\ float_of (str_of v q) = Ok (rnd v q)) /\
  (forall z s, int_text z s -> float_of s = Ok (inject_Z z)).

(** The flags in the two files. *)
Definition kept_flags : list (string * string) :=
  flat_map (fun tn => map (fun n => (fst tn, n)) (snd tn)) documented_voyage_flags.
(** The stamp of a report is its date and time to the minute; none without a valid date. *)
Definition stamp_fits (r : report) : Prop :=
  (exists d h, getint r "YR" = Some (yr d) /\ getint r "MO" = Some (mo d) /\ getint r "DY" = Some (dy d) /\ getvar r "HR" = Some h /\ valid d /\
     r_dt r = Some [yr d; mo d; dy d; Qfloor h; Qfloor (60 * (h - inject_Z (Qfloor h)))]) \/
  ((~ exists d h, getint r "YR" = Some (yr d) /\ getint r "MO" = Some (mo d) /\ getint r "DY" = Some (dy d) /\ getvar r "HR" = Some h /\ valid d) /\ r_dt r = None).
(** The date of a report can be stamped: its month is one of the twelve; if the date is valid, its year has at most four digits
    and the hour as printed is one of a day. *)
Definition datable (rnd : string -> Q -> Q) (r : report) : Prop :=
  forall y m d h, getint r "YR" = Some y -> getint r "MO" = Some m -> getint r "DY" = Some d -> getvar r "HR" = Some h ->
    1 <= m <= 12 /\ (valid (mkdate y m d) -> 1 <= y <= 9999 /\ (0 <= rnd "HR" h < 24)%Q).

(** r' is r as read back: the same identifiers, date and flags; the values of the other variables as printed; a drifting buoy;
    nothing else. *)
Definition read_back (rnd : string -> Q -> Q) (r r' : report) : Prop :=
  r_id r' = r_id r /\ r_uid r' = r_uid r /\ stamp_fits r' /\
  (forall v, In v ["YR"; "MO"; "DY"] -> getvar r' v = getvar r v) /\
  (forall v, In v ["HR"; "LAT"; "LON"; "AT"; "SST"; "DPT"; "SLP"] -> getvar r' v = option_map (rnd v) (getvar r v)) /\
  getint r' "PT" = Some 7 /\
  (forall v, In v VARLIST -> ~ In v ["YR"; "MO"; "DY"; "HR"; "LAT"; "LON"; "AT"; "SST"; "DPT"; "SLP"; "PT"] -> getvar r' v = None) /\
  (forall v, In v ["OSTIA"; "ICE"; "BGVAR"] -> getext r' v = Ok (option_map (rnd v) (getvar r v))) /\
  (forall t f, In (t, f) kept_flags -> get_qc r' t f = get_qc r t f) /\
  (forall t f, (forall t' f', In (t', f') kept_flags -> ~ same_key t' f' t f) -> get_qc r' t f = 9).

(** The flags in the two files are flags. *)
Definition flags_in_range (r : report) : Prop := forall t f, In (t, f) kept_flags -> 0 <= get_qc r t f <= 9.
(** A report whose files can be read. *)
Definition readable (rnd : string -> Q -> Q) (r : report) : Prop := legible r /\ datable rnd r /\ flags_in_range r.
(** The path of a file of a platform for a month. *)
Definition month_path (kind out id runid : string) (ym : Z * Z) (path : string) : Prop :=
  exists y m, int_text (fst ym) y /\ padded 2 (snd ym) m /\
    path = (out ++ "/" ++ y ++ "/" ++ m ++ "/" ++ kind ++ "_" ++ y ++ m ++ "_" ++ id ++ "_" ++ runid ++ ".csv")%string.
(** The file of a kind is there, with this content. *)
Definition month_holds (files : string -> option string) (out id runid : string) (ym : Z * Z) (kind content : string) : Prop :=
  exists path, month_path kind out id runid ym path /\ files path = Some content.
Definition month_lacks (files : string -> option string) (out id runid : string) (ym : Z * Z) (kind : string) : Prop :=
  exists path, month_path kind out id runid ym path /\ files path = None.
(** The kinds of files the tracking control reads. *)
Definition month_kinds : list string := ["Variables"; "POS_qc"; "SST_qc"].
(** What the main program left for a month: nothing, or the three files of the reports l. *)
Definition month_left (str_of : string -> Q -> string) (files : string -> option string) (out id runid : string) (ym : Z * Z) (l : list report) : Prop :=
  (l = [] /\ forall kind, In kind month_kinds -> month_lacks files out id runid ym kind) \/
  (exists v p s, month_holds files out id runid ym "Variables" v /\ month_holds files out id runid ym "POS_qc" p /\ month_holds files out id runid ym "SST_qc" s /\
     variable_file str_of documented_voyage_vars l v /\
     flag_file "POS" (nth 0 (map snd documented_voyage_flags) []) l p /\ flag_file "SST" (nth 1 (map snd documented_voyage_flags) []) l s).

(** The platform of a command line: the identifier with blanks up to nine characters. *)
Definition target_of (id target : string) : Prop :=
  exists b, target = (id ++ b)%string /\ chars (fun c => c = " "%char) b /\ String.length target = Nat.max 9 (String.length id).
