(** Specification of the checks of the main program: which reports take part in which check. *)
Require Import String Ascii ZArith QArith List.
Require Import Verif.M_Base Verif.M_Report Verif.S_Report Verif.S_Imma Verif.S_Files Verif.S_Print.
Import ListNotations.
Open Scope string_scope.
Open Scope Z_scope.

Definition zero_flags (type : string) (flags : list string) (r : report) : Prop := forall f, In f flags -> get_qc r type f = 0.
(** Date, time and position are good and the report is not blacklisted; for the comparison with neighbours it must also be on course. *)
Definition well_placed (r : report) : Prop := zero_flags "POS" ["date"; "time"; "pos"; "blklst"] r.
Definition on_course (r : report) : Prop := well_placed r /\ get_qc r "POS" "trk" = 0.
(** A value is there, near its normal, and the normal is there. *)
Definition near_normal (v : string) (r : report) : Prop := zero_flags v ["noval"; "clim"; "nonorm"] r.
(** The reports compared with their neighbours: sea temperatures not frozen and not of the surveys of deck 780; air temperatures of ships
    at night, not blacklisted; dew points not blacklisted; pressures. *)
Definition fit_sst (r : report) : Prop := on_course r /\ near_normal "SST" r /\ get_qc r "SST" "freez" = 0 /\ get_qc r "POS" "is780" = 0.
Definition fit_at (r : report) : Prop := on_course r /\ near_normal "AT" r /\ get_qc r "POS" "isship" = 1 /\ get_qc r "POS" "day" = 0 /\ get_qc r "AT" "mat_blacklist" = 0.
Definition fit_dpt (r : report) : Prop := on_course r /\ near_normal "DPT" r /\ get_qc r "DPT" "hum_blacklist" = 0.
Definition fit_slp (r : report) : Prop := on_course r /\ near_normal "SLP" r.
(** A filter lets through the reports with a property. *)
Definition lets_through (f : qc_filter) (P : report -> Prop) : Prop := forall r, test_report f r = 0 <-> P r.

(** One check after the other. *)
Inductive chain : list (list report -> res (list report)) -> list report -> list report -> Prop :=
| chain_end : forall v, chain [] v v
| chain_step : forall c cs v w x, c v = Ok w -> chain cs w x -> chain (c :: cs) v x.

(** The line of a drifter in the file of identifiers. *)
Definition id_line (id line : string) : Prop := exists safe, made_safe id safe /\ line = (id ++ "," ++ safe ++ String "010"%char "")%string.
(** The files of a drifter for a month: variables, flags. *)
Definition drifter_files (str_of : string -> Q -> string) (runid dir : string) (year month : Z) (id : string) (l : list report) (files : list (string * string)) : Prop :=
  exists y m content safe flags, int_text year y /\ padded 2 month m /\ made_safe id safe /\
    files = (dir ++ "/Variables_" ++ y ++ m ++ "_" ++ safe ++ "_" ++ runid ++ ".csv", content)%string :: flags /\
    variable_file str_of documented_voyage_vars l content /\
    Forall2 (fun tn f => fst f = (dir ++ "/" ++ fst tn ++ "_qc_" ++ y ++ m ++ "_" ++ id ++ "_" ++ runid ++ ".csv")%string /\ flag_file (fst tn) (snd tn) l (snd f)) documented_voyage_flags flags.
(** A line without its line ends, then blanks up to 108 characters. *)
Definition full_line (line s : string) : Prop :=
  exists a e b, line = (a ++ e)%string /\ chars (fun c => c = "010"%char) e /\ (forall a', a <> a' ++ String "010"%char "")%string /\ s = (a ++ b)%string /\ chars (fun c => c = " "%char) b /\
    String.length s = Nat.max 108 (String.length a).
