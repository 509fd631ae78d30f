(** Model of the files the tracking wrapper reads and writes (Tracking_QC_wrapper.py) and of how its jobs come to run the
    tracking control: the job file as read by the shell, the command line as read by argparse.  No proofs here.

    Not modelled: the queue (sbatch, squeue and the waiting), making directories, the configuration and parameter files (their
    values are arguments), what is printed.  A job that is submitted is its file name and its text. *)
Require Import String Ascii ZArith QArith List Bool.
Require Import Verif.M_Base Verif.M_Calendar Verif.M_Chunks Verif.M_Imma Verif.M_Files Verif.M_Print Verif.M_Report Verif.M_Voyage Verif.M_Track Verif.M_Drifter Verif.M_Tracking.
Import ListNotations.
Open Scope string_scope.
Open Scope list_scope.
Open Scope Z_scope.

(* ---- the files of identifiers ---- *)

(** The lines of a file without their newlines (for line in idfile: line.rstrip("\n")); [line] is what was read of the present line. *)
Fixpoint file_lines (text line : string) : list string :=
  match text with
  | EmptyString => match line with EmptyString => [] | _ => [line] end
  | String c text' => if Ascii.eqb c "010" then line :: file_lines text' "" else file_lines text' (line ++ String c "")%string
  end.
(** Tracking_QC_wrapper.py:204-206: line.split(',')[0] for every line. *)
Definition first_column (line : string) : string := match split_comma line "" with [] => "" | c :: _ => c end.
Definition id_column (text : string) : list string := map first_column (file_lines text "").

(** Tracking_QC_wrapper.py:12-24 safe_dir, and 202: the name of a file of identifiers. *)
Definition safe_dir (out_dir : string) (year month : Z) : string := (out_dir ++ "/" ++ str_of_int year ++ "/" ++ zero_pad 2 month ++ "/")%string.
Definition id_file_name (out_dir : string) (year month : Z) : string := (safe_dir out_dir year month ++ "/ID_file.txt")%string.

(* ---- writing a job ---- *)

(** s.replace(" ", ""). *)
Definition no_spaces (s : string) : string := replace " " "" s.
(** Tracking_QC_wrapper.py:72-75. *)
Definition job_name (targetid : string) (yr1 mn1 yr2 mn2 : Z) (runmonthid runid : string) : string :=
  ("Tracking_job_" ++ no_spaces targetid ++ "_" ++ str_of_int yr1 ++ zero_pad 2 mn1 ++ "_" ++ str_of_int yr2 ++ zero_pad 2 mn2 ++ "_" ++ runmonthid ++ "_" ++ runid)%string.
(** Tracking_QC_wrapper.py:77-79: the options; their order in the dictionary is arbitrary (see [order] below). *)
Definition job_options (config targetid : string) (yr1 mn1 yr2 mn2 : Z) (edge : list string) (runmonthid : string) : list (string * string) :=
  [("id", targetid); ("config", config); ("yr1", str_of_int yr1); ("mn1", str_of_int mn1); ("yr2", str_of_int yr2); ("mn2", str_of_int mn2);
   ("edge", String.concat " " edge); ("runmonthid", runmonthid)].
(** Tracking_QC_wrapper.py:81-83. *)
Definition codedir : string := "/net/home/h04/hadjj/PyWorkspace/Marine_QC/".
Definition job_command (options : list (string * string)) : string :=
  fold_left (fun c o => (c ++ " -" ++ fst o ++ " " ++ snd o)%string) options ("python " ++ codedir ++ "tracking_qc.py")%string.
(** A log file of the job (Tracking_QC_wrapper.py:97-98, 102-103). *)
Definition job_log (kind outdir targetid : string) (yr2 mn2 : Z) (runid : string) : string :=
  (outdir ++ "/TrackingQC/logs" ++ "/SPICE_trackqc_" ++ kind ++ str_of_int yr2 ++ zero_pad 2 mn2 ++ no_spaces targetid ++ "_" ++ runid)%string.
Definition nl : string := String "010" "".
(** Tracking_QC_wrapper.py:92-105: the text of the job file. *)
Definition job_text (order : list (string * string) -> list (string * string)) (config targetid : string) (yr1 mn1 yr2 mn2 : Z) (edge : list string) (runmonthid outdir runid : string) : string :=
  ("#!/bin/bash -l" ++ nl ++ "#SBATCH --mem=8000" ++ nl ++ "#SBATCH --ntasks=1" ++ nl ++
   "#SBATCH --output=" ++ job_log "errout" outdir targetid yr2 mn2 runid ++ nl ++ "#SBATCH --time=30" ++ nl ++ nl ++
   "module load scitools/default_legacy-current" ++ nl ++
   job_command (order (job_options config targetid yr1 mn1 yr2 mn2 edge runmonthid)) ++ " > " ++ job_log "genout" outdir targetid yr2 mn2 runid ++ nl)%string.

(** Tracking_QC_wrapper.py:52-105 write_submission: the job file. *)
Definition write_submission (order : list (string * string) -> list (string * string)) (config targetid : string) (yr1 mn1 yr2 mn2 : Z) (edge : list string) (runmonthid outdir runid : string) : string * string :=
  ((outdir ++ "/TrackingQC/jobs" ++ "/" ++ job_name targetid yr1 mn1 yr2 mn2 runmonthid runid)%string,
   job_text order config targetid yr1 mn1 yr2 mn2 edge runmonthid outdir runid).

(** Tracking_QC_wrapper.py:108-253 main, with the files of identifiers by name; a missing file raises IOError (OtherError here).  [fuel] bounds the
    loop over the months (M_Calendar). *)
Fixpoint read_id_files (files : string -> option string) (out_dir : string) (months : list (Z * Z)) : res (list (Z * Z * list string)) :=
  match months with
  | [] => Ok []
  | (y, m) :: months' =>
      match files (id_file_name out_dir y m) with
      | None => Err OtherError
      | Some text => let! rest := read_id_files files out_dir months' in Ok ((y, m, id_column text) :: rest)
      end
  end.
Definition ids_in (l : list (Z * Z * list string)) (ym : Z * Z) : list string :=
  match find (fun e => ym_eqb (fst e) ym) l with Some e => snd e | None => [] end.
Definition runmonth (y1 m1 y2 m2 : Z) : string := (str_of_int y1 ++ zero_pad 2 m1 ++ "-" ++ str_of_int y2 ++ zero_pad 2 m2)%string.
Definition wrapper_run (fuel : nat) (order : list (string * string) -> list (string * string)) (files : string -> option string)
    (config out_dir track_out_dir runid edge : string) (gap y1 m1 y2 m2 : Z) : res (option (list (string * string))) :=
  if negb (has edge ["standard"; "all"; "new"; "noend"]) then Err OtherError else
  let! ms := year_month_gen fuel y1 m1 y2 m2 in
  match ms with
  | None => Ok None
  | Some months =>
      let! l := read_id_files files out_dir months in
      let! jobs := wrapper fuel (ids_in l) edge gap y1 m1 y2 m2 in
      Ok match jobs with
         | None => None
         | Some jobs => Some (map (fun '(id, (yy1, mm1, yy2, mm2, cl)) => write_submission order config id yy1 mm1 yy2 mm2 cl (runmonth y1 m1 y2 m2) track_out_dir runid) jobs)
         end
  end.

(* ---- the job as run ---- *)

(** The shell, for lines of words of harmless characters, with at most a redirection of the output at the end; everything else
    (quotes, expansions, lists of commands) is outside the model. *)
Definition harmless (c : ascii) : bool :=
  let n := Z.of_nat (nat_of_ascii c) in
  ((48 <=? n) && (n <=? 57)) || ((65 <=? n) && (n <=? 90)) || ((97 <=? n) && (n <=? 122)) || existsb (Ascii.eqb c) ["-"; "_"; "."; "/"; ":"; ","; "+"; "="; "%"; "@"]%char.
Fixpoint words (s word : string) : list string :=
  let done := match word with EmptyString => [] | _ => [word] end in
  match s with
  | EmptyString => done
  | String c s' => if Ascii.eqb c " " then done ++ words s' "" else words s' (word ++ String c "")%string
  end.
Fixpoint all_chars (p : ascii -> bool) (s : string) : bool := match s with EmptyString => true | String c s' => p c && all_chars p s' end.
Fixpoint redirected (ws : list string) : res (list string * option string) :=
  match ws with
  | [] => Ok ([], None)
  | w :: ws' =>
      if String.eqb w ">" then match ws' with [f] => if all_chars harmless f then Ok ([], Some f) else Err OtherError | _ => Err OtherError end
      else if all_chars harmless w then let! (l, o) := redirected ws' in Ok (w :: l, o) else Err OtherError
  end.
Definition shell_line (line : string) : res (list string * option string) := redirected (words line "").
(** The commands of a job file: comments and empty lines are skipped. *)
Definition is_comment (line : string) : bool := match line with String c _ => Ascii.eqb c "#" | EmptyString => true end.
Definition job_commands (text : string) : res (list (list string * option string)) := mapM shell_line (filter (fun l => negb (is_comment l)) (file_lines text "")).

(** The arguments of tracking_qc.py (lines 123-134). *)
Record track_args := { a_config : string; a_id : option string; a_yr1 : option Z; a_mn1 : option Z; a_yr2 : option Z; a_mn2 : option Z; a_edge : option (list string); a_runmonthid : string }.
Definition no_args : track_args :=
  {| a_config := "configuration.txt"; a_id := None; a_yr1 := None; a_mn1 := None; a_yr2 := None; a_mn2 := None; a_edge := None; a_runmonthid := "" |}.
(** Does a word look like an option?  (A lone "-" is an argument.  Simplification: so are negative numbers for argparse; here they are not.) *)
Definition dash (w : string) : bool := match w with String "-" (String _ _) => true | _ => false end.
Fixpoint take_args (ws : list string) : list string * list string :=
  match ws with
  | [] => ([], [])
  | w :: ws' => if dash w then ([], ws) else let (a, b) := take_args ws' in (w :: a, b)
  end.
(** argparse: the program ends (SystemExit) on a missing or superfluous argument or on one that is not a number.  Simplification:
    abbreviated options and options joined with their argument are taken as unknown.  [fuel] bounds the number of options. *)
Definition set_arg (o : string) (args : list string) (a : track_args) : res track_args :=
  let int f := match args with [s] => let! z := int_of_str s in Ok (f (Some z)) | _ => Err OtherError end in
  let str f := match args with [s] => Ok (f s) | _ => Err OtherError end in
  if String.eqb o "-config" then str (fun s => {| a_config := s; a_id := a_id a; a_yr1 := a_yr1 a; a_mn1 := a_mn1 a; a_yr2 := a_yr2 a; a_mn2 := a_mn2 a; a_edge := a_edge a; a_runmonthid := a_runmonthid a |})
  else if String.eqb o "-id" then str (fun s => {| a_config := a_config a; a_id := Some s; a_yr1 := a_yr1 a; a_mn1 := a_mn1 a; a_yr2 := a_yr2 a; a_mn2 := a_mn2 a; a_edge := a_edge a; a_runmonthid := a_runmonthid a |})
  else if String.eqb o "-yr1" then int (fun z => {| a_config := a_config a; a_id := a_id a; a_yr1 := z; a_mn1 := a_mn1 a; a_yr2 := a_yr2 a; a_mn2 := a_mn2 a; a_edge := a_edge a; a_runmonthid := a_runmonthid a |})
  else if String.eqb o "-mn1" then int (fun z => {| a_config := a_config a; a_id := a_id a; a_yr1 := a_yr1 a; a_mn1 := z; a_yr2 := a_yr2 a; a_mn2 := a_mn2 a; a_edge := a_edge a; a_runmonthid := a_runmonthid a |})
  else if String.eqb o "-yr2" then int (fun z => {| a_config := a_config a; a_id := a_id a; a_yr1 := a_yr1 a; a_mn1 := a_mn1 a; a_yr2 := z; a_mn2 := a_mn2 a; a_edge := a_edge a; a_runmonthid := a_runmonthid a |})
  else if String.eqb o "-mn2" then int (fun z => {| a_config := a_config a; a_id := a_id a; a_yr1 := a_yr1 a; a_mn1 := a_mn1 a; a_yr2 := a_yr2 a; a_mn2 := z; a_edge := a_edge a; a_runmonthid := a_runmonthid a |})
  else if String.eqb o "-edge" then match args with [] => Err OtherError | _ => Ok {| a_config := a_config a; a_id := a_id a; a_yr1 := a_yr1 a; a_mn1 := a_mn1 a; a_yr2 := a_yr2 a; a_mn2 := a_mn2 a; a_edge := Some args; a_runmonthid := a_runmonthid a |} end
  else if String.eqb o "-runmonthid" then str (fun s => {| a_config := a_config a; a_id := a_id a; a_yr1 := a_yr1 a; a_mn1 := a_mn1 a; a_yr2 := a_yr2 a; a_mn2 := a_mn2 a; a_edge := a_edge a; a_runmonthid := s |})
  else Err OtherError.
Fixpoint parse_args (fuel : nat) (ws : list string) (a : track_args) : res track_args :=
  match ws with
  | [] => Ok a
  | w :: ws' =>
      match fuel with
      | O => Err OtherError
      | S k => if dash w then let (args, rest) := take_args ws' in let! a := set_arg w args a in parse_args k rest a else Err OtherError
      end
  end.
(** The arguments with which a job starts tracking_qc.py, if it starts it once and nothing else but the loading of a module. *)
Definition job_args (text : string) : res track_args :=
  let! l := job_commands text in
  match l with
  | [("module" :: _, None); ("python" :: script :: ws, Some _)] =>
      if String.eqb script (codedir ++ "tracking_qc.py")%string then parse_args (length ws) ws no_args else Err OtherError
  | _ => Err OtherError
  end.
(** tracking_qc.py:136-163: the tracking control with the arguments; None as identifier, year or list of edge cases raises TypeError. *)
Definition tracking_job (sp : sphere) (elev : Z -> Z -> Q -> Q -> Q -> Q -> Q) (sq : Q -> Q) (str_of : string -> Q -> string) (float_of : string -> res Q) (files : string -> option string)
    (p : track_params) (out_dir track_out_dir : string) (fuel : nat) (a : track_args) : res (option (list file)) :=
  match a_id a, a_yr1 a, a_mn1 a, a_yr2 a, a_mn2 a, a_edge a with
  | Some id, Some y1, Some m1, Some y2, Some m2, Some edge => tracking_qc sp elev sq str_of float_of files p out_dir track_out_dir id fuel y1 m1 y2 m2 edge (a_runmonthid a)
  | _, _, _, _, _, _ => Err TypeError
  end.
