(** Model of the tracking quality control of one drifting buoy (tracking_qc.py) and of the methods of Voyage it calls
    (Extended_IMMA.py:2283-2437).  No proofs here.

    Files are their names and contents; what is printed on the terminal, the command line and the configuration are not
    modelled (their values are arguments).  Making directories never fails here; [oldqc] is False as in the code (line 139). *)
Require Import String Ascii ZArith QArith List Bool.
Require Import Verif.M_Base Verif.M_Calendar Verif.M_Report Verif.M_Voyage Verif.M_Track Verif.M_Drifter Verif.M_Imma Verif.M_Files Verif.M_Print.
Import ListNotations.
Open Scope string_scope.
Open Scope list_scope.
Open Scope Z_scope.

(* ---- the drifter checks as methods of a voyage ---- *)

Section Checks.
Variable sp : sphere.

(** Extended_IMMA.py:2292-2306, and alike in the other methods: nothing is done without reports or if the first one is not
    from a drifter; an AssertionError of the check is raised again as an AssertionError. *)
Definition if_drifter (check : list report -> res (list report)) (sort : bool) (v : list report) : res (list report) :=
  match v with
  | [] => Ok v
  | r :: _ =>
      match getint r "PT" with
      | Some 7 => let! v := if sort then voyage_sort sp v else Ok v in check v
      | _ => Ok v
      end
  end.
(** Extended_IMMA.py:2283-2306 buoy_aground_check. *)
Definition buoy_aground_check (smooth_win min_win max_win : Z) := if_drifter (aground_check sp smooth_win min_win max_win).
(** Extended_IMMA.py:2308-2330 new_buoy_aground_check. *)
Definition new_buoy_aground_check (smooth_win min_win : Z) := if_drifter (new_aground_check sp smooth_win min_win).
(** Extended_IMMA.py:2332-2355 buoy_speed_check. *)
Definition buoy_speed_check (limit min_win max_win : Q) := if_drifter (speed_check sp limit min_win max_win).
(** Extended_IMMA.py:2357-2381 new_buoy_speed_check. *)
Definition new_buoy_speed_check (iquam : iquam_params) (limit min_win : Q) := if_drifter (new_speed_check sp iquam limit min_win).

(** Elevation of the sun and square root, as in M_Drifter. *)
Variable elev : Z -> Z -> Q -> Q -> Q -> Q -> Q.
Variable sq : Q -> Q.
(** Extended_IMMA.py:2383-2409 buoy_tail_check. *)
Definition buoy_tail_check (p : tail_params) := if_drifter (sst_tail_check elev sq p).
(** Extended_IMMA.py:2411-2437 buoy_bias_noise_check. *)
Definition buoy_bias_noise_check (p : bias_params) := if_drifter (sst_biased_noisy_check elev sq p).

(* ---- tracking_qc.main, the checks ---- *)

(** A voyage refers to reports of rep_list: it is modelled by the positions of its reports in rep_list with their present
    contents.  Sorting moves the references. *)
Fixpoint ins_ref (x : nat * report) (l : list (nat * report)) : list (nat * report) :=
  match l with
  | [] => [x]
  | y :: l' => if rep_gt (snd x) (snd y) then y :: ins_ref x l' else x :: l
  end.
Definition sort_refs (l : list (nat * report)) : list (nat * report) := fold_right ins_ref [] l.
(** tracking_qc.py:286-290, 312-316, 342-346, 372-376: the reports wanted, added one by one to a voyage, then sorted
    (Extended_IMMA.py:1585-1597). *)
Definition positions (want : report -> bool) (reps : list report) : list nat :=
  map fst (filter (fun p => want (snd p)) (combine (seq 0 (length reps)) reps)).
Definition record_of (want : report -> bool) (reps : list report) : res (list nat * list report) :=
  let sel := positions want reps in
  let! v := add_reports sp [] (filter want reps) in
  match sort_refs (combine sel v) with
  | [] => Ok ([], [])
  | (i, r) :: l => let! v := remotion sp r (map snd l) in Ok (i :: map fst l, r :: v)
  end.
(** The check on that voyage; its reports are those of rep_list. *)
Definition stage (want : report -> bool) (check : list report -> res (list report)) (reps : list report) : res (list report) :=
  let! (sel, v) := record_of want reps in
  let! v := check v in
  Ok (put_back sel v reps).

(** tracking_qc.py:280-285 and 304-309. *)
Definition track_filter : qc_filter := [("POS", "isbuoy", 1); ("POS", "date", 0); ("POS", "time", 0); ("POS", "pos", 0); ("POS", "blklst", 0)].
(** tracking_qc.py:327-341. *)
Definition tail_filter : qc_filter :=
  track_filter ++ [("SST", "clim", 0); ("SST", "nonorm", 0); ("SST", "freez", 0); ("SST", "noval", 0); ("SST", "rep", 0); ("SST", "hardlimit", 0);
                   ("POS", "drf_agr", 0); ("POS", "drf_spd", 0)].
(** tracking_qc.py:355-371. *)
Definition bias_filter : qc_filter := tail_filter ++ [("SST", "drf_tail1", 0); ("SST", "drf_tail2", 0)].
(** tracking_qc.py:288: test_report(rep) == 0. *)
Definition passes (f : qc_filter) (r : report) : bool := test_report f r =? 0.
(** tracking_qc.py:344, 374: and the Bayesian buddy check gives a chance below 0.4. *)
Definition passes_bayes (f : qc_filter) (r : report) : bool := passes f r && (get_qc r "SST" "bbud" <? 4).

(** The entries of the parameter file that are used. *)
Record track_params := {
  tp_smooth : Z; tp_aground : Z; tp_iquam : iquam_params; tp_speed : Q; tp_speed_win : Q; tp_tail : tail_params; tp_bias : bias_params; tp_runid : string }.

(** tracking_qc.py:276-380: aground, picked up, tails, bias and noise. *)
Definition track_checks (p : track_params) (reps : list report) : res (list report) :=
  let! reps := stage (passes track_filter) (new_buoy_aground_check (tp_smooth p) (tp_aground p) false) reps in
  let! reps := stage (passes track_filter) (new_buoy_speed_check (tp_iquam p) (tp_speed p) (tp_speed_win p) false) reps in
  let! reps := stage (passes_bayes tail_filter) (buoy_tail_check (tp_tail p) false) reps in
  stage (passes_bayes bias_filter) (buoy_bias_noise_check (tp_bias p) false) reps.

(* ---- tracking_qc.main, the output ---- *)

Variable str_of : string -> Q -> string.
(** tracking_qc.py:28-44 safe_make_tracking_dir, 47-65 safe_make_edge_dir: the directory (BackgroundField.py:48-68). *)
Definition tracking_dir (out_dir : string) (year month : Z) : string :=
  last (build_completions out_dir ["TrackingQC"; str_of_int year; zero_pad 2 month]) "".
Definition edge_dir (out_dir : string) (year month : Z) (edge runmonthid : string) : string :=
  path_join (tracking_dir out_dir year month) (edge ++ "_" ++ runmonthid)%string.
(** tracking_qc.py:382-386: the voyage of all reports. *)
Definition whole_record (reps : list report) : res (list report) :=
  let! v := add_reports sp [] reps in voyage_sort sp v.
(** tracking_qc.py:390-416. *)
Definition track_output (p : track_params) (track_out_dir : string) (edge : list string) (runmonthid : string) (year2 month2 : Z) (voy : list report) : res (list file) :=
  let! a := if mem "new" edge || mem "regular" edge
            then let! f := write_tracking_output str_of voy (tp_runid p) (tracking_dir track_out_dir year2 month2) year2 month2 in Ok [f] else Ok [] in
  let! b := if mem "start_edge_case" edge
            then let! f := write_tracking_output str_of voy (tp_runid p) (edge_dir track_out_dir year2 month2 "start_edge_case" runmonthid) year2 month2 in Ok [f] else Ok [] in
  let! c := if mem "end_edge_case" edge
            then let! f := write_tracking_output str_of voy (tp_runid p) (edge_dir track_out_dir year2 month2 "end_edge_case" runmonthid) year2 month2 in Ok [f] else Ok [] in
  Ok (a ++ b ++ c).

(* ---- tracking_qc.main, reading the files of the main program ---- *)

(** csv.reader of the standard library (excel dialect, Python 2): a state, the characters of the present field, the fields of the
    present row.  [None] is the end of a line. *)
Inductive cstate := StartRow | StartField | InField | InQuotes | QuoteInQuotes | EatNewline.
Definition is_eol (c : ascii) : bool := Ascii.eqb c "010" || Ascii.eqb c "013".
Definition csv_step (s : cstate) (field : string) (row : list string) (c : option ascii) : res (cstate * string * list string) :=
  let keep st x := Ok (st, (field ++ String x "")%string, row) in
  let save st := Ok (st, "", row ++ [field]) in
  let start_field :=
    match c with
    | None => save StartRow
    | Some x => if is_eol x then save EatNewline else if Ascii.eqb x """" then Ok (InQuotes, field, row) else if Ascii.eqb x "," then save StartField else keep InField x
    end in
  match s with
  | StartRow => match c with None => Ok (StartRow, field, row) | Some x => if is_eol x then Ok (EatNewline, field, row) else start_field end
  | StartField => start_field
  | InField => match c with None => save StartRow | Some x => if is_eol x then save EatNewline else if Ascii.eqb x "," then save StartField else keep InField x end
  | InQuotes => match c with None => Ok (InQuotes, field, row) | Some x => if Ascii.eqb x """" then Ok (QuoteInQuotes, field, row) else keep InQuotes x end
  | QuoteInQuotes =>
      match c with
      | None => save StartRow
      | Some x => if Ascii.eqb x """" then keep InQuotes x else if Ascii.eqb x "," then save StartField else if is_eol x then save EatNewline else keep InField x
      end
  | EatNewline => match c with None => Ok (StartRow, field, row) | Some x => if is_eol x then Ok (EatNewline, field, row) else Err OtherError end
  end.
(** The rows: a line ends after a newline or at the end of the file; a row ends with a line unless it is inside quotes. *)
Fixpoint csv_rows (text : string) (s : cstate) (field : string) (row : list string) (fresh : bool) : res (list (list string)) :=
  let line_end s field row (more : cstate -> string -> list string -> res (list (list string))) :=
    let! (s, field, row) := csv_step s field row None in
    match s with StartRow => let! rows := more StartRow "" [] in Ok (row :: rows) | _ => more s field row end in
  let finish s (field : string) row := match s with InQuotes => Ok [row ++ [field]] | _ => if String.eqb field "" then Ok [] else Ok [row ++ [field]] end in
  match text with
  | EmptyString => if fresh then finish s field row else line_end s field row (fun s field row => finish s field row)
  | String c text' =>
      let! (s, field, row) := csv_step s field row (Some c) in
      if Ascii.eqb c "010" then line_end s field row (fun s field row => csv_rows text' s field row true)
      else csv_rows text' s field row false
  end.
Definition csv_read (text : string) : res (list (list string)) := csv_rows text StartRow "" [] true.

(** The first line and the rest (readline keeps the newline). *)
Fixpoint cut_line (s : string) : string * string :=
  match s with
  | EmptyString => ("", "")
  | String c s' => if Ascii.eqb c "010" then (String c "", s') else let (a, b) := cut_line s' in (String c a, b)
  end.
(** The number of lines, counted as by a loop over the file. *)
Fixpoint count_lines (s : string) (fresh : bool) : Z :=
  match s with
  | EmptyString => if fresh then 0 else 1
  | String c s' => if Ascii.eqb c "010" then 1 + count_lines s' true else count_lines s' false
  end.
(** s.split(','). *)
Fixpoint split_comma (s : string) (field : string) : list string :=
  match s with
  | EmptyString => [field]
  | String c s' => if Ascii.eqb c "," then field :: split_comma s' "" else split_comma s' (field ++ String c "")%string
  end.
(** s[:-1]. *)
Definition drop_last (s : string) : string := substring 0 (String.length s - 1) s.
(** tracking_qc.py:199-201, 227-229, 252-254: the names of the columns. *)
Definition column_names (header : string) : list string := split_comma (drop_last header) "".

(** csv.DictReader: the values by name, a later column of the same name wins, None for the columns a short row lacks; true if
    the row is longer than the names.  The empty rows are left out. *)
Definition row_dict (names row : list string) : list (string * option string) * bool :=
  let n := length names in let k := length row in
  (rev (combine names (map Some row ++ repeat None (n - k))), (n <? k)%nat).
Definition dict_rows (names : list string) (rows : list (list string)) : list (list (string * option string) * bool) :=
  map (row_dict names) (filter (fun row => match row with [] => false | _ => true end) rows).
(** line[key]: KeyError without the column. *)
Definition lookup_cell (line : list (string * option string)) (key : string) : res (option string) :=
  match assoc key line with Some v => Ok v | None => Err KeyError end.

Section Read.
(** float of a text; ValueError if it is not a number.  Simplification: it is never NaN. *)
Variable float_of : string -> res Q.
Definition float_opt (o : option string) : res (option Q) := match o with None => Ok None | Some s => let! q := float_of s in Ok (Some q) end.

(** tracking_qc.py:12-25 EasyImma: the text \N stands for None; the platform type is 7 if there is none.  The value of a variable
    becomes a float when stored in the array (Extended_IMMA.py:347-372). *)
Definition easy (line : list (string * option string)) : list (string * option string) :=
  map (fun '(k, v) => (k, match v with Some s => if String.eqb s "\N" then None else Some s | None => None end)) line.
Fixpoint numbers (line : list (string * option string)) (vars : list string) : res (list (string * option Q)) :=
  match vars with
  | [] => Ok []
  | v :: vars' =>
      let! q := match assoc v line with
                | Some o => float_opt o
                | None => Ok (if String.eqb v "PT" then Some 7%Q else None)
                end in
      let! l := numbers line vars' in Ok ((v, q) :: l)
  end.
Definition text_cell (line : list (string * option string)) (key : string) : option string := match assoc key line with Some o => o | None => None end.
(** tracking_qc.py:207-216: a report from a row.  The exceptions are those of the code, their order is not modelled. *)
Definition report_of_row (line : list (string * option string)) : res report :=
  let line := easy line in
  let! fields := numbers line VARLIST in
  let! r := new_report (text_cell line "ID") (text_cell line "UID") fields in
  let! o := lookup_cell line "OSTIA" in let! o := float_opt o in
  let! i := lookup_cell line "ICE" in let! i := float_opt i in
  let! b := lookup_cell line "BGVAR" in let! b := float_opt b in
  Ok (setext (setext (setext r "OSTIA" o) "ICE" i) "BGVAR" b).
(** tracking_qc.py:195-219: the reports of a file of variables. *)
Definition read_variables (text : string) : res (list report) :=
  let (header, rest) := cut_line text in
  let names := column_names header in
  if (11 <? length names)%nat then
    let names := update_nth 11 "AT_anom" names in
    if (13 <? length names)%nat then
      let names := update_nth 13 "SST_anom" names in
      let! rows := csv_read rest in
      mapM (fun d => report_of_row (fst d)) (dict_rows names rows)
    else Err IndexError
  else Err IndexError.

(** tracking_qc.py:233-240: one row of flags for a report. *)
Definition strip (s : string) : string := lstrip (rstrip s).
Fixpoint row_flags (type : string) (line : list (string * option string)) (names : list string) (r : report) : res report :=
  match names with
  | [] => Ok r
  | key :: names' =>
      let! cell := lookup_cell line key in
      let! r :=
        if String.eqb key "UID" then
          match cell, r_uid r with
          | Some s, Some u => if String.eqb (strip s) (strip u) then Ok r else Err OtherError
          | _, _ => Err AttributeError
          end
        else match cell with Some s => let! z := int_of_str s in set_qc r type key z | None => Err TypeError end in
      row_flags type line names' r
  end.
(** tracking_qc.py:223-244, 248-269: the flags of a month, for the reports from position [count] on. *)
Fixpoint add_flags (type : string) (names : list string) (lines : list (list (string * option string) * bool)) (reps : list report) : res (list report) :=
  match lines with
  | [] => Ok reps
  | (line, longer) :: lines' =>
      match reps with
      | [] => Err IndexError
      | r :: reps' =>
          let! r := row_flags type line names r in
          if longer then Err TypeError
          else let! reps' := add_flags type names lines' reps' in Ok (r :: reps')
      end
  end.
Definition read_flags (type text : string) (reps : list report) : res (list report) :=
  let (header, rest) := cut_line text in
  let names := column_names header in
  let! rows := csv_read rest in
  add_flags type names (dict_rows names rows) reps.

(** The files that exist with their contents. *)
Variable files : string -> option string.
(** tracking_qc.py:160-162. *)
Definition month_file (kind out_dir id runid : string) (year month : Z) : string :=
  (out_dir ++ "/" ++ str_of_int year ++ "/" ++ zero_pad 2 month ++ "/" ++ kind ++ "_" ++ str_of_int year ++ zero_pad 2 month ++ "_" ++ id ++ "_" ++ runid ++ ".csv")%string.
(** tracking_qc.py:151-271: the reports of one month; a UserWarning is an OtherError. *)
Definition read_month (out_dir id runid : string) (year month : Z) : res (list report) :=
  match files (month_file "Variables" out_dir id runid year month), files (month_file "POS_qc" out_dir id runid year month), files (month_file "SST_qc" out_dir id runid year month) with
  | None, None, None => Ok []
  | Some v, Some p, Some s =>
      let n := count_lines v true in
      if (n =? 0) || negb (count_lines p true =? n) || negb (count_lines s true =? n) then Err OtherError
      else
        let! reps := read_variables v in
        let! reps := read_flags "POS" p reps in
        read_flags "SST" s reps
  | _, _, _ => Err OtherError
  end.
Fixpoint read_months (out_dir id runid : string) (months : list (Z * Z)) : res (list report) :=
  match months with
  | [] => Ok []
  | (y, m) :: months' => let! a := read_month out_dir id runid y m in let! b := read_months out_dir id runid months' in Ok (a ++ b)
  end.

(** tracking_qc.py:68-416 main, for the identifier given on the command line.  [fuel] bounds the loop over the months (M_Calendar):
    None if it does not end. *)
Definition tracking_qc (p : track_params) (out_dir track_out_dir id : string) (fuel : nat) (year1 month1 year2 month2 : Z) (edge : list string) (runmonthid : string)
  : res (option (list file)) :=
  let target := pad_right 9 id in
  let! months := year_month_gen fuel year1 month1 year2 month2 in
  match months with
  | None => Ok None
  | Some months =>
      let! reps := read_months out_dir target (tp_runid p) months in
      match reps with
      | [] => Err OtherError
      | _ =>
          let! reps := track_checks p reps in
          let! voy := whole_record reps in
          let! out := track_output p track_out_dir edge runmonthid year2 month2 voy in
          Ok (Some out)
      end
  end.
End Read.
End Checks.
