(** Model of the main program marine_qc.py:129-353: the months of a run, the three-month window of each, reading and preparing
    the reports, the checks of ships and of the whole deck, and the output files.  No proofs here.

    The surroundings of the program are arguments: the lines of the ICOADS file of a month (no file: None), the climatologies,
    the background fields of a day, the humidity formulas (M_Hum), the geometry of the sphere, printing of floats.
    Creating the output directory (C53) and choosing file names (C52) are modelled in M_Files; here the directory of a month is an argument.  The text
    printed on the terminal is not modelled. *)
Require Import String Ascii ZArith QArith Qround List Bool.
Require Import Verif.M_Base Verif.M_Calendar Verif.M_Checks Verif.M_Report Verif.M_Imma Verif.M_Grid Verif.M_Voyage Verif.M_Track Verif.M_Buddy
  Verif.M_BaseQC Verif.M_Files Verif.M_Print.
Import ListNotations.
Open Scope string_scope.
Open Scope list_scope.
Open Scope Z_scope.

Record setup := {
  (** attachment tables of IMMA1.py; identifiers to leave out (marine_qc.py:111) *)
  e_tables : list (Z * (string * list (string * def)));
  e_excluded : list string;
  (** lines of the file of a year and month (marine_qc.py:149-156) *)
  e_lines : Z -> Z -> option (list string);
  (** climlib.get_field(variable, statistic); None: the field was not loaded (marine_qc.py:124-127) *)
  e_lib : string -> string -> option clim;
  (** the variance of the background, by month read (145-147); SST and ice of the background of a day (184-194) *)
  e_bgvar : Z -> res clim;
  e_ostia : option (Z * Z * Z) -> res (clim * clim);
  (** rep.calculate_humidity_variables(['SHU', 'VAP', 'CRH', 'CWB', 'DPD']) (223) *)
  e_hum : report -> res report;
  e_elev : Z -> Z -> Q -> Q -> Q -> Q -> Q;
  e_base : params;
  (** checks of ships *)
  e_sphere : sphere;
  e_prt : Q -> Q;
  e_track : track_params;
  e_iquam : iquam_params;
  e_spike : spike_params;
  e_sat : Q * Z;
  e_round : Z * Q;
  e_rep : Z * Q;
  (** buddy checks *)
  e_xspan : Z -> Z -> Z;
  e_sqrt : Q -> Q;
  e_gross : Q -> Q -> Q -> Q -> option Q;
  e_sd_old : clim;
  e_sd1 : clim;
  e_sd2 : clim;
  e_sd3 : clim;
  e_radius : Z * Z * Z;
  e_sigma_m : Q;
  e_noise : Q;
  e_buddy : list (Z * Z * Z) * list (list Z) * list (list Q);
  e_slp_buddy : list (Z * Z * Z) * list (list Z) * list (list Q);
  (** output *)
  e_str_of : string -> Q -> string;
  e_runid : string;
  e_dir : Z -> Z -> string;
  e_tracking : bool }.

Section Main.
Variable E : setup.

(** rec.data[name] of a decoded record as a number; the names in VARLIST never have a text encoding. *)
Definition number_of (v : value) : option Q :=
  match v with VInt z => Some (inject_Z z) | VFloat q => Some q | _ => None end.
Definition text_of (o : option value) : option string := match o with Some (VStr s) => Some s | _ => None end.
(** Extended_IMMA.py:347-372: a report from a decoded record. *)
Definition report_of (im : imma) : res report :=
  new_report (text_of (assoc "ID" (im_data im))) (text_of (assoc "UID" (im_data im)))
             (map (fun n => (n, match assoc n (im_data im) with Some v => number_of v | None => None end)) VARLIST).

(** The fields of the core up to the identifier: if they cannot all be read, rec.data has no 'ID' (marine_qc.py:162-169). *)
Fixpoint up_to_id (table : list (string * def)) : list (string * def) :=
  match table with
  | [] => []
  | (p, d) :: table' => if String.eqb p "ID" then [(p, d)] else (p, d) :: up_to_id table'
  end.
Definition id_read (line : string) : bool :=
  let line := rstrip_newline line in
  let line := if Z.of_nat (String.length line) <? 108 then (line ++ pad_left (Z.to_nat (108 - Z.of_nat (String.length line))) " ")%string else line in
  match get_table (e_tables E) 0 with
  | Ok t => match decode (up_to_id t) line [] with Ok _ => true | Err _ => false end
  | Err _ => false
  end.
Definition int_value (o : option value) (z : Z) : bool :=
  match o with Some (VInt n) => n =? z | Some (VFloat q) => Qeqb q (inject_Z z) | _ => false end.
(** marine_qc.py:162-172: the record of a line if it is to be used.  A line whose identifier was not read raises KeyError. *)
Definition accept (readyear readmonth : Z) (line : string) : res (option imma) :=
  match readstr (e_tables E) line new_imma with
  | None => Err OtherError
  | Some (Err _) => if id_read line then Ok None else Err KeyError
  | Some (Ok im) =>
      match assoc "ID" (im_data im) with
      | None => Err KeyError
      | Some v =>
          if match v with VStr s => mem s (e_excluded E) | _ => false end then Ok None
          else match assoc "YR" (im_data im) with
               | None => Err KeyError
               | Some y =>
                   if int_value (Some y) readyear then
                     match assoc "MO" (im_data im) with
                     | None => Err KeyError
                     | Some m => if int_value (Some m) readmonth then Ok (Some im) else Ok None
                     end
                   else Ok None
               end
      end
  end.

(** climlib.get_field. *)
Definition field_of (name stat : string) : res clim :=
  match e_lib E name stat with Some c => Ok c | None => Err AssertionError end.
(** A climatology at a report's place and date: a missing day counts as below 1, a missing coordinate raises. *)
Definition look (get : clim -> Q -> Q -> Z -> Z -> res (option Q)) (c : clim) (r : report) : res (option Q) :=
  match getint r "MO", getint r "DY" with
  | Some m, Some d =>
      match lat r, lon r with
      | Some la, Some lo => get c la lo m d
      | _, _ => if clim_date_ok m d then Err TypeError else Ok None
      end
  | _, _ => Ok None
  end.
(** marine_qc.py:205-214: means, 216-221: means and standard deviations. *)
Fixpoint add_means (get : clim -> Q -> Q -> Z -> Z -> res (option Q)) (names : list string) (r : report) : res report :=
  match names with
  | [] => Ok r
  | n :: names' =>
      let! c := field_of n "mean" in
      let! x := look get c r in
      add_means get names' (add_climate_variable r n x None)
  end.
Fixpoint add_stdevs (names : list string) (r : report) : res report :=
  match names with
  | [] => Ok r
  | n :: names' =>
      let! c := field_of n "mean" in
      let! x := look get_value c r in
      let! s := field_of n "stdev" in
      let! y := look get_value s r in
      add_stdevs names' (add_climate_variable r n x y)
  end.

(** Day of the background in use and its fields. *)
Definition loaded := (Z * option (clim * clim))%type.
(** 'OSTIA' at the place of a report. *)
Definition ostia_at (c : clim) (r : report) : res (option Q) :=
  match lat r, lon r with Some la, Some lo => get_value_ostia c la lo | _, _ => Err TypeError end.
(** marine_qc.py:179-203.  The fields of an earlier month cannot be used, as lastday starts at -99 for every month. *)
Definition background (readyear readmonth : Z) (st : loaded) (bgvar : option clim) (r : report) : res (loaded * report) :=
  match getint r "DY" with
  | Some day =>
      if e_tracking E && (1985 <=? readyear) then
        let! st := (if day =? fst st then Ok st
                    else let! f := e_ostia E (yesterday readyear readmonth day) in Ok (day, Some f)) in
        match snd st, bgvar with
        | Some (sst, ice), Some v =>
            let! x := ostia_at sst r in
            let r := setext r "OSTIA" (match x with Some q => Some (q - (27315 # 100))%Q | None => None end) in
            let! y := ostia_at ice r in
            let r := setext r "ICE" y in
            let! z := look get_value_mds_style v r in
            Ok (st, setext r "BGVAR" z)
        | _, _ => Err AssertionError
        end
      else Ok (st, r)
  | None => Ok (st, r)
  end.

(** marine_qc.py:174-226: a report from a record to the end of its base checks. *)
Definition prepare (year month readyear readmonth : Z) (st : loaded) (bgvar : option clim) (im : imma) : res (loaded * report) :=
  let! r := report_of im in
  let! r := setvar r "AT2" (getvar r "AT") in
  let! (st, r) := background readyear readmonth st bgvar r in
  let! r := add_means get_value_mds_style ["SST"; "AT"] r in
  let! r := add_means get_value ["SLP2"; "SHU"; "CRH"; "CWB"; "DPD"] r in
  let! r := add_stdevs ["DPT"; "AT2"; "SLP"] r in
  let! r := e_hum E r in
  let! r := perform_base_qc (e_elev E) (e_base E) r in
  let! r := set_qc r "POS" "month_match"
              (match getint r "YR", getint r "MO" with Some y, Some m => month_match year month y m | _, _ => 0 end) in
  Ok (st, r).

(** marine_qc.py:160-231: the lines of a file. *)
Fixpoint read_lines (year month readyear readmonth : Z) (bgvar : option clim) (lines : list string) (st : loaded) (d : deck) : res (loaded * deck) :=
  match lines with
  | [] => Ok (st, d)
  | line :: lines' =>
      let! o := accept readyear readmonth line in
      match o with
      | None => read_lines year month readyear readmonth bgvar lines' st d
      | Some im =>
          let! (st, r) := prepare year month readyear readmonth st bgvar im in
          read_lines year month readyear readmonth bgvar lines' st (deck_append d r)
      end
  end.
(** marine_qc.py:140-233: the months of the window. *)
Fixpoint read_window (year month : Z) (window : list (Z * Z)) (st : loaded) (d : deck) : res (loaded * deck) :=
  match window with
  | [] => Ok (st, d)
  | (readyear, readmonth) :: window' =>
      let! bgvar := (if e_tracking E then let! c := e_bgvar E readmonth in Ok (Some c) else Ok None) in
      match e_lines E readyear readmonth with
      | None => read_window year month window' st d
      | Some lines =>
          let! (st, d) := read_lines year month readyear readmonth bgvar lines st d in
          read_window year month window' st d
      end
  end.
(** marine_qc.py:133-140: the window of a month. *)
Definition window_of (year month : Z) : res (list (Z * Z)) :=
  let '(ly, lm) := last_month_was year month in
  let '(ny, nm) := next_month_is year month in
  let! o := year_month_gen 2 ly lm ny nm in
  match o with Some l => Ok l | None => Err OtherError end.

(* ---- checks of ships, marine_qc.py:237-262 ---- *)

(** 238-242. *)
Definition position_filter : qc_filter := [("POS", "date", 0); ("POS", "time", 0); ("POS", "pos", 0); ("POS", "blklst", 0)].
(** 256-258. *)
Fixpoint all_repeated (names : list string) (v : list report) : res (list report) :=
  match names with
  | [] => Ok v
  | n :: names' => let! v := find_repeated_values (e_prt E) (fst (e_rep E)) (snd (e_rep E)) n v in all_repeated names' v
  end.
(** 250-258. *)
Definition ship_checks (v : list report) : res (list report) :=
  let! v := track_check (e_sphere E) (e_track E) v in
  let! v := iquam_track_check (e_sphere E) (e_iquam E) v in
  let! v := spike_check (e_sphere E) (e_spike E) "SST" v in
  let! v := find_saturated_runs (e_sphere E) (fst (e_sat E)) (snd (e_sat E)) v in
  let! v := find_multiple_rounded_values (e_prt E) (fst (e_round E)) (snd (e_round E)) "DPT" v in
  all_repeated ["SST"; "AT"; "AT2"; "DPT"; "SLP"] v.
(** Extended_IMMA.py:3127-3133: the voyage of one identifier, whose reports are those of the deck: which they are, and as changed by add_report. *)
Definition voyage_of (f : qc_filter) (reps : list report) (l : list nat) : res (list nat * list report) :=
  let! sel := M_Report.pick f reps l in
  let! sub := M_Track.pick reps sel in
  let! v := add_reports (e_sphere E) [] sub in
  Ok (sel, v).
(** 248-260, for the identifiers in the order given. *)
Fixpoint all_ships (f : qc_filter) (ids : list (option string * list nat)) (reps : list report) : res (list report) :=
  match ids with
  | [] => Ok reps
  | (_, l) :: ids' =>
      let! (sel, v) := voyage_of f reps l in
      let! v := ship_checks v in
      all_ships f ids' (put_back sel v reps)
  end.

(* ---- buddy checks, marine_qc.py:264-330 ---- *)

Definition sst_filter : qc_filter :=
  [("POS", "is780", 0); ("POS", "date", 0); ("POS", "time", 0); ("POS", "pos", 0); ("POS", "blklst", 0); ("POS", "trk", 0);
   ("SST", "noval", 0); ("SST", "freez", 0); ("SST", "clim", 0); ("SST", "nonorm", 0)].
Definition at_filter : qc_filter :=
  [("POS", "isship", 1); ("AT", "mat_blacklist", 0); ("POS", "date", 0); ("POS", "time", 0); ("POS", "pos", 0); ("POS", "blklst", 0);
   ("POS", "trk", 0); ("POS", "day", 0); ("AT", "noval", 0); ("AT", "clim", 0); ("AT", "nonorm", 0)].
Definition dpt_filter : qc_filter :=
  [("DPT", "hum_blacklist", 0); ("POS", "date", 0); ("POS", "time", 0); ("POS", "pos", 0); ("POS", "blklst", 0); ("POS", "trk", 0);
   ("DPT", "noval", 0); ("DPT", "clim", 0); ("DPT", "nonorm", 0)].
Definition slp_filter : qc_filter :=
  [("POS", "date", 0); ("POS", "time", 0); ("POS", "pos", 0); ("POS", "blklst", 0); ("POS", "trk", 0);
   ("SLP", "noval", 0); ("SLP", "clim", 0); ("SLP", "nonorm", 0)].
Definition bayes (name : string) (limit : Q) (f : qc_filter) (l : list report) : res (list report) :=
  bayesian_buddy_check (e_xspan E) (e_sqrt E) (e_gross E limit) name (e_sd1 E) (e_sd2 E) (e_sd3 E) (e_radius E) (e_sigma_m E) (e_noise E) f l.
Definition mds (name : string) (sd : clim) (par : list (Z * Z * Z) * list (list Z) * list (list Q)) (f : qc_filter) (l : list report) : res (list report) :=
  mds_buddy_check (e_xspan E) name sd (fst (fst par)) (snd (fst par)) (snd par) f l.
Definition buddy_checks (l : list report) : res (list report) :=
  let! l := bayes "SST" (p_sst_anom (e_base E)) sst_filter l in
  let! l := mds "SST" (e_sd_old E) (e_buddy E) sst_filter l in
  let! l := bayes "AT" (p_at_anom (e_base E)) at_filter l in
  let! l := mds "AT" (e_sd_old E) (e_buddy E) at_filter l in
  let! c := field_of "DPT" "stdev" in
  let! l := mds "DPT" c (e_buddy E) dpt_filter l in
  let! c := field_of "SLP" "stdev" in
  mds "SLP" c (e_slp_buddy E) slp_filter l.

(* ---- output, marine_qc.py:332-351 ---- *)

(** 337-339. *)
Definition drifter_filter : qc_filter := [("POS", "month_match", 1); ("POS", "isdrifter", 1)].
(** 344-350: lines of the identifier file and output of every voyage. *)
Fixpoint drifter_output (year month : Z) (ids : list (option string * list nat)) (reps : list report) : res (list string * list file) :=
  match ids with
  | [] => Ok ([], [])
  | (_, l) :: ids' =>
      let! (sel, v) := voyage_of drifter_filter reps l in
      let! (names, files) :=
        match v with
        | [] => Ok ([], [])
        | r0 :: _ =>
            match r_id r0 with
            | None => Ok ([], [])
            | Some id =>
                let! files := voyage_write_output (e_str_of E) v (e_runid E) (e_dir E year month) year month in
                Ok ([(id ++ "," ++ safe_filename id ++ newline_s)%string], files)
            end
        end in
      let! (names', files') := drifter_output year month ids' (put_back sel v reps) in
      Ok (names ++ names', files ++ files')
  end.

(** The reports of a window after all checks, with the index by identifier. *)
Definition checked_deck (year month : Z) : res deck :=
  let! window := window_of year month in
  let! (_, d) := read_window year month window (-99, None) new_deck in
  let! reps := all_ships position_filter (d_ids d) (d_reps d) in
  let! reps := buddy_checks reps in
  Ok {| d_reps := reps; d_ids := d_ids d; d_filter := slp_filter |}.
(** marine_qc.py:131-353: one month, the files written. *)
Definition run_month (year month : Z) : res (list file) :=
  let! d := checked_deck year month in
  let! files := deck_write_output (e_str_of E) (d_reps d) (e_runid E) (e_dir E year month) year month false in
  if e_tracking E then
    let! (names, more) := drifter_output year month (d_ids d) (d_reps d) in
    Ok (files ++ ((e_dir E year month ++ "/ID_file.txt")%string, joined_by "" names) :: more)
  else Ok files.
(** marine_qc.py:129: the months of the run; [fuel] bounds their number. *)
Fixpoint run_months (months : list (Z * Z)) : res (list file) :=
  match months with
  | [] => Ok []
  | (y, m) :: months' => let! a := run_month y m in let! b := run_months months' in Ok (a ++ b)
  end.
Definition run (fuel : nat) (year1 month1 year2 month2 : Z) : res (option (list file)) :=
  let! o := year_month_gen fuel year1 month1 year2 month2 in
  match o with None => Ok None | Some months => let! l := run_months months in Ok (Some l) end.
End Main.
