(** Model of the two other programs that make reports from ICOADS files: the sea temperatures of marine_qc_hires.py:119-244 against a
    climatology of high resolution, and marine_qc_track_only.py:117-283, which prepares the drifters for the tracking control.  No proofs here.

    They differ from the main program (M_Main) in what is done to a report as it is read, in the checks of ships and of the deck, and in
    what is written.  The loops over the window, its files and lines, and over the ships are the same text; here they take the different
    parts as arguments.  Simplifications are those of M_Main.  The climatology of the high resolution program is e_lib E "SST" "mean". *)
Require Import String Ascii ZArith QArith Qround List Bool.
Require Import Verif.M_Base Verif.M_Calendar Verif.M_Checks Verif.M_Report Verif.M_Imma Verif.M_Grid Verif.M_Voyage Verif.M_Track Verif.M_Buddy
  Verif.M_BaseQC Verif.M_Files Verif.M_Print Verif.M_Main.
Import ListNotations.
Open Scope string_scope.
Open Scope list_scope.
Open Scope Z_scope.

Section Loops.
Variable E : setup.
(** What is done to a record accepted: year and month of the file, fields in memory, variance of the background. *)
Variable prep : Z -> Z -> loaded -> option clim -> imma -> res (loaded * report).
(** What is loaded before a file is read, by month. *)
Variable load : Z -> res (option clim).
Variable checks : list report -> res (list report).

(** marine_qc_hires.py:148-177, marine_qc_track_only.py:152-212: the lines of a file. *)
Fixpoint read_lines_by (readyear readmonth : Z) (bg : option clim) (lines : list string) (st : loaded) (d : deck) : res (loaded * deck) :=
  match lines with
  | [] => Ok (st, d)
  | line :: lines' =>
      let! o := accept E readyear readmonth line in
      match o with
      | None => read_lines_by readyear readmonth bg lines' st d
      | Some im =>
          let! (st, r) := prep readyear readmonth st bg im in
          read_lines_by readyear readmonth bg lines' st (deck_append d r)
      end
  end.
(** marine_qc_hires.py:135-179, marine_qc_track_only.py:134-214: the months of the window. *)
Fixpoint read_window_by (window : list (Z * Z)) (st : loaded) (d : deck) : res (loaded * deck) :=
  match window with
  | [] => Ok (st, d)
  | (readyear, readmonth) :: window' =>
      let! bg := load readmonth in
      match e_lines E readyear readmonth with
      | None => read_window_by window' st d
      | Some lines =>
          let! (st, d) := read_lines_by readyear readmonth bg lines st d in
          read_window_by window' st d
      end
  end.
(** marine_qc_hires.py:192-197, marine_qc_track_only.py:227-241: one ship after the other. *)
Fixpoint all_ships_by (f : qc_filter) (ids : list (option string * list nat)) (reps : list report) : res (list report) :=
  match ids with
  | [] => Ok reps
  | (_, l) :: ids' =>
      let! (sel, v) := voyage_of E f reps l in
      let! v := checks v in
      all_ships_by f ids' (put_back sel v reps)
  end.
(** marine_qc_hires.py:201-217, marine_qc_track_only.py:245-261. *)
Definition sst_buddies (l : list report) : res (list report) :=
  let! l := bayes E "SST" (p_sst_anom (e_base E)) sst_filter l in
  mds E "SST" (e_sd_old E) (e_buddy E) sst_filter l.
(** The deck of a month after all checks. *)
Definition deck_by (year month : Z) : res deck :=
  let! window := window_of year month in
  let! (_, d) := read_window_by window (-99, None) new_deck in
  let! reps := all_ships_by position_filter (d_ids d) (d_reps d) in
  let! reps := sst_buddies reps in
  Ok {| d_reps := reps; d_ids := d_ids d; d_filter := sst_filter |}.
(** marine_qc_hires.py:234-242, marine_qc_track_only.py:273-281: lines of the identifier file and output of every voyage, written by the
    method given. *)
Fixpoint drifters_by (write : list report -> res (list file)) (ids : list (option string * list nat)) (reps : list report) : res (list string * list file) :=
  match ids with
  | [] => Ok ([], [])
  | (_, l) :: ids' =>
      let! (sel, v) := voyage_of E drifter_filter reps l in
      let! (names, files) :=
        match v with
        | [] => Ok ([], [])
        | r0 :: _ =>
            match r_id r0 with
            | None => Ok ([], [])
            | Some id => let! files := write v in Ok ([(id ++ "," ++ safe_filename id ++ newline_s)%string], files)
            end
        end in
      let! (names', files') := drifters_by write ids' (put_back sel v reps) in
      Ok (names ++ names', files ++ files')
  end.
End Loops.

(** rep.set_qc('POS', 'month_match', ...) (marine_qc_hires.py:172, marine_qc_track_only.py:204-207). *)
Definition note_month (year month : Z) (r : report) : res report :=
  set_qc r "POS" "month_match" (match getint r "YR", getint r "MO" with Some y, Some m => month_match year month y m | _, _ => 0 end).

Section Programs.
Variable E : setup.

(* ---- high resolution ---- *)

(** marine_qc_hires.py:164-172. *)
Definition prepare_hires (year month : Z) (_ _ : Z) (st : loaded) (_ : option clim) (im : imma) : res (loaded * report) :=
  let! r := report_of im in
  let! r := add_means E get_value ["SST"] r in
  let! r := perform_base_sst_qc (e_elev E) (e_base E) r in
  let! r := note_month year month r in
  Ok (st, r).
(** marine_qc_hires.py:195-196. *)
Definition ship_checks_hires (v : list report) : res (list report) :=
  let! v := track_check (e_sphere E) (e_track E) v in
  find_repeated_values (e_prt E) (fst (e_rep E)) (snd (e_rep E)) "SST" v.
Definition hires_deck (year month : Z) : res deck :=
  deck_by E (prepare_hires year month) (fun _ => Ok None) ship_checks_hires year month.
(** marine_qc_hires.py:221-222. *)
Definition hires_flags : qc_names := [("SST", ["bud"; "clim"; "nonorm"; "freez"; "noval"; "nbud"; "bbud"; "rep"; "spike"; "hardlimit"])].
(** marine_qc_hires.py:125-244: one month, the files written. *)
Definition hires_month (year month : Z) : res (list file) :=
  let! d := hires_deck year month in
  let! files := deck_write_qc (d_reps d) ("hires_" ++ e_runid E)%string (e_dir E year month) year month hires_flags false in
  if e_tracking E then
    let! (names, more) := drifters_by E (fun v => voyage_write_qc v ("hires_" ++ e_runid E)%string (e_dir E year month) year month hires_flags) (d_ids d) (d_reps d) in
    Ok (files ++ ((e_dir E year month ++ "/ID_file.txt")%string, joined_by "" names) :: more)
  else Ok files.

(* ---- tracking only ---- *)

(** marine_qc_track_only.py:168-207. *)
Definition prepare_track (year month readyear readmonth : Z) (st : loaded) (bg : option clim) (im : imma) : res (loaded * report) :=
  let! r := report_of im in
  let! (st, r) := background E readyear readmonth st bg r in
  let! r := add_means E get_value_mds_style ["SST"] r in
  let! r := perform_base_qc (e_elev E) (e_base E) r in
  let! r := note_month year month r in
  Ok (st, r).
(** marine_qc_track_only.py:231-239. *)
Definition ship_checks_track (v : list report) : res (list report) :=
  let! v := track_check (e_sphere E) (e_track E) v in
  let! v := iquam_track_check (e_sphere E) (e_iquam E) v in
  let! v := spike_check (e_sphere E) (e_spike E) "SST" v in
  let! v := find_saturated_runs (e_sphere E) (fst (e_sat E)) (snd (e_sat E)) v in
  let! v := find_multiple_rounded_values (e_prt E) (fst (e_round E)) (snd (e_round E)) "DPT" v in
  find_repeated_values (e_prt E) (fst (e_rep E)) (snd (e_rep E)) "SST" v.
(** marine_qc_track_only.py:138-141. *)
Definition load_track (readmonth : Z) : res (option clim) :=
  if e_tracking E then let! c := e_bgvar E readmonth in Ok (Some c) else Ok None.
Definition track_deck (year month : Z) : res deck :=
  deck_by E (prepare_track year month) load_track ship_checks_track year month.
(** marine_qc_track_only.py:123-283: one month, the files written. *)
Definition track_month (year month : Z) : res (list file) :=
  let! d := track_deck year month in
  if e_tracking E then
    let! (names, more) := drifters_by E (fun v => voyage_write_output (e_str_of E) v (e_runid E) (e_dir E year month) year month) (d_ids d) (d_reps d) in
    Ok (((e_dir E year month ++ "/ID_file.txt")%string, joined_by "" names) :: more)
  else Ok [].

(** The months of a run; [fuel] bounds their number (marine_qc_hires.py:125, marine_qc_track_only.py:123). *)
Fixpoint months_by (one : Z -> Z -> res (list file)) (months : list (Z * Z)) : res (list file) :=
  match months with
  | [] => Ok []
  | (y, m) :: months' => let! a := one y m in let! b := months_by one months' in Ok (a ++ b)
  end.
Definition run_by (one : Z -> Z -> res (list file)) (fuel : nat) (year1 month1 year2 month2 : Z) : res (option (list file)) :=
  let! o := year_month_gen fuel year1 month1 year2 month2 in
  match o with None => Ok None | Some months => let! l := months_by one months in Ok (Some l) end.
End Programs.
