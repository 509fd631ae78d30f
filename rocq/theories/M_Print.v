(** Model of the comma separated output (Extended_IMMA.py:40-73, 972-1081, 2439-2548, 3135-3245).  No proofs here.

    [str_of name q] is Python's str of a float, given as an argument (name: the variable, as some are integers).  A file is
    its name and contents; the order in which the types of a dictionary come is the order of the list that models it; what
    is left in a file after an exception is not modelled, nor the lines printed on the terminal. *)
Require Import String Ascii ZArith QArith List Bool.
Require Import Verif.M_Base Verif.M_Calendar Verif.M_Report Verif.M_Imma Verif.M_Files.
Import ListNotations.
Open Scope string_scope.
Open Scope Z_scope.

(** Extended_IMMA.py:40-61 datestring: strptime wants four digits for the year and a valid date; str(None) fails. *)
Definition datestring (year month day : option Z) : string :=
  match year, month, day with
  | Some y, Some m, Some d =>
      if (1000 <=? y) && datetime_ok y m d then zero_pad 4 y ++ "-" ++ zero_pad 2 m ++ "-" ++ zero_pad 2 d else "0000-00-00"
  | _, _, _ => "0000-00-00"
  end.

Section Print.
Variable str_of : string -> Q -> string.
(** Extended_IMMA.py:64-73 tostring, of a variable of a report. *)
Definition tostring_var (r : report) (name : string) : string :=
  if String.eqb name "ID" then match r_id r with Some s => s | None => "\N" end
  else if String.eqb name "UID" then match r_uid r with Some s => s | None => "\N" end
  else if mem name INTVARS then match getint r name with Some z => str_of_int z | None => "\N" end
  else match getvar r name with Some q => str_of name q | None => "\N" end.
Definition tostring_anom (r : report) (name : string) : string :=
  match getanom r name with Some q => str_of (name ++ "_anom") q | None => "\N" end.

(** s.join(l). *)
Definition joined_by (s : string) (l : list string) : string := String.concat s l.
Definition newline_s : string := String newline "".
(** var[0]. *)
Definition head_name (var : list string) : res string := match var with [] => Err IndexError | v :: _ => Ok v end.
Fixpoint map_r {A B} (f : A -> res B) (l : list A) : res (list B) :=
  match l with [] => Ok [] | a :: l' => let! b := f a in let! bs := map_r f l' in Ok (b :: bs) end.
(** repout[:-1] + ["\n"], joined; TypeError if an element is None. *)
Definition finish (repout : list (option string)) : res string :=
  let repout := (removelast repout ++ [Some newline_s])%list in
  let! l := map_r (fun o => match o with Some s => Ok s | None => Err TypeError end) repout in
  Ok (joined_by "" l).
(** Extended_IMMA.py:998-1003, 1007-1012: an element and a comma for every name. *)
Definition append_each {A} (f : A -> res string) (l : list A) (repout : list (option string)) : res (list (option string)) :=
  let! cells := map_r f l in
  Ok (repout ++ flat_map (fun s => [Some s; Some ","]) cells)%list.

(** Extended_IMMA.py:972-1041 print_variable_block. *)
Definition print_variable_block (r : report) (varnames : list (list string)) (header printuid : bool) : res string :=
  if header then
    let repout := if printuid then [Some "UID,DATE,PENTAD,"] else [Some ""] in
    let! repout := append_each (fun var => if (1 <? Z.of_nat (length var)) then Ok (joined_by "_" var) else head_name var) varnames repout in
    finish repout
  else
    let repout :=
      if printuid then
        let p := match getint r "MO", getint r "DY" with
                 | Some m, Some d => match which_pentad m d with Ok p => p | Err _ => 0 end
                 | _, _ => 0
                 end in
        [r_uid r; Some ","; Some (datestring (getint r "YR") (getint r "MO") (getint r "DY")); Some ","; Some (str_of_int p); Some ","]
      else [Some ""] in
    let! repout := append_each (fun var =>
      let! v := head_name var in
      if String.eqb v "ID" then
        match r_id r with None => Ok (tostring_var r v) | Some s => Ok (String """" "" ++ s ++ String """" "") end
      else if (1 <? Z.of_nat (length var)) then Ok (tostring_anom r v) else Ok (tostring_var r v)) varnames repout in
    finish repout.

(** Extended_IMMA.py:1043-1081 print_qc_block. *)
Definition print_qc_block (r : report) (blockname : string) (varnames : list string) (header printuid : bool) : res string :=
  if header then
    let repout := if printuid then [Some "UID,"] else [Some ""] in
    let! repout := append_each (fun var => Ok var) varnames repout in
    finish repout
  else
    let repout := if printuid then [r_uid r; Some ","] else [Some ""] in
    let! repout := append_each (fun var => Ok (str_of_int (get_qc r blockname var))) varnames repout in
    finish repout.

Definition in_month (year month : Z) (r : report) : bool :=
  match getint r "YR", getint r "MO" with Some y, Some m => (y =? year) && (m =? month) | _, _ => false end.
(** self.reps[0]. *)
Definition first_rep (reps : list report) : res report := match reps with [] => Err IndexError | r :: _ => Ok r end.
(** The header from the first report, then a line for each report of the month. *)
Definition file_body (reps : list report) (year month : Z) (line : report -> bool -> res string) : res string :=
  let! r0 := first_rep reps in
  let! h := line r0 true in
  let! rows := map_r (fun r => line r false) (filter (in_month year month) reps) in
  Ok (joined_by "" (h :: rows)).
Definition file := (string * string)%type.
Definition qc_names := list (string * list string).
Definition test_name (test : bool) (s : string) : string := if test then "Test_" ++ s else s.

(** Extended_IMMA.py:3135-3160 Deck.write_qc. *)
Definition deck_write_qc (reps : list report) (runid dir : string) (year month : Z) (allvarnames : qc_names) (test : bool) : res (list file) :=
  map_r (fun '(var, names) =>
    let! body := file_body reps year month (fun r header => print_qc_block r var names header true) in
    Ok (dir ++ "/" ++ test_name test (var ++ "_qc_" ++ str_of_int year ++ zero_pad 2 month ++ "_" ++ runid ++ ".csv"), body)) allvarnames.
(** Extended_IMMA.py:3174-3179, 3191-3198. *)
Definition output_vars : list (list string) :=
  [["ID"]; ["YR"]; ["MO"]; ["DY"]; ["HR"]; ["LAT"]; ["LON"]; ["AT"]; ["AT"; "anom"]; ["SST"]; ["SST"; "anom"]; ["DPT"]; ["DPT"; "anom"];
   ["SLP"]; ["SLP"; "anom"]; ["OSTIA"]; ["W"]; ["D"]].
Definition output_flags : qc_names :=
  [("POS", ["day"; "isship"; "trk"; "date"; "time"; "pos"; "blklst"; "isbuoy"; "iquam_track"]);
   ("SST", ["bud"; "clim"; "nonorm"; "freez"; "noval"; "nbud"; "bbud"; "rep"; "spike"; "hardlimit"]);
   ("AT", ["bud"; "clim"; "nonorm"; "freez"; "noval"; "mat_blacklist"; "bbud"; "rep"; "hardlimit"]);
   ("DPT", ["bud"; "clim"; "nonorm"; "freez"; "noval"; "hum_blacklist"; "bbud"; "rep"; "ssat"; "repsat"; "round"; "hardlimit"]);
   ("SLP", ["bud"; "clim"; "nonorm"; "noval"; "rep"]);
   ("W", ["noval"; "hardlimit"; "consistency"; "wind_blacklist"])].
(** Extended_IMMA.py:3218-3223, 3234-3240. *)
Definition min_vars : list (list string) :=
  [["ID"]; ["YR"]; ["MO"]; ["DY"]; ["HR"]; ["LAT"]; ["LON"]; ["AT"]; ["AT"; "anom"]; ["SST"]; ["SST"; "anom"]; ["DPT"]; ["DPT"; "anom"]].
Definition min_flags : qc_names :=
  [("POS", ["day"; "isship"; "trk"; "date"; "time"; "pos"; "blklst"; "isbuoy"]);
   ("SST", ["bud"; "clim"; "nonorm"; "freez"; "noval"; "nbud"; "bbud"; "rep"]);
   ("AT", ["bud"; "clim"; "nonorm"; "freez"; "noval"; "mat_blacklist"; "bbud"; "rep"]);
   ("DPT", ["bud"; "clim"; "nonorm"; "freez"; "noval"; "hum_blacklist"; "bbud"; "rep"; "ssat"; "repsat"; "round"])].
Definition deck_write (vars : list (list string)) (flags : qc_names) (reps : list report) (runid dir : string) (year month : Z) (test : bool) : res (list file) :=
  let! body := file_body reps year month (fun r header => print_variable_block r vars header true) in
  let name := dir ++ "/" ++ test_name test ("Variables_" ++ str_of_int year ++ zero_pad 2 month ++ "_" ++ runid ++ ".csv") in
  let! files := deck_write_qc reps runid dir year month flags test in
  Ok ((name, body) :: files).
(** Extended_IMMA.py:3162-3204 Deck.write_output, 3206-3245 Deck.write_min_output. *)
Definition deck_write_output := deck_write output_vars output_flags.
Definition deck_write_min_output := deck_write min_vars min_flags.

(** self.reps[0].getvar('ID') in a file name: TypeError or AttributeError if it is None. *)
Definition first_id (reps : list report) : res string :=
  let! r0 := first_rep reps in match r_id r0 with Some s => Ok s | None => Err TypeError end.
(** Extended_IMMA.py:2439-2458 Voyage.write_qc. *)
Definition voyage_write_qc (reps : list report) (runid dir : string) (year month : Z) (allvarnames : qc_names) : res (list file) :=
  map_r (fun '(var, names) =>
    let! id := first_id reps in
    let! body := file_body reps year month (fun r header => print_qc_block r var names header true) in
    Ok (dir ++ "/" ++ var ++ "_qc_" ++ str_of_int year ++ zero_pad 2 month ++ "_" ++ id ++ "_" ++ runid ++ ".csv", body)) allvarnames.
(** Extended_IMMA.py:2524-2529, 2539-2542. *)
Definition voyage_vars : list (list string) :=
  [["ID"]; ["YR"]; ["MO"]; ["DY"]; ["HR"]; ["LAT"]; ["LON"]; ["AT"]; ["AT"; "anom"]; ["SST"]; ["SST"; "anom"]; ["DPT"]; ["DPT"; "anom"];
   ["SLP"]; ["SLP"; "anom"]; ["OSTIA"]; ["ICE"]; ["BGVAR"]].
Definition voyage_flags : qc_names :=
  [("POS", ["day"; "isship"; "trk"; "date"; "time"; "pos"; "blklst"; "isbuoy"; "iquam_track"; "isdrifter"]);
   ("SST", ["bud"; "clim"; "nonorm"; "freez"; "noval"; "nbud"; "bbud"; "rep"; "spike"; "hardlimit"])].
(** Extended_IMMA.py:2512-2548 Voyage.write_output. *)
Definition voyage_write_output (reps : list report) (runid dir : string) (year month : Z) : res (list file) :=
  let! id := first_id reps in
  let! body := file_body reps year month (fun r header => print_variable_block r voyage_vars header true) in
  let name := dir ++ "/" ++ "Variables_" ++ str_of_int year ++ zero_pad 2 month ++ "_" ++ safe_filename id ++ "_" ++ runid ++ ".csv" in
  let! files := voyage_write_qc reps runid dir year month voyage_flags in
  Ok ((name, body) :: files).

(** Extended_IMMA.py:2479-2485. *)
Definition track_vars : list (list string) := [["ID"]; ["LON"]; ["LAT"]; ["YR"]; ["MO"]; ["DY"]; ["HR"]].
Definition track_vars2 : list (list string) := [["SST"]; ["OSTIA"]; ["BGVAR"]; ["ICE"]].
Definition qc_block1 : list string := ["day"; "isship"; "trk"; "date"; "time"; "pos"; "blklst"; "isbuoy"; "iquam_track"; "isdrifter"].
Definition qc_block2 : list string := ["bud"; "clim"; "nonorm"; "freez"; "noval"; "nbud"; "bbud"; "rep"; "spike"; "hardlimit"].
Definition qc_block3 : list string := ["drf_agr"; "drf_spd"].
Definition qc_block4 : list string := ["drf_tail1"; "drf_tail2"; "drf_bias"; "drf_noise"; "drf_short"].
(** Extended_IMMA.py:2490-2508: a line, header or not. *)
Definition track_line (r : report) (header : bool) : res string :=
  let! v1 := print_variable_block r track_vars header true in
  let! v2 := print_qc_block r "POS" qc_block1 header false in
  let! v3 := print_qc_block r "SST" qc_block2 header false in
  let! v4 := print_qc_block r "POS" qc_block3 header false in
  let! v5 := print_qc_block r "SST" qc_block4 header false in
  let! v6 := print_variable_block r track_vars2 header false in
  Ok (rstrip v1 ++ "," ++ rstrip v2 ++ "," ++ rstrip v3 ++ "," ++ rstrip v4 ++ "," ++ rstrip v5 ++ "," ++ v6).
(** Extended_IMMA.py:2460-2510 write_tracking_output. *)
Definition write_tracking_output (reps : list report) (runid dir : string) (year2 month2 : Z) : res file :=
  let! id := first_id reps in
  let! r0 := first_rep reps in
  let! h := track_line r0 true in
  let! rows := map_r (fun r => track_line r false) reps in
  Ok (dir ++ "/" ++ "Tracking_" ++ str_of_int year2 ++ zero_pad 2 month2 ++ "_" ++ safe_filename id ++ "_" ++ runid ++ ".csv", joined_by "" (h :: rows)).
End Print.
