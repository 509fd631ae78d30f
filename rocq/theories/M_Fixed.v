(** Model of the fixed-width output (Extended_IMMA.py:76-91, 449-454, 746-969).  No proofs here.  Values are exact numbers; the
    rounding of the product with the scale in floating point is not modelled. *)
Require Import String Ascii ZArith QArith Qround List Bool.
Require Import Verif.M_Base Verif.M_Report Verif.M_Imma.
Import ListNotations.
Open Scope string_scope.
Open Scope Z_scope.

(** int(round(q)) of Python 2: halves go away from zero. *)
Definition py_round (q : Q) : Z := if Qltb q 0 then - Qfloor (- q + (1 # 2)) else Qfloor (q + (1 # 2)).
(** Extended_IMMA.py:76-91: int(pvar(var, mdi, scale)). *)
Definition pvar (var : option Q) (mdi : Z) (scale : Q) : Z := match var with None => mdi | Some v => py_round (v * scale) end.
(** Extended_IMMA.py:746-751 printvar. *)
Definition printvar (r : report) (var : string) : Z := if mem var VARLIST then pvar (getvar r var) (-32768) 1 else pvar (Some (inject_Z (-32768))) (-32768) 1.
(** Extended_IMMA.py:449-454 reset_ext. *)
Definition reset_ext (r : report) : res report := calculate_dsi_vsi (with_ext r []).

(** "{:8d}".format(z); ValueError for None. *)
Definition d8 (z : Z) : string := pad_left 8 (str_of_int z).
Definition d8_of (z : option Z) : res string := match z with Some z => Ok (d8 z) | None => Err ValueError end.
(** "{:n.n}".format(s): cut or filled with blanks; None prints as its name. *)
Definition s_of (n : nat) (s : option string) : string := pad_right n (substring 0 n (match s with Some s => s | None => "None" end)).
(** round(x * 100, 0); TypeError for None. *)
Definition hundredths (x : option Q) : res Z := match x with Some x => Ok (py_round (x * 100)) | None => Err TypeError end.
(** Extended_IMMA.py:793-795, 904-906. *)
Definition dsvs (r : report) : Z := match getint r "DS", getint r "VS" with Some d, Some v => d * 100 + v | _, _ => 9999 end.
(** "{:d}{:d}...".format of flags. *)
Definition flags_text (l : list Z) : string := String.concat "" (map str_of_int l).
Definition ten (r : report) (var : string) : string := d8 (pvar (getvar r var) (-32768) 10).
Definition anom100 (r : report) (var : string) : string := d8 (pvar (getanom r var) (-32768) 100).
(** Extended_IMMA.py:799-801, 910-912: the identifier, nine blanks if there is none. *)
Definition shipid (r : report) : string := match r_id r with Some s => s | None => "         " end.
Definition newline_t : string := String newline "".

(** Extended_IMMA.py:763-888 print_longform_report. *)
Definition print_longform_report (r : report) : res string :=
  let day := pvar (getvar r "DY") (-32768) 1 in
  let hur := pvar (getvar r "HR") (-32768) 100 in
  let! lo := hundredths (lon r) in
  let! la := hundredths (lat r) in
  let! yr := d8_of (getint r "YR") in
  let! mo := d8_of (getint r "MO") in
  let! dck := d8_of (getint r "DCK") in
  Ok (s_of 9 (Some (shipid r)) ++ " " ++ s_of 8 (r_uid r) ++ d8 la ++ d8 lo ++ yr ++ mo ++ d8 day ++ d8 hur
      ++ ten r "AT" ++ anom100 r "AT" ++ ten r "SST" ++ anom100 r "SST" ++ ten r "SLP"
      ++ ten r "DPT" ++ anom100 r "DPT" ++ ten r "SHU" ++ anom100 r "SHU" ++ ten r "VAP" ++ anom100 r "VAP"
      ++ ten r "CRH" ++ anom100 r "CRH" ++ ten r "CWB" ++ anom100 r "CWB" ++ ten r "DPD" ++ anom100 r "DPD"
      ++ d8 (dsvs r) ++ dck ++ d8 (printvar r "PT") ++ " "
      ++ flags_text (map (get_qc r "POS") ["day"; "land"; "trk"; "date"; "time"; "pos"; "blklst"; "iquam_track"]) ++ " "
      ++ flags_text (map (get_qc r "SST") ["bud"; "clim"; "nonorm"; "freez"; "noval"; "spike"; "bbud"; "rep"]) ++ " "
      ++ flags_text (map (get_qc r "AT") ["bud"; "clim"; "nonorm"] ++ [9] ++ map (get_qc r "AT") ["noval"; "nbud"; "bbud"; "rep"]) ++ " "
      ++ flags_text (map (get_qc r "DPT") ["bud"; "clim"; "nonorm"; "ssat"; "noval"; "round"; "bbud"; "rep"; "repsat"]) ++ " "
      ++ flags_text (map (get_qc r "POS") ["few"; "ntrk"] ++ [9; 9; 9; 9; 9; 9]) ++ newline_t)%string.

(** Extended_IMMA.py:890-970 print_report. *)
Definition print_report (r : report) : res string :=
  let day := pvar (getvar r "DY") (-32768) 1 in
  let hur := pvar (getvar r "HR") (-32768) 100 in
  let! lo := hundredths (lon r) in
  let! la := hundredths (getvar r "LAT") in
  let! yr := d8_of (getint r "YR") in
  let! mo := d8_of (getint r "MO") in
  let! dck := d8_of (getint r "DCK") in
  Ok (s_of 9 (Some (shipid r)) ++ " " ++ s_of 8 (r_uid r) ++ d8 la ++ d8 lo ++ yr ++ mo ++ d8 day ++ d8 hur
      ++ ten r "AT" ++ anom100 r "AT" ++ ten r "SST" ++ anom100 r "SST"
      ++ d8 (dsvs r) ++ dck ++ d8 (printvar r "PT") ++ " "
      ++ flags_text (map (get_qc r "POS") ["day"; "land"; "trk"; "date"; "time"; "pos"; "blklst"; "dup"]) ++ " "
      ++ flags_text (map (get_qc r "SST") ["bud"; "clim"; "nonorm"; "freez"; "noval"; "nbud"; "bbud"; "rep"]) ++ " "
      ++ flags_text (map (get_qc r "AT") ["bud"; "clim"; "nonorm"] ++ [9] ++ map (get_qc r "AT") ["noval"; "nbud"; "bbud"; "rep"]) ++ " "
      ++ flags_text [9; 9; 9; 9; 9; 9; 9; 9] ++ " "
      ++ flags_text (map (get_qc r "POS") ["few"; "ntrk"] ++ [9; 9; 9; 9; 9; 9]) ++ newline_t)%string.
