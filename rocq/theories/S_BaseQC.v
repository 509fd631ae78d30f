(** Specification of the base quality control: for each flag, the condition under which it is 1.  Only the
    record of parameters is shared with the model. *)
Require Import String ZArith QArith Qround List Bool.
Require Import Verif.S_Calendar Verif.S_Checks Verif.S_Sun Verif.M_BaseQC.
Import ListNotations.
Open Scope string_scope.
Open Scope list_scope.
Open Scope Z_scope.

(** What base QC sees of a report: identifier, variables, climatological normals and standard deviations. *)
Record seen := { s_id : option string; s_var : string -> option Q; s_norm : string -> option Q; s_sd : string -> option Q }.

(** An integer variable is one of the given numbers. *)
Definition number (o : seen) (n : string) (z : Z) : Prop := exists q, s_var o n = Some q /\ (q == inject_Z z)%Q.
Definition one_of (o : seen) (n : string) (l : list Z) : Prop := exists z, In z l /\ number o n z.
Definition missing (v : option Q) : Prop := v = None.

(** The position of the report, longitudes above 180 taken 360 degrees further west. *)
Definition west (lo : Q) (lo' : Q) : Prop := ((lo <= 180 /\ lo' == lo) \/ (180 < lo /\ lo' == lo - 360))%Q.
Definition place (o : seen) (la lo : Q) : Prop :=
  s_var o "LAT" = Some la /\ exists l, s_var o "LON" = Some l /\ west l lo.

Definition on_earth (o : seen) : Prop :=
  exists la lo, s_var o "LAT" = Some la /\ s_var o "LON" = Some lo /\ (-90 <= la <= 90)%Q /\ (-180 <= lo <= 360)%Q.
Definition on_date (o : seen) (d : date) : Prop := number o "YR" (yr d) /\ number o "MO" (mo d) /\ number o "DY" (dy d).
Definition dated (o : seen) : Prop := exists d, on_date o d /\ valid d /\ 1850 <= yr d <= 2024.
Definition timed (o : seen) : Prop := exists h, s_var o "HR" = Some h /\ (0 <= h < 24)%Q.

(** The sun was above the horizon [since] hours before the report. *)
Definition sun_was_up (elev : Z -> Z -> Q -> Q -> Q -> Q -> Q) (since : Q) (o : seen) : Prop :=
  exists d h la lo d' hh mm k la' lo', on_date o d /\ s_var o "HR" = Some h /\ place o la lo /\
    instant_before d h since d' hh mm /\ hour_ok hh /\ day_number d' k /\ aside la la' /\ aside lo lo' /\
    (0 < elev (yr d') k hh mm la' lo')%Q.

(** Blacklists. *)
Definition bad_source (o : seen) : Prop :=
  exists la lo lo' y m deck pt, place o la lo /\ west lo lo' /\ number o "YR" y /\ number o "MO" m /\
    ((deck = None /\ s_var o "DCK" = None) \/ (exists z, deck = Some z /\ number o "DCK" z)) /\
    ((pt = None /\ s_var o "PT" = None) \/ (exists z, pt = Some z /\ number o "PT" z)) /\
    blacklisted (s_id o) deck y m la lo' pt.
Definition humidity_platforms : list Z := [0; 1; 2; 3; 4; 5; 6; 8; 9; 10; 15].
Definition ship_platforms : list Z := [0; 1; 2; 3; 4; 5; 10; 11; 12; 17].
(** The excluded regions of deck 193 as west, south, east and north (Kent et al.: North Atlantic,
    Mediterranean, Suez, Indian Ocean and Malacca). *)
Definition heated_regions : list (Q * Q * Q * Q) :=
  [(-80, 40, 0, 55); (-10, 35, 30, 45); (15, -10, 45, 40); (15, -10, 95, 15); (95, -10, 105, 5)]%Q.
Definition deck193_excluded (last : Z) (o : seen) : Prop :=
  number o "DCK" 193 /\ (exists y, number o "YR" y /\ 1880 <= y <= last) /\
  exists la lo b, place o la lo /\ In b heated_regions /\ in_box b lo la.
Definition bad_air_source (last : Z) (o : seen) : Prop :=
  (number o "PT" 5 /\ number o "DCK" 780) \/ deck193_excluded last o.

(** Checks of single values. *)
Definition inside (l : Q * Q) (v : option Q) : Prop := exists x, v = Some x /\ (fst l <= x /\ x <= snd l)%Q.
Definition far (v c : Q) (lim : Q) : Prop := (lim < v - c \/ lim < c - v)%Q.
Definition anomalous (v c : option Q) (lim : Q) : Prop :=
  v = None \/ c = None \/ exists x y, v = Some x /\ c = Some y /\ far x y lim.
(** The standard deviation is first moved into the range [l]. *)
Definition clamped (l : Q * Q) (s s' : Q) : Prop :=
  ((s < fst l /\ s' == fst l) \/ (fst l <= s /\ s <= snd l /\ s' == s) \/ (snd l < s /\ s' == snd l))%Q.
Definition anomalous_sd (v c s : option Q) (l : Q * Q) (k : Q) : Prop :=
  v = None \/ c = None \/ s = None \/
  exists x y z z', v = Some x /\ c = Some y /\ s = Some z /\ clamped l z z' /\ far x y (k * z').
Definition anomalous_bar (v c s : option Q) (k bar : Q) : Prop :=
  v = None \/ c = None \/ s = None \/
  exists x y z, v = Some x /\ c = Some y /\ s = Some z /\ far x y (k * z) /\ far x y bar.
Definition below (v : option Q) (f : Q) : Prop := exists x, v = Some x /\ (x < f)%Q.
Definition supersaturated (td t : option Q) : Prop :=
  td = None \/ t = None \/ exists x y, td = Some x /\ t = Some y /\ (y < x)%Q.
(** Direction 361 is calm and 362 is variable; a missing speed is not calm and not above the limit. *)
Definition wind_mismatch (w d : option Q) (lim : Q) : Prop :=
  exists dir, d = Some dir /\
    ((dir == 361 /\ ~ exists x, w = Some x /\ x == 0)%Q \/ (dir == 362 /\ exists x, w = Some x /\ lim < x)%Q).

Section Table.
Variable elev : Z -> Z -> Q -> Q -> Q -> Q -> Q.
Variable p : params.
Variable o : seen.
Let v := s_var o.
Let c := s_norm o.
Let s := s_sd o.

(** Which flag is 1 when; all other values are 0. *)
Definition kind_flags : list (string * string * Prop) :=
  [("POS", "isbuoy", one_of o "PT" [6; 7]);
   ("POS", "isdrifter", one_of o "PT" [7]);
   ("POS", "isship", one_of o "PT" ship_platforms)].
Definition deck_flags : list (string * string * Prop) := [("POS", "is780", one_of o "DCK" [780])].
Definition place_flags : list (string * string * Prop) :=
  [("POS", "pos", ~ on_earth o);
   ("POS", "date", ~ dated o);
   ("POS", "time", ~ timed o);
   ("POS", "blklst", bad_source o)].
Definition day_flags : list (string * string * Prop) :=
  [("POS", "day", ~ (on_earth o /\ dated o /\ timed o) \/ sun_was_up elev (p_since p) o)].
Definition wind_source_flags : list (string * string * Prop) := [("W", "wind_blacklist", one_of o "DCK" [708; 780])].
Definition air_source_flags : list (string * string * Prop) := [("AT", "mat_blacklist", bad_air_source 1892 o)].
Definition humidity_source_flags : list (string * string * Prop) := [("DPT", "hum_blacklist", ~ one_of o "PT" humidity_platforms)].
Definition sst_flags : list (string * string * Prop) :=
  [("SST", "noval", missing (v "SST"));
   ("SST", "freez", below (v "SST") (p_sst_freeze p));
   ("SST", "clim", anomalous (v "SST") (c "SST") (p_sst_anom p));
   ("SST", "nonorm", missing (c "SST"));
   ("SST", "hardlimit", ~ inside (p_sst_lim p) (v "SST"))].
Definition air_flags : list (string * string * Prop) :=
  [("AT", "noval", missing (v "AT"));
   ("AT", "clim", anomalous (v "AT") (c "AT") (p_at_anom p));
   ("AT", "nonorm", missing (c "AT"));
   ("AT", "hardlimit", ~ inside (p_at_lim p) (v "AT"))].
Definition dew_flags : list (string * string * Prop) :=
  [("DPT", "clim", anomalous_sd (v "DPT") (c "DPT") (s "DPT") (p_dpt_sd p) (p_dpt_k p));
   ("DPT", "noval", missing (v "DPT"));
   ("DPT", "nonorm", missing (c "DPT"));
   ("DPT", "ssat", supersaturated (v "DPT") (v "AT2"))].
Definition pressure_flags : list (string * string * Prop) :=
  [("SLP", "noval", missing (v "SLP"));
   ("SLP", "clim", anomalous_bar (v "SLP") (c "SLP") (s "SLP") (p_slp_k p) (p_slp_bar p));
   ("SLP", "nonorm", missing (c "SLP"))].
Definition wind_flags : list (string * string * Prop) :=
  [("W", "noval", missing (v "W"));
   ("W", "hardlimit", ~ inside (p_w_lim p) (v "W"));
   ("W", "consistency", wind_mismatch (v "W") (v "D") (p_w_var p))].
(** Any humidity-related value absent or out of its limits. *)
Definition silly_flags : list (string * string * Prop) :=
  [("DPT", "hardlimit", ~ (inside (p_at_lim p) (v "AT") /\ inside (p_dpt_lim p) (v "DPT") /\
                           inside (p_shu_lim p) (v "SHU") /\ inside (p_rh_lim p) (v "RH")))].
(** The second set of air temperature flags; its hard limits apply to AT, not to AT2. *)
Definition air2_flags : list (string * string * Prop) :=
  [("AT2", "clim", anomalous_sd (v "AT2") (c "AT2") (s "AT2") (p_at_sd p) (p_at_k p));
   ("AT2", "noval", missing (v "AT2"));
   ("AT2", "nonorm", missing (c "AT2"));
   ("AT2", "hardlimit", ~ inside (p_at_lim p) (v "AT"))].

Definition base_flags : list (string * string * Prop) :=
  kind_flags ++ deck_flags ++ place_flags ++ day_flags ++ humidity_source_flags ++ air_source_flags ++ wind_source_flags ++
  sst_flags ++ air_flags ++ dew_flags ++ pressure_flags ++ wind_flags ++ silly_flags ++ air2_flags.
Definition base_wind_flags := kind_flags ++ place_flags ++ wind_source_flags ++ wind_flags.
Definition base_pos_flags := kind_flags ++ deck_flags ++ place_flags ++ day_flags.
Definition base_slp_flags := base_pos_flags ++ pressure_flags.
Definition base_sst_flags := base_pos_flags ++ sst_flags.

(** The flags of the older routine qc.base_qc_report, with its built-in limits.  Its position test is applied
    to the longitude already taken west, and its last year for deck 193 is 1893. *)
Definition on_earth_west : Prop := exists la lo, place o la lo /\ (-90 <= la <= 90)%Q /\ (-180 <= lo <= 360)%Q.
Definition old_flags : list (string * string * Prop) :=
  [("POS", "isbuoy", one_of o "PT" [6; 7]);
   ("POS", "isship", one_of o "PT" ship_platforms);
   ("POS", "mat_blacklist", bad_air_source 1893 o);
   ("POS", "is780", one_of o "DCK" [780]);
   ("POS", "pos", ~ on_earth_west);
   ("POS", "date", ~ dated o);
   ("POS", "day", ~ (on_earth_west /\ dated o) \/ sun_was_up elev 1 o);
   ("POS", "blklst", bad_source o);
   ("SST", "noval", missing (v "SST"));
   ("SST", "freez", below (v "SST") (-9 # 5));
   ("SST", "clim", anomalous (v "SST") (c "SST") 8);
   ("SST", "nonorm", missing (c "SST"));
   ("AT", "noval", missing (v "AT"));
   ("AT", "clim", anomalous (v "AT") (c "AT") 10);
   ("AT", "nonorm", missing (c "AT"))].
End Table.

(** A flag value decides a condition. *)
Definition decides (z : Z) (P : Prop) : Prop := (z = 1 /\ P) \/ (z = 0 /\ ~ P).

(** Parameters as intended: limits in order, positive multipliers and deviations, offset within a day. *)
Definition ordered (l : Q * Q) : Prop := (fst l < snd l)%Q.
Definition sane (p : params) : Prop :=
  ordered (p_sst_lim p) /\ ordered (p_at_lim p) /\ ordered (p_dpt_lim p) /\ ordered (p_shu_lim p) /\ ordered (p_rh_lim p) /\
  ordered (p_w_lim p) /\ ordered (p_at_sd p) /\ ordered (p_dpt_sd p) /\
  (0 < fst (p_at_sd p) /\ 0 < fst (p_dpt_sd p) /\ 0 < p_at_k p /\ 0 < p_dpt_k p /\ 0 < p_slp_k p /\ 0 <= p_since p /\ p_since p <= 24)%Q.

(** Reports base QC can process: position, year and a month of the year are known, and the standard
    deviation of the pressure is not negative. *)
Definition processable (o : seen) : Prop :=
  (exists la lo, s_var o "LAT" = Some la /\ s_var o "LON" = Some lo) /\
  (exists y m, number o "YR" y /\ number o "MO" m /\ 1 <= y /\ 1 <= m <= 12) /\
  (forall z, s_sd o "SLP" = Some z -> (0 <= z)%Q).

(** The documented repair: deck 701 before 1860 without an hour is taken as midnight. *)
Definition hour_to_fix (o : seen) : Prop :=
  number o "DCK" 701 /\ (exists y, number o "YR" y /\ y < 1860) /\ s_var o "HR" = None.
