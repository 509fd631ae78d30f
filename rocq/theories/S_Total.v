(** Specification: what the main program needs to come to an end without an exception. *)
Require Import String Ascii ZArith QArith List.
Require Import Verif.M_Base Verif.M_Imma Verif.M_ImmaTables Verif.S_Imma Verif.S_Calendar Verif.M_Grid Verif.S_Clim Verif.S_Voyage Verif.M_Voyage Verif.M_Track Verif.S_Track Verif.S_Buddy Verif.M_BaseQC Verif.S_BaseQC Verif.S_Sun Verif.S_Print Verif.M_Report
  Verif.M_Main Verif.S_Main Verif.S_Main2.
Import ListNotations.
Open Scope string_scope.
Open Scope list_scope.
Open Scope Z_scope.

(** A line of a file that the program can deal with: it is not blank, and the bytes of every parameter of the core up to the
    identifier mean something. *)
Definition legible (core : list (string * def)) (line : string) : Prop :=
  ~ chars (fun c => c = "010"%char) line /\
  exists s, full_line line s /\
    forall before p d after n, core = before ++ (p, d) :: after -> ~ In "ID" (names before) -> d_len d = Some n -> exists v, means d (substring (width before) n s) v.

(** A date of the calendar, by year, month and day. *)
Definition on (y m d : Z) : date := {| yr := y; mo := m; dy := d |}.
(** A record of the file of a month that the program can deal with: the position is on the globe; an hour belongs to a day; a ship's
    heading is one of the codes 0 to 9; temperatures are far above the poles of the humidity formulas. *)
Record workable (y m : Z) (im : imma) : Prop := {
  wk_lat : exists q, number_field im "LAT" (Some q) /\ (-90 <= q <= 90)%Q;
  wk_lon : exists q, number_field im "LON" (Some q) /\ (-180 <= q <= 360)%Q;
  wk_hour : forall h, number_field im "HR" (Some h) -> (0 <= h < 24)%Q;
  wk_heading : forall k, number_field im "DS" (Some (inject_Z k)) -> 0 <= k <= 9;
  wk_warm : forall n q, In n ["AT"; "DPT"] -> number_field im n (Some q) -> (-237 <= q <= 800)%Q }.
(** With tracking, a day must be one of the month, and a drifter without a day must have no hour and be given none. *)
Record trackable (y m : Z) (im : imma) : Prop := {
  tr_day : forall d, number_field im "DY" (Some (inject_Z d)) -> valid (on y m d);
  tr_drifter : number_field im "PT" (Some 7%Q) -> number_field im "DY" None -> number_field im "HR" None /\ ~ (number_field im "DCK" (Some 701%Q) /\ y < 1860) }.
(** The record is of day d and hour h; an hour missing in deck 701 before 1860 is midnight. *)
Definition when (im : imma) (d : date) (h : Q) : Prop :=
  number_field im "YR" (Some (inject_Z (yr d))) /\ number_field im "MO" (Some (inject_Z (mo d))) /\ number_field im "DY" (Some (inject_Z (dy d))) /\
  valid d /\ hour_ok h /\
  (number_field im "HR" (Some h) \/ number_field im "HR" None /\ number_field im "DCK" (Some 701%Q) /\ yr d < 1860 /\ h = 0%Q).
(** The records of one ship are in order of time. *)
Definition chronological (ims : list imma) : Prop :=
  forall i j a b id d h d' h' t, (i < j)%nat -> nth_error ims i = Some a -> nth_error ims j = Some b -> text_field a "ID" id -> text_field b "ID" id ->
    when a d h -> when b d' h' -> elapsed d h d' h' t -> (0 <= t)%Q.

(** A climatology on one-degree cells; a background field. *)
Definition one_degree (c : clim) : Prop := clim_wf c /\ cny c = 180.
Definition background_field (c : clim) : Prop := 0 < cn c /\ cny c = 3600 /\ cnx c = 7200.
(** A humidity routine that deals with every report whose temperatures are far above the poles of the formulas. *)
Definition humidity_works (h : report -> res report) : Prop :=
  forall r, length (r_data r) = length VARLIST -> assoc "SLP" (r_clim r) <> None -> (forall n q, In n ["AT"; "DPT"] -> getvar r n = Some q -> (-237 <= q <= 800)%Q) -> exists r', h r = Ok r'.
(** The surroundings of the program are complete and sensible. *)
Record equipped (E : setup) : Prop := {
  eq_tables : e_tables E = imma_tables;
  eq_hum : humidity_only (e_hum E);
  eq_works : humidity_works (e_hum E);
  eq_mds : forall n, In n ["SST"; "AT"] -> exists c, e_lib E n "mean" = Some c /\ one_degree c;
  eq_mean : forall n, In n ["SLP2"; "SHU"; "CRH"; "CWB"; "DPD"; "DPT"; "AT2"; "SLP"] -> exists c, e_lib E n "mean" = Some c /\ clim_wf c;
  eq_sd : forall n, In n ["DPT"; "AT2"; "SLP"] -> exists c, e_lib E n "stdev" = Some c /\ clim_wf c;
  eq_degree : forall n c, In n ["DPT"; "SLP"] -> e_lib E n "stdev" = Some c -> cny c = 180;
  eq_slp : forall c t la lo q, e_lib E "SLP" "stdev" = Some c -> cval c t la lo = Some q -> (0 <= q)%Q;
  eq_elev : elevation_like (e_elev E);
  eq_base : sane (e_base E);
  eq_sphere : well_defined (e_sphere E) /\ distance_like (sp_dist (e_sphere E));
  eq_iquam : (0 <= iq_buoy (e_iquam E) /\ 0 <= iq_ship (e_iquam E) /\ 0 <= iq_d (e_iquam E) /\ 0 < iq_t (e_iquam E))%Q;
  eq_spike : (0 <= sk_ship (e_spike E) /\ 0 <= sk_buoy (e_spike E))%Q;
  eq_sat : 0 <= snd (e_sat E);
  eq_round : 0 <= fst (e_round E) /\ (0 <= snd (e_round E) <= 1)%Q;
  eq_rep : (0 <= snd (e_rep E) <= 1)%Q;
  eq_deviations : forall c, In c [e_sd_old E; e_sd1 E; e_sd2 E; e_sd3 E] -> one_degree c;
  eq_noise : (0 <= e_noise E)%Q;
  eq_limits : (0 < p_sst_anom (e_base E) /\ 0 < p_at_anom (e_base E))%Q;
  eq_error : ~ (e_sigma_m E == 0)%Q;
  eq_root : forall v, (0 < v)%Q -> (0 < e_sqrt E v)%Q;
  eq_gross : forall lim a mean sd, (0 < lim)%Q -> (- lim <= a <= lim)%Q -> (0 < sd)%Q -> e_gross E lim a mean sd <> None;
  eq_buddy : params_ok (fst (fst (e_buddy E))) (snd (fst (e_buddy E))) (snd (e_buddy E));
  eq_slp_buddy : params_ok (fst (fst (e_slp_buddy E))) (snd (fst (e_slp_buddy E))) (snd (e_slp_buddy E));
  eq_text : forall n q, float_text (e_str_of E n q);
  eq_variance : e_tracking E = true -> forall m, 1 <= m <= 12 -> exists c, e_bgvar E m = Ok c /\ one_degree c;
  eq_ostia : e_tracking E = true -> forall y m d, valid (on y m d) -> exists sst ice, e_ostia E (Some (y, m, d)) = Ok (sst, ice) /\ background_field sst /\ background_field ice }.

(** The records of the usable lines of the file of a month. *)
Definition file_records (E : setup) (ym : Z * Z) (ims : list imma) : Prop :=
  records (usable (e_tables E) (e_excluded E) (fst ym) (snd ym)) (e_lines E (fst ym) (snd ym)) ims.
(** The files of a window are in order: their lines can be read, their usable records dealt with, there is one at least, and those of
    one ship are in order of time; those of the month itself can be printed. *)
Record in_order (E : setup) (year month : Z) : Prop := {
  io_year : 2 <= year <= 9998;
  io_month : 1 <= month <= 12;
  io_lines : forall core y m lines line, get_table imma_tables 0 = Ok core -> In (y, m) (window year month) -> e_lines E y m = Some lines -> In line lines -> legible core line;
  io_records : forall y m lines line im, In (y, m) (window year month) -> e_lines E y m = Some lines -> In line lines -> usable (e_tables E) (e_excluded E) y m line im ->
    workable y m im /\ (e_tracking E = true -> trackable y m im) /\ (y = year -> m = month -> plain_record im);
  io_some : exists y m lines line im, In (y, m) (window year month) /\ e_lines E y m = Some lines /\ In line lines /\ usable (e_tables E) (e_excluded E) y m line im;
  io_time : forall a b c, file_records E (month_before year month) a -> file_records E (year, month) b -> file_records E (month_after year month) c -> chronological (a ++ b ++ c) }.
