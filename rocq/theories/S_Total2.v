(** Specification: what the high resolution program and the tracking-only program need to come to an end without an exception. *)
Require Import String Ascii ZArith QArith List.
Require Import Verif.M_Base Verif.M_Imma Verif.M_ImmaTables Verif.S_Imma Verif.S_Calendar Verif.M_Grid Verif.S_Clim Verif.S_Voyage Verif.M_Voyage Verif.M_Track Verif.S_Track Verif.S_Buddy Verif.M_BaseQC Verif.S_BaseQC Verif.S_Sun Verif.S_Print
  Verif.M_Main Verif.S_Main Verif.S_Main2 Verif.S_Total.
Import ListNotations.
Open Scope string_scope.
Open Scope list_scope.
Open Scope Z_scope.

(** What both need: nothing about humidity, air temperature or pressure, and the gross error for sea temperature only. *)
Record sst_equipped (E : setup) : Prop := {
  sq_tables : e_tables E = imma_tables;
  sq_elev : elevation_like (e_elev E);
  sq_base : sane (e_base E);
  sq_sphere : well_defined (e_sphere E) /\ distance_like (sp_dist (e_sphere E));
  sq_rep : (0 <= snd (e_rep E) <= 1)%Q;
  sq_deviations : forall c, In c [e_sd_old E; e_sd1 E; e_sd2 E; e_sd3 E] -> one_degree c;
  sq_noise : (0 <= e_noise E)%Q;
  sq_limit : (0 < p_sst_anom (e_base E))%Q;
  sq_error : ~ (e_sigma_m E == 0)%Q;
  sq_root : forall v, (0 < v)%Q -> (0 < e_sqrt E v)%Q;
  sq_gross : forall a mean sd, (- p_sst_anom (e_base E) <= a <= p_sst_anom (e_base E))%Q -> (0 < sd)%Q -> e_gross E (p_sst_anom (e_base E)) a mean sd <> None;
  sq_buddy : params_ok (fst (fst (e_buddy E))) (snd (fst (e_buddy E))) (snd (e_buddy E)) }.
(** The high resolution program needs a climatology of sea temperature on cells of any size. *)
Record hires_equipped (E : setup) : Prop := {
  hq_sst : sst_equipped E;
  hq_mean : exists c, e_lib E "SST" "mean" = Some c /\ clim_wf c }.
(** The tracking-only program needs a climatology on one-degree cells, limits for its other checks, and, with tracking, the background
    fields of every day and the variance of every month. *)
Record track_equipped (E : setup) : Prop := {
  tq_sst : sst_equipped E;
  tq_mean : exists c, e_lib E "SST" "mean" = Some c /\ one_degree c;
  tq_iquam : (0 <= iq_buoy (e_iquam E) /\ 0 <= iq_ship (e_iquam E) /\ 0 <= iq_d (e_iquam E) /\ 0 < iq_t (e_iquam E))%Q;
  tq_spike : (0 <= sk_ship (e_spike E) /\ 0 <= sk_buoy (e_spike E))%Q;
  tq_sat : 0 <= snd (e_sat E);
  tq_round : 0 <= fst (e_round E) /\ (0 <= snd (e_round E) <= 1)%Q;
  tq_text : forall n q, float_text (e_str_of E n q);
  tq_variance : e_tracking E = true -> forall m, 1 <= m <= 12 -> exists c, e_bgvar E m = Ok c /\ one_degree c;
  tq_ostia : e_tracking E = true -> forall y m d, valid (on y m d) -> exists sst ice, e_ostia E (Some (y, m, d)) = Ok (sst, ice) /\ background_field sst /\ background_field ice }.
(** A record that can be dealt with: the position is on the globe; an hour belongs to a day; a ship's heading is one of the codes
    0 to 9. *)
Record placeable (im : imma) : Prop := {
  pl_lat : exists q, number_field im "LAT" (Some q) /\ (-90 <= q <= 90)%Q;
  pl_lon : exists q, number_field im "LON" (Some q) /\ (-180 <= q <= 360)%Q;
  pl_hour : forall h, number_field im "HR" (Some h) -> (0 <= h < 24)%Q;
  pl_heading : forall k, number_field im "DS" (Some (inject_Z k)) -> 0 <= k <= 9 }.
(** The files of a window are in order: their lines can be read, their usable records dealt with, and those of one ship are in order
    of time. *)
Record readable (E : setup) (year month : Z) : Prop := {
  rb_year : 2 <= year <= 9998;
  rb_month : 1 <= month <= 12;
  rb_lines : forall core y m lines line, get_table imma_tables 0 = Ok core -> In (y, m) (window year month) -> e_lines E y m = Some lines -> In line lines -> legible core line;
  rb_records : forall y m lines line im, In (y, m) (window year month) -> e_lines E y m = Some lines -> In line lines -> usable (e_tables E) (e_excluded E) y m line im ->
    placeable im /\ (e_tracking E = true -> trackable y m im);
  rb_time : forall a b c, file_records E (month_before year month) a -> file_records E (year, month) b -> file_records E (month_after year month) c -> chronological (a ++ b ++ c) }.
(** The window has a usable record; the records of the month can be printed. *)
Definition some_record (E : setup) (year month : Z) : Prop :=
  exists y m lines line im, In (y, m) (window year month) /\ e_lines E y m = Some lines /\ In line lines /\ usable (e_tables E) (e_excluded E) y m line im.
Definition month_plain (E : setup) (year month : Z) : Prop :=
  forall lines line im, e_lines E year month = Some lines -> In line lines -> usable (e_tables E) (e_excluded E) year month line im -> plain_record im.
