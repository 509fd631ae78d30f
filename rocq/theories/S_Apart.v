(** Specification: the same program given other files, the records of one ship in the files of a month, reports alike but for some flags. *)
Require Import String ZArith QArith List.
Require Import Verif.M_Base Verif.M_Imma Verif.M_Report Verif.M_Main Verif.S_Main.
Import ListNotations.
Open Scope string_scope.
Open Scope Z_scope.

(** The program E with the files L. *)
Definition with_lines (E : setup) (L : Z -> Z -> option (list string)) : setup :=
  {| e_tables := e_tables E; e_excluded := e_excluded E; e_lines := L; e_lib := e_lib E; e_bgvar := e_bgvar E; e_ostia := e_ostia E;
     e_hum := e_hum E; e_elev := e_elev E; e_base := e_base E; e_sphere := e_sphere E; e_prt := e_prt E; e_track := e_track E;
     e_iquam := e_iquam E; e_spike := e_spike E; e_sat := e_sat E; e_round := e_round E; e_rep := e_rep E; e_xspan := e_xspan E;
     e_sqrt := e_sqrt E; e_gross := e_gross E; e_sd_old := e_sd_old E; e_sd1 := e_sd1 E; e_sd2 := e_sd2 E; e_sd3 := e_sd3 E;
     e_radius := e_radius E; e_sigma_m := e_sigma_m E; e_noise := e_noise E; e_buddy := e_buddy E; e_slp_buddy := e_slp_buddy E;
     e_str_of := e_str_of E; e_runid := e_runid E; e_dir := e_dir E; e_tracking := e_tracking E |}.

(** A line of the file of a month that gives the record im, of the ship id. *)
Definition of_ship (E : setup) (id : option string) (y m : Z) (line : string) (im : imma) : Prop :=
  usable (e_tables E) (e_excluded E) y m line im /\ text_field im "ID" id.
(** Both files of a month have the same records of the ship, in the same order. *)
Definition same_records (E : setup) (L : Z -> Z -> option (list string)) (id : option string) (ym : Z * Z) : Prop :=
  exists ims, records (of_ship E id (fst ym) (snd ym)) (e_lines E (fst ym) (snd ym)) ims /\
              records (of_ship E id (fst ym) (snd ym)) (L (fst ym) (snd ym)) ims.

(** Everything about two reports is the same, but for the flags stored under the keys K. *)
Definition same_but (K : list string) (r r' : report) : Prop :=
  r_id r' = r_id r /\ r_uid r' = r_uid r /\ r_data r' = r_data r /\ r_dt r' = r_dt r /\ r_ext r' = r_ext r /\ r_clim r' = r_clim r /\
  (forall t f, ~ In (t ++ f) K -> get_qc r' t f = get_qc r t f).
