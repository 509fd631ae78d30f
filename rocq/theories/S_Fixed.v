(** Specification of the fixed-width lines: what stands in which columns. *)
Require Import String Ascii ZArith QArith Qabs List.
Require Import Verif.M_Base Verif.M_Report Verif.S_Report Verif.S_Imma Verif.S_Files Verif.S_Print.
Import ListNotations.
Open Scope string_scope.
Open Scope Z_scope.

(** The nearest integer, away from zero if two are as near. *)
Definition nearest (q : Q) (z : Z) : Prop :=
  (Qabs (q - inject_Z z) <= 1 # 2)%Q /\ ((Qabs (q - inject_Z z) == 1 # 2)%Q -> (Qabs q < Qabs (inject_Z z))%Q).
(** A value in units of 1/k, -32768 if it is missing. *)
Definition in_units (v : option Q) (k : Q) (z : Z) : Prop :=
  (v = None /\ z = -32768) \/ exists q, v = Some q /\ nearest (q * k) z.

(** What a field shows of a report. *)
Inductive item :=
| Identifier | Unique | Latitude | Longitude | Ship
| Whole (var : string)           (* an integer that has to be there *)
| Units (var : string) (k : Q)   (* a value in units of 1/k *)
| Anomaly (var : string) (k : Q)
| Flag (type name : string)
| Always (s : string).

Definition number_of (r : report) (f : item) (z : Z) : Prop :=
  match f with
  | Latitude => exists q, getvar r "LAT" = Some q /\ nearest (q * 100) z
  | Longitude => exists q, getvar r "LON" = Some q /\ nearest ((if Qlt_le_dec 180 q then q - 360 else q) * 100) z
  | Whole var => getvar r var = Some (inject_Z z)
  | Units var k => in_units (getvar r var) k z
  | Anomaly var k => in_units (getanom r var) k z
  (* the course code and the speed code, as hundreds and units *)
  | Ship => (exists d v, getvar r "DS" = Some (inject_Z d) /\ getvar r "VS" = Some (inject_Z v) /\ z = 100 * d + v) \/
            ((getvar r "DS" = None \/ getvar r "VS" = None) /\ z = 9999)
  | _ => False
  end.
(** Blanks, then the number. *)
Definition right_aligned (z : Z) (s : string) : Prop := exists b t, s = b ++ t /\ chars (fun c => c = " "%char) b /\ int_text z t.
(** The first n characters, blanks behind if there are fewer. *)
Definition left_aligned (n : nat) (text s : string) : Prop :=
  String.length s = n /\ ((exists t, text = s ++ t) \/ exists b, s = text ++ b /\ chars (fun c => c = " "%char) b).
Definition shows (r : report) (f : item) (s : string) : Prop :=
  match f with
  | Identifier => left_aligned 9 (match r_id r with Some i => i | None => "" end) s
  | Unique => left_aligned 8 (match r_uid r with Some u => u | None => "None" end) s
  | Flag t n => padded 1 (get_qc r t n) s
  | Always t => s = t
  | _ => exists z, number_of r f z /\ right_aligned z s
  end.

(** The columns: where a field starts, its width, what it shows. *)
Definition flag_columns (start : nat) (l : list (string * string)) : list (nat * nat * item) :=
  map (fun '(i, (t, n)) => ((start + i)%nat, 1%nat, Flag t n)) (combine (seq 0 (length l)) l).
Definition of_type (t : string) (l : list string) : list (string * string) := map (pair t) l.
Definition newline_text : string := String "010" "".
Definition report_columns : list (nat * nat * item) :=
  [(0, 9, Identifier); (9, 1, Always " "); (10, 8, Unique); (18, 8, Latitude); (26, 8, Longitude); (34, 8, Whole "YR"); (42, 8, Whole "MO");
   (50, 8, Units "DY" 1); (58, 8, Units "HR" 100); (66, 8, Units "AT" 10); (74, 8, Anomaly "AT" 100); (82, 8, Units "SST" 10); (90, 8, Anomaly "SST" 100);
   (98, 8, Ship); (106, 8, Whole "DCK"); (114, 8, Units "PT" 1); (122, 1, Always " ")]%nat
  ++ flag_columns 123 (of_type "POS" ["day"; "land"; "trk"; "date"; "time"; "pos"; "blklst"; "dup"]) ++ [(131, 1, Always " ")]%nat
  ++ flag_columns 132 (of_type "SST" ["bud"; "clim"; "nonorm"; "freez"; "noval"; "nbud"; "bbud"; "rep"]) ++ [(140, 1, Always " ")]%nat
  ++ flag_columns 141 (of_type "AT" ["bud"; "clim"; "nonorm"]) ++ [(144, 1, Always "9")]%nat ++ flag_columns 145 (of_type "AT" ["noval"; "nbud"; "bbud"; "rep"])
  ++ [(149, 10, Always " 99999999 ")]%nat ++ flag_columns 159 (of_type "POS" ["few"; "ntrk"]) ++ [(161, 7, Always ("999999" ++ newline_text))]%nat.
Definition longform_columns : list (nat * nat * item) :=
  [(0, 9, Identifier); (9, 1, Always " "); (10, 8, Unique); (18, 8, Latitude); (26, 8, Longitude); (34, 8, Whole "YR"); (42, 8, Whole "MO");
   (50, 8, Units "DY" 1); (58, 8, Units "HR" 100); (66, 8, Units "AT" 10); (74, 8, Anomaly "AT" 100); (82, 8, Units "SST" 10); (90, 8, Anomaly "SST" 100);
   (98, 8, Units "SLP" 10); (106, 8, Units "DPT" 10); (114, 8, Anomaly "DPT" 100); (122, 8, Units "SHU" 10); (130, 8, Anomaly "SHU" 100);
   (138, 8, Units "VAP" 10); (146, 8, Anomaly "VAP" 100); (154, 8, Units "CRH" 10); (162, 8, Anomaly "CRH" 100); (170, 8, Units "CWB" 10);
   (178, 8, Anomaly "CWB" 100); (186, 8, Units "DPD" 10); (194, 8, Anomaly "DPD" 100);
   (202, 8, Ship); (210, 8, Whole "DCK"); (218, 8, Units "PT" 1); (226, 1, Always " ")]%nat
  ++ flag_columns 227 (of_type "POS" ["day"; "land"; "trk"; "date"; "time"; "pos"; "blklst"; "iquam_track"]) ++ [(235, 1, Always " ")]%nat
  ++ flag_columns 236 (of_type "SST" ["bud"; "clim"; "nonorm"; "freez"; "noval"; "spike"; "bbud"; "rep"]) ++ [(244, 1, Always " ")]%nat
  ++ flag_columns 245 (of_type "AT" ["bud"; "clim"; "nonorm"]) ++ [(248, 1, Always "9")]%nat ++ flag_columns 249 (of_type "AT" ["noval"; "nbud"; "bbud"; "rep"])
  ++ [(253, 1, Always " ")]%nat ++ flag_columns 254 (of_type "DPT" ["bud"; "clim"; "nonorm"; "ssat"; "noval"; "round"; "bbud"; "rep"; "repsat"]) ++ [(263, 1, Always " ")]%nat
  ++ flag_columns 264 (of_type "POS" ["few"; "ntrk"]) ++ [(266, 7, Always ("999999" ++ newline_text))]%nat.

(** Numbers that fit into eight columns. *)
Definition fits (z : Z) : Prop := -9999999 <= z <= 99999999.
Definition line_shows (r : report) (columns : list (nat * nat * item)) (width : nat) (line : string) : Prop :=
  String.length line = width /\ Forall (fun '(start, n, f) => shows r f (substring start n line)) columns.
(** A report with integers in its integer variables and digits for flags. *)
Definition well_typed (r : report) : Prop := forall v, In v integer_variables -> match getvar r v with Some q => exists z, q = inject_Z z | None => True end.
Definition digit_flags (r : report) : Prop := forall t n, 0 <= get_qc r t n <= 9.
(** Every number of the line fits. *)
Definition all_fit (r : report) (columns : list (nat * nat * item)) : Prop := forall s n f z, In (s, n, f) columns -> number_of r f z -> fits z.
(** Two reports agree in what a field shows. *)
Definition agree (r r' : report) (f : item) : Prop :=
  match f with
  | Flag t n => get_qc r t n = get_qc r' t n
  | Identifier | Unique | Always _ => True
  | _ => exists z, number_of r f z /\ number_of r' f z
  end.
(** Values of moderate size. *)
Definition moderate (r : report) : Prop :=
  (forall v q, getvar r v = Some q -> (Qabs q <= 90000)%Q) /\ (forall v q, getanom r v = Some q -> (Qabs q <= 90000)%Q).
