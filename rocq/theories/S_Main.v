(** Specification of the main program: which lines of a file count, and what a report owes to its record. *)
Require Import String ZArith QArith List.
Require Import Verif.M_Base Verif.M_Imma Verif.M_Report Verif.S_Report Verif.S_Hum Verif.S_Print.
Import ListNotations.
Open Scope string_scope.
Open Scope Z_scope.

(** A value of a record is the integer z. *)
Definition is_int (v : value) (z : Z) : Prop := v = VInt z \/ exists q, v = VFloat q /\ (q == inject_Z z)%Q.
(** A line of the file of a month gives the record im: it can be read, the identifier is not one of those to be left out, and
    its year and month are those of the file. *)
Definition usable (tables : list (Z * (string * list (string * def)))) (excluded : list string) (y m : Z) (line : string) (im : imma) : Prop :=
  readstr tables line new_imma = Some (Ok im) /\
  (forall s, assoc "ID" (im_data im) = Some (VStr s) -> ~ In s excluded) /\
  (exists v, assoc "YR" (im_data im) = Some v /\ is_int v y) /\
  (exists v, assoc "MO" (im_data im) = Some v /\ is_int v m).
(** The records of the lines that count, in order. *)
Inductive read_off (P : string -> imma -> Prop) : list string -> list imma -> Prop :=
| off_end : read_off P [] []
| off_use : forall line im lines ims, P line im -> read_off P lines ims -> read_off P (line :: lines) (im :: ims)
| off_skip : forall line lines ims, (forall im, ~ P line im) -> read_off P lines ims -> read_off P (line :: lines) ims.
(** No file: no records. *)
Definition records (P : string -> imma -> Prop) (file : option (list string)) (ims : list imma) : Prop :=
  match file with None => ims = [] | Some lines => read_off P lines ims end.

(** A field of a record as a text, as a number, as a number of an integer variable. *)
Definition text_field (im : imma) (n : string) (o : option string) : Prop :=
  (exists s, assoc n (im_data im) = Some (VStr s) /\ o = Some s) \/ ((~ exists s, assoc n (im_data im) = Some (VStr s)) /\ o = None).
Definition number_field (im : imma) (n : string) (o : option Q) : Prop :=
  (exists z, assoc n (im_data im) = Some (VInt z) /\ o = Some (inject_Z z)) \/
  (exists q, assoc n (im_data im) = Some (VFloat q) /\
     ((~ In n integer_variables /\ o = Some q) \/ (In n integer_variables /\ o = Some (inject_Z (py_int q))))) \/
  ((~ exists z, assoc n (im_data im) = Some (VInt z)) /\ (~ exists q, assoc n (im_data im) = Some (VFloat q)) /\ o = None).
(** The documented repair of the hour. *)
Definition hour_repaired (r : report) : Prop :=
  getvar r "DCK" = Some (inject_Z 701) /\ (exists y, getvar r "YR" = Some (inject_Z y) /\ y < 1860) /\ getvar r "HR" = Some 0%Q.
(** A report made from a record: identifiers and variables are those of the record; the second air temperature is the first;
    humidity variables are worked out; the hour may have been repaired. *)
Definition made_from (im : imma) (r : report) : Prop :=
  text_field im "ID" (r_id r) /\ text_field im "UID" (r_uid r) /\
  (forall n, In n VARLIST -> ~ In n ("HR" :: "AT2" :: humidity_names) -> number_field im n (getvar r n)) /\
  number_field im "AT" (getvar r "AT2") /\
  (number_field im "HR" (getvar r "HR") \/ number_field im "HR" None /\ hour_repaired r).

(** A routine that only touches the humidity variables. *)
Definition humidity_only (h : report -> res report) : Prop :=
  forall r r', h r = Ok r' -> hum_same r r' /\ length (r_data r') = length (r_data r).

(** The value o of a climatology, looked up by the routine get, at the position, month and day of a report; none without a day. *)
Definition normal_at {C : Type} (get : C -> Q -> Q -> Z -> Z -> res (option Q)) (c : C) (r : report) (o : option Q) : Prop :=
  (exists la lo m d, lat r = Some la /\ lon r = Some lo /\ getint r "MO" = Some m /\ getint r "DY" = Some d /\ get c la lo m d = Ok o) \/
  (getint r "DY" = None /\ o = None).

(** What is derived from the track of a ship. *)
Definition motion : list string := ["speed"; "course"; "distance"; "time_diff"; "alt_speed"; "alt_course"; "alt_distance"; "alt_time_diff"].
(** The report r' is r but for motion and the flags stored under the keys K. *)
Definition frame (K : list string) (r r' : report) : Prop :=
  r_id r' = r_id r /\ r_uid r' = r_uid r /\ r_data r' = r_data r /\ r_dt r' = r_dt r /\ r_clim r' = r_clim r /\
  (forall n, ~ In n motion -> assoc n (r_ext r') = assoc n (r_ext r)) /\
  (forall t f, ~ In (t ++ f) K -> get_qc r' t f = get_qc r t f).
Definition frames (K : list string) : list report -> list report -> Prop := Forall2 (frame K).

(** The reports with the property P in a list, before and after some work on the list. *)
Inductive placed (P : report -> Prop) : list report -> list report -> list report -> list report -> Prop :=
| placed_nil : placed P [] [] [] []
| placed_yes : forall r r' l l' s s', P r -> placed P l l' s s' -> placed P (r :: l) (r' :: l') (r :: s) (r' :: s')
| placed_no : forall r r' l l' s s', ~ P r -> placed P l l' s s' -> placed P (r :: l) (r' :: l') s s'.

(** The months around a month. *)
Definition month_before (y m : Z) : Z * Z := if m =? 1 then (y - 1, 12) else (y, m - 1).
Definition month_after (y m : Z) : Z * Z := if m =? 12 then (y + 1, 1) else (y, m + 1).
Definition window (y m : Z) : list (Z * Z) := [month_before y m; (y, m); month_after y m].
(** A record that can be printed: it has a UID; UID and ID hold no comma and no line end. *)
Definition plain_record (im : imma) : Prop :=
  (exists u, assoc "UID" (im_data im) = Some (VStr u) /\ plain u) /\ (forall i, assoc "ID" (im_data im) = Some (VStr i) -> plain i).
