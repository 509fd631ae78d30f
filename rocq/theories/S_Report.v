(** Specification vocabulary for reports, flags, filters and decks. *)
Require Import String Ascii ZArith QArith Qround List Bool.
Require Import Verif.S_Calendar.
Import ListNotations.
Open Scope string_scope.
Open Scope list_scope.
Open Scope Z_scope.

(** The numeric variables of a report and the ones that hold integers. *)
Definition variables : list string :=
  ["YR"; "MO"; "DY"; "HR"; "LAT"; "LON"; "DS"; "VS"; "SLP"; "AT"; "AT2"; "SST"; "DCK"; "PT"; "SID"; "DPT";
   "SHU"; "VAP"; "CRH"; "CWB"; "DPD"; "W"; "WI"; "D"; "DI"; "WW"].
Definition integer_variables : list string := ["YR"; "MO"; "DY"; "DS"; "VS"; "DCK"; "PT"; "SID"].

(** One attempt to set a flag: (variable or POS, flag name, value). *)
Definition attempt := (string * string * Z)%type.
Definition att_type (a : attempt) := fst (fst a).
Definition att_flag (a : attempt) := snd (fst a).
Definition att_value (a : attempt) := snd a.

(** Attempts that are accepted. *)
Definition accepted (a : attempt) : Prop :=
  0 <= att_value a <= 9 /\ (att_type a = "POS" \/ In (att_type a) variables).

(** Two flags share a storage key when type and flag name concatenate to the same text. *)
Definition same_key (t f t' f' : string) : Prop := (t ++ f)%string = (t' ++ f')%string.

(** Characters of variable names (capital letters and digits) and of the beginning of flag names. *)
Definition upper_or_digit (c : ascii) : Prop :=
  (65 <= Z.of_nat (nat_of_ascii c) <= 90) \/ (48 <= Z.of_nat (nat_of_ascii c) <= 57).
Definition lower (c : ascii) : Prop := 97 <= Z.of_nat (nat_of_ascii c) <= 122.
Fixpoint all_chars (P : ascii -> Prop) (s : string) : Prop :=
  match s with EmptyString => True | String c s' => P c /\ all_chars P s' end.
Definition type_name (s : string) : Prop := all_chars upper_or_digit s.
Definition flag_name (s : string) : Prop := exists c s', s = String c s' /\ lower c.

(** Order of time stamps [year; month; day; hour; minute]: earlier date, or same date and earlier
    minute of the day. *)
Definition stamp_before (a b : list Z) : Prop :=
  match a, b with
  | [y; m; d; h; mi], [y'; m'; d'; h'; mi'] =>
      earlier (mkdate y m d) (mkdate y' m' d') \/
      (y = y' /\ m = m' /\ d = d' /\ 60 * h + mi < 60 * h' + mi')
  | _, _ => False
  end.
(** A time stamp with 0..59 minutes. *)
Definition stamp_ok (a : list Z) : Prop :=
  match a with [_; _; _; _; mi] => 0 <= mi <= 59 | _ => False end.

(** Ship's course and speed codes: courses come in eighths of a circle clockwise from north (9 is unknown);
    a speed code stands for the middle of its range of knots, five knots wide from 1968 on and three before,
    and code 0 for no speed. *)
Definition course_of (code : option Z) (c : option Q) : Prop :=
  match code with
  | None => c = None
  | Some d => 0 <= d <= 9 -> (d <= 8 -> exists q, c = Some q /\ (q == 45 * inject_Z d)%Q) /\ (d = 9 -> c = None)
  end.
Definition speed_of (year : option Z) (code : option Q) (s : option Q) : Prop :=
  match code with
  | None => s = None
  | Some v => exists q, s = Some q /\
      ((v == 0)%Q -> (q == 0)%Q) /\
      (~ (v == 0)%Q -> (exists y, year = Some y /\ 1968 <= y) -> (q == ((5 * v - 4) + 5 * v) / 2)%Q) /\
      (~ (v == 0)%Q -> ~ (exists y, year = Some y /\ 1968 <= y) -> (q == ((3 * v - 2) + 3 * v) / 2)%Q)
  end.
