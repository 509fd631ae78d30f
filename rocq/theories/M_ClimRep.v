(** Model of the climatology lookups that take a report (qc.py:273-292, 400-482) and of the library of climatologies
    (Extended_IMMA.py:138-225).  No proofs here. *)
Require Import String Ascii ZArith QArith List Bool.
Require Import Verif.M_Base Verif.M_Report Verif.M_Grid.
Import ListNotations.
Open Scope string_scope.
Open Scope Z_scope.

(** A field read at the place and date of a report.  A missing coordinate or date fails an assertion of the reader (Python 2: None is below
    every number) or an addition; the callers below catch either. *)
Definition at_report (get : Q -> Q -> Z -> Z -> res (option Q)) (r : report) : res (option Q) :=
  match lat r, lon r, getint r "MO", getint r "DY" with
  | Some la, Some lo, Some m, Some d => get la lo m d
  | _, _, _, _ => Err TypeError
  end.

(** qc.py:464-482 get_clim: float(None) raises, which is caught as well. *)
Definition get_clim (r : report) (c : clim) : option Q := try_none (at_report (fun la lo m d => get_sst la lo m d c) r).

(** qc.py:273-292 get_hires_clim. *)
Definition get_hires_clim (r : report) (c : clim) : option Q := try_none (at_report (fun la lo m d => get_hires_sst la lo m d c) r).

(** qc.py:400-461 get_clim_interpolated.  Without a coordinate or a date every one of the first four lookups raises: None. *)
Definition get_clim_interpolated (r : report) (c : clim) : res (option Q) :=
  match lat r, lon r, getint r "MO", getint r "DY" with
  | Some la, Some lo, Some m, Some d =>
      let e := (1 # 1000)%Q in
      let pert1 := try_none (get_sst (la + e) (lo + e) m d c) in
      let pert2 := try_none (get_sst (la + e) (lo - e) m d c) in
      let pert3 := try_none (get_sst (la - e) (lo + e) m d c) in
      let pert4 := try_none (get_sst (la - e) (lo - e) m d c) in
      if is_none pert1 && is_none pert2 && is_none pert3 && is_none pert4 then Ok None
      else
        let! (x1, x2, y1, y2) := get_four_surrounding_points la lo 1 in
        let q11 := try_none (get_sst y1 x1 m d c) in
        let q22 := try_none (get_sst y2 x2 m d c) in
        let q12 := try_none (get_sst y2 x1 m d c) in
        let q21 := try_none (get_sst y1 x2 m d c) in
        let '(q11, q12, q21, q22) := fill_missing_vals q11 q12 q21 q22 in
        let! (x1, x2, y1, y2) := get_four_surrounding_points la lo 0 in
        let! v := bilinear_interp x1 x2 y1 y2 lo la q11 q12 q21 q22 in
        Ok (Some v)
  | _, _, _, _ => Ok None
  end.

(* ---------------------------------------------------------------- the library *)

(** Extended_IMMA.py:138-170 MultivariableClimatology: a dictionary from statistics to fields. *)
Definition multi (A : Type) := list (string * A).
Definition add_statistic {A} (d : multi A) (stat : string) (f : A) : multi A := (stat, f) :: d.
Definition get_statistic {A} (d : multi A) (stat : string) : res A :=
  match assoc stat d with Some f => Ok f | None => Err AssertionError end.

(** Extended_IMMA.py:173-225 ClimatologyLibrary: a dictionary from variables to these, changed in place. *)
Definition library (A : Type) := list (string * multi A).
Definition new_library {A} : library A := [].
Fixpoint change {A} (k : string) (g : A -> A) (l : list (string * A)) : list (string * A) :=
  match l with
  | [] => []
  | (k', v) :: l' => if String.eqb k k' then (k', g v) :: l' else (k', v) :: change k g l'
  end.
Definition add_field {A} (lib : library A) (var stat : string) (f : A) : library A :=
  match assoc var lib with
  | Some _ => change var (fun d => add_statistic d stat f) lib
  | None => (var, add_statistic [] stat f) :: lib
  end.
Definition get_field {A} (lib : library A) (var stat : string) : res A :=
  match assoc var lib with
  | Some d => get_statistic d stat
  | None => Err AssertionError
  end.
