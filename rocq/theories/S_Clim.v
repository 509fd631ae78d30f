(** Specification of climatology fields: shape and time slices. *)
Require Import ZArith QArith List.
Import ListNotations.
Require Import Verif.M_Base Verif.S_Calendar Verif.M_Grid.
Open Scope Z_scope.

(** A field the constructor accepts, on a global grid with twice as many columns as rows. *)
Definition clim_wf (c : clim) : Prop :=
  (cn c = 1 \/ cn c = 73 \/ cn c = 365) /\ 0 < cny c /\ cnx c = 2 * cny c.

(** Which time slice holds a date: a field has one slice, one per pentad or one per day of a 365-day year. *)
Definition slice (n month day t : Z) : Prop :=
  0 <= t < n /\
  (n = 1 -> t = 0) /\ (n = 73 -> pentad month day t) /\ (n = 365 -> common_day month day (t + 1)).

(** The perturbed lookups around a point (those that stay inside the globe). *)
Definition pert_points (lat lon : Q) : list (Q * Q) :=
  let e := (1 # 1000)%Q in
  (if Qltb (lat + e) 90 then [(lat + e, lon + e); (lat + e, lon - e)]%Q else []) ++
  (if Qltb (-90) (lat - e) then [(lat - e, lon + e); (lat - e, lon - e)]%Q else []).

Definition some_pert (c : clim) (lat lon : Q) (m d : Z) : Prop :=
  exists p v, In p (pert_points lat lon) /\ get_value c (fst p) (snd p) m d = Ok (Some v).

(** The corner lookups used by the interpolation. *)
Definition corner (c : clim) (m d : Z) (y x : Q) : option Q := try_none (get_value c y x m d).
