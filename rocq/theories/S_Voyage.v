(** Specification vocabulary for voyages. *)
Require Import String ZArith QArith Qround List Bool.
Require Import Verif.M_Base Verif.S_Calendar Verif.S_Report Verif.M_Report.
Import ListNotations.
Open Scope string_scope.
Open Scope list_scope.
Open Scope Z_scope.

(** r' is r, but for the flag (t, f). *)
Definition unchanged_but (t f : string) (r r' : report) : Prop :=
  r_id r' = r_id r /\ r_uid r' = r_uid r /\ r_data r' = r_data r /\ r_dt r' = r_dt r /\ r_ext r' = r_ext r /\ r_clim r' = r_clim r /\
  forall t' f', ~ same_key t f t' f' -> get_qc r' t' f' = get_qc r t' f'.

(** The check ended with v' : only flag (t, f) of the reports of v was written, it is 1 on the reports at
    the positions in [bad] and 0 on all others. *)
Definition flags_exactly (t f : string) (bad : nat -> Prop) (v v' : list report) : Prop :=
  Forall2 (unchanged_but t f) v v' /\
  forall i r', nth_error v' i = Some r' ->
    (get_qc r' t f = 1 /\ bad i) \/ (get_qc r' t f = 0 /\ ~ bad i).

(** A report with position, date and time. *)
Record located (r : report) (la lo : Q) (d : date) (h : Q) : Prop := {
  loc_lat : lat r = Some la; loc_lon : lon r = Some lo;
  loc_y : getint r "YR" = Some (yr d); loc_m : getint r "MO" = Some (mo d); loc_d : getint r "DY" = Some (dy d);
  loc_h : getvar r "HR" = Some h; loc_valid : valid d; loc_hour : hour_ok h }.
Definition is_located (r : report) : Prop := exists la lo d h, located r la lo d h.

(** t hours pass from day d1, hour h1 to day d2, hour h2. *)
Definition elapsed (d1 : date) (h1 : Q) (d2 : date) (h2 t : Q) : Prop :=
  (exists n, days_later n d1 d2 /\ (t == 24 * inject_Z (Z.of_nat n) + (h2 - h1))%Q) \/
  (exists n, days_later n d2 d1 /\ (t == (h2 - h1) - 24 * inject_Z (Z.of_nat n))%Q).

(** Hours from report a to report b. *)
Definition hours_between (a b : report) (t : Q) : Prop :=
  exists la lo d h la' lo' d' h', located a la lo d h /\ located b la' lo' d' h' /\ elapsed d h d' h' t.

(** [a, b] is a maximal run of positions below n with property P. *)
Definition maximal_run (P : nat -> Prop) (n a b : nat) : Prop :=
  (a <= b < n)%nat /\ (forall i, (a <= i <= b)%nat -> P i) /\
  (a = O \/ exists a', a = S a' /\ ~ P a') /\ (S b = n \/ ~ P (S b)).

(** Report i of v has air and dew point temperature, and they are equal. *)
Definition saturated_at (v : list report) (i : nat) : Prop :=
  exists r t d, nth_error v i = Some r /\ getvar r "AT" = Some t /\ getvar r "DPT" = Some d /\ (t == d)%Q.

(** Value of variable [name] at position i. *)
Definition value_at (v : list report) (name : string) (i : nat) (x : Q) : Prop :=
  exists r, nth_error v i = Some r /\ getvar r name = Some x.

(** l lists, once each, the positions satisfying P. *)
Definition lists (P : nat -> Prop) (l : list nat) : Prop := NoDup l /\ forall i, In i l <-> P i.

(** Greedy removal on a set of positions below n with a violation relation V: [removed] is the list of
    removed positions in order of removal.  At each step a position with the largest number of
    violations with remaining positions is removed, the first one if there are several. *)
Definition open_violations (V : nat -> nat -> Prop) (removed : list nat) (i : nat) (l : list nat) : Prop :=
  lists (fun j => V i j /\ ~ In j removed) l.
Inductive greedy (V : nat -> nat -> Prop) (n : nat) : list nat -> Prop :=
| greedy_nil : greedy V n []
| greedy_step : forall removed i l, greedy V n removed -> (i < n)%nat -> ~ In i removed ->
    open_violations V removed i l -> l <> [] ->
    (forall j l', (j < n)%nat -> ~ In j removed -> open_violations V removed j l' ->
       (length l' < length l)%nat \/ (length l' = length l /\ (i <= j)%nat)) ->
    greedy V n (removed ++ [i]).

(** The distance function of the sphere is symmetric and zero between equal points. *)
Definition distance_like (dist : Q -> Q -> Q -> Q -> Q) : Prop :=
  (forall a b c d, dist a b c d == dist c d a b)%Q /\ (forall a b, dist a b a b == 0)%Q.

(** Getting from report a to report b, allowing dd km and dt hours of uncertainty, takes more than [limit] km/h. *)
Definition too_fast (dist : Q -> Q -> Q -> Q -> Q) (limit dd dt : Q) (a b : report) : Prop :=
  exists la lo d h la' lo' d' h' t, located a la lo d h /\ located b la' lo' d' h' /\ elapsed d h d' h' t /\
    (limit * (Qabs' t + dt) < Qabs' (dist la lo la' lo') - dd)%Q.

(** The variable changes between a and b by more than delta, and by more than the gradients in space and
    time allow. *)
Definition jumps (dist : Q -> Q -> Q -> Q -> Q) (name : string) (delta per_km per_hour : Q) (a b : report) : Prop :=
  exists la lo d h la' lo' d' h' t x y, located a la lo d h /\ located b la' lo' d' h' /\ elapsed d h d' h' t /\
    getvar a name = Some x /\ getvar b name = Some y /\
    (delta < Qabs' (y - x) /\ per_km * Qabs' (dist la lo la' lo') < Qabs' (y - x) /\ per_hour * Qabs' t < Qabs' (y - x))%Q.

(** Positions i and j are at most k apart in the voyage and their reports are related by R. *)
Definition near_pair (v : list report) (k : Z) (R : report -> report -> Prop) (i j : nat) : Prop :=
  Z.abs (Z.of_nat i - Z.of_nat j) <= k /\ exists a b, nth_error v i = Some a /\ nth_error v j = Some b /\ R a b.

(** r' is r, but for the derived motion fields. *)
Definition same_report (r r' : report) : Prop :=
  r_id r' = r_id r /\ r_uid r' = r_uid r /\ r_data r' = r_data r /\ r_dt r' = r_dt r /\ r_qc r' = r_qc r /\ r_clim r' = r_clim r /\
  forall n, ~ In n ["speed"; "course"; "distance"; "time_diff"] -> getvar r' n = getvar r n.

(** The motion fields of r are those of the way from report p to r. *)
Definition moved (dist course : Q -> Q -> Q -> Q -> Q) (p r : report) : Prop :=
  exists la lo d h la' lo' d' h' t s, located p la lo d h /\ located r la' lo' d' h' /\ elapsed d h d' h' t /\
    getvar r "time_diff" = Some t /\ getvar r "distance" = Some (dist la' lo' la lo) /\
    getvar r "course" = Some (course la lo la' lo') /\ getvar r "speed" = Some s /\
    ((t == 0 /\ s == dist la' lo' la lo) \/ (~ t == 0 /\ s == dist la' lo' la lo / t))%Q.
