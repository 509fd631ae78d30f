(** Specification vocabulary for the drifter checks. *)
Require Import String ZArith QArith Qround List Bool.
Require Import Verif.M_Base Verif.S_Calendar Verif.M_Report Verif.S_Report Verif.S_Voyage Verif.S_Track.
Import ListNotations.
Open Scope string_scope.
Open Scope list_scope.
Open Scope Z_scope.

(** A drifter record: located reports in time order, each with its hours since the previous one. *)
Definition timed (v : list report) : Prop :=
  Forall is_located v /\ in_time_order v /\
  forall i a b, nth_error v i = Some a -> nth_error v (S i) = Some b -> exists t, hours_between a b t /\ getext b "time_diff" = Ok (Some t).
(** t hours from report i to report j of v. *)
Definition hours_from_to (v : list report) (i j : nat) (t : Q) : Prop :=
  exists a b, nth_error v i = Some a /\ nth_error v j = Some b /\ hours_between a b t.

(** m is the median of an odd number 2k+1 of values: one of them, with at most k below and at most k above it. *)
Definition median (k : nat) (l : list Q) (m : Q) : Prop :=
  length l = (2 * k + 1)%nat /\ (exists x, In x l /\ m == x)%Q /\
  (length (filter (fun x => Qltb x m) l) <= k)%nat /\ (length (filter (fun x => Qltb m x) l) <= k)%nat.
(** The values of variable [name] in the w reports from position i on. *)
Definition run_values (v : list report) (name : string) (i w : nat) (l : list Q) : Prop :=
  length l = w /\ forall j x, nth_error l j = Some x -> exists r, nth_error v (i + j) = Some r /\ getvar r name = Some x.
(** Smoothed position number i: medians over the 2k+1 reports from i on; its time is that of report i+k. *)
Definition smoothed (v : list report) (k i : nat) (la lo : Q) : Prop :=
  exists lats lons, run_values v "LAT" i (2 * k + 1) lats /\ run_values v "LON" i (2 * k + 1) lons /\ median k lats la /\ median k lons lo.
(** Smoothed positions i and j are at most tol km apart. *)
Definition still (dist : Q -> Q -> Q -> Q -> Q) (tol : Q) (v : list report) (k i j : nat) : Prop :=
  exists la lo la' lo', smoothed v k i la lo /\ smoothed v k j la' lo' /\ (dist la lo la' lo' <= tol)%Q.

(** From smoothed position i, j is the last one within maxh hours, and it is at least minh hours later. *)
Definition longest_window (v : list report) (k : nat) (minh maxh : Q) (i j : nat) : Prop :=
  (j + 2 * k < length v)%nat /\ (exists t, hours_from_to v (i + k) (j + k) t /\ minh <= t /\ t <= maxh)%Q /\
  forall j' t, (j < j')%nat -> (j' + 2 * k < length v)%nat -> hours_from_to v (i + k) (j' + k) t -> (maxh < t)%Q.
(** j is the last smoothed position, at least minh hours after i. *)
Definition window_to_end (v : list report) (k : nat) (minh : Q) (i j : nat) : Prop :=
  (j + 2 * k + 1 = length v)%nat /\ (i <= j)%nat /\ exists t, hours_from_to v (i + k) (j + k) t /\ (minh <= t)%Q.

(** Report n belongs to the stretch in which the drifter is aground: from some assessed position i0 on it
    stands still in every assessed window; the flags start k reports after i0 (at once if i0 is the first). *)
Definition aground (W : nat -> nat -> Prop) (S : nat -> nat -> Prop) (k n : nat) : Prop :=
  exists i0, (exists j, W i0 j) /\ (forall i j, (i0 <= i)%nat -> W i j -> S i j) /\ (i0 = O \/ i0 + k <= n)%nat.

(** Drifting from report i to report j takes more than [limit] metres per second. *)
Definition drifts_faster (dist : Q -> Q -> Q -> Q -> Q) (limit : Q) (v : list report) (i j : nat) : Prop :=
  exists a b la lo la' lo' t, nth_error v i = Some a /\ nth_error v j = Some b /\ at_pos a la lo /\ at_pos b la' lo' /\
    hours_between a b t /\ (0 < t)%Q /\ (limit < dist la lo la' lo' / t * 1000 / 3600)%Q.
(** Of the reports not left out, f is the first one at least minh hours after i. *)
Definition first_after (v : list report) (out : nat -> Prop) (minh : Q) (i f : nat) : Prop :=
  ~ out i /\ ~ out f /\ (exists t, hours_from_to v i f t /\ minh <= t)%Q /\
  forall j t, (j < f)%nat -> ~ out j -> hours_from_to v i j t -> (t < minh)%Q.

(** The record as a ship: removed lists the reports the IQUAM check takes out. *)
Definition ship_removed (dist : Q -> Q -> Q -> Q -> Q) (limit dd dt : Q) (n : Z) (generic : bool) (v : list report) (removed : list nat) : Prop :=
  if generic then removed = []
  else let bad := near_pair v n (too_fast dist limit dd dt) in
       greedy bad (length v) removed /\ forall i j, bad i j -> In i removed \/ In j removed.
