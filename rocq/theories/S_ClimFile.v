(** Specification: what a climatology file says, and that a loaded climatology says the same.

    The file gives the latitude of each of its rows and the longitude of each of its columns.  The loaded
    climatology has its first row next to the North Pole and its first column east of the date line. *)
Require Import String ZArith QArith List Bool.
Require Import Verif.M_Base Verif.M_Grid Verif.M_ClimFile Verif.S_Grid.
Import ListNotations.
Open Scope string_scope.
Open Scope list_scope.
Open Scope Z_scope.

(** Centres of row [y] and column [x] of the loaded climatology with [n] rows. *)
Definition mid_lat (n y : Z) : Q := (90 - (inject_Z y + (1 # 2)) * step n)%Q.
Definition mid_lon (n x : Z) : Q := (-180 + (inject_Z x + (1 # 2)) * step n)%Q.
(** The same longitude, up to whole turns. *)
Definition same_lon (a b : Q) : Prop := exists k : Z, (a == b + 360 * inject_Z k)%Q.

(** Rows from north to south or from south to north; columns eastwards from the date line or from
    Greenwich. *)
Definition north_first (n : Z) (lats : list Q) : Prop := Z.of_nat (length lats) = n /\ forall y a, nth_error lats y = Some a -> (a == mid_lat n (Z.of_nat y))%Q.
Definition south_first (n : Z) (lats : list Q) : Prop := Z.of_nat (length lats) = n /\ forall y a, nth_error lats y = Some a -> (a == mid_lat n (n - 1 - Z.of_nat y))%Q.
Definition from_date_line (n : Z) (lons : list Q) : Prop := Z.of_nat (length lons) = 2 * n /\ forall x a, nth_error lons x = Some a -> (a == mid_lon n (Z.of_nat x))%Q.
Definition from_greenwich (n : Z) (lons : list Q) : Prop := Z.of_nat (length lons) = 2 * n /\ forall x a, nth_error lons x = Some a -> (a == 180 + mid_lon n (Z.of_nat x))%Q.

(** The file has coordinates [c] under one of the accepted names, and under no other of them anything else. *)
Definition coord (f : ncfile) (names : list string) (c : list Q) : Prop :=
  (exists name, In name names /\ nc_coord f name = Some c) /\ forall name c', In name names -> nc_coord f name = Some c' -> c' = c.

(** The file's value at a time, latitude and longitude; [get] reads row and column. *)
Definition file_value (get : Z -> Z -> Z -> option Q) (lats lons : list Q) (t : Z) (la lo : Q) (v : option Q) : Prop :=
  exists i j a b, nth_error lats i = Some a /\ nth_error lons j = Some b /\ (a == la)%Q /\ same_lon b lo /\ v = get t (Z.of_nat i) (Z.of_nat j).

(** The loaded climatology says what the file says, at every time and place. *)
Definition faithful (get : Z -> Z -> Z -> option Q) (lats lons : list Q) (n : Z) (c : clim) : Prop :=
  cny c = n /\ cnx c = 2 * n /\
  forall t y x, 0 <= t < cn c -> 0 <= y < n -> 0 <= x < 2 * n -> file_value get lats lons t (mid_lat n y) (mid_lon n x) (cval c t y x).
