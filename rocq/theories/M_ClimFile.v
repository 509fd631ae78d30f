(** Model of reading a climatology from a file (Climatology.py:25-78). *)
Require Import String ZArith QArith List Bool.
Require Import Verif.M_Base Verif.M_Grid.
Import ListNotations.
Open Scope string_scope.
Open Scope list_scope.
Open Scope Z_scope.

(** A masked array with three axes, and one with four: shape and contents. *)
Inductive field :=
| F3 (n0 n1 n2 : Z) (v : Z -> Z -> Z -> option Q)
| F4 (n0 n1 n2 n3 : Z) (v : Z -> Z -> Z -> Z -> option Q).

(** What the function reads of an open netCDF file: data variables and coordinate variables, by name.
    Simplification: data variables have three or four axes, coordinates one. *)
Record ncfile := { nc_field : string -> option field; nc_coord : string -> option (list Q) }.

(** Climatology.py:40 and 48: the accepted names. *)
Definition lat_synonyms : list string := ["lat"; "lats"; "latitude"; "latitudes"].
Definition lon_synonyms : list string := ["lon"; "lons"; "long"; "longs"; "longitude"; "longitudes"].

(** Climatology.py:41-46 (and 49-54): the last name found wins; none found fails the assertion. *)
Definition find_coord (f : ncfile) (names : list string) : res (list Q) :=
  match fold_left (fun found name => match nc_coord f name with Some c => Some c | None => found end) names None with
  | Some c => Ok c
  | None => Err AssertionError
  end.

(** Climatology.py:59-62: swap the last two axes of a 1 x 360 x 180 field (numpy refuses the three-axis
    permutation for a four-axis field). *)
Definition untranspose (fl : field) : res field :=
  match fl with
  | F3 n0 n1 n2 v => if (n0 =? 1) && (n1 =? 360) && (n2 =? 180) then Ok (F3 n0 n2 n1 (fun t y x => v t x y)) else Ok fl
  | F4 n0 n1 n2 _ _ => if (n0 =? 1) && (n1 =? 360) && (n2 =? 180) then Err ValueError else Ok fl
  end.

(** numpy.flip(field, 1): reverse axis 1, whatever it stands for. *)
Definition flip1 (fl : field) : field :=
  match fl with
  | F3 n0 n1 n2 v => F3 n0 n1 n2 (fun t y x => v t (n1 - 1 - y) x)
  | F4 n0 n1 n2 n3 v => F4 n0 n1 n2 n3 (fun t l y x => v t (n1 - 1 - l) y x)
  end.

(** Climatology.py:71-72: numpy.roll(field, field.shape[2] / 2, axis=2), with the integer division of Python 2. *)
Definition roll2 (fl : field) : field :=
  match fl with
  | F3 n0 n1 n2 v => F3 n0 n1 n2 (fun t y x => v t y ((x - n2 / 2) mod n2))
  | F4 n0 n1 n2 n3 v => F4 n0 n1 n2 n3 (fun t l y x => v t l ((y - n2 / 2) mod n2) x)
  end.

(** Climatology.py:74-75: only the first level of a four-axis field is kept (an axis of length 0 cannot be
    indexed). *)
Definition first_level (fl : field) : res clim :=
  match fl with
  | F3 n0 n1 n2 v => Ok {| cn := n0; cny := n1; cnx := n2; cval := v |}
  | F4 n0 n1 n2 n3 v => if n1 =? 0 then Err IndexError else Ok {| cn := n0; cny := n2; cnx := n3; cval := fun t y x => v t 0 y x |}
  end.

(** Climatology.py:25-78 from_filename; [None] stands for no file name.  The file system is not modelled: the
    argument is the file's contents. *)
Definition from_filename (infile : option ncfile) (var : string) : res clim :=
  match infile with
  | None => clim_init {| cn := 1; cny := 180 * 20; cnx := 360 * 20; cval := fun _ _ _ => None |}
  | Some f =>
      match nc_field f var with
      | None => Err KeyError
      | Some fl =>
          let! lats := find_coord f lat_synonyms in
          let! lons := find_coord f lon_synonyms in
          let! fl := untranspose fl in
          let! la0 := py_nth lats 0 in
          let fl := if Qltb la0 0 then flip1 fl else fl in
          let! lo0 := py_nth lons 0 in
          let fl := if Qltb 0 lo0 && Qltb lo0 1 then roll2 fl else fl in
          let! c := first_level fl in
          clim_init c
      end
  end.
