(** Property theorems C10 - C15 (grid lookups, interpolation, climatology). *)
Require Import String ZArith QArith Qround Qabs List Bool Lia Lqa.
Require Import Verif.M_Base Verif.M_Calendar Verif.S_Calendar Verif.M_Grid Verif.S_Grid Verif.S_Clim
  Verif.L_Grid Verif.L_Grid2 Verif.L_Clim Verif.L_Clim2 Verif.L_Calendar2 Verif.L_Mds.
Import ListNotations.
Open Scope Z_scope.

(* ------------------------------------------------------------------ C10 *)

(** Rows: the returned row exists, contains the latitude, and a latitude on the southern
    border of a row is only assigned to that row at the South Pole. *)
Theorem C10_lat_row : forall lat rs n, 0 < n -> (rs == 180 / inject_Z n)%Q ->
  (-90 <= lat)%Q -> (lat <= 90)%Q ->
  let y := lat_to_yindex lat rs in
  0 <= y < n /\
  (90 - (inject_Z y + 1) * rs <= lat)%Q /\ (lat <= 90 - inject_Z y * rs)%Q /\
  ((lat == 90 - (inject_Z y + 1) * rs)%Q -> (lat == -90)%Q).
Proof. exact lat_to_yindex_cell. Qed.
Print Assumptions C10_lat_row.

Theorem C10_lat_clamped_outside : forall lat rs n, 0 < n -> (rs == 180 / inject_Z n)%Q ->
  ((90 <= lat)%Q -> lat_to_yindex lat rs = 0) /\ ((lat <= -90)%Q -> lat_to_yindex lat rs = n - 1).
Proof. exact lat_to_yindex_clamps. Qed.
Print Assumptions C10_lat_clamped_outside.

Theorem C10_lat_monotone : forall lat lat' rs n, 0 < n -> (rs == 180 / inject_Z n)%Q ->
  (lat <= lat')%Q -> lat_to_yindex lat' rs <= lat_to_yindex lat rs.
Proof. exact lat_to_yindex_mono. Qed.
Print Assumptions C10_lat_monotone.

(** Columns: the lookup finishes and returns an existing column containing the longitude
    modulo whole turns. *)
Theorem C10_lon_column : forall lon rs n, 0 < n -> (rs == 180 / inject_Z n)%Q -> (-540 <= lon)%Q ->
  exists x k, lon_to_xindex lon rs = Some x /\ 0 <= x < 2 * n /\
    (-180 + inject_Z x * rs <= lon + 360 * inject_Z k)%Q /\
    (lon + 360 * inject_Z k < -180 + (inject_Z x + 1) * rs)%Q.
Proof. exact lon_to_xindex_cell. Qed.
Print Assumptions C10_lon_column.

Theorem C10_lon_periodic : forall lon rs n, 0 < n -> (rs == 180 / inject_Z n)%Q -> (-540 <= lon)%Q ->
  lon_to_xindex (lon + 360) rs = lon_to_xindex lon rs.
Proof. exact lon_to_xindex_periodic. Qed.
Print Assumptions C10_lon_periodic.

(** Cell centres: the centre of every row/column is looked up as that row/column, and asking for
    the centre of a row/column that does not exist raises. *)
Theorem C10_lat_centre : forall y rs n, 0 < n -> (rs == 180 / inject_Z n)%Q ->
  (0 <= y < n -> yindex_to_lat y rs = Ok (90 - inject_Z y * rs - rs / 2)%Q) /\
  (~ 0 <= y < n -> yindex_to_lat y rs = Err AssertionError).
Proof. exact yindex_to_lat_spec. Qed.
Print Assumptions C10_lat_centre.

Theorem C10_lat_centre_inverse : forall y rs n, 0 < n -> (rs == 180 / inject_Z n)%Q -> 0 <= y < n ->
  exists lat, yindex_to_lat y rs = Ok lat /\ (-90 < lat)%Q /\ (lat < 90)%Q /\ lat_to_yindex lat rs = y.
Proof. exact lat_centre_inverse. Qed.
Print Assumptions C10_lat_centre_inverse.

Theorem C10_lon_centre : forall x rs n, 0 < n -> (rs == 180 / inject_Z n)%Q ->
  (0 <= x < 2 * n -> xindex_to_lon x rs = Ok (inject_Z x * rs - 180 + rs / 2)%Q) /\
  (~ 0 <= x < 2 * n -> xindex_to_lon x rs = Err AssertionError).
Proof. exact xindex_to_lon_spec. Qed.
Print Assumptions C10_lon_centre.

Theorem C10_lon_centre_inverse : forall x rs n, 0 < n -> (rs == 180 / inject_Z n)%Q -> 0 <= x < 2 * n ->
  exists lon, xindex_to_lon x rs = Ok lon /\ (-180 < lon)%Q /\ (lon < 180)%Q /\ lon_to_xindex lon rs = Some x.
Proof. exact lon_centre_inverse. Qed.
Print Assumptions C10_lon_centre_inverse.

Example C10_ex : lat_to_yindex (1 # 2) 1 = 89 /\ lat_to_yindex (-90) (1 # 4) = 719 /\
  lon_to_xindex 180 1 = Some 0 /\ lon_to_xindex (3601 # 10) (1 # 4) = Some 720 /\
  (1 # 4 == 180 / inject_Z 720)%Q /\ (1 == 180 / inject_Z 180)%Q.
Proof. repeat split. Qed.

(* ------------------------------------------------------------------ C11 *)

Theorem C11_mds_lat_row : forall rs m, 0 < m -> (rs == 90 / inject_Z m)%Q -> (1 # 1000 < rs)%Q ->
  forall lat, (-90 <= lat)%Q -> (lat <= 90)%Q ->
  let y := mds_lat_to_yindex lat rs in
  0 <= y < 2 * m /\ (90 - (inject_Z y + 1) * rs <= lat)%Q /\ (lat <= 90 - inject_Z y * rs)%Q.
Proof. exact mds_lat_cell. Qed.
Print Assumptions C11_mds_lat_row.

Theorem C11_mds_lon_column : forall rs m, 0 < m -> (rs == 90 / inject_Z m)%Q -> (1 # 1000 < rs)%Q ->
  forall lon, (-180 <= lon)%Q -> (lon <= 180)%Q ->
  let x := mds_lon_to_xindex lon rs in
  0 <= x < 4 * m /\ (-180 + inject_Z x * rs <= lon)%Q /\ (lon <= -180 + (inject_Z x + 1) * rs)%Q.
Proof. exact mds_lon_cell. Qed.
Print Assumptions C11_mds_lon_column.

(** Off the cell borders the MDS lookups and the plain lookups agree. *)
Theorem C11_mds_lat_agrees : forall rs m, 0 < m -> (rs == 90 / inject_Z m)%Q -> (1 # 1000 < rs)%Q ->
  forall lat, (-90 <= lat)%Q -> (lat <= 90)%Q ->
  (forall k, ~ (lat == 90 - inject_Z k * rs)%Q) -> mds_lat_to_yindex lat rs = lat_to_yindex lat rs.
Proof. exact mds_lat_agrees. Qed.
Print Assumptions C11_mds_lat_agrees.

Theorem C11_mds_lon_agrees : forall rs m, 0 < m -> (rs == 90 / inject_Z m)%Q -> (1 # 1000 < rs)%Q ->
  forall lon, (-180 <= lon)%Q -> (lon <= 180)%Q ->
  (forall k, ~ (lon == -180 + inject_Z k * rs)%Q) -> lon_to_xindex lon rs = Some (mds_lon_to_xindex lon rs).
Proof. exact mds_lon_agrees. Qed.
Print Assumptions C11_mds_lon_agrees.

(** Finding: for longitudes above 180 (accepted by the position check and by get_sst_daily) the
    MDS column does not exist. *)
Theorem C11_mds_lon_above_180_refuted : forall rs m, 0 < m -> (rs == 90 / inject_Z m)%Q -> (1 # 1000 < rs)%Q ->
  forall lon, (180 < lon)%Q -> (lon <= 360)%Q -> 4 * m <= mds_lon_to_xindex lon rs.
Proof. exact mds_lon_out_of_range. Qed.
Print Assumptions C11_mds_lon_above_180_refuted.

(** The exact cell, borders included. *)
Theorem C11_mds_lat_exact : forall rs m, 0 < m -> (rs == 90 / inject_Z m)%Q -> (1 # 1000 < rs)%Q ->
  forall lat y, (-90 <= lat)%Q -> (lat <= 90)%Q -> (mds_lat_to_yindex lat rs = y <-> mds_row (2 * m) y lat).
Proof. exact mds_lat_iff. Qed.
Print Assumptions C11_mds_lat_exact.

Theorem C11_mds_lon_exact : forall rs m, 0 < m -> (rs == 90 / inject_Z m)%Q -> (1 # 1000 < rs)%Q ->
  forall lon x, (-180 <= lon)%Q -> (lon <= 180)%Q -> (mds_lon_to_xindex lon rs = x <-> mds_col (2 * m) x lon).
Proof. exact mds_lon_iff. Qed.
Print Assumptions C11_mds_lon_exact.

Example C11_ex : mds_lat_to_yindex 90 1 = 0 /\ mds_lat_to_yindex 0 1 = 90 /\ mds_lat_to_yindex (-90) (1 # 20) = 3599 /\
  mds_lon_to_xindex 180 1 = 359 /\ mds_lon_to_xindex (-180) 1 = 0 /\ mds_lon_to_xindex (3601 # 20) 1 = 360 /\
  (1 # 20 == 90 / inject_Z 1800)%Q /\ (1 # 1000 < 1 # 20)%Q.
Proof. repeat split. Qed.

(* ------------------------------------------------------------------ C12 *)

(** Inside a proper box with all corner values present no assertion fires and the result lies
    between any lower and upper bound of the corner values. *)
Theorem C12_bilinear_bounded : forall x1 x2 y1 y2 x y q11 q12 q21 q22,
  (x1 <= x)%Q -> (x <= x2)%Q -> (y1 <= y)%Q -> (y <= y2)%Q -> (x1 < x2)%Q -> (y1 < y2)%Q ->
  exists v, bilinear_interp x1 x2 y1 y2 x y (Some q11) (Some q12) (Some q21) (Some q22) = Ok v /\
  forall lo hi, (lo <= q11 /\ lo <= q12 /\ lo <= q21 /\ lo <= q22)%Q ->
                (q11 <= hi /\ q12 <= hi /\ q21 <= hi /\ q22 <= hi)%Q -> (lo <= v /\ v <= hi)%Q.
Proof. exact bilinear_bounded. Qed.
Print Assumptions C12_bilinear_bounded.

(** It reproduces every bilinear function of position, hence the corner values. *)
Theorem C12_bilinear_exact : forall x1 x2 y1 y2 x y a b c d,
  (x1 <= x)%Q -> (x <= x2)%Q -> (y1 <= y)%Q -> (y <= y2)%Q -> (x1 < x2)%Q -> (y1 < y2)%Q ->
  let f u v := (a + b * u + c * v + d * u * v)%Q in
  exists v, bilinear_interp x1 x2 y1 y2 x y (Some (f x1 y1)) (Some (f x1 y2)) (Some (f x2 y1)) (Some (f x2 y2)) = Ok v /\
            (v == f x y)%Q.
Proof. exact bilinear_exact_fn. Qed.
Print Assumptions C12_bilinear_exact.

Theorem C12_bilinear_corners : forall x1 x2 y1 y2 q11 q12 q21 q22, (x1 < x2)%Q -> (y1 < y2)%Q ->
  let f x y := bilinear_interp x1 x2 y1 y2 x y (Some q11) (Some q12) (Some q21) (Some q22) in
  (exists v, f x1 y1 = Ok v /\ (v == q11)%Q) /\ (exists v, f x1 y2 = Ok v /\ (v == q12)%Q) /\
  (exists v, f x2 y1 = Ok v /\ (v == q21)%Q) /\ (exists v, f x2 y2 = Ok v /\ (v == q22)%Q).
Proof. exact bilinear_corner_values. Qed.
Print Assumptions C12_bilinear_corners.

Theorem C12_bilinear_raises : forall x1 x2 y1 y2 x y q11 q12 q21 q22,
  ~ ((x1 <= x)%Q /\ (x <= x2)%Q /\ (y1 <= y)%Q /\ (y <= y2)%Q /\ (x1 < x2)%Q /\ (y1 < y2)%Q) \/
  q11 = None \/ q12 = None \/ q21 = None \/ q22 = None ->
  bilinear_interp x1 x2 y1 y2 x y q11 q12 q21 q22 = Err AssertionError.
Proof. exact bilinear_raises. Qed.
Print Assumptions C12_bilinear_raises.

Example C12_ex : exists v, bilinear_interp 0 1 0 1 (1 # 4) (1 # 2) (Some 1%Q) (Some 2%Q) (Some 3%Q) (Some (-4)%Q) = Ok v /\ (v == 1)%Q.
Proof. eexists. split; [vm_compute; reflexivity|reflexivity]. Qed.

(* ------------------------------------------------------------------ C13 *)

(** Longitudes: two neighbouring cell centres bracketing the position.  Latitudes: with max90 = 0
    two half-degree latitudes one degree apart bracketing the position. *)
Theorem C13_four_points : forall lat lon,
  (-90 <= lat)%Q -> (lat <= 90)%Q -> (-180 <= lon)%Q -> (lon <= 180)%Q -> ~ (lat == -(179 # 2))%Q ->
  exists x1 x2 y1 y2 i j, get_four_surrounding_points lat lon 0 = Ok (x1, x2, y1, y2) /\
    (x1 == inject_Z i + (1 # 2) /\ x2 == x1 + 1 /\ x1 <= lon /\ lon <= x2)%Q /\
    (y1 == inject_Z j + (1 # 2) /\ y2 == y1 + 1 /\ y1 <= lat /\ lat <= y2)%Q.
Proof. exact four_points_bracket. Qed.
Print Assumptions C13_four_points.

(** With max90 <> 0 the latitudes are the same except that they are moved onto the grid's
    first and last cell centres (89.5 and -89.5). *)
Theorem C13_four_points_on_grid : forall lat lon max90, max90 <> 0 ->
  (-90 <= lat)%Q -> (lat <= 90)%Q -> (-180 <= lon)%Q -> (lon <= 180)%Q -> ~ (lat == -(179 # 2))%Q ->
  exists x1 x2 y1 y2 y1' y2', get_four_surrounding_points lat lon max90 = Ok (x1, x2, y1, y2) /\
    get_four_surrounding_points lat lon 0 = Ok (x1, x2, y1', y2') /\
    ((y1' < -90)%Q -> (y1 == -(179 # 2))%Q) /\ ((-90 <= y1')%Q -> (y1 == y1')%Q) /\
    ((90 < y2')%Q -> (y2 == 179 # 2)%Q) /\ ((y2' <= 90)%Q -> (y2 == y2')%Q).
Proof. exact four_points_on_grid. Qed.
Print Assumptions C13_four_points_on_grid.

Theorem C13_four_points_raises : forall lat lon max90,
  ~ ((-90 <= lat)%Q /\ (lat <= 90)%Q /\ (-180 <= lon)%Q /\ (lon <= 180)%Q) ->
  get_four_surrounding_points lat lon max90 = Err AssertionError.
Proof. exact four_points_raises. Qed.
Print Assumptions C13_four_points_raises.

(** Finding: at latitude -89.5 the two latitudes coincide. *)
Theorem C13_degenerate_at_895S_refuted : forall lon max90, (-180 <= lon)%Q -> (lon <= 180)%Q ->
  exists x1 x2 y1 y2, get_four_surrounding_points (-(179 # 2)) lon max90 = Ok (x1, x2, y1, y2) /\ (y1 == y2)%Q.
Proof. exact four_points_degenerate. Qed.
Print Assumptions C13_degenerate_at_895S_refuted.

Example C13_ex : exists x1 x2 y1 y2,
  get_four_surrounding_points 90 180 0 = Ok (x1, x2, y1, y2) /\
  (x1 == 359 # 2)%Q /\ (x2 == 361 # 2)%Q /\ (y1 == 179 # 2)%Q /\ (y2 == 181 # 2)%Q.
Proof. do 4 eexists. split; [vm_compute; reflexivity|repeat split]. Qed.

(* ------------------------------------------------------------------ C14 *)

Theorem C14_fill : forall a b c d, ~ (a = None /\ b = None /\ c = None /\ d = None) ->
  exists a' b' c' d', fill_missing_vals a b c d = (Some a', Some b', Some c', Some d') /\
   (forall v, a = Some v -> a' = v) /\ (forall v, b = Some v -> b' = v) /\
   (forall v, c = Some v -> c' = v) /\ (forall v, d = Some v -> d' = v) /\
   forall lo hi, (forall v, In (Some v) [a; b; c; d] -> (lo <= v /\ v <= hi)%Q) ->
     forall w, In w [a'; b'; c'; d'] -> (lo <= w /\ w <= hi)%Q.
Proof. exact fill_some. Qed.
Print Assumptions C14_fill.

(** Exactly which value each corner gets. *)
Theorem C14_fill_exact : forall a b c d a' b' c' d', fill_missing_vals a b c d = (a', b', c', d') ->
  filled a b c d a' /\ filled b a d c b' /\ filled c a d b c' /\ filled d b c a d'.
Proof. exact fill_exact. Qed.
Print Assumptions C14_fill_exact.

Theorem C14_all_missing : forall a b c d, fill_missing_vals a b c d = (None, None, None, None) <->
  a = None /\ b = None /\ c = None /\ d = None.
Proof. exact fill_all_missing. Qed.
Print Assumptions C14_all_missing.

(** Mean of the present values; missing exactly when nothing is present. *)
Theorem C14_missing_mean : forall l,
  (missing_mean l = None <-> forall v, ~ In (Some v) l) /\
  (forall r, missing_mean l = Some r ->
     exists vs, vs <> [] /\ (forall v, In v vs <-> In (Some v) l) /\ length vs = length (filter (fun o => negb (is_none o)) l) /\
       (r * inject_Z (Z.of_nat (length vs)) == fold_right Qplus 0 vs)%Q).
Proof. exact missing_mean_spec. Qed.
Print Assumptions C14_missing_mean.

Example C14_ex : exists x y z, fill_missing_vals (Some 4%Q) None None (Some 8%Q) = (Some 4%Q, Some x, Some y, Some z) /\
  (x == 6)%Q /\ (y == 6)%Q /\ (z == 8)%Q.
Proof. do 3 eexists. split; [vm_compute; reflexivity|repeat split]. Qed.

(* ------------------------------------------------------------------ C15 *)

(** get_value reads an existing cell that contains the position, at the slice of the date. *)
Theorem C15_get_value : forall c lat lon m d, clim_wf c -> md_valid m d ->
  (-90 <= lat)%Q -> (lat <= 90)%Q -> (-540 <= lon)%Q ->
  exists t y x, get_value c lat lon m d = Ok (cval c t y x) /\
    slice (cn c) m d t /\ row_has (cny c) y lat /\ col_has (cny c) x lon.
Proof. exact get_value_spec. Qed.
Print Assumptions C15_get_value.

Theorem C15_get_value_bad_date : forall c lat lon m d, ~ md_valid m d ->
  get_value c lat lon m d = Ok None /\ get_value_mds_style c lat lon m d = Ok None.
Proof. exact get_value_bad_date. Qed.
Print Assumptions C15_get_value_bad_date.

Theorem C15_get_value_mds_style : forall c lat lon m d, clim_wf c -> cny c = 180 -> md_valid m d ->
  (-90 <= lat)%Q -> (lat <= 90)%Q -> (-180 <= lon)%Q -> (lon <= 180)%Q ->
  exists t y x, get_value_mds_style c lat lon m d = Ok (cval c t y x) /\
    slice (cn c) m d t /\ row_has 180 y lat /\ col_has_closed 180 x lon.
Proof. exact mds_style_spec. Qed.
Print Assumptions C15_get_value_mds_style.

(** Longitudes above 180 are within the documented range but beyond the array. *)
Theorem C15_mds_style_above_180_refuted : forall c lat lon m d, clim_wf c -> cny c = 180 -> md_valid m d ->
  (-90 <= lat)%Q -> (lat <= 90)%Q -> (180 < lon)%Q -> (lon <= 360)%Q ->
  get_value_mds_style c lat lon m d = Err IndexError.
Proof. exact mds_style_raises. Qed.
Print Assumptions C15_mds_style_above_180_refuted.

Theorem C15_get_value_ostia : forall c lat lon, 0 < cn c -> cny c = 3600 -> cnx c = 7200 ->
  (-90 <= lat)%Q -> (lat <= 90)%Q -> (-180 <= lon)%Q -> (lon <= 180)%Q ->
  exists y x, get_value_ostia c lat lon = Ok (cval c 0 y x) /\ row_has 3600 y lat /\ col_has_closed 3600 x lon.
Proof. exact ostia_spec. Qed.
Print Assumptions C15_get_value_ostia.

(** Interpolation on a one-degree climatology: missing when no cell touching the position has a
    value, otherwise between the smallest and largest present value of the four surrounding cells. *)
Theorem C15_interpolated : forall c lat lon m d, clim_wf c -> cny c = 180 -> md_valid m d ->
  (-90 <= lat)%Q -> (lat <= 90)%Q -> (-180 <= lon)%Q -> (lon <= 180)%Q -> ~ (lat == -(179 # 2))%Q ->
  (~ some_pert c lat lon m d /\ get_interpolated_value c lat lon m d = Ok None) \/
  (some_pert c lat lon m d /\ exists v x1 x2 y1 y2, get_interpolated_value c lat lon m d = Ok (Some v) /\
     get_four_surrounding_points lat lon 1 = Ok (x1, x2, y1, y2) /\
     within v (corner c m d y1 x1) (corner c m d y2 x1) (corner c m d y1 x2) (corner c m d y2 x2)).
Proof. exact interp_one_degree. Qed.
Print Assumptions C15_interpolated.

(** In particular the result lies within any bounds of the field at that date. *)
Theorem C15_interpolated_range : forall c lat lon m d lo hi, clim_wf c -> cny c = 180 -> md_valid m d ->
  (-90 <= lat)%Q -> (lat <= 90)%Q -> (-180 <= lon)%Q -> (lon <= 180)%Q -> ~ (lat == -(179 # 2))%Q ->
  (forall t y x v, slice (cn c) m d t -> cval c t y x = Some v -> (lo <= v /\ v <= hi)%Q) ->
  get_interpolated_value c lat lon m d = Ok None \/
  exists v, get_interpolated_value c lat lon m d = Ok (Some v) /\ (lo <= v /\ v <= hi)%Q.
Proof. exact interp_field_range. Qed.
Print Assumptions C15_interpolated_range.

(** A one-degree field sampled from a bilinear function of position is interpolated exactly. *)
Theorem C15_interpolated_exact : forall c lat lon m d t a b e g,
  clim_wf c -> cny c = 180 -> md_valid m d -> slice (cn c) m d t ->
  (-(179 # 2) < lat)%Q -> (lat < 179 # 2)%Q -> (-(359 # 2) < lon)%Q -> (lon < 359 # 2)%Q ->
  let f u v := (a + b * u + e * v + g * u * v)%Q in
  (forall y x, 0 <= y < 180 -> 0 <= x < 360 ->
     exists w, cval c t y x = Some w /\ (w == f (90 - inject_Z y - (1 # 2)) (inject_Z x - 180 + (1 # 2)))%Q) ->
  exists v, get_interpolated_value c lat lon m d = Ok (Some v) /\ (v == f lat lon)%Q.
Proof. exact interp_exact. Qed.
Print Assumptions C15_interpolated_exact.

(** Finding: at latitude -89.5 interpolation raises whenever there is data at the position. *)
Theorem C15_interpolated_895S_refuted : forall c lon m d, clim_wf c -> md_valid m d ->
  (-180 <= lon)%Q -> (lon <= 180)%Q -> some_pert c (-(179 # 2)) lon m d ->
  get_interpolated_value c (-(179 # 2)) lon m d = Err AssertionError.
Proof. exact interp_raises_895S. Qed.
Print Assumptions C15_interpolated_895S_refuted.

(** Finding: on a finer grid a position with data can make the interpolation raise, because the
    corners are always one-degree cell centres. *)
Theorem C15_interpolated_fine_grid_refuted : exists c lat lon m d, clim_wf c /\ cny c = 720 /\ md_valid m d /\
  (exists v, get_value c lat lon m d = Ok (Some v)) /\
  (-89 <= lat /\ lat <= 90 /\ -180 <= lon /\ lon <= 180)%Q /\
  get_interpolated_value c lat lon m d = Err AssertionError.
Proof. exact interp_fine_grid. Qed.
Print Assumptions C15_interpolated_fine_grid_refuted.

(** The field lookups of the qc module. *)
Theorem C15_get_sst : forall c lat lon m d, sst_wf c -> md_valid m d ->
  (-90 <= lat)%Q -> (lat <= 90)%Q -> (-180 <= lon)%Q -> (lon <= 360)%Q ->
  exists t y x, get_sst lat lon m d c = Ok (cval c t y x) /\
    slice (cn c) m d t /\ row_has 180 y lat /\ col_has 180 x lon.
Proof. exact get_sst_spec. Qed.
Print Assumptions C15_get_sst.

Theorem C15_get_sst_bad_args : forall c lat lon m d,
  ~ (md_valid m d /\ (-90 <= lat)%Q /\ (lat <= 90)%Q /\ (-185 <= lon)%Q /\ (lon <= 365)%Q) ->
  get_sst lat lon m d c = Err AssertionError /\ get_sst_daily lat lon m d c = Err AssertionError.
Proof. exact get_sst_bad. Qed.
Print Assumptions C15_get_sst_bad_args.

Theorem C15_get_sst_daily : forall c lat lon m d, cn c = 365 -> cny c = 180 -> cnx c = 360 -> md_valid m d ->
  (-90 <= lat)%Q -> (lat <= 90)%Q -> (-180 <= lon)%Q -> (lon <= 180)%Q ->
  exists t y x, get_sst_daily lat lon m d c = Ok (cval c t y x) /\
    slice 365 m d t /\ row_has 180 y lat /\ col_has_closed 180 x lon.
Proof. exact get_sst_daily_spec. Qed.
Print Assumptions C15_get_sst_daily.

(** So they are in a daily climatology. *)
Theorem C15_get_sst_daily_above_180_refuted : forall c lat lon m d,
  cn c = 365 -> cny c = 180 -> cnx c = 360 -> md_valid m d ->
  (-90 <= lat)%Q -> (lat <= 90)%Q -> (180 < lon)%Q -> (lon <= 360)%Q ->
  get_sst_daily lat lon m d c = Err IndexError.
Proof. exact get_sst_daily_raises. Qed.
Print Assumptions C15_get_sst_daily_above_180_refuted.

Theorem C15_get_hires_sst : forall c lat lon m d, cn c = 365 -> cny c = 720 -> cnx c = 1440 -> md_valid m d ->
  (-90 <= lat)%Q -> (lat <= 90)%Q -> (-180 <= lon)%Q -> (lon <= 360)%Q ->
  exists t y x, slice 365 m d t /\ row_has 720 y lat /\ col_has 720 x lon /\
    (forall v, get_hires_sst lat lon m d c = Ok (Some v) <-> cval c t y x = Some v /\ ~ (v == -999)%Q) /\
    (get_hires_sst lat lon m d c = Ok None <-> (cval c t y x = None \/ exists v, cval c t y x = Some v /\ (v == -999)%Q)).
Proof. exact get_hires_sst_spec. Qed.
Print Assumptions C15_get_hires_sst.

(** A concrete climatology: value = row number, masked at row 0. *)
Definition ex_clim (n : Z) : clim :=
  {| cn := 73; cny := n; cnx := 2 * n; cval := fun t y x => if y =? 0 then None else Some (inject_Z y) |}.
Example C15_ex : clim_wf (ex_clim 180) /\ md_valid 2 29 /\
  get_value (ex_clim 180) (10 # 1) (400 # 1) 2 29 = Ok (Some 80%Q) /\
  (exists v, get_interpolated_value (ex_clim 180) 10 5 2 29 = Ok (Some v) /\ (v == 159 # 2)%Q) /\
  get_interpolated_value (ex_clim 180) 90 5 2 29 = Ok None /\
  some_pert (ex_clim 180) (-(179 # 2)) 5 2 29.
Proof.
  split; [split; [right; now left|split; reflexivity]|].
  split; [apply clim_date_ok_iff; reflexivity|].
  split; [vm_compute; reflexivity|].
  split; [eexists; split; [vm_compute; reflexivity|reflexivity]|].
  split; [vm_compute; reflexivity|].
  do 2 eexists. split; [left; reflexivity|vm_compute; reflexivity].
Qed.
