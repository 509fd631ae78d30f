(** Independent specification of latitude-longitude grids.  A grid of [n] rows runs from the
    North Pole southwards in steps of 180/n degrees and has [2n] columns running eastwards
    from 180W.  Does not refer to the model. *)
Require Import ZArith QArith.
Open Scope Z_scope.

Definition step (n : Z) : Q := (180 / inject_Z n)%Q.

(** Row [y] (counted from the north) contains latitude [lat], borders included. *)
Definition row_has (n y : Z) (lat : Q) : Prop :=
  0 <= y < n /\ (90 - (inject_Z y + 1) * step n <= lat)%Q /\ (lat <= 90 - inject_Z y * step n)%Q.

(** Column [x] contains longitude [lon] after adding some whole number of turns; the western
    border belongs to the column, the eastern one does not. *)
Definition col_has (n x : Z) (lon : Q) : Prop :=
  0 <= x < 2 * n /\ exists k : Z,
  (-180 + inject_Z x * step n <= lon + 360 * inject_Z k)%Q /\
  (lon + 360 * inject_Z k < -180 + (inject_Z x + 1) * step n)%Q.

(** The same for longitudes in [-180,180], both borders included. *)
Definition col_has_closed (n x : Z) (lon : Q) : Prop :=
  0 <= x < 2 * n /\ (-180 + inject_Z x * step n <= lon)%Q /\ (lon <= -180 + (inject_Z x + 1) * step n)%Q.

(** [v] lies between the smallest and the largest of the present values among four. *)
Definition within (v : Q) (a b c d : option Q) : Prop :=
  (exists lo, (a = Some lo \/ b = Some lo \/ c = Some lo \/ d = Some lo) /\ (lo <= v)%Q) /\
  (exists hi, (a = Some hi \/ b = Some hi \/ c = Some hi \/ d = Some hi) /\ (v <= hi)%Q).

(** The older lookups put a border into the cell further from the equator (or from Greenwich); the equator
    belongs to the southern row and Greenwich to the western column. *)
Definition mds_row (n y : Z) (lat : Q) : Prop :=
  0 <= y < n /\
  ((0 < lat)%Q /\ (90 - (inject_Z y + 1) * step n <= lat)%Q /\ ((lat < 90 - inject_Z y * step n)%Q \/ y = 0 /\ (lat == 90)%Q) \/
   (lat <= 0)%Q /\ (lat <= 90 - inject_Z y * step n)%Q /\ ((90 - (inject_Z y + 1) * step n < lat)%Q \/ y = n - 1 /\ (lat == -90)%Q)).
Definition mds_col (n x : Z) (lon : Q) : Prop :=
  0 <= x < 2 * n /\
  ((0 < lon)%Q /\ (-180 + inject_Z x * step n <= lon)%Q /\ ((lon < -180 + (inject_Z x + 1) * step n)%Q \/ x = 2 * n - 1 /\ (lon == 180)%Q) \/
   (lon <= 0)%Q /\ (lon <= -180 + (inject_Z x + 1) * step n)%Q /\ ((-180 + inject_Z x * step n < lon)%Q \/ x = 0 /\ (lon == -180)%Q)).

(** A corner of a square of four values after gap filling: its own value if it has one; otherwise the mean of
    those of its two neighbours that have one; otherwise the value of the opposite corner. *)
Definition filled (own n1 n2 opposite out : option Q) : Prop :=
  match own, n1, n2 with
  | Some v, _, _ => out = Some v
  | None, Some a, Some b => exists w, out = Some w /\ (w == (a + b) / 2)%Q
  | None, Some a, None | None, None, Some a => exists w, out = Some w /\ (w == a)%Q
  | None, None, None => out = opposite
  end.
