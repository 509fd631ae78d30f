(** Specification: Buck's vapour pressures over water and ice, the wet bulb as a weighted mean, and rounding. *)
Require Import String Reals ZArith List.
Require Import Verif.M_Report.
Import ListNotations.
Open Scope R_scope.

(** Temperatures (degrees C) the formulas are meant for, generously; pressure in hPa. *)
Definition temperature (x : R) : Prop := -237 <= x <= 800.

(** Saturation vapour pressure at temperature [x], pressure [p]. *)
Definition over_water (p x : R) : R := 6.1121 * (1.0007 + 3.46 * p / 1000000) * exp ((18.729 - x / 227.3) * x / (257.87 + x)).
Definition over_ice (p x : R) : R := 6.1115 * (1.0003 + 4.18 * p / 1000000) * exp ((23.036 - x / 333.7) * x / (279.82 + x)).

(** Wet bulb temperature for vapour pressure [e]: the mean of air temperature and dew point, weighted by the
    psychrometric constant and by the slope of the vapour pressure. *)
Definition weighted (a x b y : R) : R := (a * x + b * y) / (a + b).
Definition bulb (e td t p : R) : R := weighted (0.000066 * p) t (409.8 * e / ((td + 237.3) * (td + 237.3))) td.

(** Vapour pressure at dew point [td] and air temperature [t]: over ice if the wet bulb is not above freezing. *)
Definition vapour (td t p e : R) : Prop :=
  (0 < bulb (over_water p td) td t p /\ e = over_water p td) \/ (bulb (over_water p td) td t p <= 0 /\ e = over_ice p td).

(** Mass of vapour in a kilogram of moist air, in grams. *)
Definition specific (e p : R) : R := 1000 * 0.622 * e / (p - 0.378 * e).

(** [y] is [x] rounded to one decimal, halves away from zero. *)
Definition nearest_tenth (x y : R) : Prop :=
  exists n : Z, y = IZR n / 10 /\ (0 <= x -> x - 1 / 20 < y <= x + 1 / 20) /\ (x < 0 -> x - 1 / 20 <= y < x + 1 / 20).

(** The humidity variables a report derives, each with its value. *)
Definition humidity_names : list string := ["VAP"; "SHU"; "CRH"; "CWB"; "DPD"]%string.
Definition humidities (e es td t p : R) : list (string * R) :=
  [("VAP", e); ("SHU", specific e p); ("CRH", 100 * (e / es)); ("CWB", bulb e td t p); ("DPD", t - td)]%string.

(** What setting humidity variables leaves alone. *)
Definition hum_same (r r' : report) : Prop :=
  r_id r' = r_id r /\ r_uid r' = r_uid r /\ r_qc r' = r_qc r /\ r_ext r' = r_ext r /\ r_clim r' = r_clim r /\ r_dt r' = r_dt r /\
  (forall n, ~ In n humidity_names -> getvar r' n = getvar r n).
