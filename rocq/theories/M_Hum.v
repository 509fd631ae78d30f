(** Model of the humidity formulas (CalcHums.py) and of the humidity variables of a report
    (Extended_IMMA.py:408-447) over the real numbers.  No proofs here.

    Simplifications: floating point rounding is not modelled.  A zero divisor of Python floats raises
    ZeroDivisionError (dew points of -257.87 and -279.82); the other divisors belong to numpy numbers, whose
    infinities and not-a-numbers are not modelled (the theorems keep away from them). *)
Require Import String Reals ZArith QArith Qreals List Bool.
Require Import Verif.M_Base Verif.M_Report Verif.M_Bayes.
Import ListNotations.
Open Scope string_scope.
Open Scope list_scope.
Open Scope R_scope.

(** Python 2's round to a whole number: halves away from zero. *)
Definition rnd (x : R) : Z := if Rle_dec 0 x then Int_part (x + 1 / 2) else (- Int_part (- x + 1 / 2))%Z.
(** [if roundit: x = round(x * 10.) / 10.] *)
Definition rounded (roundit : bool) (x : R) : R := if roundit then IZR (rnd (x * 10)) / 10 else x.

(** CalcHums.py:86-87 (the same lines in sh, rh, wb): enhancement factor and vapour pressure over water. *)
Definition e_water (td p : R) : res R :=
  let f := 1 + 7 * (1 / 10000) + 3.46 * (1 / 1000000) * p in
  let! x := Rdivide ((18.729 - td / 227.3) * td) (257.87 + td) in
  Ok (6.1121 * f * exp x).
(** CalcHums.py:97-98: over ice. *)
Definition e_ice (td p : R) : res R :=
  let f := 1 + 3 * (1 / 10000) + 4.18 * (1 / 1000000) * p in
  let! x := Rdivide ((23.036 - td / 333.7) * td) (279.82 + td) in
  Ok (6.1115 * f * exp x).
(** CalcHums.py:89-91: the wet bulb temperature for a vapour pressure. *)
Definition wet_bulb (e td t p : R) : R :=
  let a := 0.000066 * p in
  let b := 409.8 * e / (td + 237.3) ^ 2 in
  (a * t + b * td) / (a + b).
(** CalcHums.py:84-98: vapour pressure over water, or over ice if the wet bulb is not above freezing. *)
Definition e_of (td t p : R) : res R :=
  let! e := e_water td p in
  if Rleb (wet_bulb e td t p) 0 then e_ice td p else Ok e.

(** [if td is None or t is None or p is None: return None] *)
Definition with3 (f : R -> R -> R -> res R) (td t p : option R) : res (option R) :=
  match td, t, p with
  | Some td, Some t, Some p => let! x := f td t p in Ok (Some x)
  | _, _, _ => Ok None
  end.

(** CalcHums.py:37-104 vap. *)
Definition vap (roundit : bool) (td t p : option R) : res (option R) :=
  with3 (fun td t p => let! e := e_of td t p in Ok (rounded roundit e)) td t p.

(** CalcHums.py:107-147 vap_from_sh. *)
Definition vap_from_sh (roundit : bool) (sh p : R) : res R :=
  let! e := Rdivide (sh / 1000 * p) (0.622 + 0.378 * (sh / 1000)) in Ok (rounded roundit e).

(** CalcHums.py:216-257 sh_from_vap. *)
Definition sh_from_vap (roundit : bool) (e p : R) : res R :=
  let! x := Rdivide (0.622 * e) (p - (1 - 0.622) * e) in Ok (rounded roundit (1000 * x)).

(** CalcHums.py:150-213 sh (numpy division). *)
Definition sh (roundit : bool) (td t p : option R) : res (option R) :=
  with3 (fun td t p => let! e := e_of td t p in Ok (rounded roundit (1000 * (0.622 * e / (p - (1 - 0.622) * e))))) td t p.

(** CalcHums.py:260-344 rh; the saturated vapour pressure repeats the lines with t for td. *)
Definition rh (roundit : bool) (td t p : option R) : res (option R) :=
  with3 (fun td t p => let! e := e_of td t p in let! es := e_of t t p in Ok (rounded roundit (e / es * 100))) td t p.

(** CalcHums.py:347-417 wb. *)
Definition wb (roundit : bool) (td t p : option R) : res (option R) :=
  with3 (fun td t p => let! e := e_of td t p in Ok (rounded roundit (wet_bulb e td t p))) td t p.

(** CalcHums.py:420-457 dpd. *)
Definition dpd (roundit : bool) (td t : option R) : res (option R) :=
  match td, t with Some td, Some t => Ok (Some (rounded roundit (t - td))) | _, _ => Ok None end.

(** CalcHums.py:503-508 (520-524 for ice): the smaller root of the quadratic for the dew point.  Logarithms
    and roots of negative numbers, nan in numpy, are not modelled. *)
Definition td_root (h k m l : R) : R :=
  let b := k * l - m * k in
  let c := h * k * l in
  (- b - sqrt (b ^ 2 - 4 * 1 * c)) / (2 * 1).
(** CalcHums.py:460-530 td_from_vap. *)
Definition td_from_vap (roundit : bool) (e p t : R) : R :=
  let f := 1 + 7 * (1 / 10000) + 3.46 * (1 / 1000000) * p in
  let td := td_root 257.87 227.3 18.729 (ln (e / (6.1121 * f))) in
  rounded roundit
    (if Rleb (wet_bulb e td t p) 0 then
       let f := 1 + 3 * (1 / 10000) + 4.18 * (1 / 1000000) * p in
       td_root 279.82 333.7 23.036 (ln (e / (6.1115 * f)))
     else td).

(** The number a report stores: rounded to tenths, a rational. *)
Definition tenths (x : R) : Q := (rnd (x * 10) # 10)%Q.
Definition reals (o : option Q) : option R := match o with Some q => Some (Q2R q) | None => None end.
Definition to_tenths (x : res (option R)) : res (option Q) :=
  let! o := x in Ok match o with Some x => Some (tenths x) | None => None end.

(** [for var in hum_vars: self.setvar(var, None)] *)
Fixpoint clear_vars (names : list string) (r : report) : res report :=
  match names with [] => Ok r | n :: names' => let! r := setvar r n None in clear_vars names' r end.

(** Extended_IMMA.py:408-447 calculate_humidity_variables.  A report without an SLP normal attached raises
    KeyError; a missing relative humidity counts as below zero (Python 2). *)
Definition calculate_humidity_variables (r : report) (hum_vars : list string) : res report :=
  assert! (forallb (fun i => mem i ["SHU"; "VAP"; "CRH"; "CWB"; "DPD"]) hum_vars);
  let! slpclim := match assoc "SLP" (r_clim r) with Some (c, _) => Ok c | None => Err KeyError end in
  match slpclim with
  | None => clear_vars hum_vars r
  | Some _ =>
      let td := reals (getvar r "DPT") in
      let t := reals (getvar r "AT") in
      let p := reals slpclim in
      let! x := to_tenths (vap false td t p) in
      let! r := setvar r "VAP" x in
      let! x := to_tenths (sh false td t p) in
      let! r := setvar r "SHU" x in
      let! x := to_tenths (rh false td t p) in
      let! r := setvar r "CRH" x in
      let! x := to_tenths (wb false td t p) in
      let! r := setvar r "CWB" x in
      let! x := to_tenths (dpd false td t) in
      let! r := setvar r "DPD" x in
      if match getvar r "CRH" with None => true | Some c => Qltb c 0 || Qltb 150 c end
      then clear_vars hum_vars r else Ok r
  end.
