(** Specification vocabulary for the checks of drifter temperatures against a background field. *)
Require Import String ZArith QArith Qround List Bool.
Require Import Verif.M_Base Verif.S_Calendar Verif.S_Stats Verif.S_Sun Verif.M_Report Verif.S_Report Verif.S_Voyage Verif.S_Track.
Import ListNotations.
Open Scope string_scope.
Open Scope list_scope.
Open Scope Z_scope.

(** Only the flags fs of type t were written. *)
Definition unchanged_flags (t : string) (fs : list string) (r r' : report) : Prop :=
  r_id r' = r_id r /\ r_uid r' = r_uid r /\ r_data r' = r_data r /\ r_dt r' = r_dt r /\ r_ext r' = r_ext r /\ r_clim r' = r_clim r /\
  forall t' f', (forall f, In f fs -> ~ same_key t f t' f') -> get_qc r' t' f' = get_qc r t' f'.
(** The check ended with v': of the reports of v only the listed flags were written; each is 1 on the reports
    at its positions and 0 on all others. *)
Definition flags_are (t : string) (fl : list (string * (nat -> Prop))) (v v' : list report) : Prop :=
  Forall2 (unchanged_flags t (map fst fl)) v v' /\
  forall f bad, In (f, bad) fl -> forall i r', nth_error v' i = Some r' -> (get_qc r' t f = 1 /\ bad i) \/ (get_qc r' t f = 0 /\ ~ bad i).

Section Background.
Variable elev : Z -> Z -> Q -> Q -> Q -> Q -> Q.

(** The report has the matched values the check asks for. *)
Record matched (r : report) (bg ice var : option Q) : Prop := {
  mt_bg : getext r "OSTIA" = Ok bg; mt_ice : getext r "ICE" = Ok ice; mt_var : getext r "BGVAR" = Ok var;
  mt_ice01 : forall x, ice = Some x -> (0 <= x <= 1)%Q;
  mt_range : forall b, bg = Some b -> (-5 <= b <= 45)%Q /\ exists x, var = Some x /\ (0 <= x <= 10)%Q;
  mt_sst : exists s, getvar r "SST" = Some s;
  mt_lat : exists la lo, at_pos r la lo /\ (-90 <= la <= 90)%Q }.
(** Elevation of the sun at the time and place of the report; it is dark when the sun stands 2.5 degrees or
    more below the horizon. *)
Definition sun_at (r : report) (e : Q) : Prop :=
  exists d h k la lo la' lo', getint r "YR" = Some (yr d) /\ getint r "MO" = Some (mo d) /\ getint r "DY" = Some (dy d) /\ getvar r "HR" = Some h /\ at_pos r la lo /\
    day_number d k /\ aside la la' /\ aside lo lo' /\ (e == elev (yr d) k (inject_Z (Qfloor h)) ((h - inject_Z (Qfloor h)) * 60) la' lo')%Q.
Definition dark (r : report) : Prop := exists e, sun_at r e /\ (e <= - (5 # 2))%Q.
(** The report is compared with the background: made in the dark, with a background value, away from ice,
    and its background variance is one of those in [ok].  a is the difference, b the variance. *)
Definition compared (ok : Q -> Prop) (r : report) (a b : Q) : Prop :=
  dark r /\ (exists bg s, getext r "OSTIA" = Ok (Some bg) /\ getvar r "SST" = Some s /\ a = (s - bg)%Q) /\
  (forall ice, getext r "ICE" = Ok (Some ice) -> (ice <= 15 # 100)%Q) /\ getext r "BGVAR" = Ok (Some b) /\ ok b.
(** The compared reports of v in order: position, difference, variance. *)
Definition comparisons (ok : Q -> Prop) (v : list report) (obs : list (nat * (Q * Q))) : Prop :=
  (forall j k x y, (j < k)%nat -> nth_error obs j = Some x -> nth_error obs k = Some y -> (fst x < fst y)%nat) /\
  forall i a b, In (i, (a, b)) obs <-> exists r, nth_error v i = Some r /\ compared ok r a b.
End Background.

Section Windows.
(** Square root as computed. *)
Variable sq : Q -> Q.

(** A window is a list of differences and variances. *)
Definition errs (w : list (Q * Q)) : list Q := map (fun x => sq (snd x)) w.
Definition reliable (lim : Q) (w : list (Q * Q)) : Prop := forall e, In e (errs w) -> (e <= sq lim)%Q.
(** Biased or noisy as a whole, after leaving out a hundredth of the values at each end. *)
Definition biased_or_noisy (nstd inter intra : Q) (w : list (Q * Q)) : Prop :=
  exists s, sorts s (map fst w) /\
    let kept := middle (length w / 100) s in
    let rms := sq (meanQ (map (fun e => e * e)%Q (errs w))) in
    (nstd * sq (inter * inter + meanQ (errs w) * meanQ (errs w)) < Qabs' (meanQ kept) \/ sq (intra * intra + rms * rms) < sq (varQ kept))%Q.
(** One difference is suspicious: beyond nstd combined standard deviations on either side. *)
Definition suspicious (nstd inter intra : Q) (x : Q * Q) : bool :=
  let e := sq (snd x) in let limit := (nstd * sq (e * e + inter * inter + intra * intra))%Q in
  Qltb limit (fst x) || Qltb (fst x) (- limit).
Definition many_suspicious (nstd inter intra : Q) (n_bad : Z) (w : list (Q * Q)) : Prop :=
  n_bad <= Z.of_nat (length (filter (suspicious nstd inter intra) w)).
End Windows.

(** Among the windows 0..m-1, exactly p fail from the start on, and exactly q back from the end. *)
Definition leading (F : nat -> Prop) (m p : nat) : Prop := (p <= m)%nat /\ (forall i, (i < p)%nat -> F i) /\ ((p < m)%nat -> ~ F p).
Definition trailing (F : nat -> Prop) (m q : nat) : Prop :=
  (q <= m)%nat /\ (forall i, (m - q <= i < m)%nat -> F i) /\ ((q < m)%nat -> ~ F (m - 1 - q)%nat).
(** Not all windows fail; a observations are cut at the start, b at the end: one for each failing window and
    [half] more if there is one. *)
Definition cuts (F : nat -> Prop) (m half a b : nat) : Prop :=
  exists p q, leading F m p /\ trailing F m q /\ (p < m)%nat /\ a = (if p =? 0 then 0 else p + half)%nat /\ b = (if q =? 0 then 0 else q + half)%nat.
(** Tails of a and b observations out of n: first by the long windows (of 2 half + 1 observations, failing
    according to L), then, among those left, by the short windows (of sw, failing according to S).  Stretches
    shorter than a window are not assessed. *)
Definition tails (n half sw : nat) (L S : nat -> Prop) (a b : nat) : Prop :=
  exists a0 b0, ((n < 2 * half + 1)%nat /\ a0 = O /\ b0 = O \/ (2 * half + 1 <= n)%nat /\ cuts L (n - 2 * half) half a0 b0) /\
    ((n - a0 - b0 < sw)%nat /\ a = a0 /\ b = b0 \/
     (sw <= n - a0 - b0)%nat /\ exists a1 b1, cuts (fun i => S (a0 + i)%nat) (n - a0 - b0 - sw + 1) 0 a1 b1 /\ a = (a0 + a1)%nat /\ b = (b0 + b1)%nat).
(** The w values from position i on. *)
Definition from_to {A} (i w : nat) (l : list A) : list A := firstn w (skipn i l).
