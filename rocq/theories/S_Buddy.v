(** Specification of the buddy check: cells, neighbours and limits.  Reports are read through their position,
    month, day and anomaly; nothing here refers to the gridding code. *)
Require Import String ZArith QArith List Bool.
Require Import Verif.M_Base Verif.M_Grid Verif.M_Report Verif.S_Calendar Verif.S_Grid Verif.S_Stats.
Import ListNotations.
Open Scope Z_scope.

(** A 1-degree cell and pentad: column from 180W, row from the North Pole, pentad of the year from 0. *)
Definition place := (Z * Z * Z)%type.

(** The report lies in the cell. *)
Definition in_cell (r : report) (c : place) : Prop :=
  exists la lo mo d, lat r = Some la /\ lon r = Some lo /\ getint r "MO" = Some mo /\ getint r "DY" = Some d /\
    (-90 <= la)%Q /\ (la <= 90)%Q /\ (-180 <= lo)%Q /\ (lo <= 180)%Q /\
    mds_col 180 (fst (fst c)) lo /\ mds_row 180 (snd (fst c)) la /\ pentad mo d (snd c).

(** [out] lists, in order, the values of the members of [l] that are [inside]; members without value count for nothing. *)
Inductive collected (inside : report -> Prop) (val : report -> option Q) : list report -> list Q -> Prop :=
| coll_nil : collected inside val [] []
| coll_in : forall r a l out, inside r -> val r = Some a -> collected inside val l out -> collected inside val (r :: l) (a :: out)
| coll_none : forall r l out, inside r -> val r = None -> collected inside val l out -> collected inside val (r :: l) out
| coll_out : forall r l out, ~ inside r -> collected inside val l out -> collected inside val (r :: l) out.

(** The anomalies of the reports that pass the filter and lie in cell [c]. *)
Definition cell_anoms (f : qc_filter) (intype : string) (l : list report) (c : place) (out : list Q) : Prop :=
  collected (fun r => test_report f r = 0 /\ in_cell r c) (fun r => getanom r intype) l out.
Definition occupied (f : qc_filter) (intype : string) (l : list report) (c : place) : Prop :=
  exists out, cell_anoms f intype l c out /\ out <> [].

(** The cell [o] = (columns, rows, pentads) away from [c]: columns, rows and pentads all wrap round. *)
Definition shift (c o : place) : place :=
  ((fst (fst c) + fst (fst o)) mod 360, (snd (fst c) + snd (fst o)) mod 180, (snd c + snd o) mod 73).
(** The offsets, other than none at all, within a box that lead to an occupied cell. *)
Definition neighbours (occ : place -> Prop) (rx ry rp : Z) (c : place) (offs : list place) : Prop :=
  NoDup offs /\
  forall dx dy dp, In (dx, dy, dp) offs <->
    Z.abs dx <= rx /\ Z.abs dy <= ry /\ Z.abs dp <= rp /\ ~ (dx = 0 /\ dy = 0 /\ dp = 0) /\ occ (shift c (dx, dy, dp)).

(** Mean of the neighbouring cells' means, and number of observations behind it. *)
Definition buddies (f : qc_filter) (intype : string) (l : list report) (rx ry rp : Z) (c : place) (bm : Q) (counts : list Z) : Prop :=
  exists offs outs, neighbours (occupied f intype l) rx ry rp c offs /\
    Forall2 (fun o out => cell_anoms f intype l (shift c o) out) offs outs /\ outs <> [] /\
    (bm == meanQ (map meanQ outs))%Q /\ counts = map (fun out => Z.of_nat (length out)) outs.
Definition no_buddies (f : qc_filter) (intype : string) (l : list report) (rx ry rp : Z) (c : place) : Prop :=
  neighbours (occupied f intype l) rx ry rp c [].

(** The multiplier of the largest limit strictly below the count. *)
Definition multiplier_for (lims : list Z) (mults : list Q) (t : Z) (q : Q) : Prop :=
  exists i l, nth_error lims i = Some l /\ nth_error mults i = Some q /\ l < t /\
    (forall j l', (i < j)%nat -> nth_error lims j = Some l' -> t <= l').

(** The standard deviation of cell (x, y, p): the field's value in that cell for the first day of the pentad; 1
    if missing or negative. *)
Definition sd_at (sd : clim) (c : place) (s : Q) : Prop :=
  exists t, (cn sd = 1 -> t = 0) /\ (cn sd = 73 -> t = snd c) /\ (cn sd = 365 -> t = 5 * snd c) /\
    match cval sd t (snd (fst c)) (fst (fst c)) with
    | Some v => (0 <= v)%Q /\ (s == v)%Q \/ (v < 0)%Q /\ (s == 1)%Q
    | None => (s == 1)%Q
    end.

(** One step of the search: box (columns at the equator, rows, pentads), limits on the number of observations,
    multipliers. *)
Definition search := ((Z * Z * Z) * (list Z * list Q))%type.
(** Buddy mean and limit of cell [c]: the first step that finds neighbours decides; [reach s y] is the number
    of columns searched in row [y] for [s] columns at the equator. *)
Definition buddy_limits (reach : Z -> Z -> Z) (f : qc_filter) (intype : string) (l : list report) (sd : clim) (steps : list search) (c : place) (bm bsd : Q) : Prop :=
  (exists i s counts mult sdv,
     nth_error steps i = Some s /\
     (forall j s', (j < i)%nat -> nth_error steps j = Some s' ->
        no_buddies f intype l (reach (fst (fst (fst s'))) (snd (fst c))) (snd (fst (fst s'))) (snd (fst s')) c) /\
     buddies f intype l (reach (fst (fst (fst s))) (snd (fst c))) (snd (fst (fst s))) (snd (fst s)) c bm counts /\
     multiplier_for (fst (snd s)) (snd (snd s)) (fold_right Z.add 0 counts) mult /\ sd_at sd c sdv /\ (bsd == mult * sdv)%Q) \/
  ((forall s', In s' steps -> no_buddies f intype l (reach (fst (fst (fst s'))) (snd (fst c))) (snd (fst (fst s'))) (snd (fst s')) c) /\
   (bm == 0)%Q /\ (bsd == 500)%Q).

(** Each report keeps everything but the one flag. *)
Definition flagged (intype flag : string) (verdict : report -> Z -> Prop) (l l' : list report) : Prop :=
  Forall2 (fun r r' => exists v, verdict r v /\ set_qc r intype flag v = Ok r') l l'.

(** The flag of the buddy check: 1 when the anomaly differs from the buddy mean by the limit or more; reports
    the filter rejects get 0. *)
Definition mds_verdict (reach : Z -> Z -> Z) (f : qc_filter) (intype : string) (sd : clim) (steps : list search) (l : list report) (r : report) (v : Z) : Prop :=
  (test_report f r <> 0 /\ v = 0) \/
  (test_report f r = 0 /\ exists c a bm bsd, in_cell r c /\ getanom r intype = Some a /\ buddy_limits reach f intype l sd steps c bm bsd /\
     ((bsd <= Qabs' (a - bm))%Q /\ v = 1 \/ (Qabs' (a - bm) < bsd)%Q /\ v = 0)).

(** Buddy mean and variance of the Bayesian check: errors of the report's own measurement and sampling, of its
    cell, and of the average of the neighbouring cells. *)
Definition bayes_var (sigma_m noise s1 s2 s3 : Q) (counts : list Z) : Q :=
  let n := inject_Z (Z.of_nat (length counts)) in
  (sigma_m * sigma_m + s1 * s1 + noise * (s2 * s2) +
   (sumQ (map (fun k => (sigma_m * sigma_m + noise * (s2 * s2)) / inject_Z k) counts) / (n * n) + s3 * s3 / n))%Q.
Definition bayes_limits (reach : Z -> Z -> Z) (sq : Q -> Q) (f : qc_filter) (intype : string) (l : list report) (sd1 sd2 sd3 : clim) (radius : Z * Z * Z) (sigma_m noise : Q) (c : place) (bm bsd : Q) : Prop :=
  let rx := reach (fst (fst radius)) (snd (fst c)) in
  (exists counts s1 s2 s3 var, buddies f intype l rx (snd (fst radius)) (snd radius) c bm counts /\
     sd_at sd1 c s1 /\ sd_at sd2 c s2 /\ sd_at sd3 c s3 /\ (var == bayes_var sigma_m noise s1 s2 s3 counts)%Q /\ (0 <= var)%Q /\ bsd = sq var) \/
  (no_buddies f intype l rx (snd (fst radius)) (snd radius) c /\ bm = 0%Q /\ bsd = 500%Q).
(** The flag of the Bayesian check: the probability of a gross error in tenths, rounded down, at most 9. *)
Definition bayes_verdict (reach : Z -> Z -> Z) (sq : Q -> Q) (p_gross : Q -> Q -> Q -> option Q) (f : qc_filter) (intype : string) (sd1 sd2 sd3 : clim) (radius : Z * Z * Z) (sigma_m noise : Q)
    (l : list report) (r : report) (v : Z) : Prop :=
  (test_report f r <> 0 /\ v = 0) \/
  (test_report f r = 0 /\ exists c a bm bsd p, in_cell r c /\ getanom r intype = Some a /\
     bayes_limits reach sq f intype l sd1 sd2 sd3 radius sigma_m noise c bm bsd /\ p_gross a bm bsd = Some p /\
     ((p <= 0)%Q /\ v = 0 \/ (0 < p)%Q /\ 0 <= v /\ (inject_Z v <= 10 * p)%Q /\ (10 * p < inject_Z v + 1)%Q /\ v <= 9 \/ (10 <= 10 * p)%Q /\ v = 9)).

(** A cell of the arrays. *)
Definition cell_ok (c : place) : Prop := 0 <= fst (fst c) < 360 /\ 0 <= snd (fst c) < 180 /\ 0 <= snd c < 73.
Definition steps_of (limits : list (Z * Z * Z)) (ths : list (list Z)) (mus : list (list Q)) : list search := combine limits (combine ths mus).
(** As many tables as boxes, each well formed. *)
Definition params_ok (limits : list (Z * Z * Z)) (ths : list (list Z)) (mus : list (list Q)) : Prop :=
  length ths = length limits /\ length mus = length limits /\ Forall (fun tm => table_ok (fst tm) (snd tm)) (combine ths mus).
(** Every report that is checked has a place and an anomaly. *)
Definition checkable (f : qc_filter) (t : string) (l : list report) : Prop :=
  forall r, In r l -> test_report f r = 0 -> exists c a, in_cell r c /\ getanom r t = Some a.
(** The fixed search of the older buddy check: boxes of one and two degrees within two pentads, then within four; limits of 4, 3.5,
    3 and 2.5 standard deviations for up to 5, 15, 100 and more observations in the smaller box, of 4 in the larger. *)
Definition old_search : list search :=
  [((1, 1, 2), ([0; 5; 15; 100], [4; 7 # 2; 3; 5 # 2]%Q)); ((2, 2, 2), ([0], [4%Q])); ((1, 1, 4), ([0; 5; 15; 100], [4; 7 # 2; 3; 5 # 2]%Q)); ((2, 2, 4), ([0], [4%Q]))].
