(** Model of the buddy checks: Np_Super_Ob, Deck.mds_buddy_check and Deck.bayesian_buddy_check
    (Extended_IMMA.py:2551-2889, 2991-3116).  The arrays are sparse: only cells with observations are stored,
    in order of first appearance (numpy's nonzero lists them in index order, which matters only for which
    of several exceptions is raised).  No proofs here. *)
Require Import String ZArith QArith Qround List Bool.
Require Import Verif.M_Base Verif.M_Calendar Verif.M_Grid Verif.M_Stats Verif.M_Report Verif.M_Drifter.
Import ListNotations.
Open Scope string_scope.
Open Scope list_scope.
Open Scope Z_scope.

(** x, y and pentad index of a cell. *)
Definition cell := (Z * Z * Z)%type.
Definition cell_eqb (a b : cell) : bool :=
  let '(x, y, p) := a in let '(x', y', p') := b in (x =? x') && (y =? y') && (p =? p').
(** The arrays grid and nobs: sum (later mean) and number of the anomalies of a cell. *)
Definition sgrid := list (cell * (Q * Z)).
Fixpoint g_add (c : cell) (a : Q) (g : sgrid) : sgrid :=
  match g with
  | [] => [(c, (a, 1))]
  | (c', (s, n)) :: g' => if cell_eqb c' c then (c', ((s + a)%Q, n + 1)) :: g' else (c', (s, n)) :: g_add c a g'
  end.
Fixpoint g_find {A} (c : cell) (g : list (cell * A)) : option A :=
  match g with [] => None | (c', x) :: g' => if cell_eqb c' c then Some x else g_find c g' end.

(** The indices of a position and date (2566-2572, 2866-2868): a missing position is a TypeError of the
    arithmetic, a missing month or day fails the range assertions of which_pentad. *)
Definition cell_of (lat lon : option Q) (month day : option Z) : res cell :=
  match lon, lat with
  | Some lon, Some lat =>
      let xindex := mds_lon_to_xindex lon 1 in
      let yindex := mds_lat_to_yindex lat 1 in
      match month, day with
      | Some month, Some day => let! p := which_pentad month day in Ok (xindex, yindex, p - 1)
      | _, _ => Err AssertionError
      end
  | _, _ => Err TypeError
  end.
(** Extended_IMMA.py:2562-2576 add_rep. *)
Definition add_rep (lat lon : option Q) (month day : option Z) (anom : option Q) (g : sgrid) : res sgrid :=
  let! c := cell_of lat lon month day in
  let '(x, y, p) := c in
  assert! (0 <=? x) && (x <? 360);
  assert! (0 <=? y) && (y <? 180);
  assert! (0 <=? p) && (p <? 73);
  match anom with Some a => Ok (g_add c a g) | None => Ok g end.
(** 2578-2583 take_average. *)
Definition take_average (g : sgrid) : sgrid := map (fun x => (fst x, ((fst (snd x) / inject_Z (snd (snd x)))%Q, snd (snd x)))) g.

(** range(-s, s + 1). *)
Definition around (s : Z) : list Z := map (fun k => Z.of_nat k - s) (seq 0 (Z.to_nat (2 * s + 1))).

Section Buddy.
(** int(xspan / math.cos((89.5 - yindex) * radcon)), Extended_IMMA.py:2597-2604; modelled over the reals in
    M_BuddyR. *)
Variable xspan : Z -> Z -> Z.

(** 2613-2624: the cells visited, in order. *)
Definition visited (radius : Z * Z * Z) (c : cell) : list cell :=
  let '(sx, sy, sp) := radius in
  let '(x, y, p) := c in
  flat_map (fun dx => flat_map (fun dy => flat_map (fun dp =>
      if (dx =? 0) && (dy =? 0) && (dp =? 0) then [] else [((x + dx) mod 360, (y + dy) mod 180, (p + dp) mod 73)])
    (around sp)) (around sy)) (around (xspan sx y)).
(** Extended_IMMA.py:2585-2626 get_neighbour_anomalies: mean and number of the occupied cells visited.  The
    search radius has three elements. *)
Definition get_neighbour_anomalies (g : sgrid) (radius : Z * Z * Z) (c : cell) : list (Q * Z) :=
  flat_map (fun c' => match g_find c' g with Some x => [x] | None => [] end) (visited radius c).

Definition sumz (l : list Z) : Z := fold_left Z.add l 0.
(** A missing or negative standard deviation is replaced by 1 (2643-2644 and the like). *)
Definition sd_or_1 (x : option Q) : Q := match x with Some s => if Qltb s 0 then 1%Q else s | None => 1%Q end.

(** 2646-2664: the first limit with neighbours decides (later ones are searched without effect). *)
Fixpoint limits_loop (g : sgrid) (c : cell) (stdev : Q) (limits : list (Z * Z * Z)) (thresholds : list (list Z)) (mults : list (list Q)) (j : Z)
  : res (Q * Q) :=
  match limits with
  | [] => Ok (0%Q, 500%Q)
  | radius :: limits' =>
      match get_neighbour_anomalies g radius c with
      | [] => limits_loop g c stdev limits' thresholds mults (j + 1)
      | l =>
          let total := sumz (map snd l) in
          let! th := py_nth thresholds j in
          let! mu := py_nth mults j in
          let! m := get_threshold_multiplier total th mu in
          Ok (num (np_mean (map fst l)), (m * stdev)%Q)
      end
  end.
(** One cell of get_buddy_limits_with_parameters. *)
Definition cell_limits (sd : clim) (limits : list (Z * Z * Z)) (thresholds : list (list Z)) (mults : list (list Q)) (g : sgrid) (c : cell) : res (Q * Q) :=
  let '(x, y, p) := c in
  let! (m, d) := pentad_to_month_day (p + 1) in
  let! s := get_value_mds_style sd ((179 # 2) - inject_Z y) (- (359 # 2) + inject_Z x) m d in
  limits_loop g c (sd_or_1 s) limits thresholds mults 0.
Fixpoint all_cells (one : cell -> res (Q * Q)) (g : sgrid) : res (list (cell * (Q * Q))) :=
  match g with
  | [] => Ok []
  | (c, _) :: g' => let! b := one c in let! l := all_cells one g' in Ok ((c, b) :: l)
  end.
(** Extended_IMMA.py:2628-2668 get_buddy_limits_with_parameters: buddy mean and standard deviation of the
    occupied cells. *)
Definition get_buddy_limits_with_parameters (sd : clim) (limits : list (Z * Z * Z)) (thresholds : list (list Z)) (mults : list (list Q)) (g : sgrid) :=
  all_cells (cell_limits sd limits thresholds mults g) g.

(** 2670-2774 get_buddy_limits: the same with four fixed steps. *)
Definition old_limits : list (Z * Z * Z) := [(1, 1, 2); (2, 2, 2); (1, 1, 4); (2, 2, 4)].
Definition old_thresholds : list (list Z) := [[0; 5; 15; 100]; [0]; [0; 5; 15; 100]; [0]].
Definition old_multipliers : list (list Q) := [[4; 7 # 2; 3; 5 # 2]; [4]; [4; 7 # 2; 3; 5 # 2]; [4]]%Q.
Fixpoint old_loop (g : sgrid) (c : cell) (stdev : Q) (steps : list ((Z * Z * Z) * (list Z * list Q))) : res (Q * Q) :=
  match steps with
  | [] => Ok (0%Q, 500%Q)
  | (radius, (th, mu)) :: steps' =>
      match get_neighbour_anomalies g radius c with
      | [] => old_loop g c stdev steps'
      | l =>
          let total := sumz (map snd l) in
          let! m := get_threshold_multiplier total th mu in
          assert! negb (total =? 0);
          Ok (num (np_mean (map fst l)), (m * stdev)%Q)
      end
  end.
Definition old_cell_limits (sd : clim) (g : sgrid) (c : cell) : res (Q * Q) :=
  let '(x, y, p) := c in
  let! (m, d) := pentad_to_month_day (p + 1) in
  let! s := get_value_mds_style sd ((179 # 2) - inject_Z y) (- (359 # 2) + inject_Z x) m d in
  old_loop g c (sd_or_1 s) (combine old_limits (combine old_thresholds old_multipliers)).
Definition get_buddy_limits (sd : clim) (g : sgrid) := all_cells (old_cell_limits sd g) g.

(** math.sqrt of a non-negative number (a negative one is a ValueError). *)
Variable sq : Q -> Q.
(** 2831-2841: the variance of the neighbour average. *)
Definition buddy_noise (sigma_m noise sd2 : Q) (ns : list Z) : Q :=
  fold_left (fun tot n => tot + sigma_m * sigma_m / inject_Z n + noise * (sd2 * sd2 / inject_Z n))%Q ns 0%Q.
Definition new_cell_limits (sd1 sd2 sd3 : clim) (radius : Z * Z * Z) (sigma_m noise : Q) (g : sgrid) (c : cell) : res (Q * Q) :=
  let '(x, y, p) := c in
  let! (m, d) := pentad_to_month_day (p + 1) in
  let la := ((179 # 2) - inject_Z y)%Q in
  let lo := (- (359 # 2) + inject_Z x)%Q in
  let! s1 := get_value sd1 la lo m d in
  let! s2 := get_value sd2 la lo m d in
  let! s3 := get_value sd3 la lo m d in
  let s1 := sd_or_1 s1 in let s2 := sd_or_1 s2 in let s3 := sd_or_1 s3 in
  match get_neighbour_anomalies g radius c with
  | [] => Ok (0%Q, 500%Q)
  | l =>
      let ntot := inject_Z (Z.of_nat (length l)) in
      let sigma_buddy := (buddy_noise sigma_m noise s2 (map snd l) / (ntot * ntot) + s3 * s3 / ntot)%Q in
      let var := (sigma_m * sigma_m + s1 * s1 + noise * (s2 * s2) + sigma_buddy)%Q in
      if Qltb var 0 then Err ValueError else Ok (num (np_mean (map fst l)), sq var)
  end.
(** Extended_IMMA.py:2776-2853 get_new_buddy_limits. *)
Definition get_new_buddy_limits (sd1 sd2 sd3 : clim) (radius : Z * Z * Z) (sigma_m noise : Q) (g : sgrid) :=
  all_cells (new_cell_limits sd1 sd2 sd3 radius sigma_m noise g) g.

(** 2855-2889 get_buddy_mean and get_buddy_stdev: cells without observations hold 0.  An index beyond the
    array is an IndexError; the indices of a report that was added to the grid are in range. *)
Definition get_buddy (b : list (cell * (Q * Q))) (lat lon : option Q) (month day : option Z) : res (Q * Q) :=
  let! c := cell_of lat lon month day in
  let '(x, y, p) := c in
  if (x <? 360) && (y <? 180) && (p <? 73) then Ok (match g_find c b with Some v => v | None => (0%Q, 0%Q) end) else Err IndexError.

(** 3010-3014, 3080-3084: the reports that pass the filter, gridded. *)
Fixpoint grid_reports (f : qc_filter) (intype : string) (l : list report) (g : sgrid) : res sgrid :=
  match l with
  | [] => Ok g
  | r :: l' =>
      if test_report f r =? 0 then
        let! g := add_rep (lat r) (lon r) (getint r "MO") (getint r "DY") (getanom r intype) g in
        grid_reports f intype l' g
      else grid_reports f intype l' g
  end.
(** 3022-3042: the flags.  A missing anomaly is a TypeError of the subtraction (after the grid lookups). *)
Fixpoint flag_reports (f : qc_filter) (intype flag : string) (verdict : Q -> Q * Q -> res Z) (b : list (cell * (Q * Q))) (l : list report) : res (list report) :=
  match l with
  | [] => Ok []
  | r :: l' =>
      let! r' :=
        (if test_report f r =? 0 then
           let! v := get_buddy b (lat r) (lon r) (getint r "MO") (getint r "DY") in
           match getanom r intype with
           | None => Err TypeError
           | Some x => let! q := verdict x v in set_qc r intype flag q
           end
         else set_qc r intype flag 0) in
      let! l'' := flag_reports f intype flag verdict b l' in Ok (r' :: l'')
  end.
(** Extended_IMMA.py:2991-3046 mds_buddy_check: the reports of the deck afterwards. *)
Definition mds_buddy_check (intype : string) (sd : clim) (limits : list (Z * Z * Z)) (thresholds : list (list Z)) (mults : list (list Q)) (f : qc_filter) (l : list report)
  : res (list report) :=
  assert! mem intype ["SST"; "AT"; "DPT"; "SLP"];
  let! g := grid_reports f intype l [] in
  let g := take_average g in
  let! b := get_buddy_limits_with_parameters sd limits thresholds mults g in
  flag_reports f intype "bud" (fun x v => Ok (if Qleb (snd v) (Qabs' (x - fst v)) then 1 else 0)) b l.

(** 3097-3108: the probability of a gross error is an argument (see M_Bayes); None is its AssertionError.
    Python's p_gross also raises for a missing anomaly: comparing None with r_lo fails its assertion rather
    than raising TypeError. *)
Variable p_gross : Q -> Q -> Q -> option Q.
Definition bayes_flag (x : Q) (v : Q * Q) : res Z :=
  match p_gross x (fst v) (snd v) with
  | None => Err AssertionError
  | Some ppp => Ok (if Qltb 0 ppp then let flag := Qfloor (ppp * 10) in if 9 <? flag then 9 else flag else 0)
  end.
(** Extended_IMMA.py:3048-3116 bayesian_buddy_check. *)
Definition bayesian_buddy_check (intype : string) (sd1 sd2 sd3 : clim) (radius : Z * Z * Z) (sigma_m noise : Q) (f : qc_filter) (l : list report)
  : res (list report) :=
  assert! mem intype ["SST"; "AT"];
  let! g := grid_reports f intype l [] in
  let g := take_average g in
  let! b := get_new_buddy_limits sd1 sd2 sd3 radius sigma_m noise g in
  flag_reports f intype "bbud" bayes_flag b l.
End Buddy.
