(** Model of the drifter quality control (trackqc.py): aground, speed, tail and bias/noise checks.  The
    geometry, the solar elevation and the square root are arguments; float rounding is not modelled.  A
    parameter is assumed to be already of the type the int()/float() conversions give it.  No proofs here. *)
Require Import String ZArith QArith Qround List Bool.
Require Import Verif.M_Base Verif.M_Calendar Verif.M_Stats Verif.M_Report Verif.M_Voyage Verif.M_Track Verif.M_Sun.
Import ListNotations.
Open Scope string_scope.
Open Scope list_scope.
Open Scope Z_scope.

(* ---- reading the record ---- *)

(** A missing value stored in a float array is NaN, on which the following assertions fail. *)
Definition need (x : option Q) : res Q := match x with Some q => Ok q | None => Err AssertionError end.
(** [hrs[ind] = rep.getext('time_diff')] for ind > 0, not NaN and not negative. *)
Definition time_step (r : report) : res Q :=
  let! t := getext r "time_diff" in let! t := need t in assert! Qleb 0 t; Ok t.
Fixpoint cumsum (acc : Q) (l : list Q) : list Q :=
  match l with [] => [] | x :: l' => (acc + x)%Q :: cumsum (acc + x)%Q l' end.
(** trackqc.py:198-221, 345-368, 487-510, 603-626: latitudes, longitudes and hours since the first report. *)
Definition read_record (v : list report) : res (list Q * list Q * list Q) :=
  let! lons := mapM (fun r => need (getvar r "LON")) v in
  let! lats := mapM (fun r => need (getvar r "LAT")) v in
  let! steps := mapM time_step (tl v) in
  Ok (lats, lons, match v with [] => [] | _ => 0%Q :: cumsum 0 steps end).

(** np.median. *)
Definition np_median (l : list Q) : Q :=
  let s := qsort l in
  let n := length l in
  if Nat.even n then ((nth (n / 2 - 1) s 0 + nth (n / 2) s 0) / 2)%Q else nth (n / 2) s 0%Q.
(** trackqc.py:223-241, 370-388: running medians of positions, times of the window centres.  The lists have
    more than [win] elements; indices stay inside. *)
Definition smooth (win : nat) (l : list Q) : list Q :=
  map (fun i => np_median (firstn win (skipn i l))) (seq 0 (length l - win + 1)).
Definition smooth_times (win : nat) (l : list Q) : list Q := firstn (length l - win + 1) (skipn ((win - 1) / 2) l).

(** The loop shared by the four checks (trackqc.py:243-273, 390-412, 516-541, 648-677):
    [while time_to_end >= period: step(i); i += 1; time_to_end = hrs[-1] - hrs[i]].
    [step] does not change hrs; fuel exhaustion (OtherError) stands for a loop that does not end. *)
Fixpoint window_loop {S : Type} (hrs : list Q) (period : Q) (step : nat -> S -> res S) (fuel : nat) (i : nat) (tte : Q) (st : S) : res S :=
  if Qleb period tte then
    match fuel with
    | O => Err OtherError
    | Datatypes.S fuel' =>
        let! st := step i st in
        let! hl := py_nth hrs (-1) in
        let! hi := py_nth hrs (Z.of_nat (i + 1)) in
        window_loop hrs period step fuel' (i + 1) (hl - hi)%Q st
    end
  else Ok st.
Definition run_windows {S : Type} (hrs : list Q) (period : Q) (step : nat -> S -> res S) (st : S) : res S :=
  let! hl := py_nth hrs (-1) in
  let! h0 := py_nth hrs 0 in
  window_loop hrs period step (length hrs) 0 (hl - h0)%Q st.

(** Positions selected by a boolean array; [a[f][-1]] and [a[f][0]] raise IndexError if there is none. *)
Definition where_ (f : nat -> Q -> bool) (hrs : list Q) : list nat :=
  filter (fun i => f i (nth i hrs 0%Q)) (seq 0 (length hrs)).
Definition last_of (l : list nat) : res nat := match rev l with [] => Err IndexError | x :: _ => Ok x end.
Definition first_of (l : list nat) : res nat := match l with [] => Err IndexError | x :: _ => Ok x end.

(** Division of numpy floats. *)
Definition np_div (a b : Q) : xnum :=
  if Qeqb b 0 then (if Qeqb a 0 then NaN else if Qltb 0 a then PInf else NInf) else Fin (a / b)%Q.

Section Drifter.
Variable sp : sphere.

(* ---- aground ---- *)

(** sphere_distance(0, 0, 0.01, 0.01). *)
Definition tolerance : Q := sp_dist sp 0 0 (1 # 100) (1 # 100).

(** trackqc.py:250-270, the loop body. *)
Definition aground_step (lats lons hrs : list Q) (minh maxh : Q) (i : nat) (st : option nat) : res (option nat) :=
  let! hi := py_nth hrs (Z.of_nat i) in
  let! f := last_of (where_ (fun _ h => Qleb h (hi + maxh)%Q) hrs) in
  let! hf := py_nth hrs (Z.of_nat f) in
  if Qltb (hf - hi)%Q minh then Ok st
  else
    let! la := py_nth lats (Z.of_nat i) in let! lo := py_nth lons (Z.of_nat i) in
    let! la' := py_nth lats (Z.of_nat f) in let! lo' := py_nth lons (Z.of_nat f) in
    if Qleb (sp_dist sp la lo la' lo') tolerance then Ok (match st with Some _ => st | None => Some i end) else Ok None.
(** trackqc.py:396-410. *)
Definition new_aground_step (lats lons : list Q) (i : nat) (st : option nat) : res (option nat) :=
  let! la := py_nth lats (Z.of_nat i) in let! lo := py_nth lons (Z.of_nat i) in
  let! la' := py_nth lats (-1) in let! lo' := py_nth lons (-1) in
  if Qleb (sp_dist sp la lo la' lo') tolerance then Ok (match st with Some _ => st | None => Some i end) else Ok None.

(** trackqc.py:275-287, 412-424: flags of the reports from position i on. *)
Fixpoint set_from (start : option nat) (i : nat) (v : list report) : res (list report) :=
  match v with
  | [] => Ok []
  | r :: v' =>
      let! r := set_qc r "POS" "drf_agr" (match start with Some s => if (i <? s)%nat then 0 else 1 | None => 0 end) in
      let! v' := set_from start (S i) v' in Ok (r :: v')
  end.
Definition aground_start (half : nat) (st : option nat) : option nat :=
  match st with Some O => Some O | Some i => Some (i + half)%nat | None => None end.

(** trackqc.py:143-287 aground_check. *)
Definition aground_check (smooth_win min_win max_win : Z) (v : list report) : res (list report) :=
  assert! 1 <=? smooth_win;
  assert! negb (smooth_win mod 2 =? 0);
  assert! 1 <=? min_win;
  assert! 1 <=? max_win;
  assert! min_win <=? max_win;
  let half := Z.to_nat ((smooth_win - 1) / 2) in
  let minh := (inject_Z min_win * 24)%Q in
  let maxh := (inject_Z max_win * 24)%Q in
  if Z.of_nat (length v) <=? smooth_win then set_qc_all v "POS" "drf_agr" 0
  else
    let! (lats, lons, hrs) := read_record v in
    let win := Z.to_nat smooth_win in
    let lats := smooth win lats in
    let lons := smooth win lons in
    let hrs := smooth_times win hrs in
    let! st := run_windows hrs minh (aground_step lats lons hrs minh maxh) None in
    set_from (aground_start half st) 0 v.

(** trackqc.py:290-424 new_aground_check. *)
Definition new_aground_check (smooth_win min_win : Z) (v : list report) : res (list report) :=
  assert! 1 <=? smooth_win;
  assert! negb (smooth_win mod 2 =? 0);
  assert! 1 <=? min_win;
  let half := Z.to_nat ((smooth_win - 1) / 2) in
  let minh := (inject_Z min_win * 24)%Q in
  if Z.of_nat (length v) <=? smooth_win then set_qc_all v "POS" "drf_agr" 0
  else
    let! (lats, lons, hrs) := read_record v in
    let win := Z.to_nat smooth_win in
    let lats := smooth win lats in
    let lons := smooth win lons in
    let hrs := smooth_times win hrs in
    let! st := run_windows hrs minh (new_aground_step lats lons) None in
    set_from (aground_start half st) 0 v.

(* ---- speed ---- *)

(** trackqc.py:531-534, 667-670: [for ix in range(i, f + 1): if flag is 0: set it to 1]. *)
Fixpoint raise_flags (todo : list nat) (v : list report) : res (list report) :=
  match todo with
  | [] => Ok v
  | i :: todo' =>
      let! r := vget v i in
      let! v := if get_qc r "POS" "drf_spd" =? 0 then vset v i "POS" "drf_spd" 1 else Ok v in
      raise_flags todo' v
  end.
(** 526-530: metres per second above the limit. *)
Definition over_speed (speed_limit displace win_len : Q) : bool :=
  x_ltb (Fin speed_limit) (match np_div displace win_len with Fin s => Fin (s * 1000 / (60 * 60))%Q | x => x end).

(** trackqc.py:520-541. *)
Definition speed_step (lats lons hrs : list Q) (speed_limit minh maxh : Q) (i : nat) (v : list report) : res (list report) :=
  let! hi := py_nth hrs (Z.of_nat i) in
  let! f := last_of (where_ (fun _ h => Qleb h (hi + maxh)%Q) hrs) in
  let! hf := py_nth hrs (Z.of_nat f) in
  if Qltb (hf - hi)%Q minh then Ok v
  else
    let! la := py_nth lats (Z.of_nat i) in let! lo := py_nth lons (Z.of_nat i) in
    let! la' := py_nth lats (Z.of_nat f) in let! lo' := py_nth lons (Z.of_nat f) in
    if over_speed speed_limit (sp_dist sp la lo la' lo') (hf - hi)%Q then raise_flags (seq i (f + 1 - i)) v else Ok v.

(** trackqc.py:427-541 speed_check. *)
Definition speed_check (speed_limit min_win max_win : Q) (v : list report) : res (list report) :=
  assert! Qleb 0 speed_limit;
  assert! Qleb 0 min_win;
  assert! Qleb 0 max_win;
  assert! Qleb min_win max_win;
  let minh := (min_win * 24)%Q in
  let maxh := (max_win * 24)%Q in
  if (length v <=? 1)%nat then set_qc_all v "POS" "drf_spd" 0
  else
    let! (lats, lons, hrs) := read_record v in
    let! v := set_qc_all v "POS" "drf_spd" 0 in
    run_windows hrs minh (speed_step lats lons hrs speed_limit minh maxh) v.

(** trackqc.py:628-643: the IQUAM flags the record gets as a ship, computed on a copy. *)
Fixpoint as_ships (l : list report) : res (list report) :=
  match l with
  | [] => Ok []
  | r :: l' =>
      let! r := setvar r "PT" (Some 5%Q) in let! r := set_qc r "POS" "iquam_track" 0 in
      let! l' := as_ships l' in Ok (r :: l')
  end.
Definition ship_flags (p : iquam_params) (v : list report) : res (list Z) :=
  let! ships := as_ships v in
  let! ships := add_reports sp [] ships in
  let! ships := iquam_track_check sp p ships in
  Ok (map (fun r => get_qc r "POS" "iquam_track") ships).

(** trackqc.py:652-677. *)
Definition new_speed_step (lats lons hrs : list Q) (ship : list Z) (speed_limit minh : Q) (i : nat) (v : list report) : res (list report) :=
  let! s := py_nth ship (Z.of_nat i) in
  if s =? 1 then Ok v
  else
    let! hi := py_nth hrs (Z.of_nat i) in
    match where_ (fun j h => Qleb (hi + minh)%Q h && (nth j ship 1 =? 0)) hrs with
    | [] => Ok v
    | f :: _ =>
        let! hf := py_nth hrs (Z.of_nat f) in
        let! la := py_nth lats (Z.of_nat i) in let! lo := py_nth lons (Z.of_nat i) in
        let! la' := py_nth lats (Z.of_nat f) in let! lo' := py_nth lons (Z.of_nat f) in
        if over_speed speed_limit (sp_dist sp la lo la' lo') (hf - hi)%Q then raise_flags (seq i (f + 1 - i)) v else Ok v
    end.

(** trackqc.py:544-677 new_speed_check. *)
Definition new_speed_check (p : iquam_params) (speed_limit min_win : Q) (v : list report) : res (list report) :=
  assert! Qleb 0 speed_limit;
  assert! Qleb 0 min_win;
  let minh := (min_win * 24)%Q in
  if (length v <=? 1)%nat then set_qc_all v "POS" "drf_spd" 0
  else
    let! (lats, lons, hrs) := read_record v in
    let! ship := ship_flags p v in
    let! v := set_qc_all v "POS" "drf_spd" 0 in
    run_windows hrs minh (new_speed_step lats lons hrs ship speed_limit minh) v.

(* ---- comparison with the background ---- *)

Variable elev : Z -> Z -> Q -> Q -> Q -> Q -> Q.
(** np.sqrt. *)
Variable sq : Q -> Q.

(** trackqc.py:759-791, 975-1005: the position, anomaly and background variance of the observations made at
    night, away from ice and with a background value; [masked] observations are left out as well.  A missing
    SST raises TypeError. *)
Definition assess (mask : option Q -> bool) (ind : nat) (r : report) : res (option (Q * Q)) :=
  let! bg := getext r "OSTIA" in
  let! ice := getext r "ICE" in
  let! bgvar := getext r "BGVAR" in
  let ice := match ice with Some x => x | None => 0%Q end in
  assert! Qleb 0 ice && Qleb ice 1;
  let! daytime := track_day_test elev (getint r "YR") (getint r "MO") (getint r "DY") (getvar r "HR") (getvar r "LAT") (getvar r "LON") (- (5 # 2))%Q in
  let! _ := (if (0 <? ind)%nat then let! t := getext r "time_diff" in py_assert (match t with Some t => Qleb 0 t | None => false end) else Ok tt) in
  if daytime || (match bg with None => true | Some _ => false end) || Qltb (15 # 100) ice || mask bgvar then Ok None
  else
    match bg with
    | Some bg =>
        assert! Qleb (-5) bg && Qleb bg 45;
        match bgvar with
        | Some bgvar =>
            assert! Qleb 0 bgvar && Qleb bgvar 10;
            match getvar r "SST" with Some sst => Ok (Some ((sst - bg)%Q, bgvar)) | None => Err TypeError end
        | None => Err AssertionError
        end
    | None => Err AssertionError
    end.
Fixpoint assess_all (mask : option Q -> bool) (ind : nat) (v : list report) : res (list (nat * (Q * Q))) :=
  match v with
  | [] => Ok []
  | r :: v' =>
      let! a := assess mask ind r in
      let! l := assess_all mask (S ind) v' in
      Ok (match a with Some x => (ind, x) :: l | None => l end)
  end.

(** A numpy mean or variance as a number; the arrays are not empty where it is used. *)
Definition num (x : xnum) : Q := match x with Fin q => q | _ => 0%Q end.

Record tail_params := { tl_long : Z; tl_long_n : Q; tl_short : Z; tl_short_n : Q; tl_bad : Z; tl_inter : Q; tl_intra : Q; tl_lim : Q }.

(** np.any(bgerr_winvals > np.sqrt(background_err_lim)). *)
Definition unreliable (lim : Q) (errs : list Q) : bool := existsb (fun e => Qltb (sq lim) e) errs.
(** trackqc.py:819-838: the long window fails (true), or the scan stops. *)
Definition long_fails (p : tail_params) (anoms errs : list Q) : bool :=
  if unreliable (tl_lim p) errs then false
  else
    let avg := num (trim_mean anoms 100) in
    let stdev := sq (num (trim_var anoms 100)) in
    let bg_avg := num (np_mean errs) in
    let bg_rms := sq (num (np_mean (map (fun e => e * e)%Q errs))) in
    Qltb (tl_long_n p * sq (tl_inter p * tl_inter p + bg_avg * bg_avg))%Q (Qabs' avg)
    || Qltb (sq (tl_intra p * tl_intra p + bg_rms * bg_rms)%Q) stdev.
(** 856-866. *)
Definition exceeds (n inter intra : Q) (a e : Q) : bool :=
  let limit := (n * sq (e * e + inter * inter + intra * intra))%Q in Qltb limit a || Qltb a (- limit).
Definition count_exceeds (n inter intra : Q) (anoms errs : list Q) : Z :=
  Z.of_nat (length (filter (fun x => exceeds n inter intra (fst x) (snd x)) (combine anoms errs))).
Definition short_fails (p : tail_params) (anoms errs : list Q) : bool :=
  if unreliable (tl_lim p) errs then false
  else tl_bad p <=? count_exceeds (tl_short_n p) (tl_inter p) (tl_intra p) anoms errs.

(** [for ix in range(k): if the window at ix fails: go on, else: break]; the number of windows passed over. *)
Fixpoint failing_run (fails : nat -> bool) (ix todo : nat) : nat :=
  match todo with
  | O => O
  | S todo' => if fails ix then S (failing_run fails (S ix) todo') else O
  end.
Definition window (w ix : nat) (l : list Q) : list Q := firstn w (skipn ix l).

(** 803-838: index where the start tail stops and where the end tail starts, after the long check. *)
Definition long_tails (p : tail_params) (anoms errs : list Q) : Z * Z :=
  let n := length anoms in
  let w := Z.to_nat (tl_long p) in
  let mid := (tl_long p - 1) / 2 in
  if Z.of_nat n <? tl_long p then (-1, Z.of_nat n)
  else
    let fwd := failing_run (fun ix => long_fails p (window w ix anoms) (window w ix errs)) 0 (n - w + 1) in
    let bwd := failing_run (fun ix => long_fails p (window w ix (rev anoms)) (window w ix (rev errs))) 0 (n - w + 1) in
    (match fwd with O => -1 | S k => Z.of_nat k + mid end,
     match bwd with O => Z.of_nat n | S k => Z.of_nat n - 1 - Z.of_nat k - mid end).
(** The amount start_tail_ind is increased by (and end_tail_ind decreased by): one for each failing window,
    short_win_len for the last possible one. *)
Definition short_step (fails : nat) (windows w : nat) : Z :=
  if (fails =? windows)%nat then match fails with O => 0 | S k => Z.of_nat k + Z.of_nat w end else Z.of_nat fails.
(** 840-879: the short check; AssertionError if nothing is left. *)
Definition short_tails (p : tail_params) (anoms errs : list Q) (start finish : Z) : res (Z * Z) :=
  if finish <=? start then Ok (start, finish)
  else
    let first := start + 1 in
    let last := finish - 1 in
    let npass := last - first + 1 in
    assert! 0 <? npass;
    if npass <? tl_short p then Ok (start, finish)
    else
      let w := Z.to_nat (tl_short p) in
      let anoms := py_slice anoms first (last + 1) in
      let errs := py_slice errs first (last + 1) in
      let windows := Z.to_nat (npass - tl_short p + 1) in
      let fwd := failing_run (fun ix => short_fails p (window w ix anoms) (window w ix errs)) 0 windows in
      let bwd := failing_run (fun ix => short_fails p (window w ix (rev anoms)) (window w ix (rev errs))) 0 windows in
      Ok (start + short_step fwd windows w, finish - short_step bwd windows w).

(** 883-891: flags from one side of a position on. *)
Fixpoint flag_where (test : nat -> bool) (flag : string) (i : nat) (v : list report) : res (list report) :=
  match v with
  | [] => Ok []
  | r :: v' =>
      let! r := (if test i then set_qc r "SST" flag 1 else Ok r) in
      let! v' := flag_where test flag (S i) v' in Ok (r :: v')
  end.

(** trackqc.py:680-893 sst_tail_check. *)
Definition sst_tail_check (p : tail_params) (v : list report) : res (list report) :=
  assert! 1 <=? tl_long p;
  assert! negb (tl_long p mod 2 =? 0);
  assert! Qleb 0 (tl_long_n p);
  assert! 1 <=? tl_short p;
  assert! Qleb 0 (tl_short_n p);
  assert! 1 <=? tl_bad p;
  assert! Qleb 0 (tl_inter p);
  assert! Qleb 0 (tl_intra p);
  assert! Qleb 0 (tl_lim p);
  let! obs := assess_all (fun _ => false) 0 v in
  let! v := set_qc_all v "SST" "drf_tail1" 0 in
  let! v := set_qc_all v "SST" "drf_tail2" 0 in
  match obs with
  | [] => Ok v
  | _ =>
      let inds := map fst obs in
      let anoms := map (fun x => fst (snd x)) obs in
      let errs := map (fun x => sq (snd (snd x))) obs in
      let n := Z.of_nat (length obs) in
      let (start, finish) := long_tails p anoms errs in
      let! (start, finish) := short_tails p anoms errs start finish in
      let (start, finish) := if finish <=? start then (-1, n) else (start, finish) in
      let! v := (if start =? -1 then Ok v
                 else let! k := py_nth inds start in flag_where (fun i => (i <=? k)%nat) "drf_tail1" 0 v) in
      if finish =? n then Ok v
      else let! k := py_nth inds finish in flag_where (fun i => (k <=? i)%nat) "drf_tail2" 0 v
  end.

(* ---- bias and noise ---- *)

Record bias_params := { bs_eval : Z; bs_lim : Q; bs_intra : Q; bs_inter : Q; bs_n : Q; bs_bad : Z; bs_bg : Q }.

(** trackqc.py:896-1048 sst_biased_noisy_check. *)
Definition sst_biased_noisy_check (p : bias_params) (v : list report) : res (list report) :=
  assert! 0 <? bs_eval p;
  assert! Qleb 0 (bs_lim p);
  assert! Qleb 0 (bs_intra p);
  assert! Qleb 0 (bs_inter p);
  assert! Qleb 0 (bs_n p);
  assert! 1 <=? bs_bad p;
  assert! Qleb 0 (bs_bg p);
  let masked := fun b => match b with Some x => Qltb (bs_bg p) x | None => false end in
  let! obs := assess_all masked 0 v in
  let is_masked := existsb (fun r => match getext r "BGVAR" with Ok b => masked b | Err _ => false end) v in
  let! v := set_qc_all v "SST" "drf_bias" 0 in
  let! v := set_qc_all v "SST" "drf_noise" 0 in
  let! v := set_qc_all v "SST" "drf_short" 0 in
  match obs with
  | [] => Ok v
  | _ =>
      let anoms := map (fun x => fst (snd x)) obs in
      let errs := map (fun x => sq (snd (snd x))) obs in
      if bs_eval p <=? Z.of_nat (length obs) then
        let rms := sq (num (np_mean (map (fun e => e * e)%Q errs))) in
        let! v := (if Qltb (bs_lim p) (Qabs' (num (np_mean anoms))) then set_qc_all v "SST" "drf_bias" 1 else Ok v) in
        if Qltb (sq (bs_intra p * bs_intra p + rms * rms)%Q) (sq (num (np_var anoms))) then set_qc_all v "SST" "drf_noise" 1 else Ok v
      else if is_masked then Ok v
      else if bs_bad p <=? count_exceeds (bs_n p) (bs_inter p) (bs_intra p) anoms errs then set_qc_all v "SST" "drf_short" 1 else Ok v
  end.
End Drifter.
