(** Model of Voyage (Extended_IMMA.py:1466-2281): kinematics, saturation, rounding, repeated values,
    IQUAM track check and spike check.  No proofs here.
    A voyage is the list of its reports.  The methods change the reports in place: here they return the
    new list. *)
Require Import String ZArith QArith Qround List Bool.
Require Import Verif.M_Base Verif.M_Calendar Verif.M_Checks Verif.M_Report.
Import ListNotations.
Open Scope string_scope.
Open Scope list_scope.
Open Scope Z_scope.

(** Oracle for spherical_geometry.py: great-circle distance in km (12-35), initial course (111-170),
    point reached from a point with a course and a distance (80-108), point at a fraction of the way
    (173-215, after its assertion).  Theorems quantify over it; M_Sphere models the formulas over the reals. *)
Record sphere := {
  sp_dist : Q -> Q -> Q -> Q -> Q; sp_course : Q -> Q -> Q -> Q -> Q;
  sp_move : Q -> Q -> Q -> Q -> Q * Q; sp_mid : Q -> Q -> Q -> Q -> Q -> Q * Q }.

Section Voyage.
Variable sp : sphere.

(** time_difference between two reports (Extended_IMMA.py:490-493).  Simplification: when both hours are present and
    a date component is missing, the TypeError/AssertionError of jul_day is always TypeError here. *)
Definition rep_timediff (self other : report) : res (option Q) :=
  match getvar other "HR", getvar self "HR" with
  | Some h1, Some h2 =>
      match getint other "YR", getint other "MO", getint other "DY", getint self "YR", getint self "MO", getint self "DY" with
      | Some y1, Some m1, Some d1, Some y2, Some m2, Some d2 =>
          time_difference y1 m1 d1 (Some h1) y2 m2 d2 (Some h2)
      | _, _, _, _, _, _ => Err TypeError
      end
  | _, _ => Ok None
  end.

(** Extended_IMMA.py:480-503 __sub__: (speed, distance, course, timediff); a missing coordinate fails the
    assertions of angular_distance. *)
Definition rep_sub (self other : report) : res (Q * Q * Q * Q) :=
  match lat self, lon self, lat other, lon other with
  | Some la, Some lo, Some la', Some lo' =>
      let distance := sp_dist sp la lo la' lo' in
      let! timediff := rep_timediff self other in
      let course := sp_course sp la' lo' la lo in
      match timediff with
      | Some t => if Qeqb t 0 then Ok (distance, distance, course, 0%Q)
                  else Ok ((distance / t)%Q, distance, course, t)
      | None => Ok (distance, distance, course, 0%Q)
      end
  | _, _, _, _ => Err AssertionError
  end.

(** Extended_IMMA.py:1572-1583: the four ext fields set from a difference. *)
Definition set_motion (r : report) (m : option (Q * Q * Q * Q)) : report :=
  match m with
  | Some (speed, distance, course, timediff) =>
      setext (setext (setext (setext r "speed" (Some speed)) "course" (Some course)) "distance" (Some distance))
             "time_diff" (Some timediff)
  | None => setext (setext (setext (setext r "speed" None) "course" None) "distance" None) "time_diff" None
  end.

(** Extended_IMMA.py:1563-1583 add_report. *)
Definition add_report (v : list report) (r : report) : res (list report) :=
  match rev v with
  | [] => Ok [set_motion r None]
  | p :: _ => let! m := rep_sub r p in Ok (v ++ [set_motion r (Some m)])
  end.
(** A voyage filled report by report. *)
Fixpoint add_reports (v l : list report) : res (list report) :=
  match l with [] => Ok v | r :: l' => let! v' := add_report v r in add_reports v' l' end.

(** Extended_IMMA.py:1590-1597: motion recalculated from the second report on. *)
Fixpoint remotion (p : report) (l : list report) : res (list report) :=
  match l with
  | [] => Ok []
  | r :: l' => let! m := rep_sub r p in
               let r' := set_motion r (Some m) in
               let! rest := remotion r' l' in Ok (r' :: rest)
  end.
(** Extended_IMMA.py:1585-1597 sort. *)
Definition voyage_sort (v : list report) : res (list report) :=
  match sort_reports v with
  | [] => Ok []
  | r :: l => let! l' := remotion r l in Ok (r :: l')
  end.

(** Voyage.set_qc, Extended_IMMA.py:1534-1546. *)
Definition vset (v : list report) (i : nat) (t f : string) (x : Z) : res (list report) :=
  match nth_error v i with
  | None => Err IndexError
  | Some r => let! r' := set_qc r t f x in Ok (update_nth i r' v)
  end.
Fixpoint vset_list (v : list report) (l : list nat) (t f : string) (x : Z) : res (list report) :=
  match l with
  | [] => Ok v
  | i :: l' => let! v' := vset v i t f x in vset_list v' l' t f x
  end.
(** Report at a position. *)
Definition vget (v : list report) (i : nat) : res report :=
  match nth_error v i with None => Err IndexError | Some r => Ok r end.

(* ---- saturated runs, Extended_IMMA.py:1657-1702 ---- *)

(** 1679-1688 and 1694-1702: flag a run that is long enough in reports and hours. *)
Definition sat_flush (min_time : Q) (v : list report) (run : list nat) : res (list report) :=
  match run with
  | [] => Err IndexError
  | first :: _ =>
      let! a := vget v first in
      let! b := vget v (last run first) in
      let! (_, _, _, tdiff) := rep_sub b a in
      if Qleb min_time tdiff then vset_list v run "DPT" "repsat" 1 else Ok v
  end.
Definition longer (run : list nat) (shortest : Z) : bool := shortest <? Z.of_nat (length run).
(** 1669-1692 the loop over the reports: positions still to visit, current run. *)
Fixpoint sat_loop (min_time : Q) (shortest : Z) (todo : list nat) (v : list report) (run : list nat)
  : res (list report * list nat) :=
  match todo with
  | [] => Ok (v, run)
  | i :: todo' =>
      let! v := vset v i "DPT" "repsat" 0 in
      let! r := vget v i in
      if saturated r then sat_loop min_time shortest todo' v (run ++ [i])
      else if longer run shortest then
        let! v := sat_flush min_time v run in
        sat_loop min_time shortest todo' v []
      else sat_loop min_time shortest todo' v []
  end.
(** 1657-1702 find_saturated_runs. *)
Definition find_saturated_runs (min_time : Q) (shortest : Z) (v : list report) : res (list report) :=
  let! (v, run) := sat_loop min_time shortest (seq 0 (length v)) v [] in
  if longer run shortest then sat_flush min_time v run else Ok v.

(* ---- rounded and repeated values ---- *)

(** str(x) of a float prints 12 significant digits: two values share a dictionary key when they print
    alike.  [prt] is the value of the printed text (float(str(x))). *)
Variable prt : Q -> Q.

(** The dictionary from printed value to positions (1726-1733, 1778-1785). *)
Fixpoint tally_add (k : Q) (i : nat) (d : list (Q * list nat)) : list (Q * list nat) :=
  match d with
  | [] => [(k, [i])]
  | (k', l) :: d' => if Qeqb k' k then (k', l ++ [i]) :: d' else (k', l) :: tally_add k i d'
  end.
Fixpoint tally (name : string) (i : nat) (l : list report) (d : list (Q * list nat)) (allcount : Z) : list (Q * list nat) * Z :=
  match l with
  | [] => (d, allcount)
  | r :: l' =>
      match getvar r name with
      | None => tally name (S i) l' d allcount
      | Some x => tally name (S i) l' (tally_add (prt x) i d) (allcount + 1)
      end
  end.
Definition is_integer (q : Q) : bool := Qeqb (inject_Z (Qfloor q)) q.
Definition count_of (l : list nat) : Z := Z.of_nat (length l).
Fixpoint sum_counts (l : list (list nat)) : Z := match l with [] => 0 | x :: l' => count_of x + sum_counts l' end.

(** Extended_IMMA.py:1704-1750 find_multiple_rounded_values.  (allcount > min_count with a negative
    min_count and no values would divide by zero.) *)
Definition find_multiple_rounded_values (min_count : Z) (threshold : Q) (name : string) (v : list report) : res (list report) :=
  assert! mem name ["SST"; "AT"; "AT2"; "DPT"];
  assert! Qleb 0 threshold && Qleb threshold 1;
  let! v := set_qc_all v name "round" 0 in
  let (d, allcount) := tally name 0 v [] 0 in
  if min_count <? allcount then
    let whole := filter (fun kl => is_integer (fst kl)) d in
    if allcount =? 0 then Err ZeroDivisionError
    else if Qleb threshold (inject_Z (sum_counts (map snd whole)) / inject_Z allcount) then
      vset_list v (concat (map snd whole)) name "round" 1
    else Ok v
  else Ok v.

(** 1787-1795: the flags for one dictionary entry after another. *)
Fixpoint rep_loop (threshold : Q) (allcount : Z) (name : string) (d : list (Q * list nat)) (v : list report) : res (list report) :=
  match d with
  | [] => Ok v
  | (_, l) :: d' =>
      let! v := vset_list v l name "rep" (if Qltb threshold (inject_Z (count_of l) / inject_Z allcount) then 1 else 0) in
      rep_loop threshold allcount name d' v
  end.
(** Extended_IMMA.py:1752-1797 find_repeated_values. *)
Definition find_repeated_values (min_count : Z) (threshold : Q) (name : string) (v : list report) : res (list report) :=
  assert! mem name ["SST"; "AT"; "AT2"; "DPT"; "SLP"];
  assert! Qleb 0 threshold && Qleb threshold 1;
  let! v := set_qc_all v name "rep" 0 in
  let (d, allcount) := tally name 0 v [] 0 in
  if min_count <? allcount then rep_loop threshold allcount name d v else Ok v.

(* ---- IQUAM style removal: track check 2009-2083, spike check 2206-2281 ---- *)

(** list.remove: the first occurrence. *)
Fixpoint remove_first (i : nat) (l : list nat) : list nat :=
  match l with [] => [] | x :: l' => if Nat.eqb i x then l' else x :: remove_first i l' end.
Definition memn (i : nat) (l : list nat) : bool := existsb (Nat.eqb i) l.
(** np.argmax: the first position of the largest element. *)
Fixpoint argmax_from (best : nat) (bv : Z) (i : nat) (l : list Z) : nat :=
  match l with
  | [] => best
  | x :: l' => if bv <? x then argmax_from i x (S i) l' else argmax_from best bv (S i) l'
  end.
Definition np_argmax (l : list Z) : res nat :=
  match l with [] => Err ValueError | x :: l' => Ok (argmax_from 0 x 1 l') end.
Fixpoint zsum (l : list Z) : Z := match l with [] => 0 | x :: l' => x + zsum l' end.

(** 2075-2078 / 2272-2275: the inner loop over the violations of the removed report.  The loop runs over
    the list as it is at its start: exact as long as a report does not violate with itself. *)
Fixpoint drop_from (most : nat) (l : list nat) (viol : list (list nat)) (count : list Z) : res (list (list nat) * list Z) :=
  match l with
  | [] => Ok (viol, count)
  | i :: l' =>
      match nth_error viol i, nth_error count i with
      | Some vi, Some ci =>
          if memn most vi then drop_from most l' (update_nth i (remove_first most vi) viol) (update_nth i (ci - 1) count)
          else drop_from most l' viol count
      | _, _ => Err IndexError
      end
  end.
(** 2069-2081 / 2266-2278: the while loop, [fuel] iterations at most (running out is an error here). *)
Fixpoint removal_loop (t f : string) (fuel : nat) (viol : list (list nat)) (count : list Z) (v : list report) : res (list report) :=
  if 0 <? zsum count then
    match fuel with
    | O => Err OtherError
    | S fuel' =>
        let! most := np_argmax count in
        let! v := vset v most t f 1 in
        match nth_error viol most with
        | None => Err IndexError
        | Some vm =>
            let! (viol, count) := drop_from most vm viol count in
            removal_loop t f fuel' viol (update_nth most 0 count) v
        end
    end
  else Ok v.

(** range(max(0, t1 - n), min(numobs, t1 + n + 1)). *)
Definition neighbours (numobs t1 n : Z) : list nat :=
  let lo := Z.max 0 (t1 - n) in
  let hi := Z.min numobs (t1 + n + 1) in
  seq (Z.to_nat lo) (Z.to_nat (hi - lo)).

(** The positions of [l] that violate with the report at t1. *)
Fixpoint violations (test : report -> report -> res bool) (v : list report) (t1 : nat) (l : list nat) : res (list nat) :=
  match l with
  | [] => Ok []
  | t2 :: l' =>
      let! r1 := vget v t1 in
      let! r2 := vget v t2 in
      let! b := test r2 r1 in
      let! rest := violations test v t1 l' in
      Ok (if b then t2 :: rest else rest)
  end.
(** 2044-2067 / 2240-2264: the loop over all reports. *)
Fixpoint violation_table (test : report -> report -> res bool) (t f : string) (n : Z) (todo : list nat) (v : list report)
  : res (list (list nat) * list report) :=
  match todo with
  | [] => Ok ([], v)
  | t1 :: todo' =>
      let! v := vset v t1 t f 0 in
      let! l := violations test v t1 (neighbours (Z.of_nat (length v)) (Z.of_nat t1) n) in
      let! (rest, v) := violation_table test t f n todo' v in
      Ok (l :: rest, v)
  end.
Definition removal (test : report -> report -> res bool) (t f : string) (n : Z) (v : list report) : res (list report) :=
  let! (viol, v) := violation_table test t f n (seq 0 (length v)) v in
  removal_loop t f (length v) viol (map (fun l => Z.of_nat (length l)) viol) v.

(** 2055-2060: max([abs(distance) - delta_d, 0.0]) / (abs(time_diff) + delta_t) > speed_limit. *)
Definition iquam_test (speed_limit delta_d delta_t : Q) (r2 r1 : report) : res bool :=
  let! (_, distance, _, time_diff) := rep_sub r2 r1 in
  let den := (Qabs' time_diff + delta_t)%Q in
  if Qeqb den 0 then Err ZeroDivisionError
  else Ok (Qltb speed_limit (Qmax' (Qabs' distance - delta_d) 0 / den)).

(** PT in [6, 7]: is the first report from a buoy. *)
Definition pt_buoy (r : report) : bool := match getint r "PT" with Some p => (p =? 6) || (p =? 7) | None => false end.
(** id_is_generic on a report; the year bands never contain a missing year (Python 2 sorts None below every number). *)
Definition generic_report (r : report) : bool :=
  id_is_generic (r_id r) (match getint r "YR" with Some y => y | None => 0 end).

(** Extended_IMMA.py:2009-2083 iquam_track_check. *)
Record iquam_params := { iq_buoy : Q; iq_ship : Q; iq_d : Q; iq_t : Q; iq_n : Z }.
Definition iquam_track_check (p : iquam_params) (v : list report) : res (list report) :=
  match v with
  | [] => Ok []
  | r0 :: _ =>
      if generic_report r0 then vset_list v (seq 0 (length v)) "POS" "iquam_track" 0
      else
        let speed_limit := if pt_buoy r0 then iq_buoy p else iq_ship p in
        removal (iquam_test speed_limit (iq_d p) (iq_t p)) "POS" "iquam_track" (iq_n p) v
  end.

(** 2249-2262: the gradient test of the spike check. *)
Definition spike_test (name : string) (delta grad_space grad_time : Q) (r2 r1 : report) : res bool :=
  match getvar r2 name, getvar r1 name with
  | Some x2, Some x1 =>
      let! (_, distance, _, time_diff) := rep_sub r2 r1 in
      let cond := Qmax' (Qmax' delta (Qabs' distance * grad_space)) (Qabs' time_diff * grad_time) in
      Ok (Qltb cond (Qabs' (x2 - x1)))
  | _, _ => Ok false
  end.
(** Extended_IMMA.py:2206-2281 spike_check. *)
Record spike_params := { sk_space : Q; sk_time : Q; sk_ship : Q; sk_buoy : Q; sk_n : Z }.
Definition spike_check (p : spike_params) (name : string) (v : list report) : res (list report) :=
  match v with
  | [] => Ok []
  | r0 :: _ =>
      let delta := if pt_buoy r0 then sk_buoy p else sk_ship p in
      removal (spike_test name delta (sk_space p) (sk_time p)) name "spike" (sk_n p) v
  end.

End Voyage.
