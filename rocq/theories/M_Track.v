(** Model of the MDS track check: track_check.py and Voyage.track_check (Extended_IMMA.py:1599-1646,
    1836-2007, 2085-2204).  No proofs here.  The great-circle formulas are the oracle [sphere]; floats are
    exact rationals. *)
Require Import String ZArith QArith Qround List Bool.
Require Import Verif.M_Base Verif.M_Checks Verif.M_Report Verif.M_Voyage.
Import ListNotations.
Open Scope string_scope.
Open Scope list_scope.
Open Scope Z_scope.

(** track_check.py:42 (and repeated in every function). *)
Definition km_to_nm : Q := 539957 # 1000000.

(** [x > y] where x may be None: Python 2 sorts None below every number. *)
Definition gt_opt (x : option Q) (y : Q) : bool := match x with Some q => Qltb y q | None => false end.

Fixpoint mapM {A B} (f : A -> res B) (l : list A) : res (list B) :=
  match l with [] => Ok [] | x :: l' => let! y := f x in let! ys := mapM f l' in Ok (y :: ys) end.

(* ---- modal speed and limits ---- *)

(** track_check.py:54-61: the histogram; a missing speed is a TypeError. *)
Definition speed_bin (s : Q) : nat := Z.to_nat (Z.max 0 (Z.min 11 (Qfloor (km_to_nm * s / 3)))).
Fixpoint histogram (l : list (option Q)) (freq : list Z) : res (list Z) :=
  match l with
  | [] => Ok freq
  | None :: _ => Err TypeError
  | Some s :: l' => histogram l' (update_nth (speed_bin s) (nth (speed_bin s) freq 0 + 1) freq)
  end.
(** track_check.py:63-67: the first bin with the highest count. *)
Fixpoint top_bin (freq : list Z) (index : nat) (best : nat) (ikmode : Z) : nat :=
  match freq with
  | [] => best
  | f :: freq' => if ikmode <? f then top_bin freq' (S index) index f else top_bin freq' (S index) best ikmode
  end.
(** track_check.py:17-79 modesp. *)
Definition modesp (awork : list (option Q)) : res (option Q) :=
  match awork with
  | _ :: s :: l =>
      let! freq := histogram (s :: l) (repeat 0 12) in
      let atmode := (inject_Z (Z.of_nat (top_bin freq 0 0 (-32768)) + 1) * 3 - (3 # 2))%Q in
      let amode := if Qleb atmode (17 # 2) then (17 # 2)%Q else atmode in
      Ok (Some (amode / km_to_nm)%Q)
  | _ => Ok None
  end.

(** track_check.py:82-107 set_speed_limits: (amax, amaxx, amin). *)
Definition set_speed_limits (amode : option Q) : Q * Q * Q :=
  let slow := (15 / km_to_nm, 20 / km_to_nm, 0 / km_to_nm)%Q in
  match amode with
  | Some a => if Qleb a ((851 # 100) / km_to_nm) then slow else (a * (5 # 4), 30 / km_to_nm, a * (3 # 4))%Q
  | None => slow
  end.

(* ---- consistency of the reported speed and heading ---- *)

(** [dsi in [0, 45, ..., 360, None]]. *)
Definition heading_ok (d : option Q) : bool :=
  match d with None => true | Some q => existsb (fun x => Qeqb x q) [0; 45; 90; 135; 180; 225; 270; 315; 360]%Q end.
(** track_check.py:338-369 direction_continuity (10.0 is true). *)
Definition direction_continuity (dsi dsi_previous ship_directions : option Q) (max_direction_change : Q) : res bool :=
  assert! heading_ok dsi;
  assert! heading_ok dsi_previous;
  match dsi, dsi_previous, ship_directions with
  | Some a, Some b, Some c =>
      let off x := Qltb max_direction_change (Qabs' (x - c)) && Qltb (Qabs' (x - c)) (360 - max_direction_change) in
      Ok (off a || off b)
  | _, _, _ => Ok false
  end.
(** track_check.py:372-398 speed_continuity. *)
Definition speed_continuity (vsi vsi_previous speeds : option Q) (max_speed_change : Q) : bool :=
  match vsi, vsi_previous, speeds with
  | Some a, Some b, Some s =>
      Qltb (max_speed_change / km_to_nm) (Qabs' (a / km_to_nm - s)) && Qltb (max_speed_change / km_to_nm) (Qabs' (b / km_to_nm - s))
  | _, _, _ => false
  end.
(** track_check.py:401-437 check_distance_from_estimate: [None > 0] is False. *)
Definition check_distance_from_estimate (vsi vsi_previous time_differences fwd rev : option Q) : bool :=
  match vsi, vsi_previous, time_differences with
  | Some a, Some b, Some t =>
      if Qltb 0 a && Qltb 0 b && Qltb 0 t then
        let alwdis := (t * ((a + b) / 2) / km_to_nm)%Q in
        gt_opt fwd alwdis && gt_opt rev alwdis
      else false
  | _, _, _ => false
  end.

Section Track.
Variable sp : sphere.

(** track_check.py:110-137 increment_position: displacement after half the time, with a given time. *)
Definition increment_position (alat1 alon1 avs ads timdif : Q) : Q * Q :=
  let (lat, lon) := sp_move sp alat1 alon1 ads (avs * timdif / 2) in ((lat - alat1)%Q, (lon - alon1)%Q).

(** The arguments of the position estimates: LAT, LON, vsi, dsi of a report.  A missing LAT or LON is a
    TypeError in the arithmetic, a missing vsi or dsi gives no estimate. *)
Definition fix_of (r : report) : res (Q * Q) :=
  match getvar r "LAT", getvar r "LON" with Some la, Some lo => Ok (la, lo) | _, _ => Err TypeError end.

(** track_check.py:169-202 (same as Extended_IMMA.py:1857-1890): the entry of distr1 for a report [cur] and
    its predecessor. *)
Definition forward_entry (prev cur : report) : res (option Q) :=
  match getvar cur "vsi", getvar prev "vsi", getvar cur "dsi", getvar prev "dsi", getvar cur "time_diff" with
  | Some vc, Some vp, Some dc, Some dp, Some t =>
      let! (lap, lop) := fix_of prev in
      let! (lac, loc) := fix_of cur in
      let (lat1, lon1) := increment_position lap lop (vp / km_to_nm) dp t in
      let (lat2, lon2) := increment_position lac loc (vc / km_to_nm) dc t in
      Ok (Some (sp_dist sp lac loc (lap + lat1 + lat2) (lop + lon1 + lon2)))
  | _, _, _, _, _ => Ok None
  end.
(** track_check.py:239-271 (same as Extended_IMMA.py:1919-1951): the entry of distr2. *)
Definition reverse_entry (prev cur : report) : res (option Q) :=
  match getvar cur "vsi", getvar prev "vsi", getvar cur "dsi", getvar prev "dsi", getvar cur "time_diff" with
  | Some vc, Some vp, Some dc, Some dp, Some t =>
      let! (lap, lop) := fix_of prev in
      let! (lac, loc) := fix_of cur in
      let (lat1, lon1) := increment_position lac loc (vc / km_to_nm) (dc - 180) t in
      let (lat2, lon2) := increment_position lap lop (vp / km_to_nm) (dp - 180) t in
      Ok (Some (sp_dist sp lap lop (lac + lat1 + lat2) (loc + lon1 + lon2)))
  | _, _, _, _, _ => Ok None
  end.
Definition entry_at (entry : report -> report -> res (option Q)) (v : list report) (i : nat) : res (option Q) :=
  let! p := vget v (i - 1) in let! c := vget v i in entry p c.
(** track_check.py:140-204, Extended_IMMA.py:1836-1892 distr1. *)
Definition distr1 (v : list report) : res (list (option Q)) :=
  let! l := mapM (entry_at forward_entry v) (seq 1 (length v - 1)) in Ok (None :: l).
(** track_check.py:207-274, Extended_IMMA.py:1894-1954 distr2: filled from the last report down to the
    second, then reversed. *)
Definition distr2 (v : list report) : res (list (option Q)) :=
  let! l := mapM (entry_at reverse_entry v) (rev (seq 1 (length v - 1))) in Ok (rev (None :: l)).

(** track_check.py:303-331, Extended_IMMA.py:1977-2003: distance of [b] from the time-proportional point
    between [a] and [c].  intermediate_point asserts that the fraction is at most 1; a missing coordinate
    fails the assertions of angular_distance. *)
Definition midpt_entry (a b c : report) : res (option Q) :=
  let f := match getvar b "time_diff", getvar c "time_diff" with
           | Some t0, Some t1 => if Qeqb (t0 + t1) 0 then 0%Q else (t0 / (t0 + t1))%Q
           | _, _ => 0%Q
           end in
  assert! Qleb f 1;
  match getvar a "LAT", getvar a "LON", getvar b "LAT", getvar b "LON", getvar c "LAT", getvar c "LON" with
  | Some la, Some lo, Some lb, Some ob, Some lc, Some oc =>
      let (x, y) := sp_mid sp la lo lc oc f in Ok (Some (sp_dist sp lb ob x y))
  | _, _, _, _, _, _ => Err AssertionError
  end.
(** track_check.py:277-335, Extended_IMMA.py:1956-2007 midpt. *)
Definition midpt (v : list report) : res (list (option Q)) :=
  let! l := mapM (fun i => let! a := vget v (i - 1) in let! b := vget v i in let! c := vget v (i + 1) in midpt_entry a b c)
                 (seq 1 (length v - 2)) in
  Ok (None :: l ++ [None]).

(** Extended_IMMA.py:1635-1638, 1643-1646. *)
Definition set_alt (r : report) (m : option (Q * Q * Q * Q)) : report :=
  match m with
  | Some (speed, distance, course, timediff) =>
      setext (setext (setext (setext r "alt_speed" (Some speed)) "alt_course" (Some course)) "alt_distance" (Some distance))
             "alt_time_diff" (Some timediff)
  | None => setext (setext (setext (setext r "alt_speed" None) "alt_course" None) "alt_distance" None) "alt_time_diff" None
  end.
(** Extended_IMMA.py:1641-1646. *)
Fixpoint alt_loop (todo : list nat) (v : list report) : res (list report) :=
  match todo with
  | [] => Ok v
  | i :: todo' =>
      let! n := vget v (i + 1) in
      let! p := vget v (i - 1) in
      let! m := rep_sub sp n p in
      let! r := vget v i in
      alt_loop todo' (update_nth i (set_alt r (Some m)) v)
  end.
(** Extended_IMMA.py:1630-1646 calc_alternate_speeds. *)
Definition calc_alternate_speeds (v : list report) : res (list report) :=
  alt_loop (seq 1 (length v - 2)) (map (fun r => set_alt r None) v).

(** Extended_IMMA.py:1599-1611 get_speed. *)
Definition get_speed (v : list report) : res (list (option Q)) := mapM (fun r => getext r "speed") v.
(** Extended_IMMA.py:1613-1628 meansp: the mean is never used, only its TypeError on a missing speed matters. *)
Definition meansp (v : list report) : res unit :=
  let! spd := get_speed v in
  if existsb (fun s => match s with None => true | _ => false end) (tl spd) then Err TypeError else Ok tt.

Record track_params := { tk_dir : Q; tk_speed : Q; tk_abs : Q; tk_mid : Q }.

(** Extended_IMMA.py:2155-2199, track_check.py:501-547: the verdict on report i. *)
Definition track_verdict (p : track_params) (amax : Q) (fwd rev mid : list (option Q)) (v : list report) (i : nat) : res bool :=
  let! a := vget v (i - 1) in
  let! b := vget v i in
  let! c := vget v (i + 1) in
  let qc_a := (gt_opt (getvar b "speed") amax && gt_opt (getvar a "alt_speed") amax)
           || (gt_opt (getvar c "speed") amax && gt_opt (getvar c "alt_speed") amax)
           || (gt_opt (getvar b "speed") amax && gt_opt (getvar c "speed") amax) in
  let! f := py_nth fwd (Z.of_nat i) in
  let! r := py_nth rev (Z.of_nat i) in
  let b1 := check_distance_from_estimate (getvar b "vsi") (getvar a "vsi") (getvar b "time_diff") f r in
  let! b2 := direction_continuity (getvar b "dsi") (getvar a "dsi") (getvar b "course") (tk_dir p) in
  let b3 := speed_continuity (getvar b "vsi") (getvar a "vsi") (getvar b "speed") (tk_speed p) in
  let b4 := gt_opt (getvar b "speed") (tk_abs p / km_to_nm) in
  let! m := py_nth mid (Z.of_nat i) in
  Ok (gt_opt m (tk_mid p / km_to_nm) && qc_a && (b1 || b2 || b3 || b4)).

(** The loop over the interior reports: two flags are written per report; the verdicts are collected. *)
Fixpoint track_loop (p : track_params) (amax : Q) (fwd rev mid : list (option Q)) (trk few : string) (todo : list nat)
  (v : list report) : res (list Z * list report) :=
  match todo with
  | [] => Ok ([], v)
  | i :: todo' =>
      let! bad := track_verdict p amax fwd rev mid v i in
      let q := if bad then 1 else 0 in
      let! v := vset v i "POS" trk q in
      let! v := vset v i "POS" few 0 in
      let! (qcs, v) := track_loop p amax fwd rev mid trk few todo' v in
      Ok (q :: qcs, v)
  end.

(** Extended_IMMA.py:2135-2204, track_check.py:481-553: the check proper; flag names are parameters.
    The result is the list of flags (of mds_track_check) and the reports. *)
Definition track_core (p : track_params) (trk few : string) (v : list report) : res (list Z * list report) :=
  let! v := calc_alternate_speeds v in
  let! _ := meansp v in
  let! spd := get_speed v in
  let! modal := modesp spd in
  let '(amax, _, _) := set_speed_limits modal in
  let! fwd := distr1 v in
  let! rev := distr2 v in
  let! mid := midpt v in
  let! v := vset v 0 "POS" trk 0 in
  let! v := vset v 0 "POS" few 0 in
  let! (qcs, v) := track_loop p amax fwd rev mid trk few (seq 1 (length v - 2)) v in
  let! v := vset v (length v - 1) "POS" trk 0 in
  let! v := vset v (length v - 1) "POS" few 0 in
  Ok (0 :: qcs ++ [0], v).

(** getvar(0, 'DCK') == 720 and getvar(0, 'YR') < 1891 (a missing year is below 1891 in Python 2). *)
Definition early_deck_720 (r : report) : bool :=
  match getint r "DCK" with
  | Some d => (d =? 720) && match getint r "YR" with Some y => y <? 1891 | None => true end
  | None => false
  end.

(** 2113-2115 and the like: both flags of every report. *)
Fixpoint set_both (trk few : string) (x y : Z) (todo : list nat) (v : list report) : res (list report) :=
  match todo with
  | [] => Ok v
  | i :: todo' => let! v := vset v i "POS" trk x in let! v := vset v i "POS" few y in set_both trk few x y todo' v
  end.

(** Extended_IMMA.py:2085-2204 Voyage.track_check. *)
Definition track_check (p : track_params) (v : list report) : res (list report) :=
  match v with
  | [] => Ok []
  | r0 :: _ =>
      if generic_report r0 || pt_buoy r0 then set_both "trk" "few" 0 0 (seq 0 (length v)) v
      else if (length v <? 3)%nat then
        if early_deck_720 r0 then set_both "trk" "few" 0 0 (seq 0 (length v)) v
        else set_both "trk" "few" 0 1 (seq 0 (length v)) v
      else let! (_, v) := track_core p "trk" "few" v in Ok v
  end.

(** track_check.py:527, 531, 534, 538: the fixed parameters of mds_track_check. *)
Definition mds_params : track_params := {| tk_dir := 60; tk_speed := 10; tk_abs := 40; tk_mid := 150 |}.
(** track_check.py:440-553 mds_track_check: flags and reports. *)
Definition mds_track_check (v : list report) : res (list Z * list report) :=
  match v with
  | [] => Ok ([], [])
  | r0 :: _ =>
      if generic_report r0 then
        let! v := vset_list v (seq 0 (length v)) "POS" "bad_track" 0 in Ok (repeat 0 (length v), v)
      else if (length v <? 3)%nat && negb (early_deck_720 r0) then
        let! v := vset_list v (seq 0 (length v)) "POS" "fewsome_check" 1 in Ok (repeat 0 (length v), v)
      else track_core mds_params "bad_track" "fewsome_check" v
  end.

(** max(qcs) > 0: ValueError on an empty list. *)
Definition any_flag (qcs : list Z) : res bool :=
  match qcs with [] => Err ValueError | _ => Ok (existsb (fun q => 0 <? q) qcs) end.

(** track_check.py:579-584: the positions not yet flagged. *)
Definition open_refs (master : list Z) : list nat :=
  filter (fun i => nth i master 1 =? 0) (seq 0 (length master)).
(** The reports at given positions (a report object is shared with the voyage it comes from). *)
Definition pick (v : list report) (refs : list nat) : res (list report) := mapM (vget v) refs.
(** The changed report objects seen from the original voyage again. *)
Fixpoint put_back (refs : list nat) (sub v : list report) : list report :=
  match refs, sub with
  | i :: refs', r :: sub' => put_back refs' sub' (update_nth i r v)
  | _, _ => v
  end.
(** 588-589: master_qc[qc_ref] = qcs[i]. *)
Fixpoint put_flags (refs : list nat) (qcs master : list Z) : res (list Z) :=
  match refs with
  | [] => Ok master
  | i :: refs' => match qcs with [] => Err IndexError | q :: qcs' => put_flags refs' qcs' (update_nth i q master) end
  end.
(** track_check.py:575-591: at most [n] further passes. *)
Fixpoint full_loop (n : nat) (qcs master : list Z) (v : list report) : res (list Z * list report) :=
  let! more := any_flag qcs in
  if more then
    match n with
    | O => Ok (master, v)
    | S n' =>
        let refs := open_refs master in
        let! objs := pick v refs in
        let! temp := add_reports sp [] objs in
        let! (qcs, temp) := mds_track_check temp in
        let! master := put_flags refs qcs master in
        full_loop n' qcs master (put_back refs temp v)
    end
  else Ok (master, v).
(** 593-599. *)
Fixpoint final_flags (master : list Z) (todo : list nat) (v : list report) : res (list report) :=
  match todo with
  | [] => Ok v
  | i :: todo' =>
      let! q := py_nth master (Z.of_nat i) in
      let! v := if q =? 0 then vset v i "POS" "bad_track" 0 else if q =? 1 then vset v i "POS" "bad_track" 1 else Ok v in
      final_flags master todo' v
  end.
(** track_check.py:556-601 mds_full_track_check.  Voyages of one report from deck 720 before 1891 give two
    flags; the refs of later passes are only used when a flag is 1. *)
Definition mds_full_track_check (v : list report) : res (list report) :=
  let! (master, v) := mds_track_check v in
  let! (master, v) := match master with [] => Ok (master, v) | _ => full_loop 4 master master v end in
  final_flags master (seq 0 (length v)) v.

End Track.
