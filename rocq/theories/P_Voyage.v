(** C25 saturated runs, C26 repeated values, C27 rounded values, C28 IQUAM track check, C29 spike check,
    C53 motion fields of voyages. *)
Require Import String ZArith QArith Qround List Bool Lia Lqa Permutation.
Require Import Verif.M_Base Verif.S_Calendar Verif.M_Checks Verif.S_Checks Verif.L_Grid Verif.L_Checks Verif.M_Report Verif.S_Report Verif.M_Voyage Verif.S_Voyage Verif.L_Voyage Verif.L_Voyage2 Verif.L_Voyage3 Verif.L_Voyage4 Verif.L_Voyage5 Verif.L_Voyage6.
Import ListNotations.
Open Scope string_scope.
Open Scope list_scope.
Open Scope Z_scope.

(** A sphere for the examples: taxicab distance in units of 111 km. *)
Definition flat : sphere := {|
  sp_dist := fun a b c d => (111 * (Qabs' (a - c) + Qabs' (b - d)))%Q; sp_course := fun _ _ _ _ => 0%Q;
  sp_move := fun a b _ _ => (a, b); sp_mid := fun a b _ _ _ => (a, b) |}.
Lemma flat_ok : distance_like (sp_dist flat).
Proof.
  split; intros; cbn [flat sp_dist].
  - rewrite <- (Qabs'_opp (a - c)), <- (Qabs'_opp (b - d)). rewrite (Qabs'_compat (- (a - c)) (c - a)), (Qabs'_compat (- (b - d)) (d - b)) by ring. reflexivity.
  - rewrite (Qabs'_zero (a - a)), (Qabs'_zero (b - b)) by ring. ring.
Qed.

(** Report of one ship on 1 January 2000 at hour h, latitude la, with air, dew point and sea temperatures. *)
Definition obs (h la at_ dpt sst : Q) : report :=
  {| r_id := Some "SHIP1"; r_uid := None;
     r_data := [Some 2000; Some 1; Some 1; Some h; Some la; Some 0; None; None; None; Some at_; None; Some sst; None; None; None; Some dpt;
                None; None; None; None; None; None; None; None; None; None]%Q;
     r_dt := Some [2000; 1; 1; Qfloor h; 0]; r_qc := []; r_ext := []; r_clim := [] |}.
Lemma obs_located : forall h la a d s, (0 <= h < 24)%Q -> is_located (obs h la a d s).
Proof.
  intros h la a d s H. exists la, 0%Q, (mkdate 2000 1 1), h. constructor; try reflexivity.
  - exists 31. split; [apply mh_31; now left|]. cbn. lia.
  - exact H.
Qed.
Ltac obs_loc := repeat constructor; try (apply obs_located; split; [discriminate|reflexivity]).

(* ------------------------------------------------------------------ C25 *)

(** Exactly the reports in a maximal saturated run of more than [shortest] reports that lasts at least
    min_time hours are flagged. *)
Theorem C25_saturated_runs : forall sp min_time shortest v, 0 <= shortest -> Forall is_located v ->
  exists v', find_saturated_runs sp min_time shortest v = Ok v' /\
    flags_exactly "DPT" "repsat"
      (fun i => exists a b, maximal_run (saturated_at v) (length v) a b /\ (a <= i <= b)%nat /\
         shortest < Z.of_nat b - Z.of_nat a + 1 /\
         exists ra rb t, nth_error v a = Some ra /\ nth_error v b = Some rb /\ hours_between ra rb t /\ (min_time <= t)%Q) v v'.
Proof. exact (fun sp mt sh v Hs Hl => find_saturated_runs_ok sp v mt sh Hs Hl). Qed.
Print Assumptions C25_saturated_runs.

Example C25_ex : let v := [obs 0 0 10 10 5; obs 2 0 10 10 5; obs 4 0 10 10 5; obs 5 0 10 9 5; obs 6 0 10 10 5] in
  Forall is_located v /\
  match find_saturated_runs flat 4 2 v with Ok v' => map (fun r => get_qc r "DPT" "repsat") v' = [1; 1; 1; 0; 0] | Err _ => False end.
Proof. split; [obs_loc|vm_compute; reflexivity]. Qed.

(* ------------------------------------------------------------------ C26 *)

(** Exactly the reports whose (printed) value makes up more than the threshold share of a voyage with
    more than min_count values are flagged. *)
Theorem C26_repeated_values : forall prt name v min_count threshold, (0 <= threshold <= 1)%Q ->
  In name ["SST"; "AT"; "AT2"; "DPT"; "SLP"] ->
  exists v', find_repeated_values prt min_count threshold name v = Ok v' /\
    flags_exactly name "rep"
      (fun i => exists x same all, value_at v name i x /\
         lists (fun j => exists y, value_at v name j y /\ (prt y == prt x)%Q) same /\
         lists (fun j => exists y, value_at v name j y) all /\ min_count < Z.of_nat (length all) /\
         (threshold * inject_Z (Z.of_nat (length all)) < inject_Z (Z.of_nat (length same)))%Q) v v'.
Proof. exact (fun prt name v mc th H => find_repeated_values_ok prt name v mc th H). Qed.
Print Assumptions C26_repeated_values.

Example C26_ex : let v := [obs 0 0 10 10 5; obs 2 0 10 10 5; obs 4 0 10 10 5; obs 5 0 10 9 7] in
  match find_repeated_values (fun x => x) 3 (7 # 10) "SST" v with Ok v' => map (fun r => get_qc r "SST" "rep") v' = [1; 1; 1; 0] | Err _ => False end /\
  match find_repeated_values (fun x => x) 3 (3 # 4) "SST" v with Ok v' => map (fun r => get_qc r "SST" "rep") v' = [0; 0; 0; 0] | Err _ => False end.
Proof. split; vm_compute; reflexivity. Qed.

(* ------------------------------------------------------------------ C27 *)

(** Exactly the whole-number values of a voyage with more than min_count values in which whole numbers
    reach the threshold share are flagged. *)
Theorem C27_rounded_values : forall prt name v min_count threshold, (0 <= threshold <= 1)%Q ->
  In name ["SST"; "AT"; "AT2"; "DPT"] -> 0 <= min_count ->
  exists v', find_multiple_rounded_values prt min_count threshold name v = Ok v' /\
    flags_exactly name "round"
      (fun i => exists x whole all, value_at v name i x /\ (exists z, prt x == inject_Z z)%Q /\
         lists (fun j => exists y z, value_at v name j y /\ (prt y == inject_Z z)%Q) whole /\
         lists (fun j => exists y, value_at v name j y) all /\ min_count < Z.of_nat (length all) /\
         (threshold * inject_Z (Z.of_nat (length all)) <= inject_Z (Z.of_nat (length whole)))%Q) v v'.
Proof. exact (fun prt name v mc th H => find_rounded_ok prt name v mc th H). Qed.
Print Assumptions C27_rounded_values.

Example C27_ex : let v := [obs 0 0 10 10 5; obs 2 0 10 (19 # 2) 5; obs 4 0 10 11 5; obs 5 0 10 9 7] in
  match find_multiple_rounded_values (fun x => x) 3 (3 # 4) "DPT" v with Ok v' => map (fun r => get_qc r "DPT" "round") v' = [1; 0; 1; 1] | Err _ => False end /\
  match find_multiple_rounded_values (fun x => x) 4 (3 # 4) "DPT" v with Ok v' => map (fun r => get_qc r "DPT" "round") v' = [0; 0; 0; 0] | Err _ => False end.
Proof. split; vm_compute; reflexivity. Qed.

(** Finding: a negative minimum count divides by zero on a voyage without values. *)
Theorem C27_negative_count_refuted : exists v, find_multiple_rounded_values (fun x => x) (-1) (1 # 2) "AT2" v = Err ZeroDivisionError.
Proof. exists [obs 0 0 10 10 5]. reflexivity. Qed.
Print Assumptions C27_negative_count_refuted.

(* ------------------------------------------------------------------ C28 *)

(** Which limit applies: a platform type of 6 or 7 is a buoy; a generic identifier is one of the list C18 gives for the year. *)
Theorem C28_buoy_types : forall r,
  (forall z, getvar r "PT" = Some (inject_Z z) -> (pt_buoy r = true <-> z = 6 \/ z = 7)) /\
  (getvar r "PT" = None -> pt_buoy r = false) /\
  (forall y, getvar r "YR" = Some (inject_Z y) -> (generic_report r = true <-> generic (r_id r) y)).
Proof.
  intro r. split; [|split].
  - intros z E. unfold pt_buoy, getint. rewrite E, L_Grid.py_int_inject. rewrite orb_true_iff, !Z.eqb_eq. reflexivity.
  - intro E. unfold pt_buoy, getint. rewrite E. reflexivity.
  - intros y E. unfold generic_report, getint. rewrite E, L_Grid.py_int_inject. apply L_Checks.id_is_generic_spec.
Qed.
Print Assumptions C28_buoy_types.
Example C28_buoy_types_ex : exists r, setvar (obs 0 0 10 10 5) "PT" (Some (inject_Z 7)) = Ok r /\
  getvar r "PT" = Some (inject_Z 7) /\ getvar r "YR" = Some (inject_Z 2000) /\ pt_buoy r = true.
Proof. eexists. split; [reflexivity|repeat split]. Qed.

Definition iquam_limit (p : iquam_params) (v : list report) : Q :=
  match v with r :: _ => if pt_buoy r then iq_buoy p else iq_ship p | [] => 0%Q end.

(** iquam_track_check ends.  The flagged reports are those of a greedy removal: repeatedly the (first)
    report with the most open violations, until two unflagged neighbours never violate the speed limit. *)
Theorem C28_iquam : forall sp p v r0 rest, v = r0 :: rest -> generic_report r0 = false ->
  distance_like (sp_dist sp) -> Forall is_located v ->
  (0 <= iquam_limit p v)%Q -> (0 <= iq_d p)%Q -> (0 < iq_t p)%Q ->
  let bad := near_pair v (iq_n p) (too_fast (sp_dist sp) (iquam_limit p v) (iq_d p) (iq_t p)) in
  exists v' removed, iquam_track_check sp p v = Ok v' /\ greedy bad (length v) removed /\
    (forall i j, bad i j -> In i removed \/ In j removed) /\
    flags_exactly "POS" "iquam_track" (fun i => In i removed) v v'.
Proof. exact iquam_check_ok. Qed.
Print Assumptions C28_iquam.

(** What a greedy removal is: only reports with a violation, each at most once; none if nothing violates. *)
Theorem C28_greedy_facts : forall V n removed, greedy V n removed ->
  (forall i, In i removed -> exists j, V i j) /\ NoDup removed /\ (forall i, In i removed -> (i < n)%nat) /\
  ((forall i j, ~ V i j) -> removed = []).
Proof.
  exact (fun V n rm G => conj (fun i H => greedy_violator V n rm i G H)
    (conj (proj1 (greedy_NoDup V n rm G)) (conj (proj2 (greedy_NoDup V n rm G)) (greedy_clean V n rm G)))).
Qed.
Print Assumptions C28_greedy_facts.

Theorem C28_generic_pass : forall sp p v r0 rest, v = r0 :: rest -> generic_report r0 = true ->
  exists v', iquam_track_check sp p v = Ok v' /\ flags_exactly "POS" "iquam_track" (fun _ => False) v v'.
Proof. exact iquam_generic_ok. Qed.
Print Assumptions C28_generic_pass.

Example C28_ex : let v := [obs 0 0 10 10 5; obs 1 1 10 10 5; obs 2 20 10 10 5; obs 3 1 10 10 5; obs 4 2 10 10 5] in
  let p := {| iq_buoy := 15; iq_ship := 300; iq_d := 1; iq_t := 1 # 100; iq_n := 5 |} in
  Forall is_located v /\ generic_report (obs 0 0 10 10 5) = false /\
  match iquam_track_check flat p v with Ok v' => map (fun r => get_qc r "POS" "iquam_track") v' = [0; 0; 1; 0; 0] | Err _ => False end.
Proof. split; [obs_loc|]. split; [reflexivity|vm_compute; reflexivity]. Qed.

(* ------------------------------------------------------------------ C29 *)

Definition spike_delta (p : spike_params) (v : list report) : Q :=
  match v with r :: _ => if pt_buoy r then sk_buoy p else sk_ship p | [] => 0%Q end.

(** spike_check ends, with the same greedy removal on the gradient violations. *)
Theorem C29_spike : forall sp p name v, In name variables -> distance_like (sp_dist sp) -> Forall is_located v ->
  (0 <= spike_delta p v)%Q ->
  let bad := near_pair v (sk_n p) (jumps (sp_dist sp) name (spike_delta p v) (sk_space p) (sk_time p)) in
  exists v' removed, spike_check sp p name v = Ok v' /\ greedy bad (length v) removed /\
    (forall i j, bad i j -> In i removed \/ In j removed) /\
    flags_exactly name "spike" (fun i => In i removed) v v'.
Proof. exact spike_check_ok. Qed.
Print Assumptions C29_spike.

Example C29_ex : let v := [obs 0 0 10 10 5; obs 1 0 10 10 5; obs 2 0 10 10 25; obs 3 0 10 10 6; obs 4 0 10 10 6] in
  let p := {| sk_space := 1 # 2; sk_time := 1; sk_ship := 2; sk_buoy := 1; sk_n := 5 |} in
  Forall is_located v /\ (0 <= spike_delta p v)%Q /\
  match spike_check flat p "SST" v with Ok v' => map (fun r => get_qc r "SST" "spike") v' = [0; 0; 1; 0; 0] | Err _ => False end.
Proof. split; [obs_loc|]. split; [vm_compute; discriminate|vm_compute; reflexivity]. Qed.

(* ------------------------------------------------------------------ C53 *)

(** A voyage filled report by report holds the same reports; each carries the distance, course, speed and
    time from its predecessor, the first carries none. *)
Theorem C53_add_reports : forall sp l, Forall is_located l ->
  exists v, add_reports sp [] l = Ok v /\ Forall2 same_report l v /\
    (forall i p r, nth_error v i = Some p -> nth_error v (S i) = Some r -> moved (sp_dist sp) (sp_course sp) p r) /\
    (forall r, hd_error v = Some r -> getvar r "speed" = None /\ getvar r "distance" = None /\ getvar r "course" = None /\ getvar r "time_diff" = None).
Proof. exact build_voyage_ok. Qed.
Print Assumptions C53_add_reports.

(** Sorting a voyage orders its reports and recomputes the motion fields of all but the first. *)
Theorem C53_sort : forall sp v, Forall is_located v ->
  exists v', voyage_sort sp v = Ok v' /\ Forall2 same_report (sort_reports v) v' /\
    (forall i p r, nth_error v' i = Some p -> nth_error v' (S i) = Some r -> moved (sp_dist sp) (sp_course sp) p r).
Proof. exact voyage_sort_ok. Qed.
Print Assumptions C53_sort.

Example C53_ex : match add_reports flat [] [obs 0 0 10 10 5; obs 2 1 10 10 5; obs 2 3 10 10 5] with
  Ok v => map (fun r => (getvar r "time_diff", getvar r "distance")) v = [(None, None); (Some (1152 # 576), Some (111 # 1)); (Some 0, Some (222 # 1))]%Q
  | Err _ => False end.
Proof. vm_compute. reflexivity. Qed.

(** Finding: the report that sorting puts first keeps the speed computed from its former predecessor. *)
Theorem C53_first_after_sort_refuted : exists sp l v v' r, Forall is_located l /\ add_reports sp [] l = Ok v /\
  voyage_sort sp v = Ok v' /\ hd_error v' = Some r /\ getvar r "speed" <> None.
Proof.
  exists flat, [obs 5 0 10 10 5; obs 2 1 10 10 5]. do 3 eexists. split; [obs_loc|].
  split; [vm_compute; reflexivity|]. split; [vm_compute; reflexivity|]. split; [reflexivity|]. vm_compute. discriminate.
Qed.
Print Assumptions C53_first_after_sort_refuted.
