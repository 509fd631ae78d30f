(** C22 flag store, C23 filters, C24 decks and voyages, C47 report order, C52 report variables. *)
Require Import String Ascii ZArith QArith Qround List Bool Lia Permutation Sorting.Sorted.
Require Import Verif.M_Base Verif.S_Calendar Verif.M_Calendar Verif.M_Report Verif.S_Report Verif.L_Report Verif.L_Report2 Verif.L_Report3.
Import ListNotations.
Open Scope string_scope.
Open Scope list_scope.
Open Scope Z_scope.

(** Reports used in the examples. *)
Definition rep0 (id : string) : report :=
  {| r_id := Some id; r_uid := None; r_data := repeat None 26; r_dt := Some [2000; 1; 1; 0; 0]; r_qc := []; r_ext := []; r_clim := [] |}.

(* ------------------------------------------------------------------ C22 *)

(** set_qc succeeds exactly for accepted attempts and otherwise raises AssertionError. *)
Theorem C22_set_qc_accepts : forall r t f v,
  (accepted (t, f, v) -> exists r', set_qc r t f v = Ok r') /\
  (~ accepted (t, f, v) -> set_qc r t f v = Err AssertionError).
Proof.
  exact (fun r t f v => match set_qc_spec r t f v with
    | or_introl (conj a e) => conj (fun _ => ex_intro _ _ e) (fun n => False_ind _ (n a))
    | or_intror (conj n e) => conj (fun a => False_ind _ (n a)) (fun _ => e) end).
Qed.
Print Assumptions C22_set_qc_accepts.

Theorem C22_set_get_same : forall r t f v r', set_qc r t f v = Ok r' -> get_qc r' t f = v.
Proof. exact set_get_same. Qed.
Print Assumptions C22_set_get_same.

Theorem C22_set_get_other : forall r t f v r' t' f', set_qc r t f v = Ok r' -> ~ same_key t f t' f' ->
  get_qc r' t' f' = get_qc r t' f'.
Proof. exact set_get_other. Qed.
Print Assumptions C22_set_get_other.

(** After any history of attempts (rejected ones included) a flag reads as the value of the last accepted
    attempt with its key ... *)
Theorem C22_history_last : forall before a after r t f, accepted a -> same_key (att_type a) (att_flag a) t f ->
  (forall b, In b after -> accepted b -> ~ same_key (att_type b) (att_flag b) t f) ->
  get_qc (fold_left (fun r a => match set_qc r (fst (fst a)) (snd (fst a)) (snd a) with Ok r' => r' | Err _ => r end)
                    (before ++ a :: after) r) t f = att_value a.
Proof. exact history_last. Qed.
Print Assumptions C22_history_last.

(** ... and as 9 on a new report when there is none. *)
Theorem C22_history_none : forall id uid fields r ops t f, new_report id uid fields = Ok r ->
  (forall b, In b ops -> accepted b -> ~ same_key (att_type b) (att_flag b) t f) ->
  get_qc (fold_left (fun r a => match set_qc r (fst (fst a)) (snd (fst a)) (snd a) with Ok r' => r' | Err _ => r end) ops r) t f = 9.
Proof.
  exact (fun id uid fields r ops t f N H => eq_trans (history_none ops r t f H) (new_report_flags id uid fields r t f N)).
Qed.
Print Assumptions C22_history_none.

Example C22_ex : exists r, new_report (Some "A") None [("SST", Some 15%Q); ("YR", Some 1999%Q)] = Ok r /\
  accepted ("SST", "bud", 1) /\ ~ accepted ("SST", "bud", 10) /\ ~ accepted ("RH", "bud", 1) /\ ~ same_key "SST" "bud" "SST" "rep" /\
  map (fun tf => get_qc (fold_left try_set [("SST", "bud", 1); ("SST", "rep", 0); ("SST", "bud", 10)] r) (fst tf) (snd tf))
      [("SST", "bud"); ("SST", "rep"); ("AT", "bud")] = [1; 0; 9].
Proof.
  eexists. split; [vm_compute; reflexivity|]. unfold accepted, att_type, att_value, same_key. cbn [fst snd].
  split; [split; [lia|right; cbn; tauto]|]. split; [lia|]. split; [|split; [discriminate|vm_compute; reflexivity]].
  intros [_ [K|K]]; [discriminate|]. cbn in K. intuition discriminate.
Qed.

(** Flags are always values 0..9. *)
Theorem C22_range : forall id uid fields r ops t f, new_report id uid fields = Ok r ->
  0 <= get_qc (fold_left (fun r a => match set_qc r (fst (fst a)) (snd (fst a)) (snd a) with Ok r' => r' | Err _ => r end) ops r) t f <= 9.
Proof. exact history_range_new. Qed.
Print Assumptions C22_range.

(** With capital variable names and flag names beginning with a small letter, different flags never share
    a key.  All types that set_qc accepts have such names. *)
Theorem C22_keys_distinct : forall t t' f f', type_name t -> type_name t' -> flag_name f -> flag_name f' ->
  same_key t f t' f' -> t = t' /\ f = f'.
Proof. exact key_injective. Qed.
Print Assumptions C22_keys_distinct.
Theorem C22_types_are_names : forall t, t = "POS" \/ In t variables -> type_name t.
Proof. exact variables_type_names. Qed.
Print Assumptions C22_types_are_names.
Example C22_flag_name : flag_name "is780".
Proof. exists "i"%char, "s780". split; [reflexivity|]. unfold lower. cbn. lia. Qed.

(** Finding: in general two different flags can share a key: 'AT2'+'x' is 'AT'+'2x'. *)
Theorem C22_distinct_flags_refuted : exists r t f v r' t' f',
  set_qc r t f v = Ok r' /\ (t, f) <> (t', f') /\ get_qc r t' f' <> get_qc r' t' f'.
Proof.
  exists (rep0 "A"), "AT2", "x", 1. eexists. exists "AT", "2x".
  split; [vm_compute; reflexivity|]. split; [congruence|]. vm_compute. discriminate.
Qed.
Print Assumptions C22_distinct_flags_refuted.

(* ------------------------------------------------------------------ C23 *)

(** A report passes a filter exactly when every condition of the filter holds. *)
Theorem C23_test_report : forall f r,
  (test_report f r = 0 <-> forall t fl v, In (t, fl, v) f -> get_qc r t fl = v) /\
  (test_report f r = 0 \/ test_report f r = 1).
Proof. exact test_report_spec. Qed.
Print Assumptions C23_test_report.

(** split_reports empties the input deck into the passing and the failing reports, both in the original
    order; the two result decks are indexed like decks built by append. *)
Theorem C23_split : forall f d,
  exists p q d', split_reports f d = Ok (p, q, d') /\ d_reps d' = [] /\
    d_reps p = filter (fun r => test_report f r =? 0) (d_reps d) /\
    d_reps q = filter (fun r => negb (test_report f r =? 0)) (d_reps d) /\
    p = fold_left deck_append (d_reps p) new_deck /\ q = fold_left deck_append (d_reps q) new_deck.
Proof. exact split_reports_spec. Qed.
Print Assumptions C23_split.

(** Nothing is lost or duplicated. *)
Theorem C23_split_partition : forall f d p q d', split_reports f d = Ok (p, q, d') ->
  Permutation (d_reps p ++ d_reps q) (d_reps d).
Proof. exact split_partition. Qed.
Print Assumptions C23_split_partition.

Definition flagged_rep (id : string) (v : Z) : report := with_qc (rep0 id) [("POSdate", v)].
Example C23_ex : match split_reports [("POS", "date", 0)]
    (fold_left deck_append [flagged_rep "A" 0; flagged_rep "B" 1; flagged_rep "C" 0] new_deck) with
  | Ok (p, q, _) => map r_id (d_reps p) = [Some "A"; Some "C"] /\ map r_id (d_reps q) = [Some "B"]
  | Err _ => False end.
Proof. vm_compute. auto. Qed.

(* ------------------------------------------------------------------ C24 *)

(** A deck filled by append: get_one_platform_at_a_time gives voyages (positions in the deck) such that
    every report passing the deck's filter is in exactly one voyage and no other report is in any; each
    voyage consists of all passing reports of one identifier, in deck order. *)
Theorem C24_platforms : forall reps f,
  let d := add_filter (fold_left deck_append reps new_deck) f in
  let passing i := exists r, nth_error reps i = Some r /\ forall t fl v, In (t, fl, v) f -> get_qc r t fl = v in
  exists voyages, platforms d = Ok voyages /\
    (forall i, (exists g, In g voyages /\ In i g) <-> passing i) /\
    NoDup (concat voyages) /\
    (forall g, In g voyages -> StronglySorted lt g /\
       exists id, forall i, In i g <-> (passing i /\ exists r, nth_error reps i = Some r /\ r_id r = id)).
Proof. exact platforms_appended. Qed.
Print Assumptions C24_platforms.

Example C24_ex : platforms (add_filter (fold_left deck_append
    [flagged_rep "A" 0; flagged_rep "B" 0; flagged_rep "A" 1; flagged_rep "A" 0] new_deck) [("POS", "date", 0)])
  = Ok [[0; 3]; [1]]%nat.
Proof. reflexivity. Qed.

(** Finding: sorting the deck indexes every report a second time, so voyages then hold reports twice;
    and popping leaves the index pointing past the end. *)
Theorem C24_sort_refuted : exists reps voyages,
  platforms (deck_sort (fold_left deck_append reps new_deck)) = Ok voyages /\ ~ NoDup (concat voyages).
Proof.
  exists [rep0 "A"], [[0; 0]]%nat. split; [reflexivity|]. intro H. inversion H; subst. apply H2. now left.
Qed.
Print Assumptions C24_sort_refuted.
(** Taking a report from the deck does not update the index by identifier, which then leads beyond the list. *)
Theorem C24_pop_refuted : exists reps r d', deck_pop0 (fold_left deck_append reps new_deck) = Ok (r, d') /\
  platforms d' = Err IndexError.
Proof. exists [rep0 "A"]. eexists _, _. split; reflexivity. Qed.
Print Assumptions C24_pop_refuted.

(* ------------------------------------------------------------------ C47 *)

(** On reports with a time stamp: exactly one of greater, equal, smaller; greater is transitive; >= and <=
    agree with them. *)
Theorem C47_trichotomy : forall a b, r_dt a <> None -> r_dt b <> None ->
  (rep_gt a b = true /\ rep_eq a b = false /\ rep_gt b a = false) \/
  (rep_gt a b = false /\ rep_eq a b = true /\ rep_gt b a = false) \/
  (rep_gt a b = false /\ rep_eq a b = false /\ rep_gt b a = true).
Proof. exact trichotomy. Qed.
Print Assumptions C47_trichotomy.
Theorem C47_gt_trans : forall a b c, r_dt a <> None -> r_dt b <> None -> r_dt c <> None ->
  rep_gt a b = true -> rep_gt b c = true -> rep_gt a c = true.
Proof. exact gt_trans. Qed.
Print Assumptions C47_gt_trans.
Theorem C47_ge_le : forall a b, r_dt a <> None -> r_dt b <> None ->
  rep_ge a b = Ok (rep_gt a b || rep_eq a b) /\ rep_le a b = Ok (rep_gt b a || rep_eq a b).
Proof. exact ge_le_consistent. Qed.
Print Assumptions C47_ge_le.

(** With one identifier the order is the order in time. *)
Theorem C47_chronological : forall a b sa sb, r_id a = r_id b -> r_dt a = Some sa -> r_dt b = Some sb -> stamp_ok sa -> stamp_ok sb ->
  (rep_gt b a = true <-> stamp_before sa sb).
Proof. exact gt_stamp. Qed.
Print Assumptions C47_chronological.
Example C47_ex : stamp_ok [1999; 12; 31; 23; 59] /\ stamp_before [1999; 12; 31; 23; 59] [2000; 1; 1; 0; 0].
Proof. split; [unfold stamp_ok; lia|]. unfold stamp_before, earlier. cbn [yr mo dy]. lia. Qed.

(** What the time stamp of a report is: its date and the whole minutes of its hour. *)
Theorem C47_stamp : forall r r' st, calculate_dt r = Ok r' -> r_dt r' = Some st ->
  exists y m d h mi, getint r "YR" = Some y /\ getint r "MO" = Some m /\ getint r "DY" = Some d /\ getvar r "HR" = Some h /\
    valid (mkdate y m d) /\ 0 <= Qfloor h <= 23 /\ st = [y; m; d; Qfloor h; mi] /\ 0 <= mi <= 59 /\
    60 * Qfloor h + mi = Qfloor (60 * h).
Proof. exact calculate_dt_stamp. Qed.
Print Assumptions C47_stamp.
Theorem C47_stamp_exists : forall r y m d h, getint r "YR" = Some y -> getint r "MO" = Some m -> getint r "DY" = Some d -> getvar r "HR" = Some h ->
  valid (mkdate y m d) -> 1 <= y <= 9999 -> hour_ok h -> exists r', calculate_dt r = Ok r' /\ r_dt r' <> None.
Proof. exact calculate_dt_complete. Qed.
Print Assumptions C47_stamp_exists.
Example C47_stamp_ex : match new_report (Some "A") None [("YR", Some 1999%Q); ("MO", Some 12%Q); ("DY", Some 31%Q); ("HR", Some (47 # 2)%Q)] with
  Ok r => r_dt r = Some [1999; 12; 31; 23; 30] | Err _ => False end.
Proof. vm_compute. reflexivity. Qed.

(** Sorting: a permutation, in order, keeping the order of equal reports. *)
Theorem C47_sort : forall l, Forall (fun r => r_dt r <> None) l ->
  Permutation (sort_reports l) l /\ StronglySorted (fun a b => rep_gt a b = false) (sort_reports l) /\
  forall r0, r_dt r0 <> None -> filter (rep_eq r0) (sort_reports l) = filter (rep_eq r0) l.
Proof. exact (fun l H => conj (sort_perm l) (conj (sort_sorted l H) (fun r0 R => sort_stable l r0 R H))). Qed.
Print Assumptions C47_sort.
Definition rep_at (id : string) (h : Z) : report := with_dt (rep0 id) (Some [2000; 1; 1; h; 0]).
Example C47_sort_ex : map (fun r => (r_id r, r_dt r)) (sort_reports [rep_at "B" 3; rep_at "A" 5; rep_at "B" 1]) =
  [(Some "A", Some [2000; 1; 1; 5; 0]); (Some "B", Some [2000; 1; 1; 1; 0]); (Some "B", Some [2000; 1; 1; 3; 0])].
Proof. reflexivity. Qed.

(** Finding: reports without a time stamp break the order: a sorted list can keep a later report first. *)
Theorem C47_missing_time_refuted : exists l a b, sort_reports l = l /\ nth_error l 0 = Some a /\ nth_error l 2 = Some b /\ rep_gt a b = true.
Proof.
  exists [rep_at "A" 2; with_dt (rep0 "A") None; rep_at "A" 1], (rep_at "A" 2), (rep_at "A" 1). repeat split; reflexivity.
Qed.
Print Assumptions C47_missing_time_refuted.

(* ------------------------------------------------------------------ C52 *)

(** setvar then getvar: the value (truncated for integer variables); all other variables unchanged. *)
Theorem C52_set_get : forall r name v r', length (r_data r) = length variables -> setvar r name v = Ok r' ->
  getvar r' name = match v with Some q => Some (if mem name integer_variables then inject_Z (py_int q) else q) | None => None end.
Proof. exact set_get_var. Qed.
Print Assumptions C52_set_get.
Theorem C52_set_other : forall r name v r' name', setvar r name v = Ok r' -> name' <> name -> getvar r' name' = getvar r name'.
Proof. exact set_get_other_var. Qed.
Print Assumptions C52_set_other.
Theorem C52_set_keeps_flags : forall r name v r' t f, setvar r name v = Ok r' -> get_qc r' t f = get_qc r t f /\ r_id r' = r_id r.
Proof. exact setvar_keeps. Qed.
Print Assumptions C52_set_keeps_flags.
Theorem C52_unknown : forall r name v, ~ In name variables ->
  setvar r name v = Err ValueError /\ (assoc name (r_ext r) = None -> getvar r name = None).
Proof. exact (fun r name v H => conj (setvar_unknown r name v H) (getvar_unknown r name H)). Qed.
Print Assumptions C52_unknown.
(** Reports have the right number of data, so the hypothesis of C52_set_get holds after any setvar. *)
Theorem C52_data_length : (forall id uid fields r, new_report id uid fields = Ok r -> length (r_data r) = length variables) /\
  (forall r name v r', length (r_data r) = length variables -> setvar r name v = Ok r' -> length (r_data r') = length variables).
Proof. exact (conj new_report_wf setvar_wf). Qed.
Print Assumptions C52_data_length.
Example C52_ex : match new_report (Some "A") None [("YR", Some 1999%Q)] with
  Ok r => match setvar r "PT" (Some (57 # 10)%Q) with Ok r' => getvar r' "PT" = Some 5%Q /\ getvar r' "YR" = Some 1999%Q | Err _ => False end
  | Err _ => False end.
Proof. vm_compute. auto. Qed.

(** Changing year, day or hour refreshes the time stamp ... *)
Theorem C52_time_stamp_current : forall r name v r', In name ["YR"; "DY"; "HR"] -> setvar r name v = Ok r' -> calculate_dt r' = Ok r'.
Proof. exact setvar_dt_current. Qed.
Print Assumptions C52_time_stamp_current.
(** ... but (finding) changing the month does not. *)
Theorem C52_month_stamp_refuted : exists id uid fields r v r' r'', new_report id uid fields = Ok r /\ setvar r "MO" v = Ok r' /\
  calculate_dt r' = Ok r'' /\ r_dt r' <> r_dt r''.
Proof.
  exists (Some "A"), None, [("YR", Some 1999%Q); ("MO", Some 12%Q); ("DY", Some 31%Q); ("HR", Some 0%Q)]. eexists. exists (Some 1%Q). eexists _, _.
  split; [vm_compute; reflexivity|]. split; [vm_compute; reflexivity|]. split; [vm_compute; reflexivity|]. vm_compute. discriminate.
Qed.
Print Assumptions C52_month_stamp_refuted.

(* ------------------------------------------------------------------ C55 *)

(** Every report that could be built carries the course and speed its codes stand for. *)
Theorem C55_motion_codes : forall id uid fields r, new_report id uid fields = Ok r ->
  exists dsi vsi, getext r "dsi" = Ok dsi /\ getext r "vsi" = Ok vsi /\
    course_of (getint r "DS") dsi /\ speed_of (getint r "YR") (getvar r "VS") vsi.
Proof. exact new_report_codes. Qed.
Print Assumptions C55_motion_codes.

(** Reports with course codes that index outside the table cannot be built (negative ones down to -10 can). *)
Theorem C55_course_range : forall id uid fields d,
  forall r, new_report id uid fields = Ok r -> getint r "DS" = Some d -> -10 <= d <= 9.
Proof. exact new_report_bad_code. Qed.
Print Assumptions C55_course_range.

Example C55_ex : (exists r, new_report None None [("YR", Some 1968%Q); ("DS", Some 3%Q); ("VS", Some 2%Q)] = Ok r /\
    getext r "dsi" = Ok (Some 135%Q) /\ exists q, getext r "vsi" = Ok (Some q) /\ (q == 8)%Q) /\
  (exists r, new_report None None [("YR", Some 1967%Q); ("VS", Some 2%Q)] = Ok r /\ getext r "dsi" = Ok None /\ exists q, getext r "vsi" = Ok (Some q) /\ (q == 5)%Q) /\
  new_report None None [("DS", Some 10%Q)] = Err IndexError.
Proof. split; [|split]; [eexists; split; [reflexivity|]; split; [reflexivity|]; eexists; split; reflexivity..|reflexivity]. Qed.

(* ------------------------------------------------------------------ C56 *)

(** The longitude of a report is the stored one brought into -180..180 by whole turns. *)
Theorem C56_longitude : forall r l, getvar r "LON" = Some l -> (-180 <= l)%Q -> (l <= 540)%Q ->
  exists l', lon r = Some l' /\ (-180 <= l')%Q /\ (l' <= 180)%Q /\ ((l <= 180)%Q -> (l' == l)%Q) /\ ((180 < l)%Q -> (l' == l - 360)%Q).
Proof.
  intros r l H A B. unfold lon. rewrite H. destruct (Qltb 180 l) eqn:E.
  - apply L_Base.Qltb_true in E. exists (l - 360)%Q. split; [reflexivity|]. repeat split; intros; Lqa.lra.
  - apply L_Base.Qltb_false in E. exists l. split; [reflexivity|]. repeat split; intros; Lqa.lra.
Qed.
Print Assumptions C56_longitude.

(** After a normal and a standard deviation have been attached to a variable, its anomaly is the difference from
    the normal, its normalised anomaly that divided by the standard deviation, and its value is unchanged;
    anything missing makes them missing; other variables are not affected. *)
Theorem C56_anomaly : forall r name c s, let r' := add_climate_variable r name c s in
  getvar r' name = getvar r name /\ getnorm r' name = c /\ getnorm_stdev r' name = s /\
  (forall v m, getvar r name = Some v -> c = Some m -> exists a, getanom r' name = Some a /\ (a + m == v)%Q) /\
  (getvar r name = None \/ c = None -> getanom r' name = None) /\
  (forall v m d, getvar r name = Some v -> c = Some m -> s = Some d -> ~ (d == 0)%Q -> exists z, get_normalised_anom r' name = Ok (Some z) /\ (z * d + m == v)%Q) /\
  (getvar r name = None \/ c = None \/ s = None -> get_normalised_anom r' name = Ok None) /\
  (forall other, other <> name -> getanom r' other = getanom r other /\ get_normalised_anom r' other = get_normalised_anom r other).
Proof.
  intros r name c s r'. assert (G : forall n, getvar r' n = getvar r n) by reflexivity.
  assert (AS : assoc name (r_clim r') = Some (c, s)) by (cbn; now rewrite String.eqb_refl).
  split; [reflexivity|]. unfold getnorm, getnorm_stdev, getanom, get_normalised_anom. rewrite AS, !G.
  split; [reflexivity|]. split; [reflexivity|]. split; [|split; [|split; [|split]]].
  - intros v m V ->. rewrite V. exists (v - m)%Q. split; [reflexivity|ring].
  - intros [V| ->]; [rewrite V; now destruct c|reflexivity].
  - intros v m d V -> -> D. rewrite V. destruct (Qeqb d 0) eqn:E; [apply Qeq_bool_iff in E; contradiction|].
    exists ((v - m) / d)%Q. split; [reflexivity|]. field. exact D.
  - intros [V|[->| ->]]; [rewrite V; destruct c, s; reflexivity|reflexivity|now destruct c].
  - intros other N. assert (assoc other (r_clim r') = assoc other (r_clim r)) as ->; [|split; reflexivity].
    cbn. destruct (String.eqb_spec name other); [congruence|]. destruct (String.eqb_spec other name); [congruence|]. reflexivity.
Qed.
Print Assumptions C56_anomaly.

(** "A report always has a normalised anomaly when its parts are present" fails for a standard deviation of
    zero. *)
Theorem C56_zero_stdev_refuted : forall r name v c s, getvar r name = Some v -> (s == 0)%Q ->
  get_normalised_anom (add_climate_variable r name (Some c) (Some s)) name = Err ZeroDivisionError.
Proof.
  intros r name v c s V Z. unfold get_normalised_anom.
  assert (assoc name (r_clim (add_climate_variable r name (Some c) (Some s))) = Some (Some c, Some s)) as -> by (cbn; now rewrite String.eqb_refl).
  change (getvar (add_climate_variable r name (Some c) (Some s)) name) with (getvar r name). rewrite V.
  destruct (Qeqb s 0) eqn:E; [reflexivity|]. apply Qeq_bool_iff in Z. unfold Qeqb in E. congruence.
Qed.
Print Assumptions C56_zero_stdev_refuted.
Example C56_ex : exists r z, new_report None None [("SST", Some (25 # 2)%Q); ("LON", Some 200%Q)] = Ok r /\ (exists l, lon r = Some l /\ (l == -160)%Q) /\
  getvar r "SST" = Some (25 # 2)%Q /\ get_normalised_anom (add_climate_variable r "SST" (Some 10%Q) (Some (1 # 2)%Q)) "SST" = Ok (Some z) /\ (z == 5)%Q.
Proof. do 2 eexists. split; [reflexivity|]. split; [eexists; split; reflexivity|]. split; [reflexivity|]. split; [vm_compute; reflexivity|reflexivity]. Qed.
