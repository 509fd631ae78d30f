(** C46 base quality control of single reports. *)
Require Import String ZArith QArith Qround Qabs List Bool Lia Lqa.
Require Import Verif.M_Base Verif.L_Base Verif.S_Calendar Verif.S_Checks Verif.M_Report Verif.S_Report Verif.L_Report3 Verif.M_Sun Verif.S_Sun
  Verif.M_BaseQC Verif.S_BaseQC Verif.L_BaseQC Verif.L_BaseQC2 Verif.L_BaseQC3 Verif.L_BaseQC4.
Import ListNotations.
Open Scope string_scope.
Open Scope list_scope.
Open Scope Z_scope.

(** What base QC sees of a report. *)
Definition view (r : report) : seen := {| s_id := r_id r; s_var := getvar r; s_norm := getnorm r; s_sd := getnorm_stdev r |}.
(** Every flag of the table is 1 when its condition holds and 0 when it does not. *)
Definition flagged (r : report) (t : list (string * string * Prop)) : Prop :=
  forall v f P, In (v, f, P) t -> (get_qc r v f = 1 /\ P) \/ (get_qc r v f = 0 /\ ~ P).
(** Flags stored under any other name are as before. *)
Definition other_flags_kept (r r' : report) (t : list (string * string * Prop)) : Prop :=
  forall v f, (forall v' f' P, In (v', f', P) t -> (v ++ f)%string <> (v' ++ f')%string) -> get_qc r' v f = get_qc r v f.
(** Nothing but flags changes, except the hour (and with it the time stamp) in the documented repair. *)
Definition data_kept (r r' : report) : Prop :=
  r_id r' = r_id r /\ r_uid r' = r_uid r /\ r_ext r' = r_ext r /\ r_clim r' = r_clim r /\
  (forall n, n <> "HR" -> getvar r' n = getvar r n) /\
  (hour_to_fix (view r) -> getvar r' "HR" = Some 0%Q) /\
  (~ hour_to_fix (view r) -> r_data r' = r_data r /\ r_dt r' = r_dt r).

Lemma run_flagged : forall g (tab : seen -> list entry), (forall o, processable o -> after [] g o (tab o)) ->
  forall r, processable (view r) -> wf_report r ->
  exists r', bind (do_fix_missing_hour r) g = Ok r' /\ flagged r' (tab (view r')) /\ other_flags_kept r r' (tab (view r')) /\ data_kept r r'.
Proof.
  intros g tab H r P W. destruct (run_spec g tab H r P W) as [r' [A [B [C D]]]]. exists r'. split; [exact A|]. split; [|split; [|exact D]].
  - intros v f P0 I. exact (established_in r' _ (v, f, P0) B I).
  - intros v f N. apply C. intros [[v' f'] P0] I. exact (N v' f' P0 I).
Qed.

(** Every report with a position, a year and a month gets all the base flags, each with the value its own
    condition demands; no other flag is touched and nothing else changes. *)
Theorem C46_base_qc : forall elev p r, elevation_like elev -> sane p -> processable (view r) -> wf_report r ->
  exists r', perform_base_qc elev p r = Ok r' /\ flagged r' (base_flags elev p (view r')) /\
    other_flags_kept r r' (base_flags elev p (view r')) /\ data_kept r r'.
Proof.
  intros elev p r He Hp P W. exact (run_flagged (head_then p elev (tail_steps p)) (base_flags elev p) (fun o Ho => core_after p Hp elev He o Ho) r P W).
Qed.
Print Assumptions C46_base_qc.

(** The table has 36 flags under 36 different names. *)
Theorem C46_names : forall elev p o, length (base_flags elev p o) = 36%nat /\ NoDup (map (fun e => (fst (fst e) ++ snd (fst e))%string) (base_flags elev p o)).
Proof.
  intros elev p o. split; [reflexivity|]. change (map (fun e => (fst (fst e) ++ snd (fst e))%string) (base_flags elev p o)) with (keys (base_flags elev p o)).
  assert (E : keys (base_flags elev p o) = nodup string_dec (keys (base_flags elev p o))) by (vm_compute; reflexivity). rewrite E. apply NoDup_nodup.
Qed.
Print Assumptions C46_names.

(** The flags depend on the report alone: flags set before, the stamp and the unique identifier are irrelevant. *)
Theorem C46_report_alone : forall elev p r s, elevation_like elev -> sane p -> processable (view r) -> wf_report r ->
  r_id s = r_id r -> r_data s = r_data r -> r_ext s = r_ext r -> r_clim s = r_clim r ->
  exists r' s', perform_base_qc elev p r = Ok r' /\ perform_base_qc elev p s = Ok s' /\
    forall v f P, In (v, f, P) (base_flags elev p (view r')) -> get_qc s' v f = get_qc r' v f.
Proof.
  intros elev p r s He Hp P W I D X C.
  destruct (run_flags_fun (head_then p elev (tail_steps p)) (base_flags elev p) (fun o Ho => core_after p Hp elev He o Ho) r s P W I D X C) as [r' [s' [A [B F]]]].
  exists r', s'. split; [exact A|]. split; [exact B|]. intros v f P0 J. rewrite Forall_forall in F. exact (F _ J).
Qed.
Print Assumptions C46_report_alone.

(** Repeating base QC changes nothing that can be observed. *)
Theorem C46_repeat : forall elev p r, elevation_like elev -> sane p -> processable (view r) -> wf_report r ->
  exists r' r'', perform_base_qc elev p r = Ok r' /\ perform_base_qc elev p r' = Ok r'' /\ (forall v f, get_qc r'' v f = get_qc r' v f) /\ r'' = with_qc r' (r_qc r'').
Proof.
  intros elev p r He Hp P W. exact (run_twice (head_then p elev (tail_steps p)) (base_flags elev p) (fun o Ho => core_after p Hp elev He o Ho) r P W).
Qed.
Print Assumptions C46_repeat.

(** The variants for wind, pressure and sea surface temperature: the same conditions for their own flags. *)
Theorem C46_wind : forall elev p r, sane p -> processable (view r) -> wf_report r ->
  exists r', perform_base_wind_qc p r = Ok r' /\ flagged r' (base_wind_flags p (view r')) /\ other_flags_kept r r' (base_wind_flags p (view r')) /\ data_kept r r' /\
    incl (base_wind_flags p (view r')) (base_flags elev p (view r')).
Proof.
  intros elev p r Hp P W.
  destruct (run_flagged (wind_steps p) _ (fun o Ho => wind_after p Hp o Ho) r P W) as [r' [A [B [C D]]]]. exists r'. split; [exact A|].
  assert (E : forall x, In x (base_wind_flags p (view r')) <-> In x (kind_flags (view r') ++ wind_source_flags (view r') ++ place_flags (view r') ++ wind_flags p (view r'))).
  { intro x. unfold base_wind_flags. rewrite !in_app_iff. tauto. }
  split; [intros v f P0 I; apply B, E, I|]. split; [|split; [exact D|]].
  - intros v f N. apply C. intros v' f' P0 I. apply (N v' f' P0), E, I.
  - intros x I. unfold base_wind_flags, base_flags in *. rewrite !in_app_iff in *. tauto.
Qed.
Print Assumptions C46_wind.
Theorem C46_slp : forall elev p r, elevation_like elev -> sane p -> processable (view r) -> wf_report r ->
  exists r', perform_base_slp_qc elev p r = Ok r' /\ flagged r' (base_slp_flags elev p (view r')) /\ other_flags_kept r r' (base_slp_flags elev p (view r')) /\ data_kept r r' /\
    incl (base_slp_flags elev p (view r')) (base_flags elev p (view r')).
Proof.
  intros elev p r He Hp P W.
  destruct (run_flagged (head_then p elev (do_base_slp_qc p)) _ (fun o Ho => slp_after p Hp elev He o Ho) r P W) as [r' [A [B [C D]]]]. exists r'. split; [|split; [exact B|split; [exact C|split; [exact D|]]]].
  - rewrite <- A. unfold perform_base_slp_qc, base_positional, head_then. rewrite !bind_assoc.
    repeat (match goal with |- bind ?x _ = bind ?x _ => destruct x; [cbn [bind]; rewrite ?bind_assoc|reflexivity] end). reflexivity.
  - intros x I. unfold base_slp_flags, base_pos_flags, base_flags in *. rewrite !in_app_iff in *. tauto.
Qed.
Print Assumptions C46_slp.
Theorem C46_sst : forall elev p r, elevation_like elev -> sane p -> processable (view r) -> wf_report r ->
  exists r', perform_base_sst_qc elev p r = Ok r' /\ flagged r' (base_sst_flags elev p (view r')) /\ other_flags_kept r r' (base_sst_flags elev p (view r')) /\ data_kept r r' /\
    incl (base_sst_flags elev p (view r')) (base_flags elev p (view r')).
Proof.
  intros elev p r He Hp P W.
  destruct (run_flagged (head_then p elev (do_base_sst_qc p)) _ (fun o Ho => sst_after p Hp elev He o Ho) r P W) as [r' [A [B [C D]]]]. exists r'. split; [|split; [exact B|split; [exact C|split; [exact D|]]]].
  - rewrite <- A. unfold perform_base_sst_qc, base_positional, head_then. rewrite !bind_assoc.
    repeat (match goal with |- bind ?x _ = bind ?x _ => destruct x; [cbn [bind]; rewrite ?bind_assoc|reflexivity] end). reflexivity.
  - intros x I. unfold base_sst_flags, base_pos_flags, base_flags in *. rewrite !in_app_iff in *. tauto.
Qed.
Print Assumptions C46_sst.

(** The older routine of qc.py: the same kind of table with its own limits, for reports with an hour. *)
Theorem C46_old : forall elev r, elevation_like elev -> processable (view r) -> timed (view r) ->
  exists r', base_qc_report elev r = Ok r' /\ flagged r' (old_flags elev (view r)) /\ other_flags_kept r r' (old_flags elev (view r)) /\
    r_id r' = r_id r /\ r_data r' = r_data r /\ r_ext r' = r_ext r /\ r_clim r' = r_clim r /\ r_dt r' = r_dt r.
Proof.
  intros elev r He P T. destruct (old_after elev He (seen_of r) (Hcoords _ P) (Hmonth _ P) T r eq_refl (Forall_nil _)) as [l [A R]].
  exists (with_qc r (l ++ r_qc r)). split; [exact A|]. pose proof (established_new r l _ R) as B. split; [|split; [|repeat split]].
  - intros v f P0 I. exact (established_in _ _ (v, f, P0) B I).
  - intros v f N. apply (outside_with r l _ R). intros [[v' f'] P0] I. exact (N v' f' P0 I).
Qed.
Print Assumptions C46_old.

(** A report without latitude, longitude, year or month stops the program. *)
Theorem C46_raises : forall elev p r, getvar r "HR" <> None ->
  getvar r "LAT" = None \/ getvar r "LON" = None \/ getvar r "YR" = None \/ getvar r "MO" = None -> perform_base_qc elev p r = Err AssertionError.
Proof. exact raises. Qed.
Print Assumptions C46_raises.

(* ---- findings ---- *)

Definition ex_p : params :=
  {| p_since := 1; p_sst_freeze := -9 # 5; p_sst_sigma := 2; p_sst_anom := 8; p_sst_lim := (-5, 45)%Q;
     p_at_anom := 10; p_at_lim := (-80, 65)%Q; p_at_sd := (1, 4)%Q; p_at_k := 11 # 2;
     p_dpt_lim := (-80, 65)%Q; p_dpt_sd := (1, 4)%Q; p_dpt_k := 11 # 2; p_shu_lim := (0, 40)%Q; p_rh_lim := (0, 150)%Q;
     p_slp_k := 3; p_slp_bar := 10; p_w_lim := (0, 50)%Q; p_w_var := 3; p_dat_anom := 10; p_dat_lim := (-80, 65)%Q |}.
Definition sun0 (y k : Z) (hh mm la lo : Q) : Q := if Qleb 6 hh && Qltb hh 18 then 30%Q else (-30)%Q.
Definition ex_fields (deck year lonv at2 : Q) : list (string * option Q) :=
  [("YR", Some year); ("MO", Some 3); ("DY", Some 4); ("HR", Some (25 # 2)); ("LAT", Some 42); ("LON", Some lonv); ("DCK", Some deck); ("PT", Some 5); ("SST", Some (51 # 5));
   ("AT", Some 12); ("AT2", Some at2); ("DPT", Some 9); ("SHU", Some 7); ("W", Some 6); ("D", Some 180); ("SLP", Some 1011)]%Q.
Definition rep_of (deck year lonv at2 : Q) : report :=
  match new_report (Some "SHIP1    ") (Some "U1") (ex_fields deck year lonv at2) with
  | Ok r => add_climate_variable (add_climate_variable r "SST" (Some 10%Q) (Some 1%Q)) "SLP" (Some 1013%Q) (Some 0%Q)
  | Err _ => {| r_id := None; r_uid := None; r_data := []; r_dt := None; r_qc := []; r_ext := []; r_clim := [] |}
  end.
Definition result (x : res report) : list Z :=
  match x with
  | Ok r => map (fun e => get_qc r (fst e) (snd e)) [("POS", "pos"); ("POS", "date"); ("POS", "time"); ("POS", "day"); ("POS", "isship"); ("AT", "mat_blacklist"); ("POS", "mat_blacklist"); ("SST", "clim"); ("SLP", "clim"); ("DPT", "hardlimit"); ("AT2", "hardlimit")]
  | Err _ => []
  end.

(** The relative humidity is looked up under a name no report has, so every report fails the humidity limits. *)
Theorem C46_humidity_limits_refuted : forall elev p r, elevation_like elev -> sane p -> processable (view r) -> wf_report r -> getvar r "RH" = None ->
  exists r', perform_base_qc elev p r = Ok r' /\ get_qc r' "DPT" "hardlimit" = 1.
Proof.
  intros elev p r He Hp P W N. destruct (C46_base_qc elev p r He Hp P W) as [r' [A [F [_ K]]]]. exists r'. split; [exact A|].
  destruct (F "DPT" "hardlimit" _ ltac:(unfold base_flags; rewrite !in_app_iff; do 12 right; left; left; reflexivity)) as [[X _]|[_ X]]; [exact X|]. exfalso. apply X. intros [_ [_ [_ [x [Y _]]]]].
  change (getvar r' "RH" = Some x) in Y. destruct K as [_ [_ [_ [_ [K _]]]]]. rewrite K in Y by discriminate. congruence.
Qed.
Print Assumptions C46_humidity_limits_refuted.
(** No report has that name: it is not a variable, and reading a record adds only course and speed. *)
Theorem C46_no_relative_humidity : forall id uid fields r, new_report id uid fields = Ok r -> getvar r "RH" = None.
Proof.
  intros id uid fields r H. unfold new_report in H. destruct (calculate_dt _) as [r1|] eqn:E; [|discriminate]. cbn [bind] in H.
  assert (X : r_ext r1 = []).
  { unfold calculate_dt in E. repeat match type of E with
      | (match ?x with _ => _ end) = Ok _ => destruct x
      | (let! _ := ?x in _) = Ok _ => destruct x; [cbn [bind] in E|discriminate]
      | Ok _ = Ok _ => injection E as <-; reflexivity end. }
  unfold calculate_dsi_vsi in H. destruct (match getint r1 "DS" with Some d => _ | None => _ end) as [dsi|]; [|discriminate]. cbn [bind] in H. injection H as <-.
  unfold getvar. change (index_of "RH" VARLIST) with (Err ValueError : res nat). cbn [setext with_ext r_ext]. rewrite X. reflexivity.
Qed.
Print Assumptions C46_no_relative_humidity.

(** The hard limits of the second air temperature are applied to the first. *)
Theorem C46_at2_limits_refuted : exists elev p r r', elevation_like elev /\ sane p /\ perform_base_qc elev p r = Ok r' /\ get_qc r' "AT2" "hardlimit" = 0 /\ ~ inside (p_at_lim p) (getvar r' "AT2").
Proof.
  exists (fun _ _ _ _ _ _ => 0%Q), ex_p, (rep_of 927 1990 10 500). eexists. split; [split; intros; [reflexivity|split; discriminate]|]. split; [repeat split; (reflexivity || discriminate)|].
  split; [vm_compute; reflexivity|]. split; [reflexivity|]. intros [x [A [_ B]]]. vm_compute in A. injection A as <-. vm_compute in B. apply B. reflexivity.
Qed.
Print Assumptions C46_at2_limits_refuted.

(** Quality control of daytime air temperature always stops: DAT is not a known variable. *)
Theorem C46_dat_refuted : forall elev p r, exists e, perform_base_dat_qc elev p r = Err e.
Proof. exact dat_raises. Qed.
Print Assumptions C46_dat_refuted.

(** The two routines disagree: deck 193 in 1893, and where the flag is stored; longitudes up to 540 pass the
    older position test; without an hour the older routine stops. *)
Theorem C46_old_disagrees_refuted :
  (exists r1 r2, base_qc_report sun0 (rep_of 193 1893 10 12) = Ok r1 /\ perform_base_qc sun0 ex_p (rep_of 193 1893 10 12) = Ok r2 /\
     get_qc r1 "POS" "mat_blacklist" = 1 /\ get_qc r1 "AT" "mat_blacklist" = 9 /\ get_qc r2 "AT" "mat_blacklist" = 0) /\
  (exists r1 r2, base_qc_report sun0 (rep_of 927 1990 400 12) = Ok r1 /\ perform_base_qc sun0 ex_p (rep_of 927 1990 400 12) = Ok r2 /\
     get_qc r1 "POS" "pos" = 0 /\ get_qc r2 "POS" "pos" = 1) /\
  (exists r r2, base_qc_report sun0 r = Err AssertionError /\ perform_base_qc sun0 ex_p r = Ok r2 /\ getvar r "HR" = None /\ get_qc r2 "POS" "time" = 1).
Proof.
  split; [|split].
  - do 2 eexists. split; [vm_compute; reflexivity|]. split; [vm_compute; reflexivity|]. split; [reflexivity|]. split; reflexivity.
  - do 2 eexists. split; [vm_compute; reflexivity|]. split; [vm_compute; reflexivity|]. split; reflexivity.
  - destruct (setvar (rep_of 927 1990 10 12) "HR" None) as [r|e] eqn:E; [|vm_compute in E; discriminate].
    exists r. vm_compute in E. injection E as <-. eexists. split; [vm_compute; reflexivity|]. split; [vm_compute; reflexivity|]. split; reflexivity.
Qed.
Print Assumptions C46_old_disagrees_refuted.

(** Concrete cases that meet the hypotheses. *)
Example C46_ex : sane ex_p /\ elevation_like sun0 /\ processable (view (rep_of 193 1885 10 12)) /\ wf_report (rep_of 193 1885 10 12) /\ timed (view (rep_of 193 1885 10 12)) /\
  result (perform_base_qc sun0 ex_p (rep_of 193 1885 10 12)) = [0; 0; 0; 1; 1; 1; 9; 0; 0; 1; 0] /\
  result (perform_base_qc sun0 ex_p (rep_of 927 2025 200 12)) = [0; 1; 0; 1; 1; 0; 9; 0; 0; 1; 0].
Proof.
  split; [repeat split; (reflexivity || discriminate)|]. split.
  { split.
    - intros y k a a' b b' c c' d d' A _ _ _. unfold sun0.
      assert (E1 : Qleb 6 a = Qleb 6 a') by (destruct (Qleb 6 a) eqn:X, (Qleb 6 a') eqn:Y; auto; qprop; lra).
      assert (E2 : Qltb a 18 = Qltb a' 18) by (destruct (Qltb a 18) eqn:X, (Qltb a' 18) eqn:Y; auto; qprop; lra).
      rewrite E1, E2. reflexivity.
    - intros. unfold sun0. destruct (Qleb 6 a && Qltb a 18); split; discriminate. }
  split.
  { split; [exists 42%Q, 10%Q; split; reflexivity|]. split; [exists 1885, 3; repeat split; try lia; (eexists; split; [vm_compute; reflexivity|reflexivity])|].
    intros z H. vm_compute in H. injection H as <-. discriminate. }
  split; [reflexivity|]. split; [exists (25 # 2)%Q; split; [reflexivity|split; [discriminate|reflexivity]]|]. split; vm_compute; reflexivity.
Qed.
Example C46_ex_fix : exists r, new_report None None [("YR", Some 1850%Q); ("MO", Some 3%Q); ("DY", Some 4%Q); ("LAT", Some 42%Q); ("LON", Some 1%Q); ("DCK", Some 701%Q)] = Ok r /\
  hour_to_fix (view r) /\ result (perform_base_qc sun0 ex_p r) = [0; 0; 0; 0; 0; 0; 9; 1; 1; 1; 1].
Proof.
  eexists. split; [vm_compute; reflexivity|]. split; [|vm_compute; reflexivity].
  split; [eexists; split; [vm_compute; reflexivity|reflexivity]|]. split; [|reflexivity]. exists 1850. split; [eexists; split; [vm_compute; reflexivity|reflexivity]|lia].
Qed.
