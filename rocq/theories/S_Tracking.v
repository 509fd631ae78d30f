(** Specification vocabulary for the tracking quality control of a drifting buoy. *)
Require Import String ZArith QArith Qround List Bool.
Require Import Verif.M_Base Verif.S_Calendar Verif.M_Report Verif.S_Report Verif.M_Voyage Verif.S_Voyage Verif.S_Track Verif.M_Drifter Verif.S_Drifter Verif.S_Tail Verif.S_Tail2 Verif.S_Files Verif.S_Print Verif.M_Tracking.
Import ListNotations.
Open Scope string_scope.
Open Scope list_scope.
Open Scope Z_scope.

(** The time stamp of the report is its date, hour and minute. *)
Definition stamped (r : report) : Prop :=
  exists la lo d h mi, located r la lo d h /\ 1000 <= yr d <= 9999 /\ 0 <= mi <= 59 /\ 60 * Qfloor h + mi = Qfloor (60 * h) /\
    r_dt r = Some [yr d; mo d; dy d; Qfloor h; mi].

(** Fit for the checks of the track: a buoy with good date, time and position, not blacklisted. *)
Definition on_track (r : report) : Prop :=
  get_qc r "POS" "isbuoy" = 1 /\ get_qc r "POS" "date" = 0 /\ get_qc r "POS" "time" = 0 /\ get_qc r "POS" "pos" = 0 /\ get_qc r "POS" "blklst" = 0.
(** Fit for the checks of the tails: on track, neither aground nor picked up, with a good sea surface temperature. *)
Definition afloat (r : report) : Prop := on_track r /\ get_qc r "POS" "drf_agr" = 0 /\ get_qc r "POS" "drf_spd" = 0.
Definition good_sst (r : report) : Prop :=
  (forall f, In f ["clim"; "nonorm"; "freez"; "noval"; "rep"; "hardlimit"] -> get_qc r "SST" f = 0) /\ get_qc r "SST" "bbud" < 4.
Definition fit_for_tails (r : report) : Prop := afloat r /\ good_sst r.
(** Fit for the check of bias and noise: not in a tail. *)
Definition fit_for_bias (r : report) : Prop := fit_for_tails r /\ get_qc r "SST" "drf_tail1" = 0 /\ get_qc r "SST" "drf_tail2" = 0.

(** [idx] lists the positions in reps of the reports with property P in order of time, simultaneous reports in the order of reps;
    v are these reports. *)
Definition in_record (P : report -> Prop) (reps : list report) (idx : list nat) (v : list report) : Prop :=
  Forall2 (fun i r => nth_error reps i = Some r) idx v /\ lists (fun i => exists r, nth_error reps i = Some r /\ P r) idx /\
  forall j k i i' a b t, (j < k)%nat -> nth_error idx j = Some i -> nth_error idx k = Some i' -> nth_error v j = Some a -> nth_error v k = Some b ->
    hours_between a b t -> (0 < t \/ t == 0 /\ (i < i')%nat)%Q.

(** After the check the flags of a type are set on the reports with property P: in the record they form the check comes to a verdict,
    which says for each of the flags at which positions the report is bad; there the flag is 1, elsewhere in the record 0.  The
    reports without property P keep what they had. *)
Definition flagged_in (type : string) (flags : list string) (P : report -> Prop) (verdict : list report -> list (nat -> Prop) -> Prop)
  (reps reps' : list report) : Prop :=
  exists idx v bads, in_record P reps' idx v /\ length bads = length flags /\ verdict v bads /\
    (forall flag bad, In (flag, bad) (combine flags bads) -> forall j i r', nth_error idx j = Some i -> nth_error reps' i = Some r' ->
       (get_qc r' type flag = 1 /\ bad j) \/ (get_qc r' type flag = 0 /\ ~ bad j)) /\
    (forall flag i r r', In flag flags -> nth_error reps i = Some r -> nth_error reps' i = Some r' -> ~ P r' -> get_qc r' type flag = get_qc r type flag).

(** The seven flags of the tracking control. *)
Definition drifter_flags : list (string * string) :=
  [("POS", "drf_agr"); ("POS", "drf_spd"); ("SST", "drf_tail1"); ("SST", "drf_tail2"); ("SST", "drf_bias"); ("SST", "drf_noise"); ("SST", "drf_short")].
(** r' is r, but for these flags and the derived motion fields. *)
Definition only_tracked (r r' : report) : Prop :=
  r_id r' = r_id r /\ r_uid r' = r_uid r /\ r_data r' = r_data r /\ r_dt r' = r_dt r /\ r_clim r' = r_clim r /\
  (forall n, ~ In n ["speed"; "course"; "distance"; "time_diff"] -> getext r' n = getext r n) /\
  forall t f, (forall t' f', In (t', f') drifter_flags -> ~ same_key t' f' t f) -> get_qc r' t f = get_qc r t f.

(** The flags are right: for a report on track date, time and position are there and its stamp fits. *)
Definition trackable (reps : list report) : Prop := forall r, In r reps -> on_track r -> stamped r.
(** Reports on track in the same minute come in the order of their times. *)
Definition minutes_in_order (reps : list report) : Prop :=
  forall i j a b t, (i < j)%nat -> nth_error reps i = Some a -> nth_error reps j = Some b -> on_track a -> on_track b -> r_dt a = r_dt b ->
    hours_between a b t -> (0 <= t)%Q.
(** One drifting buoy. *)
Definition one_drifter (reps : list report) : Prop := exists id, Forall (fun r => r_id r = id /\ getint r "PT" = Some 7) reps.

(** The same sets of positions. *)
Definition are (bads l : list (nat -> Prop)) : Prop := Forall2 (fun b b' => forall k, b k <-> b' k) bads l.
(** What the four checks find in a record. *)
Definition runs_aground (dist : Q -> Q -> Q -> Q -> Q) (half : nat) (days : Z) (v : list report) (bads : list (nat -> Prop)) : Prop :=
  are bads [aground (window_to_end v half (inject_Z days * 24)) (still dist (dist 0 0 (1 # 100) (1 # 100))%Q v half) half].
Definition picked_up (dist : Q -> Q -> Q -> Q -> Q) (ship dd dt : Q) (n : Z) (limit days : Q) (v : list report) (bads : list (nat -> Prop)) : Prop :=
  exists removed, ship_removed dist ship dd dt n (match v with [] => true | r :: _ => generic_report r end) v removed /\
    are bads [fun k => exists i f, first_after v (fun i => In i removed) (days * 24) i f /\ drifts_faster dist limit v i f /\ (i <= k <= f)%nat].
Definition has_tails (elev : Z -> Z -> Q -> Q -> Q -> Q -> Q) (sq : Q -> Q) (p : tail_params) (half : nat) (v : list report) (bads : list (nat -> Prop)) : Prop :=
  exists obs, comparisons elev (fun _ => True) v obs /\ are bads [start_tail sq p half obs; end_tail sq p half obs].
Definition off_background (elev : Z -> Z -> Q -> Q -> Q -> Q -> Q) (sq : Q -> Q) (p : bias_params) (v : list report) (bads : list (nat -> Prop)) : Prop :=
  exists obs, comparisons elev (fun b => b <= bs_bg p)%Q v obs /\
    are bads [fun _ => record_biased p obs; fun _ => record_noisy sq p obs; fun _ => record_short sq p v obs].

(** A report on track with a good sea surface temperature has the background values that go with it. *)
Definition sst_matched (reps : list report) : Prop :=
  forall r, In r reps -> on_track r -> good_sst r -> exists bg ice var, matched r bg ice var.
(** Parameters in their documented ranges; the windows have 2 half + 1 and 2 half' + 1 observations. *)
Definition track_params_ok (p : track_params) (half half' : nat) : Prop :=
  tp_smooth p = 2 * Z.of_nat half + 1 /\ 1 <= tp_aground p /\ (0 <= tp_speed p)%Q /\ (0 < tp_speed_win p)%Q /\
  (0 <= iq_ship (tp_iquam p))%Q /\ (0 <= iq_d (tp_iquam p))%Q /\ (0 < iq_t (tp_iquam p))%Q /\ tail_params_ok (tp_tail p) half' /\ bias_params_ok (tp_bias p).

(** The directory of the results of a month. *)
Definition track_dir (out : string) (year month : Z) (dir : string) : Prop :=
  exists y m a b, int_text year y /\ padded 2 month m /\ joined out "TrackingQC" a /\ joined a y b /\ joined b m dir.
(** The directory of an edge case. *)
Definition track_edge_dir (out : string) (year month : Z) (edge run dir : string) : Prop :=
  exists d, track_dir out year month d /\ joined d (edge ++ "_" ++ run)%string dir.
(** One file of results in the directory: a header and, in order of time, a row for every report. *)
Definition track_file (str_of : string -> Q -> string) (reps : list report) (id runid dir : string) (year month : Z) (f : string * string) : Prop :=
  exists y m safe idx v rows, int_text year y /\ padded 2 month m /\ made_safe id safe /\ fst f = (dir ++ "/Tracking_" ++ y ++ m ++ "_" ++ safe ++ "_" ++ runid ++ ".csv")%string /\
    in_record (fun _ => True) reps idx v /\ Forall2 (track_row str_of) v rows /\ csv_file (track_header :: rows) (snd f).
(** One file of a kind if a condition holds, none otherwise. *)
Definition one_if (C : Prop) (Q : string * string -> Prop) (l : list (string * string)) : Prop := (C -> exists f, l = [f] /\ Q f) /\ (~ C -> l = []).
