(** C57 the tracking quality control of a drifting buoy: the four checks one after the other, the files of results. *)
Require Import String ZArith QArith Qround List Bool Lia Lqa.
Require Import Verif.M_Base Verif.L_Base Verif.S_Calendar Verif.L_Calendar Verif.S_Sun Verif.M_Report Verif.S_Report Verif.L_Report Verif.M_Voyage Verif.S_Voyage Verif.M_Track Verif.S_Track Verif.L_Track5
  Verif.M_Drifter Verif.S_Drifter Verif.S_Tail Verif.S_Tail2 Verif.S_Files Verif.S_Print Verif.P_Track Verif.P_Drifter Verif.P_Tail Verif.M_Tracking Verif.S_Tracking Verif.L_Tracking Verif.L_Tracking2 Verif.L_Tracking3 Verif.L_Tracking4 Verif.L_Main Verif.P_Sun.
Import ListNotations.
Open Scope string_scope.
Open Scope list_scope.
Open Scope Z_scope.

(** sp is any geometry, elev any elevation of the sun, sq any square root.  On the reports of one drifter the control ends; it
    changes nothing but its seven flags (and the derived motion fields).  It flags the reports aground among those with good date,
    time and position, those picked up among the same ones, the tails of the temperatures among the reports still afloat with
    a good temperature, and bias, noise and short records among those outside the tails.  Each check sees its reports in order of
    time, whatever their order in the files. *)
Theorem C57_track_checks : forall sp elev sq p half half' reps,
  well_defined sp -> distance_like (sp_dist sp) -> elevation_like elev -> (forall a b, a == b -> sq a == sq b)%Q -> track_params_ok p half half' ->
  one_drifter reps -> trackable reps -> minutes_in_order reps -> sst_matched reps ->
  let iq := tp_iquam p in
  exists reps', track_checks sp elev sq p reps = Ok reps' /\ Forall2 only_tracked reps reps' /\
    flagged_in "POS" ["drf_agr"] on_track (runs_aground (sp_dist sp) half (tp_aground p)) reps reps' /\
    flagged_in "POS" ["drf_spd"] on_track (picked_up (sp_dist sp) (iq_ship iq) (iq_d iq) (iq_t iq) (iq_n iq) (tp_speed p) (tp_speed_win p)) reps reps' /\
    flagged_in "SST" ["drf_tail1"; "drf_tail2"] fit_for_tails (has_tails elev sq (tp_tail p) half') reps reps' /\
    flagged_in "SST" ["drf_bias"; "drf_noise"; "drf_short"] fit_for_bias (off_background elev sq (tp_bias p)) reps reps'.
Proof.
  intros sp elev sq p half half' reps W D E S [P1 [P2 [P3 [P4 [P5 [P6 [P7 [P8 P9]]]]]]]] A B C M iq.
  exact (chain_ok sp elev sq W D E S p half half' P1 P2 P3 P4 P5 P6 P7 P8 P9 reps (conj A (conj B (conj C M)))).
Qed.
Print Assumptions C57_track_checks.

(** A report that fails the checks of the main program, or is not from a buoy, keeps all its flags. *)
Theorem C57_unfit_untouched : forall sp elev sq p half half' reps reps',
  well_defined sp -> distance_like (sp_dist sp) -> elevation_like elev -> (forall a b, a == b -> sq a == sq b)%Q -> track_params_ok p half half' ->
  one_drifter reps -> trackable reps -> minutes_in_order reps -> sst_matched reps -> track_checks sp elev sq p reps = Ok reps' ->
  forall i r r', nth_error reps i = Some r -> nth_error reps' i = Some r' -> ~ on_track r -> forall t f, get_qc r' t f = get_qc r t f.
Proof.
  intros sp elev sq p half half' reps reps' W D E S P A B C M H i r r' N N' NT t f.
  destruct (C57_track_checks sp elev sq p half half' reps W D E S P A B C M) as [reps2 [H2 [U [F1 [F2 [F3 F4]]]]]]. rewrite H in H2. apply ok_inj in H2. subst reps2.
  destruct (Forall2_nth _ _ _ _ _ U _ _ N) as [r2 [N2 [_ [_ [_ [_ [_ [_ Q]]]]]]]]. rewrite N' in N2. injection N2 as <-.
  assert (NT' : ~ on_track r') by (intro K; apply NT; unfold on_track in *; rewrite !Q in K by (unfold drifter_flags; keys); exact K).
  destruct (in_dec string_dec (t ++ f)%string (map (fun k => (fst k ++ snd k)%string) drifter_flags)) as [I|I].
  - assert (X : forall t' f', same_key t f t' f' -> get_qc r' t' f' = get_qc r t' f' -> get_qc r' t f = get_qc r t f) by (intros t' f' K G; unfold get_qc, same_key in *; rewrite K; exact G).
    destruct F1 as [i1 [v1 [b1 [_ [_ [_ [_ G1]]]]]]], F2 as [i2 [v2 [b2 [_ [_ [_ [_ G2]]]]]]], F3 as [i3 [v3 [b3 [_ [_ [_ [_ G3]]]]]]], F4 as [i4 [v4 [b4 [_ [_ [_ [_ G4]]]]]]].
    assert (NF : ~ fit_for_tails r') by (intros [[K _] _]; contradiction). assert (NB : ~ fit_for_bias r') by (intros [K _]; contradiction).
    cbn [drifter_flags map fst snd] in I. destruct I as [I|[I|[I|[I|[I|[I|[I|[]]]]]]]].
    + apply (X "POS" "drf_agr" (eq_sym I)). apply (G1 "drf_agr" i r r'); auto. now left.
    + apply (X "POS" "drf_spd" (eq_sym I)). apply (G2 "drf_spd" i r r'); auto. now left.
    + apply (X "SST" "drf_tail1" (eq_sym I)). apply (G3 "drf_tail1" i r r'); auto. now left.
    + apply (X "SST" "drf_tail2" (eq_sym I)). apply (G3 "drf_tail2" i r r'); auto. right. now left.
    + apply (X "SST" "drf_bias" (eq_sym I)). apply (G4 "drf_bias" i r r'); auto. now left.
    + apply (X "SST" "drf_noise" (eq_sym I)). apply (G4 "drf_noise" i r r'); auto. right. now left.
    + apply (X "SST" "drf_short" (eq_sym I)). apply (G4 "drf_short" i r r'); auto. right. right. now left.
  - apply Q. intros t' f' J K. apply I. apply in_map_iff. exists (t', f'). split; [exact K|exact J].
Qed.
Print Assumptions C57_unfit_untouched.

(** The results: one file in the directory of the last month for a new or regular buoy, one in a directory of its own for each edge
    case; each holds a header and one row for every report, in order of time. *)
Theorem C57_output : forall sp str_of reps id p out edge run year month, (forall n q, float_text (str_of n q)) -> reps <> [] -> 0 <= month ->
  Forall (fun r => r_id r = Some id /\ printable r /\ stamped r) reps ->
  (forall i j a b t, (i < j)%nat -> nth_error reps i = Some a -> nth_error reps j = Some b -> r_dt a = r_dt b -> hours_between a b t -> (0 <= t)%Q) ->
  let good dir_ok f := exists dir, dir_ok dir /\ track_file str_of reps id (tp_runid p) dir year month f in
  exists voy a b c, whole_record sp reps = Ok voy /\ track_output str_of p out edge run year month voy = Ok (a ++ b ++ c) /\
    one_if (In "new" edge \/ In "regular" edge) (good (track_dir out year month)) a /\
    one_if (In "start_edge_case" edge) (good (track_edge_dir out year month "start_edge_case" run)) b /\
    one_if (In "end_edge_case" edge) (good (track_edge_dir out year month "end_edge_case" run)) c.
Proof.
  intros sp str_of reps id p out edge run year month STR NE M A B good. rewrite Forall_forall in A.
  destruct (output_ok sp str_of STR reps id NE (fun r I => proj1 (A r I)) (proj2 (Forall_forall _ _) (fun r I => proj1 (proj2 (A r I)))) (fun r I => proj2 (proj2 (A r I))) B p out edge run year month M)
    as [voy [a [b [c [W [O [H1 [H2 H3]]]]]]]]. exists voy, a, b, c. split; [exact W|]. split; [exact O|].
  assert (X : forall C bb dk l, (bb = true <-> C) -> (if bb : bool then exists f dir, l = [f] /\ dk dir /\ track_file str_of reps id (tp_runid p) dir year month f else l = []) -> one_if C (good dk) l).
  { intros C bb dk l E H. split; intro K.
    - apply E in K. subst bb. destruct H as [f [dir [H1' [H2' H3']]]]. exists f. split; [exact H1'|]. exists dir. auto.
    - destruct bb; [exfalso; apply K; now apply E|exact H]. }
  split; [|split]; (eapply X; [|eassumption]).
  - rewrite orb_true_iff, !mem_In. reflexivity.
  - apply mem_In.
  - apply mem_In.
Qed.
Print Assumptions C57_output.

(* ---- a record of ten days, reports out of order, one blacklisted ---- *)

Definition clean (blk : Z) : list (string * Z) :=
  [("POSisbuoy", 1); ("POSdate", 0); ("POStime", 0); ("POSpos", 0); ("POSblklst", blk);
   ("SSTclim", 0); ("SSTnonorm", 0); ("SSTfreez", 0); ("SSTnoval", 0); ("SSTrep", 0); ("SSThardlimit", 0); ("SSTbbud", 0)].
Definition buoy (d : Z) (la s : Q) (blk : Z) : report :=
  {| r_id := Some "12345    "; r_uid := Some "U1";
     r_data := [Some 2000; Some 1; Some (inject_Z d); Some 0; Some la; Some 0; None; None; None; None; None; Some s; None; Some 7; None; None;
                None; None; None; None; None; None; None; None; None; None]%Q;
     r_dt := Some [2000; 1; d; 0; 0]; r_qc := clean blk; r_ext := [("OSTIA", Some 5); ("ICE", None); ("BGVAR", Some (1 # 100))]%Q; r_clim := [] |}.
Lemma buoy_loc : forall d la s b, 1 <= d <= 31 -> located (buoy d la s b) la 0 (mkdate 2000 1 d) 0.
Proof.
  intros d la s b H. constructor; try reflexivity.
  - change (getint (buoy d la s b) "DY") with (Some (py_int (inject_Z (py_int (inject_Z d))))). rewrite !py_int_whole. reflexivity.
  - exists 31. split; [exact jan_has|exact H].
  - split; [discriminate|reflexivity].
Qed.
Lemma buoy_stamped : forall d la s b, 1 <= d <= 31 -> stamped (buoy d la s b).
Proof. intros d la s b H. exists la, 0%Q, (mkdate 2000 1 d), 0%Q, 0. split; [now apply buoy_loc|]. cbn [yr mo dy]. repeat split; lia. Qed.
Definition ten_days : list report :=
  [buoy 3 1 9 0; buoy 1 (-4) 9 0; buoy 2 (19 # 20) 9 0; buoy 4 2 5 0; buoy 6 4 5 0; buoy 5 3 5 0; buoy 7 90 5 1; buoy 8 5 5 0; buoy 9 5 5 0; buoy 10 5 5 0; buoy 11 5 5 0; buoy 12 5 5 0].
Definition toy_track : track_params :=
  {| tp_smooth := 1; tp_aground := 2; tp_iquam := {| iq_buoy := 15; iq_ship := 60; iq_d := 11; iq_t := 1 # 100; iq_n := 5 |}; tp_speed := 2; tp_speed_win := 1; tp_tail := toy_tail; tp_bias := toy_bias 3; tp_runid := "run" |}.
Definition ex_flags (r : report) : list Z :=
  [get_qc r "POS" "drf_agr"; get_qc r "POS" "drf_spd"; get_qc r "SST" "drf_tail1"; get_qc r "SST" "drf_tail2"; get_qc r "SST" "drf_bias"; get_qc r "SST" "drf_noise"; get_qc r "SST" "drf_short"].
Lemma plane_dist : distance_like (sp_dist plane).
Proof.
  split; intros; cbn [plane sp_dist].
  - destruct (Qabs'_cases (a - c)) as [[A ->]|[A ->]], (Qabs'_cases (b - d)) as [[B ->]|[B ->]], (Qabs'_cases (c - a)) as [[C ->]|[C ->]], (Qabs'_cases (d - b)) as [[D ->]|[D ->]]; lra.
  - destruct (Qabs'_cases (a - a)) as [[A ->]|[A ->]], (Qabs'_cases (b - b)) as [[B ->]|[B ->]]; lra.
Qed.
Definition a_buoy (r : report) : Prop := exists d la s b, 1 <= d <= 31 /\ (-90 <= la <= 90)%Q /\ r = buoy d la s b.
Lemma ten_days_buoys : Forall a_buoy ten_days.
Proof. unfold ten_days. repeat (constructor; [eexists _, _, _, _; split; [|split; [|reflexivity]]; [lia|split; discriminate]|]). constructor. Qed.
Lemma buoys_ok : forall reps, Forall a_buoy reps -> one_drifter reps /\ trackable reps /\ sst_matched reps.
Proof.
  intros reps F. rewrite Forall_forall in F. split; [|split].
  - exists (Some "12345    "). apply Forall_forall. intros r I. destruct (F r I) as [d [la [s [b [_ [_ ->]]]]]]. split; reflexivity.
  - intros r I _. destruct (F r I) as [d [la [s [b [D [_ ->]]]]]]. now apply buoy_stamped.
  - intros r I _ _. destruct (F r I) as [d [la [s [b [D [L ->]]]]]]. exists (Some 5%Q), None, (Some (1 # 100)%Q). constructor; try reflexivity.
    + discriminate.
    + intros x E. injection E as <-. split; [split; discriminate|]. exists (1 # 100)%Q. split; [reflexivity|split; discriminate].
    + eexists. reflexivity.
    + exists la, 0%Q. split; [split; reflexivity|exact L].
Qed.
Lemma no_minutes_shared : forall reps, NoDup (map r_dt reps) -> forall i j a b t, (i < j)%nat -> nth_error reps i = Some a -> nth_error reps j = Some b -> r_dt a = r_dt b -> hours_between a b t -> (0 <= t)%Q.
Proof.
  intros reps N i j a b t L A B E _. exfalso. rewrite NoDup_nth_error in N. assert (i = j); [|lia]. apply N.
  - rewrite map_length. apply nth_error_Some. congruence.
  - rewrite !nth_error_map, A, B. cbn. now rewrite E.
Qed.
Lemma ten_days_distinct : NoDup (map r_dt ten_days).
Proof. cbn. repeat (constructor; [cbn; intuition discriminate|]). constructor. Qed.
Example C57_ex : track_params_ok toy_track 0 1 /\ one_drifter ten_days /\ trackable ten_days /\ minutes_in_order ten_days /\ sst_matched ten_days /\
  well_defined plane /\ distance_like (sp_dist plane) /\ elevation_like toy_sun /\
  match track_checks plane toy_sun (fun x => x) toy_track ten_days with
  | Ok reps' => map ex_flags reps' =
      [[0; 0; 1; 0; 9; 9; 9]; [0; 1; 9; 9; 9; 9; 9]; [0; 1; 9; 9; 9; 9; 9]; [0; 0; 1; 0; 9; 9; 9]; [0; 0; 0; 0; 0; 0; 0]; [0; 0; 0; 0; 0; 0; 0];
       [9; 9; 9; 9; 9; 9; 9]; [1; 0; 9; 9; 9; 9; 9]; [1; 0; 9; 9; 9; 9; 9]; [1; 0; 9; 9; 9; 9; 9]; [1; 0; 9; 9; 9; 9; 9]; [1; 0; 9; 9; 9; 9; 9]]
  | Err _ => False
  end.
Proof.
  destruct (buoys_ok ten_days ten_days_buoys) as [A [B C]]. split; [repeat split; try discriminate; try reflexivity|]. split; [exact A|]. split; [exact B|]. split; [|split; [exact C|]].
  - intros i j a b t L N N' _ _. exact (no_minutes_shared ten_days ten_days_distinct i j a b t L N N').
  - split; [exact plane_ok|]. split; [exact plane_dist|]. split; [exact toy_sun_ok|]. vm_compute. reflexivity.
Qed.

(** Findings. *)
(** Two reports in the same minute: the time stamps carry no seconds, so sorting leaves them as they came; if the later one comes
    first the control stops with an error. *)
Definition buoy_at (h : Q) (mi : Z) : report :=
  {| r_id := Some "12345    "; r_uid := Some "U1";
     r_data := [Some 2000; Some 1; Some 1; Some h; Some 5; Some 0; None; None; None; None; None; Some 5; None; Some 7; None; None;
                None; None; None; None; None; None; None; None; None; None]%Q;
     r_dt := Some [2000; 1; 1; Qfloor h; mi]; r_qc := clean 0; r_ext := [("OSTIA", Some 5); ("ICE", None); ("BGVAR", Some (1 # 100))]%Q; r_clim := [] |}.
Lemma buoy_at_stamped : forall h mi, (0 <= h < 24)%Q -> 0 <= mi <= 59 -> 60 * Qfloor h + mi = Qfloor (60 * h) -> stamped (buoy_at h mi).
Proof.
  intros h mi H M E. exists 5%Q, 0%Q, (mkdate 2000 1 1), h, mi. split; [constructor; try reflexivity|].
  - exists 31. split; [exact jan_has|cbn; lia].
  - exact H.
  - cbn [yr mo dy]. repeat split; try lia; exact E.
Qed.
Theorem C57_same_minute_refuted : exists reps, one_drifter reps /\ trackable reps /\ sst_matched reps /\ Forall on_track reps /\
  track_checks plane toy_sun (fun x => x) toy_track reps = Err AssertionError /\
  exists reps', track_checks plane toy_sun (fun x => x) toy_track (rev reps) = Ok reps'.
Proof.
  exists [buoy_at (501 # 100) 0; buoy_at 5 0]. split; [|split; [|split; [|split; [|split]]]].
  - exists (Some "12345    "). repeat constructor.
  - intros r [<-|[<-|[]]] _; apply buoy_at_stamped; try lia; try reflexivity; split; try discriminate; reflexivity.
  - intros r I _ _. exists (Some 5%Q), None, (Some (1 # 100)%Q). destruct I as [<-|[<-|[]]]; (constructor; try reflexivity; [discriminate| | |]);
    try (intros x E; injection E as <-; split; [split; discriminate|]; exists (1 # 100)%Q; split; [reflexivity|split; discriminate]);
    try (eexists; reflexivity); exists 5%Q, 0%Q; (split; [split; reflexivity|split; discriminate]).
  - repeat constructor.
  - vm_compute. reflexivity.
  - eexists. vm_compute. reflexivity.
Qed.
Print Assumptions C57_same_minute_refuted.

(** A report the main program found to have no position is left out by every check, but it stops the output of all the others. *)
Definition nowhere : report :=
  {| r_id := Some "12345    "; r_uid := Some "U2";
     r_data := [Some 2000; Some 1; Some 13; Some 0; None; None; None; None; None; None; None; Some 5; None; Some 7; None; None;
                None; None; None; None; None; None; None; None; None; None]%Q;
     r_dt := Some [2000; 1; 13; 0; 0]; r_qc := ("POSpos", 1) :: clean 0; r_ext := [("OSTIA", None); ("ICE", None); ("BGVAR", None)]; r_clim := [] |}.
Theorem C57_no_position_refuted : exists reps bad, trackable (reps ++ [bad]) /\ ~ on_track bad /\
  (exists reps', track_checks plane toy_sun (fun x => x) toy_track (reps ++ [bad]) = Ok reps' /\ whole_record plane reps' = Err AssertionError) /\
  (exists reps' voy, track_checks plane toy_sun (fun x => x) toy_track reps = Ok reps' /\ whole_record plane reps' = Ok voy).
Proof.
  exists ten_days, nowhere. assert (NT : ~ on_track nowhere) by (intros [_ [_ [_ [P _]]]]; discriminate). split; [|split; [exact NT|split]].
  - destruct (buoys_ok ten_days ten_days_buoys) as [_ [B _]]. intros r I T. apply in_app_or in I. destruct I as [I|[<-|[]]]; [now apply B|contradiction].
  - destruct (track_checks plane toy_sun (fun x => x) toy_track (ten_days ++ [nowhere])) as [l|e] eqn:E; [|vm_compute in E; discriminate]. exists l. split; [reflexivity|].
    vm_compute in E. apply ok_inj in E. subst l. vm_compute. reflexivity.
  - destruct (track_checks plane toy_sun (fun x => x) toy_track ten_days) as [l|e] eqn:E; [|vm_compute in E; discriminate]. vm_compute in E. apply ok_inj in E. subst l.
    eexists _, _. split; [reflexivity|]. vm_compute. reflexivity.
Qed.
Print Assumptions C57_no_position_refuted.

Example C57_output_ex : ten_days <> [] /\ Forall (fun r => r_id r = Some "12345    " /\ printable r /\ stamped r) ten_days /\
  (forall i j a b t, (i < j)%nat -> nth_error ten_days i = Some a -> nth_error ten_days j = Some b -> r_dt a = r_dt b -> hours_between a b t -> (0 <= t)%Q) /\
  match whole_record plane ten_days with
  | Ok voy => map (fun r => getint r "DY") voy = map Some [1; 2; 3; 4; 5; 6; 7; 8; 9; 10; 11; 12] /\
      match track_output (fun _ _ => "0.5") toy_track "out" ["new"; "end_edge_case"] "200001" 2000 1 voy with
      | Ok fs => map fst fs = ["out/TrackingQC/2000/01/Tracking_200001_12345    _run.csv"; "out/TrackingQC/2000/01/end_edge_case_200001/Tracking_200001_12345    _run.csv"]
      | Err _ => False
      end
  | Err _ => False
  end.
Proof.
  split; [discriminate|]. split; [|split; [exact (no_minutes_shared ten_days ten_days_distinct)|vm_compute; split; reflexivity]].
  apply Forall_forall. intros r I. pose proof ten_days_buoys as B. rewrite Forall_forall in B. destruct (B r I) as [d [la [s [b [D [_ ->]]]]]]. split; [reflexivity|]. split; [|now apply buoy_stamped].
  split; [exists "U1"; split; [reflexivity|cbn; repeat split; discriminate]|intros i E; injection E as <-; cbn; repeat split; discriminate].
Qed.
