(** C30 track check, C31 repeated track check, C32 modal speed and speed limits. *)
Require Import String ZArith QArith Qround List Bool Lia Lqa.
Require Import Verif.M_Base Verif.S_Calendar Verif.M_Report Verif.S_Report Verif.M_Voyage Verif.S_Voyage Verif.L_Voyage4 Verif.M_Track Verif.S_Track Verif.L_Track Verif.L_Track6 Verif.L_Grid Verif.P_Voyage.
Import ListNotations.
Open Scope string_scope.
Open Scope list_scope.
Open Scope Z_scope.

(** A geometry for the examples: taxicab distance, straight lines, courses north or south, no displacement. *)
Definition plane : sphere := {|
  sp_dist := fun a b c d => (111 * (Qabs' (a - c) + Qabs' (b - d)))%Q; sp_course := fun a _ c _ => if Qleb a c then 0%Q else 180%Q;
  sp_move := fun a b _ _ => (a, b); sp_mid := fun a b c d f => (a + f * (c - a), b + f * (d - b))%Q |}.
Lemma plane_ok : well_defined plane.
Proof.
  split; [|split]; intros; cbn [plane sp_dist sp_move sp_mid fst snd].
  - rewrite (Qabs'_compat (a - c) (a' - c')), (Qabs'_compat (b - d) (b' - d')) by (rewrite ?H, ?H0, ?H1, ?H2; reflexivity). reflexivity.
  - split; reflexivity.
  - rewrite H. split; reflexivity.
Qed.
(** Report of a ship on 1 January 2000 at hour h, latitude la, heading north at 10 knots. *)
Definition fix_ (h la : Q) : report :=
  let r := obs h la 10 9 5 in
  {| r_id := r_id r; r_uid := r_uid r; r_data := r_data r; r_dt := r_dt r; r_qc := []; r_ext := [("vsi", Some 10%Q); ("dsi", Some 0%Q)]; r_clim := [] |}.
Lemma fix_located : forall h la, (0 <= h < 24)%Q -> is_located (fix_ h la).
Proof.
  intros h la H. exists la, 0%Q, (mkdate 2000 1 1), h. constructor; try reflexivity.
  - exists 31. split; [apply mh_31; now left|]. cbn. lia.
  - exact H.
Qed.
Lemma fix_heading : forall h la, heading_known (fix_ h la).
Proof. intros h la d H. injection H as <-. exists 0. split; [lia|reflexivity]. Qed.
(** Six reports an hour apart; the third is far off. *)
Definition trip : list report := [fix_ 0 0; fix_ 1 (1 # 6); fix_ 2 20; fix_ 3 (1 # 2); fix_ 4 (2 # 3); fix_ 5 (5 # 6)].

(* ------------------------------------------------------------------ C30 *)

(** A voyage built from located reports in time order, with known headings, of one ship that is neither generic
    nor a buoy: exactly the interior reports that are off track (limits as given, speed limit from the modal
    speed) get the track flag; the data of the reports are unchanged. *)
Theorem C30_track_check : forall sp p r0 l, well_defined sp -> Forall is_located (r0 :: l) -> in_time_order (r0 :: l) -> Forall heading_known (r0 :: l) ->
  generic_report r0 = false -> pt_buoy r0 = false -> (2 <= length l)%nat ->
  exists v v' amax, add_reports sp [] (r0 :: l) = Ok v /\ track_check sp p v = Ok v' /\ voyage_limit (sp_dist sp) (r0 :: l) amax /\ length v' = S (length l) /\
    forall i r, nth_error (r0 :: l) i = Some r -> exists r', nth_error v' i = Some r' /\ track_same (motion_names ++ alt_names) "trk" "few" r r' /\
      ((get_qc r' "POS" "trk" = 1 /\ off_track sp (tk_dir p) (tk_speed p) (tk_abs p) (tk_mid p) (r0 :: l) amax i) \/
       (get_qc r' "POS" "trk" = 0 /\ ~ off_track sp (tk_dir p) (tk_speed p) (tk_abs p) (tk_mid p) (r0 :: l) amax i)) /\
      get_qc r' "POS" "few" = 0.
Proof. exact C30_full. Qed.
Print Assumptions C30_track_check.

(** Off-track reports are never the first nor the last; the speed limit is one number. *)
Theorem C30_interior : forall sp dir speed absolute mid v amax i, off_track sp dir speed absolute mid v amax i -> (0 < i)%nat /\ (i < length v - 1)%nat.
Proof. intros. apply L_Track5.off_track_range in H. lia. Qed.
Print Assumptions C30_interior.
Theorem C30_one_limit : forall dist v a a', voyage_limit dist v a -> voyage_limit dist v a' -> (a == a')%Q.
Proof. exact limit_fun. Qed.
Print Assumptions C30_one_limit.

(** Generic identifiers, buoys and voyages of one or two reports are never flagged; few-observation flag 1
    only for the latter, and not for deck 720 before 1891. *)
Theorem C30_not_checked : forall sp p r0 l, Forall is_located (r0 :: l) ->
  generic_report r0 = true \/ pt_buoy r0 = true \/ (length l < 2)%nat ->
  exists v v', add_reports sp [] (r0 :: l) = Ok v /\ track_check sp p v = Ok v' /\ length v' = S (length l) /\
    forall i r, nth_error (r0 :: l) i = Some r -> exists r', nth_error v' i = Some r' /\
      track_same (motion_names ++ alt_names) "trk" "few" r r' /\ get_qc r' "POS" "trk" = 0 /\
      get_qc r' "POS" "few" = if generic_report r0 || pt_buoy r0 || early_deck_720 r0 then 0 else 1.
Proof. exact C30_few. Qed.
Print Assumptions C30_not_checked.

Theorem C30_deck_720 : forall r d y, getvar r "DCK" = Some (inject_Z d) -> getvar r "YR" = Some (inject_Z y) ->
  (early_deck_720 r = true <-> d = 720 /\ y < 1891).
Proof.
  intros r d y E F. unfold early_deck_720, getint. rewrite E, F, !L_Grid.py_int_inject, andb_true_iff, Z.eqb_eq, Z.ltb_lt. reflexivity.
Qed.
Print Assumptions C30_deck_720.

(** The stand-alone MDS check: one 0/1 flag per report, those of one pass with the fixed limits. *)
Theorem C30_mds_track_check : forall sp r0 l, well_defined sp -> Forall is_located (r0 :: l) -> in_time_order (r0 :: l) -> Forall heading_known (r0 :: l) ->
  generic_report r0 = false -> (1 <= length l)%nat ->
  exists v v' qcs G, add_reports sp [] (r0 :: l) = Ok v /\ mds_track_check sp v = Ok (qcs, v') /\ length qcs = S (length l) /\ pass sp (r0 :: l) G /\
    (forall i q, nth_error qcs i = Some q -> (q = 1 /\ In i G) \/ (q = 0 /\ ~ In i G)) /\ ~ In O G /\ ~ In (length l) G /\
    Forall2 (track_same (motion_names ++ alt_names) "bad_track" "fewsome_check") (r0 :: l) v'.
Proof. exact C30_mds. Qed.
Print Assumptions C30_mds_track_check.

Example C30_ex : Forall is_located trip /\ Forall heading_known trip /\ generic_report (fix_ 0 0) = false /\ pt_buoy (fix_ 0 0) = false /\
  match add_reports plane [] trip with
  | Ok v => match track_check plane mds_params v with Ok v' => map (fun r => get_qc r "POS" "trk") v' = [0; 0; 1; 0; 0; 0] | Err _ => False end
  | Err _ => False
  end.
Proof.
  split; [repeat constructor; apply fix_located; split; discriminate || reflexivity|]. split; [repeat constructor; apply fix_heading|].
  split; [reflexivity|]. split; [reflexivity|]. vm_compute. reflexivity.
Qed.
(** The example is in time order. *)
Example C30_ex_order : in_time_order trip.
Proof.
  intros i a b t A B H.
  assert (K : forall h la h' la', (0 <= h <= h')%Q -> (h' < 24)%Q -> hours_between (fix_ h la) (fix_ h' la') t -> (0 <= t)%Q).
  { intros h la h' la' [Ra Rb] R' T. assert (R1 : (0 <= h < 24)%Q) by (split; lra). assert (R2 : (0 <= h' < 24)%Q) by (split; lra).
    assert (L : forall h la, (0 <= h < 24)%Q -> located (fix_ h la) la 0 (mkdate 2000 1 1) h).
    { intros k ka Hk. constructor; try reflexivity; [|exact Hk]. exists 31. split; [apply mh_31; now left|]. cbn. lia. }
    rewrite (L_Track5.hours_jdd _ _ _ _ _ _ _ _ _ _ _ (L h la R1) (L h' la' R2) T), Z.sub_diag. change (inject_Z 0) with 0%Q. lra. }
  do 5 (destruct i as [|i]; [unfold trip in A, B; cbn [nth_error] in A, B; apply (f_equal (fun o => match o with Some x => x | None => a end)) in A; apply (f_equal (fun o => match o with Some x => x | None => b end)) in B; cbv beta iota in A, B; subst a b; eapply K; [| |exact H]; [split; lra|lra]|]).
  destruct i as [|i]; [discriminate|]. destruct i; discriminate.
Qed.

(** Out of time order, the check fails: a voyage that was not sorted. *)
Theorem C30_unsorted_refuted : ~ forall sp p r0 l, well_defined sp -> Forall is_located (r0 :: l) -> Forall heading_known (r0 :: l) ->
  generic_report r0 = false -> pt_buoy r0 = false ->
  exists v v', add_reports sp [] (r0 :: l) = Ok v /\ track_check sp p v = Ok v'.
Proof.
  intro H. destruct (H plane mds_params (fix_ 0 0) [fix_ 5 1; fix_ 4 2] plane_ok) as [v [v' [E E']]];
    [repeat constructor; apply fix_located; split; discriminate || reflexivity|repeat constructor; apply fix_heading|reflexivity|reflexivity|].
  vm_compute in E. injection E as <-. vm_compute in E'. discriminate.
Qed.
Print Assumptions C30_unsorted_refuted.

(** One report of deck 720 before 1891: the MDS check returns two flags. *)
Theorem C30_one_flag_each_refuted : ~ forall sp v qcs v', mds_track_check sp v = Ok (qcs, v') -> length qcs = length v.
Proof.
  intro H. set (r := {| r_id := Some "SHIP1"; r_uid := None;
     r_data := [Some 1880; Some 1; Some 1; Some 0; Some 0; Some 0; None; None; None; None; None; None; Some 720; None; None; None;
                None; None; None; None; None; None; None; None; None; None]%Q;
     r_dt := Some [1880; 1; 1; 0; 0]; r_qc := []; r_ext := [("speed", None); ("course", None); ("distance", None); ("time_diff", None)]; r_clim := [] |}).
  destruct (mds_track_check plane [r]) as [[qcs v']|e] eqn:E.
  - pose proof (H _ _ _ _ E) as L. vm_compute in E. injection E as <- _. discriminate L.
  - vm_compute in E. discriminate.
Qed.
Print Assumptions C30_one_flag_each_refuted.

(* ------------------------------------------------------------------ C31 *)

(** At most five passes, each over the reports not flagged before; the last pass found nothing unless it was
    the fifth.  In the end exactly the reports flagged in some pass carry the flag; never the first or last. *)
Theorem C31_full_track_check : forall sp r0 l, well_defined sp -> Forall is_located (r0 :: l) -> in_time_order (r0 :: l) -> Forall heading_known (r0 :: l) ->
  generic_report r0 = false -> (1 <= length l)%nat ->
  exists v v' k F G, add_reports sp [] (r0 :: l) = Ok v /\ mds_full_track_check sp v = Ok v' /\ rounds sp (r0 :: l) k F G /\
    (1 <= k <= 5)%nat /\ (k = 5%nat \/ G = []) /\ ~ In O F /\ ~ In (length l) F /\ length v' = S (length l) /\
    forall i r, nth_error (r0 :: l) i = Some r -> exists r', nth_error v' i = Some r' /\
      track_same (motion_names ++ alt_names) "bad_track" "fewsome_check" r r' /\
      ((get_qc r' "POS" "bad_track" = 1 /\ In i F) \/ (get_qc r' "POS" "bad_track" = 0 /\ ~ In i F)).
Proof. exact C31_full. Qed.
Print Assumptions C31_full_track_check.

(** Generic identifiers: every report passes. *)
Theorem C31_generic_passes : forall sp v r0 rest, v = r0 :: rest -> generic_report r0 = true ->
  exists v', mds_full_track_check sp v = Ok v' /\ length v' = length v /\
    forall i r, nth_error v i = Some r -> exists r', nth_error v' i = Some r' /\ unchanged_but "POS" "bad_track" r r' /\ get_qc r' "POS" "bad_track" = 0.
Proof. intros sp v r0 rest E G. destruct (full_generic sp v r0 rest E G) as [v' [A [B C]]]. exists v'. auto. Qed.
Print Assumptions C31_generic_passes.

(** A report flagged by a pass stays flagged. *)
Theorem C31_monotone : forall sp v k F G, rounds sp v (S k) F G -> k <> O -> exists F0 G0, rounds sp v k F0 G0 /\ F = F0 ++ G.
Proof. intros sp v k F G R K. inversion R as [|k' F0 G0 keep w H R0 E P PW]; subst; [contradiction|]. eauto. Qed.
Print Assumptions C31_monotone.

Example C31_ex : match add_reports plane [] (trip ++ [fix_ 6 30; fix_ 7 1; fix_ 8 1]) with
  | Ok v => match mds_full_track_check plane v with Ok v' => map (fun r => get_qc r "POS" "bad_track") v' = [0; 0; 1; 0; 0; 0; 1; 0; 0] | Err _ => False end
  | Err _ => False
  end.
Proof. vm_compute. reflexivity. Qed.

(* ------------------------------------------------------------------ C32 *)

(** The modal speed is the centre of the fullest 3-knot bin (the lowest of several), at least 8.5 knots, in
    km/h; the first entry of the list is ignored; between 8.5 and 34.5 knots whatever the speeds. *)
Theorem C32_modal_speed : forall x0 l, l <> [] ->
  exists a m, modesp (x0 :: map Some l) = Ok (Some a) /\ modal_knots l m /\ (a == nm m)%Q /\ (17 # 2 <= m <= 69 # 2)%Q.
Proof. intros x0 l N. destruct (modesp_ok x0 l N) as [a [m [A [B C]]]]. exists a, m. split; [exact A|]. split; [exact B|]. split; [exact C|]. exact (modal_range l m B). Qed.
Print Assumptions C32_modal_speed.
Theorem C32_modal_unique : forall l m m', modal_knots l m -> modal_knots l m' -> (m == m')%Q.
Proof.
  intros l m m'. apply modal_fun. induction l; constructor; auto. reflexivity.
Qed.
Print Assumptions C32_modal_unique.
Theorem C32_too_short : forall l, (length l <= 1)%nat -> modesp l = Ok None.
Proof. exact modesp_short. Qed.
Print Assumptions C32_too_short.

(** Limits from a modal speed of m >= 8.5 knots: below 8.51 knots 15, 20, 0; otherwise 1.25 m, 30, 0.75 m. *)
Theorem C32_speed_limits : forall a m, (a == nm m)%Q -> (17 # 2 <= m)%Q -> exists amax amaxx amin, set_speed_limits (Some a) = (amax, amaxx, amin) /\
  ((m <= 851 # 100 /\ amax == nm 15 /\ amaxx == nm 20 /\ amin == 0) \/
   (851 # 100 < m /\ amax == nm ((5 # 4) * m) /\ amaxx == nm 30 /\ amin == nm ((3 # 4) * m)))%Q.
Proof. exact limits_ok. Qed.
Print Assumptions C32_speed_limits.
Theorem C32_limits_without_mode : set_speed_limits None = (nm 15, nm 20, nm 0).
Proof. reflexivity. Qed.
Print Assumptions C32_limits_without_mode.
(** The lower limit stays below the upper one for every modal speed the program can compute. *)
Theorem C32_limits_ordered : forall x0 l a amax amaxx amin, modesp (x0 :: map Some l) = Ok (Some a) -> set_speed_limits (Some a) = (amax, amaxx, amin) ->
  (0 <= amin /\ amin < amax)%Q.
Proof.
  intros x0 l a amax amaxx amin E S. destruct l as [|s l]; [discriminate E|]. destruct (C32_modal_speed x0 (s :: l)) as [a' [m [A [_ [C D]]]]]; [discriminate|].
  rewrite E in A. injection A as <-. destruct (limits_ok a m C ltac:(lra)) as [u1 [u2 [u3 [U K]]]]. rewrite S in U. injection U as -> -> ->.
  unfold nm in K. destruct K as [[K1 [K2 [K3 K4]]]|[K1 [K2 [K3 K4]]]]; rewrite K2, K4; unfold Qdiv; change (/ (539957 # 1000000))%Q with (1000000 # 539957)%Q; lra.
Qed.
Print Assumptions C32_limits_ordered.
(** Not every computed modal speed keeps the middle limit above the upper one: at 25.5 knots it is below. *)
Theorem C32_middle_limit_refuted : ~ forall x0 l a amax amaxx amin, modesp (x0 :: map Some l) = Ok (Some a) -> set_speed_limits (Some a) = (amax, amaxx, amin) -> (amax <= amaxx)%Q.
Proof.
  intro H. specialize (H None [50; 50; 50]%Q).
  destruct (modesp (None :: map Some [50; 50; 50]%Q)) as [[a|]|] eqn:E; [|vm_compute in E; discriminate|vm_compute in E; discriminate].
  destruct (set_speed_limits (Some a)) as [[x y] z] eqn:S. specialize (H a x y z eq_refl S).
  vm_compute in E. injection E as <-. vm_compute in S. injection S as <- <- <-. vm_compute in H. apply H. reflexivity.
Qed.
Print Assumptions C32_middle_limit_refuted.
Example C32_ex : exists a, modesp (None :: map Some [20; 22; 30; 21; 55]%Q) = Ok (Some a) /\ (a == nm (21 # 2))%Q.
Proof. eexists. split; [vm_compute; reflexivity|reflexivity]. Qed.
