(** C33 drifters run aground, C34 drifters moving too fast (picked up by a ship). *)
Require Import String ZArith QArith Qround List Bool Lia Lqa.
Require Import Verif.M_Base Verif.L_Base Verif.S_Calendar Verif.L_Calendar Verif.M_Report Verif.S_Report Verif.M_Voyage Verif.S_Voyage Verif.L_Voyage6 Verif.M_Track Verif.S_Track Verif.L_Track5
  Verif.M_Drifter Verif.S_Drifter Verif.L_Drifter Verif.L_Drifter2 Verif.L_Drifter3 Verif.P_Voyage Verif.P_Track.
Import ListNotations.
Open Scope string_scope.
Open Scope list_scope.
Open Scope Z_scope.

(** Report of a drifter at noon of day d of January 2000, latitude la, longitude 0. *)
Definition drift (d : Z) (la : Q) : report :=
  {| r_id := Some "12345"; r_uid := None;
     r_data := [Some 2000; Some 1; Some (inject_Z d); Some 12; Some la; Some 0; None; None; None; None; None; Some 5; None; Some 7; None; None;
                None; None; None; None; None; None; None; None; None; None]%Q;
     r_dt := Some [2000; 1; d; 12; 0]; r_qc := []; r_ext := []; r_clim := [] |}.
(** One report a day, at the given latitudes, from day d on. *)
Fixpoint drifts (d : Z) (las : list Q) : list report :=
  match las with [] => [] | la :: las' => drift d la :: drifts (d + 1) las' end.
Lemma jan_has : month_has 2000 1 31.
Proof. apply mh_31. now left. Qed.
Lemma py_int_whole : forall z, py_int (inject_Z z) = z.
Proof. intro z. unfold py_int. destruct (Qle_bool 0 (inject_Z z)); [|rewrite <- inject_Z_opp]; rewrite Qfloor_Z; lia. Qed.
Lemma drift_loc : forall d la, 1 <= d <= 31 -> located (drift d la) la 0 (mkdate 2000 1 d) 12.
Proof.
  intros d la H. constructor; try reflexivity.
  - change (getint (drift d la) "DY") with (Some (py_int (inject_Z (py_int (inject_Z d))))). rewrite !py_int_whole. reflexivity.
  - exists 31. split; [exact jan_has|exact H].
  - split; [discriminate|reflexivity].
Qed.
Lemma drifts_nth : forall las d i r, nth_error (drifts d las) i = Some r -> exists la, r = drift (d + Z.of_nat i) la /\ (i < length las)%nat.
Proof.
  induction las as [|la las IH]; intros d i r H; [destruct i; discriminate|]. destruct i as [|i].
  - injection H as <-. exists la. rewrite Z.add_0_r. cbn [length]. split; [reflexivity|lia].
  - cbn [drifts nth_error] in H. destruct (IH _ _ _ H) as [l' [E L]]. exists l'. cbn [length]. split; [|lia]. rewrite E. f_equal. lia.
Qed.
Lemma drifts_ok : forall las d, 1 <= d -> d + Z.of_nat (length las) <= 32 -> Forall is_located (drifts d las) /\ in_time_order (drifts d las).
Proof.
  intros las d D1 D2. split.
  - apply Forall_forall. intros r Hr. apply In_nth_error in Hr. destruct Hr as [i Hi]. destruct (drifts_nth _ _ _ _ Hi) as [la [-> L]].
    exists la, 0%Q, (mkdate 2000 1 (d + Z.of_nat i)), 12%Q. apply drift_loc. lia.
  - intros i a b t A B H. destruct (drifts_nth _ _ _ _ A) as [la [-> L1]]. destruct (drifts_nth _ _ _ _ B) as [lb [-> L2]].
    rewrite (hours_jdd _ _ _ _ _ _ _ _ _ _ _ (drift_loc (d + Z.of_nat i) la ltac:(lia)) (drift_loc (d + Z.of_nat (S i)) lb ltac:(lia)) H).
    unfold jdd. cbn [yr mo dy]. rewrite (jd_day 2000 1 (d + Z.of_nat i)), (jd_day 2000 1 (d + Z.of_nat (S i))).
    replace (_ - _) with 1 by lia. change (inject_Z 1) with 1%Q. lra.
Qed.

(** Records built from located reports in time order are timed; all theorems below apply to them. *)
Theorem C33_built_records : forall sp l, Forall is_located l -> in_time_order l -> exists v, add_reports sp [] l = Ok v /\ Forall2 same_report l v /\ timed v.
Proof. exact built_timed. Qed.
Print Assumptions C33_built_records.

(* ------------------------------------------------------------------ C33 *)

(** Smoothing windows of 2k+1 reports; assessed windows of minw to maxw days.  Exactly the reports from the
    first one on after which the drifter stands still in every assessed window are flagged. *)
Theorem C33_aground_check : forall sp k minw maxw v, well_defined sp -> timed v -> 1 <= minw -> 1 <= maxw -> minw <= maxw ->
  exists v', aground_check sp (2 * Z.of_nat k + 1) minw maxw v = Ok v' /\
    flags_exactly "POS" "drf_agr"
      (aground (longest_window v k (inject_Z minw * 24) (inject_Z maxw * 24)) (still (sp_dist sp) (sp_dist sp 0 0 (1 # 100) (1 # 100)) v k) k) v v'.
Proof. intros sp k minw maxw v W T A B C. exact (aground_check_ok sp W k minw maxw v T A B C). Qed.
Print Assumptions C33_aground_check.

(** The variant without an upper window: the position is compared with the last one. *)
Theorem C33_new_aground_check : forall sp k minw v, well_defined sp -> timed v -> 1 <= minw ->
  exists v', new_aground_check sp (2 * Z.of_nat k + 1) minw v = Ok v' /\
    flags_exactly "POS" "drf_agr"
      (aground (window_to_end v k (inject_Z minw * 24)) (still (sp_dist sp) (sp_dist sp 0 0 (1 # 100) (1 # 100)) v k) k) v v'.
Proof. intros sp k minw v W T A. exact (new_aground_check_ok sp W k minw 1 v T A). Qed.
Print Assumptions C33_new_aground_check.

(** The flagged reports are a suffix of the record. *)
Theorem C33_suffix : forall W S k n n', aground W S k n -> (n <= n')%nat -> aground W S k n'.
Proof. intros W S k n n' [i0 [A [B C]]] L. exists i0. split; [exact A|]. split; [exact B|]. destruct C; [now left|right; lia]. Qed.
Print Assumptions C33_suffix.

(** Standing still means having all assessed displacements within the tolerance; a drifter that moves in the
    last assessed window is not flagged at all. *)
Theorem C33_moving_end : forall (W S : nat -> nat -> Prop) k n i j, W i j -> ~ S i j -> (forall i' j', W i' j' -> (i' <= i)%nat) -> ~ aground W S k n.
Proof. intros W S k n i j H N M [i0 [[j0 A] [B _]]]. apply N, (B i j); [exact (M _ _ A)|exact H]. Qed.
Print Assumptions C33_moving_end.

(** Rejected parameters. *)
Theorem C33_rejects : forall sp sm minw maxw v, sm < 1 \/ Z.even sm = true \/ minw < 1 \/ maxw < 1 \/ maxw < minw ->
  aground_check sp sm minw maxw v = Err AssertionError.
Proof.
  intros sp sm minw maxw v H. unfold aground_check.
  destruct (1 <=? sm) eqn:A; [|reflexivity]. destruct (negb (sm mod 2 =? 0)) eqn:B; [|reflexivity]. destruct (1 <=? minw) eqn:C; [|reflexivity].
  destruct (1 <=? maxw) eqn:D; [|reflexivity]. destruct (minw <=? maxw) eqn:E; [|reflexivity]. exfalso.
  assert (Z.even sm = false) by (rewrite Zeven_mod; unfold Zeq_bool; destruct (sm mod 2) eqn:Q; [discriminate|reflexivity|reflexivity]). destruct H as [H|[H|[H|[H|H]]]]; try lia. congruence.
Qed.
Print Assumptions C33_rejects.

(** Four days under way, then eight days on one spot. *)
Definition stranding : list report := drifts 1 [0; 1; 2; 3; 4; 4; 4; 4; 4; 4; 4; 4]%Q.
Example C33_ex : (exists v, add_reports plane [] stranding = Ok v /\ timed v) /\
  match add_reports plane [] stranding with
  | Ok v =>
      (match aground_check plane 3 2 3 v with Ok v' => map (fun r => get_qc r "POS" "drf_agr") v' = [0; 0; 0; 0; 1; 1; 1; 1; 1; 1; 1; 1] | Err _ => False end) /\
      match new_aground_check plane 3 2 v with Ok v' => map (fun r => get_qc r "POS" "drf_agr") v' = [0; 0; 0; 0; 1; 1; 1; 1; 1; 1; 1; 1] | Err _ => False end
  | Err _ => False
  end.
Proof.
  split; [|vm_compute; split; reflexivity].
  destruct (drifts_ok [0; 1; 2; 3; 4; 4; 4; 4; 4; 4; 4; 4]%Q 1) as [A B]; [lia|cbn [length]; lia|].
  destruct (built_timed plane _ A B) as [v [E [_ T]]]. exists v. auto.
Qed.

(* ------------------------------------------------------------------ C34 *)

(** Exactly the reports inside an assessed window over which the drifter moves faster than the limit are
    flagged.  A window runs from a report to the last report within maxw days, at least minw days later. *)
Theorem C34_speed_check : forall sp limit minw maxw v, timed v -> (0 <= limit)%Q -> (0 < minw)%Q -> (minw <= maxw)%Q ->
  exists v', speed_check sp limit minw maxw v = Ok v' /\
    flags_exactly "POS" "drf_spd"
      (fun k => exists i f, longest_window v 0 (minw * 24) (maxw * 24) i f /\ drifts_faster (sp_dist sp) limit v i f /\ (i <= k <= f)%nat) v v'.
Proof.
  intros sp limit minw maxw v T A B C. destruct (speed_check_ok sp limit minw maxw v T A B C) as [v' [E F]]. exists v'. split; [exact E|].
  destruct F as [F1 F2]. split; [exact F1|]. intros i r' H. destruct (F2 i r' H) as [[G K]|[G K]]; [left|right]; (split; [exact G|]).
  - destruct K as [a [b [[K1 K2] K3]]]. exists a, b. auto.
  - intros [a [b [K1 [K2 K3]]]]. apply K. exists a, b. split; [split; auto|exact K3].
Qed.
Print Assumptions C34_speed_check.

(** The variant that first leaves out the reports an IQUAM track check of a ship takes out: windows run from
    a report to the first one at least minw days later. *)
Theorem C34_new_speed_check : forall sp p limit minw v, timed v -> distance_like (sp_dist sp) -> (0 <= limit)%Q -> (0 < minw)%Q ->
  (0 <= iq_ship p)%Q -> (0 <= iq_d p)%Q -> (0 < iq_t p)%Q ->
  exists v' removed, new_speed_check sp p limit minw v = Ok v' /\
    ship_removed (sp_dist sp) (iq_ship p) (iq_d p) (iq_t p) (iq_n p) (match v with [] => true | r :: _ => generic_report r end) v removed /\
    flags_exactly "POS" "drf_spd"
      (fun k => exists i f, first_after v (fun i => In i removed) (minw * 24) i f /\ drifts_faster (sp_dist sp) limit v i f /\ (i <= k <= f)%nat) v v'.
Proof. exact new_speed_check_ok. Qed.
Print Assumptions C34_new_speed_check.

(** Nothing is flagged when no assessed window is too fast. *)
Theorem C34_slow_passes : forall sp limit minw maxw v v', timed v -> (0 <= limit)%Q -> (0 < minw)%Q -> (minw <= maxw)%Q ->
  (forall i f, ~ drifts_faster (sp_dist sp) limit v i f) -> speed_check sp limit minw maxw v = Ok v' ->
  forall i r, nth_error v' i = Some r -> get_qc r "POS" "drf_spd" = 0.
Proof.
  intros sp limit minw maxw v v' T A B C N E i r H. destruct (C34_speed_check sp limit minw maxw v T A B C) as [w [E' [_ F]]].
  rewrite E in E'. injection E' as <-. destruct (F i r H) as [[_ [a [b [_ [K _]]]]]|[G _]]; [destruct (N _ _ K)|exact G].
Qed.
Print Assumptions C34_slow_passes.

(** A minimum window of zero days passes the parameter checks, but then every record of two or more reports
    ends in an IndexError. *)
Theorem C34_zero_window_refuted : forall sp p limit maxw v, timed v -> (1 < length v)%nat -> (0 <= limit)%Q -> (0 <= maxw)%Q -> distance_like (sp_dist sp) ->
  (0 <= iq_ship p)%Q -> (0 <= iq_d p)%Q -> (0 < iq_t p)%Q ->
  speed_check sp limit 0 maxw v = Err IndexError /\ new_speed_check sp p limit 0 v = Err IndexError.
Proof. intros. split; [now apply speed_zero_raises|now apply new_speed_zero_raises]. Qed.
Print Assumptions C34_zero_window_refuted.

(** Slow drift, a fast leg of two days, slow drift. *)
Definition picked_up : list report := drifts 1 [0; 1 # 10; 2 # 10; 4; 8; 81 # 10; 82 # 10]%Q.
Example C34_ex : (exists v, add_reports flat [] picked_up = Ok v /\ timed v) /\ distance_like (sp_dist flat) /\
  match add_reports flat [] picked_up with
  | Ok v =>
      (match speed_check flat (5 # 2) 1 1 v with Ok v' => map (fun r => get_qc r "POS" "drf_spd") v' = [0; 0; 1; 1; 1; 0; 0] | Err _ => False end) /\
      match new_speed_check flat {| iq_buoy := 15; iq_ship := 60; iq_d := 11; iq_t := 1; iq_n := 5 |} (5 # 2) 1 v with Ok v' => map (fun r => get_qc r "POS" "drf_spd") v' = [0; 0; 1; 1; 1; 0; 0] | Err _ => False end
  | Err _ => False
  end.
Proof.
  split; [|split; [exact flat_ok|vm_compute; split; reflexivity]].
  destruct (drifts_ok [0; 1 # 10; 2 # 10; 4; 8; 81 # 10; 82 # 10]%Q 1) as [A B]; [lia|cbn [length]; lia|].
  destruct (built_timed flat _ A B) as [v [E [_ T]]]. exists v. auto.
Qed.
