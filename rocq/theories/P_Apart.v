(** C84: what the other ships sent does not matter to a ship's own checks. *)
Require Import String Ascii ZArith QArith Qround List Bool Lia.
Require Import Verif.M_Base Verif.L_Base Verif.M_Calendar Verif.M_Imma Verif.M_ImmaTables Verif.M_Report Verif.S_Report Verif.M_Grid Verif.M_Voyage Verif.M_Track Verif.M_Buddy Verif.M_BaseQC Verif.M_Main Verif.S_Main Verif.S_Print Verif.S_Apart
  Verif.L_Main Verif.L_Main2 Verif.L_Main3 Verif.L_Main4 Verif.L_Main5 Verif.L_Apart Verif.S_Report Verif.L_Report Verif.L_Report2 Verif.P_Main Verif.S_Hum Verif.L_Main6.
Import ListNotations.
Open Scope string_scope.
Open Scope list_scope.
Open Scope Z_scope.

(** The flags that come from comparison with neighbours. *)
Definition neighbour_flags : list string := ["SSTbbud"; "SSTbud"; "ATbbud"; "ATbud"; "DPTbud"; "SLPbud"].

(** Two collections of files with the same records of a ship in the three months of the window: whatever else is in them, the ship's
    reports come out the same, in the same order, but for the flags from neighbours. *)
Theorem C84_other_ships : forall E L y m d d' id, humidity_only (e_hum E) -> e_tracking E = false -> 1 <= m <= 12 ->
  Forall (same_records E L id) (window y m) ->
  checked_deck E y m = Ok d -> checked_deck (with_lines E L) y m = Ok d' ->
  exists s s', picked (fun r => r_id r = id) (d_reps d) s /\ picked (fun r => r_id r = id) (d_reps d') s' /\ Forall2 (same_but neighbour_flags) s s'.
Proof.
  intros E L y m d d' id HUM OFF M SR H H'. exists (filter (is_id id) (d_reps d)), (filter (is_id id) (d_reps d')). split; [apply picked_filter|]. split; [apply picked_filter|].
  rewrite (window_is y m M) in SR. unfold checked_deck in H, H'. rewrite (window_spec y m M) in H, H'. cbn [bind] in H, H'. step H. destruct y0 as [st d0]. step H'. destruct y0 as [st' d0'].
  do 2 step H. rename y0 into reps1, y1 into fin1. apply ok_inj in H. subst d. do 2 step H'. rename y0 into reps2, y1 into fin2. apply ok_inj in H'. subst d'. cbn [d_reps].
  destruct (read_window_apart E OFF _ _ id _ _ _ _ _ HUM X) as [parts [D F]]. destruct (read_window_apart (with_lines E L) OFF _ _ id _ _ _ _ _ HUM X0) as [parts' [D' F']].
  assert (R1 : d_reps d0 = concat parts) by (subst d0; rewrite appends_reps; reflexivity). assert (R2 : d_reps d0' = concat parts') by (subst d0'; rewrite appends_reps; reflexivity).
  assert (I1 : index_ok (d_reps d0) (d_ids d0)) by (subst d0; apply index_ok_appends, index_ok_new). assert (I2 : index_ok (d_reps d0') (d_ids d0')) by (subst d0'; apply index_ok_appends, index_ok_new).
  assert (Q : filter (is_id id) (d_reps d0) = filter (is_id id) (d_reps d0')).
  { rewrite R1, R2, !filter_parts. f_equal. clear - F F' SR. revert parts' F' SR. induction F as [|ym reps w parts A F IH]; intros parts' F' SR; [inversion F'; reflexivity|].
    inversion F' as [|? reps' ? parts2 A' F2]; subst. inversion SR as [|? ? [ims [Q1 Q2]] SR']; subst. cbn [map]. f_equal; [|auto].
    exact (prepared_fun E _ _ _ _ _ _ _ (A _ Q1) (A' _ Q2)). }
  pose proof (ships_apart E position_filter _ _ _ (with_lines E L) _ _ _ id (fun v => eq_refl) eq_refl I1 X1 I2 X3 Q) as S.
  pose proof (buddy_same _ _ _ X2) as B1. pose proof (buddy_same _ _ _ X4) as B2.
  assert (K : forall r r', same_but buddy_keys r r' -> r_id r' = r_id r) by (intros r r' [A _]; exact A).
  apply (Forall2_filter id _ _ _ K) in B1. apply (Forall2_filter id _ _ _ K) in B2. eapply all_trans; [apply all_sym, B1|]. rewrite S. exact B2.
Qed.
Print Assumptions C84_other_ships.

(* ---- two ships ---- *)
Definition line_o : string := "1987 2151200 4500  2000           SHIP2                               110             100                    165      927    5                                               9815ABC126".
Definition two_ships (y m : Z) : option (list string) := if y =? 1987 then if m =? 2 then Some [line_o] else if m =? 3 then Some [line_a] else None else None.
Definition one_ship (y m : Z) : option (list string) := if y =? 1987 then if m =? 3 then Some [line_a] else None else None.
Lemma two_same : forall t, Forall (same_records (small two_ships t) one_ship (Some "SHIP1    ")) (window 1987 3).
Proof.
  intro t. destruct (readstr imma_tables line_a new_imma) as [[im|]|] eqn:R; [|vm_compute in R; discriminate R|vm_compute in R; discriminate R].
  assert (U : of_ship (small two_ships t) (Some "SHIP1    ") 1987 3 line_a im).
  { assert (A : assoc "ID" (im_data im) = Some (VStr "SHIP1    ") /\ assoc "YR" (im_data im) = Some (VInt 1987) /\ assoc "MO" (im_data im) = Some (VInt 3)) by (vm_compute in R; injection R as <-; vm_compute; auto).
    destruct A as [A [B C]]. split; [|left; exists "SHIP1    "; auto]. split; [exact R|]. split; [intros s S; rewrite A in S; injection S as <-; cbn; intros [S|[]]; discriminate S|]. split; eexists; (split; [eassumption|left; reflexivity]). }
  assert (N : forall im', ~ of_ship (small two_ships t) (Some "SHIP1    ") 1987 2 line_o im').
  { intros im' [[Z _] T]. change (readstr imma_tables line_o new_imma = Some (Ok im')) in Z. assert (A : assoc "ID" (im_data im') = Some (VStr "SHIP2    ")) by (vm_compute in Z; injection Z as <-; reflexivity).
    destruct T as [[s [T S]]|[_ S]]; [|discriminate S]. injection S as <-. rewrite A in T. discriminate T. }
  change (window 1987 3) with [(1987, 2); (1987, 3); (1987, 4)]. constructor; [|constructor; [|constructor; [|constructor]]].
  - exists []. split; [apply off_skip; [exact N|constructor]|reflexivity].
  - exists [im]. split; apply off_use; try exact U; constructor.
  - exists []. split; reflexivity.
Qed.
(** The conditions hold for the reports of two ships at one place, of which one is then left out. *)
Example C84_ex : let E := small two_ships false in humidity_only (e_hum E) /\ e_tracking E = false /\ Forall (same_records E one_ship (Some "SHIP1    ")) (window 1987 3) /\
  (exists d, checked_deck E 1987 3 = Ok d /\ map r_uid (d_reps d) = [Some "ABC126"; Some "ABC123"]) /\
  exists d', checked_deck (with_lines E one_ship) 1987 3 = Ok d' /\ map r_uid (d_reps d') = [Some "ABC123"].
Proof.
  cbv zeta. split; [apply small_hum|]. split; [reflexivity|]. split; [apply two_same|]. split; eexists; (split; [vm_compute; reflexivity|reflexivity]).
Qed.
(** With tracking the background temperature of a report can depend on what another ship sent: fields in memory are not marked with their
    month (C44), so the field of 14 February that SHIP2 needed is used for SHIP1 on 15 March. *)
Theorem C84_background_refuted : exists E L id d d' r r', humidity_only (e_hum E) /\ e_tracking E = true /\ Forall (same_records E L id) (window 1987 3) /\
  checked_deck E 1987 3 = Ok d /\ checked_deck (with_lines E L) 1987 3 = Ok d' /\
  picked (fun x => r_id x = id) (d_reps d) [r] /\ picked (fun x => r_id x = id) (d_reps d') [r'] /\ r_uid r = r_uid r' /\ getvar r "OSTIA" <> getvar r' "OSTIA".
Proof.
  exists (small two_ships true), one_ship, (Some "SHIP1    ").
  destruct (checked_deck (small two_ships true) 1987 3) as [d|] eqn:D; [|vm_compute in D; discriminate D].
  destruct (checked_deck (with_lines (small two_ships true) one_ship) 1987 3) as [d'|] eqn:D'; [|vm_compute in D'; discriminate D']. exists d, d'.
  assert (A : exists r, filter (is_id (Some "SHIP1    ")) (d_reps d) = [r] /\ r_uid r = Some "ABC123" /\ getvar r "OSTIA" = celsius (Some ((27315 # 100) + inject_Z 214)%Q)) by (vm_compute in D; injection D as <-; eexists; split; [reflexivity|split; reflexivity]).
  assert (B : exists r, filter (is_id (Some "SHIP1    ")) (d_reps d') = [r] /\ r_uid r = Some "ABC123" /\ getvar r "OSTIA" = celsius (Some ((27315 # 100) + inject_Z 314)%Q)) by (vm_compute in D'; injection D' as <-; eexists; split; [reflexivity|split; reflexivity]).
  destruct A as [r [A [A1 A2]]]. destruct B as [r' [B [B1 B2]]]. exists r, r'. split; [apply small_hum|]. split; [reflexivity|]. split; [apply two_same|]. split; [reflexivity|]. split; [reflexivity|].
  split; [rewrite <- A; apply picked_filter|]. split; [rewrite <- B; apply picked_filter|]. split; [congruence|]. rewrite A2, B2. vm_compute. discriminate.
Qed.
Print Assumptions C84_background_refuted.
