(** Whole runs of base QC. *)
Require Import String ZArith QArith Qround Qabs List Bool Lia Lqa.
Require Import Verif.M_Base Verif.L_Base Verif.S_Calendar Verif.M_Calendar Verif.S_Checks Verif.M_Checks Verif.L_Calendar2 Verif.L_Checks
  Verif.M_Report Verif.S_Report Verif.L_Report Verif.L_Report3 Verif.M_Sun Verif.S_Sun Verif.M_BaseQC Verif.S_BaseQC Verif.L_BaseQC Verif.L_BaseQC2 Verif.L_BaseQC3.
Import ListNotations.
Open Scope string_scope.
Open Scope list_scope.
Open Scope Z_scope.

(** What a run leaves as it was: everything but flags, and the hour (with the time stamp) when it is repaired. *)
Definition kept (r r' : report) : Prop :=
  r_id r' = r_id r /\ r_uid r' = r_uid r /\ r_ext r' = r_ext r /\ r_clim r' = r_clim r /\
  (forall n, n <> "HR" -> getvar r' n = getvar r n) /\
  (hour_to_fix (seen_of r) -> getvar r' "HR" = Some 0%Q) /\
  (~ hour_to_fix (seen_of r) -> r_data r' = r_data r /\ r_dt r' = r_dt r).
Definition same_flag_outside (t : list entry) (r r' : report) : Prop :=
  forall a b, (forall e, In e t -> ~ same_key a b (fst (fst e)) (snd (fst e))) -> get_qc r' a b = get_qc r a b.

Lemma outside_with : forall r l t, realises l t -> same_flag_outside t r (with_qc r (l ++ r_qc r)).
Proof.
  intros r l t [_ H] a b N. unfold get_qc. cbn [with_qc r_qc]. rewrite assoc_app. destruct (assoc (a ++ b)%string l) eqn:E; [|reflexivity].
  exfalso. assert (I : In (a ++ b)%string (keys t)) by (apply H; congruence). apply in_map_iff in I. destruct I as [e [K I]]. apply (N e I). unfold same_key. symmetry. exact K.
Qed.

Lemma processable_ext : forall o o', (forall n, n <> "HR" -> s_var o' n = s_var o n) -> (forall n, s_sd o' n = s_sd o n) -> processable o -> processable o'.
Proof.
  intros o o' V S [[la [lo [A B]]] [[y [m [Y [M R]]]] Z]]. split; [|split].
  - exists la, lo. rewrite !V by discriminate. auto.
  - exists y, m. unfold number in *. rewrite !V by discriminate. auto.
  - intros z H. rewrite S in H. auto.
Qed.

Lemma run_ok : forall g (tab : seen -> list entry), (forall o, processable o -> after [] g o (tab o)) ->
  forall r, processable (seen_of r) -> wf_report r ->
  exists r1 l, do_fix_missing_hour r = Ok r1 /\ wf_report r1 /\ bind (do_fix_missing_hour r) g = Ok (with_qc r1 (l ++ r_qc r1)) /\ realises l (tab (seen_of r1)) /\
    r_qc r1 = r_qc r /\ kept r r1 /\ processable (seen_of r1) /\ ~ hour_to_fix (seen_of r1).
Proof.
  intros g tab H r P W. destruct (fix_cases r P W) as [[N E]|[F [r1 [E [W1 [G1 [G2 [I [U [X [C Q]]]]]]]]]]]; rewrite E; cbn [bind].
  - destruct (H _ P r eq_refl (Forall_nil _)) as [l [A R]]. exists r, l. rewrite A. repeat (split; [auto; fail|]). split; [|auto].
    unfold kept. repeat (split; [auto; fail|]). split; [tauto|auto].
  - assert (P1 : processable (seen_of r1)).
    { apply (processable_ext (seen_of r)); [exact G2| |exact P]. intro n. cbn [seen_of s_sd]. unfold getnorm_stdev. now rewrite C. }
    destruct (H _ P1 r1 eq_refl (Forall_nil _)) as [l [A R]]. exists r1, l. rewrite A. repeat (split; [auto; fail|]).
    split; [|split; [exact P1|]]. { unfold kept. repeat (split; [auto; fail|]). tauto. }
    intros [_ [_ K]]. cbn [seen_of s_var] in K. congruence.
Qed.

Lemma run_spec : forall g (tab : seen -> list entry), (forall o, processable o -> after [] g o (tab o)) ->
  forall r, processable (seen_of r) -> wf_report r ->
  exists r', bind (do_fix_missing_hour r) g = Ok r' /\ established r' (tab (seen_of r')) /\ same_flag_outside (tab (seen_of r')) r r' /\ kept r r'.
Proof.
  intros g tab H r P W. destruct (run_ok g tab H r P W) as [r1 [l [E [W1 [B [R [Q [K _]]]]]]]]. exists (with_qc r1 (l ++ r_qc r1)). split; [exact B|].
  change (seen_of (with_qc r1 (l ++ r_qc r1))) with (seen_of r1). split; [now apply established_new|]. split; [|exact K].
  intros a b N. rewrite (outside_with r1 l _ R a b N). unfold get_qc. now rewrite Q.
Qed.

Lemma decides_fun : forall z z' P, decides z P -> decides z' P -> z = z'.
Proof. intros z z' P [[-> A]|[-> A]] [[-> B]|[-> B]]; tauto || reflexivity. Qed.

Lemma run_flags_fun : forall g (tab : seen -> list entry), (forall o, processable o -> after [] g o (tab o)) ->
  forall r s, processable (seen_of r) -> wf_report r -> r_id s = r_id r -> r_data s = r_data r -> r_ext s = r_ext r -> r_clim s = r_clim r ->
  exists r' s', bind (do_fix_missing_hour r) g = Ok r' /\ bind (do_fix_missing_hour s) g = Ok s' /\
    Forall (fun e => get_qc s' (fst (fst e)) (snd (fst e)) = get_qc r' (fst (fst e)) (snd (fst e))) (tab (seen_of r')).
Proof.
  intros g tab H r s P W I D X C.
  assert (S : seen_of s = seen_of r). { unfold seen_of. rewrite I. f_equal; [|unfold getnorm; now rewrite C|unfold getnorm_stdev; now rewrite C]. unfold getvar. now rewrite D, X. }
  destruct (run_spec g tab H r P W) as [r' [A1 [B1 [_ K1]]]].
  assert (P2 : processable (seen_of s)) by (rewrite S; exact P). assert (W2 : wf_report s) by (unfold wf_report in *; now rewrite D).
  destruct (run_spec g tab H s P2 W2) as [s' [A2 [B2 [_ K2]]]]. exists r', s'. split; [exact A1|]. split; [exact A2|].
  assert (S' : seen_of s' = seen_of r').
  { unfold kept in K1, K2. destruct K1 as [I1 [_ [X1 [C1 [V1 [F1 N1]]]]]]. destruct K2 as [I2 [_ [X2 [C2 [V2 [F2 N2]]]]]]. rewrite S in F2, N2.
    assert (D' : r_data s' = r_data r' /\ r_ext s' = r_ext r' /\ r_clim s' = r_clim r' /\ r_id s' = r_id r').
    { split; [|repeat split; congruence].
      assert (HF : do_fix_missing_hour s = Ok s -> True) by auto. clear HF.
      destruct (run_ok g tab H r P W) as [r1 [l1 [E1 [_ [B1' [_ _]]]]]]. destruct (run_ok g tab H s P2 W2) as [s1 [l2 [E2 [_ [B2' [_ _]]]]]].
      assert (r' = with_qc r1 (l1 ++ r_qc r1)) as -> by congruence. assert (s' = with_qc s1 (l2 ++ r_qc s1)) as -> by congruence. cbn [with_qc r_data].
      assert (GV : forall n, getvar s n = getvar r n) by (intro n; exact (f_equal (fun o => s_var o n) S)).
      assert (GI : forall n, getint s n = getint r n) by (intro n; unfold getint; now rewrite GV).
      unfold do_fix_missing_hour in E1, E2. rewrite !GI, !GV in E2.
      destruct (int_is (getint r "DCK") 701 && match getint r "YR" with Some y => y <? 1860 | None => true end && match getvar r "HR" with Some _ => false | None => true end).
      - assert (U : forall a b, calculate_dt a = Ok b -> r_data b = r_data a).
        { intros a b Hh. unfold calculate_dt in Hh. destruct (getint a "YR"); [|injection Hh as <-; reflexivity]. destruct (getint a "MO"); [|injection Hh as <-; reflexivity]. destruct (getvar a "HR"); [|injection Hh as <-; reflexivity].
          destruct (getint a "DY"); [|injection Hh as <-; reflexivity]. destruct (0 <? z1); [|injection Hh as <-; reflexivity]. destruct (py_nth _ _); [|discriminate]. cbn [bind] in Hh.
          destruct (z1 <=? a0); [|injection Hh as <-; reflexivity]. destruct (mk_datetime _ _ _ _ _); [|discriminate]. cbn [bind] in Hh. injection Hh as <-. reflexivity. }
        destruct (setvar r "HR" (Some 0%Q)) as [ra|] eqn:Ra; [|discriminate]. destruct (setvar s "HR" (Some 0%Q)) as [sa|] eqn:Sa; [|discriminate]. cbn [bind] in E1, E2.
        rewrite (U _ _ E1), (U _ _ E2). apply setvar_ok in Ra, Sa. destruct Ra as [i [Ri [Rd _]]], Sa as [j [Sj [Sd _]]]. rewrite Rd, Sd, D. congruence.
      - congruence. }
    destruct D' as [D1 [D2 [D3 D4]]]. unfold seen_of. rewrite D4. f_equal; [|unfold getnorm; now rewrite D3|unfold getnorm_stdev; now rewrite D3]. unfold getvar. now rewrite D1, D2. }
  rewrite S' in B2. unfold established in B1, B2. rewrite Forall_forall in *. intros e J. exact (decides_fun _ _ _ (B2 e J) (B1 e J)).
Qed.

(** Running twice. *)
Lemma run_twice : forall g (tab : seen -> list entry), (forall o, processable o -> after [] g o (tab o)) ->
  forall r, processable (seen_of r) -> wf_report r ->
  exists r' r'', bind (do_fix_missing_hour r) g = Ok r' /\ bind (do_fix_missing_hour r') g = Ok r'' /\ (forall a b, get_qc r'' a b = get_qc r' a b) /\ r'' = with_qc r' (r_qc r'').
Proof.
  intros g tab H r P W. destruct (run_ok g tab H r P W) as [r1 [l [E [W1 [B [R [Q [K [P1 N1]]]]]]]]]. set (r' := with_qc r1 (l ++ r_qc r1)) in *.
  assert (E' : do_fix_missing_hour r' = Ok r').
  { destruct (fix_cases r' P1 W1) as [[_ X]|[F _]]; [exact X|]. exfalso. exact (N1 F). }
  destruct (H (seen_of r1) P1 r' eq_refl (Forall_nil _)) as [l2 [A R2]].
  exists r', (with_qc r' (l2 ++ r_qc r')). split; [exact B|]. split; [rewrite E'; exact A|]. split; [|reflexivity].
  intros a b. pose proof (established_new r1 l _ R) as Es1. pose proof (established_new r' l2 _ R2) as Es2. fold r' in Es1.
  destruct (in_dec string_dec (a ++ b)%string (keys (tab (seen_of r1)))) as [I|I].
  - apply in_map_iff in I. destruct I as [e [Ke I]]. unfold established in *. rewrite Forall_forall in *. specialize (Es1 e I). specialize (Es2 e I).
    rewrite get_qc_key in Es1, Es2. unfold get_qc. rewrite <- Ke. exact (decides_fun _ _ _ Es2 Es1).
  - apply (outside_with r' l2 _ R2). intros e J Sk. apply I. unfold same_key in Sk. rewrite Sk. now apply in_keys.
Qed.

Section Raises.
Variable elev : Z -> Z -> Q -> Q -> Q -> Q -> Q.
Variable p : params.
Lemma simple_step : forall f t, (forall o, after [] f o (t o)) -> forall r, exists q, f r = Ok (with_qc r q).
Proof. intros f t H r. destruct (H (seen_of r) r eq_refl (Forall_nil _)) as [l [A _]]. eauto. Qed.
Lemma raises : forall r, getvar r "HR" <> None -> getvar r "LAT" = None \/ getvar r "LON" = None \/ getvar r "YR" = None \/ getvar r "MO" = None ->
  perform_base_qc elev p r = Err AssertionError.
Proof.
  intros r Hh M. unfold perform_base_qc. assert (do_fix_missing_hour r = Ok r) as ->.
  { unfold do_fix_missing_hour. destruct (getvar r "HR"); [|congruence]. rewrite andb_false_r. reflexivity. }
  cbn [bind]. destruct (simple_step is_buoy _ (fun o => is_buoy_after o [] eq_refl) r) as [q1 ->]. cbn [bind].
  destruct (simple_step is_ship _ (fun o => is_ship_after o []) (with_qc r q1)) as [q2 ->]. cbn [bind].
  destruct (simple_step is_deck_780 _ (fun o => is_780_after o []) (with_qc (with_qc r q1) q2)) as [q3 ->]. cbn [bind].
  set (s := with_qc (with_qc (with_qc r q1) q2) q3). assert (Gs : forall n, getvar s n = getvar r n) by reflexivity. clearbody s. 
  destruct (getvar r "LAT") as [la|] eqn:LA.
  2: { unfold do_position_check, set_qc_r. rewrite Gs, LA. reflexivity. }
  destruct (getvar r "LON") as [lo|] eqn:LO.
  2: { unfold do_position_check, set_qc_r. rewrite !Gs, LA, LO. reflexivity. }
  destruct (pos_after (seen_of s) [] (ex_intro _ la (ex_intro _ lo (conj (eq_trans (Gs _) LA) (eq_trans (Gs _) LO)))) s eq_refl (Forall_nil _)) as [l [-> _]]. cbn [bind].
  set (s2 := with_qc s (l ++ r_qc s)). assert (Gs2 : forall n, getint s2 n = match getvar r n with Some q => Some (py_int q) | None => None end) by (intro n; unfold getint; change (getvar s2 n) with (getvar s n); now rewrite Gs).
  unfold do_date_check, set_qc_r. rewrite !Gs2. destruct M as [M|[M|[M|M]]]; try congruence; rewrite M.
  - rewrite date_check_missing by tauto. reflexivity.
  - rewrite date_check_missing by tauto. reflexivity.
Qed.
Lemma dat_raises : forall r, exists e, perform_base_dat_qc elev p r = Err e.
Proof.
  intro r. unfold perform_base_dat_qc.
  repeat match goal with |- exists e, bind ?x _ = Err e => destruct x; [cbn [bind]|cbn [bind]; eauto] end.
  exists AssertionError. unfold do_base_dat_qc, mat_checks, set_qc. destruct (value_check (getvar a7 "DAT")) eqn:E; [reflexivity| |].
  all: destruct (value_check_spec _ (getvar a7 "DAT")) as [A B]; destruct (getvar a7 "DAT"); cbn in E; try discriminate; injection E as <-; reflexivity.
Qed.
End Raises.
