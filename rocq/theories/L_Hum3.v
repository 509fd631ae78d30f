(** Lemmas about the humidity variables of reports. *)
Require Import String Reals ZArith QArith Qreals List Bool Lra Lia.
Require Import Verif.M_Base Verif.L_Base Verif.M_Report Verif.S_Report Verif.L_Report Verif.L_Report3 Verif.M_Bayes Verif.L_Bayes Verif.M_Hum Verif.S_Hum Verif.L_Hum Verif.L_Hum2.
Import ListNotations.
Open Scope R_scope.

Lemma hum_same_refl : forall r, hum_same r r. Proof. intro r. repeat split. Qed.
Lemma hum_same_trans : forall a b c, hum_same a b -> hum_same b c -> hum_same a c.
Proof.
  intros a b c [A0 [A1 [A2 [A3 [A4 [A5 A6]]]]]] [B0 [B1 [B2 [B3 [B4 [B5 B6]]]]]].
  repeat split; try congruence. intros n H. rewrite B6, A6 by exact H. reflexivity.
Qed.

Lemma set_hum : forall r n v, wf_report r -> In n humidity_names ->
  exists r', setvar r n v = Ok r' /\ wf_report r' /\ getvar r' n = v /\ (forall m, m <> n -> getvar r' m = getvar r m) /\ hum_same r r'.
Proof.
  intros r n v W H.
  assert (K : exists i, index_of n VARLIST = Ok i /\ mem n ["YR"; "DY"; "HR"]%string = false /\ mem n INTVARS = false).
  { simpl in H. repeat (destruct H as [<-|H]; [eexists; repeat split; reflexivity|]). contradiction. }
  destruct K as [i [I [D N]]].
  assert (E : setvar r n v = Ok (with_data r (update_nth i v (r_data r)))) by (unfold setvar; rewrite I; cbn [bind]; rewrite D; reflexivity).
  eexists. split; [exact E|]. split; [exact (setvar_wf _ _ _ _ W E)|]. split.
  { rewrite (set_get_var _ _ _ _ W E), N. destruct v; reflexivity. }
  assert (O : forall m, m <> n -> getvar (with_data r (update_nth i v (r_data r))) m = getvar r m) by (intros m M; exact (set_get_other_var _ _ _ _ m E M)).
  split; [exact O|]. repeat split. intros m M. apply O. intros ->. contradiction.
Qed.
Lemma clear_ok : forall names r, wf_report r -> (forall n, In n names -> In n humidity_names) ->
  exists r', clear_vars names r = Ok r' /\ wf_report r' /\ hum_same r r' /\ (forall n, In n names -> getvar r' n = None) /\ (forall n, ~ In n names -> getvar r' n = getvar r n).
Proof.
  induction names as [|n names IH]; intros r W H.
  - exists r. split; [reflexivity|]. split; [exact W|]. split; [apply hum_same_refl|]. split; [intros n []|reflexivity].
  - destruct (set_hum r n None W (H n (or_introl eq_refl))) as [a [E [Wa [G [O S]]]]].
    destruct (IH a Wa (fun m M => H m (or_intror M))) as [b [E' [Wb [S' [N K]]]]].
    exists b. cbn [clear_vars]. rewrite E. cbn [bind]. split; [exact E'|]. split; [exact Wb|]. split; [exact (hum_same_trans _ _ _ S S')|]. split.
    + intros m [<-|M]; [|exact (N m M)]. destruct (in_dec string_dec n names) as [M|M]; [exact (N n M)|]. rewrite K by exact M. exact G.
    + intros m M. rewrite K by (intro; apply M; right; assumption). apply O. intros ->. apply M. now left.
Qed.
Lemma names_ok : forall names, forallb (fun i => mem i ["SHU"; "VAP"; "CRH"; "CWB"; "DPD"]%string) names = true <-> (forall n, In n names -> In n humidity_names).
Proof.
  intro names. rewrite forallb_forall. split; intros H n N; specialize (H n N); [apply mem_In in H|apply mem_In]; simpl in H |- *; tauto.
Qed.

Definition all_five (r : report) (a b c d e : option Q) : Prop :=
  getvar r "VAP" = a /\ getvar r "SHU" = b /\ getvar r "CRH" = c /\ getvar r "CWB" = d /\ getvar r "DPD" = e.
Lemma set_five : forall r a b c d e, wf_report r ->
  exists r', (let! r := setvar r "VAP" a in let! r := setvar r "SHU" b in let! r := setvar r "CRH" c in let! r := setvar r "CWB" d in setvar r "DPD" e) = Ok r' /\
    wf_report r' /\ hum_same r r' /\ all_five r' a b c d e.
Proof.
  intros r a b c d e W.
  destruct (set_hum r "VAP" a W) as [r1 [E1 [W1 [G1 [O1 S1]]]]]; [simpl; tauto|].
  destruct (set_hum r1 "SHU" b W1) as [r2 [E2 [W2 [G2 [O2 S2]]]]]; [simpl; tauto|].
  destruct (set_hum r2 "CRH" c W2) as [r3 [E3 [W3 [G3 [O3 S3]]]]]; [simpl; tauto|].
  destruct (set_hum r3 "CWB" d W3) as [r4 [E4 [W4 [G4 [O4 S4]]]]]; [simpl; tauto|].
  destruct (set_hum r4 "DPD" e W4) as [r5 [E5 [W5 [G5 [O5 S5]]]]]; [simpl; tauto|].
  exists r5. rewrite E1. cbn [bind]. rewrite E2. cbn [bind]. rewrite E3. cbn [bind]. rewrite E4. cbn [bind]. rewrite E5.
  split; [reflexivity|]. split; [exact W5|]. split; [eauto using hum_same_trans|].
  repeat split; rewrite ?O5, ?O4, ?O3, ?O2 by discriminate; assumption.
Qed.

Lemma bind_assoc : forall A B C (x : res A) (f : A -> res B) (g : B -> res C), bind (bind x f) g = bind x (fun a => bind (f a) g).
Proof. intros. destruct x; reflexivity. Qed.

(** The text of calculate_humidity_variables with the five values at hand. *)
Definition finish (r : report) (names : list string) : res report :=
  if match getvar r "CRH" with None => true | Some c => Qltb c 0 || Qltb 150 c end then clear_vars names r else Ok r.
Lemma calculate_five : forall r names q sd td t p a b c d e, wf_report r -> (forall n, In n names -> In n humidity_names) ->
  assoc "SLP" (r_clim r) = Some (Some q, sd) -> td = reals (getvar r "DPT") -> t = reals (getvar r "AT") -> p = Some (Q2R q) ->
  to_tenths (vap false td t p) = Ok a -> to_tenths (sh false td t p) = Ok b -> to_tenths (rh false td t p) = Ok c ->
  to_tenths (wb false td t p) = Ok d -> to_tenths (dpd false td t) = Ok e ->
  exists r', wf_report r' /\ hum_same r r' /\ all_five r' a b c d e /\ calculate_humidity_variables r names = finish r' names.
Proof.
  intros r names q sd td t p a b c d e W N C Td T P A B Cc D E.
  destruct (set_five r a b c d e W) as [r' [X [W' [S F]]]]. exists r'. split; [exact W'|]. split; [exact S|]. split; [exact F|].
  unfold calculate_humidity_variables. rewrite (proj2 (names_ok names) N), C. cbn [bind py_assert]. cbn [reals].
  rewrite <- Td, <- T, <- P, A, B, Cc, D, E. cbn [bind].
  transitivity (bind (let! r := setvar r "VAP" a in let! r := setvar r "SHU" b in let! r := setvar r "CRH" c in let! r := setvar r "CWB" d in setvar r "DPD" e) (fun r => finish r names)).
  - rewrite !bind_assoc. destruct (setvar r "VAP" a) as [r1|]; [cbn [bind]|reflexivity].
    rewrite !bind_assoc. destruct (setvar r1 "SHU" b) as [r2|]; [cbn [bind]|reflexivity].
    rewrite !bind_assoc. destruct (setvar r2 "CRH" c) as [r3|]; [cbn [bind]|reflexivity].
    rewrite !bind_assoc. destruct (setvar r3 "CWB" d) as [r4|]; [cbn [bind]|reflexivity]. reflexivity.
  - rewrite X. reflexivity.
Qed.

Lemma specific_model : forall e p, 1000 * (0.622 * e / (p - (1 - 0.622) * e)) = specific e p.
Proof. intros e p. unfold specific. replace (p - (1 - 0.622) * e) with (p - 0.378 * e) by lra. unfold Rdiv. ring. Qed.

Lemma five_values : forall td t p, temperature td -> temperature t -> exists e es, vapour td t p e /\ vapour t t p es /\
  vap false (Some td) (Some t) (Some p) = Ok (Some e) /\ sh false (Some td) (Some t) (Some p) = Ok (Some (specific e p)) /\
  rh false (Some td) (Some t) (Some p) = Ok (Some (e / es * 100)) /\ wb false (Some td) (Some t) (Some p) = Ok (Some (bulb e td t p)) /\
  dpd false (Some td) (Some t) = Ok (Some (t - td)).
Proof.
  intros td t p Td T. destruct (e_of_ok td t p Td) as [e [E V]]. destruct (e_of_ok t t p T) as [es [Es Vs]].
  exists e, es. split; [exact V|]. split; [exact Vs|]. unfold vap, sh, rh, wb, with3. rewrite E, Es. cbn [bind].
  unfold rounded. rewrite specific_model, wet_bulb_bulb. repeat split.
Qed.

Lemma tenths_nearest : forall x, nearest_tenth x (Q2R (tenths x)).
Proof. intro x. rewrite tenths_rounded. apply rounded_nearest. Qed.

Lemma calculate_ok : forall r names q sd td t, wf_report r -> (forall n, In n names -> In n humidity_names) ->
  assoc "SLP" (r_clim r) = Some (Some q, sd) -> getvar r "DPT" = Some td -> getvar r "AT" = Some t ->
  temperature (Q2R td) -> temperature (Q2R t) -> 0 < Q2R q ->
  exists r' e es rel, calculate_humidity_variables r names = Ok r' /\ hum_same r r' /\
    vapour (Q2R td) (Q2R t) (Q2R q) e /\ vapour (Q2R t) (Q2R t) (Q2R q) es /\ nearest_tenth (100 * (e / es)) rel /\
    forall n x, In (n, x) (humidities e es (Q2R td) (Q2R t) (Q2R q)) ->
      (150 < rel /\ In n names -> getvar r' n = None) /\
      (rel <= 150 \/ ~ In n names -> exists v, getvar r' n = Some v /\ nearest_tenth x (Q2R v)).
Proof.
  intros r names q sd td t W N C D T Td Tt P.
  destruct (five_values (Q2R td) (Q2R t) (Q2R q) Td Tt) as [e [es [V [Vs [A1 [A2 [A3 [A4 A5]]]]]]]].
  destruct (calculate_five r names q sd (Some (Q2R td)) (Some (Q2R t)) (Some (Q2R q)) (Some (tenths e)) (Some (tenths (specific e (Q2R q))))
    (Some (tenths (e / es * 100))) (Some (tenths (bulb e (Q2R td) (Q2R t) (Q2R q)))) (Some (tenths (Q2R t - Q2R td)))) as [a [Wa [S [F K]]]];
    try assumption; try (rewrite ?D, ?T; reflexivity); try (rewrite ?A1, ?A2, ?A3, ?A4, ?A5; reflexivity).
  assert (Rel : 0 < e / es) by (apply Rdiv_lt_0_compat; eapply vapour_pos; eauto).
  set (rel := Q2R (tenths (e / es * 100))).
  assert (Hn : nearest_tenth (100 * (e / es)) rel) by (rewrite Rmult_comm; apply tenths_nearest).
  assert (R0 : 0 <= rel). { unfold rel. rewrite tenths_rounded. replace 0 with (rounded true (0 / 10)) by (rewrite (rounded_tenth 0); field). apply rounded_mono. lra. }
  destruct F as [F1 [F2 [F3 [F4 F5]]]].
  assert (Silly : match getvar a "CRH" with None => true | Some c => Qltb c 0 || Qltb 150 c end = true <-> 150 < rel).
  { rewrite F3, orb_true_iff, !Qltb_true. fold rel. split.
    - intros [H|H]; apply Qlt_Rlt in H; fold rel in H.
      + replace (Q2R 0) with 0 in H by (unfold Q2R; cbn; lra). lra.
      + replace (Q2R 150) with 150 in H by (unfold Q2R; cbn; lra). exact H.
    - intro H. right. apply Rlt_Qlt. fold rel. replace (Q2R 150) with 150 by (unfold Q2R; cbn; lra). exact H. }
  assert (Vals : forall n x, In (n, x) (humidities e es (Q2R td) (Q2R t) (Q2R q)) -> exists v, getvar a n = Some v /\ nearest_tenth x (Q2R v)).
  { intros n x H. simpl in H. repeat (destruct H as [H|H]; [injection H as <- <-; eexists; split; [eassumption|]; try apply tenths_nearest; exact Hn|]). contradiction. }
  unfold finish in K. destruct (match getvar a "CRH" with None => true | Some c => Qltb c 0 || Qltb 150 c end) eqn:E.
  - destruct (clear_ok names a Wa N) as [b [Eb [Wb [Sb [Nb Kb]]]]]. exists b, e, es, rel. rewrite K. split; [exact Eb|].
    split; [exact (hum_same_trans _ _ _ S Sb)|]. split; [exact V|]. split; [exact Vs|]. split; [exact Hn|]. intros n x H. split.
    + intros [_ M]. exact (Nb n M).
    + intros [L|M]; [pose proof (proj1 Silly eq_refl); lra|]. rewrite (Kb n M). exact (Vals n x H).
  - exists a, e, es, rel. split; [exact K|]. split; [exact S|]. split; [exact V|]. split; [exact Vs|]. split; [exact Hn|]. intros n x H. split.
    + intros [L _]. apply Silly in L. discriminate.
    + intros _. exact (Vals n x H).
Qed.

Lemma calculate_missing : forall r names, wf_report r -> (forall n, In n names -> In n humidity_names) ->
  (forall sd, assoc "SLP" (r_clim r) = Some (None, sd) ->
     exists r', calculate_humidity_variables r names = Ok r' /\ hum_same r r' /\ (forall n, In n names -> getvar r' n = None) /\ (forall n, ~ In n names -> getvar r' n = getvar r n)) /\
  (forall q sd, assoc "SLP" (r_clim r) = Some (Some q, sd) -> getvar r "DPT" = None \/ getvar r "AT" = None ->
     exists r', calculate_humidity_variables r names = Ok r' /\ hum_same r r' /\ (forall n, In n humidity_names -> getvar r' n = None)) /\
  (assoc "SLP" (r_clim r) = None -> calculate_humidity_variables r names = Err KeyError).
Proof.
  intros r names W N. split; [|split].
  - intros sd C. destruct (clear_ok names r W N) as [b [Eb [Wb [Sb [Nb Kb]]]]]. exists b. split; [|auto].
    unfold calculate_humidity_variables. rewrite (proj2 (names_ok names) N), C. exact Eb.
  - intros q sd C M.
    assert (A : reals (getvar r "DPT") = None \/ reals (getvar r "AT") = None) by (destruct M as [-> | ->]; auto).
    destruct (calculate_five r names q sd (reals (getvar r "DPT")) (reals (getvar r "AT")) (Some (Q2R q)) None None None None None) as [a [Wa [S [F K]]]]; try assumption; try reflexivity;
      try (unfold vap, sh, rh, wb, dpd, with3; destruct A as [-> | ->]; [reflexivity|destruct (reals (getvar r "DPT")); reflexivity]).
    destruct F as [F1 [F2 [F3 [F4 F5]]]]. unfold finish in K. rewrite F3 in K.
    destruct (clear_ok names a Wa N) as [b [Eb [Wb [Sb [Nb Kb]]]]]. exists b. rewrite K. split; [exact Eb|]. split; [exact (hum_same_trans _ _ _ S Sb)|].
    intros n H. destruct (in_dec string_dec n names) as [I|I]; [exact (Nb n I)|]. rewrite (Kb n I).
    simpl in H. repeat (destruct H as [<-|H]; [assumption|]). contradiction.
  - intro C. unfold calculate_humidity_variables. rewrite (proj2 (names_ok names) N), C. reflexivity.
Qed.
Lemma calculate_bad_names : forall r names n, In n names -> ~ In n humidity_names -> calculate_humidity_variables r names = Err AssertionError.
Proof.
  intros r names n I H. unfold calculate_humidity_variables.
  destruct (forallb _ names) eqn:E; [|reflexivity]. exfalso. apply H. exact (proj1 (names_ok names) E n I).
Qed.
