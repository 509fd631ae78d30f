(** Property theorem C38 (probabilities of gross errors). *)
Require Import String ZArith QArith Qround List Bool Lia Reals Lra.
Require Import Verif.M_Base Verif.M_Grid Verif.M_Report Verif.M_Buddy Verif.S_Clim Verif.S_Buddy Verif.L_Buddy3 Verif.L_Buddy4 Verif.M_Bayes Verif.S_Bayes Verif.L_Bayes.
Import ListNotations.
Open Scope R_scope.

(* ------------------------------------------------------------------ C38 *)

(** The exact error function: the check answers exactly for sensible arguments, with Bayes' theorem. *)
Theorem C38_bayes : forall p0 q hi lo x mu sigma p,
  p_gross erf p0 q hi lo x mu sigma = Ok p <->
  sensible p0 q hi lo x sigma /\ p = posterior p0 (gross q hi lo) (good erf q hi lo mu sigma x).
Proof.
  intros p0 q hi lo x mu sigma p. split.
  - intro H. assert (S : sensible p0 q hi lo x sigma \/ ~ sensible p0 q hi lo x sigma).
    { unfold sensible. destruct (Rle_dec 0 p0), (Rle_dec p0 1), (Rlt_dec 0 q), (Rlt_dec lo hi), (Rle_dec lo x), (Rle_dec x hi), (Rlt_dec 0 sigma); tauto. }
    destruct S as [S|S]; [|rewrite p_gross_insensible in H by exact S; discriminate]. split; [exact S|].
    destruct (p_gross_strict erf p0 q hi lo x mu sigma erf_increasing S) as [E _]. rewrite E in H. now injection H as <-.
  - intros [S ->]. now apply p_gross_strict; [exact erf_increasing|].
Qed.
Print Assumptions C38_bayes.
Theorem C38_refuses : forall e p0 q hi lo x mu sigma, ~ sensible p0 q hi lo x sigma -> p_gross e p0 q hi lo x mu sigma = Err AssertionError.
Proof. exact p_gross_insensible. Qed.
Print Assumptions C38_refuses.

(** The two probabilities themselves: they answer for sensible arguments only. *)
Theorem C38_good : forall x q hi lo mu sigma p,
  p_data_given_good erf x q hi lo mu sigma = Ok p <-> sensible 0 q hi lo x sigma /\ p = good erf q hi lo mu sigma x.
Proof.
  intros x q hi lo mu sigma p. split.
  - intro H. assert (S : sensible 0 q hi lo x sigma).
    { unfold p_data_given_good in H. destruct (Rltb 0 q) eqn:A1; [apply Rltb_prop in A1|discriminate]. destruct (Rltb 0 sigma) eqn:A2; [apply Rltb_prop in A2|discriminate].
      destruct (Rltb lo hi) eqn:A3; [apply Rltb_prop in A3|discriminate]. destruct (Rleb lo x) eqn:A4; [apply Rleb_prop in A4|discriminate]. destruct (Rleb x hi) eqn:A5; [apply Rleb_prop in A5|discriminate].
      unfold sensible. lra. }
    split; [exact S|]. destruct S as [_ [A1 [A2 [A3 A4]]]]. rewrite good_ok in H by assumption. destruct (Req_EM_T _ 0); [discriminate|]. now injection H as <-.
  - intros [[_ [A1 [A2 [A3 A4]]]] ->]. rewrite good_ok by assumption. destruct (Req_EM_T _ 0) as [Z|Z]; [|reflexivity]. exfalso.
    assert (K : 0 < normal_between erf mu sigma (lo - q / 2) (hi + q / 2)) by (apply between_pos; [exact erf_increasing|lra|lra]). lra.
Qed.
Print Assumptions C38_good.
Theorem C38_gross : forall q hi lo p, p_data_given_gross q hi lo = Ok p <-> 0 < q /\ lo < hi /\ p = gross q hi lo.
Proof.
  intros q hi lo p. split.
  - intro H. assert (S : 0 < q /\ lo < hi).
    { unfold p_data_given_gross in H. destruct (Rltb lo hi) eqn:A1; [apply Rltb_prop in A1|discriminate]. destruct (Rltb 0 q) eqn:A2; [apply Rltb_prop in A2|discriminate]. lra. }
    destruct S as [A B]. split; [exact A|]. split; [exact B|]. rewrite (proj1 (gross_ok q hi lo A B)) in H. now injection H as <-.
  - intros [A [B ->]]. exact (proj1 (gross_ok q hi lo A B)).
Qed.
Print Assumptions C38_gross.

(** For any error function that grows strictly (such as the exact one): between 0 and 1, 0 and 1 exactly for
    those priors, growing with the prior. *)
Theorem C38_probability : forall e p0 q hi lo x mu sigma p, strict e -> p_gross e p0 q hi lo x mu sigma = Ok p ->
  0 <= p <= 1 /\ (p = 0 <-> p0 = 0) /\ (p = 1 <-> p0 = 1).
Proof.
  intros e p0 q hi lo x mu sigma p M H. assert (S : sensible p0 q hi lo x sigma).
  { assert (S : sensible p0 q hi lo x sigma \/ ~ sensible p0 q hi lo x sigma).
    { unfold sensible. destruct (Rle_dec 0 p0), (Rle_dec p0 1), (Rlt_dec 0 q), (Rlt_dec lo hi), (Rle_dec lo x), (Rle_dec x hi), (Rlt_dec 0 sigma); tauto. }
    destruct S as [S|S]; [exact S|]. rewrite p_gross_insensible in H by exact S. discriminate. }
  destruct (p_gross_strict e p0 q hi lo x mu sigma M S) as [E [G D]]. rewrite E in H. injection H as <-. destruct S as [P _].
  set (g := gross q hi lo) in *. set (d := good e q hi lo mu sigma x) in *. pose proof (mix_pos p0 g d P G D) as MP. unfold posterior.
  split; [apply div_01; [nra|exact MP]|]. split; split; intro K.
  - apply Rmult_integral in K. destruct K as [K|K]; [|exfalso; revert K; apply Rinv_neq_0_compat; lra]. apply Rmult_integral in K. destruct K; lra.
  - rewrite K. unfold Rdiv. ring.
  - assert (p0 * g = p0 * g + (1 - p0) * d) by (apply (Rmult_eq_reg_r (/ (p0 * g + (1 - p0) * d))); [rewrite Rinv_r by lra; exact K|apply Rinv_neq_0_compat; lra]).
    assert ((1 - p0) * d = 0) by lra. apply Rmult_integral in H0. destruct H0; lra.
  - rewrite K. field. lra.
Qed.
Print Assumptions C38_probability.
Theorem C38_prior : forall e p0 p0' q hi lo x mu sigma p p', strict e -> p0 <= p0' ->
  p_gross e p0 q hi lo x mu sigma = Ok p -> p_gross e p0' q hi lo x mu sigma = Ok p' -> p <= p'.
Proof.
  intros e p0 p0' q hi lo x mu sigma p p' M L H H'.
  assert (DEC : forall p0, sensible p0 q hi lo x sigma \/ ~ sensible p0 q hi lo x sigma).
  { intro. unfold sensible. destruct (Rle_dec 0 p1), (Rle_dec p1 1), (Rlt_dec 0 q), (Rlt_dec lo hi), (Rle_dec lo x), (Rle_dec x hi), (Rlt_dec 0 sigma); tauto. }
  destruct (DEC p0) as [S|S]; [|rewrite p_gross_insensible in H by exact S; discriminate]. destruct (DEC p0') as [S'|S']; [|rewrite p_gross_insensible in H' by exact S'; discriminate].
  destruct (p_gross_strict e p0 q hi lo x mu sigma M S) as [E [G D]]. destruct (p_gross_strict e p0' q hi lo x mu sigma M S') as [E' _].
  rewrite E in H. rewrite E' in H'. injection H as <-. injection H' as <-. destruct S as [P _], S' as [P' _]. apply posterior_prior; lra.
Qed.
Print Assumptions C38_prior.

(** With the exact error function the probability of a gross error grows with the distance from the mean. *)
Theorem C38_distance : forall p0 q hi lo x x' mu sigma p p', Rabs (x - mu) <= Rabs (x' - mu) ->
  p_gross erf p0 q hi lo x mu sigma = Ok p -> p_gross erf p0 q hi lo x' mu sigma = Ok p' -> p <= p'.
Proof.
  intros p0 q hi lo x x' mu sigma p p' L H H'. pose proof H as H0. apply C38_bayes in H. apply C38_bayes in H'. destruct H as [S ->], H' as [S' ->].
  destruct (p_gross_strict erf p0 q hi lo x' mu sigma erf_increasing S') as [_ [G D]]. pose proof S as [P [Q [LH [_ SG]]]].
  apply posterior_good; auto. now apply good_distance.
Qed.
Print Assumptions C38_distance.

(** Both hypotheses are distributions: over the values from [lo] in steps of [q] their probabilities add to 1. *)
Theorem C38_distributions : forall q lo mu sigma n, 0 < q -> 0 < sigma -> (0 < n)%nat ->
  (exists ps, map (fun x => p_data_given_good erf x q (lo + INR n * q) lo mu sigma) (values lo q n) = map Ok ps /\ sumR ps = 1) /\
  (exists g, p_data_given_gross q (lo + INR n * q) lo = Ok g /\ sumR (map (fun _ => g) (values lo q n)) = 1).
Proof.
  intros q lo mu sigma n Q S N. assert (0 < INR n) by (change 0 with (INR 0); now apply lt_INR). assert (0 < INR n * q) by nra.
  pose proof (between_pos erf mu sigma (lo - q / 2) (lo + INR n * q + q / 2) erf_increasing S ltac:(lra)) as NB. split.
  - exists (map (good erf q (lo + INR n * q) lo mu sigma) (values lo q n)). split; [|apply good_sums; lra]. rewrite map_map. apply map_ext_in. intros x I.
    unfold values in I. apply in_map_iff in I. destruct I as [i [<- I]]. apply in_seq in I. assert (0 <= INR i <= INR n) by (split; [apply pos_INR|apply le_INR; lia]).
    rewrite good_ok by nra. destruct (Req_EM_T _ 0); [lra|reflexivity].
  - exists (gross q (lo + INR n * q) lo). split; [apply gross_ok; lra|now apply gross_sums].
Qed.
Print Assumptions C38_distributions.

(** "Sensible arguments always get an answer" fails for an error function that is constant at its ends, such as
    the floating point one: when it does not change over the whole range the check divides by zero. *)
Theorem C38_saturation_refuted : forall e p0 q hi lo x mu sigma, mono e -> sensible p0 q hi lo x sigma ->
  e ((hi + q / 2 - mu) / (sigma * sqrt 2)) = e ((lo - q / 2 - mu) / (sigma * sqrt 2)) ->
  p_gross e p0 q hi lo x mu sigma = Err ZeroDivisionError.
Proof.
  intros e p0 q hi lo x mu sigma M S H. destruct (p_gross_eval e p0 q hi lo x mu sigma M S) as [K _]. apply K. unfold normal_between. rewrite H. unfold Rdiv. ring.
Qed.
Print Assumptions C38_saturation_refuted.

(** The flag is the probability in tenths rounded down, a number from 0 to 9, and grows with the probability. *)
Theorem C38_flag : forall pg x b v, bayes_flag pg x b = Ok v -> (0 <= v <= 9)%Z.
Proof.
  intros pg x b v H. unfold bayes_flag in H. destruct (pg x (fst b) (snd b)) as [p|]; [|discriminate]. cbv zeta in H.
  destruct (Qltb 0 p) eqn:E; [|injection H as <-; lia]. apply L_Base.Qltb_true in E.
  assert (F : (0 <= Qfloor (p * 10))%Z). { change 0%Z with (Qfloor 0). apply Qfloor_resp_le. apply Qmult_le_0_compat; [apply Qlt_le_weak; exact E|discriminate]. }
  apply L_Buddy3.ok_inj in H. subst v. set (k := Qfloor (p * 10)) in *. clearbody k. destruct (9 <? k)%Z eqn:N; lia.
Qed.
Print Assumptions C38_flag.
Theorem C38_flag_monotone : forall pg x b v x' b' v' p p', pg x (fst b) (snd b) = Some p -> pg x' (fst b') (snd b') = Some p' -> (p <= p')%Q ->
  bayes_flag pg x b = Ok v -> bayes_flag pg x' b' = Ok v' -> (v <= v')%Z.
Proof.
  intros pg x b v x' b' v' p p' E E' L H H'. pose proof (C38_flag _ _ _ _ H') as R'. unfold bayes_flag in *. rewrite E in H. rewrite E' in H'. cbv zeta in *.
  assert (F : (Qfloor (p * 10) <= Qfloor (p' * 10))%Z) by (apply Qfloor_resp_le; apply Qmult_le_compat_r; [exact L|discriminate]).
  apply L_Buddy3.ok_inj in H. apply L_Buddy3.ok_inj in H'.
  destruct (Qltb 0 p) eqn:P; [|lia]. destruct (Qltb 0 p') eqn:P'.
  - subst v v'. set (k := Qfloor (p * 10)) in *. set (k' := Qfloor (p' * 10)) in *. clearbody k k'. destruct (9 <? k)%Z eqn:N, (9 <? k')%Z eqn:N'; lia.
  - apply L_Base.Qltb_true in P. apply L_Base.Qltb_false in P'. exfalso. apply (Qlt_not_le _ _ P). now apply Qle_trans with p'.
Qed.
Print Assumptions C38_flag_monotone.

(** The usual parameters are sensible. *)
Example C38_ex : sensible 0.05 0.1 8 (-8) 1.5 1 /\ exists p, p_gross erf 0.05 0.1 8 (-8) 1.5 0.2 1 = Ok p.
Proof.
  assert (S : sensible 0.05 0.1 8 (-8) 1.5 1) by (unfold sensible; lra). split; [exact S|]. eexists. apply C38_bayes. split; [exact S|reflexivity].
Qed.
