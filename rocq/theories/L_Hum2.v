(** Lemmas about humidities: exponentials, the branch between water and ice, and reports. *)
Require Import String Reals ZArith QArith Qreals List Bool Lra Lia.
From Coquelicot Require Import Rcomplements.
Require Import Verif.M_Base Verif.L_Base Verif.M_Report Verif.S_Report Verif.L_Report Verif.L_Report3 Verif.M_Bayes Verif.L_Bayes Verif.M_Hum Verif.S_Hum Verif.L_Hum.
Import ListNotations.
Open Scope R_scope.

(* ---------------------------------------------------------------- bounds on exponentials *)

Lemma exp_le : forall x y, x <= y -> exp x <= exp y.
Proof. intros x y [H| ->]; [apply Rlt_le, exp_increasing, H|lra]. Qed.
Lemma exp_half_lo : forall a b x, 0 <= a -> b <= a * a -> a <= exp (x / 2) -> b <= exp x.
Proof. intros a b x A B H. replace x with (x / 2 + x / 2) by field. rewrite exp_plus. nra. Qed.
Lemma exp_half_hi : forall a b x, a * a <= b -> exp (x / 2) <= a -> exp x <= b.
Proof. intros a b x B H. replace x with (x / 2 + x / 2) by field. rewrite exp_plus. pose proof (exp_pos (x / 2)). nra. Qed.
Lemma exp_hi : forall x b, x < 1 -> 1 <= b * (1 - x) -> exp x <= b.
Proof.
  intros x b X B. pose proof (exp_ineq1_le (- x)) as H. rewrite exp_Ropp in H. pose proof (exp_pos x) as P.
  assert (E : exp x * / exp x = 1) by (apply Rinv_r; lra). assert (exp x * (1 - x) <= 1) by nra.
  apply Rmult_le_reg_r with (1 - x); lra.
Qed.
Lemma water_25_lo : (33 / 250) <= exp ((18.729 - -25 / 227.3) * -25 / (257.87 + -25)).
Proof.
  apply Rle_trans with (exp (- 505619734229 / 250000000000)); [|apply exp_le; lra].
  apply Rle_trans with (132062650059 / 1000000000000); [lra|].
  apply (exp_half_lo (363404251571 / 1000000000000)); [lra|lra|].
  apply (exp_half_lo (602830201277 / 1000000000000)); [lra|lra|].
  apply (exp_half_lo (776421407019 / 1000000000000)); [lra|lra|].
  apply (exp_half_lo (220286944549 / 250000000000)); [lra|lra|].
  apply (exp_half_lo (14667105007 / 15625000000)); [lra|lra|].
  apply (exp_half_lo (242215647777 / 250000000000)); [lra|lra|].
  apply (exp_half_lo (98430817893 / 100000000000)); [lra|lra|].
  apply (exp_half_lo (124015383303 / 125000000000)); [lra|lra|].
  apply (exp_half_lo (199210749351 / 200000000000)); [lra|lra|].
  apply (exp_half_lo (998024922913 / 1000000000000)); [lra|lra|].
  eapply Rle_trans; [|apply exp_ineq1_le]. lra.
Qed.
Lemma water_25_hi : exp ((18.729 - -25 / 227.3) * -25 / (257.87 + -25)) <= (663 / 5000).
Proof.
  apply Rle_trans with (exp (- 404495787383 / 200000000000)); [apply exp_le; lra|].
  apply Rle_trans with (13259123749 / 100000000000); [|lra].
  apply (exp_half_hi (364130797227 / 1000000000000)); [lra|].
  apply (exp_half_hi (60343251257 / 100000000000)); [lra|].
  apply (exp_half_hi (388404593359 / 500000000000)); [lra|].
  apply (exp_half_hi (440683896551 / 500000000000)); [lra|].
  apply (exp_half_hi (93881190507 / 100000000000)); [lra|].
  apply (exp_half_hi (968923064577 / 1000000000000)); [lra|].
  apply (exp_half_hi (492169448609 / 500000000000)); [lra|].
  apply (exp_half_hi (99213854739 / 100000000000)); [lra|].
  apply (exp_half_hi (498030758937 / 500000000000)); [lra|].
  apply (exp_half_hi (499014408077 / 500000000000)); [lra|].
  apply exp_hi; lra.
Qed.
Lemma water_24_lo : (361 / 2500) <= exp ((18.729 - -24 / 227.3) * -24 / (257.87 + -24)).
Proof.
  apply Rle_trans with (exp (- 1932826339029 / 1000000000000)); [|apply exp_le; lra].
  apply Rle_trans with (72237213111 / 500000000000); [lra|].
  apply (exp_half_lo (3040783333 / 8000000000)); [lra|lra|].
  apply (exp_half_lo (154130204013 / 250000000000)); [lra|lra|].
  apply (exp_half_lo (785188395261 / 1000000000000)); [lra|lra|].
  apply (exp_half_lo (110763571069 / 125000000000)); [lra|lra|].
  apply (exp_half_lo (188266679851 / 200000000000)); [lra|lra|].
  apply (exp_half_lo (485111687979 / 500000000000)); [lra|lra|].
  apply (exp_half_lo (984999175613 / 1000000000000)); [lra|lra|].
  apply (exp_half_lo (124058905843 / 125000000000)); [lra|lra|].
  apply (exp_half_lo (996228511309 / 1000000000000)); [lra|lra|].
  apply (exp_half_lo (499056237139 / 500000000000)); [lra|lra|].
  eapply Rle_trans; [|apply exp_ineq1_le]. lra.
Qed.
Lemma ice_24_hi : exp ((23.036 - -24 / 333.7) * -24 / (279.82 + -24)) <= (1147 / 10000).
Proof.
  apply Rle_trans with (exp (- 1083945941069 / 500000000000)); [apply exp_le; lra|].
  apply Rle_trans with (22936213883 / 200000000000); [|lra].
  apply (exp_half_hi (338645935181 / 1000000000000)); [lra|].
  apply (exp_half_hi (581932930139 / 1000000000000)); [lra|].
  apply (exp_half_hi (762845285847 / 1000000000000)); [lra|].
  apply (exp_half_hi (27294067111 / 31250000000)); [lra|].
  apply (exp_half_hi (934564148441 / 1000000000000)); [lra|].
  apply (exp_half_hi (15105134071 / 15625000000)); [lra|].
  apply (exp_half_hi (983223565901 / 1000000000000)); [lra|].
  apply (exp_half_hi (49578815181 / 50000000000)); [lra|].
  apply (exp_half_hi (995779244421 / 1000000000000)); [lra|].
  apply (exp_half_hi (997887390651 / 1000000000000)); [lra|].
  apply exp_hi; lra.
Qed.

(* ---------------------------------------------------------------- findings *)

(** At 2.85 degrees and 1000 hPa the formula for a dew point of -25 is the one over water, for -24 the one over ice. *)
Lemma not_monotone : exists e e', vapour (-25) 2.85 1000 e /\ vapour (-24) 2.85 1000 e' /\ e' < e - 0.09 /\ 0.79 < e < 0.83 /\ 0.68 < e' < 0.72.
Proof.
  pose proof water_25_lo as A. pose proof water_25_hi as B. pose proof water_24_lo as C. pose proof ice_24_hi as D.
  assert (D' : 0.111 <= exp ((23.036 - -24 / 333.7) * -24 / (279.82 + -24))).
  { apply Rle_trans with (exp (-2.184)); [|apply exp_le; lra].
    apply Rle_trans with (111540285107 / 1000000000000); [lra|].
    apply (exp_half_lo (333976473883 / 1000000000000)); [lra|lra|].
    apply (exp_half_lo (577906976843 / 1000000000000)); [lra|lra|].
    apply (exp_half_lo (760201931623 / 1000000000000)); [lra|lra|].
    apply (exp_half_lo (174379119349 / 200000000000)); [lra|lra|].
    apply (exp_half_lo (23343837473 / 25000000000)); [lra|lra|].
    apply (exp_half_lo (483154607481 / 500000000000)); [lra|lra|].
    apply (exp_half_lo (491505141113 / 500000000000)); [lra|lra|].
    apply (exp_half_lo (31727 / 32000)); [lra|lra|].
    eapply Rle_trans; [|apply exp_ineq1_le]. lra. }
  exists (over_water 1000 (-25)), (over_ice 1000 (-24)).
  assert (W25 : 0.805 <= over_water 1000 (-25) <= 0.82) by (unfold over_water; lra).
  assert (W24 : 0.884 <= over_water 1000 (-24)) by (unfold over_water; lra).
  assert (I24 : 0.68 < over_ice 1000 (-24) <= 0.7050) by (unfold over_ice; lra).
  split; [left|split; [right|lra]]; (split; [|reflexivity]); unfold bulb, weighted.
  - apply Rdiv_lt_0_compat; lra.
  - apply Rle_div_l; lra.
Qed.

(** A dew point just below freezing under an air temperature just above. *)
Lemma over_100 : exists td t p e es, td < t /\ temperature td /\ temperature t /\ p = 1013 /\ vapour td t p e /\ vapour t t p es /\ es < e.
Proof.
  assert (T1 : temperature (-0.000002)) by (unfold temperature; lra). assert (T2 : temperature 0.000001) by (unfold temperature; lra).
  pose proof (exp_ineq1_le ((18.729 - -0.000002 / 227.3) * -0.000002 / (257.87 + -0.000002))) as A.
  pose proof (exp_ineq1_le ((23.036 - -0.000002 / 333.7) * -0.000002 / (279.82 + -0.000002))) as B.
  assert (C : exp ((18.729 - 0.000001 / 227.3) * 0.000001 / (257.87 + 0.000001)) <= 1.00001) by (apply exp_hi; lra).
  exists (-0.000002), 0.000001, 1013, (over_ice 1013 (-0.000002)), (over_water 1013 0.000001).
  split; [lra|]. split; [exact T1|]. split; [exact T2|]. split; [reflexivity|].
  assert (W : 6 <= over_water 1013 (-0.000002)) by (unfold over_water; lra).
  split; [|split].
  - right. split; [|reflexivity]. unfold bulb, weighted. apply Rle_div_l; lra.
  - left. split; [|reflexivity]. rewrite bulb_same; [lra|apply water_pos; lra|lra|exact T2].
  - unfold over_ice, over_water. lra.
Qed.

(* ---------------------------------------------------------------- dew point back from vapour pressure over ice *)

Lemma root_above : forall b c y, b < 0 -> y < 0 -> 0 < y * y + b * y + c -> y < (- b - sqrt (b ^ 2 - 4 * 1 * c)) / (2 * 1).
Proof.
  intros b c y B Y F. set (s := sqrt (b ^ 2 - 4 * 1 * c)).
  destruct (Rle_dec 0 (b ^ 2 - 4 * 1 * c)) as [D|D].
  - assert (S : s * s = b ^ 2 - 4 * 1 * c) by (apply sqrt_sqrt, D). pose proof (sqrt_pos (b ^ 2 - 4 * 1 * c)) as P. fold s in P.
    destruct (Rlt_dec y ((- b - s) / (2 * 1))); [assumption|]. assert (N : - b - 2 * y <= s) by lra. nra.
  - assert (S : s = 0) by (apply sqrt_neg_0; lra). rewrite S. lra.
Qed.
Lemma root_nonpos : forall h k m l, 0 < h -> 0 < k -> 0 < m -> l <= 0 -> td_root h k m l <= 0.
Proof.
  intros h k m l H K M L. unfold td_root. set (b := k * l - m * k). assert (B : b < 0) by (unfold b; nra).
  assert (C : h * k * l <= 0) by (assert (0 < h * k) by (apply Rmult_lt_0_compat; lra); nra).
  assert (- b <= sqrt (b ^ 2 - 4 * 1 * (h * k * l))); [|lra].
  rewrite <- (sqrt_square (- b)) by lra. apply sqrt_le_1_alt. nra.
Qed.
Lemma ice_below_water_0 : forall p td, 0 < p <= 1100 -> temperature td -> td <= -0.01 -> over_ice p td <= over_water p 0.
Proof.
  intros p td P T L. assert (T' : temperature (-0.01)) by (unfold temperature; lra).
  apply Rle_trans with (over_ice p (-0.01)). { destruct L; [apply Rlt_le, ice_incr; auto; lra|subst; lra]. }
  rewrite water_0. unfold over_ice.
  assert (E : exp ((23.036 - -0.01 / 333.7) * -0.01 / (279.82 + -0.01)) <= 0.9992) by (apply exp_hi; lra).
  pose proof (exp_pos ((23.036 - -0.01 / 333.7) * -0.01 / (279.82 + -0.01))).
  apply Rle_trans with (6.1115 * (1.0003 + 4.18 * p / 1000000) * 0.9992); [apply Rmult_le_compat_l; lra|lra].
Qed.
Lemma ln_le : forall x y, 0 < x -> x <= y -> ln x <= ln y.
Proof. intros x y X [H| ->]; [apply Rlt_le, ln_increasing; auto|lra]. Qed.
(** The first estimate of the dew point, from the formula over water. *)
Lemma ice_estimate : forall p td, 0 < p <= 1100 -> temperature td -> td <= -0.01 ->
  -237.3 < td_root 257.87 227.3 18.729 (ln (over_ice p td / (6.1121 * (1 + 7 * (1 / 10000) + 3.46 * (1 / 1000000) * p)))) <= 0.
Proof.
  intros p td P T L. assert (P0 : 0 < p) by lra. set (g := 6.1121 * (1 + 7 * (1 / 10000) + 3.46 * (1 / 1000000) * p)).
  assert (G : g = over_water p 0) by (rewrite water_0; unfold g; lra). assert (G0 : 0 < g) by (rewrite G; apply water_pos, P0).
  assert (H : over_ice p td / g <= 1). { apply Rle_div_l; [exact G0|]. rewrite Rmult_1_l, G. apply ice_below_water_0; auto. }
  pose proof (ice_pos p td P0) as I. assert (Q : 0 < over_ice p td / g) by (apply Rdiv_lt_0_compat; auto).
  assert (N : ln (over_ice p td / g) <= 0) by (rewrite <- ln_1; apply ln_le; auto).
  split; [|apply root_nonpos; lra].
  assert (Lo : -133 <= ln (over_ice p td / g)).
  { rewrite <- (ln_exp (-133)). apply ln_le; [apply exp_pos|]. apply Rle_div_r; [exact G0|]. rewrite G, water_0.
    assert (T' : temperature (-237)) by (unfold temperature; lra).
    apply Rle_trans with (over_ice p (-237)); [|destruct (Rle_lt_or_eq_dec (-237) td); [unfold temperature in T; lra|apply Rlt_le, ice_incr; auto|subst; lra]].
    unfold over_ice. apply Rle_trans with (6.1115 * (1.0003 + 4.18 * p / 1000000) * (exp (-133) * 1.1)).
    - pose proof (exp_pos (-133)). assert (6.1121 * (1.0007 + 3.46 * p / 1000000) <= 6.1115 * (1.0003 + 4.18 * p / 1000000) * 1.1) by lra. nra.
    - apply Rmult_le_compat_l; [lra|]. apply Rle_trans with (exp (-133) * exp 1).
      + apply Rmult_le_compat_l; [apply Rlt_le, exp_pos|]. pose proof (exp_ineq1_le 1). lra.
      + rewrite <- exp_plus. apply exp_le. lra. }
  unfold td_root. apply root_above; lra.
Qed.
Lemma td_ice : forall td t p, 0 < p <= 1100 -> temperature td -> td <= -0.01 -> t <= 0 -> td_from_vap false (over_ice p td) p t = td.
Proof.
  intros td t p P T L T0. assert (P0 : 0 < p) by lra. unfold td_from_vap. cbv zeta.
  destruct (ice_estimate p td P T L) as [A B]. set (x := td_root _ _ _ _) in A, B |- *. pose proof (ice_pos p td P0) as I.
  rewrite wet_bulb_bulb. unfold Rleb, rounded. destruct (Rle_dec _ 0) as [W|W]; [apply ice_root; auto|]. exfalso. apply W.
  unfold bulb, weighted. assert (S : 0 < 409.8 * over_ice p td / ((x + 237.3) * (x + 237.3))).
  { apply Rdiv_lt_0_compat; [lra|]. apply Rmult_lt_0_compat; lra. }
  apply Rle_div_l; [lra|]. nra.
Qed.
