(** Lemmas about the humidity formulas. *)
Require Import String Reals ZArith QArith Qreals List Bool Lra Lia.
From Coquelicot Require Import Rcomplements.
Require Import Verif.M_Base Verif.L_Base Verif.M_Report Verif.S_Report Verif.L_Report Verif.L_Report3 Verif.M_Bayes Verif.L_Bayes Verif.M_Hum Verif.S_Hum.
Import ListNotations.
Open Scope R_scope.

(* ---------------------------------------------------------------- rounding *)

Lemma int_part_bounds : forall x, IZR (Int_part x) <= x < IZR (Int_part x) + 1.
Proof. intro x. destruct (base_Int_part x). lra. Qed.
Lemma int_part_mono : forall x y, x <= y -> (Int_part x <= Int_part y)%Z.
Proof.
  intros x y H. destruct (int_part_bounds x), (int_part_bounds y).
  assert (Int_part x < Int_part y + 1)%Z; [|lia]. apply lt_IZR. rewrite plus_IZR. lra.
Qed.
Lemma rnd_bounds : forall x, (0 <= x -> x - 1 / 2 < IZR (rnd x) <= x + 1 / 2) /\ (x < 0 -> x - 1 / 2 <= IZR (rnd x) < x + 1 / 2).
Proof.
  intro x. unfold rnd. destruct (Rle_dec 0 x).
  - destruct (int_part_bounds (x + 1 / 2)). split; intros; lra.
  - destruct (int_part_bounds (- x + 1 / 2)). rewrite opp_IZR. split; intros; lra.
Qed.
Lemma rnd_mono : forall x y, x <= y -> (rnd x <= rnd y)%Z.
Proof.
  intros x y H. unfold rnd. destruct (Rle_dec 0 x), (Rle_dec 0 y); try lra.
  - apply int_part_mono; lra.
  - assert (0 <= Int_part (y + 1 / 2))%Z. { destruct (int_part_bounds (y + 1 / 2)). assert (-1 < Int_part (y + 1 / 2))%Z; [|lia]. apply lt_IZR. lra. }
    assert (0 <= Int_part (- x + 1 / 2))%Z. { destruct (int_part_bounds (- x + 1 / 2)). assert (-1 < Int_part (- x + 1 / 2))%Z; [|lia]. apply lt_IZR. lra. }
    lia.
  - assert (Int_part (- y + 1 / 2) <= Int_part (- x + 1 / 2))%Z by (apply int_part_mono; lra). lia.
Qed.
Lemma rnd_unique : forall x n, IZR n - 1 / 2 < x < IZR n + 1 / 2 -> rnd x = n.
Proof.
  intros x n H. destruct (rnd_bounds x) as [A B].
  assert (rnd x - 1 < n /\ n < rnd x + 1)%Z; [|lia].
  destruct (Rle_dec 0 x); [specialize (A r)|assert (N : x < 0) by lra; specialize (B N)]; split; apply lt_IZR; rewrite ?minus_IZR, ?plus_IZR; lra.
Qed.
Lemma rnd_IZR : forall n, rnd (IZR n) = n.
Proof. intro n. apply rnd_unique. lra. Qed.

Lemma rounded_nearest : forall x, nearest_tenth x (rounded true x).
Proof.
  intro x. exists (rnd (x * 10)). split; [reflexivity|]. unfold rounded. destruct (rnd_bounds (x * 10)) as [A B].
  split; intro H; [assert (0 <= x * 10) by lra|assert (x * 10 < 0) by lra]; [specialize (A H0)|specialize (B H0)]; lra.
Qed.
Lemma nearest_unique : forall x y z, nearest_tenth x y -> nearest_tenth x z -> y = z.
Proof.
  intros x y z [n [Y [A B]]] [m [Z [C D]]]. subst. f_equal. f_equal.
  assert (n < m + 1 /\ m < n + 1)%Z; [|lia].
  destruct (Rle_dec 0 x) as [P|P]; [specialize (A P); specialize (C P)|apply Rnot_le_lt in P; specialize (B P); specialize (D P)];
    split; apply lt_IZR; rewrite plus_IZR; lra.
Qed.
Lemma rounded_mono : forall x y, x <= y -> rounded true x <= rounded true y.
Proof.
  intros x y H. unfold rounded. assert (rnd (x * 10) <= rnd (y * 10))%Z by (apply rnd_mono; lra). apply IZR_le in H0. lra.
Qed.
Lemma rounded_tenth : forall n, rounded true (IZR n / 10) = IZR n / 10.
Proof. intro n. unfold rounded. replace (IZR n / 10 * 10) with (IZR n) by field. rewrite rnd_IZR. reflexivity. Qed.
Lemma tenths_rounded : forall x, Q2R (tenths x) = rounded true x.
Proof. intro x. unfold tenths, rounded, Q2R. cbn [Qnum Qden]. reflexivity. Qed.

(* ---------------------------------------------------------------- the formulas *)

Lemma quotient_incr : forall h k m x y, 0 < k -> - h < x -> x < y -> y * y + 2 * h * y <= m * k * h ->
  (m - x / k) * x / (h + x) < (m - y / k) * y / (h + y).
Proof.
  intros h k m x y K X Y B. apply Rminus_gt_0_lt.
  replace ((m - y / k) * y / (h + y) - (m - x / k) * x / (h + x))
    with ((y - x) * (m * k * h - h * (x + y) - x * y) / (k * (h + x) * (h + y))) by (field; lra).
  apply Rdiv_lt_0_compat; [apply Rmult_lt_0_compat; [lra|]|repeat apply Rmult_lt_0_compat; lra].
  assert (h * (x + y) + x * y < y * y + 2 * h * y); [|lra].
  assert (0 < (y - x) * (h + y)) by (apply Rmult_lt_0_compat; lra). lra.
Qed.
Lemma range_water : forall y, temperature y -> y * y + 2 * 257.87 * y <= 18.729 * 227.3 * 257.87.
Proof. intros y [A B]. assert (y * y <= 800 * y + 237 * 800 - 237 * y); [nra|]. lra. Qed.
Lemma range_ice : forall y, temperature y -> y * y + 2 * 279.82 * y <= 23.036 * 333.7 * 279.82.
Proof. intros y [A B]. assert (y * y <= 800 * y + 237 * 800 - 237 * y); [nra|]. lra. Qed.

Lemma water_pos : forall p x, 0 < p -> 0 < over_water p x.
Proof. intros p x H. unfold over_water. apply Rmult_lt_0_compat; [lra|apply exp_pos]. Qed.
Lemma ice_pos : forall p x, 0 < p -> 0 < over_ice p x.
Proof. intros p x H. unfold over_ice. apply Rmult_lt_0_compat; [lra|apply exp_pos]. Qed.
Lemma water_incr : forall p x y, 0 < p -> temperature x -> temperature y -> x < y -> over_water p x < over_water p y.
Proof.
  intros p x y H X Y L. unfold over_water. apply Rmult_lt_compat_l; [lra|]. apply exp_increasing.
  apply quotient_incr; try (unfold temperature in *; lra). apply range_water, Y.
Qed.
Lemma ice_incr : forall p x y, 0 < p -> temperature x -> temperature y -> x < y -> over_ice p x < over_ice p y.
Proof.
  intros p x y H X Y L. unfold over_ice. apply Rmult_lt_compat_l; [lra|]. apply exp_increasing.
  apply quotient_incr; try (unfold temperature in *; lra). apply range_ice, Y.
Qed.
Lemma water_0 : forall p, over_water p 0 = 6.1121 * (1.0007 + 3.46 * p / 1000000).
Proof. intro p. unfold over_water. replace ((18.729 - 0 / 227.3) * 0 / (257.87 + 0)) with 0 by (rewrite Rmult_0_r; unfold Rdiv; now rewrite Rmult_0_l). rewrite exp_0. ring. Qed.
Lemma ice_0 : forall p, over_ice p 0 = 6.1115 * (1.0003 + 4.18 * p / 1000000).
Proof. intro p. unfold over_ice. replace ((23.036 - 0 / 333.7) * 0 / (279.82 + 0)) with 0 by (rewrite Rmult_0_r; unfold Rdiv; now rewrite Rmult_0_l). rewrite exp_0. ring. Qed.

Lemma e_water_ok : forall td p, temperature td -> e_water td p = Ok (over_water p td).
Proof.
  intros td p H. unfold e_water. rewrite Rdivide_ok by (unfold temperature in H; apply Rgt_not_eq; lra). cbn [bind]. unfold over_water. apply f_equal, Rmult_eq_compat_r. lra.
Qed.
Lemma e_ice_ok : forall td p, temperature td -> e_ice td p = Ok (over_ice p td).
Proof.
  intros td p H. unfold e_ice. rewrite Rdivide_ok by (unfold temperature in H; apply Rgt_not_eq; lra). cbn [bind]. unfold over_ice. apply f_equal, Rmult_eq_compat_r. lra.
Qed.
Lemma wet_bulb_bulb : forall e td t p, wet_bulb e td t p = bulb e td t p.
Proof. intros. unfold wet_bulb, bulb, weighted. replace ((td + 237.3) ^ 2) with ((td + 237.3) * (td + 237.3)) by ring. reflexivity. Qed.
Lemma e_of_ok : forall td t p, temperature td -> exists e, e_of td t p = Ok e /\ vapour td t p e.
Proof.
  intros td t p H. unfold e_of. rewrite e_water_ok by exact H. cbn [bind]. rewrite wet_bulb_bulb. unfold Rleb.
  destruct (Rle_dec (bulb (over_water p td) td t p) 0) as [L|L].
  - rewrite e_ice_ok by exact H. eexists. split; [reflexivity|]. right. auto.
  - eexists. split; [reflexivity|]. left. split; [lra|reflexivity].
Qed.
Lemma vapour_fun : forall td t p e e', vapour td t p e -> vapour td t p e' -> e = e'.
Proof. intros td t p e e' [[A B]|[A B]] [[C D]|[C D]]; try congruence; lra. Qed.
Lemma vapour_pos : forall td t p e, 0 < p -> vapour td t p e -> 0 < e.
Proof. intros td t p e P [[_ ->]|[_ ->]]; [apply water_pos|apply ice_pos]; exact P. Qed.

(* ---------------------------------------------------------------- wet bulb *)

Lemma weighted_between : forall a x b y, 0 < a -> 0 < b -> y <= x -> y <= weighted a x b y <= x.
Proof.
  intros a x b y A B L. unfold weighted. split.
  - apply Rle_div_r; [lra|]. nra.
  - apply Rle_div_l; [lra|]. nra.
Qed.
Lemma weighted_strict : forall a x b y, 0 < a -> 0 < b -> y < x -> y < weighted a x b y < x.
Proof.
  intros a x b y A B L. unfold weighted. split.
  - apply Rlt_div_r; [lra|]. nra.
  - apply Rlt_div_l; [lra|]. nra.
Qed.
Lemma weighted_same : forall a x b, 0 < a -> 0 < b -> weighted a x b x = x.
Proof. intros a x b A B. unfold weighted. field. lra. Qed.
Lemma weighted_swap : forall a x b y, weighted a x b y = weighted b y a x.
Proof. intros. unfold weighted. rewrite (Rplus_comm (a * x)), (Rplus_comm a b). reflexivity. Qed.
Lemma slope_pos : forall e td, 0 < e -> temperature td -> 0 < 409.8 * e / ((td + 237.3) * (td + 237.3)).
Proof. intros e td E [A _]. apply Rdiv_lt_0_compat; [lra|]. apply Rmult_lt_0_compat; lra. Qed.
Lemma bulb_between : forall e td t p, 0 < e -> 0 < p -> temperature td -> td <= t -> td <= bulb e td t p <= t.
Proof. intros e td t p E P T L. apply weighted_between; [lra|apply slope_pos; auto|exact L]. Qed.
Lemma bulb_between' : forall e td t p, 0 < e -> 0 < p -> temperature td -> t <= td -> t <= bulb e td t p <= td.
Proof. intros e td t p E P T L. unfold bulb. rewrite weighted_swap. apply weighted_between; [apply slope_pos; auto|lra|exact L]. Qed.
Lemma bulb_same : forall e t p, 0 < e -> 0 < p -> temperature t -> bulb e t t p = t.
Proof. intros e t p E P T. apply weighted_same; [lra|apply slope_pos; auto]. Qed.

(* ---------------------------------------------------------------- relative humidity *)

(** Saturation: over water above freezing, over ice otherwise. *)
Lemma saturation : forall t p e, 0 < p -> temperature t -> vapour t t p e -> (0 < t /\ e = over_water p t) \/ (t <= 0 /\ e = over_ice p t).
Proof. intros t p e P T. unfold vapour. rewrite bulb_same by (auto; apply water_pos; exact P). tauto. Qed.

Lemma t0 : temperature 0.
Proof. unfold temperature. lra. Qed.
Lemma ice_water_0 : forall p, 0 < p <= 1100 -> over_ice p 0 < 1.0005 * over_water p 0 /\ over_water p 0 < 1.0005 * over_ice p 0.
Proof. intros p P. rewrite water_0, ice_0. lra. Qed.

Lemma below_saturation : forall td t p e es, 0 < p <= 1100 -> temperature td -> temperature t -> td <= t -> vapour td t p e -> vapour t t p es ->
  e < 1.0005 * es /\ (t <= 0 \/ 0 < bulb (over_water p td) td t p -> e <= es).
Proof.
  intros td t p e es P Td T L E S. assert (P0 : 0 < p) by lra.
  destruct (bulb_between (over_water p td) td t p (water_pos p td P0) P0 Td L) as [B1 B2].
  pose proof (water_pos p t P0) as W. pose proof (ice_pos p t P0) as I.
  assert (Wl : over_water p td <= over_water p t) by (destruct L; [apply Rlt_le, water_incr; auto|subst; lra]).
  assert (Il : over_ice p td <= over_ice p t) by (destruct L; [apply Rlt_le, ice_incr; auto|subst; lra]).
  destruct (saturation t p es P0 T S) as [[T0 ->]|[T0 ->]]; destruct E as [[E0 ->]|[E0 ->]]; try lra.
  split; [|lra].
  assert (over_ice p td <= over_ice p 0). { destruct (Rle_lt_or_eq_dec td 0); [lra|apply Rlt_le, ice_incr; auto using t0|subst; lra]. }
  assert (over_water p 0 < over_water p t) by (apply water_incr; auto using t0).
  destruct (ice_water_0 p P). lra.
Qed.
Lemma above_saturation : forall td t p e es, 0 < p <= 1100 -> temperature td -> temperature t -> t <= td -> vapour td t p e -> vapour t t p es ->
  es < 1.0005 * e /\ (0 < t \/ bulb (over_water p td) td t p <= 0 -> es <= e).
Proof.
  intros td t p e es P Td T L E S. assert (P0 : 0 < p) by lra.
  destruct (bulb_between' (over_water p td) td t p (water_pos p td P0) P0 Td L) as [B1 B2].
  pose proof (water_pos p t P0) as W. pose proof (ice_pos p t P0) as I.
  assert (Wl : over_water p t <= over_water p td) by (destruct L; [apply Rlt_le, water_incr; auto|subst; lra]).
  assert (Il : over_ice p t <= over_ice p td) by (destruct L; [apply Rlt_le, ice_incr; auto|subst; lra]).
  destruct (saturation t p es P0 T S) as [[T0 ->]|[T0 ->]]; destruct E as [[E0 ->]|[E0 ->]]; try lra.
  split; [|lra].
  assert (over_ice p t <= over_ice p 0). { destruct (Rle_lt_or_eq_dec t 0); [lra|apply Rlt_le, ice_incr; auto using t0|subst; lra]. }
  assert (over_water p 0 < over_water p td) by (apply water_incr; auto using t0; lra).
  destruct (ice_water_0 p P). lra.
Qed.

(* ---------------------------------------------------------------- specific humidity *)

Lemma specific_incr : forall e e' p, 0 < e -> e < e' -> 0.378 * e' < p -> 0 < specific e p < specific e' p.
Proof.
  intros e e' p E L P. unfold specific. split; [apply Rdiv_lt_0_compat; lra|].
  apply Rminus_gt_0_lt. replace (1000 * 0.622 * e' / (p - 0.378 * e') - 1000 * 0.622 * e / (p - 0.378 * e))
    with (1000 * 0.622 * p * (e' - e) / ((p - 0.378 * e') * (p - 0.378 * e))) by (field; lra).
  apply Rdiv_lt_0_compat; [apply Rmult_lt_0_compat; lra|apply Rmult_lt_0_compat; lra].
Qed.
Lemma specific_1000 : forall e p, 0 < e -> e < p -> specific e p < 1000.
Proof. intros e p E P. unfold specific. apply Rlt_div_l; lra. Qed.

(* ---------------------------------------------------------------- dew point from vapour pressure *)

Lemma td_root_ok : forall h k m x, 0 < k -> - h < x -> x * x + 2 * h * x <= m * k * h ->
  td_root h k m ((m - x / k) * x / (h + x)) = x.
Proof.
  intros h k m x K X B. unfold td_root. set (l := (m - x / k) * x / (h + x)).
  assert (Q : x * x + (k * l - m * k) * x + h * k * l = 0) by (unfold l; field; lra).
  assert (D : (k * l - m * k) ^ 2 - 4 * 1 * (h * k * l) = (- (k * l - m * k) - 2 * x) * (- (k * l - m * k) - 2 * x)).
  { replace (h * k * l) with (- x * x - (k * l - m * k) * x) by lra. ring. }
  rewrite D, sqrt_square; [field|].
  apply Rmult_le_reg_r with (h + x); [lra|]. rewrite Rmult_0_l.
  replace ((- (k * l - m * k) - 2 * x) * (h + x)) with (m * k * h - (x * x + 2 * h * x)) by (unfold l; field; lra). lra.
Qed.
Lemma ln_water : forall p x, 0 < p -> ln (over_water p x / (6.1121 * (1 + 7 * (1 / 10000) + 3.46 * (1 / 1000000) * p))) = (18.729 - x / 227.3) * x / (257.87 + x).
Proof.
  intros p x P. unfold over_water.
  replace (6.1121 * (1.0007 + 3.46 * p / 1000000)) with (6.1121 * (1 + 7 * (1 / 10000) + 3.46 * (1 / 1000000) * p)) by lra.
  match goal with |- ln (?a * ?b / ?a) = _ => replace (a * b / a) with b by (field; lra) end. apply ln_exp.
Qed.
Lemma ln_ice : forall p x, 0 < p -> ln (over_ice p x / (6.1115 * (1 + 3 * (1 / 10000) + 4.18 * (1 / 1000000) * p))) = (23.036 - x / 333.7) * x / (279.82 + x).
Proof.
  intros p x P. unfold over_ice.
  replace (6.1115 * (1.0003 + 4.18 * p / 1000000)) with (6.1115 * (1 + 3 * (1 / 10000) + 4.18 * (1 / 1000000) * p)) by lra.
  match goal with |- ln (?a * ?b / ?a) = _ => replace (a * b / a) with b by (field; lra) end. apply ln_exp.
Qed.
Lemma water_root : forall p x, 0 < p -> temperature x ->
  td_root 257.87 227.3 18.729 (ln (over_water p x / (6.1121 * (1 + 7 * (1 / 10000) + 3.46 * (1 / 1000000) * p)))) = x.
Proof. intros p x P T. rewrite ln_water by exact P. apply td_root_ok; [lra|unfold temperature in T; lra|apply range_water, T]. Qed.
Lemma ice_root : forall p x, 0 < p -> temperature x ->
  td_root 279.82 333.7 23.036 (ln (over_ice p x / (6.1115 * (1 + 3 * (1 / 10000) + 4.18 * (1 / 1000000) * p)))) = x.
Proof. intros p x P T. rewrite ln_ice by exact P. apply td_root_ok; [lra|unfold temperature in T; lra|apply range_ice, T]. Qed.
Lemma td_water : forall td t p, 0 < p -> temperature td -> 0 < bulb (over_water p td) td t p -> td_from_vap false (over_water p td) p t = td.
Proof.
  intros td t p P T B. unfold td_from_vap. cbv zeta. rewrite water_root by auto. rewrite wet_bulb_bulb. unfold Rleb, rounded.
  destruct (Rle_dec _ 0); [lra|reflexivity].
Qed.
