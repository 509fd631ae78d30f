(** Proofs about the probabilities of gross errors. *)
Require Import Reals ZArith List Lia Lra.
From Coquelicot Require Import Rcomplements Rbar Hierarchy Continuity Derive RInt RInt_analysis AutoDerive.
Require Import Verif.M_Base Verif.L_Base Verif.M_Bayes Verif.S_Bayes.
Import ListNotations.
Open Scope R_scope.

(* ---- the error function ---- *)

Lemma gauss_ex_derive : forall t, ex_derive (fun t => exp (- (t * t))) t.
Proof. intro t. auto_derive. trivial. Qed.
Lemma gauss_continuous : forall t, continuous (fun t => exp (- (t * t))) t.
Proof. intro t. apply (ex_derive_continuous (fun t => exp (- (t * t)))). apply gauss_ex_derive. Qed.
Lemma gauss_int : forall a b, ex_RInt (fun t => exp (- (t * t))) a b.
Proof. intros. apply (ex_RInt_continuous (V := R_CompleteNormedModule)). intros. apply gauss_continuous. Qed.
Lemma erf_derive : forall x, is_derive erf x (2 / sqrt PI * exp (- (x * x))).
Proof.
  intro x. unfold erf. apply (is_derive_scal (fun x => RInt (V := R_CompleteNormedModule) (fun t => exp (- (t * t))) 0 x)).
  apply (is_derive_RInt (V := R_NormedModule) (fun t => exp (- (t * t))) (fun x => RInt (V := R_CompleteNormedModule) (fun t => exp (- (t * t))) 0 x) 0 x).
  - exists (mkposreal 1 Rlt_0_1). intros y _. apply (RInt_correct (V := R_CompleteNormedModule)). apply gauss_int.
  - apply gauss_continuous.
Qed.
Lemma sqrt_PI_pos : 0 < 2 / sqrt PI.
Proof. apply Rdiv_lt_0_compat; [lra|]. apply sqrt_lt_R0, PI_RGT_0. Qed.
Lemma erf_increasing : forall x y, x < y -> erf x < erf y.
Proof.
  intros x y H. apply (incr_function erf (Finite (x - 1)) (Finite (y + 1)) (fun x => 2 / sqrt PI * exp (- (x * x)))); cbn; try lra.
  - intros z _ _. apply erf_derive.
  - intros z _ _. apply Rmult_lt_0_compat; [apply sqrt_PI_pos|apply exp_pos].
Qed.

Lemma erf_mono : forall x y, x <= y -> erf x <= erf y.
Proof. intros x y [H| ->]; [left; now apply erf_increasing|now right]. Qed.

(** The probability of an interval of fixed width shrinks with its distance from the centre. *)
Lemma erf_odd : forall x, erf (- x) = - erf x.
Proof.
  intro x. unfold erf. replace (RInt (V := R_CompleteNormedModule) (fun t => exp (- (t * t))) 0 (- x)) with (- RInt (V := R_CompleteNormedModule) (fun t => exp (- (t * t))) 0 x); [ring|].
  set (f := fun t => exp (- (t * t))).
  assert (A : is_RInt (V := R_NormedModule) (fun y => opp (f (- y))) 0 x (RInt (V := R_CompleteNormedModule) f 0 (- x))).
  { apply (is_RInt_comp_opp (V := R_NormedModule) f 0 x). rewrite Ropp_0. apply (RInt_correct (V := R_CompleteNormedModule)). apply gauss_int. }
  assert (B : is_RInt (V := R_NormedModule) (fun y => opp (f (- y))) 0 x (opp (RInt (V := R_CompleteNormedModule) f 0 x))).
  { apply (is_RInt_ext (V := R_NormedModule) (fun y => opp (f y))).
    - intros t _. unfold f. do 3 f_equal. change (t * t = - t * - t). ring.
    - apply (is_RInt_opp (V := R_NormedModule)). apply (RInt_correct (V := R_CompleteNormedModule)). apply gauss_int. }
  apply (is_RInt_unique (V := R_CompleteNormedModule)) in A. apply (is_RInt_unique (V := R_CompleteNormedModule)) in B. rewrite A in B. symmetry. exact B.
Qed.
Definition bump (h u : R) : R := erf (u + h) - erf (u - h).
Lemma bump_derive : forall h u, is_derive (bump h) u (2 / sqrt PI * (exp (- ((u + h) * (u + h))) - exp (- ((u - h) * (u - h))))).
Proof.
  intros h u. unfold bump.
  evar_last. apply (is_derive_minus (V := R_NormedModule) (fun u => erf (u + h)) (fun u => erf (u - h))).
  - apply (is_derive_comp (V := R_NormedModule) erf (fun u => u + h)); [apply erf_derive|]. auto_derive; [trivial|reflexivity].
  - apply (is_derive_comp (V := R_NormedModule) erf (fun u => u - h)); [apply erf_derive|]. auto_derive; [trivial|reflexivity].
  - cbn. unfold scal, minus, plus, opp. cbn. unfold mult. cbn. ring.
Qed.
Lemma bump_even : forall h u, bump h (- u) = bump h u.
Proof. intros h u. unfold bump. replace (- u + h) with (- (u - h)) by ring. replace (- u - h) with (- (u + h)) by ring. rewrite !erf_odd. ring. Qed.
Lemma bump_decr : forall h u v, 0 < h -> 0 <= u -> u <= v -> bump h v <= bump h u.
Proof.
  intros h u v H U V.
  destruct (MVT_gen (bump h) u v (fun u => 2 / sqrt PI * (exp (- ((u + h) * (u + h))) - exp (- ((u - h) * (u - h)))))) as [c [C E]].
  - intros x _. apply bump_derive.
  - intros x _. apply derivable_continuous_pt. apply ex_derive_Reals_0. eexists. apply bump_derive.
  - rewrite Rmin_left, Rmax_right in C by lra.
    enough (2 / sqrt PI * (exp (- ((c + h) * (c + h))) - exp (- ((c - h) * (c - h)))) <= 0) by nra.
    assert (exp (- ((c + h) * (c + h))) <= exp (- ((c - h) * (c - h)))).
    { destruct (Req_dec c 0) as [->|]; [right; f_equal; ring|]. left. apply exp_increasing. assert (0 < c * h) by (apply Rmult_lt_0_compat; lra). nra. }
    pose proof sqrt_PI_pos. nra.
Qed.

(* ---- the probabilities ---- *)

Lemma Rltb_t : forall a b, a < b -> Rltb a b = true. Proof. intros a b H. unfold Rltb. destruct (Rlt_dec a b); [reflexivity|contradiction]. Qed.
Lemma Rleb_t : forall a b, a <= b -> Rleb a b = true. Proof. intros a b H. unfold Rleb. destruct (Rle_dec a b); [reflexivity|contradiction]. Qed.
Lemma Rltb_prop : forall a b, Rltb a b = true -> a < b. Proof. intros a b H. unfold Rltb in H. destruct (Rlt_dec a b); [assumption|discriminate]. Qed.
Lemma Rleb_prop : forall a b, Rleb a b = true -> a <= b. Proof. intros a b H. unfold Rleb in H. destruct (Rle_dec a b); [assumption|discriminate]. Qed.
Lemma Rdivide_ok : forall a b, b <> 0 -> Rdivide a b = Ok (a / b). Proof. intros a b H. unfold Rdivide. destruct (Req_EM_T b 0); [contradiction|reflexivity]. Qed.
Lemma Rdivide_0 : forall a, Rdivide a 0 = Err ZeroDivisionError. Proof. intros a. unfold Rdivide. destruct (Req_EM_T 0 0); [reflexivity|contradiction]. Qed.

Lemma good_ok : forall e x q hi lo mu sigma, 0 < q -> 0 < sigma -> lo < hi -> lo <= x <= hi ->
  p_data_given_good e x q hi lo mu sigma =
    if Req_EM_T (normal_between e mu sigma (lo - q / 2) (hi + q / 2)) 0 then Err ZeroDivisionError else Ok (good e q hi lo mu sigma x).
Proof.
  intros e x q hi lo mu sigma Q S L X. unfold p_data_given_good. rewrite !Rltb_t, !Rleb_t by lra. cbn [py_assert bind]. cbv zeta.
  rewrite Rmin_left, Rmax_left by lra. unfold good, normal_between.
  replace (0.5 * q) with (q / 2) by lra.
  set (A := e ((x + q / 2 - mu) / (sigma * sqrt 2))). set (B := e ((x - q / 2 - mu) / (sigma * sqrt 2))).
  set (C := e ((hi + q / 2 - mu) / (sigma * sqrt 2))). set (D := e ((lo - q / 2 - mu) / (sigma * sqrt 2))).
  destruct (Req_EM_T ((C - D) / 2) 0) as [Z|Z].
  - replace (0.5 * (C - D)) with 0 by lra. apply Rdivide_0.
  - rewrite Rdivide_ok by lra. f_equal. field. lra.
Qed.
Lemma gross_ok : forall q hi lo, 0 < q -> lo < hi -> p_data_given_gross q hi lo = Ok (gross q hi lo) /\ 0 < gross q hi lo <= 1.
Proof.
  intros q hi lo Q L. unfold p_data_given_gross. rewrite !Rltb_t by lra. cbn [py_assert bind]. cbv zeta. rewrite Rdivide_ok by lra. cbn [bind].
  assert (0 < (hi - lo) / q) by (apply Rdiv_lt_0_compat; lra). rewrite Rdivide_ok by lra. unfold gross. split; [f_equal; field; split; lra|].
  split; [apply Rdiv_lt_0_compat; lra|]. apply (Rmult_le_reg_r ((hi - lo) / q + 1)); [lra|]. unfold Rdiv at 1. rewrite Rmult_assoc, Rinv_l by lra. lra.
Qed.
Lemma scale_le : forall mu sigma a b, 0 < sigma -> a <= b -> (a - mu) / (sigma * sqrt 2) <= (b - mu) / (sigma * sqrt 2).
Proof. intros mu sigma a b S H. assert (0 < sqrt 2) by (apply sqrt_lt_R0; lra). apply Rmult_le_compat_r; [left; apply Rinv_0_lt_compat; nra|lra]. Qed.
Lemma scale_lt : forall mu sigma a b, 0 < sigma -> a < b -> (a - mu) / (sigma * sqrt 2) < (b - mu) / (sigma * sqrt 2).
Proof. intros mu sigma a b S H. assert (0 < sqrt 2) by (apply sqrt_lt_R0; lra). apply Rmult_lt_compat_r; [apply Rinv_0_lt_compat; nra|lra]. Qed.
Lemma strict_mono : forall e, strict e -> mono e.
Proof. intros e H x y [K| ->]; [left; now apply H|now right]. Qed.
Lemma between_nonneg : forall e mu sigma a b, mono e -> 0 < sigma -> a <= b -> 0 <= normal_between e mu sigma a b.
Proof. intros e mu sigma a b M S H. unfold normal_between. pose proof (M _ _ (scale_le mu sigma a b S H)). lra. Qed.
Lemma between_pos : forall e mu sigma a b, strict e -> 0 < sigma -> a < b -> 0 < normal_between e mu sigma a b.
Proof. intros e mu sigma a b M S H. unfold normal_between. pose proof (M _ _ (scale_lt mu sigma a b S H)). lra. Qed.
Lemma between_incl : forall e mu sigma a b c d, mono e -> 0 < sigma -> a <= b -> c <= d -> normal_between e mu sigma b c <= normal_between e mu sigma a d.
Proof. intros e mu sigma a b c d M S A B. unfold normal_between. pose proof (M _ _ (scale_le mu sigma a b S A)). pose proof (M _ _ (scale_le mu sigma c d S B)). lra. Qed.
Lemma div_01 : forall a b, 0 <= a <= b -> 0 < b -> 0 <= a / b <= 1.
Proof. intros a b H B. split; [apply Rmult_le_pos; [lra|left; now apply Rinv_0_lt_compat]|]. apply (Rmult_le_reg_r b); [lra|]. unfold Rdiv. rewrite Rmult_assoc, Rinv_l by lra. lra. Qed.
Lemma good_range : forall e q hi lo mu sigma x, mono e -> 0 < q -> 0 < sigma -> lo <= x <= hi -> normal_between e mu sigma (lo - q / 2) (hi + q / 2) <> 0 ->
  0 <= good e q hi lo mu sigma x <= 1.
Proof.
  intros e q hi lo mu sigma x M Q S X N. unfold good. pose proof (between_nonneg e mu sigma (lo - q / 2) (hi + q / 2) M S ltac:(lra)) as P. apply div_01; [|lra].
  split; [apply between_nonneg; auto; lra|apply between_incl; auto; lra].
Qed.
Lemma good_zero : forall e q hi lo mu sigma x, normal_between e mu sigma (lo - q / 2) (hi + q / 2) <> 0 ->
  (good e q hi lo mu sigma x = 0 <-> normal_between e mu sigma (x - q / 2) (x + q / 2) = 0).
Proof.
  intros e q hi lo mu sigma x N. unfold good. split; intro H; [|rewrite H; unfold Rdiv; ring].
  apply Rmult_integral in H. destruct H as [H|H]; [exact H|]. exfalso. revert H. now apply Rinv_neq_0_compat.
Qed.
Lemma p_gross_eval : forall e p0 q hi lo x mu sigma, mono e -> sensible p0 q hi lo x sigma ->
  let n := normal_between e mu sigma (lo - q / 2) (hi + q / 2) in
  let d := normal_between e mu sigma (x - q / 2) (x + q / 2) in
  (n = 0 -> p_gross e p0 q hi lo x mu sigma = Err ZeroDivisionError) /\
  (n <> 0 -> p0 = 0 -> d = 0 -> p_gross e p0 q hi lo x mu sigma = Err ZeroDivisionError) /\
  (n <> 0 -> (p0 <> 0 \/ d <> 0) -> p_gross e p0 q hi lo x mu sigma = Ok (posterior p0 (gross q hi lo) (good e q hi lo mu sigma x)) /\
     0 < p0 * gross q hi lo + (1 - p0) * good e q hi lo mu sigma x).
Proof.
  intros e p0 q hi lo x mu sigma M [P [Q [L [X S]]]] n d. unfold p_gross. rewrite !Rltb_t, !Rleb_t by lra. cbn [py_assert bind].
  destruct (gross_ok q hi lo Q L) as [G1 G2]. rewrite G1. cbn [bind]. rewrite good_ok by assumption. fold n.
  destruct (Req_EM_T n 0) as [Z|Z]; split; [reflexivity|split; contradiction|contradiction|]. cbn [bind].
  pose proof (good_range e q hi lo mu sigma x M Q S X Z) as GR. pose proof (good_zero e q hi lo mu sigma x Z) as GZ. fold d in GZ.
  set (g := gross q hi lo) in *. set (k := good e q hi lo mu sigma x) in *. split.
  - intros _ P0 D. apply GZ in D. rewrite P0, D. replace (0 * g + (1 - 0) * 0) with 0 by ring. now rewrite Rdivide_0.
  - intros _ H. assert (POS : 0 < p0 * g + (1 - p0) * k).
    { destruct (Req_dec p0 0) as [E|E].
      - destruct H as [H|H]; [contradiction|]. assert (k <> 0) by (rewrite GZ; exact H). rewrite E. lra.
      - assert (0 < p0 * g) by nra. assert (0 <= (1 - p0) * k) by nra. lra. }
    rewrite Rdivide_ok by lra. cbn [bind]. fold (posterior p0 g k).
    assert (B : 0 <= posterior p0 g k <= 1) by (unfold posterior; apply div_01; nra).
    rewrite !Rleb_t by lra. split; [reflexivity|exact POS].
Qed.
Lemma p_gross_insensible : forall e p0 q hi lo x mu sigma, ~ sensible p0 q hi lo x sigma -> p_gross e p0 q hi lo x mu sigma = Err AssertionError.
Proof.
  intros e p0 q hi lo x mu sigma H. unfold p_gross.
  destruct (Rleb 0 p0) eqn:A1; [apply Rleb_prop in A1; cbn [py_assert bind]|reflexivity].
  destruct (Rleb p0 1) eqn:A2; [apply Rleb_prop in A2; cbn [py_assert bind]|reflexivity].
  destruct (Rltb 0 q) eqn:A3; [apply Rltb_prop in A3; cbn [py_assert bind]|reflexivity].
  destruct (Rltb lo hi) eqn:A4; [apply Rltb_prop in A4; cbn [py_assert bind]|reflexivity].
  destruct (Rleb lo x) eqn:A5; [apply Rleb_prop in A5; cbn [py_assert bind]|reflexivity].
  destruct (Rleb x hi) eqn:A6; [apply Rleb_prop in A6; cbn [py_assert bind]|reflexivity].
  destruct (Rltb 0 sigma) eqn:A7; [apply Rltb_prop in A7; cbn [py_assert bind]|reflexivity].
  exfalso. apply H. unfold sensible. repeat split; assumption.
Qed.
Lemma p_gross_strict : forall e p0 q hi lo x mu sigma, strict e -> sensible p0 q hi lo x sigma ->
  p_gross e p0 q hi lo x mu sigma = Ok (posterior p0 (gross q hi lo) (good e q hi lo mu sigma x)) /\ 0 < gross q hi lo /\ 0 < good e q hi lo mu sigma x.
Proof.
  intros e p0 q hi lo x mu sigma M S. pose proof S as [P [Q [L [X SG]]]].
  pose proof (between_pos e mu sigma (lo - q / 2) (hi + q / 2) M SG ltac:(lra)) as N. pose proof (between_pos e mu sigma (x - q / 2) (x + q / 2) M SG ltac:(lra)) as D.
  destruct (p_gross_eval e p0 q hi lo x mu sigma (strict_mono e M) S) as [_ [_ H]]. cbv zeta in H. destruct H as [H _]; [lra|right; lra|]. split; [exact H|]. split; [now apply gross_ok|]. unfold good. now apply Rdiv_lt_0_compat.
Qed.

(** The posterior grows with the prior and shrinks with the probability under "good". *)
Lemma frac_le : forall a b c d, 0 < b -> 0 < d -> a * d <= c * b -> a / b <= c / d.
Proof. intros a b c d B D H. apply (Rmult_le_reg_r (b * d)); [nra|]. replace (a / b * (b * d)) with (a * d) by (field; lra). replace (c / d * (b * d)) with (c * b) by (field; lra). exact H. Qed.
Lemma mix_pos : forall p g k, 0 <= p <= 1 -> 0 < g -> 0 < k -> 0 < p * g + (1 - p) * k.
Proof. intros p g k P G H. destruct (Req_dec p 0) as [->|]; [lra|]; assert (0 < p * g) by nra; assert (0 <= (1 - p) * k) by nra; lra. Qed.
Lemma posterior_prior : forall p p' g d, 0 <= p -> p <= p' -> p' <= 1 -> 0 < g -> 0 < d -> posterior p g d <= posterior p' g d.
Proof.
  intros p p' g d P L P' G D. unfold posterior. apply frac_le; [apply mix_pos; lra|apply mix_pos; lra|].
  assert (0 <= (p' - p) * (g * d)) by (apply Rmult_le_pos; nra). nra.
Qed.
Lemma posterior_good : forall p g d d', 0 <= p <= 1 -> 0 < g -> 0 < d -> d <= d' -> posterior p g d' <= posterior p g d.
Proof.
  intros p g d d' P G D L. unfold posterior.
  assert (K : forall k, 0 < k -> 0 < p * g + (1 - p) * k) by (intros k H; destruct (Req_dec p 0) as [->|]; [lra|]; assert (0 < p * g) by nra; assert (0 <= (1 - p) * k) by nra; lra).
  apply frac_le; [apply K; lra|now apply K|]. assert (0 <= p * g) by nra. assert ((1 - p) * d <= (1 - p) * d') by nra. nra.
Qed.

(** The exact error function: distance from the mean. *)
Lemma good_bump : forall q hi lo mu sigma x, 0 < sigma ->
  good erf q hi lo mu sigma x = bump (q / 2 / (sigma * sqrt 2)) (Rabs (x - mu) / (sigma * sqrt 2)) / 2 / normal_between erf mu sigma (lo - q / 2) (hi + q / 2).
Proof.
  intros q hi lo mu sigma x S. unfold good. f_equal. unfold normal_between. f_equal.
  assert (S2 : 0 < sqrt 2) by (apply sqrt_lt_R0; lra). assert (SS : 0 < sigma * sqrt 2) by nra.
  transitivity (bump (q / 2 / (sigma * sqrt 2)) ((x - mu) / (sigma * sqrt 2))).
  - unfold bump. apply f_equal2; apply f_equal; field; split; lra.
  - unfold Rabs. destruct (Rcase_abs (x - mu)); [|reflexivity]. rewrite <- (bump_even _ ((x - mu) / (sigma * sqrt 2))). f_equal. field. split; lra.
Qed.
Lemma good_distance : forall q hi lo mu sigma x x', 0 < q -> 0 < sigma -> lo < hi -> Rabs (x - mu) <= Rabs (x' - mu) -> good erf q hi lo mu sigma x' <= good erf q hi lo mu sigma x.
Proof.
  intros q hi lo mu sigma x x' Q S L H. rewrite !good_bump by exact S.
  assert (S2 : 0 < sqrt 2) by (apply sqrt_lt_R0; lra). assert (SS : 0 < sigma * sqrt 2) by nra.
  pose proof (between_pos erf mu sigma (lo - q / 2) (hi + q / 2) erf_increasing S ltac:(lra)) as N.
  apply Rmult_le_compat_r; [left; now apply Rinv_0_lt_compat|]. apply Rmult_le_compat_r; [lra|].
  apply bump_decr; [apply Rdiv_lt_0_compat; lra| |].
  - apply Rmult_le_pos; [apply Rabs_pos|left; now apply Rinv_0_lt_compat].
  - apply Rmult_le_compat_r; [left; now apply Rinv_0_lt_compat|exact H].
Qed.

(** Both are distributions over the rounded values. *)
Lemma sumR_app : forall a b, sumR (a ++ b) = sumR a + sumR b.
Proof. intros a b. induction a as [|x a IH]; cbn [app sumR]; [ring|]. rewrite IH. ring. Qed.
Lemma sum_between : forall e mu sigma lo q k, sumR (map (fun i => normal_between e mu sigma (lo + INR i * q - q / 2) (lo + INR i * q + q / 2)) (seq 0 (S k))) = normal_between e mu sigma (lo - q / 2) (lo + INR k * q + q / 2).
Proof.
  intros e mu sigma lo q k. induction k as [|k IH].
  - cbn [seq map sumR INR]. unfold normal_between. replace (lo + 0 * q - q / 2) with (lo - q / 2) by ring. ring.
  - rewrite seq_S, map_app, sumR_app, IH. cbn [map sumR]. change (0 + S k)%nat with (S k). unfold normal_between. rewrite S_INR. replace (lo + (INR k + 1) * q - q / 2) with (lo + INR k * q + q / 2) by field. field.
Qed.
Lemma sumR_div : forall (A : Type) (f : A -> R) (l : list A) n, sumR (map (fun x => f x / n) l) = sumR (map f l) / n.
Proof. intros A f l n. induction l as [|x l IH]; cbn [map sumR]; [unfold Rdiv; ring|]. rewrite IH. unfold Rdiv. ring. Qed.
Lemma good_sums : forall e q lo mu sigma n, normal_between e mu sigma (lo - q / 2) (lo + INR n * q + q / 2) <> 0 ->
  sumR (map (good e q (lo + INR n * q) lo mu sigma) (values lo q n)) = 1.
Proof.
  intros e q lo mu sigma n N. unfold values. rewrite map_map. unfold good.
  rewrite (sumR_div _ (fun i => normal_between e mu sigma (lo + INR i * q - q / 2) (lo + INR i * q + q / 2))). rewrite sum_between. now apply Rinv_r.
Qed.
Lemma gross_sums : forall q lo n, 0 < q -> sumR (map (fun _ => gross q (lo + INR n * q) lo) (values lo q n)) = 1.
Proof.
  intros q lo n Q. unfold gross. replace ((lo + INR n * q - lo) / q) with (INR n) by (field; lra).
  assert (P : 0 < INR n + 1) by (pose proof (pos_INR n); lra).
  assert (E : forall (A : Type) (l : list A), sumR (map (fun _ => 1 / (INR n + 1)) l) = INR (length l) / (INR n + 1)).
  { intros A l. induction l as [|x l IH]; [cbn; unfold Rdiv; ring|]. cbn [map sumR length]. rewrite IH, S_INR. field. lra. }
  rewrite E. unfold values. rewrite map_length, seq_length, S_INR. field. lra.
Qed.
