(** Polar coordinates. *)
Require Import Reals Lra.
Require Import Verif.M_Real.
Open Scope R_scope.

Lemma cos_wrap_plus : forall x, cos (x + 2 * PI) = cos x.
Proof. intro x. replace (x + 2 * PI) with (x + 2 * INR 1 * PI) by (cbn [INR]; ring). apply cos_period. Qed.
Lemma sin_wrap_plus : forall x, sin (x + 2 * PI) = sin x.
Proof. intro x. replace (x + 2 * PI) with (x + 2 * INR 1 * PI) by (cbn [INR]; ring). apply sin_period. Qed.
Lemma cos_wrap_minus : forall x, cos (x - 2 * PI) = cos x.
Proof. intro x. rewrite <- (cos_wrap_plus (x - 2 * PI)). f_equal. ring. Qed.
Lemma sin_wrap_minus : forall x, sin (x - 2 * PI) = sin x.
Proof. intro x. rewrite <- (sin_wrap_plus (x - 2 * PI)). f_equal. ring. Qed.

Lemma cos_atan_pos : forall t, 0 < cos (atan t).
Proof. intro t. destruct (atan_bound t). apply cos_gt_0; lra. Qed.
Lemma atan_polar : forall x y, 0 < x -> let r := sqrt (x * x + y * y) in x = r * cos (atan (y / x)) /\ y = r * sin (atan (y / x)).
Proof.
  intros x y P r. pose proof (cos_atan_pos (y / x)) as C.
  assert (T : sin (atan (y / x)) = y / x * cos (atan (y / x))).
  { pose proof (tan_atan (y / x)) as T. unfold tan in T. rewrite <- T at 2. field. lra. }
  assert (E : r = x / cos (atan (y / x))).
  { unfold r. apply sqrt_lem_1.
    - nra.
    - apply Rlt_le. apply Rdiv_lt_0_compat; lra.
    - pose proof (sin2_cos2 (atan (y / x))) as S. unfold Rsqr in S. rewrite T in S.
      assert (x * x + y * y = x * x / (cos (atan (y / x)) * cos (atan (y / x)))); [|rewrite H; field; lra].
      apply (Rmult_eq_reg_r (cos (atan (y / x)) * cos (atan (y / x)))); [|nra].
      replace (x * x / (cos (atan (y / x)) * cos (atan (y / x))) * (cos (atan (y / x)) * cos (atan (y / x)))) with (x * x) by (field; lra).
      transitivity (x * x * (y / x * cos (atan (y / x)) * (y / x * cos (atan (y / x))) + cos (atan (y / x)) * cos (atan (y / x)))); [field; lra|]. rewrite S. ring. }
  rewrite E, T. split; field; repeat split; lra.
Qed.

(** atan2 y x is the angle of the point (x, y). *)
Lemma atan2_polar : forall y x, let r := sqrt (x * x + y * y) in x = r * cos (atan2 y x) /\ y = r * sin (atan2 y x).
Proof.
  intros y x r. unfold atan2. destruct (Rlt_dec 0 x) as [P|NP]; [exact (atan_polar x y P)|].
  destruct (Rlt_dec x 0) as [P|NP'].
  - assert (Q : 0 < - x) by lra. destruct (atan_polar (- x) (- y) Q) as [A B].
    assert (E1 : - y / - x = y / x) by (field; lra). rewrite E1 in A, B.
    assert (E2 : - x * - x + - y * - y = x * x + y * y) by ring. rewrite E2 in A, B. fold r in A, B.
    destruct (Rle_dec 0 y).
    + rewrite neg_cos, neg_sin. split; lra.
    + replace (atan (y / x) - PI) with (- (PI - atan (y / x))) by ring. rewrite cos_neg, sin_neg. rewrite Rtrigo_facts.cos_pi_minus, Rtrigo_facts.sin_pi_minus. split; lra.
  - assert (x = 0) by lra. subst x. unfold r. clear r. replace (0 * 0 + y * y) with (y * y) by ring.
    destruct (Rlt_dec 0 y) as [Y|NY]; [|destruct (Rlt_dec y 0) as [Y|NY']].
    + rewrite cos_PI2, sin_PI2, sqrt_square by lra. split; ring.
    + rewrite cos_neg, sin_neg, cos_PI2, sin_PI2. replace (y * y) with (- y * - y) by ring. rewrite sqrt_square by lra. split; ring.
    + assert (y = 0) by lra. subst y. rewrite Rmult_0_l, sqrt_0. split; ring.
Qed.
Lemma atan2_bound : forall y x, - PI < atan2 y x <= PI.
Proof.
  intros y x. pose proof PI_RGT_0. unfold atan2. destruct (Rlt_dec 0 x) as [P|NP]; [destruct (atan_bound (y / x)); lra|].
  destruct (Rlt_dec x 0) as [P|NP'].
  - destruct (atan_bound (y / x)). destruct (Rle_dec 0 y) as [Y|Y].
    + split; [lra|]. assert (atan (y / x) <= 0); [|lra]. destruct (Req_dec y 0) as [->|N]; [unfold Rdiv; rewrite Rmult_0_l, atan_0; lra|].
      rewrite <- atan_0. apply Rlt_le. apply atan_increasing. apply (Rmult_lt_reg_r (- x)); [lra|]. replace (y / x * - x) with (- y) by (field; lra). lra.
    + split; [|lra]. assert (0 < atan (y / x)); [|lra]. rewrite <- atan_0. apply atan_increasing. apply (Rmult_lt_reg_r (- x)); [lra|]. replace (y / x * - x) with (- y) by (field; lra). lra.
  - destruct (Rlt_dec 0 y); [lra|]. destruct (Rlt_dec y 0); lra.
Qed.
Lemma atan2_nonneg : forall y x, 0 <= y -> 0 <= atan2 y x.
Proof.
  intros y x Y. pose proof PI_RGT_0. unfold atan2. destruct (Rlt_dec 0 x) as [P|NP].
  - destruct (Req_dec y 0) as [->|N]; [unfold Rdiv; rewrite Rmult_0_l, atan_0; lra|]. rewrite <- atan_0. apply Rlt_le. apply atan_increasing. apply Rdiv_lt_0_compat; lra.
  - destruct (Rlt_dec x 0) as [P|NP']; [destruct (Rle_dec 0 y); [destruct (atan_bound (y / x)); lra|lra]|].
    destruct (Rlt_dec 0 y); [lra|]. destruct (Rlt_dec y 0); lra.
Qed.
Lemma asin_pos_iff : forall s, -1 <= s <= 1 -> (0 < asin s <-> 0 < s).
Proof.
  intros s B. pose proof (asin_bound s) as [A1 A2]. pose proof (sin_asin s B) as S. pose proof PI_RGT_0. split; intro H0.
  - rewrite <- S. apply sin_gt_0; lra.
  - destruct (Rle_lt_dec (asin s) 0) as [L|L]; [|exact L]. exfalso.
    assert (0 <= sin (- asin s)) by (apply sin_ge_0; lra). rewrite sin_neg in H1. lra.
Qed.
