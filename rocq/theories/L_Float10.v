(** The error of a bilinear interpolation in double precision. *)
Require Import ZArith QArith Reals Lra Lia Bool List.
From Flocq Require Import Core.Core IEEE754.BinarySingleNaN.
Require Import Verif.M_Base Verif.M_Float Verif.S_Float Verif.L_Float Verif.L_Float6 Verif.M_Float6 Verif.S_Float3.
Import ListNotations.
Open Scope R_scope.

Definition w : R := u / 10 ^ 60.
Lemma w_pos : 0 < w.
Proof. unfold w. pose proof u_pos. apply Rdiv_lt_0_compat; [lra|apply pow_lt; lra]. Qed.
Lemma w_u : w * 10 ^ 60 = u.
Proof. unfold w. field. Qed.
Lemma err_w : forall a, Rabs (rnd a - a) <= u * Rabs a + w.
Proof.
  intros a. destruct (rnd_err a) as [e [d [E [D ->]]]]. replace (a * (1 + e) + d - a) with (a * e + d) by ring. eapply Rle_trans; [apply Rabs_triang|]. apply Rplus_le_compat.
  - rewrite Rabs_mult, Rmult_comm. apply Rmult_le_compat_r; [apply Rabs_pos|exact E].
  - eapply Rle_trans; [exact D|]. unfold w. apply Rmult_le_reg_r with (10 ^ 60); [apply pow_lt; lra|]. unfold Rdiv. rewrite Rmult_assoc, Rinv_l, Rmult_1_r by (apply pow_nonzero; lra).
    apply Rle_trans with (bpow radix2 (-1075) * bpow radix2 1022); [|rewrite <- bpow_plus; apply bpow_le; lia].
    apply Rmult_le_compat_l; [apply bpow_ge_0|]. apply Rle_trans with (bpow radix2 240); [|apply bpow_le; lia]. rewrite <- (IZR_Zpower radix2) by lia. rewrite pow_IZR. apply IZR_le. vm_compute. discriminate.
Qed.

(** The product of two approximations, rounded. *)
Lemma mul_ap : forall x X y Y k l V W d, 0 <= k <= 10 -> 0 <= l <= 10 -> 0 <= d <= 1 -> Rabs X <= V -> Rabs Y <= W -> V <= 10 ^ 13 -> W <= 10 ^ 4 ->
  Rabs (x - X) <= k * u * V + d -> Rabs (y - Y) <= l * u * W + d -> Rabs (rnd (x * y) - X * Y) <= (k + l + 2) * u * (V * W) + (10 ^ 14 * d + w).
Proof.
  intros x X y Y k l V W d K L D HX HY HV HW EX EY. pose proof u_pos as U. pose proof w_pos as WP.
  assert (V0 : 0 <= V) by (eapply Rle_trans; [apply Rabs_pos|exact HX]). assert (W0 : 0 <= W) by (eapply Rle_trans; [apply Rabs_pos|exact HY]).
  assert (ku : 0 <= k * u <= 1 / 1000) by (split; [apply Rmult_le_pos; lra|apply Rle_trans with (10 * u); [apply Rmult_le_compat_r; lra|lra]]).
  assert (lu : 0 <= l * u <= 1 / 1000) by (split; [apply Rmult_le_pos; lra|apply Rle_trans with (10 * u); [apply Rmult_le_compat_r; lra|lra]]).
  assert (VW : 0 <= V * W) by (apply Rmult_le_pos; assumption).
  (* the exact product of the approximations *)
  assert (P : Rabs (x * y - X * Y) <= (k + l + 1 / 50) * u * (V * W) + d * (W + W / 1000 + V + V / 1000 + 1)).
  { replace (x * y - X * Y) with ((x - X) * (y - Y) + (x - X) * Y + X * (y - Y)) by ring.
    eapply Rle_trans; [apply Rabs_triang|]. eapply Rle_trans; [apply Rplus_le_compat_r, Rabs_triang|]. rewrite !Rabs_mult.
    assert (A1 : Rabs (x - X) * Rabs (y - Y) <= (k * u * V + d) * (l * u * W + d)) by (apply Rmult_le_compat; try apply Rabs_pos; assumption).
    assert (A2 : Rabs (x - X) * Rabs Y <= (k * u * V + d) * W) by (apply Rmult_le_compat; try apply Rabs_pos; assumption).
    assert (A3 : Rabs X * Rabs (y - Y) <= V * (l * u * W + d)) by (apply Rmult_le_compat; try apply Rabs_pos; assumption).
    assert (B1 : k * u * V * (l * u * W) <= 1 / 50 * u * (V * W)).
    { replace (k * u * V * (l * u * W)) with ((k * (l * u)) * (u * (V * W))) by ring. rewrite (Rmult_assoc (1 / 50)). apply Rmult_le_compat_r; [apply Rmult_le_pos; lra|].
      apply Rle_trans with (10 * (1 / 1000)); [apply Rmult_le_compat; lra|lra]. }
    assert (B2 : k * u * V * d <= V / 1000 * d). { apply Rmult_le_compat_r; [lra|]. apply Rle_trans with (1 / 1000 * V); [apply Rmult_le_compat_r; lra|lra]. }
    assert (B3 : d * (l * u * W) <= d * (W / 1000)). { apply Rmult_le_compat_l; [lra|]. apply Rle_trans with (1 / 1000 * W); [apply Rmult_le_compat_r; lra|lra]. }
    assert (B4 : d * d <= d * 1) by (apply Rmult_le_compat_l; lra). nra. }
  assert (DB : d * (W + W / 1000 + V + V / 1000 + 1) <= d * (2 * 10 ^ 13)) by (apply Rmult_le_compat_l; lra).
  pose proof (err_w (x * y)) as E.
  assert (XY : Rabs (X * Y) <= V * W) by (rewrite Rabs_mult; apply Rmult_le_compat; try apply Rabs_pos; assumption).
  assert (KL : 0 <= (k + l + 1 / 50) * u <= 1 / 100) by (split; [apply Rmult_le_pos; lra|apply Rle_trans with (21 * u); [apply Rmult_le_compat_r; lra|lra]]).
  assert (XY2 : Rabs (x * y) <= (1 + 1 / 100) * (V * W) + d * (2 * 10 ^ 13)).
  { replace (x * y) with ((x * y - X * Y) + X * Y) by ring. eapply Rle_trans; [apply Rabs_triang|]. assert ((k + l + 1 / 50) * u * (V * W) <= 1 / 100 * (V * W)) by (apply Rmult_le_compat_r; lra). lra. }
  assert (UX : u * Rabs (x * y) <= (1 + 1 / 100) * u * (V * W) + d * (2 * 10 ^ 13)).
  { apply Rle_trans with (u * ((1 + 1 / 100) * (V * W) + d * (2 * 10 ^ 13))); [apply Rmult_le_compat_l; lra|]. assert (u * (d * (2 * 10 ^ 13)) <= 1 * (d * (2 * 10 ^ 13))) by (apply Rmult_le_compat_r; lra). lra. }
  replace (rnd (x * y) - X * Y) with ((rnd (x * y) - x * y) + (x * y - X * Y)) by ring. eapply Rle_trans; [apply Rabs_triang|].
  assert (0 <= u * (V * W)) by (apply Rmult_le_pos; lra). lra.
Qed.
Lemma err_v : forall a V, Rabs a <= V -> Rabs (rnd a - a) <= 1 * u * V + w.
Proof. intros a V H. eapply Rle_trans; [apply err_w|]. pose proof u_pos. assert (u * Rabs a <= u * V) by (apply Rmult_le_compat_l; lra). lra. Qed.
Lemma is_fmax : forall x y a b, is x a -> is y b -> is (fmax x y) (Rmax a b).
Proof. intros x y a b X Y. unfold fmax. rewrite (flt_is _ _ _ _ X Y). destruct (Rlt_bool_spec a b); [rewrite Rmax_right by lra; exact Y|rewrite Rmax_left by lra; exact X]. Qed.
Lemma is_fmin : forall x y a b, is x a -> is y b -> is (fmin x y) (Rmin a b).
Proof. intros x y a b X Y. unfold fmin. rewrite (flt_is _ _ _ _ Y X). destruct (Rlt_bool_spec b a); [rewrite Rmin_right by lra; exact Y|rewrite Rmin_left by lra; exact X]. Qed.
Lemma is_fopp : forall x a, is x a -> is (fopp x) (- a).
Proof. intros x a [F <-]. split; [unfold fopp; now rewrite is_finite_Bopp|apply B2R_Bopp]. Qed.

(** One corner: its value times the two distances to the opposite corner. *)
Lemma term_ok : forall M fq q fa a fb b, 1 <= M <= 10 ^ 9 -> is fq q -> Rabs q <= M -> is fa (rnd a) -> is fb (rnd b) -> 0 <= a <= 2000 -> 0 <= b <= 2000 ->
  exists t, is (fmul (fmul fq fa) fb) t /\ Rabs (t - q * a * b) <= 6 * u * (M * a * b) + 3 * 10 ^ 28 * w.
Proof.
  intros M fq q fa a fb b HM Q HQ A B HA HB. pose proof u_pos as U. pose proof w_pos as WP. pose proof w_u as WU.
  assert (W1 : w <= 1 / 10 ^ 28) by (apply Rmult_le_reg_r with (10 ^ 60); [lra|]; rewrite WU; lra).
  assert (EA := err_v a a ltac:(rewrite Rabs_pos_eq; lra)). assert (EB := err_v b b ltac:(rewrite Rabs_pos_eq; lra)).
  assert (MA : 0 <= M * a <= 10 ^ 13) by (split; [apply Rmult_le_pos; lra|apply Rle_trans with (10 ^ 9 * 2000); [apply Rmult_le_compat; lra|lra]]).
  assert (P := mul_ap q q (rnd a) a 0 1 M a w ltac:(lra) ltac:(lra) ltac:(lra) HQ ltac:(rewrite Rabs_pos_eq; lra) ltac:(lra) ltac:(lra) ltac:(rewrite Rminus_eq_0, Rabs_R0; lra) EA).
  replace (0 + 1 + 2) with 3 in P by ring.
  assert (QA : Rabs (q * a) <= M * a) by (rewrite Rabs_mult, (Rabs_pos_eq a) by lra; apply Rmult_le_compat_r; lra).
  assert (P2 : Rabs (rnd (q * rnd a) - q * a) <= 3 * u * (M * a) + (10 ^ 14 + 1) * w) by lra.
  assert (T := mul_ap (rnd (q * rnd a)) (q * a) (rnd b) b 3 1 (M * a) b ((10 ^ 14 + 1) * w) ltac:(lra) ltac:(lra) ltac:(lra) QA ltac:(rewrite Rabs_pos_eq; lra) ltac:(lra) ltac:(lra) P2 ltac:(lra)).
  replace (3 + 1 + 2) with 6 in T by ring.
  assert (MAB : 0 <= M * a * b <= 10 ^ 17) by (split; [apply Rmult_le_pos; lra|apply Rle_trans with (10 ^ 13 * 2000); [apply Rmult_le_compat; lra|lra]]).
  assert (RA : Rabs (rnd a) <= 2001). { replace (rnd a) with ((rnd a - a) + a) by ring. eapply Rle_trans; [apply Rabs_triang|]. rewrite (Rabs_pos_eq a) by lra. assert (u * a <= 1 / 10000 * 2000) by (apply Rmult_le_compat; lra). lra. }
  assert (RB : Rabs (rnd b) <= 2001). { replace (rnd b) with ((rnd b - b) + b) by ring. eapply Rle_trans; [apply Rabs_triang|]. rewrite (Rabs_pos_eq b) by lra. assert (u * b <= 1 / 10000 * 2000) by (apply Rmult_le_compat; lra). lra. }
  assert (BG : 10 ^ 20 <= bpow radix2 100) by (cbn; lra).
  assert (I1 : is (fmul fq fa) (rnd (q * rnd a))). { apply is_mul; [exact Q|exact A|]. rewrite Rabs_mult. apply Rle_trans with (10 ^ 9 * 2001); [apply Rmult_le_compat; try apply Rabs_pos; lra|lra]. }
  assert (RP : Rabs (rnd (q * rnd a)) <= 10 ^ 14). { replace (rnd (q * rnd a)) with ((rnd (q * rnd a) - q * a) + q * a) by ring. eapply Rle_trans; [apply Rabs_triang|]. assert (u * (M * a) <= 1 * 10 ^ 13) by (apply Rmult_le_compat; lra). lra. }
  exists (rnd (rnd (q * rnd a) * rnd b)). split.
  - apply is_mul; [exact I1|exact B|]. rewrite Rabs_mult. apply Rle_trans with (10 ^ 14 * 2001); [apply Rmult_le_compat; try apply Rabs_pos; lra|lra].
  - lra.
Qed.
Lemma sum_ok : forall B x X y Y e f, 0 <= B <= 10 ^ 20 -> is_double x X -> is_double y Y -> forall X' Y', Rabs (X - X') <= e -> Rabs (Y - Y') <= f -> e + f <= B -> Rabs (X' + Y') <= B ->
  exists s, is (fadd x y) s /\ Rabs (s - (X' + Y')) <= e + f + 2 * u * B + w.
Proof.
  intros B x X y Y e f HB IX IY X' Y' EX EY EF HS. pose proof u_pos as U. assert (BG : 10 ^ 21 <= bpow radix2 100) by (cbn; lra).
  assert (S : Rabs (X + Y - (X' + Y')) <= e + f). { replace (X + Y - (X' + Y')) with ((X - X') + (Y - Y')) by ring. eapply Rle_trans; [apply Rabs_triang|]. lra. }
  assert (S2 : Rabs (X + Y) <= 2 * B). { replace (X + Y) with ((X + Y - (X' + Y')) + (X' + Y')) by ring. eapply Rle_trans; [apply Rabs_triang|]. lra. }
  exists (rnd (X + Y)). split; [apply is_add; [exact IX|exact IY|lra]|]. pose proof (err_v _ _ S2) as E.
  replace (rnd (X + Y) - (X' + Y')) with ((rnd (X + Y) - (X + Y)) + (X + Y - (X' + Y'))) by ring. eapply Rle_trans; [apply Rabs_triang|]. lra.
Qed.
Section BIL.
  Variables (M : R) (fx1 fx2 fy1 fy2 fx fy f11 f12 f21 f22 : fl) (x1 x2 y1 y2 x y q11 q12 q21 q22 : R).
  Hypotheses (HM : 1 <= M <= 10 ^ 9) (I1 : is fx1 x1) (I2 : is fx2 x2) (J1 : is fy1 y1) (J2 : is fy2 y2) (I : is fx x) (J : is fy y)
    (K11 : is f11 q11) (K12 : is f12 q12) (K21 : is f21 q21) (K22 : is f22 q22) (B11 : Rabs q11 <= M) (B12 : Rabs q12 <= M) (B21 : Rabs q21 <= M) (B22 : Rabs q22 <= M)
    (X1 : x1 <= x) (X2 : x <= x2) (Y1 : y1 <= y) (Y2 : y <= y2) (LX : 1 / 10 ^ 6 <= x2 - x1 <= 2000) (LY : 1 / 10 ^ 6 <= y2 - y1 <= 2000).
  Lemma wide : forall a b c, is_double a b -> forall d e, is_double d e -> Rabs (b - e) <= c -> c <= 2000 -> is (fsub a d) (rnd (b - e)).
  Proof using. clear. intros a b c A d e D H L. apply is_sub; [exact A|exact D|]. apply small_big. lra. Qed.
  Lemma bil_err : exists v,
    is (fdiv (fadd (fadd (fadd (fmul (fmul f11 (fsub fx2 fx)) (fsub fy2 fy)) (fmul (fmul f21 (fsub fx fx1)) (fsub fy2 fy))) (fmul (fmul f12 (fsub fx2 fx)) (fsub fy fy1))) (fmul (fmul f22 (fsub fx fx1)) (fsub fy fy1)))
          (fmul (fsub fx2 fx1) (fsub fy2 fy1))) v /\ Rabs (v - bilinear x1 x2 y1 y2 x y q11 q12 q21 q22) <= 3 / 10 ^ 15 * M.
  Proof.
    pose proof u_pos as U. pose proof w_pos as WP. pose proof w_u as WU.
    set (a1 := x - x1). set (a2 := x2 - x). set (b1 := y - y1). set (b2 := y2 - y). set (sx := x2 - x1) in *. set (sy := y2 - y1) in *.
    assert (A1 : 0 <= a1 <= 2000) by (unfold a1, sx in *; lra). assert (A2 : 0 <= a2 <= 2000) by (unfold a2, sx in *; lra).
    assert (C1 : 0 <= b1 <= 2000) by (unfold b1, sy in *; lra). assert (C2 : 0 <= b2 <= 2000) by (unfold b2, sy in *; lra).
    assert (SX : a1 + a2 = sx) by (unfold a1, a2, sx; ring). assert (SY : b1 + b2 = sy) by (unfold b1, b2, sy; ring).
    assert (Ia1 : is (fsub fx fx1) (rnd a1)) by (apply (wide _ _ 2000 I _ _ I1); [rewrite Rabs_pos_eq; fold a1; lra|lra]).
    assert (Ia2 : is (fsub fx2 fx) (rnd a2)) by (apply (wide _ _ 2000 I2 _ _ I); [rewrite Rabs_pos_eq; fold a2; lra|lra]).
    assert (Ib1 : is (fsub fy fy1) (rnd b1)) by (apply (wide _ _ 2000 J _ _ J1); [rewrite Rabs_pos_eq; fold b1; lra|lra]).
    assert (Ib2 : is (fsub fy2 fy) (rnd b2)) by (apply (wide _ _ 2000 J2 _ _ J); [rewrite Rabs_pos_eq; fold b2; lra|lra]).
    assert (Isx : is (fsub fx2 fx1) (rnd sx)) by (apply (wide _ _ 2000 I2 _ _ I1); [rewrite Rabs_pos_eq; fold sx; lra|lra]).
    assert (Isy : is (fsub fy2 fy1) (rnd sy)) by (apply (wide _ _ 2000 J2 _ _ J1); [rewrite Rabs_pos_eq; fold sy; lra|lra]).
    destruct (term_ok M _ _ _ _ _ _ HM K11 B11 Ia2 Ib2 A2 C2) as [t11 [T11 E11]].
    destruct (term_ok M _ _ _ _ _ _ HM K21 B21 Ia1 Ib2 A1 C2) as [t21 [T21 E21]].
    destruct (term_ok M _ _ _ _ _ _ HM K12 B12 Ia2 Ib1 A2 C1) as [t12 [T12 E12]].
    destruct (term_ok M _ _ _ _ _ _ HM K22 B22 Ia1 Ib1 A1 C1) as [t22 [T22 E22]].
    set (W := sx * sy). assert (WB : 1 / 10 ^ 12 <= W <= 4000000). { unfold W. split; [apply Rle_trans with (1 / 10 ^ 6 * (1 / 10 ^ 6)); [lra|apply Rmult_le_compat; lra]|apply Rle_trans with (2000 * 2000); [apply Rmult_le_compat; lra|lra]]. }
    assert (w11 : 0 <= a2 * b2) by (apply Rmult_le_pos; lra). assert (w21 : 0 <= a1 * b2) by (apply Rmult_le_pos; lra).
    assert (w12 : 0 <= a2 * b1) by (apply Rmult_le_pos; lra). assert (w22 : 0 <= a1 * b1) by (apply Rmult_le_pos; lra).
    assert (WS : a2 * b2 + a1 * b2 + a2 * b1 + a1 * b1 = W) by (unfold W; rewrite <- SX, <- SY; ring).
    set (MW := M * W). assert (MWB : 1 / 10 ^ 12 <= MW <= 10 ^ 16). { unfold MW. split; [apply Rle_trans with (1 * (1 / 10 ^ 12)); [lra|apply Rmult_le_compat; lra]|apply Rle_trans with (10 ^ 9 * 4000000); [apply Rmult_le_compat; lra|lra]]. }
    assert (m11 : 0 <= M * (a2 * b2)) by (apply Rmult_le_pos; lra). assert (m21 : 0 <= M * (a1 * b2)) by (apply Rmult_le_pos; lra).
    assert (m12 : 0 <= M * (a2 * b1)) by (apply Rmult_le_pos; lra). assert (m22 : 0 <= M * (a1 * b1)) by (apply Rmult_le_pos; lra).
    assert (MS : M * (a2 * b2) + M * (a1 * b2) + M * (a2 * b1) + M * (a1 * b1) = MW) by (unfold MW; rewrite <- WS; ring).
    assert (V : forall q a b, Rabs q <= M -> 0 <= a * b -> Rabs (q * a * b) <= M * (a * b)).
    { intros q a b HQ P. rewrite Rmult_assoc, Rabs_mult, (Rabs_pos_eq (a * b)) by exact P. apply Rmult_le_compat_r; assumption. }
    pose proof (V _ _ _ B11 w11) as V11. pose proof (V _ _ _ B21 w21) as V21. pose proof (V _ _ _ B12 w12) as V12. pose proof (V _ _ _ B22 w22) as V22.
    rewrite (Rmult_assoc M) in E11, E21, E12, E22.
    assert (TW : 10 ^ 31 * w <= u * MW). { apply Rle_trans with (u * (1 / 10 ^ 12)); [rewrite <- WU; lra|apply Rmult_le_compat_l; lra]. }
    set (U11 := u * (M * (a2 * b2))). set (U21 := u * (M * (a1 * b2))). set (U12 := u * (M * (a2 * b1))). set (U22 := u * (M * (a1 * b1))). set (UW := u * MW).
    assert (US : U11 + U21 + U12 + U22 = UW) by (unfold UW, U11, U12, U21, U22; rewrite <- MS; ring).
    assert (0 <= U11) by (apply Rmult_le_pos; lra). assert (0 <= U21) by (apply Rmult_le_pos; lra). assert (0 <= U12) by (apply Rmult_le_pos; lra). assert (0 <= U22) by (apply Rmult_le_pos; lra).
    assert (UWS : UW <= MW / 1000) by (unfold UW; apply Rle_trans with (1 / 1000 * MW); [apply Rmult_le_compat_r; lra|lra]).
    rewrite (Rmult_assoc 6) in E11, E21, E12, E22. fold U11 in E11. fold U21 in E21. fold U12 in E12. fold U22 in E22. fold UW in TW.
    destruct (sum_ok MW _ _ _ _ (6 * U11 + 3 * 10 ^ 28 * w) (6 * U21 + 3 * 10 ^ 28 * w) ltac:(lra) T11 T21 _ _ E11 E21) as [s1 [S1 F1]]; [lra|eapply Rle_trans; [apply Rabs_triang|]; lra|].
    rewrite (Rmult_assoc 2 u) in F1. fold UW in F1.
    destruct (sum_ok MW _ _ _ _ _ (6 * U12 + 3 * 10 ^ 28 * w) ltac:(lra) S1 T12 _ _ F1 E12) as [s2 [S2 F2]]; [lra|eapply Rle_trans; [apply Rabs_triang|]; eapply Rle_trans; [apply Rplus_le_compat_r, Rabs_triang|]; lra|].
    rewrite (Rmult_assoc 2 u) in F2. fold UW in F2.
    destruct (sum_ok MW _ _ _ _ _ (6 * U22 + 3 * 10 ^ 28 * w) ltac:(lra) S2 T22 _ _ F2 E22) as [s3 [S3 F3]]; [lra|eapply Rle_trans; [apply Rabs_triang|]; eapply Rle_trans; [apply Rplus_le_compat_r, Rabs_triang|]; eapply Rle_trans; [apply Rplus_le_compat_r, Rplus_le_compat_r, Rabs_triang|]; lra|].
    rewrite (Rmult_assoc 2 u) in F3. fold UW in F3.
    set (S := q11 * a2 * b2 + q21 * a1 * b2 + q12 * a2 * b1 + q22 * a1 * b1) in *.
    assert (FS : Rabs (s3 - S) <= 13 * UW) by lra.
    assert (SB : Rabs S <= MW). { unfold S. eapply Rle_trans; [apply Rabs_triang|]. eapply Rle_trans; [apply Rplus_le_compat_r, Rabs_triang|]. eapply Rle_trans; [apply Rplus_le_compat_r, Rplus_le_compat_r, Rabs_triang|]. lra. }
    (* the denominator *)
    assert (w <= 1 / 10 ^ 28) by (apply Rmult_le_reg_r with (10 ^ 60); [lra|]; rewrite WU; lra).
    assert (D := mul_ap (rnd sx) sx (rnd sy) sy 1 1 sx sy w ltac:(lra) ltac:(lra) ltac:(lra) ltac:(rewrite Rabs_pos_eq; lra) ltac:(rewrite Rabs_pos_eq; lra) ltac:(lra) ltac:(lra) (err_v sx sx ltac:(rewrite Rabs_pos_eq; lra)) (err_v sy sy ltac:(rewrite Rabs_pos_eq; lra))).
    fold W in D. assert (TW2 : 10 ^ 31 * w <= u * W). { apply Rle_trans with (u * (1 / 10 ^ 12)); [rewrite <- WU; lra|apply Rmult_le_compat_l; lra]. }
    set (d := rnd (rnd sx * rnd sy)) in *. assert (DW : Rabs (d - W) <= 5 * (u * W)) by lra.
    assert (uW : 0 <= u * W <= W / 10 ^ 15) by (split; [apply Rmult_le_pos; lra|apply Rle_trans with (1 / 10 ^ 15 * W); [apply Rmult_le_compat_r; lra|lra]]).
    assert (DP : W * (1 - 1 / 1000) <= d) by (apply Rabs_le_inv in DW; lra).
    assert (Id : is (fmul (fsub fx2 fx1) (fsub fy2 fy1)) d).
    { apply is_mul; [exact Isx|exact Isy|]. apply small_big. pose proof (err_w sx). pose proof (err_w sy). rewrite Rabs_mult.
      assert (G : forall z, 0 <= z <= 2000 -> Rabs (rnd z) <= 2001). { intros z Z. pose proof (err_w z) as E. rewrite (Rabs_pos_eq z) in E by lra. replace (rnd z) with ((rnd z - z) + z) by ring. eapply Rle_trans; [apply Rabs_triang|]. rewrite (Rabs_pos_eq z) by lra. assert (u * z <= 1 / 10000 * 2000) by (apply Rmult_le_compat; lra). lra. }
      apply Rle_trans with (2001 * 2001); [apply Rmult_le_compat; try apply Rabs_pos; apply G; lra|lra]. }
    (* the quotient *)
    assert (QE : Rabs (s3 / d - S / W) <= 19 * (u * M)).
    { replace (s3 / d - S / W) with (((s3 - S) - S / W * (d - W)) * / d) by (field; lra). rewrite Rabs_mult, (Rabs_pos_eq (/ d)) by (apply Rlt_le, Rinv_0_lt_compat; lra).
      apply Rmult_le_reg_r with d; [lra|]. rewrite Rmult_assoc, Rinv_l, Rmult_1_r by lra. unfold Rminus at 1. eapply Rle_trans; [apply Rabs_triang|]. rewrite Rabs_Ropp, Rabs_mult.
      assert (Rabs (S / W) <= M). { unfold Rdiv. rewrite Rabs_mult, (Rabs_pos_eq (/ W)) by (apply Rlt_le, Rinv_0_lt_compat; lra). apply Rmult_le_reg_r with W; [lra|]. rewrite Rmult_assoc, Rinv_l by lra. fold MW. lra. }
      assert (Rabs (S / W) * Rabs (d - W) <= M * (5 * (u * W))) by (apply Rmult_le_compat; try apply Rabs_pos; assumption).
      assert (0 <= u * M) by (apply Rmult_le_pos; lra). assert (19 * (u * M) * (W * (1 - 1 / 1000)) <= 19 * (u * M) * d) by (apply Rmult_le_compat_l; lra).
      assert (0 <= UW) by lra. replace (M * (5 * (u * W))) with (5 * UW) in * by (unfold UW, MW; ring). replace (19 * (u * M) * (W * (1 - 1 / 1000))) with (19 * (1 - 1 / 1000) * UW) in * by (unfold UW, MW; ring). lra. }
    assert (SWM : Rabs (S / W) <= M). { unfold Rdiv. rewrite Rabs_mult, (Rabs_pos_eq (/ W)) by (apply Rlt_le, Rinv_0_lt_compat; lra). apply Rmult_le_reg_r with W; [lra|]. rewrite Rmult_assoc, Rinv_l by lra. fold MW. lra. }
    assert (uM : 0 <= u * M <= M / 1000) by (split; [apply Rmult_le_pos; lra|apply Rle_trans with (1 / 1000 * M); [apply Rmult_le_compat_r; lra|lra]]).
    assert (Q2 : Rabs (s3 / d) <= 2 * M). { replace (s3 / d) with ((s3 / d - S / W) + S / W) by ring. eapply Rle_trans; [apply Rabs_triang|]. lra. }
    exists (rnd (s3 / d)). split.
    - apply is_div; [exact S3|exact Id|lra|]. apply small_big. lra.
    - change (bilinear x1 x2 y1 y2 x y q11 q12 q21 q22) with (S / W). pose proof (err_le _ _ Q2 ltac:(lra)) as E.
      replace (rnd (s3 / d) - S / W) with ((rnd (s3 / d) - s3 / d) + (s3 / d - S / W)) by ring. eapply Rle_trans; [apply Rabs_triang|].
      assert (u * M <= 12 / 100000000000000000 * M) by (apply Rmult_le_compat_r; lra). lra.
  Qed.
End BIL.
