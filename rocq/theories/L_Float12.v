(** Interpolation in double precision: assertions, corners, positions in hundredths of a degree. *)
Require Import ZArith QArith Reals Lra Lia Bool List.
From Flocq Require Import Core.Core IEEE754.BinarySingleNaN.
Require Import Verif.M_Base Verif.M_Float Verif.S_Float Verif.L_Float Verif.L_Float5 Verif.L_Float6 Verif.M_Float6 Verif.S_Float3 Verif.L_Float10 Verif.L_Float11.
Import ListNotations.
Open Scope R_scope.

Lemma bil_range : forall x1 x2 y1 y2 x y q11 q12 q21 q22 lo hi, x1 <= x <= x2 -> y1 <= y <= y2 -> x1 < x2 -> y1 < y2 ->
  lo <= q11 <= hi -> lo <= q12 <= hi -> lo <= q21 <= hi -> lo <= q22 <= hi -> lo <= bilinear x1 x2 y1 y2 x y q11 q12 q21 q22 <= hi.
Proof.
  intros x1 x2 y1 y2 x y q11 q12 q21 q22 lo hi X Y LX LY A B C D. unfold bilinear. assert (P : 0 < (x2 - x1) * (y2 - y1)) by (apply Rmult_lt_0_compat; lra).
  assert (T : forall q a b, lo <= q <= hi -> 0 <= a -> 0 <= b -> lo * (a * b) <= q * a * b <= hi * (a * b)). { intros q a b Q PA PB. assert (0 <= a * b) by (apply Rmult_le_pos; assumption). rewrite Rmult_assoc. split; apply Rmult_le_compat_r; lra. }
  pose proof (T _ (x2 - x) (y2 - y) A ltac:(lra) ltac:(lra)). pose proof (T _ (x - x1) (y2 - y) C ltac:(lra) ltac:(lra)). pose proof (T _ (x2 - x) (y - y1) B ltac:(lra) ltac:(lra)). pose proof (T _ (x - x1) (y - y1) D ltac:(lra) ltac:(lra)).
  assert (W : (x2 - x1) * (y2 - y1) = (x2 - x) * (y2 - y) + (x - x1) * (y2 - y) + (x2 - x) * (y - y1) + (x - x1) * (y - y1)) by ring.
  split; apply Rmult_le_reg_r with ((x2 - x1) * (y2 - y1)); try exact P; unfold Rdiv; rewrite (Rmult_assoc _ (/ _)), Rinv_l, Rmult_1_r by lra; rewrite W; lra.
Qed.
Section BIL.
  Variables (M : R) (fx1 fx2 fy1 fy2 fx fy f11 f12 f21 f22 : fl) (x1 x2 y1 y2 x y q11 q12 q21 q22 : R).
  Hypotheses (HM : 1 <= M <= 10 ^ 9) (I1 : is fx1 x1) (I2 : is fx2 x2) (J1 : is fy1 y1) (J2 : is fy2 y2) (I : is fx x) (J : is fy y)
    (K11 : is f11 q11) (K12 : is f12 q12) (K21 : is f21 q21) (K22 : is f22 q22) (B11 : Rabs q11 <= M) (B12 : Rabs q12 <= M) (B21 : Rabs q21 <= M) (B22 : Rabs q22 <= M)
    (X1 : x1 <= x) (X2 : x <= x2) (Y1 : y1 <= y) (Y2 : y <= y2) (LX : 1 / 10 ^ 6 <= x2 - x1 <= 2000) (LY : 1 / 10 ^ 6 <= y2 - y1 <= 2000).
  Lemma bil_ok : exists val v, fbilinear_interp fx1 fx2 fy1 fy2 fx fy f11 f12 f21 f22 = Ok val /\ is val v /\ Rabs (v - bilinear x1 x2 y1 y2 x y q11 q12 q21 q22) <= 3 / 10 ^ 15 * M.
  Proof.
    destruct (bil_err M fx1 fx2 fy1 fy2 fx fy f11 f12 f21 f22 x1 x2 y1 y2 x y q11 q12 q21 q22) as [v [V E]]; try assumption.
    unfold fbilinear_interp. rewrite (fle_is _ _ _ _ I1 I), (fle_is _ _ _ _ I I2), (fle_is _ _ _ _ J1 J), (fle_is _ _ _ _ J J2), (flt_is _ _ _ _ I1 I2), (flt_is _ _ _ _ J1 J2).
    rewrite !Rle_bool_true, !Rlt_bool_true by lra. cbn [andb]. cbv zeta.
    set (val := fdiv _ _) in *. set (mx := Rmax (Rmax (Rmax q11 q12) q21) q22). set (mn := Rmin (Rmin (Rmin q11 q12) q21) q22).
    assert (IX : is (fmax (fmax (fmax f11 f12) f21) f22) mx) by (repeat apply is_fmax; assumption). assert (IN : is (fmin (fmin (fmin f11 f12) f21) f22) mn) by (repeat apply is_fmin; assumption).
    assert (XU : q11 <= mx /\ q12 <= mx /\ q21 <= mx /\ q22 <= mx /\ Rabs mx <= M).
    { unfold mx. pose proof (Rmax_l (Rmax (Rmax q11 q12) q21) q22). pose proof (Rmax_r (Rmax (Rmax q11 q12) q21) q22). pose proof (Rmax_l (Rmax q11 q12) q21). pose proof (Rmax_r (Rmax q11 q12) q21). pose proof (Rmax_l q11 q12). pose proof (Rmax_r q11 q12).
      repeat split; try lra. repeat (apply Rmax_case; try assumption). }
    assert (NU : mn <= q11 /\ mn <= q12 /\ mn <= q21 /\ mn <= q22 /\ Rabs mn <= M).
    { unfold mn. pose proof (Rmin_l (Rmin (Rmin q11 q12) q21) q22). pose proof (Rmin_r (Rmin (Rmin q11 q12) q21) q22). pose proof (Rmin_l (Rmin q11 q12) q21). pose proof (Rmin_r (Rmin q11 q12) q21). pose proof (Rmin_l q11 q12). pose proof (Rmin_r q11 q12).
      repeat split; try lra. repeat (apply Rmin_case; try assumption). }
    pose proof (bil_range x1 x2 y1 y2 x y q11 q12 q21 q22 mn mx ltac:(lra) ltac:(lra) ltac:(lra) ltac:(lra) ltac:(lra) ltac:(lra) ltac:(lra) ltac:(lra)) as BR.
    pose proof (is_fq (1 # 10000) ltac:(cbn; lia) ltac:(cbn; lia)) as T. cbn [Qnum Qden] in T. pose proof (err_le (1 / 10000) 1 ltac:(rewrite Rabs_pos_eq; lra) ltac:(lra)) as TE. set (t := rnd (1 / 10000)) in *. pose proof u_pos as U.
    destruct XU as [_ [_ [_ [_ MX]]]], NU as [_ [_ [_ [_ MN]]]]. apply Rabs_le_inv in TE, MX, MN, E.
    assert (A1 : Rabs (t + mx) <= 2 * M) by (apply Rabs_le; lra). assert (A2 : Rabs (- t + mn) <= 2 * M) by (apply Rabs_le; lra).
    pose proof (is_add _ _ _ _ T IX ltac:(apply small_big; lra)) as G1. pose proof (is_add _ _ _ _ (is_fopp _ _ T) IN ltac:(apply small_big; lra)) as G2.
    pose proof (err_le _ _ A1 ltac:(lra)) as H1. pose proof (err_le _ _ A2 ltac:(lra)) as H2. apply Rabs_le_inv in H1, H2.
    assert (MU : (1 + 1 / 1000) * (2 * M) * u <= 3 / 10 ^ 7). { apply Rle_trans with ((1 + 1 / 1000) * (2 * 10 ^ 9) * (12 / 100000000000000000)); [|lra]. apply Rmult_le_compat; lra. }
    rewrite (fle_is _ _ _ _ V G1), (fle_is _ _ _ _ G2 V). rewrite !Rle_bool_true by lra. exists val, v. split; [reflexivity|]. split; [exact V|]. apply Rabs_le. lra.
  Qed.
End BIL.

Lemma rnd0 : rnd 0 = 0.
Proof. apply rnd_id, (dbl_Z 0). lia. Qed.
Lemma is_zero_mul : forall x a y, is x a -> is y 0 -> is (fmul x y) 0 /\ is (fmul y x) 0.
Proof.
  intros x a y X Y. split; [pose proof (is_mul _ _ _ _ X Y) as H; rewrite Rmult_0_r in H|pose proof (is_mul _ _ _ _ Y X) as H; rewrite Rmult_0_l in H]; rewrite rnd0 in H; apply H; rewrite Rabs_R0; apply bpow_ge_0.
Qed.
Lemma is_one_mul : forall x a y, is x a -> Rabs a <= 10 ^ 9 -> is y 1 -> is (fmul x y) a.
Proof. intros x a y X B Y. pose proof (is_mul _ _ _ _ X Y) as H. rewrite Rmult_1_r, (rnd_id a) in H by (eapply is_dbl; exact X). apply H. apply small_big. lra. Qed.
Lemma is_zero_add : forall x a y, is x a -> Rabs a <= 10 ^ 9 -> is y 0 -> is (fadd x y) a /\ is (fadd y x) a.
Proof.
  intros x a y X B Y. split; [pose proof (is_add _ _ _ _ X Y) as H; rewrite Rplus_0_r in H|pose proof (is_add _ _ _ _ Y X) as H; rewrite Rplus_0_l in H]; rewrite (rnd_id a) in H by (eapply is_dbl; exact X); apply H; apply small_big; lra.
Qed.
Lemma is_sub_exact : forall x a y b d, is x a -> is y b -> a - b = d -> dbl d -> Rabs d <= 2000 -> is (fsub x y) d.
Proof. intros x a y b d X Y E D B. pose proof (is_sub _ _ _ _ X Y) as H. rewrite E, (rnd_id d D) in H. apply H. apply small_big. lra. Qed.
(** The corners of a cell with sides of exactly one degree. *)
Lemma bil_corner : forall M fx1 fx2 fy1 fy2 f11 f12 f21 f22 x1 y1 q11 q12 q21 q22, 1 <= M <= 10 ^ 9 -> is fx1 x1 -> is fx2 (x1 + 1) -> is fy1 y1 -> is fy2 (y1 + 1) ->
  is f11 q11 -> is f12 q12 -> is f21 q21 -> is f22 q22 -> Rabs q11 <= M -> Rabs q12 <= M -> Rabs q21 <= M -> Rabs q22 <= M ->
  forall right top : bool, exists val, fbilinear_interp fx1 fx2 fy1 fy2 (if right then fx2 else fx1) (if top then fy2 else fy1) f11 f12 f21 f22 = Ok val /\ is val (if right then if top then q22 else q21 else if top then q12 else q11).
Proof.
  intros M fx1 fx2 fy1 fy2 f11 f12 f21 f22 x1 y1 q11 q12 q21 q22 HM I1 I2 J1 J2 K11 K12 K21 K22 B11 B12 B21 B22 right top.
  assert (D0 : dbl 0) by (apply (dbl_Z 0); lia). assert (D1 : dbl 1) by (apply (dbl_Z 1); lia).
  set (fx := if right then fx2 else fx1). set (fy := if top then fy2 else fy1). set (x := if right then x1 + 1 else x1). set (y := if top then y1 + 1 else y1).
  assert (IX : is fx x) by (unfold fx, x; destruct right; assumption). assert (IY : is fy y) by (unfold fy, y; destruct top; assumption).
  destruct (bil_ok M fx1 fx2 fy1 fy2 fx fy f11 f12 f21 f22 x1 (x1 + 1) y1 (y1 + 1) x y q11 q12 q21 q22) as [val [v [E [V _]]]]; try assumption; try (unfold x; destruct right; lra); try (unfold y; destruct top; lra); try lra.
  exists val. split; [exact E|]. revert E. unfold fbilinear_interp. cbv zeta. set (r := fdiv _ _). intro E.
  assert (R : r = val). { revert E. destruct (_ && _); [|discriminate]. destruct (_ && _); [|discriminate]. destruct (flt fx1 fx2); [|discriminate]. destruct (flt fy1 fy2); [|discriminate]. destruct (fle r _); [|discriminate]. destruct (fle _ r); [|discriminate]. intro E. injection E as E. exact E. }
  rewrite <- R. unfold r. clear E R V v val r.
  assert (W : is (fmul (fsub fx2 fx1) (fsub fy2 fy1)) 1). { assert (is (fsub fx2 fx1) 1) by (apply (is_sub_exact _ _ _ _ _ I2 I1); [ring|exact D1|rewrite Rabs_R1; lra]). assert (is (fsub fy2 fy1) 1) by (apply (is_sub_exact _ _ _ _ _ J2 J1); [ring|exact D1|rewrite Rabs_R1; lra]). apply is_one_mul; [assumption|rewrite Rabs_R1; lra|assumption]. }
  assert (DIV : forall z c, is z c -> Rabs c <= 10 ^ 9 -> is (fdiv z (fmul (fsub fx2 fx1) (fsub fy2 fy1))) c). { intros z c Z B. pose proof (is_div _ _ _ _ Z W ltac:(lra)) as H. replace (c / 1) with c in H by field. rewrite (rnd_id c) in H by (eapply is_dbl; exact Z). apply H. apply small_big. lra. }
  assert (a1 : is (fsub fx fx1) (if right then 1 else 0)) by (apply (is_sub_exact _ _ _ _ _ IX I1); unfold x; destruct right; [ring|ring|exact D1|exact D0|rewrite Rabs_R1; lra|rewrite Rabs_R0; lra]).
  assert (a2 : is (fsub fx2 fx) (if right then 0 else 1)) by (apply (is_sub_exact _ _ _ _ _ I2 IX); unfold x; destruct right; [ring|ring|exact D0|exact D1|rewrite Rabs_R0; lra|rewrite Rabs_R1; lra]).
  assert (b1 : is (fsub fy fy1) (if top then 1 else 0)) by (apply (is_sub_exact _ _ _ _ _ IY J1); unfold y; destruct top; [ring|ring|exact D1|exact D0|rewrite Rabs_R1; lra|rewrite Rabs_R0; lra]).
  assert (b2 : is (fsub fy2 fy) (if top then 0 else 1)) by (apply (is_sub_exact _ _ _ _ _ J2 IY); unfold y; destruct top; [ring|ring|exact D0|exact D1|rewrite Rabs_R0; lra|rewrite Rabs_R1; lra]).
  assert (Z1 : forall f q a b, is f q -> Rabs q <= M -> is a 0 -> is b 0 \/ is b 1 -> is (fmul (fmul f a) b) 0).
  { intros f q a b F Q A B. pose proof (proj1 (is_zero_mul _ _ _ F A)) as G. destruct B as [B|B]; exact (proj2 (is_zero_mul _ _ _ B G)). }
  assert (Z2 : forall f q a b, is f q -> Rabs q <= M -> is a 1 -> is b 0 -> is (fmul (fmul f a) b) 0).
  { intros f q a b F Q A B. assert (is (fmul f a) q) by (apply is_one_mul; [assumption|lra|assumption]). exact (proj1 (is_zero_mul _ _ _ H B)). }
  assert (Z3 : forall f q a b, is f q -> Rabs q <= M -> is a 1 -> is b 1 -> is (fmul (fmul f a) b) q).
  { intros f q a b F Q A B. assert (is (fmul f a) q) by (apply is_one_mul; [assumption|lra|assumption]). apply is_one_mul; [assumption|lra|assumption]. }
  assert (R0 : Rabs 0 <= 10 ^ 9) by (rewrite Rabs_R0; lra).
  assert (AZ : forall x a y, is x a -> Rabs a <= 10 ^ 9 -> is y 0 -> is (fadd x y) a) by (intros p a q P B Q; exact (proj1 (is_zero_add _ _ _ P B Q))).
  assert (ZA : forall x a y, is x 0 -> is y a -> Rabs a <= 10 ^ 9 -> is (fadd x y) a) by (intros p a q P Q B; exact (proj2 (is_zero_add _ _ _ Q B P))).
  assert (C11 : Rabs q11 <= 10 ^ 9) by lra. assert (C12 : Rabs q12 <= 10 ^ 9) by lra. assert (C21 : Rabs q21 <= 10 ^ 9) by lra. assert (C22 : Rabs q22 <= 10 ^ 9) by lra.
  destruct right, top; apply DIV; try assumption.
  - apply ZA; [|eapply Z3; eassumption|assumption]. apply AZ; [|assumption|eapply Z1; eauto]. apply AZ; [|assumption|eapply Z2; eassumption]. eapply Z1; eauto.
  - apply AZ; [|assumption|eapply Z2; eassumption]. apply AZ; [|assumption|eapply Z1; eauto]. apply ZA; [|eapply Z3; eassumption|assumption]. eapply Z1; eauto.
  - apply AZ; [|assumption|eapply Z1; eauto]. apply ZA; [|eapply Z3; eassumption|assumption]. apply AZ; [|assumption|eapply Z1; eauto]. eapply Z2; eassumption.
  - apply AZ; [|assumption|eapply Z1; eauto]. apply AZ; [|assumption|eapply Z2; eassumption]. apply AZ; [|assumption|eapply Z1; eauto]. eapply Z3; eassumption.
Qed.
(** How far the interpolated value moves with the position in a cell of one degree. *)
Lemma bil_move : forall M x1 y1 x y x' y' q11 q12 q21 q22 e, Rabs q11 <= M -> Rabs q12 <= M -> Rabs q21 <= M -> Rabs q22 <= M -> x1 <= x <= x1 + 1 -> y1 <= y <= y1 + 1 -> x1 <= x' <= x1 + 1 -> y1 <= y' <= y1 + 1 ->
  Rabs (x' - x) <= e -> Rabs (y' - y) <= e -> Rabs (bilinear x1 (x1 + 1) y1 (y1 + 1) x' y' q11 q12 q21 q22 - bilinear x1 (x1 + 1) y1 (y1 + 1) x y q11 q12 q21 q22) <= 4 * (M * e).
Proof.
  intros M x1 y1 x y x' y' q11 q12 q21 q22 e A B C D X Y X' Y' EX EY. unfold bilinear. replace ((x1 + 1 - x1) * (y1 + 1 - y1)) with 1 by ring. unfold Rdiv. rewrite Rinv_1, !Rmult_1_r.
  set (s := x - x1). set (t := y - y1). set (s' := x' - x1). set (t' := y' - y1).
  assert (0 <= t' <= 1) by (unfold t'; lra). assert (0 <= s <= 1) by (unfold s; lra).
  assert (0 <= M) by (eapply Rle_trans; [apply Rabs_pos|exact A]). assert (0 <= e) by (eapply Rle_trans; [apply Rabs_pos|exact EX]).
  replace (_ - _) with ((s' - s) * ((q21 - q11) * (1 - t') + (q22 - q12) * t') + (t' - t) * ((q12 - q11) * (1 - s) + (q22 - q21) * s)) by (unfold s, t, s', t'; ring).
  apply Rabs_le_inv in A, B, C, D.
  assert (G : forall p q a, -M <= p <= M -> -M <= q <= M -> 0 <= a <= 1 -> forall p' q', -M <= p' <= M -> -M <= q' <= M -> Rabs ((p - q) * (1 - a) + (p' - q') * a) <= 2 * M).
  { intros p q a P Q K p' q' P' Q'. apply Rabs_le. assert (-(2 * M) * (1 - a) <= (p - q) * (1 - a) <= 2 * M * (1 - a)) by (split; apply Rmult_le_compat_r; lra). assert (-(2 * M) * a <= (p' - q') * a <= 2 * M * a) by (split; apply Rmult_le_compat_r; lra). lra. }
  eapply Rle_trans; [apply Rabs_triang|]. rewrite !Rabs_mult.
  assert (Rabs (s' - s) * Rabs ((q21 - q11) * (1 - t') + (q22 - q12) * t') <= e * (2 * M)) by (apply Rmult_le_compat; try apply Rabs_pos; [unfold s, s'; replace (x' - x1 - (x - x1)) with (x' - x) by ring; exact EX|apply G; assumption]).
  assert (Rabs (t' - t) * Rabs ((q12 - q11) * (1 - s) + (q22 - q21) * s) <= e * (2 * M)) by (apply Rmult_le_compat; try apply Rabs_pos; [unfold t, t'; replace (y' - y1 - (y - y1)) with (y' - y) by ring; exact EY|apply G; assumption]). lra.
Qed.
Lemma hund_lon : forall m, (-18000 <= m <= 36000)%Z -> hund (flon (fdecode (fq (1 # 100)) m)) (if (18000 <? m)%Z then m - 36000 else m) (2 / 10 ^ 10).
Proof.
  intros m B. pose proof (hund_decode m ltac:(lia)) as H. unfold flon. pose proof (hund_zz 180 18000 eq_refl ltac:(lia)) as H180. pose proof (hund_zz 360 36000 eq_refl ltac:(lia)) as H360.
  rewrite (proj1 (hund_cmp _ _ _ _ _ _ H180 H ltac:(div50) ltac:(lra))). destruct (18000 <? m)%Z.
  - pose proof (hund_sub _ _ _ _ _ _ H H360 ltac:(div50) ltac:(lia) ltac:(lia) ltac:(lra)) as S. destruct S as [a [I [E A]]]. exists a. split; [exact I|]. split; [lra|exact A].
  - destruct H as [a [I [E A]]]. exists a. split; [exact I|]. split; [lra|exact A].
Qed.
