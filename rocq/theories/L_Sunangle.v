(** Lemmas about the azimuth of the sun. *)
Require Import ZArith Reals Lra Lia Bool.
Require Import Verif.M_Base Verif.M_Real Verif.L_Real Verif.M_SunR Verif.S_SunR Verif.L_SunR Verif.S_Sphere Verif.L_Sphere Verif.L_Almanac Verif.M_Sunangle Verif.S_Sunangle.
Open Scope R_scope.

Lemma sq_sum : forall p d h, cos d * sin h * (cos d * sin h) + (cos p * sin d - sin p * cos d * cos h) * (cos p * sin d - sin p * cos d * cos h) +
  (sin p * sin d + cos p * cos d * cos h) * (sin p * sin d + cos p * cos d * cos h) = 1.
Proof.
  intros p d h. replace (_ + _ + _) with ((cos d * cos d) * (sin h * sin h) + (sin p * sin p + cos p * cos p) * (sin d * sin d + cos d * cos d * (cos h * cos h))) by ring.
  rewrite sc1. replace (_ + _) with (sin d * sin d + cos d * cos d * (sin h * sin h + cos h * cos h)) by ring. rewrite sc1. pose proof (sc1 d). lra.
Qed.
(** In radians: the branch taken decides between the two directions with the same eastward part. *)
Lemma azimuth_parts : forall phi dec h elev, - (PI / 2) < elev < PI / 2 -> sin elev = sin phi * sin dec + cos phi * cos dec * cos h ->
  0.000001 < Rabs (elev - PI / 2) -> sin phi <> 0 -> 0 < cos phi ->
  exists az, sun_azimuth phi dec h elev = Ok az /\ 0 <= az <= 360 /\ cos elev * sin (rad az) = - (cos dec * sin h) /\
    (0 < sin phi -> cos elev * cos (rad az) = cos phi * sin dec - sin phi * cos dec * cos h) /\
    (sin phi < 0 -> cos elev * cos (rad az) = - (cos phi * sin dec - sin phi * cos dec * cos h)).
Proof.
  intros phi dec h elev EB SE FAR NZ CP. pose proof PI_RGT_0 as P. pose proof (sq_sum phi dec h) as Q. rewrite <- SE in Q. set (E := cos dec * sin h) in *. set (N := cos phi * sin dec - sin phi * cos dec * cos h) in *.
  assert (C : 0 < cos elev) by (apply cos_gt_0; lra). pose proof (sc1 elev) as S1.
  assert (Q2 : E * E + N * N = cos elev * cos elev) by lra.
  assert (V : -1 <= E / cos elev <= 1). { assert (- cos elev <= E <= cos elev) by (split; nra). split; [apply Rmult_le_reg_r with (cos elev); [exact C|]|apply Rmult_le_reg_r with (cos elev); [exact C|]]; unfold Rdiv; rewrite Rmult_assoc, Rinv_l by lra; lra. }
  unfold sun_azimuth. fold E. replace (2 * PI / 4) with (PI / 2) by field. destruct (Rlt_dec 0.000001 (Rabs (elev - PI / 2))) as [_|F]; [|contradiction]. rewrite (clip1_id _ V).
  set (a := asin (E / cos elev)). assert (SA : sin a = E / cos elev) by (now apply sin_asin). pose proof (asin_bound (E / cos elev)) as AB. fold a in AB.
  assert (CA0 : 0 <= cos a) by (apply cos_ge_0; lra). assert (EA : cos elev * sin a = E) by (rewrite SA; field; lra).
  assert (CA : cos elev * cos a = Rabs N). { apply Rsqr_inj; [apply Rmult_le_pos; lra|apply Rabs_pos|]. rewrite <- Rsqr_abs. unfold Rsqr. pose proof (sc1 a) as S2. nra. }
  assert (ID : sin phi * sin elev - sin dec = - (cos phi * N)). { rewrite SE. unfold N. pose proof (sc1 phi) as S3. replace (sin dec) with ((sin phi * sin phi + cos phi * cos phi) * sin dec) at 2 by (rewrite S3; ring). ring. }
  destruct (Req_EM_T (sin phi) 0) as [Z0|_]; [contradiction|]. eexists. split; [reflexivity|].
  assert (AD : a / degrad * (PI / 180) = a) by (unfold degrad; field; lra). assert (AR : -90 <= a / degrad <= 90) by (split; apply Rmult_le_reg_r with (PI / 180); lra).
  set (b := a / degrad) in *. destruct (Rlt_dec (sin elev) (sin dec / sin phi)) as [L|L].
  - assert (BR : exists k, (if Rlt_dec b 0 then b + 360 else b) = b + 360 * IZR k /\ 0 <= 180 + (180 - (if Rlt_dec b 0 then b + 360 else b)) <= 360) by (destruct (Rlt_dec b 0); [exists 1%Z|exists 0%Z]; split; lra).
    destruct BR as [k [BK BR]]. split; [exact BR|]. rewrite BK. replace (rad (180 + (180 - (b + 360 * IZR k)))) with (- a + 2 * IZR (1 - k) * PI) by (rewrite <- AD, minus_IZR; unfold rad; field).
    rewrite sin_period_Z, cos_period_Z, sin_neg, cos_neg, CA. split; [rewrite <- EA; ring|]. split; intro SP.
    + assert (0 < cos phi * N). { assert (sin phi * sin elev < sin dec). { apply Rmult_lt_compat_l with (r := sin phi) in L; [|exact SP]. replace (sin phi * (sin dec / sin phi)) with (sin dec) in L by (field; exact NZ). exact L. } lra. }
      assert (0 < N) by nra. apply Rabs_pos_eq. lra.
    + assert (cos phi * N < 0). { assert (sin dec < sin phi * sin elev). { apply Rmult_lt_gt_compat_neg_l with (r := sin phi) in L; [|exact SP]. replace (sin phi * (sin dec / sin phi)) with (sin dec) in L by (field; exact NZ). lra. } lra. }
      assert (N < 0) by nra. now apply Rabs_left.
  - apply Rnot_lt_le in L. split; [lra|]. replace (rad (180 + b)) with (a + PI) by (rewrite <- AD; unfold rad; field). rewrite neg_sin, neg_cos. split; [rewrite <- EA; ring|].
    replace (cos elev * - cos a) with (- Rabs N) by (rewrite <- CA; ring). split; intro SP.
    + assert (cos phi * N <= 0). { assert (sin dec <= sin phi * sin elev). { apply Rmult_le_compat_l with (r := sin phi) in L; [|lra]. replace (sin phi * (sin dec / sin phi)) with (sin dec) in L by (field; exact NZ). exact L. } lra. }
      assert (N <= 0) by nra. rewrite Rabs_left1 by assumption. ring.
    + assert (0 <= cos phi * N). { assert (sin phi * sin elev <= sin dec). { apply Rmult_le_compat_neg_l with (r := sin phi) in L; [|lra]. replace (sin phi * (sin dec / sin phi)) with (sin dec) in L by (field; exact NZ). lra. } lra. }
      assert (0 <= N) by nra. rewrite Rabs_pos_eq by assumption. reflexivity.
Qed.
