(** Lemmas about the double precision operations: what they do to the real numbers they stand for. *)
Require Import ZArith QArith Reals Lra Lia Bool Psatz.
From Flocq Require Import Core.Core IEEE754.BinarySingleNaN Relative.
Require Import Verif.M_Base Verif.M_Float Verif.S_Float.
Open Scope R_scope.

#[global] Arguments fadd : simpl never.
#[global] Arguments fsub : simpl never.
#[global] Arguments fmul : simpl never.
#[global] Arguments fdiv : simpl never.
#[global] Arguments fz : simpl never.
#[global] Arguments fq : simpl never.
Definition rnd (x : R) : R := round radix2 (FLT_exp (-1074) 53) ZnearestE x.
Notation is := is_double.
Definition dbl (a : R) : Prop := generic_format radix2 (FLT_exp (-1074) 53) a.
Notation big := (bpow radix2 100).

#[export] Instance v53 : Valid_exp (FLT_exp (-1074) 53).
Proof. apply FLT_exp_valid. reflexivity. Qed.
#[export] Instance m53 : Monotone_exp (FLT_exp (-1074) 53).
Proof. apply FLT_exp_monotone. Qed.

Lemma rnd_le : forall a b, a <= b -> rnd a <= rnd b.
Proof. intros. apply round_le; [apply v53|apply valid_rnd_N|assumption]. Qed.
Lemma rnd_dbl : forall a, dbl (rnd a).
Proof. intros. apply generic_format_round; [apply v53|apply valid_rnd_N]. Qed.
Lemma rnd_id : forall a, dbl a -> rnd a = a.
Proof. intros. now apply round_generic; [apply valid_rnd_N|]. Qed.
Lemma rnd_ge : forall a b, dbl a -> a <= b -> a <= rnd b.
Proof. intros. rewrite <- (rnd_id a) by assumption. now apply rnd_le. Qed.
Lemma rnd_le' : forall a b, dbl b -> a <= b -> rnd a <= b.
Proof. intros. rewrite <- (rnd_id b) by assumption. now apply rnd_le. Qed.
Lemma rnd_opp : forall a, rnd (- a) = - rnd a.
Proof. intros. apply round_NE_opp. Qed.
Lemma is_dbl : forall x a, is x a -> dbl a.
Proof. intros x a [_ <-]. exact (generic_format_B2R 53 1024 x). Qed.
Lemma dbl_Z : forall n, (Z.abs n <= 2 ^ 53)%Z -> dbl (IZR n).
Proof.
  intros n H. destruct (Z.eq_dec (Z.abs n) (2 ^ 53)) as [E|E].
  - destruct (Z.abs_or_opp_abs n) as [K|K]; rewrite E in K; rewrite K; [|rewrite opp_IZR; apply generic_format_opp];
      change (IZR (2 ^ 53)) with (IZR (Zpower radix2 53)); rewrite IZR_Zpower by lia; apply generic_format_bpow; reflexivity || (unfold FLT_exp; lia).
  - apply generic_format_FLT. exists (Float radix2 n 0).
    + unfold F2R. cbn. lra.
    + cbn [Fnum]. change (Zpower radix2 53) with (2 ^ 53)%Z. lia.
    + cbn [Fexp]. lia.
Qed.
Lemma dbl_scaled : forall n e, (Z.abs n < 2 ^ 53)%Z -> (-1074 <= e)%Z -> dbl (IZR n * bpow radix2 e).
Proof. intros n e H K. apply generic_format_FLT. exists (Float radix2 n e); [reflexivity|exact H|exact K]. Qed.
Lemma dbl_opp : forall a, dbl a -> dbl (- a).
Proof. intros. now apply generic_format_opp. Qed.
Lemma big_dbl : dbl big.
Proof. apply generic_format_bpow. reflexivity || (unfold FLT_exp; lia). Qed.
Lemma big_1024 : forall a, Rabs a <= big -> Rlt_bool (Rabs (rnd a)) (bpow radix2 1024) = true.
Proof.
  intros a H. apply Rlt_bool_true. apply Rle_lt_trans with big; [|apply bpow_lt; lia].
  apply abs_round_le_generic; [apply v53|apply valid_rnd_N|apply big_dbl|exact H].
Qed.

Lemma is_fz : forall n, (Z.abs n <= 2 ^ 53)%Z -> is (fz n) (IZR n).
Proof.
  intros n H. pose proof (binary_normalize_correct 53 1024 p53 p1024 mode_NE n 0 false) as K.
  cbv zeta in K. assert (V : F2R (Float radix2 n 0) = IZR n) by (unfold F2R; cbn; lra). rewrite V in K.
  change (round radix2 (SpecFloat.fexp 53 1024) (round_mode mode_NE) (IZR n)) with (rnd (IZR n)) in K. rewrite big_1024 in K.
  - destruct K as [K1 [K2 _]]. split; [exact K2|]. unfold fz. rewrite K1. apply rnd_id, dbl_Z, H.
  - rewrite <- abs_IZR. apply Rle_trans with (IZR (2 ^ 53)); [apply IZR_le, H|]. change (2 ^ 53)%Z with (Zpower radix2 53). rewrite IZR_Zpower by lia. apply bpow_le. lia.
Qed.
Lemma is_add : forall x y a b, is x a -> is y b -> Rabs (a + b) <= big -> is (fadd x y) (rnd (a + b)).
Proof.
  intros x y a b [F <-] [G <-] H. pose proof (Bplus_correct 53 1024 p53 p1024 mode_NE x y F G) as K.
  change (round radix2 (SpecFloat.fexp 53 1024) (round_mode mode_NE)) with rnd in K. rewrite (big_1024 _ H) in K. now split.
Qed.
Lemma is_sub : forall x y a b, is x a -> is y b -> Rabs (a - b) <= big -> is (fsub x y) (rnd (a - b)).
Proof.
  intros x y a b [F <-] [G <-] H. pose proof (Bminus_correct 53 1024 p53 p1024 mode_NE x y F G) as K.
  change (round radix2 (SpecFloat.fexp 53 1024) (round_mode mode_NE)) with rnd in K. rewrite (big_1024 _ H) in K. now split.
Qed.
Lemma is_mul : forall x y a b, is x a -> is y b -> Rabs (a * b) <= big -> is (fmul x y) (rnd (a * b)).
Proof.
  intros x y a b [F <-] [G <-] H. pose proof (Bmult_correct 53 1024 p53 p1024 mode_NE x y) as K.
  change (round radix2 (SpecFloat.fexp 53 1024) (round_mode mode_NE)) with rnd in K. rewrite (big_1024 _ H), F, G in K. now split.
Qed.
Lemma is_div : forall x y a b, is x a -> is y b -> b <> 0 -> Rabs (a / b) <= big -> is (fdiv x y) (rnd (a / b)).
Proof.
  intros x y a b [F <-] [G <-] N H. pose proof (Bdiv_correct 53 1024 p53 p1024 mode_NE x y N) as K.
  change (round radix2 (SpecFloat.fexp 53 1024) (round_mode mode_NE)) with rnd in K. rewrite (big_1024 _ H), F in K. now split.
Qed.
Lemma is_abs : forall x a, is x a -> is (fabs x) (Rabs a).
Proof. intros x a [F <-]. split; [unfold fabs; now rewrite is_finite_Babs|apply B2R_Babs]. Qed.
Lemma flt_is : forall x y a b, is x a -> is y b -> flt x y = Rlt_bool a b.
Proof.
  intros x y a b [F <-] [G <-]. unfold flt. rewrite Bcompare_correct by assumption. unfold Rlt_bool. now destruct Rcompare.
Qed.
Lemma fle_is : forall x y a b, is x a -> is y b -> fle x y = Rle_bool a b.
Proof.
  intros x y a b [F <-] [G <-]. unfold fle. rewrite Bcompare_correct by assumption. unfold Rle_bool. now destruct Rcompare.
Qed.
Lemma feq_is : forall x y a b, is x a -> is y b -> feq x y = Req_bool a b.
Proof.
  intros x y a b [F <-] [G <-]. unfold feq. rewrite Bcompare_correct by assumption. unfold Req_bool. now destruct Rcompare.
Qed.
Lemma fint_is : forall x a, is x a -> fint x = Ok (Ztrunc a).
Proof.
  intros x a [F <-]. unfold fint. rewrite F. f_equal. apply eq_IZR. rewrite (Btrunc_correct 53 1024 p1024). apply round_FIX_IZR.
Qed.
Lemma ffloor_is : forall x a, is x a -> Rabs a <= IZR (2 ^ 52) -> ffloor x = Ok (Zfloor a).
Proof.
  intros x a I B. unfold ffloor. rewrite (fint_is x a I). cbn [bind].
  assert (T : (Z.abs (Ztrunc a) <= 2 ^ 53)%Z).
  { apply Z.le_trans with (2 ^ 52)%Z; [|lia]. apply le_IZR. rewrite abs_IZR. rewrite <- (Rabs_pos_eq (IZR (2 ^ 52))) by (apply IZR_le; lia). unfold Ztrunc. case Rlt_bool_spec; intros.
    - rewrite Rabs_left in B by assumption. rewrite (Rabs_pos_eq (IZR (2^52))) by (apply IZR_le; lia). rewrite Rabs_left1; [|apply IZR_le, Zceil_glb; lra]. rewrite <- opp_IZR. apply IZR_le. enough (- (2 ^ 52) <= Zceil a)%Z by lia. apply le_IZR. rewrite opp_IZR. pose proof (Zceil_ub a). lra.
    - rewrite Rabs_pos_eq in B by assumption. rewrite (Rabs_pos_eq (IZR (2^52))) by (apply IZR_le; lia). rewrite Rabs_pos_eq; [|apply IZR_le, Zfloor_lub; lra]. pose proof (Zfloor_lb a). lra. }
  rewrite (flt_is _ _ _ _ I (is_fz _ T)). case Rlt_bool_spec; intros H.
  - f_equal. unfold Ztrunc in *. destruct (Rlt_bool a 0) eqn:E; [|pose proof (Zfloor_lb a); lra].
    symmetry. apply Zfloor_imp. pose proof (Zceil_lb a). rewrite minus_IZR, plus_IZR, minus_IZR. lra.
  - f_equal. unfold Ztrunc in *. destruct (Rlt_bool_spec a 0); [|reflexivity]. symmetry. apply Zfloor_imp. pose proof (Zceil_ub a). rewrite plus_IZR. split; lra.
Qed.
(** Rounding errors. *)
Lemma rnd_err : forall a, exists e d, Rabs e <= bpow radix2 (-53) /\ Rabs d <= bpow radix2 (-1075) /\ rnd a = a * (1 + e) + d.
Proof.
  intros a. destruct (error_N_FLT radix2 (-1074) 53 eq_refl (fun x => negb (Z.even x)) a) as [e [d [H [K [_ L]]]]]. exists e, d. split; [|split; [|exact L]].
  - eapply Rle_trans; [exact H|]. apply Req_le. change (-53)%Z with (-1 + (-53 + 1))%Z. rewrite (bpow_plus _ (-1)). reflexivity.
  - eapply Rle_trans; [exact K|]. apply Req_le. change (-1075)%Z with (-1 + -1074)%Z. rewrite (bpow_plus _ (-1)). reflexivity.
Qed.
(** An absolute bound: half a unit in the last place of the power of two above. *)
Lemma rnd_abs : forall a k, (-1021 <= k <= 1000)%Z -> Rabs a <= bpow radix2 k -> Rabs (rnd a - a) <= bpow radix2 (k - 54).
Proof.
  intros a k K H. destruct (Req_dec a 0) as [->|N].
  - unfold rnd. rewrite round_0 by apply valid_rnd_N. rewrite Rminus_0_r, Rabs_R0. apply bpow_ge_0.
  - destruct (Rle_lt_or_eq_dec _ _ H) as [L|E].
    + eapply Rle_trans; [apply error_le_half_ulp; [apply v53]|]. rewrite ulp_neq_0 by exact N. change (k - 54)%Z with (k + -54)%Z. unfold cexp, FLT_exp.
      assert (M : (mag radix2 a <= k)%Z) by (apply mag_le_bpow; assumption).
      apply Rle_trans with (/ 2 * bpow radix2 (k - 53)); [apply Rmult_le_compat_l; [lra|]; apply bpow_le; lia|].
      change (/ 2) with (bpow radix2 (-1)). rewrite <- bpow_plus. apply bpow_le. lia.
    + assert (D : dbl a).
      { assert (D : dbl (bpow radix2 k)) by (apply generic_format_bpow; unfold FLT_exp; lia). unfold Rabs in E. destruct (Rcase_abs a); [|now rewrite E]. rewrite <- (Ropp_involutive a). apply dbl_opp. now rewrite E. }
      rewrite (rnd_id a D), Rminus_diag_eq, Rabs_R0 by reflexivity. apply bpow_ge_0.
Qed.
Lemma is_fq : forall q, (Z.abs (Qnum q) <= 2 ^ 53)%Z -> (Zpos (Qden q) <= 2 ^ 53)%Z -> is (fq q) (rnd (IZR (Qnum q) / IZR (Zpos (Qden q)))).
Proof.
  intros q A B. apply is_div; [now apply is_fz|apply is_fz; lia|apply IZR_neq; lia|].
  assert (P : 1 <= IZR (Zpos (Qden q))) by (apply IZR_le; lia). unfold Rdiv. rewrite Rabs_mult, (Rabs_pos_eq (/ _)) by (apply Rlt_le, Rinv_0_lt_compat; lra).
  apply Rle_trans with (Rabs (IZR (Qnum q)) * 1).
  - apply Rmult_le_compat_l; [apply Rabs_pos|]. rewrite <- Rinv_1. apply Rinv_le; lra.
  - rewrite Rmult_1_r, <- abs_IZR. apply Rle_trans with (IZR (2 ^ 53)); [apply IZR_le, A|]. change (2 ^ 53)%Z with (Zpower radix2 53). rewrite IZR_Zpower by lia. apply bpow_le. lia.
Qed.
Lemma rnd_div : forall a r, 0 < r -> Rabs (rnd (a / r) * r - a) <= Rabs a * bpow radix2 (-53) + r * bpow radix2 (-1075).
Proof.
  intros a r P. destruct (rnd_err (a / r)) as [e [d [E [D ->]]]]. replace ((a / r * (1 + e) + d) * r - a) with (a * e + d * r) by (field; lra).
  eapply Rle_trans; [apply Rabs_triang|]. rewrite !Rabs_mult, (Rabs_pos_eq r) by lra. pose proof (Rabs_pos a).
  apply Rplus_le_compat; [now apply Rmult_le_compat_l|]. rewrite (Rmult_comm r). apply Rmult_le_compat_r; lra.
Qed.
Lemma trunc_pos : forall a, 0 <= a -> IZR (Ztrunc a) <= a < IZR (Ztrunc a) + 1 /\ (0 <= Ztrunc a)%Z.
Proof. intros a H. rewrite Ztrunc_floor by exact H. pose proof (Zfloor_lb a). pose proof (Zfloor_ub a). split; [lra|]. apply Zfloor_lub. exact H. Qed.
Lemma trunc_neg : forall a, a <= 0 -> IZR (Ztrunc a) - 1 < a <= IZR (Ztrunc a) /\ (Ztrunc a <= 0)%Z.
Proof. intros a H. rewrite Ztrunc_ceil by exact H. pose proof (Zceil_lb a). pose proof (Zceil_ub a). split; [lra|]. apply Zceil_glb. exact H. Qed.
Lemma small_big : forall a, Rabs a <= 1000000000000 -> Rabs a <= big.
Proof. intros a H. eapply Rle_trans; [exact H|]. cbn. lra. Qed.
Ltac inbig := apply small_big, Rabs_le; split; lra.
