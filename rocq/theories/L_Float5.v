(** Lemmas: scaled fields, rounding and limits in double precision. *)
Require Import ZArith QArith Reals Lra Lia Bool Psatz.
From Flocq Require Import Core.Core IEEE754.BinarySingleNaN Relative.
Require Import Verif.M_Base Verif.M_Float Verif.S_Float Verif.L_Float Verif.L_Float2 Verif.L_Float3 Verif.L_Float4.
Open Scope R_scope.

Lemma trunc_near_pos : forall n a, IZR n <= a < IZR n + 1 -> (0 <= n)%Z -> Ztrunc a = n.
Proof. intros n a H P. assert (0 <= IZR n) by (apply IZR_le; lia). rewrite Ztrunc_floor by lra. now apply Zfloor_imp; rewrite plus_IZR. Qed.
Lemma trunc_near_neg : forall n a, IZR n - 1 < a <= IZR n -> (n <= 0)%Z -> Ztrunc a = n.
Proof. intros n a H P. assert (IZR n <= 0) by (apply IZR_le; lia). rewrite Ztrunc_ceil by lra. apply Zceil_imp; rewrite minus_IZR. lra. Qed.

(** int(x + 0.5) and int(round(x)) for x near a whole number. *)
Lemma nint_ok : forall x a n, is x a -> Rabs (a - IZR n) <= 1 / 4 -> (Z.abs n <= 10 ^ 11)%Z -> fint (fadd x (fq (1 # 2))) = Ok (if (0 <=? n)%Z then n else (n + 1)%Z).
Proof.
  intros x a n I A N. apply Rabs_le_inv in A. assert (NB : -100000000000 <= IZR n <= 100000000000) by (split; apply IZR_le; lia).
  assert (H : is (fq (1 # 2)) (1 / 2)). { pose proof (is_fq (1 # 2) ltac:(cbn; lia) ltac:(cbn; lia)) as K. cbn [Qnum Qden] in K. rewrite rnd_id in K; [exact K|]. replace (1 / 2) with (IZR 1 * bpow radix2 (-1)) by (cbn; lra). apply dbl_scaled; lia. }
  assert (S1 : is (fadd x (fq (1 # 2))) (rnd (a + 1 / 2))) by (apply is_add; [exact I|exact H|inbig]). near (a + 1 / 2) 37%Z. rewrite (fint_is _ _ S1). f_equal. destruct (Z.leb_spec 0 n) as [P|P].
  - apply trunc_near_pos; [lra|exact P].
  - apply trunc_near_neg; [rewrite plus_IZR; lra|lia].
Qed.
Lemma fround_ok : forall x a n, is x a -> Rabs (a - IZR n) <= 1 / 4 -> (Z.abs n <= 10 ^ 11)%Z -> fround x = Ok n.
Proof.
  intros x a n I A N. apply Rabs_le_inv in A. assert (NB : -100000000000 <= IZR n <= 100000000000) by (split; apply IZR_le; lia).
  assert (H : is (fq (1 # 2)) (1 / 2)). { pose proof (is_fq (1 # 2) ltac:(cbn; lia) ltac:(cbn; lia)) as K. cbn [Qnum Qden] in K. rewrite rnd_id in K; [exact K|]. replace (1 / 2) with (IZR 1 * bpow radix2 (-1)) by (cbn; lra). apply dbl_scaled; lia. }
  pose proof (fint_is x a I) as T. unfold fint in T. unfold fround. destruct (is_finite x) eqn:FX; [|discriminate T]. injection T as ->.
  set (m := Ztrunc a). assert (C : (m = n /\ Rabs (a - IZR m) <= 1 / 4) \/ (m = (n - 1)%Z /\ 0 < a /\ 3 / 4 <= Rabs (a - IZR m)) \/ (m = (n + 1)%Z /\ a < 0 /\ 3 / 4 <= Rabs (a - IZR m))).
  { destruct (Z.lt_trichotomy n 0) as [P|[P|P]].
    - assert (IZR n <= -1) by (apply IZR_le; lia). destruct (Rle_lt_dec a (IZR n)) as [L|L].
      + left. unfold m. rewrite (trunc_near_neg n) by (lia || lra). split; [reflexivity|apply Rabs_le; lra].
      + right. right. unfold m. rewrite (trunc_near_neg (n + 1)) by (lia || (rewrite plus_IZR; lra)). split; [reflexivity|]. split; [lra|]. rewrite plus_IZR. rewrite Rabs_left1; lra.
    - left. subst n. cbn in A. unfold m. destruct (Rle_lt_dec 0 a) as [L|L]; [rewrite (trunc_near_pos 0) by (lia || (cbn; lra))|rewrite (trunc_near_neg 0) by (lia || (cbn; lra))]; (split; [reflexivity|apply Rabs_le; cbn; lra]).
    - assert (1 <= IZR n) by (apply IZR_le; lia). destruct (Rle_lt_dec (IZR n) a) as [L|L].
      + left. unfold m. rewrite (trunc_near_pos n) by (lia || lra). split; [reflexivity|apply Rabs_le; lra].
      + right. left. unfold m. rewrite (trunc_near_pos (n - 1)) by (lia || (rewrite minus_IZR; lra)). split; [reflexivity|]. split; [lra|]. rewrite minus_IZR. rewrite Rabs_pos_eq; lra. }
  assert (MB : (Z.abs m <= 10 ^ 12)%Z) by lia. assert (MR : Rabs (a - IZR m) <= 2).
  { destruct C as [[-> C]|[[-> [_ C]]|[-> [_ C]]]]; [lra|rewrite minus_IZR|rewrite plus_IZR]; apply Rabs_le; lra. }
  apply Rabs_le_inv in MR. assert (S1 : is (fsub x (fz m)) (rnd (a - IZR m))) by (apply is_sub; [exact I|apply is_fz; lia|inbig]).
  rewrite (fle_is _ _ _ _ H (is_abs _ _ S1)), (flt_is _ _ _ _ I (is_fz 0 ltac:(lia))).
  assert (Q1 : dbl (1 / 4)) by (replace (1 / 4) with (IZR 1 * bpow radix2 (-2)) by (cbn; lra); apply dbl_scaled; lia).
  assert (Q3 : dbl (3 / 4)) by (replace (3 / 4) with (IZR 3 * bpow radix2 (-2)) by (cbn; lra); apply dbl_scaled; lia).
  destruct C as [[-> C]|[[-> [L C]]|[-> [L C]]]].
  - rewrite Rle_bool_false; [reflexivity|]. apply Rabs_le_inv in C. assert (rnd (a - IZR n) <= 1 / 4) by (apply rnd_le'; [exact Q1|lra]). assert (- (1 / 4) <= rnd (a - IZR n)) by (apply rnd_ge; [now apply dbl_opp|lra]). apply Rle_lt_trans with (1 / 4); [apply Rabs_le; lra|lra].
  - rewrite Rle_bool_true. { rewrite Rlt_bool_false by lra. f_equal. lia. }
    rewrite minus_IZR in *. rewrite Rabs_pos_eq in C by lra. apply Rle_trans with (3 / 4); [lra|]. eapply Rle_trans; [|apply Rle_abs]. now apply rnd_ge.
  - rewrite Rle_bool_true. { rewrite Rlt_bool_true by lra. f_equal. lia. }
    rewrite plus_IZR in *. rewrite Rabs_left1 in C by lra. apply Rle_trans with (3 / 4); [lra|]. rewrite <- Rabs_Ropp. eapply Rle_trans; [|apply Rle_abs]. rewrite <- rnd_opp. apply rnd_ge; [exact Q3|lra].
Qed.

(** A number times a scale, then divided by it. *)
Lemma decode_ok : forall s r n, is s r -> 1 / 2000 <= r <= 2 -> (Z.abs n <= 10 ^ 11)%Z -> is (fdecode s n) (rnd (IZR n * r)) /\ Rabs (rnd (IZR n * r) / r - IZR n) <= Rabs (IZR n) * bpow radix2 (-53) + bpow radix2 (-60).
Proof.
  intros s r n I R N. assert (NB : -100000000000 <= IZR n <= 100000000000) by (split; apply IZR_le; lia).
  split; [apply is_mul; [apply is_fz; lia|exact I|apply small_big, Rabs_le; split; nra]|].
  destruct (rnd_err (IZR n * r)) as [e [d [E [D ->]]]]. replace ((IZR n * r * (1 + e) + d) / r - IZR n) with (IZR n * e + d / r) by (field; lra).
  eapply Rle_trans; [apply Rabs_triang|]. apply Rplus_le_compat.
  - rewrite Rabs_mult. apply Rmult_le_compat_l; [apply Rabs_pos|exact E].
  - unfold Rdiv. rewrite Rabs_mult, (Rabs_pos_eq (/ r)) by (left; apply Rinv_0_lt_compat; lra). apply Rle_trans with (bpow radix2 (-1075) * 2000).
    + apply Rmult_le_compat; [apply Rabs_pos|left; apply Rinv_0_lt_compat; lra|exact D|]. replace 2000 with (/ (1 / 2000)) by lra. apply Rinv_le; lra.
    + change 2000 with (IZR 2000). apply Rle_trans with (bpow radix2 (-1075) * bpow radix2 11); [apply Rmult_le_compat_l; [apply bpow_ge_0|cbn; lra]|]. rewrite <- bpow_plus. apply bpow_le. lia.
Qed.
Lemma encode_ok : forall s r n, is s r -> 1 / 2000 <= r <= 2 -> (Z.abs n <= 10 ^ 11)%Z -> fencode s (fdecode s n) = Ok (if (0 <=? n)%Z then n else (n + 1)%Z).
Proof.
  intros s r n I R N. assert (NB : Rabs (IZR n) <= 100000000000) by (rewrite <- abs_IZR; apply IZR_le; lia). destruct (decode_ok s r n I R N) as [D E]. set (v := rnd (IZR n * r)) in *.
  assert (E' : Rabs (v / r - IZR n) <= 1 / 1000) by (eapply Rle_trans; [exact E|cbn; lra]). clear E. apply Rabs_le_inv in NB, E'.
  assert (S1 : is (fdiv (fdecode s n) s) (rnd (v / r))) by (apply is_div; [exact D|exact I|lra|inbig]). near (v / r) 37%Z. unfold fencode. apply (nint_ok _ _ _ S1); [|exact N]. apply Rabs_le. lra.
Qed.
(** A number of k-th parts, then times k and rounded. *)
Lemma pvar_ok : forall k n, (1 <= k <= 1000)%Z -> (Z.abs n <= 10 ^ 11)%Z -> fpvar (fdecode (fdiv (fz 1) (fz k)) n) (fz k) = Ok n.
Proof.
  intros k n K N. assert (KB : 1 <= IZR k <= 1000) by (split; apply IZR_le; lia). assert (NB : Rabs (IZR n) <= 100000000000) by (rewrite <- abs_IZR; apply IZR_le; lia).
  assert (QB : 1 / 1000 <= 1 / IZR k <= 1). { unfold Rdiv. rewrite !Rmult_1_l. split; [apply Rinv_le; lra|]. apply Rle_trans with (/ 1); [apply Rinv_le; lra|lra]. }
  assert (S0 : is (fdiv (fz 1) (fz k)) (rnd (1 / IZR k))) by (apply is_div; [apply is_fz; lia|apply is_fz; lia|lra|inbig]).
  pose proof (rnd_abs (1 / IZR k) 0 ltac:(lia)) as E0. change (0 - 54)%Z with (-54)%Z in E0. specialize (E0 ltac:(apply Rabs_le; cbn; lra)). set (r := rnd (1 / IZR k)) in *.
  apply Rabs_le_inv in E0. cbn in E0. assert (RB : 1 / 2000 <= r <= 2) by lra. destruct (decode_ok _ r n S0 RB N) as [D E]. set (v := rnd (IZR n * r)) in *.
  assert (E1 : Rabs (v / r - IZR n) <= 1 / 1000) by (eapply Rle_trans; [exact E|cbn; lra]). clear E.
  assert (E2 : Rabs (r * IZR k - 1) <= 1 / 10000000000000) by (replace (r * IZR k - 1) with ((r - 1 / IZR k) * IZR k) by (field; lra); apply Rabs_le; split; nra).
  assert (E3 : Rabs (v * IZR k - IZR n) <= 1 / 10). { replace (v * IZR k - IZR n) with ((v / r - IZR n) * (r * IZR k) + IZR n * (r * IZR k - 1)) by (field; lra).
    eapply Rle_trans; [apply Rabs_triang|]. rewrite (Rabs_mult (v / r - IZR n)), (Rabs_mult (IZR n)). assert (0 <= Rabs (r * IZR k) <= 2). { split; [apply Rabs_pos|]. apply Rabs_le_inv in E2. apply Rabs_le. lra. }
    assert (Rabs (v / r - IZR n) * Rabs (r * IZR k) <= 1 / 1000 * 2) by (apply Rmult_le_compat; try apply Rabs_pos; lra). assert (Rabs (IZR n) * Rabs (r * IZR k - 1) <= 100000000000 * (1 / 10000000000000)) by (apply Rmult_le_compat; try apply Rabs_pos; lra). lra. }
  apply Rabs_le_inv in NB, E3. assert (S1 : is (fmul (fdecode (fdiv (fz 1) (fz k)) n) (fz k)) (rnd (v * IZR k))) by (apply is_mul; [exact D|apply is_fz; lia|inbig]).
  near (v * IZR k) 37%Z. unfold fpvar. apply (fround_ok _ _ _ S1); [|exact N]. apply Rabs_le. lra.
Qed.

(** ---- limits ---- *)
Lemma far_within : forall x a m b l c, is x a -> is m b -> is l c -> Rabs (a - b) <= big -> Rabs (a - b) <= c -> ffar x m l = false.
Proof.
  intros x a m b l c I J K BIG H. unfold ffar. rewrite (flt_is _ _ _ _ K (is_abs _ _ (is_sub _ _ _ _ I J BIG))). apply Rlt_bool_false. pose proof (is_dbl _ _ K) as D. apply Rabs_le_inv in H. apply Rabs_le. split.
  - apply rnd_ge; [now apply dbl_opp|lra].
  - apply rnd_le'; [exact D|lra].
Qed.
Lemma far_beyond : forall x a m b l c, is x a -> is m b -> is l c -> Rabs (a - b) <= big -> 0 <= c <= 1000 -> c + 1 / 10000000000000 <= Rabs (a - b) -> ffar x m l = true.
Proof.
  intros x a m b l c I J K BIG C H. unfold ffar. rewrite (flt_is _ _ _ _ K (is_abs _ _ (is_sub _ _ _ _ I J BIG))). apply Rlt_bool_true.
  assert (P : forall d, 0 <= d -> c + 1 / 10000000000000 <= d -> c < rnd d).
  { intros d D L. destruct (Rle_lt_dec 1024 d) as [G|G]; [apply Rlt_le_trans with 1024; [lra|apply rnd_ge; [apply (dbl_Z 1024); lia|exact G]]|]. near d 10%Z. lra. }
  destruct (Rle_lt_dec 0 (a - b)) as [S|S].
  - rewrite (Rabs_pos_eq (a - b)) in H by exact S. eapply Rlt_le_trans; [exact (P _ S H)|apply Rle_abs].
  - rewrite (Rabs_left (a - b)) in H by exact S. rewrite <- Rabs_Ropp, <- rnd_opp. eapply Rlt_le_trans; [apply (P (- (a - b))); lra|apply Rle_abs].
Qed.
Lemma flag_ok : forall x p, is x p -> 0 <= p <= 1 -> exists k, fflag x = Ok k /\ (0 <= k <= 9)%Z /\ IZR k / 10 - 1 / 1000000000000000 <= p /\ (p < (IZR k + 1) / 10 \/ k = 9%Z).
Proof.
  intros x p I B. unfold fflag. rewrite (flt_is _ _ _ _ (is_fz 0 ltac:(lia)) I). destruct (Rlt_bool_spec 0 p) as [L|L].
  - assert (S1 : is (fmul x (fz 10)) (rnd (p * 10))) by (apply is_mul; [exact I|apply is_fz; lia|inbig]).
    assert (G : 0 <= rnd (p * 10) <= 10) by (split; [apply rnd_ge; [apply (dbl_Z 0); lia|lra]|apply rnd_le'; [apply (dbl_Z 10); lia|lra]]).
    near (p * 10) 4%Z. set (g := rnd (p * 10)) in *. rewrite (ffloor_is _ _ S1) by (apply Rabs_le; cbn; lra). cbn [bind]. pose proof (Zfloor_lb g) as LB. pose proof (Zfloor_ub g) as UB.
    assert (F0 : (0 <= Zfloor g)%Z) by (apply Zfloor_lub; lra). assert (F1 : (Zfloor g <= 10)%Z) by (apply le_IZR; lra). eexists. split; [reflexivity|]. destruct (Z.ltb_spec 9 (Zfloor g)) as [T|T].
    + split; [lia|]. split; [|now right]. assert (10 <= IZR (Zfloor g)) by (apply IZR_le; lia). lra.
    + split; [lia|]. split; [lra|]. left. apply Rnot_le_lt. intros C. enough (IZR (Zfloor g) + 1 <= g) by lra. rewrite <- plus_IZR. apply rnd_ge; [apply dbl_Z; lia|rewrite plus_IZR; lra].
  - exists 0%Z. split; [reflexivity|]. split; [lia|]. split; [cbn; lra|left; cbn; lra].
Qed.

(** ---- rounding in general ---- *)
Lemma rest_exact : forall a, dbl a -> dbl (a - IZR (Ztrunc a)).
Proof.
  intros a D. destruct (Rle_lt_dec 0 a) as [P|P].
  - rewrite Ztrunc_floor by exact P. now apply dbl_frac.
  - rewrite Ztrunc_ceil by lra. unfold Zceil. rewrite opp_IZR. replace (a - - IZR (Zfloor (- a))) with (- (- a - IZR (Zfloor (- a)))) by ring. apply dbl_opp, dbl_frac; [now apply dbl_opp|lra].
Qed.
Lemma fround_spec : forall x a, is x a -> Rabs a <= 100000000000 -> exists n, fround x = Ok n /\ Rabs (a - IZR n) <= 1 / 2 /\ (Rabs (a - IZR n) = 1 / 2 -> Rabs a < Rabs (IZR n)).
Proof.
  intros x a I A. apply Rabs_le_inv in A.
  assert (H : is (fq (1 # 2)) (1 / 2)). { pose proof (is_fq (1 # 2) ltac:(cbn; lia) ltac:(cbn; lia)) as K. cbn [Qnum Qden] in K. rewrite rnd_id in K; [exact K|]. replace (1 / 2) with (IZR 1 * bpow radix2 (-1)) by (cbn; lra). apply dbl_scaled; lia. }
  pose proof (fint_is x a I) as T. unfold fint in T. unfold fround. destruct (is_finite x) eqn:FX; [|discriminate T]. injection T as ->.
  pose proof (rest_exact a (is_dbl _ _ I)) as RE. set (m := Ztrunc a) in *. assert (C : (0 <= a /\ IZR m <= a < IZR m + 1 /\ (0 <= m)%Z) \/ (a < 0 /\ IZR m - 1 < a <= IZR m /\ (m <= 0)%Z)).
  { destruct (Rle_lt_dec 0 a) as [P|P]; [left; split; [exact P|now apply trunc_pos]|right; split; [exact P|apply trunc_neg; lra]]. }
  assert (MB : (Z.abs m <= 10 ^ 12)%Z). { assert (-1000000000000 <= m)%Z by (apply le_IZR; lra). assert (m <= 1000000000000)%Z by (apply le_IZR; lra). lia. }
  assert (S1 : is (fsub x (fz m)) (a - IZR m)) by (rewrite <- (rnd_id _ RE); apply is_sub; [exact I|apply is_fz; lia|inbig]).
  rewrite (fle_is _ _ _ _ H (is_abs _ _ S1)), (flt_is _ _ _ _ I (is_fz 0 ltac:(lia))).
  destruct C as [[P [C M0]]|[P [C M0]]].
  - rewrite (Rabs_pos_eq (a - IZR m)) by lra. rewrite (Rlt_bool_false a 0) by exact P. destruct (Rle_bool_spec (1 / 2) (a - IZR m)) as [L|L].
    + exists (m + 1)%Z. split; [reflexivity|]. rewrite plus_IZR. rewrite Rabs_left by lra. split; [lra|]. intros _. assert (0 <= IZR m) by (apply IZR_le; lia). rewrite !Rabs_pos_eq; lra.
    + exists m. split; [reflexivity|]. rewrite Rabs_pos_eq by lra. split; [lra|]. intros; lra.
  - rewrite (Rabs_left1 (a - IZR m)) by lra. rewrite (Rlt_bool_true a 0) by exact P. destruct (Rle_bool_spec (1 / 2) (- (a - IZR m))) as [L|L].
    + exists (m - 1)%Z. split; [reflexivity|]. rewrite minus_IZR. rewrite Rabs_pos_eq by lra. split; [lra|]. intros _. assert (IZR m <= 0) by (apply IZR_le; lia). rewrite !Rabs_left1; lra.
    + exists m. split; [reflexivity|]. rewrite Rabs_left1 by lra. split; [lra|]. intros; lra.
Qed.
(** A decoded value is close to the exact one. *)
Lemma decode_near : forall q n, 1 / 1000 <= Q2R q <= 1 -> (Qnum q <= 2 ^ 53)%Z -> (0 < Qnum q)%Z -> (Zpos (Qden q) <= 2 ^ 53)%Z -> (Z.abs n <= 10 ^ 11)%Z -> exists v r, is (fq q) r /\ 1 / 2000 <= r <= 2 /\ is (fdecode (fq q) n) v /\ Rabs (v - IZR n * Q2R q) <= 3 / 10000000000000000 * Rabs (IZR n * Q2R q).
Proof.
  intros q n B N1 N2 D N. assert (NB : -100000000000 <= IZR n <= 100000000000) by (split; apply IZR_le; lia).
  pose proof (is_fq q ltac:(lia) D) as I. change (IZR (Qnum q) / IZR (Zpos (Qden q))) with (Q2R q) in I. set (c := Q2R q) in *. clearbody c. destruct (rnd_err c) as [e [d [E [F R]]]]. set (r := rnd c) in *.
  apply Rabs_le_inv in E. assert (F' : Rabs d <= bpow radix2 (-80)) by (eapply Rle_trans; [exact F|apply bpow_le; lia]). clear F. apply Rabs_le_inv in F'. cbn in E, F'.
  assert (RE : Rabs (r - c) <= c * (12 / 100000000000000000)) by (rewrite R; apply Rabs_le; split; nra). apply Rabs_le_inv in RE. assert (RB : 1 / 2000 <= r <= 2) by lra.
  destruct (decode_ok _ r n I RB N) as [K _]. exists (rnd (IZR n * r)), r. split; [exact I|]. split; [exact RB|]. split; [exact K|].
  destruct (Z.eq_dec n 0) as [->|N0]. { rewrite !Rmult_0_l, rnd_id by (apply (dbl_Z 0); lia). rewrite Rminus_0_r, Rabs_R0, Rmult_0_r. lra. }
  assert (NN : 1 <= Rabs (IZR n)) by (rewrite <- abs_IZR; apply IZR_le; lia).
  destruct (rnd_err (IZR n * r)) as [e2 [d2 [E2 [F2 R2]]]]. rewrite R2. replace (IZR n * r * (1 + e2) + d2 - IZR n * c) with (IZR n * ((r - c) + r * e2) + d2) by ring.
  eapply Rle_trans; [apply Rabs_triang|]. rewrite !Rabs_mult, (Rabs_pos_eq c) by lra.
  assert (G : Rabs (r - c + r * e2) <= c * (24 / 100000000000000000)). { apply Rabs_le_inv in E2. cbn in E2. apply Rabs_le. split; nra. }
  assert (G2 : Rabs d2 <= 1 / 1000000000000000000000) by (eapply Rle_trans; [exact F2|]; apply Rle_trans with (bpow radix2 (-80)); [apply bpow_le; lia|cbn; lra]).
  assert (G3 : Rabs (IZR n) * Rabs (r - c + r * e2) <= Rabs (IZR n) * (c * (24 / 100000000000000000))) by (apply Rmult_le_compat_l; [lra|exact G]). nra.
Qed.
