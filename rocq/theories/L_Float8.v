(** Lemmas: texts of twelve digits and quotients of counts. *)
Require Import String ZArith QArith Qround Qabs Reals Lra Lia Bool Psatz List Qreals.
From Flocq Require Import Core.Core IEEE754.BinarySingleNaN Relative.
Require Import Verif.M_Base Verif.L_Base Verif.M_Float Verif.M_Float4 Verif.S_Float Verif.L_Float Verif.L_Float2 Verif.L_Float3 Verif.L_Float5 Verif.L_Float6 Verif.L_Float7.
Import ListNotations.
Open Scope R_scope.

Lemma qof_R : forall x, is_finite x = true -> Q2R (qof x) = B2R x.
Proof.
  intros [s|s| |s m e B] F; try discriminate F; [unfold Q2R; cbn; lra|]. cbn [qof B2R]. unfold F2R. cbn [Fnum Fexp]. unfold cond_Zopp.
  replace (if s then (- Zpos m)%Z else Zpos m) with (if s then Zneg m else Zpos m) by (now destruct s). set (z := if s then Zneg m else Zpos m). clearbody z. destruct (Z.leb_spec 0 e) as [P|P].
  - rewrite Q2R_Z, mult_IZR. f_equal. change (2 ^ e)%Z with (Zpower radix2 e). now apply IZR_Zpower.
  - unfold Q2R. cbn [Qnum Qden]. rewrite Z2Pos.id by (apply Z.pow_pos_nonneg; lia). f_equal. change (2 ^ (- e))%Z with (Zpower radix2 (- e)). rewrite IZR_Zpower by lia. rewrite bpow_opp. apply Rinv_inv.
Qed.
Lemma is_qof : forall x a, is x a -> Q2R (qof x) = a.
Proof. intros x a [F <-]. now apply qof_R. Qed.
Lemma ndigits_ok : forall fuel n, (0 < n < 10 ^ Z.of_nat fuel)%Z -> (1 <= ndigits fuel n /\ 10 ^ (ndigits fuel n - 1) <= n < 10 ^ ndigits fuel n)%Z.
Proof.
  induction fuel as [|f IH]; intros n H; [cbn in H; lia|]. cbn [ndigits]. destruct (Z.leb_spec n 0) as [L|L]; [lia|].
  destruct (Z_lt_le_dec n 10) as [S|S].
  - rewrite Z.div_small by lia. replace (ndigits f 0) with 0%Z by (destruct f; reflexivity). cbn. lia.
  - assert (D : (1 <= n / 10)%Z) by (apply Z.div_le_lower_bound; lia). rewrite Nat2Z.inj_succ, Z.pow_succ_r in H by lia.
    assert (U : (n / 10 < 10 ^ Z.of_nat f)%Z) by (apply Z.div_lt_upper_bound; lia). destruct (IH (n / 10)%Z ltac:(lia)) as [A [B C]]. set (d := ndigits f (n / 10)) in *.
    split; [lia|]. replace (1 + d - 1)%Z with (Z.succ (d - 1)) by lia. replace (1 + d)%Z with (Z.succ d) by lia. rewrite !Z.pow_succ_r by lia. pose proof (Z.div_mod n 10). pose proof (Z.mod_pos_bound n 10). lia.
Qed.
Lemma qround_near : forall q n, Rabs (Q2R q - IZR n) < 1 / 2 -> qround q = n.
Proof.
  intros q n H. unfold qround. cbv zeta. rewrite <- floor_Q. set (f := Zfloor (Q2R q)). rewrite !Qltb_R, Q2R_minus, Q2R_Z. replace (Q2R (1 # 2)) with (1 / 2) by (unfold Q2R; cbn; lra).
  assert (FB : IZR f <= Q2R q < IZR f + 1) by (split; [apply Zfloor_lb|apply Zfloor_ub]). apply Rabs_lt_inv in H.
  assert (C : (n = f \/ n = f + 1)%Z). { assert (f - 1 < n)%Z by (apply lt_IZR; rewrite minus_IZR; lra). assert (n < f + 2)%Z by (apply lt_IZR; rewrite plus_IZR; lra). lia. }
  destruct C as [->| ->]; [rewrite Rlt_bool_true by lra; reflexivity|]. rewrite plus_IZR in H. rewrite Rlt_bool_false, Rlt_bool_true by lra. reflexivity.
Qed.
Definition p10 (k : Z) : R := if (0 <=? k)%Z then IZR (10 ^ k) else / IZR (10 ^ (- k)).
(** The digits before the point of a number between 1/2000 and 2e8. *)
Lemma expo_ok : forall q, 1 / 2000 <= Rabs (Q2R q) <= 200000000 -> (-3 <= expo10 q <= 9)%Z /\ Rabs (Q2R q) * IZR (10 ^ (12 - expo10 q)) <= IZR (10 ^ 12).
Proof.
  intros q B. unfold expo10. set (n := Qfloor (Qabs q * inject_Z (10 ^ 30))).
  assert (QA : Q2R (Qabs q) = Rabs (Q2R q)).
  { destruct (Qlt_le_dec q 0) as [L|L]; [rewrite Qabs_neg by (now apply Qlt_le_weak)|rewrite Qabs_pos by exact L].
    - rewrite Q2R_opp. apply Qlt_Rlt in L. rewrite RMicromega.Q2R_0 in L. now rewrite Rabs_left.
    - apply Qle_Rle in L. rewrite RMicromega.Q2R_0 in L. now rewrite Rabs_pos_eq. }
  assert (N : n = Zfloor (Rabs (Q2R q) * IZR (10 ^ 30))) by (unfold n; rewrite <- floor_Q, Q2R_mult, Q2R_Z, QA; reflexivity).
  set (a := Rabs (Q2R q)) in *. clearbody a. pose proof (Zfloor_lb (a * IZR (10 ^ 30))) as LB. pose proof (Zfloor_ub (a * IZR (10 ^ 30))) as UB. rewrite <- N in LB, UB. clearbody n. clear N QA.
  change (10 ^ 30)%Z with 1000000000000000000000000000000%Z in *.
  assert (N1 : (10 ^ 26 < n)%Z) by (apply lt_IZR; change (10 ^ 26)%Z with 100000000000000000000000000%Z; lra).
  assert (N2 : (n <= 2 * 10 ^ 38)%Z) by (apply le_IZR; change (2 * 10 ^ 38)%Z with 200000000000000000000000000000000000000%Z; lra).
  assert (F : (n < 10 ^ Z.of_nat 400)%Z) by (eapply Z.le_lt_trans; [exact N2|]; apply Z.lt_le_trans with (10 ^ 39)%Z; [lia|apply Z.pow_le_mono_r; lia]).
  destruct (ndigits_ok 400 n) as [D1 [D2 D3]]; [lia|]. set (d := ndigits 400 n) in *. clearbody d.
  assert (K1 : (27 <= d)%Z). { apply Z.le_ngt. intro C. assert (10 ^ d <= 10 ^ 26)%Z by (apply Z.pow_le_mono_r; lia). lia. }
  assert (K2 : (d <= 39)%Z). { apply Z.le_ngt. intro C. assert (10 ^ 39 <= 10 ^ (d - 1))%Z by (apply Z.pow_le_mono_r; lia). lia. }
  split; [lia|].
  assert (E : (10 ^ d * 10 ^ (12 - (d - 30)) = 10 ^ 12 * 1000000000000000000000000000000)%Z) by (rewrite <- Z.pow_add_r by lia; replace (d + (12 - (d - 30)))%Z with 42%Z by lia; reflexivity).
  assert (A : a * 1000000000000000000000000000000 <= IZR (10 ^ d)). { apply Rle_trans with (IZR (n + 1)); [rewrite plus_IZR; lra|apply IZR_le; lia]. }
  assert (P : 0 < IZR (10 ^ (12 - (d - 30)))) by (apply IZR_lt, Z.pow_pos_nonneg; lia). apply (f_equal IZR) in E. rewrite !mult_IZR in E. nra.
Qed.
Definition units : list Q := [1 # 1; 1 # 10; 1 # 100; 1 # 1000]%Q.
Lemma unit_facts : forall sc, In sc units -> exists j, (0 <= j <= 3)%Z /\ Zpos (Qden sc) = (10 ^ j)%Z /\ Qnum sc = 1%Z /\ Q2R sc = / IZR (10 ^ j) /\ 1 / 1000 <= Q2R sc <= 1.
Proof. intros sc [<-|[<-|[<-|[<-|[]]]]]; [exists 0%Z|exists 1%Z|exists 2%Z|exists 3%Z]; (split; [lia|]); (split; [reflexivity|]); (split; [reflexivity|]); unfold Q2R; cbn; lra. Qed.
(** A reading: n units, as a double, printed with twelve digits and read again. *)
Lemma text_ok : forall sc n, In sc units -> (Z.abs n <= 10 ^ 8)%Z -> Q2R (float_of_text (qof (fdecode (fq sc) n))) = rnd (IZR n * Q2R sc) /\ exists v, is (fdecode (fq sc) n) v /\ Rabs (v - IZR n * Q2R sc) <= 3 / 10000000000000000 * Rabs (IZR n * Q2R sc).
Proof.
  intros sc n S N. destruct (unit_facts sc S) as [j [J [D [NU [QJ B]]]]].
  assert (PJ : (1 <= 10 ^ j <= 1000)%Z) by (split; [apply (Z.pow_le_mono_r 10 0); lia|apply (Z.pow_le_mono_r 10 j 3); lia]).
  destruct (decode_near sc n B ltac:(lia) ltac:(lia) ltac:(lia) ltac:(lia)) as [v [r [_ [_ [I E]]]]]. split; [|now exists v].
  assert (QV : Q2R (qof (fdecode (fq sc) n)) = v) by (now apply is_qof). set (q := qof (fdecode (fq sc) n)) in *. clearbody q. clear I r. set (a := IZR n * Q2R sc) in *.
  unfold float_of_text. destruct (Z.eq_dec n 0) as [Z0|NZ].
  - assert (A0 : a = 0) by (unfold a; rewrite Z0; lra). rewrite A0, Rminus_0_r, Rabs_R0, Rmult_0_r in E. assert (V0 : v = 0) by (apply Rabs_le_inv in E; lra).
    unfold text12. rewrite Qeqb_R, QV, V0, RMicromega.Q2R_0. rewrite Req_bool_true by reflexivity. rewrite A0. rewrite (is_qof (fq 0) (rnd (0 / 1))) by (apply (is_fq 0); cbn; lia). f_equal. lra.
  - assert (AB : 1 / 1000 <= Rabs a <= 100000000).
    { unfold a. rewrite Rabs_mult, <- abs_IZR, (Rabs_pos_eq (Q2R sc)) by lra. assert (1 <= IZR (Z.abs n) <= 100000000) by (split; apply IZR_le; lia). split; nra. }
    assert (VB : 1 / 2000 <= Rabs v <= 200000000).
    { pose proof (Rabs_triang_inv a v) as T1. pose proof (Rabs_triang_inv v a) as T2. rewrite (Rabs_minus_sym a v) in T1. lra. }
    assert (V0 : v <> 0) by (intro Z; rewrite Z, Rabs_R0 in VB; lra).
    destruct (expo_ok q) as [K G]; [now rewrite QV|]. rewrite QV in G. unfold text12. rewrite Qeqb_R, QV, RMicromega.Q2R_0. rewrite Req_bool_false by exact V0. cbv zeta. set (p := (12 - expo10 q)%Z) in *.
    assert (PB : (3 <= p <= 15)%Z) by lia. clearbody p. clear K. destruct (Z.leb_spec 0 p) as [_|?]; [|lia].
    assert (PP : (0 < 10 ^ p <= 10 ^ 15)%Z) by (split; [apply Z.pow_pos_nonneg; lia|apply Z.pow_le_mono_r; lia]).
    assert (PR : 0 < IZR (10 ^ p)) by (apply IZR_lt; lia).
    assert (W : a * IZR (10 ^ p) = IZR (n * 10 ^ (p - j))).
    { unfold a. rewrite QJ. replace p with (j + (p - j))%Z at 1 by lia. rewrite Z.pow_add_r by lia. rewrite !mult_IZR. field. apply IZR_neq. lia. }
    assert (ER : Rabs (Q2R (q * inject_Z (10 ^ p)) - IZR (n * 10 ^ (p - j))) <= 1 / 1000).
    { rewrite Q2R_mult, QV, Q2R_Z, <- W. replace (v * IZR (10 ^ p) - a * IZR (10 ^ p)) with ((v - a) * IZR (10 ^ p)) by ring. rewrite Rabs_mult, (Rabs_pos_eq (IZR (10 ^ p))) by lra.
      assert (AV : Rabs a <= 2 * Rabs v) by (pose proof (Rabs_triang_inv a v) as T1; rewrite (Rabs_minus_sym a v) in T1; lra).
      apply Rle_trans with (3 / 10000000000000000 * (2 * Rabs v) * IZR (10 ^ p)); [apply Rmult_le_compat_r; [lra|]; lra|].
      replace (3 / 10000000000000000 * (2 * Rabs v) * IZR (10 ^ p)) with (6 / 10000000000000000 * (Rabs v * IZR (10 ^ p))) by field. change (10 ^ 12)%Z with 1000000000000%Z in G. lra. }
    rewrite (qround_near _ (n * 10 ^ (p - j))) by lra.
    assert (DB : (Z.abs (n * 10 ^ (p - j)) <= 2 ^ 53)%Z).
    { apply le_IZR. rewrite abs_IZR. rewrite Q2R_mult, QV, Q2R_Z in ER. set (w := IZR (n * 10 ^ (p - j))) in *. assert (Rabs (v * IZR (10 ^ p)) <= 1000000000000) by (rewrite Rabs_mult, (Rabs_pos_eq (IZR (10 ^ p))) by lra; exact G).
      apply Rabs_le_inv in ER, H. apply Rabs_le. change (2 ^ 53)%Z with 9007199254740992%Z. lra. }
    rewrite (is_qof _ (rnd (IZR (n * 10 ^ (p - j)) / IZR (10 ^ p)))).
    + f_equal. rewrite <- W. field. lra.
    + pose proof (is_fq (n * 10 ^ (p - j) # Z.to_pos (10 ^ p))) as F. cbn [Qnum Qden] in F. rewrite Z2Pos.id in F by lia. apply F; [exact DB|]. eapply Z.le_trans; [apply PP|]. change (10 ^ 15)%Z with 1000000000000000%Z. change (2 ^ 53)%Z with 9007199254740992%Z. lia.
Qed.
Lemma rnd_small : forall a, Rabs a <= 100000000 -> Rabs (rnd a - a) <= 1 / 1000000.
Proof. intros a H. eapply Rle_trans; [apply (rnd_abs a 27); [lia|cbn; lra]|]. cbn. lra. Qed.
Lemma reading_bound : forall sc n, In sc units -> (Z.abs n <= 10 ^ 8)%Z -> Rabs (IZR n * Q2R sc) <= 100000000.
Proof.
  intros sc n S N. destruct (unit_facts sc S) as [j [_ [_ [_ [_ B]]]]]. rewrite Rabs_mult, <- abs_IZR, (Rabs_pos_eq (Q2R sc)) by lra. assert (0 <= IZR (Z.abs n) <= 100000000) by (split; apply IZR_le; lia). nra.
Qed.
(** Different readings have different texts. *)
Lemma text_inj : forall sc n m, In sc units -> (Z.abs n <= 10 ^ 8)%Z -> (Z.abs m <= 10 ^ 8)%Z ->
  (float_of_text (qof (fdecode (fq sc) n)) == float_of_text (qof (fdecode (fq sc) m)))%Q <-> n = m.
Proof.
  intros sc n m S N M. split; [|now intros ->]. intro H. apply Qeq_eqR in H. rewrite (proj1 (text_ok sc n S N)), (proj1 (text_ok sc m S M)) in H.
  pose proof (rnd_small _ (reading_bound sc n S N)) as A. pose proof (rnd_small _ (reading_bound sc m S M)) as B. apply Rabs_le_inv in A, B.
  destruct (unit_facts sc S) as [j [_ [_ [_ [_ C]]]]]. destruct (Z.lt_total n m) as [L|[L|L]]; [|exact L|]; exfalso.
  - assert (IZR n + 1 <= IZR m) by (rewrite <- plus_IZR; apply IZR_le; lia). nra.
  - assert (IZR m + 1 <= IZR n) by (rewrite <- plus_IZR; apply IZR_le; lia). nra.
Qed.
(** A reading is a whole number exactly when the units per whole divide it. *)
Lemma text_whole : forall sc n, In sc units -> (Z.abs n <= 10 ^ 8)%Z ->
  (exists z, float_of_text (qof (fdecode (fq sc) n)) == inject_Z z)%Q <-> (Zpos (Qden sc) | n)%Z.
Proof.
  intros sc n S N. destruct (unit_facts sc S) as [j [J [D [_ [QJ C]]]]]. pose proof (reading_bound sc n S N) as RB. pose proof (rnd_small _ RB) as A.
  assert (PJ : (1 <= 10 ^ j <= 1000)%Z) by (split; [apply (Z.pow_le_mono_r 10 0); lia|apply (Z.pow_le_mono_r 10 j 3); lia]). rewrite D.
  assert (PR : 1 <= IZR (10 ^ j) <= 1000) by (split; apply IZR_le; lia). split.
  - intros [z H]. apply Qeq_eqR in H. rewrite (proj1 (text_ok sc n S N)), Q2R_Z in H. rewrite H in A. apply Rabs_le_inv in A. exists z. rewrite QJ in A.
    assert (X : Rabs (IZR z * IZR (10 ^ j) - IZR n) <= 1 / 1000).
    { replace (IZR z * IZR (10 ^ j) - IZR n) with ((IZR z - IZR n * / IZR (10 ^ j)) * IZR (10 ^ j)) by (field; lra). rewrite Rabs_mult, (Rabs_pos_eq (IZR (10 ^ j))) by lra.
      apply Rle_trans with (1 / 1000000 * 1000); [|lra]. apply Rmult_le_compat; try apply Rabs_pos; [lra|apply Rabs_le; lra|lra]. }
    rewrite <- mult_IZR, <- minus_IZR, <- abs_IZR in X. assert (Z.abs (z * 10 ^ j - n) < 1)%Z by (apply lt_IZR; lra). lia.
  - intros [z ->]. exists z. apply eqR_Qeq. rewrite (proj1 (text_ok sc _ S N)), Q2R_Z, QJ, mult_IZR. replace (IZR z * IZR (10 ^ j) * / IZR (10 ^ j)) with (IZR z) by (field; lra). apply rnd_id, dbl_Z.
    apply Z.le_trans with (10 ^ 8)%Z; [|lia]. rewrite Z.abs_mul in N. nia.
Qed.
(** Equal floats, equal readings. *)
Lemma decode_inj : forall sc n m, In sc units -> (Z.abs n <= 10 ^ 8)%Z -> (Z.abs m <= 10 ^ 8)%Z -> feq (fdecode (fq sc) n) (fdecode (fq sc) m) = (n =? m)%Z.
Proof.
  intros sc n m S N M. destruct (text_ok sc n S N) as [_ [v [I A]]]. destruct (text_ok sc m S M) as [_ [w [J B]]].
  destruct (Z.eqb_spec n m) as [->|NE].
  - rewrite (feq_is _ _ _ _ J J). now apply Req_bool_true.
  - rewrite (feq_is _ _ _ _ I J). apply Req_bool_false. intro E. subst w.
    assert (A' : Rabs (v - IZR n * Q2R sc) <= 1 / 10000) by (eapply Rle_trans; [exact A|]; pose proof (reading_bound sc n S N); lra).
    assert (B' : Rabs (v - IZR m * Q2R sc) <= 1 / 10000) by (eapply Rle_trans; [exact B|]; pose proof (reading_bound sc m S M); lra). apply Rabs_le_inv in A', B'.
    destruct (unit_facts sc S) as [j [_ [_ [_ [_ C]]]]]. destruct (Z.lt_total n m) as [L|[L|L]]; [|contradiction|].
    + assert (IZR n + 1 <= IZR m) by (rewrite <- plus_IZR; apply IZR_le; lia). nra.
    + assert (IZR m + 1 <= IZR n) by (rewrite <- plus_IZR; apply IZR_le; lia). nra.
Qed.
(** Quotients of counts against a decimal threshold. *)
Lemma share_ok : forall c n p q, (0 <= c <= n)%Z -> (1 <= n <= 10 ^ 6)%Z -> (0 <= p <= Zpos q)%Z -> (Zpos q <= 10 ^ 6)%Z ->
  share_above c n (fq (p # q)) = (p * n <? c * Zpos q)%Z /\ share_reaches c n (fq (p # q)) = (p * n <=? c * Zpos q)%Z.
Proof.
  intros c n p q C N P Q. assert (NR : 1 <= IZR n <= 1000000) by (split; apply IZR_le; lia). assert (QR : 1 <= IZR (Zpos q) <= 1000000) by (split; apply IZR_le; lia).
  assert (CR : 0 <= IZR c <= IZR n) by (split; apply IZR_le; lia). assert (PR : 0 <= IZR p <= IZR (Zpos q)) by (split; apply IZR_le; lia).
  set (a := IZR c / IZR n). set (b := IZR p / IZR (Zpos q)).
  assert (A : 0 <= a <= 1). { unfold a. split; [apply Rmult_le_pos; [lra|apply Rlt_le, Rinv_0_lt_compat; lra]|]. apply (Rmult_le_reg_r (IZR n)); [lra|]. unfold Rdiv. rewrite Rmult_assoc, Rinv_l; lra. }
  assert (B : 0 <= b <= 1). { unfold b. split; [apply Rmult_le_pos; [lra|apply Rlt_le, Rinv_0_lt_compat; lra]|]. apply (Rmult_le_reg_r (IZR (Zpos q))); [lra|]. unfold Rdiv. rewrite Rmult_assoc, Rinv_l; lra. }
  assert (I : is (fdiv (fz c) (fz n)) (rnd a)) by (apply is_div; [apply is_fz; lia|apply is_fz; lia|lra|fold a; inbig]).
  assert (J : is (fq (p # q)) (rnd b)) by (apply (is_fq (p # q)); cbn [Qnum Qden]; lia).
  pose proof (rnd_abs a 0 ltac:(lia) ltac:(cbn; apply Rabs_le; lra)) as EA. pose proof (rnd_abs b 0 ltac:(lia) ltac:(cbn; apply Rabs_le; lra)) as EB. cbn in EA, EB. apply Rabs_le_inv in EA, EB.
  assert (X : a * (IZR n * IZR (Zpos q)) = IZR (c * Zpos q)) by (unfold a; rewrite mult_IZR; field; lra).
  assert (Y : b * (IZR n * IZR (Zpos q)) = IZR (p * n)) by (unfold b; rewrite mult_IZR; field; lra).
  assert (T : 1 <= IZR n * IZR (Zpos q) <= 1000000000000) by nra. set (t := IZR n * IZR (Zpos q)) in *. clearbody t.
  assert (L : forall x y k l, x * t = IZR k -> y * t = IZR l -> (k < l)%Z -> x + 1 / 1000000000000 <= y).
  { intros x y k l XX YY KL. assert (IZR k + 1 <= IZR l) by (rewrite <- plus_IZR; apply IZR_le; lia). apply (Rmult_le_reg_r t); [lra|]. assert (1 / 1000000000000 * t <= 1) by lra. lra. }
  unfold share_above, share_reaches. rewrite (flt_is _ _ _ _ J I), (fle_is _ _ _ _ J I). destruct (Z.lt_total (p * n) (c * Zpos q)) as [H|[H|H]].
  - pose proof (L _ _ _ _ Y X H). rewrite Rlt_bool_true, Rle_bool_true by lra. split; symmetry; [apply Z.ltb_lt|apply Z.leb_le]; lia.
  - assert (E : a = b). { apply (Rmult_eq_reg_r t); [|lra]. rewrite X, Y. now rewrite H. } rewrite E. rewrite Rlt_bool_false, Rle_bool_true by lra. split; symmetry; [apply Z.ltb_ge|apply Z.leb_le]; lia.
  - pose proof (L _ _ _ _ X Y H). rewrite Rlt_bool_false, Rle_bool_false by lra. split; symmetry; [apply Z.ltb_ge|apply Z.leb_gt]; lia.
Qed.

(** The text has twelve significant digits and is nearest to the number. *)
Definition r10 : radix := Build_radix 10 eq_refl.
Lemma r10_pow : forall k, (0 <= k)%Z -> IZR (10 ^ k) = bpow r10 k.
Proof. intros k K. change (10 ^ k)%Z with (Zpower r10 k). now apply IZR_Zpower. Qed.
Lemma qround_half : forall q, Rabs (IZR (qround q) - Q2R q) <= 1 / 2.
Proof.
  intro q. unfold qround. cbv zeta. rewrite <- floor_Q. set (f := Zfloor (Q2R q)). rewrite !Qltb_R, Q2R_minus, Q2R_Z. replace (Q2R (1 # 2)) with (1 / 2) by (unfold Q2R; cbn; lra).
  assert (FB : IZR f <= Q2R q < IZR f + 1) by (split; [apply Zfloor_lb|apply Zfloor_ub]). apply Rabs_le.
  destruct (Rlt_bool_spec (Q2R q - IZR f) (1 / 2)); [lra|]. destruct (Rlt_bool_spec (1 / 2) (Q2R q - IZR f)); [rewrite plus_IZR; lra|]. destruct (Z.even f); [lra|rewrite plus_IZR; lra].
Qed.
Lemma Q2R_abs : forall q, Q2R (Qabs q) = Rabs (Q2R q).
Proof.
  intro q. destruct (Qlt_le_dec q 0) as [L|L]; [rewrite Qabs_neg by (now apply Qlt_le_weak)|rewrite Qabs_pos by exact L].
  - rewrite Q2R_opp. apply Qlt_Rlt in L. rewrite RMicromega.Q2R_0 in L. now rewrite Rabs_left.
  - apply Qle_Rle in L. rewrite RMicromega.Q2R_0 in L. now rewrite Rabs_pos_eq.
Qed.
Lemma expo_exact : forall q, bpow r10 (-30) <= Rabs (Q2R q) < bpow r10 370 -> bpow r10 (expo10 q - 1) <= Rabs (Q2R q) < bpow r10 (expo10 q).
Proof.
  intros q B. unfold expo10. set (n := Qfloor (Qabs q * inject_Z (10 ^ 30))).
  assert (N : n = Zfloor (Rabs (Q2R q) * bpow r10 30)) by (unfold n; rewrite <- floor_Q, Q2R_mult, Q2R_Z, Q2R_abs, r10_pow by lia; reflexivity).
  set (a := Rabs (Q2R q)) in *. clearbody a. pose proof (Zfloor_lb (a * bpow r10 30)) as LB. pose proof (Zfloor_ub (a * bpow r10 30)) as UB. rewrite <- N in LB, UB. clearbody n. clear q.
  pose proof (bpow_gt_0 r10 30) as P30.
  assert (N1 : (1 <= n)%Z). { rewrite N. apply Zfloor_lub. apply Rle_trans with (bpow r10 (-30) * bpow r10 30); [rewrite <- bpow_plus; change (bpow r10 (-30 + 30)) with 1; lra|]. apply Rmult_le_compat_r; lra. }
  assert (F : (n < 10 ^ Z.of_nat 400)%Z).
  { apply lt_IZR. rewrite r10_pow by lia. change (Z.of_nat 400) with (370 + 30)%Z. rewrite bpow_plus. apply Rle_lt_trans with (a * bpow r10 30); [exact LB|]. apply Rmult_lt_compat_r; lra. }
  clear N. destruct (ndigits_ok 400 n) as [D1 [D2 D3]]; [lia|]. set (d := ndigits 400 n) in *. clearbody d.
  apply IZR_le in D2. rewrite r10_pow in D2 by lia. assert (D4 : (n + 1 <= 10 ^ d)%Z) by lia. apply IZR_le in D4. rewrite r10_pow, plus_IZR in D4 by lia.
  split.
  - apply Rmult_le_reg_r with (bpow r10 30); [exact P30|]. rewrite <- bpow_plus. replace (d - 30 - 1 + 30)%Z with (d - 1)%Z by lia. lra.
  - apply Rmult_lt_reg_r with (bpow r10 30); [exact P30|]. rewrite <- bpow_plus. replace (d - 30 + 30)%Z with d by lia. lra.
Qed.
Lemma text_digits : forall q, bpow r10 (-30) <= Rabs (Q2R q) < bpow r10 370 -> exists k d, bpow r10 (k + 11) <= Rabs (Q2R q) < bpow r10 (k + 12) /\
  Q2R (text12 q) = IZR d * bpow r10 k /\ Rabs (Q2R (text12 q) - Q2R q) <= bpow r10 k / 2.
Proof.
  intros q B. pose proof (expo_exact q B) as E. assert (NZ : Q2R q <> 0). { intro Z0. rewrite Z0, Rabs_R0 in B. pose proof (bpow_gt_0 r10 (-30)). lra. }
  unfold text12. rewrite Qeqb_R, RMicromega.Q2R_0, Req_bool_false by exact NZ. cbv zeta. set (p := (12 - expo10 q)%Z).
  assert (G : forall x, Q2R x = Q2R q * bpow r10 p -> Rabs (IZR (qround x) * bpow r10 (- p) - Q2R q) <= bpow r10 (- p) / 2).
  { intros x X. pose proof (qround_half x) as H. rewrite X in H. pose proof (bpow_gt_0 r10 (- p)) as PP.
    assert (I1 : bpow r10 p * bpow r10 (- p) = 1) by (rewrite <- bpow_plus; replace (p + - p)%Z with 0%Z by lia; reflexivity).
    replace (IZR (qround x) * bpow r10 (- p) - Q2R q) with ((IZR (qround x) - Q2R q * bpow r10 p) * bpow r10 (- p)) by (replace (Q2R q) with (Q2R q * (bpow r10 p * bpow r10 (- p))) at 2 by (rewrite I1; ring); ring).
    rewrite Rabs_mult, (Rabs_pos_eq (bpow r10 (- p))) by lra. unfold Rdiv. rewrite (Rmult_comm (bpow r10 (- p))). apply Rmult_le_compat_r; lra. }
  exists (- p)%Z. destruct (Z.leb_spec 0 p) as [P|P].
  - exists (qround (q * inject_Z (10 ^ p))). assert (T : Q2R (qround (q * inject_Z (10 ^ p)) # Z.to_pos (10 ^ p)) = IZR (qround (q * inject_Z (10 ^ p))) * bpow r10 (- p)).
    { unfold Q2R at 1. cbn [Qnum Qden]. rewrite Z2Pos.id by (apply Z.pow_pos_nonneg; lia). now rewrite r10_pow, bpow_opp. }
    split; [unfold p; replace (- (12 - expo10 q) + 11)%Z with (expo10 q - 1)%Z by lia; replace (- (12 - expo10 q) + 12)%Z with (expo10 q) by lia; exact E|]. split; [exact T|]. rewrite T. apply G. now rewrite Q2R_mult, Q2R_Z, r10_pow.
  - exists (qround (q / inject_Z (10 ^ (- p)))). assert (T : Q2R (inject_Z (qround (q / inject_Z (10 ^ (- p))) * 10 ^ (- p))) = IZR (qround (q / inject_Z (10 ^ (- p)))) * bpow r10 (- p)).
    { rewrite Q2R_Z, mult_IZR. now rewrite (r10_pow (- p)) by lia. }
    split; [unfold p; replace (- (12 - expo10 q) + 11)%Z with (expo10 q - 1)%Z by lia; replace (- (12 - expo10 q) + 12)%Z with (expo10 q) by lia; exact E|]. split; [exact T|]. rewrite T. apply G.
    assert (PZ : (0 < 10 ^ (- p))%Z) by (apply Z.pow_pos_nonneg; lia). rewrite Q2R_div, Q2R_Z by (intro Q0; unfold Qeq in Q0; cbn [inject_Z Qnum Qden] in Q0; lia). rewrite r10_pow by lia. unfold Rdiv. rewrite <- bpow_opp. now rewrite Z.opp_involutive.
Qed.
