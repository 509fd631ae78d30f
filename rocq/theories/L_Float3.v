(** Lemmas: the other grid indices in double precision. *)
Require Import ZArith QArith Reals Lra Lia Bool Psatz.
From Flocq Require Import Core.Core IEEE754.BinarySingleNaN Relative.
Require Import Verif.M_Base Verif.M_Grid Verif.M_Float Verif.S_Float Verif.L_Float Verif.L_Float2.
Open Scope R_scope.

Ltac near a k := let X := fresh "NR" in pose proof (rnd_abs a k ltac:(lia)) as X; specialize (X ltac:(apply Rabs_le; cbn; split; lra)); apply Rabs_le_inv in X; cbn in X.

Lemma row1_ok : forall x a, is x a -> -90 <= a <= 90 -> exists k, flat_to_yindex1 x = Ok k /\ (0 <= k <= 179)%Z /\ in_row 1 k a (bpow radix2 (-46)).
Proof.
  intros x a I B. assert (U : is (fsub (fz 90) x) (rnd (90 - a))) by (apply is_sub; [apply is_fz; lia|exact I|inbig]).
  assert (U1 : 0 <= rnd (90 - a) <= 180) by (split; [apply rnd_ge; [apply (dbl_Z 0); lia|lra]|apply rnd_le'; [apply (dbl_Z 180); lia|lra]]).
  near (90 - a) 8%Z. destruct (trunc_pos _ (proj1 U1)) as [T T0]. unfold flat_to_yindex1. rewrite (fint_is _ _ U). cbn [bind]. set (t := Ztrunc _) in *.
  assert (T1 : (t <= 180)%Z) by (apply le_IZR; lra). unfold in_row. destruct (Z.leb_spec 180 t) as [L|L].
  - assert (t = 180)%Z by lia. exists 179%Z. split; [reflexivity|]. split; [lia|]. subst t. rewrite H in T. cbn. lra.
  - destruct (Z.ltb_spec t 0); [lia|]. exists t. split; [reflexivity|]. split; [lia|]. rewrite plus_IZR. cbn. lra.
Qed.

Lemma near_N : forall r N m, (1 <= m <= 360)%Z -> 1 / 100 <= r <= 360 -> rnd (IZR m / r) = IZR N -> Rabs (IZR N * r - IZR m) <= 361 * bpow radix2 (-53).
Proof.
  intros r N m M R E. rewrite <- E. eapply Rle_trans; [apply rnd_div; lra|]. assert (1 <= IZR m <= 360) by (split; apply IZR_le; lia). rewrite Rabs_pos_eq by lra.
  assert (bpow radix2 (-1075) <= bpow radix2 (-80)) by (apply bpow_le; lia). set (u := bpow radix2 (-1075)) in *. assert (0 <= u) by apply bpow_ge_0. cbn in *. nra.
Qed.
Lemma near_q : forall u r, 0 <= u <= 360 -> 1 / 100 <= r <= 360 -> Rabs (rnd (u / r) * r - u) <= 361 * bpow radix2 (-53).
Proof.
  intros u r U R. eapply Rle_trans; [apply rnd_div; lra|]. rewrite Rabs_pos_eq by lra.
  assert (bpow radix2 (-1075) <= bpow radix2 (-80)) by (apply bpow_le; lia). set (v := bpow radix2 (-1075)) in *. assert (0 <= v) by apply bpow_ge_0. cbn in *. nra.
Qed.
Lemma quot_bound : forall u r, 0 <= u <= 360 -> 1 / 100 <= r -> 0 <= u / r <= 36000.
Proof.
  intros u r U R. split; [apply Rmult_le_pos; [lra|apply Rlt_le, Rinv_0_lt_compat; lra]|]. apply Rmult_le_reg_r with r; [lra|]. unfold Rdiv. rewrite Rmult_assoc, Rinv_l by lra. lra.
Qed.
Lemma is_quot : forall x rs u r, is x u -> is rs r -> 0 <= u <= 360 -> 1 / 100 <= r -> is (fdiv x rs) (rnd (u / r)).
Proof. intros. pose proof (quot_bound u r). apply is_div; [assumption|assumption|lra|inbig]. Qed.

Lemma row_ok : forall rs r N, is rs r -> 1 / 100 <= r <= 180 -> (1 <= N)%Z -> is (fdiv (fz 180) rs) (IZR N) ->
  forall x a, is x a -> -90 <= a <= 90 -> exists k, flat_to_yindex x rs = Ok k /\ (0 <= k <= N - 1)%Z /\ in_row r k a (bpow radix2 (-44)).
Proof.
  intros rs r N IR RB NP DN x a I B.
  assert (E : rnd (180 / r) = IZR N) by (destruct DN as [_ <-]; destruct (is_quot (fz 180) rs 180 r (is_fz 180 ltac:(lia)) IR ltac:(lra) ltac:(lra)) as [_ <-]; reflexivity).
  assert (NB : (N <= 40000)%Z) by (apply le_IZR; rewrite <- E; apply rnd_le'; [apply (dbl_Z 40000); lia|]; pose proof (quot_bound 180 r); lra).
  pose proof (near_N r N 180 ltac:(lia) ltac:(lra) E) as NN. apply Rabs_le_inv in NN.
  assert (U : is (fsub (fz 90) x) (rnd (90 - a))) by (apply is_sub; [apply is_fz; lia|exact I|inbig]).
  assert (U1 : 0 <= rnd (90 - a) <= 180) by (split; [apply rnd_ge; [apply (dbl_Z 0); lia|lra]|apply rnd_le'; [apply (dbl_Z 180); lia|lra]]).
  near (90 - a) 8%Z. set (u := rnd (90 - a)) in *.
  assert (Q : is (fdiv (fsub (fz 90) x) rs) (rnd (u / r))) by (apply is_quot; [exact U|exact IR|lra|lra]).
  pose proof (near_q u r ltac:(lra) ltac:(lra)) as NQ. apply Rabs_le_inv in NQ.
  assert (Q1 : 0 <= rnd (u / r) <= IZR N).
  { split; [apply rnd_ge; [apply (dbl_Z 0); lia|]; apply (quot_bound u r); lra|]. rewrite <- E. apply rnd_le. apply Rmult_le_compat_r; [apply Rlt_le, Rinv_0_lt_compat; lra|lra]. }
  set (q := rnd (u / r)) in *. destruct (trunc_pos q (proj1 Q1)) as [T T0]. unfold flat_to_yindex. rewrite (fint_is _ _ Q). cbn [bind]. set (t := Ztrunc q) in *.
  assert (T1 : (t <= N)%Z) by (apply le_IZR; lra). rewrite (fle_is _ _ _ _ DN (is_fz t ltac:(lia))). unfold in_row. cbn in *. case Rle_bool_spec; intros L.
  - apply le_IZR in L. assert (TN : t = N) by lia. rewrite (fint_Z _ (N - 1)) by (apply is_minus; [exact DN|apply is_one|lia]). cbn [bind].
    destruct (Z.ltb_spec (N - 1) 0); [lia|]. exists (N - 1)%Z. split; [reflexivity|]. split; [lia|]. replace (N - 1 + 1)%Z with N by ring. rewrite minus_IZR.
    rewrite TN in T. assert (IZR N * r <= q * r) by (apply Rmult_le_compat_r; lra). split; lra.
  - apply lt_IZR in L. cbn [bind]. destruct (Z.ltb_spec t 0); [lia|]. exists t. split; [reflexivity|]. split; [lia|]. rewrite plus_IZR.
    assert (IZR t * r <= q * r) by (apply Rmult_le_compat_r; lra). assert (q * r <= (IZR t + 1) * r) by (apply Rmult_le_compat_r; lra). split; lra.
Qed.

Lemma inlon_ok : forall x a, is x a -> -540 <= a <= 540 -> exists b, is (finlon x) b /\ -180 <= b <= 180 /\ exists t : Z, Rabs (b + 360 * IZR t - a) <= bpow radix2 (-44).
Proof.
  intros x a I B. unfold finlon. rewrite (fle_is _ _ _ _ (is_fz 180 ltac:(lia)) I). case Rle_bool_spec; intros L.
  - assert (S1 : is (fsub x (fz 180)) (rnd (a - 180))) by (apply is_sub; [exact I|apply is_fz; lia|inbig]).
    assert (S2 : 0 <= rnd (a - 180) <= 360) by (split; [apply rnd_ge; [apply (dbl_Z 0); lia|lra]|apply rnd_le'; [apply (dbl_Z 360); lia|lra]]).
    near (a - 180) 9%Z. set (s := rnd (a - 180)) in *. assert (S3 : is (fadd (fz (-180)) (fsub x (fz 180))) (rnd (-180 + s))) by (apply is_add; [apply is_fz; lia|exact S1|inbig]).
    assert (S4 : -180 <= rnd (-180 + s) <= 180) by (split; [apply rnd_ge; [apply (dbl_Z (-180)); lia|lra]|apply rnd_le'; [apply (dbl_Z 180); lia|lra]]).
    near (-180 + s) 8%Z. cbv zeta. rewrite (flt_is _ _ _ _ S3 (is_fz (-180) ltac:(lia))), Rlt_bool_false by lra. exists (rnd (-180 + s)). split; [exact S3|]. split; [lra|]. exists 1%Z. apply Rabs_le. cbn. split; lra.
  - cbv zeta. rewrite (flt_is _ _ _ _ I (is_fz (-180) ltac:(lia))). destruct (Rlt_bool_spec a (-180)) as [M|M].
    + assert (S1 : is (fadd x (fz 360)) (rnd (a + 360))) by (apply is_add; [exact I|apply is_fz; lia|inbig]).
      assert (S2 : -180 <= rnd (a + 360) <= 180) by (split; [apply rnd_ge; [apply (dbl_Z (-180)); lia|lra]|apply rnd_le'; [apply (dbl_Z 180); lia|lra]]).
      near (a + 360) 8%Z. exists (rnd (a + 360)). split; [exact S1|]. split; [exact S2|]. exists (-1)%Z. apply Rabs_le. cbn. split; lra.
    + exists a. split; [exact I|]. split; [lra|]. exists 0%Z. replace (a + 360 * 0 - a) with 0 by ring. rewrite Rabs_R0. apply bpow_ge_0.
Qed.

Lemma globe : forall w k a b e, (exists t : Z, Rabs (b + 360 * IZR t - a) <= bpow radix2 (-44)) -> in_column w k b e \/ in_column w k (b - 360) e -> round_the_globe w k a (e + bpow radix2 (-44)).
Proof.
  intros w k a b e [t C] [D|D]; apply Rabs_le_inv in C; unfold round_the_globe, in_column in *; [exists (- t)%Z; rewrite opp_IZR|exists (- t - 1)%Z; rewrite minus_IZR, opp_IZR]; split; lra.
Qed.

Lemma column1_ok : forall x a, is x a -> -540 <= a <= 540 -> exists k, flon_to_xindex1 x = Ok k /\ (0 <= k <= 359)%Z /\ round_the_globe 1 k a (bpow radix2 (-43)).
Proof.
  intros x a I B. destruct (inlon_ok x a I B) as [b [J [BB C]]].
  assert (U : is (fadd (finlon x) (fz 180)) (rnd (b + 180))) by (apply is_add; [exact J|apply is_fz; lia|inbig]).
  assert (U1 : 0 <= rnd (b + 180) <= 360) by (split; [apply rnd_ge; [apply (dbl_Z 0); lia|lra]|apply rnd_le'; [apply (dbl_Z 360); lia|lra]]).
  near (b + 180) 9%Z. destruct (trunc_pos _ (proj1 U1)) as [T T0]. unfold flon_to_xindex1. rewrite (fint_is _ _ U). cbn [bind]. set (t := Ztrunc _) in *.
  assert (T1 : (t <= 360)%Z) by (apply le_IZR; lra). replace (bpow radix2 (-43)) with (bpow radix2 (-44) + bpow radix2 (-44)) by (cbn; lra).
  destruct (Z.eq_dec t 360) as [E|E].
  - exists 0%Z. rewrite E in T |- *. split; [reflexivity|]. split; [lia|]. apply globe with b; [exact C|]. right. unfold in_column. cbn. lra.
  - exists t. split; [|split; [lia|]].
    + destruct (Z.to_nat t); unfold fwrap1; (destruct (Z.leb_spec 360 t); [lia|reflexivity]).
    + apply globe with b; [exact C|]. left. unfold in_column. rewrite plus_IZR. cbn. lra.
Qed.
Lemma column_ok : forall rs r N, is rs r -> 1 / 100 <= r <= 360 -> (1 <= N)%Z -> is (fdiv (fz 360) rs) (IZR N) ->
  forall x a, is x a -> -540 <= a <= 540 -> exists k, flon_to_xindex x rs = Ok k /\ (0 <= k <= N - 1)%Z /\ round_the_globe r k a (bpow radix2 (-42)).
Proof.
  intros rs r N IR RB NP DN x a I B. destruct (inlon_ok x a I B) as [b [J [BB C]]].
  assert (E : rnd (360 / r) = IZR N) by (destruct DN as [_ <-]; destruct (is_quot (fz 360) rs 360 r (is_fz 360 ltac:(lia)) IR ltac:(lra) ltac:(lra)) as [_ <-]; reflexivity).
  assert (NB : (N <= 40000)%Z) by (apply le_IZR; rewrite <- E; apply rnd_le'; [apply (dbl_Z 40000); lia|]; pose proof (quot_bound 360 r); lra).
  pose proof (near_N r N 360 ltac:(lia) ltac:(lra) E) as NN. apply Rabs_le_inv in NN.
  assert (U : is (fadd (finlon x) (fz 180)) (rnd (b + 180))) by (apply is_add; [exact J|apply is_fz; lia|inbig]).
  assert (U1 : 0 <= rnd (b + 180) <= 360) by (split; [apply rnd_ge; [apply (dbl_Z 0); lia|lra]|apply rnd_le'; [apply (dbl_Z 360); lia|lra]]).
  near (b + 180) 9%Z. set (u := rnd (b + 180)) in *.
  assert (Q : is (fdiv (fadd (finlon x) (fz 180)) rs) (rnd (u / r))) by (apply is_quot; [exact U|exact IR|lra|lra]).
  pose proof (near_q u r ltac:(lra) ltac:(lra)) as NQ. apply Rabs_le_inv in NQ.
  assert (Q1 : 0 <= rnd (u / r) <= IZR N).
  { split; [apply rnd_ge; [apply (dbl_Z 0); lia|]; apply (quot_bound u r); lra|]. rewrite <- E. apply rnd_le. apply Rmult_le_compat_r; [apply Rlt_le, Rinv_0_lt_compat; lra|lra]. }
  set (q := rnd (u / r)) in *. destruct (trunc_pos q (proj1 Q1)) as [T T0]. unfold flon_to_xindex. rewrite (fint_is _ _ Q). cbn [bind]. set (t := Ztrunc q) in *.
  assert (T1 : (t <= N)%Z) by (apply le_IZR; lra). pose proof (is_fz t ltac:(lia)) as FT.
  assert (X : forall e, e <= bpow radix2 (-43) -> round_the_globe r t a (e + bpow radix2 (-44)) -> round_the_globe r t a (bpow radix2 (-42))).
  { intros e EE [n [G1 G2]]. exists n. unfold in_column. cbn in EE, G1, G2. cbn. lra. }
  destruct (Z.eq_dec t N) as [TN|TN].
  - assert (W : exists n, Z.to_nat t = S n) by (exists (Nat.pred (Z.to_nat t)); lia). destruct W as [n W]. exists 0%Z. split; [|split; [lia|]].
    + rewrite W. cbn [fwrap]. rewrite (fle_is _ _ _ _ DN FT), Rle_bool_true by (rewrite TN; lra).
      pose proof (is_minus _ _ _ _ FT DN ltac:(lia)) as Z0. rewrite TN, Z.sub_diag in Z0. rewrite TN.
      assert (F : fle (fdiv (fz 360) rs) (fsub (fz N) (fdiv (fz 360) rs)) = false) by (rewrite (fle_is _ _ _ _ DN Z0); apply Rle_bool_false, IZR_lt; lia).
      destruct n; cbn [fwrap]; rewrite F; now apply fint_Z.
    + assert (G : round_the_globe r 0 a (bpow radix2 (-43) + bpow radix2 (-44))).
      { apply globe with b; [exact C|]. right. rewrite TN in T. assert (IZR N * r <= q * r) by (apply Rmult_le_compat_r; lra). unfold in_column. cbn in *. split; lra. }
      destruct G as [n0 [G1 G2]]. exists n0. unfold in_column. cbn in G1, G2. cbn. lra.
  - exists t. split; [|split; [lia|]].
    + assert (F : fle (fdiv (fz 360) rs) (fz t) = false) by (rewrite (fle_is _ _ _ _ DN FT); apply Rle_bool_false, IZR_lt; lia).
      destruct (Z.to_nat t); cbn [fwrap]; rewrite F; now apply fint_Z.
    + apply (X (bpow radix2 (-43))); [lra|]. apply globe with b; [exact C|]. left. assert (IZR t * r <= q * r) by (apply Rmult_le_compat_r; lra). assert (q * r <= (IZR t + 1) * r) by (apply Rmult_le_compat_r; lra).
      unfold in_column. rewrite plus_IZR. cbn in *. split; lra.
Qed.

Lemma rnd_double : forall x, 1 <= x -> rnd (x * 2) = rnd x * 2.
Proof.
  intros x H. assert (MG : (1 <= mag radix2 x)%Z) by (apply mag_ge_bpow; rewrite Rabs_pos_eq by lra; cbn; lra).
  assert (C : cexp radix2 (FLT_exp (-1074) 53) (x * 2) = (cexp radix2 (FLT_exp (-1074) 53) x + 1)%Z).
  { unfold cexp. change (x * 2) with (x * bpow radix2 1). rewrite mag_mult_bpow by lra. unfold FLT_exp. rewrite !Z.max_l by lia. ring. }
  unfold rnd, round, scaled_mantissa. rewrite C. unfold F2R. cbn [Fnum Fexp]. rewrite (bpow_plus _ _ 1). change (bpow radix2 1) with 2. rewrite <- Rmult_assoc. f_equal. f_equal. f_equal. f_equal.
  rewrite Z.opp_add_distr, bpow_plus. change (bpow radix2 (- (1))) with (/ 2). field.
Qed.
(** Rows and columns of a climatology with ny rows, whose res is 180. / ny. *)
Lemma res_ok : forall ny, (1 <= ny <= 10000)%Z -> faithful ny -> exists r, is (fdiv (fz 180) (fz ny)) r /\ 1 / 100 <= r <= 180 /\ Rabs (r - 180 / IZR ny) <= bpow radix2 (-46) /\
  is (fdiv (fz 180) (fdiv (fz 180) (fz ny))) (IZR ny) /\ is (fdiv (fz 360) (fdiv (fz 180) (fz ny))) (IZR (2 * ny)).
Proof.
  intros ny B F. assert (P : 1 <= IZR ny <= 10000) by (split; apply IZR_le; lia).
  assert (QB : 18 / 1000 <= 180 / IZR ny <= 180).
  { assert (X : 180 / IZR ny * IZR ny = 180) by (field; lra). split; apply Rmult_le_reg_r with (IZR ny); try rewrite X; nra. }
  assert (R : is (fdiv (fz 180) (fz ny)) (rnd (180 / IZR ny))) by (apply is_div; [apply is_fz; lia|apply is_fz; lia|lra|inbig]).
  near (180 / IZR ny) 8%Z. assert (U : rnd (180 / IZR ny) <= 180) by (apply rnd_le'; [apply (dbl_Z 180); lia|lra]). set (r := rnd (180 / IZR ny)) in *. exists r.
  assert (RB : 1 / 100 <= r <= 180) by (split; lra). split; [exact R|]. split; [exact RB|]. split; [apply Rabs_le; cbn; lra|].
  pose proof (is_quot _ _ 180 r (is_fz 180 ltac:(lia)) R ltac:(lra) ltac:(lra)) as D. pose proof (is_quot _ _ 360 r (is_fz 360 ltac:(lia)) R ltac:(lra) ltac:(lra)) as D2.
  unfold faithful in F. rewrite (feq_is _ _ _ _ D (is_fz ny ltac:(lia))) in F. destruct (Req_bool_spec (rnd (180 / r)) (IZR ny)) as [E|E]; [|discriminate]. split; [now rewrite <- E|].
  replace (IZR (2 * ny)) with (rnd (360 / r)); [exact D2|]. rewrite mult_IZR, <- E. replace (360 / r) with (180 / r * 2) by (field; lra). rewrite rnd_double; [ring|]. apply Rmult_le_reg_r with r; [lra|]. unfold Rdiv. rewrite Rmult_assoc, Rinv_l by lra. lra.
Qed.
(** Exact agreement of the MDS functions with res = 1. *)
Lemma trunc_Q : forall q, Ztrunc (Q2R q) = py_int q.
Proof.
  assert (FL : forall q, Zfloor (Q2R q) = Qround.Qfloor q).
  { intros q. apply Zfloor_imp. pose proof (Qround.Qfloor_le q) as A. pose proof (Qround.Qlt_floor q) as B. apply Qreals.Qle_Rle in A. apply Qreals.Qlt_Rlt in B.
    unfold Q2R in A at 1. unfold Q2R in B at 2. cbn in A, B. lra. }
  intros q. unfold py_int. destruct (Qle_bool 0 q) eqn:E.
  - apply Qle_bool_iff, Qreals.Qle_Rle in E. rewrite RMicromega.Q2R_0 in E. rewrite Ztrunc_floor by exact E. apply FL.
  - assert (N : Q2R q < 0). { apply Rnot_le_lt. intros K. rewrite <- RMicromega.Q2R_0 in K. apply Qreals.Rle_Qle, Qle_bool_iff in K. congruence. }
    rewrite Ztrunc_ceil by lra. unfold Zceil. now rewrite <- Qreals.Q2R_opp, FL.
Qed.
Lemma Q2R_Z : forall n, Q2R (inject_Z n) = IZR n.
Proof. intros n. unfold Q2R. cbn. lra. Qed.
Lemma py_int_R : forall q n, Q2R q = IZR n -> py_int q = n.
Proof. intros q n E. rewrite <- trunc_Q, E. apply Ztrunc_IZR. Qed.
Lemma Qeqb_R : forall p q, Qeqb p q = Req_bool (Q2R p) (Q2R q).
Proof.
  intros p q. unfold Qeqb. case Req_bool_spec; intros H.
  - apply Qeq_bool_iff. now apply Qreals.eqR_Qeq.
  - destruct (Qeq_bool p q) eqn:E; [|reflexivity]. apply Qeq_bool_iff, Qreals.Qeq_eqR in E. congruence.
Qed.
Lemma Qltb_R : forall p q, Qltb p q = Rlt_bool (Q2R p) (Q2R q).
Proof.
  intros p q. unfold Qltb. case Rlt_bool_spec; intros H.
  - destruct (Qle_bool q p) eqn:E; [|reflexivity]. apply Qle_bool_iff, Qreals.Qle_Rle in E. lra.
  - apply negb_false_iff, Qle_bool_iff. now apply Qreals.Rle_Qle.
Qed.
Definition qnudge (m : Z) (q : Q) : Q :=
  let y := if Qeqb q (inject_Z (- m)) then (q + (1 # 1000))%Q else q in if Qeqb y (inject_Z m) then (y - (1 # 1000))%Q else y.
Lemma nudge_agrees : forall m x q, (90 <= m <= 180)%Z -> is x (Q2R q) -> - IZR m <= Q2R q <= IZR m -> exists l, is (nudge m x) l /\ Ztrunc l = py_int (qnudge m q / 1) /\ (0 < l <-> 0 < Q2R (qnudge m q)) /\ (Rabs l <= 180).
Proof.
  intros m x q M I B. assert (MM : 90 <= IZR m <= 180) by (split; apply IZR_le; lia). destruct (nudge_ok m x _ M I B) as [l [J C]]. exists l. split; [exact J|].
  assert (ML : Q2R (1 # 1000) = 1 / 1000) by (unfold Q2R; cbn; lra). assert (ONE : forall p, Q2R (p / 1) = Q2R p) by (intros p; rewrite Qreals.Q2R_div by discriminate; replace (Q2R 1) with 1 by (unfold Q2R; cbn; lra); field).
  rewrite <- trunc_Q, ONE. unfold qnudge. cbv zeta. rewrite !Qeqb_R, !Q2R_Z, opp_IZR. destruct C as [[C ->]|[[C D]|[C D]]].
  - rewrite (Req_bool_false (Q2R q) (- IZR m)), (Req_bool_false (Q2R q) (IZR m)) by lra. split; [reflexivity|]. split; [reflexivity|]. apply Rabs_le. lra.
  - rewrite (Req_bool_true (Q2R q) (- IZR m)) by lra. rewrite Qreals.Q2R_plus, ML, C, (Req_bool_false (- IZR m + 1 / 1000) (IZR m)) by lra. rewrite Qreals.Q2R_plus, ML, C.
    split; [|split; [split; lra|apply Rabs_le; lra]]. rewrite !Ztrunc_ceil by lra. assert (Z1 : forall z, - IZR m + 9 / 10000 <= z <= - IZR m + 11 / 10000 -> Zceil z = (- m + 1)%Z) by (intros z Hz; apply Zceil_imp; rewrite minus_IZR, plus_IZR, opp_IZR; lra). rewrite !Z1; [reflexivity|lra|lra].
  - rewrite (Req_bool_false (Q2R q) (- IZR m)), (Req_bool_true (Q2R q) (IZR m)) by lra. rewrite Qreals.Q2R_minus, ML, C.
    split; [|split; [split; lra|apply Rabs_le; lra]]. rewrite !Ztrunc_floor by lra. assert (Z1 : forall z, IZR m - 11 / 10000 <= z <= IZR m - 9 / 10000 -> Zfloor z = (m - 1)%Z) by (intros z Hz; apply Zfloor_imp; rewrite plus_IZR, minus_IZR; lra). rewrite !Z1; [reflexivity|lra|lra].
Qed.
Lemma fint_one : forall y l, is y l -> Rabs l <= 180 -> fint (fdiv y (fz 1)) = Ok (Ztrunc l) /\ (Z.abs (Ztrunc l) <= 180)%Z.
Proof.
  intros y l I B. assert (D : is (fdiv y (fz 1)) l).
  { rewrite <- (rnd_one l) by exact (is_dbl _ _ I). apply is_div; [exact I|apply is_one|lra|]. apply small_big. replace (l / 1) with l by field. lra. }
  split; [now apply fint_is|]. apply Rabs_le_inv in B. destruct (Rle_or_lt 0 l) as [P|P].
  - destruct (trunc_pos l P) as [T T0]. assert (Ztrunc l <= 180)%Z by (apply le_IZR; lra). lia.
  - destruct (trunc_neg l ltac:(lra)) as [T T0]. assert (-180 <= Ztrunc l)%Z by (apply le_IZR; lra). lia.
Qed.
Lemma Q2R_1 : Q2R 1 = 1.
Proof. unfold Q2R. cbn. lra. Qed.
Lemma mds_row_agrees : forall x q, is x (Q2R q) -> -90 <= Q2R q <= 90 -> fmds_lat_to_yindex x (fz 1) = Ok (mds_lat_to_yindex q 1).
Proof.
  intros x q I B. destruct (nudge_agrees 90 x q ltac:(lia) I ltac:(lra)) as [l [J [K [_ L]]]]. destruct (fint_one _ _ J L) as [F FB].
  change (fmds_lat_to_yindex x (fz 1)) with (let! k := fint (fdiv (nudge 90 x) (fz 1)) in if flt (fz 0) x then fint (fsub (fsub (fdiv (fz 90) (fz 1)) (fz 1)) (fz k)) else fint (fsub (fdiv (fz 90) (fz 1)) (fz k))).
  change (mds_lat_to_yindex q 1) with (if Qltb 0 q then py_int (90 / 1 - 1 - inject_Z (py_int (qnudge 90 q / 1))) else py_int (90 / 1 - inject_Z (py_int (qnudge 90 q / 1)))).
  rewrite F. cbn [bind]. rewrite <- K, (flt_is _ _ _ _ (is_fz 0 ltac:(lia)) I), Qltb_R, RMicromega.Q2R_0. set (k := Ztrunc l) in *. assert (D1 : Q2R (90 / 1) = 90) by (unfold Q2R; cbn; lra). case Rlt_bool.
  - rewrite (fint_Z _ (90 - 1 - k)) by (apply is_minus; [apply is_minus; [exact d90_1|exact is_one|lia]|apply is_fz; lia|lia]). f_equal. symmetry. apply py_int_R. rewrite !Qreals.Q2R_minus, Q2R_Z, Q2R_1, D1, !minus_IZR. lra.
  - rewrite (fint_Z _ (90 - k)) by (apply is_minus; [exact d90_1|apply is_fz; lia|lia]). f_equal. symmetry. apply py_int_R. rewrite !Qreals.Q2R_minus, Q2R_Z, D1, !minus_IZR. lra.
Qed.
Lemma mds_column_agrees : forall x q, is x (Q2R q) -> -180 <= Q2R q <= 180 -> fmds_lon_to_xindex x (fz 1) = Ok (mds_lon_to_xindex q 1).
Proof.
  intros x q I B. destruct (nudge_agrees 180 x q ltac:(lia) I ltac:(lra)) as [l [J [K [S1 L]]]]. destruct (fint_one _ _ J L) as [F FB].
  change (fmds_lon_to_xindex x (fz 1)) with (let! k := fint (fdiv (nudge 180 x) (fz 1)) in if flt (fz 0) (nudge 180 x) then fint (fadd (fz k) (fdiv (fz 180) (fz 1))) else fint (fsub (fadd (fz k) (fdiv (fz 180) (fz 1))) (fz 1))).
  change (mds_lon_to_xindex q 1) with (if Qltb 0 (qnudge 180 q) then py_int (inject_Z (py_int (qnudge 180 q / 1)) + 180 / 1) else py_int (inject_Z (py_int (qnudge 180 q / 1)) + 180 / 1 - 1)).
  rewrite F. cbn [bind]. rewrite <- K, (flt_is _ _ _ _ (is_fz 0 ltac:(lia)) J), Qltb_R, RMicromega.Q2R_0. set (k := Ztrunc l) in *. assert (D1 : Q2R (180 / 1) = 180) by (unfold Q2R; cbn; lra).
  case (Rlt_bool_spec 0 l); intros P.
  - rewrite (Rlt_bool_true 0 (Q2R _)) by (now apply S1). rewrite (fint_Z _ (k + 180)) by (apply is_plus; [apply is_fz; lia|exact d180_1|lia]). f_equal. symmetry. apply py_int_R. rewrite !Qreals.Q2R_plus, Q2R_Z, D1, !plus_IZR. lra.
  - rewrite (Rlt_bool_false 0 (Q2R _)) by (apply Rnot_lt_le; intros Y; apply S1 in Y; lra). rewrite (fint_Z _ (k + 180 - 1)) by (apply is_minus; [apply is_plus; [apply is_fz; lia|exact d180_1|lia]|exact is_one|lia]). f_equal. symmetry. apply py_int_R. rewrite !Qreals.Q2R_minus, Qreals.Q2R_plus, Q2R_Z, D1, Q2R_1, minus_IZR, plus_IZR. lra.
Qed.
