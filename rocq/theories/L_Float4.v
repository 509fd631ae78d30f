(** Lemmas: hours, minutes and time differences in double precision. *)
Require Import ZArith QArith Reals Lra Lia Bool Psatz.
From Flocq Require Import Core.Core IEEE754.BinarySingleNaN Relative.
Require Import Verif.S_Calendar Verif.M_Base Verif.M_Calendar Verif.L_Calendar Verif.L_Calendar2 Verif.M_Float Verif.S_Float Verif.L_Float Verif.L_Float2 Verif.L_Float3.
Open Scope R_scope.

(** The part of a double after the point is a double. *)
Lemma dbl_frac : forall h, dbl h -> 0 <= h -> dbl (h - IZR (Zfloor h)).
Proof.
  intros h D P. pose proof (Zfloor_lb h) as LB. pose proof (Zfloor_ub h) as UB. pose proof D as D'. unfold dbl, generic_format, scaled_mantissa, F2R in D'. cbn [Fnum Fexp] in D'. set (m := Ztrunc _) in D'. set (e := cexp _ _ h) in *.
  destruct (Z_lt_le_dec e (-53)) as [L|L].
  - (* below one *)
    assert (X : h < 1).
    { destruct (Req_dec h 0) as [->|N]; [lra|]. unfold e, cexp, FLT_exp in L. assert (MG : (mag radix2 h <= 0)%Z) by lia. pose proof (bpow_mag_gt radix2 h) as B. rewrite Rabs_pos_eq in B by exact P.
      eapply Rlt_le_trans; [exact B|]. change 1 with (bpow radix2 0). now apply bpow_le. }
    rewrite (Zfloor_imp 0 h) by (cbn; lra). now replace (h - 0) with h by ring.
  - destruct (Z_le_gt_dec 0 e) as [G|G].
    + assert (X : h = IZR (m * Zpower radix2 e)) by (rewrite D', mult_IZR, IZR_Zpower by exact G; reflexivity). rewrite X, Zfloor_IZR. unfold Rminus. rewrite Rplus_opp_r. apply (dbl_Z 0). lia.
    + assert (X : h - IZR (Zfloor h) = IZR (m - Zfloor h * Zpower radix2 (- e)) * bpow radix2 e).
      { rewrite minus_IZR, mult_IZR, IZR_Zpower by lia. rewrite Rmult_minus_distr_r, Rmult_assoc, <- bpow_plus. replace (- e + e)%Z with 0%Z by ring. cbn [bpow]. rewrite Rmult_1_r. now rewrite <- D'. }
      rewrite X. apply dbl_scaled; [|unfold e, cexp, FLT_exp; lia].
      set (n := (m - _)%Z) in *. pose proof (bpow_gt_0 radix2 e). assert (A : 0 <= IZR n).
      { apply Rmult_le_reg_r with (bpow radix2 e); [assumption|]. rewrite <- X. lra. }
      assert (B : IZR n < IZR (2 ^ 53)).
      { apply Rmult_lt_reg_r with (bpow radix2 e); [assumption|]. rewrite <- X. apply Rlt_le_trans with 1; [lra|]. change (2 ^ 53)%Z with (Zpower radix2 53). rewrite IZR_Zpower, <- bpow_plus by lia. change 1 with (bpow radix2 0). apply bpow_le. lia. }
      apply le_IZR in A. apply lt_IZR in B. lia.
Qed.
Lemma below1 : forall f, dbl f -> f < 1 -> f <= 1 - bpow radix2 (-53).
Proof.
  intros f D H. destruct (Rlt_or_le f (1 / 2)) as [A|A]; [cbn; lra|].
  pose proof (dbl_below f 0 (2 ^ 53) D ltac:(lia)) as K. change (0 - 53)%Z with (-53)%Z in K.
  assert (E : IZR (2 ^ 53) * bpow radix2 (-53) = 1) by (cbn; lra). rewrite E in K. specialize (K ltac:(cbn; lra) H). eapply Rle_trans; [exact K|]. rewrite minus_IZR. cbn. lra.
Qed.
Lemma hour_minute_ok : forall x h, is x h -> 0 <= h < 24 -> exists H M, fhour_minute x = Ok (H, M) /\ H = Zfloor h /\ (0 <= H <= 23)%Z /\ (0 <= M <= 59)%Z /\
  IZR M - bpow radix2 (-48) <= 60 * (h - IZR H) < IZR M + 1.
Proof.
  intros x h I B. pose proof (Zfloor_lb h) as LB. pose proof (Zfloor_ub h) as UB. set (H := Zfloor h) in *.
  assert (HB : (0 <= H <= 23)%Z). { split; [apply Zfloor_lub; lra|]. enough (H < 24)%Z by lia. apply lt_IZR. lra. }
  assert (F : dbl (h - IZR H)) by (apply dbl_frac; [exact (is_dbl _ _ I)|lra]). pose proof (below1 _ F ltac:(lra)) as F1.
  assert (S1 : is (fsub x (fz H)) (h - IZR H)) by (rewrite <- (rnd_id _ F); apply is_sub; [exact I|apply is_fz; lia|inbig]). assert (FB : 0 <= h - IZR H < 1) by lra. set (f := h - IZR H) in *. assert (FE : f = h - IZR H) by reflexivity. clearbody f.
  assert (S2 : is (fmul (fz 60) (fsub x (fz H))) (rnd (60 * f))) by (apply is_mul; [apply is_fz; lia|exact S1|inbig]).
  assert (G : 0 <= rnd (60 * f) <= 60) by (split; [apply rnd_ge; [apply (dbl_Z 0); lia|lra]|apply rnd_le'; [apply (dbl_Z 60); lia|lra]]).
  near (60 * f) 6%Z. cbn in F1. set (g := rnd (60 * f)) in *.
  unfold fhour_minute. rewrite (ffloor_is x h I) by (apply Rabs_le; cbn; lra). fold H. cbn [bind]. rewrite (ffloor_is _ _ S2) by (apply Rabs_le; cbn; lra). cbn [bind].
  pose proof (Zfloor_lb g) as GL. pose proof (Zfloor_ub g) as GU. exists H, (Zfloor g). split; [reflexivity|]. split; [reflexivity|]. split; [exact HB|]. split.
  - split; [apply Zfloor_lub; lra|]. enough (Zfloor g < 60)%Z by lia. apply lt_IZR. lra.
  - rewrite <- FE. split; [cbn; lra|]. apply Rnot_le_lt. intros C. enough (IZR (Zfloor g) + 1 <= g) by lra. rewrite <- plus_IZR. apply rnd_ge; [|rewrite plus_IZR; exact C].
    apply dbl_Z. assert (0 <= Zfloor g <= 60)%Z by (split; [apply Zfloor_lub; lra|apply le_IZR; lra]). lia.
Qed.
Definition hundredth : R := rnd (1 / 100).
Lemma is_hundredth : is (fq (1 # 100)) hundredth.
Proof. exact (is_fq (1 # 100) ltac:(cbn; lia) ltac:(cbn; lia)). Qed.
Lemma hundredth_near : Rabs (hundredth - 1 / 100) <= bpow radix2 (-60).
Proof. apply (rnd_abs (1 / 100) (-6)); [lia|]. rewrite Rabs_pos_eq by lra. cbn. lra. Qed.
Lemma decimal_hour : forall n, (0 <= n < 2400)%Z -> exists h, is (fdecode (fq (1 # 100)) n) h /\ 0 <= h < 24 /\ Rabs (h - IZR n / 100) <= bpow radix2 (-47).
Proof.
  intros n B. assert (P : 0 <= IZR n <= 2399) by (split; apply IZR_le; lia). pose proof hundredth_near as N. apply Rabs_le_inv in N. cbn in N.
  assert (V : 0 <= IZR n * hundredth <= 2399 * hundredth) by (split; [apply Rmult_le_pos; lra|apply Rmult_le_compat_r; lra]).
  assert (I : is (fdecode (fq (1 # 100)) n) (rnd (IZR n * hundredth))) by (apply is_mul; [apply is_fz; lia|apply is_hundredth|inbig]).
  near (IZR n * hundredth) 5%Z. exists (rnd (IZR n * hundredth)). split; [exact I|].
  assert (Z0 : 0 <= rnd (IZR n * hundredth)) by (apply rnd_ge; [apply (dbl_Z 0); lia|lra]). split; [lra|]. apply Rabs_le. cbn. split; nra.
Qed.
Lemma decimal_minute : forall n, (0 <= n < 2400)%Z -> exists H M, fhour_minute (fdecode (fq (1 # 100)) n) = Ok (H, M) /\ (0 <= H <= 23)%Z /\ (0 <= M <= 59)%Z /\
  ((60 * H + M = 3 * n / 5)%Z \/ ((n mod 5 = 0)%Z /\ (60 * H + M = 3 * n / 5 - 1)%Z)).
Proof.
  intros n B. destruct (decimal_hour n B) as [h [I [HB E]]]. destruct (hour_minute_ok _ h I HB) as [H [M [K [_ [B1 [B2 C]]]]]]. exists H, M. split; [exact K|]. split; [exact B1|]. split; [exact B2|].
  apply Rabs_le_inv in E. cbn in E, C. set (T := (60 * H + M)%Z). assert (TT : IZR T = 60 * IZR H + IZR M) by (unfold T; rewrite plus_IZR, mult_IZR; reflexivity).
  assert (L1 : (5 * T <= 3 * n)%Z). { enough (5 * T < 3 * n + 1)%Z by lia. apply lt_IZR. rewrite plus_IZR, !mult_IZR. lra. }
  assert (L2 : (3 * n <= 5 * T + 5)%Z). { enough (3 * n < 5 * T + 5 + 1)%Z by lia. apply lt_IZR. rewrite !plus_IZR, !mult_IZR. lra. }
  pose proof (Z.div_mod (3 * n) 5 ltac:(lia)). pose proof (Z.mod_pos_bound (3 * n) 5 ltac:(lia)). pose proof (Z.div_mod n 5 ltac:(lia)). pose proof (Z.mod_pos_bound n 5 ltac:(lia)). lia.
Qed.

(** ---- time differences ---- *)
Lemma jd_bounds : forall y m d lo hi, (1 <= m <= 12 -> 1 <= d <= 31 -> lo <= y <= hi -> lo >= -4700 -> 365 * (lo + 4799) + (lo + 4799) / 4 - (lo + 4799) / 100 + (lo + 4799) / 400 - 32045 <= jd y m d <= 365 * (hi + 4800) + (hi + 4800) / 4 - (hi + 4800) / 100 + (hi + 4800) / 400 - 32045 + 400)%Z.
Proof.
  intros y m d lo hi M D Y L. unfold jd. cbv zeta. 
  assert (A : (0 <= (14 - m) / 12 <= 1)%Z) by (split; [apply Z.div_pos; lia|]; enough ((14 - m) / 12 < 2)%Z by lia; apply Z.div_lt_upper_bound; lia).
  set (a := ((14 - m) / 12)%Z) in *. assert (Q : (0 <= (153 * (m + 12 * a - 3) + 2) / 5 <= 338)%Z).
  { assert (3 <= m + 12 * a <= 14)%Z by (unfold a in *; pose proof (Z.div_mod (14 - m) 12 ltac:(lia)); pose proof (Z.mod_pos_bound (14 - m) 12 ltac:(lia)); lia). split; [apply Z.div_pos; lia|]. enough ((153 * (m + 12 * a - 3) + 2) / 5 < 339)%Z by lia. apply Z.div_lt_upper_bound; lia. }
  set (q := ((153 * _ + 2) / 5)%Z) in *. clearbody q.
  assert (MONO : forall u v, (0 <= u <= v -> 365 * u + u / 4 - u / 100 + u / 400 <= 365 * v + v / 4 - v / 100 + v / 400)%Z).
  { intros u v UV. pose proof (Z.div_mod u 4 ltac:(lia)). pose proof (Z.mod_pos_bound u 4 ltac:(lia)). pose proof (Z.div_mod v 4 ltac:(lia)). pose proof (Z.mod_pos_bound v 4 ltac:(lia)).
    pose proof (Z.div_mod u 100 ltac:(lia)). pose proof (Z.mod_pos_bound u 100 ltac:(lia)). pose proof (Z.div_mod v 100 ltac:(lia)). pose proof (Z.mod_pos_bound v 100 ltac:(lia)). pose proof (Z.div_le_mono u v 400 ltac:(lia) ltac:(lia)). lia. }
  pose proof (MONO (lo + 4799) (y + 4800 - a) ltac:(lia))%Z. pose proof (MONO (y + 4800 - a) (hi + 4800) ltac:(lia))%Z. lia.
Qed.
Definition day_of (j : Z) (x : fl) : fl := fadd (fz j) (fdiv x (fz 24)).
Lemma part_ok : forall x h, is x h -> 0 <= h < 24 -> is (fdiv x (fz 24)) (rnd (h / 24)) /\ 0 <= rnd (h / 24) <= 1 /\ Rabs (rnd (h / 24) - h / 24) <= bpow radix2 (-54).
Proof.
  intros x h I B. split; [apply is_div; [exact I|apply is_fz; lia|lra|inbig]|]. split; [split; [apply rnd_ge; [apply (dbl_Z 0); lia|lra]|apply rnd_le'; [apply (dbl_Z 1); lia|lra]]|].
  apply (rnd_abs (h / 24) 0); [lia|]. apply Rabs_le. cbn. lra.
Qed.
Lemma day_ok : forall j x h, is x h -> 0 <= h < 24 -> (0 <= j <= 4194302)%Z -> is (day_of j x) (rnd (IZR j + rnd (h / 24))) /\ 0 <= rnd (IZR j + rnd (h / 24)) <= 4194303 /\
  Rabs (rnd (IZR j + rnd (h / 24)) - (IZR j + h / 24)) <= bpow radix2 (-32) + bpow radix2 (-54).
Proof.
  intros j x h I B J. destruct (part_ok x h I B) as [P [PB PE]]. set (f := rnd (h / 24)) in *. assert (JB : 0 <= IZR j <= 4194302) by (split; apply IZR_le; lia).
  split; [apply is_add; [apply is_fz; lia|exact P|inbig]|]. split; [split; [apply rnd_ge; [apply (dbl_Z 0); lia|lra]|apply rnd_le'; [apply (dbl_Z 4194303); lia|lra]]|].
  near (IZR j + f) 22%Z. apply Rabs_le_inv in PE. cbn in PE. apply Rabs_le. cbn. lra.
Qed.
Lemma forward_ok : forall y1 m1 d1 x1 h1 y2 m2 d2 x2 h2 j1 j2, is x1 h1 -> is x2 h2 -> 0 <= h1 < 24 -> 0 <= h2 < 24 -> jul_day y1 m1 d1 = Ok j1 -> jul_day y2 m2 d2 = Ok j2 -> (0 <= j1 <= 4194302)%Z -> (0 <= j2 <= 4194302)%Z ->
  exists x t, ftd_forward y1 m1 d1 x1 y2 m2 d2 x2 = Ok x /\ is x t /\ t = rnd (24 * rnd (rnd (IZR j2 + rnd (h2 / 24)) - rnd (IZR j1 + rnd (h1 / 24)))) /\ Rabs t <= 200000000 /\ Rabs (t - (24 * IZR (j2 - j1) + (h2 - h1))) <= 3 / 100000000.
Proof.
  intros y1 m1 d1 x1 h1 y2 m2 d2 x2 h2 j1 j2 I1 I2 B1 B2 E1 E2 J1 J2. destruct (day_ok j1 x1 h1 I1 B1 J1) as [A1 [A2 A3]]. destruct (day_ok j2 x2 h2 I2 B2 J2) as [C1 [C2 C3]].
  unfold ftd_forward. rewrite E1, E2. cbn [bind]. fold (day_of j1 x1) (day_of j2 x2). set (a := rnd (IZR j1 + _)) in *. set (c := rnd (IZR j2 + _)) in *.
  assert (S1 : is (fsub (day_of j2 x2) (day_of j1 x1)) (rnd (c - a))) by (apply is_sub; [exact C1|exact A1|inbig]). near (c - a) 22%Z. set (s := rnd (c - a)) in *.
  assert (S2 : is (fmul (fz 24) (fsub (day_of j2 x2) (day_of j1 x1))) (rnd (24 * s))) by (apply is_mul; [apply is_fz; lia|exact S1|inbig]). near (24 * s) 27%Z.
  exists (fmul (fz 24) (fsub (day_of j2 x2) (day_of j1 x1))), (rnd (24 * s)). split; [reflexivity|]. split; [exact S2|]. split; [reflexivity|]. apply Rabs_le_inv in A3, C3. cbn in A3, C3. split; [apply Rabs_le; lra|].
  apply Rabs_le. rewrite minus_IZR. split; lra.
Qed.
Lemma day_mono : forall j1 j2 h1 h2, 0 <= h1 < 24 -> 0 <= h2 < 24 -> (j1 < j2)%Z \/ (j1 = j2 /\ h1 <= h2) -> rnd (IZR j1 + rnd (h1 / 24)) <= rnd (IZR j2 + rnd (h2 / 24)).
Proof.
  intros j1 j2 h1 h2 B1 B2 C. apply rnd_le. destruct C as [C|[-> C]].
  - assert (IZR j1 + 1 <= IZR j2) by (rewrite <- plus_IZR; apply IZR_le; lia). assert (rnd (h1 / 24) <= 1) by (apply rnd_le'; [apply (dbl_Z 1); lia|lra]). assert (0 <= rnd (h2 / 24)) by (apply rnd_ge; [apply (dbl_Z 0); lia|lra]). lra.
  - apply Rplus_le_compat_l, rnd_le. lra.
Qed.
Lemma diff_nonneg : forall a c, a <= c -> 0 <= rnd (24 * rnd (c - a)).
Proof.
  intros a c H. assert (0 <= rnd (c - a)) by (apply rnd_ge; [apply (dbl_Z 0); lia|lra]). apply rnd_ge; [apply (dbl_Z 0); lia|lra].
Qed.
Lemma guard_ok : forall x1 x2 h1 h2, is x1 h1 -> is x2 h2 -> 0 <= h1 < 24 -> 0 <= h2 < 24 -> (fle (fz 0) x1 && flt x1 (fz 24)) && (fle (fz 0) x2 && flt x2 (fz 24)) = true.
Proof.
  intros x1 x2 h1 h2 I1 I2 B1 B2. rewrite (fle_is _ _ _ _ (is_fz 0 ltac:(lia)) I1), (flt_is _ _ _ _ I1 (is_fz 24 ltac:(lia))), (fle_is _ _ _ _ (is_fz 0 ltac:(lia)) I2), (flt_is _ _ _ _ I2 (is_fz 24 ltac:(lia))).
  rewrite !Rle_bool_true, !Rlt_bool_true by lra. reflexivity.
Qed.
Definition years (d : date) : Prop := valid d /\ (1 <= yr d <= 6000)%Z.
Lemma years_j : forall d, years d -> jul_day (yr d) (mo d) (dy d) = Ok (jdd d) /\ (0 <= jdd d <= 4194302)%Z.
Proof.
  intros d [V Y]. split; [now apply jul_day_valid|]. destruct (valid_bounds d V) as [M D]. pose proof (jd_bounds (yr d) (mo d) (dy d) 1 6000 M D Y ltac:(lia)) as K. unfold jdd. cbn in K. lia.
Qed.
(** Which of two times is later, as the program decides it. *)
Definition flater (d1 : date) (x1 : fl) (d2 : date) (x2 : fl) : bool :=
  ((yr d2 <? yr d1) || ((yr d1 =? yr d2) && (mo d2 <? mo d1)) || ((yr d1 =? yr d2) && (mo d1 =? mo d2) && (dy d2 <? dy d1)) || ((yr d1 =? yr d2) && (mo d1 =? mo d2) && (dy d1 =? dy d2) && flt x2 x1))%Z.
Lemma flater_spec : forall d1 x1 h1 d2 x2 h2, is x1 h1 -> is x2 h2 -> flater d1 x1 d2 x2 = true <-> earlier d2 d1 \/ (d1 = d2 /\ h2 < h1).
Proof.
  intros [a b c] x1 h1 [a' b' c'] x2 h2 I1 I2. unfold flater, earlier. cbn. rewrite (flt_is _ _ _ _ I2 I1). rewrite !orb_true_iff, !andb_true_iff, !Z.ltb_lt, !Z.eqb_eq. destruct (Rlt_bool_spec h2 h1) as [L|L].
  - intuition; subst; auto; try (match goal with H : mkdate _ _ _ = mkdate _ _ _ |- _ => injection H as -> -> -> end); auto; tauto.
  - intuition; try lra; try discriminate; subst; auto.
Qed.
Lemma jdd_order : forall d1 d2, valid d1 -> valid d2 -> (earlier d1 d2 <-> (jdd d1 < jdd d2)%Z) /\ (d1 = d2 <-> jdd d1 = jdd d2).
Proof.
  intros d1 d2 V1 V2. destruct (jul_day_order d1 d2 V1 V2) as [j [j' [A [B C]]]]. rewrite (jul_day_valid _ V1) in A. rewrite (jul_day_valid _ V2) in B. injection A as <-. injection B as <-. exact C.
Qed.
(** The time difference: near the exact one, not negative in the order of time, and antisymmetric. *)
Lemma difference_ok : forall d1 d2 x1 h1 x2 h2, years d1 -> years d2 -> is x1 h1 -> is x2 h2 -> 0 <= h1 < 24 -> 0 <= h2 < 24 ->
  exists x t, ftime_difference (yr d1) (mo d1) (dy d1) x1 (yr d2) (mo d2) (dy d2) x2 = Ok x /\ is x t /\
   (let s d h := rnd (IZR (jdd d) + rnd (h / 24)) in t = if flater d1 x1 d2 x2 then - rnd (24 * rnd (s d1 h1 - s d2 h2)) else rnd (24 * rnd (s d2 h2 - s d1 h1))) /\
   Rabs (t - (24 * IZR (jdd d2 - jdd d1) + (h2 - h1))) <= 3 / 100000000.
Proof.
  intros d1 d2 x1 h1 x2 h2 Y1 Y2 I1 I2 B1 B2. destruct (years_j _ Y1) as [E1 J1]. destruct (years_j _ Y2) as [E2 J2].
  unfold ftime_difference. rewrite (guard_ok x1 x2 h1 h2) by assumption. cbn [py_assert bind]. fold (flater d1 x1 d2 x2). destruct (flater d1 x1 d2 x2).
  - destruct (forward_ok _ _ _ x2 h2 _ _ _ x1 h1 _ _ I2 I1 B2 B1 E2 E1 J2 J1) as [x [t [F [I [T [TB TE]]]]]]. rewrite F. cbn [bind]. exists (fmul (fz (-1)) x), (- t). split; [reflexivity|]. split; [|split].
    + rewrite <- (rnd_id (- t)) by (apply dbl_opp; exact (is_dbl _ _ I)). replace (- t) with (-1 * t) by ring. apply is_mul; [apply is_fz; lia|exact I|]. apply Rabs_le_inv in TB. inbig.
    + cbv zeta. now rewrite T.
    + apply Rabs_le_inv in TE. apply Rabs_le. rewrite minus_IZR in *. lra.
  - destruct (forward_ok _ _ _ x1 h1 _ _ _ x2 h2 _ _ I1 I2 B1 B2 E1 E2 J1 J2) as [x [t [F [I [T [TB TE]]]]]]. exists x, t. split; [exact F|]. split; [exact I|]. split; [exact T|exact TE].
Qed.
(** Rounding to a whole number commutes with adding an even one. *)
Lemma floor_plus : forall n y, Zfloor (IZR n + y) = (n + Zfloor y)%Z.
Proof. intros n y. apply Zfloor_imp. pose proof (Zfloor_lb y). pose proof (Zfloor_ub y). rewrite !plus_IZR. lra. Qed.
Lemma ceil_plus : forall n y, Zceil (IZR n + y) = (n + Zceil y)%Z.
Proof. intros n y. unfold Zceil. rewrite Ropp_plus_distr, <- opp_IZR, floor_plus. lia. Qed.
Lemma nearest_plus : forall n y, Z.even n = true -> ZnearestE (IZR n + y) = (n + ZnearestE y)%Z.
Proof.
  intros n y E. unfold Znearest. rewrite floor_plus, ceil_plus, Z.even_add, E. replace (IZR n + y - IZR (n + Zfloor y)) with (y - IZR (Zfloor y)) by (rewrite plus_IZR; ring).
  destruct (Z.even (Zfloor y)); cbn; destruct (Rcompare _ _); reflexivity.
Qed.
Lemma day_grid : forall j f, (2097152 <= j <= 4194302)%Z -> 0 <= f <= 1 -> rnd (IZR j + f) = IZR j + IZR (ZnearestE (f * bpow radix2 31)) * bpow radix2 (-31).
Proof.
  intros j f J F. assert (JB : 2097152 <= IZR j <= 4194302) by (split; apply IZR_le; lia). unfold rnd, round, scaled_mantissa, F2R. cbn [Fnum Fexp].
  assert (C : cexp radix2 (FLT_exp (-1074) 53) (IZR j + f) = (-31)%Z).
  { unfold cexp. rewrite (mag_unique_pos radix2 (IZR j + f) 22). { reflexivity. } cbn. lra. }
  change (SpecFloat.fexp 53 1024) with (FLT_exp (-1074) 53) in *. rewrite C. change (- -31)%Z with 31%Z. rewrite Rmult_plus_distr_r.
  replace (IZR j * bpow radix2 31) with (IZR (j * 2147483648)) by (rewrite mult_IZR; reflexivity). rewrite nearest_plus by (rewrite Z.even_mul; apply orb_true_r). rewrite plus_IZR, mult_IZR. cbn. lra.
Qed.
