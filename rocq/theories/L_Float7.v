(** Lemmas: the modal speed in double precision. *)
Require Import String ZArith QArith Qround Reals Lra Lia Bool Psatz List Qreals.
From Flocq Require Import Core.Core IEEE754.BinarySingleNaN Relative.
Require Import Verif.M_Base Verif.L_Base Verif.M_Report Verif.M_Track Verif.S_Track Verif.L_Track Verif.M_Float Verif.M_Float3 Verif.S_Float Verif.L_Float Verif.L_Float2 Verif.L_Float3 Verif.L_Float6.
Import ListNotations.
Open Scope R_scope.

Definition km : R := 539957 / 1000000.
Definition KM : R := rnd km.
Lemma is_fkm : is fkm KM.
Proof. apply (is_fq (539957 # 1000000)); cbn; lia. Qed.
Lemma KM_near : Rabs (KM - km) <= u / 2.
Proof.
  replace (u / 2) with (bpow radix2 (0 - 54)) by (unfold u; cbn; lra). apply rnd_abs; [lia|]. unfold km. rewrite Rabs_pos_eq by lra. cbn. lra.
Qed.
Lemma KM_pos : 5399 / 10000 <= KM <= 54 / 100.
Proof. pose proof KM_near as H. pose proof u_pos. apply Rabs_le_inv in H. unfold km in *. lra. Qed.
Lemma floor_Q : forall q, Zfloor (Q2R q) = Qfloor q.
Proof.
  intros q. apply Zfloor_imp. rewrite <- !Q2R_Z. split; [apply Qle_Rle, Qfloor_le|apply Qlt_Rlt, Qlt_floor].
Qed.
Lemma dbl_Q : forall a, dbl a -> exists q, Q2R q = a.
Proof.
  intros a H. unfold dbl, generic_format in H. set (m := Ztrunc _) in H. set (e := cexp _ _ _) in H. clearbody m e. destruct (Z_le_gt_dec 0 e) as [P|P].
  - exists (inject_Z (m * 2 ^ e)). rewrite Q2R_Z, H. unfold F2R. cbn [Fnum Fexp]. rewrite mult_IZR. f_equal. change (2 ^ e)%Z with (Zpower radix2 e). now apply IZR_Zpower.
  - exists (m # Z.to_pos (2 ^ (- e))). rewrite H. unfold F2R, Q2R. cbn [Fnum Fexp Qnum Qden]. rewrite Z2Pos.id by (apply Z.pow_pos_nonneg; lia). f_equal.
    change (2 ^ (- e))%Z with (Zpower radix2 (- e)). rewrite IZR_Zpower by lia. rewrite bpow_opp. apply Rinv_inv.
Qed.
(** The value whose floor is the bin, and how far it is from the exact one. *)
Definition cell (s : R) : R := rnd (rnd (KM * s) / 3).
Lemma small_u : forall k, (k <= -200)%Z -> 0 <= bpow radix2 k <= 1 / 10 ^ 40.
Proof.
  intros k K. split; [apply bpow_ge_0|]. apply Rle_trans with (bpow radix2 (-200)); [now apply bpow_le|]. cbn. lra.
Qed.
Lemma cell_near : forall s, Rabs (3 * cell s - km * s) <= 5 * u * Rabs (km * s) + 1 / 10 ^ 38.
Proof.
  intros s. unfold cell. destruct (rnd_err (KM * s)) as [e1 [d1 [E1 [D1 R1]]]]. rewrite R1. set (p := KM * s * (1 + e1) + d1).
  destruct (rnd_err (p / 3)) as [e2 [d2 [E2 [D2 R2]]]]. rewrite R2. unfold p. clear R1 R2 p.
  pose proof KM_near as K. pose proof (small_u (-1075) ltac:(lia)) as T. fold u in E1, E2. pose proof u_pos as U. set (g := (KM - km) / km).
  assert (G : Rabs g <= u). { unfold g, Rdiv. rewrite Rabs_mult. rewrite (Rabs_pos_eq (/ km)) by (unfold km; lra). apply Rle_trans with (u / 2 * / km); [apply Rmult_le_compat_r; [unfold km; lra|exact K]|]. unfold km. lra. }
  assert (KE : KM = km * (1 + g)) by (unfold g, km; field). rewrite KE.
  replace (3 * ((km * (1 + g) * s * (1 + e1) + d1) / 3 * (1 + e2) + d2) - km * s) with (km * s * ((1 + g) * (1 + e1) * (1 + e2) - 1) + (d1 * (1 + e2) + 3 * d2)) by field.
  apply Rabs_le_inv in E1, E2, D1, D2, G.
  assert (A : Rabs ((1 + g) * (1 + e1) * (1 + e2) - 1) <= 5 * u).
  { replace ((1 + g) * (1 + e1) * (1 + e2) - 1) with (g + e1 + e2 + g * e1 + g * e2 + e1 * e2 + g * e1 * e2) by ring.
    assert (X1 : Rabs (g * e1) <= u * u) by (rewrite Rabs_mult; apply Rmult_le_compat; try apply Rabs_pos; apply Rabs_le; lra).
    assert (X2 : Rabs (g * e2) <= u * u) by (rewrite Rabs_mult; apply Rmult_le_compat; try apply Rabs_pos; apply Rabs_le; lra).
    assert (X3 : Rabs (e1 * e2) <= u * u) by (rewrite Rabs_mult; apply Rmult_le_compat; try apply Rabs_pos; apply Rabs_le; lra).
    assert (X4 : Rabs (g * e1 * e2) <= u * u * u). { rewrite Rabs_mult. apply Rmult_le_compat; try apply Rabs_pos; [exact X1|apply Rabs_le; lra]. }
    assert (UU : u * u <= u / 10) by nra. assert (UUU : u * u * u <= u / 10) by nra. apply Rabs_le_inv in X1, X2, X3, X4. apply Rabs_le. lra. }
  assert (B : Rabs (d1 * (1 + e2) + 3 * d2) <= 1 / 10 ^ 38).
  { set (b := bpow radix2 (-1075)) in *. assert (Rabs (d1 * (1 + e2)) <= b * 2) by (rewrite Rabs_mult; apply Rmult_le_compat; try apply Rabs_pos; apply Rabs_le; lra).
    apply Rabs_le_inv in H. apply Rabs_le. lra. }
  eapply Rle_trans; [apply Rabs_triang|]. apply Rplus_le_compat; [|exact B]. rewrite Rabs_mult, (Rmult_comm (5 * u)). apply Rmult_le_compat_l; [apply Rabs_pos|exact A].
Qed.
Lemma cell_bound : forall s, Rabs s <= 1000000000 -> Rabs (cell s) <= 1000000000.
Proof.
  intros s B. pose proof (cell_near s) as N. pose proof u_pos as U. rewrite (Rabs_mult km) in N. rewrite (Rabs_pos_eq km) in N by (unfold km; lra).
  assert (T : 1 / 10 ^ 38 <= 1) by lra. unfold km in *. pose proof (Rabs_pos s). assert (5 * u * (539957 / 1000000 * Rabs s) <= 1) by nra.
  assert (Rabs (3 * cell s) <= 1000000000). { replace (3 * cell s) with ((3 * cell s - 539957 / 1000000 * s) + 539957 / 1000000 * s) by ring. eapply Rle_trans; [apply Rabs_triang|]. rewrite (Rabs_mult (539957 / 1000000)), (Rabs_pos_eq (539957 / 1000000)) by lra. lra. }
  rewrite Rabs_mult, (Rabs_pos_eq 3) in H1 by lra. pose proof (Rabs_pos (cell s)). lra.
Qed.
Lemma fbin_ok : forall x s, is x s -> Rabs s <= 1000000000 -> fspeed_bin x = Ok (Z.to_nat (Z.max 0 (Z.min 11 (Zfloor (cell s))))).
Proof.
  intros x s I B. pose proof KM_pos as K. assert (I1 : is (fmul fkm x) (rnd (KM * s))).
  { apply is_mul; [exact is_fkm|exact I|]. apply small_big. rewrite Rabs_mult, (Rabs_pos_eq KM) by lra. pose proof (Rabs_pos s). nra. }
  assert (B1 : Rabs (rnd (KM * s)) <= 1000000000000).
  { apply Rabs_le_inv in B. apply Rabs_le. split; [apply rnd_ge; [apply (dbl_Z (-1000000000000)); lia|nra]|apply rnd_le'; [apply (dbl_Z 1000000000000); lia|nra]]. }
  assert (I2 : is (fdiv (fmul fkm x) (fz 3)) (cell s)).
  { apply is_div; [exact I1|apply (is_fz 3); lia|lra|]. apply small_big. unfold Rdiv. rewrite Rabs_mult, (Rabs_pos_eq (/ 3)) by lra. pose proof (Rabs_pos (rnd (KM * s))). lra. }
  unfold fspeed_bin. rewrite (ffloor_is _ _ I2). 2:{ pose proof (cell_bound s B). eapply Rle_trans; [exact H|]. cbn. lra. }
  cbn [bind]. do 2 f_equal. destruct (Z.ltb_spec (Zfloor (cell s)) 0); [lia|]. destruct (Z.ltb_spec 11 (Zfloor (cell s))); lia.
Qed.
(** The bin in double precision is the bin of a rational speed nearby. *)
Lemma bin_nearby : forall x s, is x s -> Rabs s <= 1000000000 -> exists q, Rabs (Q2R q - s) <= 5 * u * Rabs s + 1 / 10 ^ 37 /\ fspeed_bin x = Ok (speed_bin q).
Proof.
  intros x s I B. destruct (dbl_Q (cell s)) as [c C]; [apply rnd_dbl|]. exists (c * 3 / km_to_nm)%Q. split.
  - unfold km_to_nm. rewrite Q2R_div by discriminate. rewrite Q2R_mult, C. replace (Q2R 3) with 3 by (unfold Q2R; cbn; lra). replace (Q2R (539957 # 1000000)) with km by (unfold Q2R, km; cbn; lra).
    pose proof (cell_near s) as N. replace (cell s * 3 / km - s) with ((3 * cell s - km * s) * / km) by (unfold km; field). rewrite Rabs_mult. rewrite (Rabs_pos_eq (/ km)) by (unfold km; lra).
    rewrite (Rabs_mult km), (Rabs_pos_eq km) in N by (unfold km; lra). apply Rle_trans with ((5 * u * (km * Rabs s) + 1 / 10 ^ 38) * / km); [apply Rmult_le_compat_r; [unfold km; lra|exact N]|].
    rewrite Rmult_plus_distr_r. apply Rplus_le_compat; [|unfold km; lra]. apply Req_le. unfold km. field.
  - rewrite (fbin_ok x s I B). f_equal. unfold speed_bin. do 3 f_equal. rewrite <- C, floor_Q. apply Qfloor_comp. unfold km_to_nm. field.
Qed.
(** Clear of the borders of the bins the bin is the exact one. *)
Lemma bin_exact : forall x q, is x (Q2R q) -> Rabs (Q2R q) <= 1000000000 ->
  (forall k, (1 <= k <= 11)%Z -> 1 / 10 ^ 13 <= Rabs (km * Q2R q - 3 * IZR k)) -> fspeed_bin x = Ok (speed_bin q).
Proof.
  intros x q I B H. rewrite (fbin_ok x _ I B). f_equal. unfold speed_bin. f_equal. set (s := Q2R q) in *.
  assert (F : Qfloor (km_to_nm * q / 3) = Zfloor (km * s / 3)).
  { rewrite <- floor_Q. f_equal. rewrite Q2R_div by discriminate. unfold km_to_nm. rewrite Q2R_mult. replace (Q2R 3) with 3 by (unfold Q2R; cbn; lra). replace (Q2R (539957 # 1000000)) with km by (unfold Q2R, km; cbn; lra). reflexivity. }
  rewrite F. pose proof (cell_near s) as N. pose proof u_pos as U. clear F.
  assert (E : forall k, (1 <= k <= 11)%Z -> (k <= Zfloor (cell s) <-> k <= Zfloor (km * s / 3))%Z).
  { intros k K. specialize (H k K). assert (KR : 1 <= IZR k <= 11) by (split; apply IZR_le; lia).
    assert (A : forall a, (k <= Zfloor a)%Z <-> IZR k <= a). { intro a. split; intro L; [|now apply Zfloor_lub]. apply Rle_trans with (IZR (Zfloor a)); [now apply IZR_le|apply Zfloor_lb]. }
    rewrite !A. set (w := km * s) in *. clearbody w. clear A B I. apply Rabs_le_inv in N. assert (T : 1 / 10 ^ 38 <= 1 / 10 ^ 20) by lra.
    destruct (Rle_lt_dec (3 * IZR k) w) as [L|L].
    - rewrite Rabs_pos_eq in H by lra. rewrite (Rabs_pos_eq w) in N by lra. split; [lra|]. intros _. enough (3 * IZR k <= 3 * cell s) by lra.
      assert (5 * u * w <= 5 * u * (3 * IZR k) + 5 * u * (w - 3 * IZR k)) by lra. assert (5 * u * (3 * IZR k) <= 5 * u * 33) by (apply Rmult_le_compat_l; lra). assert (5 * u * (w - 3 * IZR k) <= 1 / 10 * (w - 3 * IZR k)) by (apply Rmult_le_compat_r; lra). lra.
    - rewrite Rabs_left in H by lra. split; [|lra]. intros C. exfalso.
      destruct (Rle_lt_dec 0 w) as [P|P].
      + rewrite (Rabs_pos_eq w) in N by lra. assert (5 * u * w <= 5 * u * 33) by (apply Rmult_le_compat_l; lra). lra.
      + rewrite (Rabs_left w) in N by lra. assert (5 * u * (- w) <= 1 / 10 * (- w)) by (apply Rmult_le_compat_r; lra). lra. }
  pose proof (E (Z.max 1 (Z.min 11 (Zfloor (cell s)))) ltac:(lia)). pose proof (E (Z.max 1 (Z.min 11 (Zfloor (km * s / 3)))) ltac:(lia)). lia.
Qed.
(** Equal bins, equal histograms. *)
Lemma hist_ok : forall xs qs, Forall2 (fun x q => fspeed_bin x = Ok (speed_bin q)) xs qs -> forall freq, fhistogram (map Some xs) freq = histogram (map Some qs) freq.
Proof. intros xs qs F. induction F as [|x q xs qs E F IH]; intros freq; [reflexivity|]. cbn [map fhistogram histogram]. rewrite E. cbn [bind]. apply IH. Qed.
Lemma top_range : forall freq index best k, (best < index + length freq)%nat -> (top_bin freq index best k < index + length freq)%nat.
Proof.
  induction freq as [|f freq IH]; intros index best k H; cbn [top_bin length] in *; [lia|]. destruct (k <? f)%Z; (eapply Nat.lt_le_trans; [apply IH; lia|lia]).
Qed.
Lemma hist_length : forall l freq freq', histogram l freq = Ok freq' -> length freq' = length freq.
Proof.
  induction l as [|[s|] l IH]; intros freq freq' H; cbn [histogram] in H; [congruence| |discriminate]. apply IH in H. rewrite H.
  clear. generalize (nth (speed_bin s) freq 0%Z + 1)%Z as v. generalize (speed_bin s) as i. induction freq; intros [|i] v; cbn; auto.
Qed.
(** The centre of bin i. *)
Lemma centre_ok : forall i, (0 <= i <= 11)%Z -> is (fdiv (fsub (fmul (fz (i + 1)) (fz 3)) (fq (3 # 2))) (fz 1)) (3 * IZR i + 3 / 2).
Proof.
  intros i H. assert (R : 0 <= IZR i <= 11) by (split; apply IZR_le; lia).
  assert (I1 : is (fmul (fz (i + 1)) (fz 3)) (IZR ((i + 1) * 3))).
  { rewrite <- (rnd_id (IZR ((i + 1) * 3))) by (apply dbl_Z; lia). rewrite mult_IZR. apply is_mul; [apply is_fz; lia|apply (is_fz 3); lia|]. rewrite plus_IZR. inbig. }
  assert (I2 : is (fq (3 # 2)) (3 / 2)).
  { pose proof (is_fq (3 # 2) ltac:(cbn; lia) ltac:(cbn; lia)) as K. cbn [Qnum Qden] in K. rewrite rnd_id in K; [exact K|]. replace (3 / 2) with (IZR 3 * bpow radix2 (-1)) by (cbn; lra). apply dbl_scaled; lia. }
  assert (D : dbl (3 * IZR i + 3 / 2)). { replace (3 * IZR i + 3 / 2) with (IZR (6 * i + 3) * bpow radix2 (-1)) by (rewrite plus_IZR, mult_IZR; cbn; lra). apply dbl_scaled; lia. }
  assert (I3 : is (fsub (fmul (fz (i + 1)) (fz 3)) (fq (3 # 2))) (3 * IZR i + 3 / 2)).
  { rewrite <- (rnd_id _ D). replace (3 * IZR i + 3 / 2) with (IZR ((i + 1) * 3) - 3 / 2) by (rewrite mult_IZR, plus_IZR; lra). apply is_sub; [exact I1|exact I2|]. rewrite mult_IZR, plus_IZR. inbig. }
  rewrite <- (rnd_id _ D). replace (rnd (3 * IZR i + 3 / 2)) with (rnd ((3 * IZR i + 3 / 2) / 1)) by (f_equal; field). apply is_div; [exact I3|apply (is_fz 1); lia|lra|]. inbig.
Qed.
(** Knots turned into km/h. *)
Lemma to_km : forall x m, is x m -> 0 <= m <= 50 -> exists y, is (fdiv x fkm) y /\ Rabs (y - m / km) <= 300 * u /\ 0 <= y.
Proof.
  intros x m I B. pose proof KM_pos as K. pose proof KM_near as N. pose proof u_pos as U. exists (rnd (m / KM)).
  assert (Q : 0 <= m / KM <= 100). { split; [apply Rmult_le_pos; [lra|apply Rlt_le, Rinv_0_lt_compat; lra]|]. apply (Rmult_le_reg_r KM); [lra|]. unfold Rdiv. rewrite Rmult_assoc, Rinv_l by lra. lra. }
  split; [apply is_div; [exact I|exact is_fkm|lra|inbig]|]. split.
  - pose proof (err_le (m / KM) 100 ltac:(apply Rabs_le; lra) ltac:(lra)) as E. apply Rabs_le_inv in E.
    assert (D : Rabs (m / KM - m / km) <= 100 * u).
    { replace (m / KM - m / km) with ((m / KM) * ((km - KM) * / km)) by (unfold km; field; lra). rewrite Rabs_mult. apply Rmult_le_compat; try apply Rabs_pos; [apply Rabs_le; lra|].
      rewrite Rabs_mult, (Rabs_pos_eq (/ km)) by (unfold km; lra). rewrite <- Rabs_Ropp. replace (- (km - KM)) with (KM - km) by ring. apply Rle_trans with (u / 2 * / km); [apply Rmult_le_compat_r; [unfold km; lra|exact N]|]. unfold km. lra. }
    apply Rabs_le_inv in D. apply Rabs_le. lra.
  - apply rnd_ge; [apply (dbl_Z 0); lia|lra].
Qed.
Lemma fmodesp_ok : forall x0 xs qs, xs <> [] -> Forall2 (fun x q => fspeed_bin x = Ok (speed_bin q)) xs qs ->
  exists y v m, fmodesp (x0 :: map Some xs) = Ok (Some y) /\ is y v /\ modal_knots qs m /\ Rabs (v - Q2R m / km) <= 300 * u /\ (Q2R m = 17 / 2 \/ 21 / 2 <= Q2R m <= 69 / 2).
Proof.
  intros x0 xs qs N F. assert (NQ : qs <> []) by (destruct F; [contradiction|discriminate]).
  destruct (modesp_ok None qs NQ) as [a [m [A [M C]]]]. destruct F as [|x q xs qs E F]; [contradiction|].
  pose proof (hist_ok (x :: xs) (q :: qs) (Forall2_cons _ _ E F) (repeat 0%Z 12)) as HH. cbn [map] in *. cbn [modesp] in A. cbn [fmodesp]. rewrite HH.
  apply bind_Ok in A. destruct A as [freq [HF A]]. rewrite HF. cbn [bind].
  pose proof (top_range freq 0 0 (-32768)) as TR. rewrite (hist_length _ _ _ HF), repeat_length in TR. specialize (TR ltac:(lia)). set (i := top_bin freq 0 0 (-32768)) in *. clearbody i.
  assert (I0 : (0 <= Z.of_nat i <= 11)%Z) by lia. pose proof (centre_ok (Z.of_nat i) I0) as I. assert (RI : 0 <= IZR (Z.of_nat i) <= 11) by (split; apply IZR_le; lia).
  assert (I8 : is (fq (17 # 2)) (17 / 2)).
  { pose proof (is_fq (17 # 2) ltac:(cbn; lia) ltac:(cbn; lia)) as K. cbn [Qnum Qden] in K. rewrite rnd_id in K; [exact K|]. replace (17 / 2) with (IZR 17 * bpow radix2 (-1)) by (cbn; lra). apply dbl_scaled; lia. }
  cbv zeta. rewrite (fle_is _ _ _ _ I I8).
  assert (QM : Q2R m = if Rle_bool (3 * IZR (Z.of_nat i) + 3 / 2) (17 / 2) then 17 / 2 else 3 * IZR (Z.of_nat i) + 3 / 2).
  { injection A as A. unfold nm in C. rewrite <- A in C. change km_to_nm with (539957 # 1000000)%Q in C.
    assert (C' : (m == (if Qleb (inject_Z (Z.of_nat i + 1) * 3 - (3 # 2)) (17 # 2) then 17 # 2 else inject_Z (Z.of_nat i + 1) * 3 - (3 # 2)))%Q).
    { set (b := (if Qleb _ _ then _ else _)) in *. setoid_replace m with (m / (539957 # 1000000) * (539957 # 1000000))%Q by field. rewrite <- C. field. }
    rewrite (Qeq_eqR _ _ C'). assert (V : Q2R (inject_Z (Z.of_nat i + 1) * 3 - (3 # 2)) = 3 * IZR (Z.of_nat i) + 3 / 2).
    { rewrite Q2R_minus, Q2R_mult, Q2R_Z, plus_IZR. unfold Q2R. cbn. lra. }
    assert (V8 : Q2R (17 # 2) = 17 / 2) by (unfold Q2R; cbn; lra).
    rewrite Qleb_R, V, V8. destruct (Rle_bool _ _); assumption. }
  assert (R8 : Q2R m = 17 / 2 \/ 21 / 2 <= Q2R m <= 69 / 2).
  { rewrite QM. destruct (Rle_bool_spec (3 * IZR (Z.of_nat i) + 3 / 2) (17 / 2)) as [L|L]; [now left|right]. split; [|lra].
    assert (3 <= Z.of_nat i)%Z. { apply Z.le_ngt. intro Z. assert (IZR (Z.of_nat i) <= 2) by (apply IZR_le; lia). lra. } assert (3 <= IZR (Z.of_nat i)) by (now apply IZR_le). lra. }
  set (z := if Rle_bool _ _ then fq (17 # 2) else _).
  assert (IZ : is z (Q2R m)) by (unfold z; rewrite QM; destruct (Rle_bool _ _); [exact I8|exact I]).
  destruct (to_km z (Q2R m) IZ ltac:(destruct R8; lra)) as [v [Y1 [Y2 _]]]. exists (fdiv z fkm), v, m. auto.
Qed.
Lemma limits_near : forall y v m, is y v -> Rabs (v - m / km) <= 300 * u -> m = 17 / 2 \/ 21 / 2 <= m <= 69 / 2 ->
  exists a b c ra rb rc, fset_speed_limits (Some y) = (a, b, c) /\ is a ra /\ is b rb /\ is c rc /\
    ((m = 17 / 2 /\ Rabs (ra - 15 / km) <= 1000 * u /\ Rabs (rb - 20 / km) <= 1000 * u /\ rc = 0) \/
     (21 / 2 <= m /\ Rabs (ra - 5 / 4 * m / km) <= 1000 * u /\ Rabs (rb - 30 / km) <= 1000 * u /\ Rabs (rc - 3 / 4 * m / km) <= 1000 * u)).
Proof.
  intros y v m I N M. pose proof u_pos as U. pose proof KM_pos as K.
  pose proof (is_fq (851 # 100) ltac:(cbn; lia) ltac:(cbn; lia)) as I1. cbn [Qnum Qden] in I1. set (w := rnd (851 / 100)) in *.
  assert (W : 850 / 100 <= w <= 852 / 100). { unfold w. pose proof (err_le (851 / 100) 10 ltac:(apply Rabs_le; lra) ltac:(lra)) as E. apply Rabs_le_inv in E. lra. }
  destruct (to_km _ _ I1 ltac:(lra)) as [t [T1 [T2 _]]]. apply Rabs_le_inv in T2, N.
  assert (E851 : Rabs (w - 851 / 100) <= 11 * u). { unfold w. pose proof (err_le (851 / 100) 10 ltac:(apply Rabs_le; lra) ltac:(lra)) as E. apply Rabs_le_inv in E. apply Rabs_le. lra. } apply Rabs_le_inv in E851.
  destruct (to_km _ _ (is_fz 30 ltac:(lia)) ltac:(lra)) as [r30 [J30 [E30 _]]]. destruct (to_km _ _ (is_fz 15 ltac:(lia)) ltac:(lra)) as [r15 [J15 [E15 _]]]. destruct (to_km _ _ (is_fz 20 ltac:(lia)) ltac:(lra)) as [r20 [J20 [E20 _]]].
  apply Rabs_le_inv in E30, E15, E20.
  unfold fset_speed_limits. cbv zeta. rewrite (fle_is _ _ _ _ I T1). unfold km in *.
  destruct M as [M|M].
  - rewrite Rle_bool_true by lra. exists (fdiv (fz 15) fkm), (fdiv (fz 20) fkm), (fdiv (fz 0) fkm), r15, r20, 0. split; [reflexivity|]. split; [exact J15|]. split; [exact J20|]. split.
    + pose proof (is_div (fz 0) fkm 0 KM (is_fz 0 ltac:(lia)) is_fkm ltac:(lra)) as Z. replace (0 / KM) with 0 in Z by (field; lra). rewrite rnd_id in Z by (apply (dbl_Z 0); lia). apply Z. rewrite Rabs_R0. apply bpow_ge_0.
    + left. split; [exact M|]. repeat split; try (apply Rabs_le; lra).
  - rewrite Rle_bool_false by lra.
    assert (I54 : is (fq (5 # 4)) (5 / 4)).
    { pose proof (is_fq (5 # 4) ltac:(cbn; lia) ltac:(cbn; lia)) as Z. cbn [Qnum Qden] in Z. rewrite rnd_id in Z; [exact Z|]. replace (5 / 4) with (IZR 5 * bpow radix2 (-2)) by (cbn; lra). apply dbl_scaled; lia. }
    assert (I34 : is (fq (3 # 4)) (3 / 4)).
    { pose proof (is_fq (3 # 4) ltac:(cbn; lia) ltac:(cbn; lia)) as Z. cbn [Qnum Qden] in Z. rewrite rnd_id in Z; [exact Z|]. replace (3 / 4) with (IZR 3 * bpow radix2 (-2)) by (cbn; lra). apply dbl_scaled; lia. }
    assert (V : 0 <= v <= 70) by lra.
    exists (fmul y (fq (5 # 4))), (fdiv (fz 30) fkm), (fmul y (fq (3 # 4))), (rnd (v * (5 / 4))), r30, (rnd (v * (3 / 4))). split; [reflexivity|]. split; [apply is_mul; [exact I|exact I54|inbig]|]. split; [exact J30|]. split; [apply is_mul; [exact I|exact I34|inbig]|].
    pose proof (err_le (v * (5 / 4)) 100 ltac:(apply Rabs_le; lra) ltac:(lra)) as E1. pose proof (err_le (v * (3 / 4)) 100 ltac:(apply Rabs_le; lra) ltac:(lra)) as E2. apply Rabs_le_inv in E1, E2.
    right. split; [lra|]. repeat split; apply Rabs_le; lra.
Qed.
