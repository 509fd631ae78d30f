(** Lemmas about the MDS grid lookups, the four surrounding points, interpolation and
    the climatology class. *)
Require Import String ZArith QArith Qround Qabs List Bool Lia Lqa.
Require Import ZifyBool.
Require Import Verif.M_Base Verif.L_Base Verif.M_Calendar Verif.M_Grid Verif.S_Grid Verif.L_Grid.
Import ListNotations.
Open Scope Z_scope.

Lemma inj1 : inject_Z 1 = 1%Q. Proof. reflexivity. Qed.
Lemma inj0 : inject_Z 0 = 0%Q. Proof. reflexivity. Qed.
Lemma inj2 : inject_Z 2 = 2%Q. Proof. reflexivity. Qed.
Ltac injz := rewrite ?inject_Z_minus, ?inject_Z_plus, ?inject_Z_opp, ?inject_Z_mult, ?inj1, ?inj0, ?inj2 in *.

Section Mds.
Variables (rs : Q) (m : Z).
Hypothesis Hm : 0 < m.
Hypothesis Hr : (rs == 90 / inject_Z m)%Q.
Hypothesis He : (1 # 1000 < rs)%Q.

Lemma mds_rsm : (rs * inject_Z m == 90)%Q.
Proof. pose proof (injZ_pos m Hm). rewrite Hr. field. lra. Qed.
Lemma mds_90 : (90 / rs == inject_Z m)%Q.
Proof. pose proof (injZ_pos m Hm). rewrite Hr. field. lra. Qed.
Lemma mds_180 : (180 / rs == 2 * inject_Z m)%Q.
Proof. pose proof (injZ_pos m Hm). rewrite Hr. field. lra. Qed.

(** truncated quotient of a number strictly between -bound and bound *)
Lemma mds_trunc_pos : forall a M, (inject_Z M * rs <= 360)%Q -> (0 <= a)%Q -> (a < inject_Z M * rs)%Q ->
  let t := py_int (a / rs) in 0 <= t < M /\ (inject_Z t * rs <= a)%Q /\ (a < (inject_Z t + 1) * rs)%Q.
Proof.
  intros a M _ H0 H1 t. assert (Hq : (a / rs * rs == a)%Q) by (field; lra).
  assert (Hq0 : (0 <= a / rs)%Q) by (apply Qle_shift_div_l; lra).
  destruct (py_int_bounds_pos _ Hq0) as [A [B C]]. fold t in A, B, C.
  assert (inject_Z t * rs <= a)%Q by nra. assert (a < (inject_Z t + 1) * rs)%Q by nra.
  split; [split; [exact C|]|auto]. apply inject_Z_lt_inv. nra.
Qed.
Lemma mds_trunc_neg : forall a M, (a <= 0)%Q -> (- (inject_Z M * rs) < a)%Q ->
  let t := py_int (a / rs) in - M < t <= 0 /\ (a <= inject_Z t * rs)%Q /\ ((inject_Z t - 1) * rs < a)%Q.
Proof.
  intros a M H0 H1 t. assert (Hq : (a / rs * rs == a)%Q) by (field; lra).
  assert (Hq0 : (a / rs <= 0)%Q) by (apply Qle_shift_div_r; lra).
  destruct (py_int_bounds_neg _ Hq0) as [A [B C]]. fold t in A, B, C.
  assert (a <= inject_Z t * rs)%Q by nra. assert ((inject_Z t - 1) * rs < a)%Q by nra.
  split; [split; [|exact C]|auto]. apply inject_Z_lt_inv. rewrite inject_Z_opp. nra.
Qed.

Lemma mds_lat_cell : forall lat, (-90 <= lat)%Q -> (lat <= 90)%Q ->
  let y := mds_lat_to_yindex lat rs in
  0 <= y < 2 * m /\ (90 - (inject_Z y + 1) * rs <= lat)%Q /\ (lat <= 90 - inject_Z y * rs)%Q.
Proof.
  intros lat H1 H2. pose proof mds_rsm as Hrm. pose proof mds_90 as H90. pose proof (injZ_pos m Hm) as Hp.
  unfold mds_lat_to_yindex. cbv zeta.
  set (l1 := if Qeqb lat (-90) then (lat + (1 # 1000))%Q else lat).
  set (l2 := if Qeqb l1 90 then (l1 - (1 # 1000))%Q else l1).
  assert (HL : (lat == -90 /\ l2 == -90 + (1 # 1000) \/ lat == 90 /\ l2 == 90 - (1 # 1000) \/
               -90 < lat /\ lat < 90 /\ l2 == lat)%Q).
  { unfold l2, l1. destruct (Qeqb lat (-90)) eqn:E; qprop.
    - destruct (Qeqb (lat + (1 # 1000)) 90) eqn:F; qprop; [lra|left; split; lra].
    - destruct (Qeqb lat 90) eqn:F; qprop; [right; left; split; lra|].
      right; right. apply Qle_lteq in H1, H2. destruct H1 as [H1|H1]; [|exfalso; apply E; lra].
      destruct H2 as [H2|H2]; [|exfalso; apply F; lra]. split; [lra|]. split; [lra|]. reflexivity. }
  clearbody l2. clear l1.
  destruct (Qltb 0 lat) eqn:E; qprop.
  - destruct (mds_trunc_pos l2 m) as [A [B C]]; [lra|lra|lra|].
    set (t := py_int (l2 / rs)) in *. clearbody t.
    rewrite (py_int_eq_inject _ (m - 1 - t)) by (rewrite H90; injz; reflexivity).
    injz. split; [lia|].
    assert (inject_Z t <= inject_Z m - 1)%Q by (rewrite <- inj1, <- inject_Z_minus; apply inject_Z_le; lia).
    destruct HL as [[L1 L2]|[[L1 L2]|[L1 [L2 L3]]]]; [lra| |nra].
    assert (t = m - 1).
    { assert (m - 1 < t + 1); [|lia]. apply inject_Z_lt_inv. injz. nra. }
    subst t. injz. nra.
  - destruct (mds_trunc_neg l2 m) as [A [B C]]; [lra|lra|].
    set (t := py_int (l2 / rs)) in *. clearbody t.
    rewrite (py_int_eq_inject _ (m - t)) by (rewrite H90; injz; reflexivity).
    injz. split; [lia|].
    destruct HL as [[L1 L2]|[[L1 L2]|[L1 [L2 L3]]]]; [ |lra|nra].
    assert (t = - m + 1).
    { assert (t - 1 < - m + 1); [|lia]. apply inject_Z_lt_inv. injz. nra. }
    subst t. injz. nra.
Qed.

Lemma mds_lon_cell : forall lon, (-180 <= lon)%Q -> (lon <= 180)%Q ->
  let x := mds_lon_to_xindex lon rs in
  0 <= x < 4 * m /\ (-180 + inject_Z x * rs <= lon)%Q /\ (lon <= -180 + (inject_Z x + 1) * rs)%Q.
Proof.
  intros lon H1 H2. pose proof mds_rsm as Hrm. pose proof mds_180 as H90. pose proof (injZ_pos m Hm) as Hp.
  unfold mds_lon_to_xindex. cbv zeta.
  set (l1 := if Qeqb lon (-180) then (lon + (1 # 1000))%Q else lon).
  set (l2 := if Qeqb l1 180 then (l1 - (1 # 1000))%Q else l1).
  assert (HL : (lon == -180 /\ l2 == -180 + (1 # 1000) \/ lon == 180 /\ l2 == 180 - (1 # 1000) \/
               -180 < lon /\ lon < 180 /\ l2 == lon)%Q).
  { unfold l2, l1. destruct (Qeqb lon (-180)) eqn:E; qprop.
    - destruct (Qeqb (lon + (1 # 1000)) 180) eqn:F; qprop; [lra|left; split; lra].
    - destruct (Qeqb lon 180) eqn:F; qprop; [right; left; split; lra|].
      right; right. apply Qle_lteq in H1, H2. destruct H1 as [H1|H1]; [|exfalso; apply E; lra].
      destruct H2 as [H2|H2]; [|exfalso; apply F; lra]. split; [lra|]. split; [lra|]. reflexivity. }
  clearbody l2. clear l1.
  destruct (Qltb 0 l2) eqn:E; qprop.
  - destruct (mds_trunc_pos l2 (2 * m)) as [A [B C]]; [injz; lra|lra|injz; lra|].
    set (t := py_int (l2 / rs)) in *. clearbody t.
    rewrite (py_int_eq_inject _ (t + 2 * m)) by (rewrite H90; injz; reflexivity).
    injz. split; [lia|].
    assert (inject_Z t <= 2 * inject_Z m - 1)%Q by (rewrite <- inj1, <- inj2, <- inject_Z_mult, <- inject_Z_minus; apply inject_Z_le; lia).
    destruct HL as [[L1 L2]|[[L1 L2]|[L1 [L2 L3]]]]; [lra| |nra].
    assert (t = 2 * m - 1).
    { assert (2 * m - 1 < t + 1); [|lia]. apply inject_Z_lt_inv. injz. nra. }
    subst t. injz. nra.
  - destruct (mds_trunc_neg l2 (2 * m)) as [A [B C]]; [lra|injz; lra|].
    set (t := py_int (l2 / rs)) in *. clearbody t.
    rewrite (py_int_eq_inject _ (t + 2 * m - 1)) by (rewrite H90; injz; reflexivity).
    injz. split; [lia|].
    destruct HL as [[L1 L2]|[[L1 L2]|[L1 [L2 L3]]]]; [ |lra|nra].
    assert (t = - (2 * m) + 1).
    { assert (t - 1 < - (2 * m) + 1); [|lia]. apply inject_Z_lt_inv. injz. nra. }
    subst t. injz. nra.
Qed.

Lemma mds_rs_plain : (rs == 180 / inject_Z (2 * m))%Q.
Proof. pose proof (injZ_pos m Hm). rewrite Hr. injz. field. lra. Qed.

(** Away from cell borders the two lookups agree. *)
Lemma mds_lat_agrees : forall lat, (-90 <= lat)%Q -> (lat <= 90)%Q ->
  (forall k, ~ (lat == 90 - inject_Z k * rs)%Q) -> mds_lat_to_yindex lat rs = lat_to_yindex lat rs.
Proof.
  intros lat H1 H2 Hb. destruct (mds_lat_cell lat H1 H2) as [A [B C]].
  destruct (lat_to_yindex_cell lat rs (2 * m) ltac:(lia) mds_rs_plain H1 H2) as [D [E [F _]]].
  apply (lat_cell_unique lat rs); try lra.
  - apply Qle_lteq in B. destruct B as [B|B]; [exact B|]. exfalso.
    apply (Hb (mds_lat_to_yindex lat rs + 1)). injz. lra.
  - apply Qle_lteq in E. destruct E as [E|E]; [exact E|]. exfalso.
    apply (Hb (lat_to_yindex lat rs + 1)). injz. lra.
Qed.

Lemma mds_lon_agrees : forall lon, (-180 <= lon)%Q -> (lon <= 180)%Q ->
  (forall k, ~ (lon == -180 + inject_Z k * rs)%Q) -> lon_to_xindex lon rs = Some (mds_lon_to_xindex lon rs).
Proof.
  intros lon H1 H2 Hb. destruct (mds_lon_cell lon H1 H2) as [A [B C]].
  destruct (lon_to_xindex_cell lon rs (2 * m) ltac:(lia) mds_rs_plain ltac:(lra)) as [x [k [D1 [D2 [D3 D4]]]]].
  rewrite D1. f_equal.
  apply (lon_cell_unique lon rs (2 * m) _ _ k 0 ltac:(lia) mds_rs_plain); auto; try lia;
    rewrite ?inj0; try lra.
  apply Qle_lteq in C. destruct C as [C|C]; [lra|]. exfalso.
  apply (Hb (mds_lon_to_xindex lon rs + 1)). injz. lra.
Qed.

(** Above 180E (and at most 360) the index is past the last column. *)
Lemma mds_lon_out_of_range : forall lon, (180 < lon)%Q -> (lon <= 360)%Q ->
  4 * m <= mds_lon_to_xindex lon rs.
Proof.
  intros lon H1 H2. pose proof mds_rsm as Hrm. pose proof mds_180 as H90.
  unfold mds_lon_to_xindex. cbv zeta.
  replace (Qeqb lon (-180)) with false by (symmetry; qprop; lra).
  replace (Qeqb lon 180) with false by (symmetry; qprop; lra).
  replace (Qltb 0 lon) with true by (symmetry; qprop; lra).
  assert (Hq : (lon / rs * rs == lon)%Q) by (field; lra).
  assert (Hq0 : (0 <= lon / rs)%Q) by (apply Qle_shift_div_l; lra).
  destruct (py_int_bounds_pos _ Hq0) as [A [B C]]. set (t := py_int (lon / rs)) in *. clearbody t.
  rewrite (py_int_eq_inject _ (t + 2 * m)) by (rewrite H90; injz; reflexivity).
  assert (2 * m < t + 1); [|lia]. apply inject_Z_lt_inv. injz. nra.
Qed.
End Mds.

(* ---- four surrounding points ---- *)

Lemma one_res : (1 == 180 / inject_Z 180)%Q. Proof. reflexivity. Qed.

Lemma lon_to_xindex_res_cell : forall lon, (-540 <= lon)%Q ->
  exists x k, lon_to_xindex_res lon 1 = Ok x /\ 0 <= x < 360 /\
    (-180 + inject_Z x <= lon + 360 * inject_Z k)%Q /\ (lon + 360 * inject_Z k < -180 + inject_Z x + 1)%Q.
Proof.
  intros lon H. destruct (lon_to_xindex_cell lon 1 180 ltac:(lia) one_res H) as [x [k [A [B [C D]]]]].
  exists x, k. unfold lon_to_xindex_res. rewrite A. split; [reflexivity|]. split; [lia|]. split; lra.
Qed.

Lemma xindex_to_lon_1 : forall x, 0 <= x < 360 ->
  exists l, xindex_to_lon x 1 = Ok l /\ (l == inject_Z x - 180 + (1 # 2))%Q.
Proof.
  intros x H. eexists. split; [apply (xindex_to_lon_spec x 1 180 ltac:(lia) one_res); lia|]. field.
Qed.

Lemma yindex_to_lat_1 : forall y, 0 <= y < 180 ->
  exists l, yindex_to_lat y 1 = Ok l /\ (l == 90 - inject_Z y - (1 # 2))%Q.
Proof.
  intros y H. eexists. split; [apply (yindex_to_lat_spec y 1 180 ltac:(lia) one_res); lia|]. field.
Qed.

(** Integer facts about rationals: [z] with |z| small. *)
Lemma inj_between : forall k : Z, (-2 < inject_Z k)%Q -> (inject_Z k < 2)%Q -> k = -1 \/ k = 0 \/ k = 1.
Proof.
  intros k A B. change (-2)%Q with (inject_Z (-2)) in A. change 2%Q with (inject_Z 2) in B.
  apply inject_Z_lt_inv in A, B. lia.
Qed.
Lemma inj_eq_zero : forall k : Z, (-1 < inject_Z k)%Q -> (inject_Z k < 1)%Q -> k = 0.
Proof.
  intros k A B. change (-1)%Q with (inject_Z (-1)) in A. change 1%Q with (inject_Z 1) in B.
  apply inject_Z_lt_inv in A, B. lia.
Qed.

(** Grid-centre number: half-integers. *)
Definition half_int (x : Q) : Prop := exists k, (x == inject_Z k + (1 # 2))%Q.

Lemma surrounding_lon : forall lon, (-180 <= lon)%Q -> (lon <= 180)%Q ->
  exists i2 x2 i1 x1,
    lon_to_xindex_res (lon + (1 # 2)) 1 = Ok i2 /\ xindex_to_lon i2 1 = Ok x2 /\
    lon_to_xindex_res (lon - (1 # 2)) 1 = Ok i1 /\ xindex_to_lon i1 1 = Ok x1 /\
    (let x2' := if Qltb x2 lon then (x2 + 360)%Q else x2 in
     let x1' := if Qltb lon x1 then (x1 - 360)%Q else x1 in
     (x1' <= lon /\ lon < x2' /\ x2' == x1' + 1)%Q /\ half_int x1').
Proof.
  intros lon H1 H2.
  destruct (lon_to_xindex_res_cell (lon + (1 # 2)) ltac:(lra)) as [i2 [k2 [A1 [A2 [A3 A4]]]]].
  destruct (xindex_to_lon_1 i2 A2) as [x2 [B1 B2]].
  destruct (lon_to_xindex_res_cell (lon - (1 # 2)) ltac:(lra)) as [i1 [k1 [C1 [C2 [C3 C4]]]]].
  destruct (xindex_to_lon_1 i1 C2) as [x1 [D1 D2]].
  exists i2, x2, i1, x1. repeat (split; [assumption|]). cbv zeta.
  assert (I1 : (0 <= inject_Z i1)%Q /\ (inject_Z i1 <= 359)%Q)
    by (split; [apply (inject_Z_le 0)|apply (inject_Z_le i1 359)]; lia).
  assert (I2 : (0 <= inject_Z i2)%Q /\ (inject_Z i2 <= 359)%Q)
    by (split; [apply (inject_Z_le 0)|apply (inject_Z_le i2 359)]; lia).
  assert (K2 : k2 = -1 \/ k2 = 0 \/ k2 = 1) by (apply inj_between; lra).
  assert (K1 : k1 = -1 \/ k1 = 0 \/ k1 = 1) by (apply inj_between; lra).
  assert (X2 : exists j, ((if Qltb x2 lon then x2 + 360 else x2) == inject_Z j + (1 # 2))%Q /\
               (inject_Z j + (1 # 2) <= lon + 1)%Q /\ (lon < inject_Z j + (1 # 2))%Q).
  { destruct (Qltb x2 lon) eqn:E; qprop.
    - exists (i2 + 180). rewrite inject_Z_plus. change (inject_Z 180) with 180%Q.
      destruct K2 as [-> | [-> | ->]];
        [change (inject_Z (-1)) with (-1)%Q in *|change (inject_Z 0) with 0%Q in *|change (inject_Z 1) with 1%Q in *];
        split; try split; lra.
    - exists (i2 - 180). rewrite inject_Z_minus. change (inject_Z 180) with 180%Q.
      destruct K2 as [-> | [-> | ->]];
        [change (inject_Z (-1)) with (-1)%Q in *|change (inject_Z 0) with 0%Q in *|change (inject_Z 1) with 1%Q in *];
        split; try split; lra. }
  assert (X1 : exists j, ((if Qltb lon x1 then x1 - 360 else x1) == inject_Z j + (1 # 2))%Q /\
               (inject_Z j + (1 # 2) <= lon)%Q /\ (lon - 1 < inject_Z j + (1 # 2))%Q).
  { destruct (Qltb lon x1) eqn:E; qprop.
    - exists (i1 - 540). rewrite inject_Z_minus. change (inject_Z 540) with 540%Q.
      destruct K1 as [-> | [-> | ->]];
        [change (inject_Z (-1)) with (-1)%Q in *|change (inject_Z 0) with 0%Q in *|change (inject_Z 1) with 1%Q in *];
        split; try split; lra.
    - exists (i1 - 180). rewrite inject_Z_minus. change (inject_Z 180) with 180%Q.
      destruct K1 as [-> | [-> | ->]];
        [change (inject_Z (-1)) with (-1)%Q in *|change (inject_Z 0) with 0%Q in *|change (inject_Z 1) with 1%Q in *];
        split; try split; lra. }
  destruct X2 as [j2 [E1 [E2 E3]]]. destruct X1 as [j1 [F1 [F2 F3]]].
  assert (j2 = j1 + 1).
  { assert (j2 - j1 - 1 = 0); [|lia]. apply inj_eq_zero; rewrite !inject_Z_minus; change (inject_Z 1) with 1%Q; lra. }
  subst j2. rewrite inject_Z_plus in E1, E2, E3. change (inject_Z 1) with 1%Q in *.
  split; [|exists j1; exact F1]. rewrite E1, F1. split; [lra|]. split; lra.
Qed.

Lemma lat_to_yindex_floor : forall lat, (-90 <= lat)%Q -> (lat <= 90)%Q ->
  let y := lat_to_yindex lat 1 in 0 <= y < 180 /\
  (89 - inject_Z y <= lat)%Q /\ (lat <= 90 - inject_Z y)%Q /\ ((lat == 89 - inject_Z y)%Q -> (lat == -90)%Q).
Proof.
  intros lat H1 H2 y. destruct (lat_to_yindex_cell lat 1 180 ltac:(lia) one_res H1 H2) as [A [B [C D]]].
  fold y in A, B, C, D. split; [exact A|]. split; [lra|]. split; [lra|]. intro E. apply D. lra.
Qed.

Lemma surrounding_lat : forall lat max90, (-90 <= lat)%Q -> (lat <= 90)%Q ->
  exists y1 y2 j,
    (if Qleb (lat + (1 # 2)) 90 then yindex_to_lat (lat_to_yindex (lat + (1 # 2)) 1) 1
     else Ok (if max90 =? 0 then (181 # 2) else (179 # 2))%Q) = Ok y2 /\
    (if Qleb (-90) (lat - (1 # 2)) then yindex_to_lat (lat_to_yindex (lat - (1 # 2)) 1) 1
     else Ok (if max90 =? 0 then - (181 # 2) else - (179 # 2))%Q) = Ok y1 /\
    (inject_Z j - (1 # 2) < lat /\ lat <= inject_Z j + (1 # 2))%Q /\ -90 <= j <= 90 /\
    (y2 == if (j =? 90) && negb (max90 =? 0) then 179 # 2 else inject_Z j + (1 # 2))%Q /\
    (y1 == if Qeqb lat (-(179 # 2)) || (j =? -90) && negb (max90 =? 0) then -(179 # 2) else inject_Z j - (1 # 2))%Q.
Proof.
  intros lat max90 H1 H2.
  assert (Y2 : exists y2 j, (if Qleb (lat + (1 # 2)) 90 then yindex_to_lat (lat_to_yindex (lat + (1 # 2)) 1) 1
     else Ok (if max90 =? 0 then (181 # 2) else (179 # 2))%Q) = Ok y2 /\ -90 <= j <= 90 /\
    (inject_Z j - (1 # 2) < lat /\ lat <= inject_Z j + (1 # 2))%Q /\
    (y2 == if (j =? 90) && negb (max90 =? 0) then 179 # 2 else inject_Z j + (1 # 2))%Q).
  { destruct (Qleb (lat + (1 # 2)) 90) eqn:E; qprop.
    - destruct (lat_to_yindex_floor (lat + (1 # 2)) ltac:(lra) ltac:(lra)) as [A [B [C D]]].
      set (y := lat_to_yindex (lat + (1 # 2)) 1) in *. clearbody y.
      destruct (yindex_to_lat_1 y A) as [l [L1 L2]]. exists l, (89 - y).
      assert (J : (inject_Z (89 - y) == 89 - inject_Z y)%Q) by (rewrite inject_Z_minus; reflexivity).
      split; [exact L1|]. split; [lia|]. split.
      + split; [|lra]. apply Qnot_le_lt. intro K. assert (lat + (1 # 2) == -90)%Q by (apply D; lra). lra.
      + rewrite L2. replace (89 - y =? 90) with false by lia. cbn [andb]. rewrite J. field.
    - eexists; exists 90. split; [reflexivity|]. change (inject_Z 90) with 90%Q. split; [lia|].
      split; [split; lra|]. destruct (max90 =? 0); reflexivity. }
  assert (Y1 : exists y1 j, (if Qleb (-90) (lat - (1 # 2)) then yindex_to_lat (lat_to_yindex (lat - (1 # 2)) 1) 1
     else Ok (if max90 =? 0 then - (181 # 2) else - (179 # 2))%Q) = Ok y1 /\ -90 <= j <= 90 /\
    (inject_Z j - (1 # 2) < lat /\ lat <= inject_Z j + (1 # 2))%Q /\
    (y1 == if Qeqb lat (-(179 # 2)) || (j =? -90) && negb (max90 =? 0) then -(179 # 2) else inject_Z j - (1 # 2))%Q).
  { destruct (Qleb (-90) (lat - (1 # 2))) eqn:E; qprop.
    - destruct (lat_to_yindex_floor (lat - (1 # 2)) ltac:(lra) ltac:(lra)) as [A [B [C D]]].
      set (y := lat_to_yindex (lat - (1 # 2)) 1) in *. clearbody y.
      destruct (yindex_to_lat_1 y A) as [l [L1 L2]].
      assert (inject_Z y <= 179)%Q by (apply (inject_Z_le y 179); lia).
      destruct (Qeqb lat (-(179 # 2))) eqn:F; qprop.
      + exists l, (-90). change (inject_Z (-90)) with (-90)%Q. split; [exact L1|]. split; [lia|].
        split; [split; lra|]. cbn [orb].
        assert (y = 179). { assert (178 < y); [|lia]. apply inject_Z_lt_inv. change (inject_Z 178) with 178%Q. lra. }
        subst y. rewrite L2. reflexivity.
      + exists l, (90 - y).
        assert (J : (inject_Z (90 - y) == 90 - inject_Z y)%Q) by (rewrite inject_Z_minus; reflexivity).
        split; [exact L1|].
        split; [lia|]. split; [split|].
        * apply Qnot_le_lt. intro K. assert (lat - (1 # 2) == -90)%Q by (apply D; lra). apply F. lra.
        * lra.
        * rewrite L2. cbn [orb]. replace (90 - y =? -90) with false by lia. cbn [andb]. rewrite J. field.
    - eexists; exists (-90). split; [reflexivity|]. change (inject_Z (-90)) with (-90)%Q. split; [lia|].
      split; [split; lra|].
      replace (Qeqb lat (-(179 # 2))) with false by (symmetry; qprop; lra).
      destruct (max90 =? 0); reflexivity. }
  destruct Y2 as [y2 [j2 [A1 [A2 [A3 A4]]]]]. destruct Y1 as [y1 [j1 [B1 [B2 [B3 B4]]]]].
  assert (j2 = j1).
  { assert (j2 - j1 = 0); [|lia]. apply inj_eq_zero; rewrite inject_Z_minus; lra. }
  subst j2. exists y1, y2, j1. repeat (split; [assumption|]). assumption.
Qed.

(** The four points. *)
Lemma four_points : forall lat lon max90,
  (-90 <= lat)%Q -> (lat <= 90)%Q -> (-180 <= lon)%Q -> (lon <= 180)%Q ->
  exists x1 x2 y1 y2 i j, get_four_surrounding_points lat lon max90 = Ok (x1, x2, y1, y2) /\
    (x1 == inject_Z i + (1 # 2) /\ x2 == x1 + 1 /\ x1 <= lon /\ lon < x2)%Q /\
    (inject_Z j - (1 # 2) < lat /\ lat <= inject_Z j + (1 # 2))%Q /\ -90 <= j <= 90 /\
    (y2 == if (j =? 90) && negb (max90 =? 0) then 179 # 2 else inject_Z j + (1 # 2))%Q /\
    (y1 == if Qeqb lat (-(179 # 2)) || (j =? -90) && negb (max90 =? 0) then -(179 # 2) else inject_Z j - (1 # 2))%Q.
Proof.
  intros lat lon max90 H1 H2 H3 H4.
  destruct (surrounding_lon lon H3 H4) as [i2 [x2 [i1 [x1 [A1 [A2 [A3 [A4 A5]]]]]]]]. cbv zeta in A5.
  destruct A5 as [[A5 [A6 A7]] [i A8]].
  destruct (surrounding_lat lat max90 H1 H2) as [y1 [y2 [j [B1 [B2 [B3 [B4 [B5 B6]]]]]]]].
  do 4 eexists. exists i, j. unfold get_four_surrounding_points.
  rewrite py_assert_true by (apply andb_true_iff; split; qprop; assumption). rewrite bind_ok.
  rewrite py_assert_true by (apply andb_true_iff; split; qprop; assumption). rewrite bind_ok.
  rewrite A1, bind_ok, A2, bind_ok. cbv zeta. rewrite A3, bind_ok, A4, bind_ok. cbv zeta.
  rewrite B1, bind_ok, B2, bind_ok. split; [reflexivity|].
  split; [|repeat (split; [assumption|]); assumption].
  repeat split; assumption.
Qed.

Lemma four_points_raises : forall lat lon max90,
  ~ ((-90 <= lat)%Q /\ (lat <= 90)%Q /\ (-180 <= lon)%Q /\ (lon <= 180)%Q) ->
  get_four_surrounding_points lat lon max90 = Err AssertionError.
Proof.
  intros lat lon max90 H. unfold get_four_surrounding_points.
  destruct (Qleb (-90) lat && Qleb lat 90) eqn:E; [|reflexivity].
  destruct (Qleb (-180) lon && Qleb lon 180) eqn:F; [|reflexivity].
  exfalso. qprop. apply H. auto.
Qed.

(* ---- interpolation ---- *)

Definition corner_min (a b c d lo : Q) : Prop := (lo <= a /\ lo <= b /\ lo <= c /\ lo <= d)%Q.

Lemma Qmax'_ge : forall a b, (a <= Qmax' a b /\ b <= Qmax' a b)%Q.
Proof. intros a b. unfold Qmax'. destruct (Qle_bool a b) eqn:E; qprop; lra. Qed.
Lemma Qmin'_le : forall a b, (Qmin' a b <= a /\ Qmin' a b <= b)%Q.
Proof. intros a b. unfold Qmin'. destruct (Qle_bool a b) eqn:E; qprop; lra. Qed.

Definition bil (x1 x2 y1 y2 x y q11 q12 q21 q22 : Q) : Q :=
  ((q11 * (x2 - x) * (y2 - y) + q21 * (x - x1) * (y2 - y) + q12 * (x2 - x) * (y - y1) + q22 * (x - x1) * (y - y1))
   / ((x2 - x1) * (y2 - y1)))%Q.

Lemma bil_bounds : forall x1 x2 y1 y2 x y q11 q12 q21 q22 lo hi,
  (x1 <= x)%Q -> (x <= x2)%Q -> (y1 <= y)%Q -> (y <= y2)%Q -> (x1 < x2)%Q -> (y1 < y2)%Q ->
  (lo <= q11 /\ lo <= q12 /\ lo <= q21 /\ lo <= q22)%Q ->
  (q11 <= hi /\ q12 <= hi /\ q21 <= hi /\ q22 <= hi)%Q ->
  (lo <= bil x1 x2 y1 y2 x y q11 q12 q21 q22 /\ bil x1 x2 y1 y2 x y q11 q12 q21 q22 <= hi)%Q.
Proof.
  intros x1 x2 y1 y2 x y q11 q12 q21 q22 lo hi A1 A2 A3 A4 A5 A6 L H.
  assert (D : (0 < (x2 - x1) * (y2 - y1))%Q) by nra.
  assert (W : forall a b, (0 <= a -> 0 <= b -> 0 <= a * b)%Q) by (intros; now apply Qmult_le_0_compat).
  pose proof (W (x2 - x) (y2 - y) ltac:(lra) ltac:(lra))%Q as W1.
  pose proof (W (x - x1) (y2 - y) ltac:(lra) ltac:(lra))%Q as W2.
  pose proof (W (x2 - x) (y - y1) ltac:(lra) ltac:(lra))%Q as W3.
  pose proof (W (x - x1) (y - y1) ltac:(lra) ltac:(lra))%Q as W4.
  assert (S : ((x2 - x1) * (y2 - y1) == (x2 - x) * (y2 - y) + (x - x1) * (y2 - y) + (x2 - x) * (y - y1) + (x - x1) * (y - y1))%Q) by ring.
  assert (T : (q11 * (x2 - x) * (y2 - y) + q21 * (x - x1) * (y2 - y) + q12 * (x2 - x) * (y - y1) + q22 * (x - x1) * (y - y1) ==
    q11 * ((x2 - x) * (y2 - y)) + q21 * ((x - x1) * (y2 - y)) + q12 * ((x2 - x) * (y - y1)) + q22 * ((x - x1) * (y - y1)))%Q) by ring.
  unfold bil. rewrite T. revert D. rewrite S.
  set (w1 := ((x2 - x) * (y2 - y))%Q) in *. set (w2 := ((x - x1) * (y2 - y))%Q) in *.
  set (w3 := ((x2 - x) * (y - y1))%Q) in *. set (w4 := ((x - x1) * (y - y1))%Q) in *.
  clearbody w1 w2 w3 w4. intro D. clear S T W. destruct L as [L1 [L2 [L3 L4]]]. destruct H as [K1 [K2 [K3 K4]]].
  split.
  - apply Qle_shift_div_l; [exact D|].
    pose proof (Qmult_le_compat_r _ _ _ L1 W1). pose proof (Qmult_le_compat_r _ _ _ L3 W2).
    pose proof (Qmult_le_compat_r _ _ _ L2 W3). pose proof (Qmult_le_compat_r _ _ _ L4 W4). lra.
  - apply Qle_shift_div_r; [exact D|].
    pose proof (Qmult_le_compat_r _ _ _ K1 W1). pose proof (Qmult_le_compat_r _ _ _ K3 W2).
    pose proof (Qmult_le_compat_r _ _ _ K2 W3). pose proof (Qmult_le_compat_r _ _ _ K4 W4). lra.
Qed.

Lemma bilinear_value : forall x1 x2 y1 y2 x y q11 q12 q21 q22,
  (x1 <= x)%Q -> (x <= x2)%Q -> (y1 <= y)%Q -> (y <= y2)%Q -> (x1 < x2)%Q -> (y1 < y2)%Q ->
  bilinear_interp x1 x2 y1 y2 x y (Some q11) (Some q12) (Some q21) (Some q22) = Ok (bil x1 x2 y1 y2 x y q11 q12 q21 q22).
Proof.
  intros x1 x2 y1 y2 x y q11 q12 q21 q22 A1 A2 A3 A4 A5 A6. unfold bilinear_interp.
  rewrite py_assert_true by (apply andb_true_iff; split; qprop; assumption). rewrite bind_ok.
  rewrite py_assert_true by (apply andb_true_iff; split; qprop; assumption). rewrite bind_ok.
  rewrite py_assert_true by (qprop; assumption). rewrite bind_ok.
  rewrite py_assert_true by (qprop; assumption). rewrite bind_ok. cbv zeta.
  fold (bil x1 x2 y1 y2 x y q11 q12 q21 q22).
  set (hi := Qmax' (Qmax' (Qmax' q11 q12) q21) q22). set (lo := Qmin' (Qmin' (Qmin' q11 q12) q21) q22).
  destruct (bil_bounds x1 x2 y1 y2 x y q11 q12 q21 q22 lo hi A1 A2 A3 A4 A5 A6) as [B1 B2].
  - unfold lo. pose proof (Qmin'_le q11 q12). pose proof (Qmin'_le (Qmin' q11 q12) q21).
    pose proof (Qmin'_le (Qmin' (Qmin' q11 q12) q21) q22). repeat split; lra.
  - unfold hi. pose proof (Qmax'_ge q11 q12). pose proof (Qmax'_ge (Qmax' q11 q12) q21).
    pose proof (Qmax'_ge (Qmax' (Qmax' q11 q12) q21) q22). repeat split; lra.
  - rewrite py_assert_true by (qprop; lra). rewrite bind_ok.
    rewrite py_assert_true by (qprop; lra). reflexivity.
Qed.

Lemma bilinear_raises : forall x1 x2 y1 y2 x y q11 q12 q21 q22,
  ~ ((x1 <= x)%Q /\ (x <= x2)%Q /\ (y1 <= y)%Q /\ (y <= y2)%Q /\ (x1 < x2)%Q /\ (y1 < y2)%Q) \/
  q11 = None \/ q12 = None \/ q21 = None \/ q22 = None ->
  bilinear_interp x1 x2 y1 y2 x y q11 q12 q21 q22 = Err AssertionError.
Proof.
  intros x1 x2 y1 y2 x y q11 q12 q21 q22 H. unfold bilinear_interp.
  destruct (Qleb x1 x && Qleb x x2) eqn:E1; [|reflexivity].
  destruct (Qleb y1 y && Qleb y y2) eqn:E2; [|reflexivity].
  destruct (Qltb x1 x2) eqn:E3; [|reflexivity].
  destruct (Qltb y1 y2) eqn:E4; [|reflexivity].
  rewrite !(py_assert_true true eq_refl), !bind_ok. cbv zeta.
  destruct H as [H|H]; [exfalso; qprop; apply H; repeat split; assumption|].
  destruct q11 as [q11|]; [|reflexivity]. destruct q12 as [q12|]; [|reflexivity].
  destruct q21 as [q21|]; [|reflexivity]. destruct q22 as [q22|]; [|reflexivity].
  destruct H as [H|[H|[H|H]]]; discriminate.
Qed.

Lemma bilinear_exact : forall x1 x2 y1 y2 x y a b c d, (x1 < x2)%Q -> (y1 < y2)%Q ->
  let f u v := (a + b * u + c * v + d * u * v)%Q in
  (bil x1 x2 y1 y2 x y (f x1 y1) (f x1 y2) (f x2 y1) (f x2 y2) == f x y)%Q.
Proof. intros x1 x2 y1 y2 x y a b c d H1 H2 f. unfold bil, f. field. split; lra. Qed.

Lemma bilinear_corners : forall x1 x2 y1 y2 q11 q12 q21 q22, (x1 < x2)%Q -> (y1 < y2)%Q ->
  (bil x1 x2 y1 y2 x1 y1 q11 q12 q21 q22 == q11 /\ bil x1 x2 y1 y2 x1 y2 q11 q12 q21 q22 == q12 /\
   bil x1 x2 y1 y2 x2 y1 q11 q12 q21 q22 == q21 /\ bil x1 x2 y1 y2 x2 y2 q11 q12 q21 q22 == q22)%Q.
Proof. intros. unfold bil. repeat split; field; split; lra. Qed.

(* ---- filling ---- *)

Lemma missing_mean2 : forall a b, missing_mean [a; b] =
  match a, b with
  | None, None => None
  | Some x, None => Some ((0 + x) / (0 + 1))%Q
  | None, Some y => Some ((0 + y) / (0 + 1))%Q
  | Some x, Some y => Some ((0 + x + y) / (0 + 1 + 1))%Q
  end.
Proof. intros [a|] [b|]; reflexivity. Qed.

Lemma mean1 : forall x : Q, ((0 + x) / (0 + 1) == x)%Q. Proof. intros; field. Qed.
Lemma mean2 : forall x y : Q, ((0 + x + y) / (0 + 1 + 1) == (1 # 2) * (x + y))%Q. Proof. intros; field. Qed.

Lemma fill_all_missing : forall a b c d, fill_missing_vals a b c d = (None, None, None, None) <->
  a = None /\ b = None /\ c = None /\ d = None.
Proof.
  intros [a|] [b|] [c|] [d|]; cbv [fill_missing_vals orelse]; rewrite ?missing_mean2;
    split; try (intros (?&?&?&?)); try discriminate; auto.
Qed.

Lemma fill_exact : forall a b c d a' b' c' d', fill_missing_vals a b c d = (a', b', c', d') ->
  filled a b c d a' /\ filled b a d c b' /\ filled c a d b c' /\ filled d b c a d'.
Proof.
  intros a b c d a' b' c' d' H. unfold fill_missing_vals in H. injection H as <- <- <- <-.
  destruct a as [a|], b as [b|], c as [c|], d as [d|]; cbv [filled orelse]; rewrite ?missing_mean2;
    repeat split; try reflexivity; eexists; (split; [reflexivity|]); rewrite ?mean2, ?mean1; field.
Qed.

Lemma fill_some : forall a b c d, ~ (a = None /\ b = None /\ c = None /\ d = None) ->
  exists a' b' c' d', fill_missing_vals a b c d = (Some a', Some b', Some c', Some d') /\
   (forall v, a = Some v -> a' = v) /\ (forall v, b = Some v -> b' = v) /\
   (forall v, c = Some v -> c' = v) /\ (forall v, d = Some v -> d' = v) /\
   forall lo hi, (forall v, In (Some v) [a; b; c; d] -> (lo <= v /\ v <= hi)%Q) ->
     forall w, In w [a'; b'; c'; d'] -> (lo <= w /\ w <= hi)%Q.
Proof.
  intros a b c d H.
  destruct a as [a|], b as [b|], c as [c|], d as [d|];
    try (exfalso; apply H; repeat split; reflexivity);
    cbv [fill_missing_vals orelse]; rewrite ?missing_mean2; do 4 eexists;
    (split; [reflexivity|]); repeat (split; [intros v E; first [discriminate | congruence]|]);
    intros lo hi K w W;
    repeat match goal with
    | x : Q |- _ => match goal with
        | K : (forall v, In (Some v) ?l -> _) |- _ =>
           lazymatch l with context [Some x] => lazymatch goal with _ : (lo <= x /\ x <= hi)%Q |- _ => fail | _ =>
             assert (lo <= x /\ x <= hi)%Q by (apply K; simpl; auto) end end end
    end; clear K; simpl in W; destruct W as [<-|[<-|[<-|[<-|[]]]]]; rewrite ?mean2, ?mean1; lra.
Qed.
