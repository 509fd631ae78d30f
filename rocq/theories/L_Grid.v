(** Lemmas about the grid lookup functions. *)
Require Import String ZArith QArith Qround Qabs List Bool Lia Lqa.
Require Import ZifyBool.
Require Import Verif.M_Base Verif.L_Base Verif.M_Calendar Verif.M_Grid.
Import ListNotations.
Open Scope Z_scope.

(** Uniqueness of the truncated value for non-negative arguments. *)
Lemma py_int_unique : forall q z, (0 <= q)%Q -> (inject_Z z <= q)%Q -> (q < inject_Z z + 1)%Q -> py_int q = z.
Proof. intros q z H0 H1 H2. rewrite py_int_pos by exact H0. now apply Qfloor_unique. Qed.

Lemma py_int_bounds_pos : forall q, (0 <= q)%Q ->
  (inject_Z (py_int q) <= q)%Q /\ (q < inject_Z (py_int q) + 1)%Q /\ 0 <= py_int q.
Proof.
  intros q H. rewrite py_int_pos by exact H. destruct (Qfloor_spec q) as [A B].
  split; [exact A|]. split; [exact B|]. apply Z.lt_succ_r. apply inject_Z_lt_inv.
  unfold Z.succ. rewrite inject_Z_plus. change (inject_Z 1) with 1%Q. change (inject_Z 0) with 0%Q. lra.
Qed.

Lemma py_int_bounds_neg : forall q, (q <= 0)%Q ->
  (q <= inject_Z (py_int q))%Q /\ (inject_Z (py_int q) - 1 < q)%Q /\ py_int q <= 0.
Proof.
  intros q H. destruct (Qle_lt_or_eq _ _ H) as [H1|H1].
  - rewrite py_int_neg by exact H1. destruct (Qfloor_spec (- q)) as [A B].
    rewrite inject_Z_opp. split; [lra|]. split; [lra|].
    assert (0 < Qfloor (- q) + 1); [|lia]. apply inject_Z_lt_inv. rewrite inject_Z_plus.
    change (inject_Z 1) with 1%Q. change (inject_Z 0) with 0%Q. lra.
  - destruct (py_int_bounds_pos q ltac:(lra)) as [A [B C]].
    assert (py_int q = 0) as ->.
    { assert (py_int q < 1); [|lia]. apply inject_Z_lt_inv. change (inject_Z 1) with 1%Q. lra. }
    change (inject_Z 0) with 0%Q. split; [lra|]. split; [lra|lia].
Qed.

Lemma py_int_inject : forall z, py_int (inject_Z z) = z.
Proof.
  intro z. unfold py_int. destruct (Qle_bool 0 (inject_Z z)).
  - apply Qfloor_Z.
  - rewrite <- inject_Z_opp, Qfloor_Z. lia.
Qed.

Lemma py_int_comp : forall p q, (p == q)%Q -> py_int p = py_int q.
Proof.
  intros p q H. unfold py_int.
  replace (Qle_bool 0 p) with (Qle_bool 0 q).
  - destruct (Qle_bool 0 q); rewrite H; reflexivity.
  - destruct (Qle_bool 0 q) eqn:E, (Qle_bool 0 p) eqn:F; auto; qprop; lra.
Qed.

Lemma py_int_eq_inject : forall q z, (q == inject_Z z)%Q -> py_int q = z.
Proof. intros q z H. rewrite (py_int_comp _ _ H). apply py_int_inject. Qed.

(** Division by the cell size 180/n. *)
Lemma div_cell : forall a n, 0 < n -> (a / (180 / inject_Z n) == a * inject_Z n / 180)%Q.
Proof.
  intros a n H. field. intro C. apply (inject_Z_lt 0 n) in H. change (inject_Z 0) with 0%Q in H. lra.
Qed.

Lemma injZ_pos : forall n, 0 < n -> (0 < inject_Z n)%Q.
Proof. intros n H. apply (inject_Z_lt 0 n) in H. exact H. Qed.

(** Unified form of lat_to_yindex for cell size 180/n. *)
Lemma lat_to_yindex_form : forall lat rs n, 0 < n -> (rs == 180 / inject_Z n)%Q ->
  lat_to_yindex lat rs =
  (let y := py_int ((90 - lat) * inject_Z n / 180) in
   let y := if n <=? y then n - 1 else y in if y <? 0 then 0 else y).
Proof.
  intros lat rs n Hn Hr. pose proof (injZ_pos n Hn) as Hp. unfold lat_to_yindex.
  assert (Dw : (180 / rs == inject_Z n)%Q) by (rewrite Hr; field; lra).
  destruct (Qeqb rs 1) eqn:E; qprop.
  - assert (n = 180).
    { assert (Hrn : (rs * inject_Z n == 180)%Q) by (rewrite Hr; field; lra).
      rewrite E in Hrn. apply Z.le_antisymm; apply inject_Z_le_inv; change (inject_Z 180) with 180%Q; lra. }
    subst n. rewrite (py_int_comp ((90 - lat) * inject_Z 180 / 180) (90 - lat)).
    2:{ change (inject_Z 180) with 180%Q. field. }
    reflexivity.
  - rewrite (py_int_comp ((90 - lat) / rs) ((90 - lat) * inject_Z n / 180)).
    2:{ rewrite Hr. field. lra. }
    set (y := py_int ((90 - lat) * inject_Z n / 180)). cbv zeta.
    replace (Qleb (180 / rs) (inject_Z y)) with (n <=? y).
    + rewrite (py_int_eq_inject (180 / rs - 1) (n - 1)). reflexivity.
      rewrite Dw, inject_Z_minus. change (inject_Z 1) with 1%Q. reflexivity.
    + destruct (n <=? y) eqn:F.
      * symmetry. qprop. rewrite Dw. apply inject_Z_le. lia.
      * symmetry. qprop. rewrite Dw. apply inject_Z_lt. lia.
Qed.

(** Cell location: [y] is the row of [lat] on a grid of [n] rows from the North Pole. *)
Lemma lat_to_yindex_cell : forall lat rs n, 0 < n -> (rs == 180 / inject_Z n)%Q ->
  (-90 <= lat)%Q -> (lat <= 90)%Q ->
  let y := lat_to_yindex lat rs in
  0 <= y < n /\
  (90 - (inject_Z y + 1) * rs <= lat)%Q /\ (lat <= 90 - inject_Z y * rs)%Q /\
  ((lat == 90 - (inject_Z y + 1) * rs)%Q -> (lat == -90)%Q).
Proof.
  intros lat rs n Hn Hr H1 H2 y0. pose proof (injZ_pos n Hn) as Hp.
  assert (Hrp : (0 < rs)%Q) by (rewrite Hr; apply Qlt_shift_div_l; lra).
  assert (Hrn : (rs * inject_Z n == 180)%Q) by (rewrite Hr; field; lra).
  subst y0. rewrite (lat_to_yindex_form lat rs n Hn Hr). cbv zeta.
  set (q := ((90 - lat) * inject_Z n / 180)%Q).
  assert (Hq : (q * rs == 90 - lat)%Q) by (unfold q; rewrite Hr; field; lra).
  assert (Hq0 : (0 <= q)%Q).
  { destruct (Qlt_le_dec q 0) as [C|C]; [|exact C]. exfalso.
    assert (q * rs < 0)%Q by nra. lra. }
  assert (Hqn : (q <= inject_Z n)%Q).
  { destruct (Qlt_le_dec (inject_Z n) q) as [C|C]; [|exact C]. exfalso.
    assert (inject_Z n * rs < q * rs)%Q by nra. lra. }
  destruct (py_int_bounds_pos q Hq0) as [A [B C]].
  set (y := py_int q) in *.
  destruct (n <=? y) eqn:E.
  - replace (n - 1 <? 0) with false by lia.
    assert (inject_Z n <= inject_Z y)%Q by (apply inject_Z_le; lia).
    assert (Hqe : (q == inject_Z n)%Q) by lra.
    rewrite inject_Z_minus. change (inject_Z 1) with 1%Q.
    assert (lat == -90)%Q by (rewrite Hqe in Hq; lra).
    split; [lia|]. split; [lra|]. split; [lra|]. auto.
  - replace (y <? 0) with false by lia.
    split; [lia|].
    assert (inject_Z y * rs <= q * rs)%Q by nra.
    assert (q * rs < (inject_Z y + 1) * rs)%Q by nra.
    split; [lra|]. split; [lra|]. intro F. lra.
Qed.

(** The cell is unique, so the lookup is determined by its specification. *)
Lemma lat_cell_unique : forall lat rs y y', (0 < rs)%Q ->
  (90 - (inject_Z y + 1) * rs < lat)%Q -> (lat <= 90 - inject_Z y * rs)%Q ->
  (90 - (inject_Z y' + 1) * rs < lat)%Q -> (lat <= 90 - inject_Z y' * rs)%Q -> y = y'.
Proof.
  intros lat rs y y' Hr A B C D.
  assert (inject_Z y < inject_Z (y' + 1))%Q by (rewrite inject_Z_plus; change (inject_Z 1) with 1%Q; nra).
  assert (inject_Z y' < inject_Z (y + 1))%Q by (rewrite inject_Z_plus; change (inject_Z 1) with 1%Q; nra).
  apply inject_Z_lt_inv in H, H0. lia.
Qed.

Lemma lat_to_yindex_clamps : forall lat rs n, 0 < n -> (rs == 180 / inject_Z n)%Q ->
  ((90 <= lat)%Q -> lat_to_yindex lat rs = 0) /\ ((lat <= -90)%Q -> lat_to_yindex lat rs = n - 1).
Proof.
  intros lat rs n Hn Hr. pose proof (injZ_pos n Hn) as Hp.
  rewrite (lat_to_yindex_form lat rs n Hn Hr). cbv zeta.
  set (q := ((90 - lat) * inject_Z n / 180)%Q).
  assert (Hq : (q * 180 == (90 - lat) * inject_Z n)%Q) by (unfold q; field).
  split; intro H.
  - assert (q <= 0)%Q by nra. destruct (py_int_bounds_neg q H0) as [_ [_ C]].
    replace (n <=? py_int q) with false by lia. destruct (py_int q <? 0) eqn:E; lia.
  - assert (inject_Z n <= q)%Q by nra.
    assert (0 <= q)%Q by lra. destruct (py_int_bounds_pos q H1) as [A [B C]].
    assert (n <= py_int q).
    { apply Z.lt_succ_r. apply inject_Z_lt_inv. unfold Z.succ. rewrite inject_Z_plus.
      change (inject_Z 1) with 1%Q. lra. }
    replace (n <=? py_int q) with true by lia. replace (n - 1 <? 0) with false by lia. reflexivity.
Qed.

Lemma lat_to_yindex_mono : forall lat lat' rs n, 0 < n -> (rs == 180 / inject_Z n)%Q ->
  (lat <= lat')%Q -> lat_to_yindex lat' rs <= lat_to_yindex lat rs.
Proof.
  intros lat lat' rs n Hn Hr H. pose proof (injZ_pos n Hn) as Hp.
  rewrite (lat_to_yindex_form lat rs n Hn Hr), (lat_to_yindex_form lat' rs n Hn Hr). cbv zeta.
  assert (L : py_int ((90 - lat') * inject_Z n / 180) <= py_int ((90 - lat) * inject_Z n / 180)).
  { assert (K : forall a b, (a <= b)%Q -> py_int a <= py_int b).
    { intros a b K. destruct (Qlt_le_dec a 0) as [Ha|Ha].
      - destruct (Qlt_le_dec b 0) as [Hb|Hb].
        + rewrite !py_int_neg by assumption.
          assert (Qfloor (- b) <= Qfloor (- a)) by (apply Qfloor_resp_le; lra). lia.
        + destruct (py_int_bounds_neg a ltac:(lra)) as [_ [_ C]].
          destruct (py_int_bounds_pos b Hb) as [_ [_ D]]. lia.
      - rewrite !py_int_pos by lra. now apply Qfloor_resp_le. }
    apply K. apply Qle_shift_div_l; [lra|].
    assert ((90 - lat') * inject_Z n / 180 * 180 == (90 - lat') * inject_Z n)%Q by field.
    nra. }
  set (a := py_int ((90 - lat') * inject_Z n / 180)) in *. set (b := py_int ((90 - lat) * inject_Z n / 180)) in *.
  clearbody a b. destruct (n <=? a) eqn:E1, (n <=? b) eqn:E2;
    repeat match goal with |- context [if ?c then _ else _] => destruct c eqn:? end; lia.
Qed.

(** lon_to_xindex. *)
Lemma wrap_down_spec : forall fuel x w, (0 < w)%Q -> (0 <= x)%Q ->
  (Qfloor (x / w) <= Z.of_nat fuel) ->
  exists x' k, wrap_down fuel x w = Some x' /\ (0 <= x')%Q /\ (x' < w)%Q /\ (x' == x - inject_Z k * w)%Q.
Proof.
  induction fuel as [|f IH]; intros x w Hw Hx Hf; cbn [wrap_down]; destruct (Qleb w x) eqn:E; qprop.
  - exfalso. assert (1 <= Qfloor (x / w)); [|lia].
    apply Z.lt_succ_r. apply inject_Z_lt_inv. destruct (Qfloor_spec (x / w)) as [_ B].
    unfold Z.succ. rewrite inject_Z_plus. change (inject_Z 1) with 1%Q.
    assert (1 <= x / w)%Q by (apply Qle_shift_div_l; lra). lra.
  - exists x, 0. change (inject_Z 0) with 0%Q. repeat split; auto; lra.
  - destruct (IH (x - w)%Q w Hw ltac:(lra)) as [x' [k [A [B [C D]]]]].
    + assert (Qfloor ((x - w) / w) = Qfloor (x / w) - 1) as ->; [|lia].
      destruct (Qfloor_spec (x / w)) as [A B]. apply Qfloor_unique.
      * rewrite inject_Z_minus. change (inject_Z 1) with 1%Q.
        assert ((x - w) / w == x / w - 1)%Q by (field; lra). lra.
      * rewrite inject_Z_minus. change (inject_Z 1) with 1%Q.
        assert ((x - w) / w == x / w - 1)%Q by (field; lra). lra.
    + exists x', (k + 1). rewrite inject_Z_plus. change (inject_Z 1) with 1%Q.
      repeat split; auto; lra.
  - exists x, 0. change (inject_Z 0) with 0%Q. repeat split; auto; lra.
Qed.

(** [x] is the column of [lon] on a grid of [2n] columns from 180W, modulo a whole number of turns. *)
Lemma lon_to_xindex_cell : forall lon rs n, 0 < n -> (rs == 180 / inject_Z n)%Q -> (-540 <= lon)%Q ->
  exists x k, lon_to_xindex lon rs = Some x /\ 0 <= x < 2 * n /\
    (-180 + inject_Z x * rs <= lon + 360 * inject_Z k)%Q /\
    (lon + 360 * inject_Z k < -180 + (inject_Z x + 1) * rs)%Q.
Proof.
  intros lon rs n Hn Hr Hl. pose proof (injZ_pos n Hn) as Hp.
  assert (Hrp : (0 < rs)%Q) by (rewrite Hr; apply Qlt_shift_div_l; lra).
  assert (Hrn : (rs * inject_Z n == 180)%Q) by (rewrite Hr; field; lra).
  unfold lon_to_xindex. cbv zeta.
  set (l1 := if Qleb 180 lon then (-180 + (lon - 180))%Q else lon).
  assert (H1 : exists k, (l1 == lon + 360 * inject_Z k)%Q /\ (-540 <= l1)%Q).
  { unfold l1. destruct (Qleb 180 lon) eqn:E; qprop.
    - exists (-1). change (inject_Z (-1)) with (-1)%Q. split; lra.
    - exists 0. change (inject_Z 0) with 0%Q. split; lra. }
  set (l2 := if Qltb l1 (-180) then (l1 + 360)%Q else l1).
  assert (H2 : exists k, (l2 == lon + 360 * inject_Z k)%Q /\ (-180 <= l2)%Q).
  { destruct H1 as [k [K1 K2]]. unfold l2. destruct (Qltb l1 (-180)) eqn:E; qprop.
    - exists (k + 1). rewrite inject_Z_plus. change (inject_Z 1) with 1%Q. split; lra.
    - exists k. split; lra. }
  clearbody l2. clear H1. clearbody l1. destruct H2 as [k [K1 K2]].
  assert (W : ((if Qeqb rs 1 then 360 else 360 / rs) == 2 * inject_Z n)%Q).
  { destruct (Qeqb rs 1) eqn:E; qprop.
    - rewrite E in Hrn. lra.
    - assert (360 / rs * rs == 360)%Q by (field; lra).
      assert ((360 / rs - 2 * inject_Z n) * rs == 0)%Q by (rewrite Qmult_comm; lra).
      destruct (Qmult_integral _ _ H0); lra. }
  assert (X : (if Qeqb rs 1 then py_int (l2 + 180) else py_int ((l2 + 180) / rs)) = py_int ((l2 + 180) / rs)).
  { destruct (Qeqb rs 1) eqn:E; qprop; [|reflexivity]. apply py_int_comp. rewrite E. field. }
  rewrite X. clear X. set (w := (if Qeqb rs 1 then 360 else 360 / rs)%Q) in *.
  set (q := ((l2 + 180) / rs)%Q).
  assert (Hq : (q * rs == l2 + 180)%Q) by (unfold q; field; lra).
  assert (Hq0 : (0 <= q)%Q).
  { destruct (Qlt_le_dec q 0) as [C|C]; [|exact C]. exfalso. assert (q * rs < 0)%Q by nra. lra. }
  destruct (py_int_bounds_pos q Hq0) as [A [B C]]. set (z := py_int q) in *. clearbody z.
  destruct (wrap_down_spec (S (Z.to_nat (Qfloor (inject_Z z / w)))) (inject_Z z) w) as [x' [j [D1 [D2 [D3 D4]]]]].
  - lra.
  - apply (inject_Z_le 0 z). exact C.
  - lia.
  - rewrite D1. rewrite W in D4.
    assert (XE : (x' == inject_Z (z - 2 * n * j))%Q).
    { rewrite D4. rewrite inject_Z_minus, !inject_Z_mult. change (inject_Z 2) with 2%Q. ring. }
    rewrite (py_int_eq_inject _ _ XE).
    exists (z - 2 * n * j), (k - j). split; [reflexivity|]. split; [|split].
    + split.
      * apply inject_Z_le_inv. rewrite <- XE. exact D2.
      * apply inject_Z_lt_inv. rewrite <- XE. rewrite W in D3. rewrite inject_Z_mult. exact D3.
    + rewrite !inject_Z_minus, !inject_Z_mult. change (inject_Z 2) with 2%Q.
      assert (inject_Z z * rs <= q * rs)%Q by nra.
      assert (2 * inject_Z n * inject_Z j * rs == 360 * inject_Z j)%Q.
      { setoid_replace (2 * inject_Z n * inject_Z j * rs)%Q with (2 * inject_Z j * (rs * inject_Z n))%Q by ring.
        rewrite Hrn. ring. }
      lra.
    + rewrite !inject_Z_minus, !inject_Z_mult. change (inject_Z 2) with 2%Q.
      assert (q * rs < (inject_Z z + 1) * rs)%Q by nra.
      assert (2 * inject_Z n * inject_Z j * rs == 360 * inject_Z j)%Q.
      { setoid_replace (2 * inject_Z n * inject_Z j * rs)%Q with (2 * inject_Z j * (rs * inject_Z n))%Q by ring.
        rewrite Hrn. ring. }
      lra.
Qed.

Lemma lon_cell_unique : forall lon rs n x x' k k', 0 < n -> (rs == 180 / inject_Z n)%Q ->
  0 <= x < 2 * n -> 0 <= x' < 2 * n ->
  (-180 + inject_Z x * rs <= lon + 360 * inject_Z k)%Q ->
  (lon + 360 * inject_Z k < -180 + (inject_Z x + 1) * rs)%Q ->
  (-180 + inject_Z x' * rs <= lon + 360 * inject_Z k')%Q ->
  (lon + 360 * inject_Z k' < -180 + (inject_Z x' + 1) * rs)%Q -> x = x'.
Proof.
  intros lon rs n x x' k k' Hn Hr Hx Hx' A B C D. pose proof (injZ_pos n Hn) as Hp.
  assert (Hrp : (0 < rs)%Q) by (rewrite Hr; apply Qlt_shift_div_l; lra).
  assert (Hrn : (rs * inject_Z n == 180)%Q) by (rewrite Hr; field; lra).
  (* x - 2nk and x' - 2nk' are both the floor of the same number *)
  assert (E : x - 2 * n * k = x' - 2 * n * k').
  { assert (F : forall z j, (inject_Z (z - 2 * n * j) * rs == inject_Z z * rs - 360 * inject_Z j)%Q).
    { intros z j. rewrite inject_Z_minus, !inject_Z_mult. change (inject_Z 2) with 2%Q.
      setoid_replace (360 * inject_Z j)%Q with (2 * (rs * inject_Z n) * inject_Z j)%Q by (rewrite Hrn; ring). ring. }
    pose proof (F x k) as F1. pose proof (F x' k') as F2.
    set (u := x - 2 * n * k) in *. set (v := x' - 2 * n * k') in *.
    assert (inject_Z u < inject_Z (v + 1))%Q by (rewrite inject_Z_plus; change (inject_Z 1) with 1%Q; nra).
    assert (inject_Z v < inject_Z (u + 1))%Q by (rewrite inject_Z_plus; change (inject_Z 1) with 1%Q; nra).
    apply inject_Z_lt_inv in H, H0. lia. }
  assert (x - x' = 2 * n * (k - k')) by lia.
  assert (k - k' = 0) by nia. lia.
Qed.

Lemma lon_to_xindex_periodic : forall lon rs n, 0 < n -> (rs == 180 / inject_Z n)%Q -> (-540 <= lon)%Q ->
  lon_to_xindex (lon + 360) rs = lon_to_xindex lon rs.
Proof.
  intros lon rs n Hn Hr H.
  destruct (lon_to_xindex_cell lon rs n Hn Hr H) as [x [k [A [B [C D]]]]].
  destruct (lon_to_xindex_cell (lon + 360) rs n Hn Hr ltac:(lra)) as [x' [k' [A' [B' [C' D']]]]].
  rewrite A, A'. f_equal. symmetry.
  apply (lon_cell_unique lon rs n x x' k (k' + 1)); auto; rewrite inject_Z_plus; change (inject_Z 1) with 1%Q; lra.
Qed.

(** Grid centres. *)
Lemma yindex_to_lat_spec : forall y rs n, 0 < n -> (rs == 180 / inject_Z n)%Q ->
  (0 <= y < n -> yindex_to_lat y rs = Ok (90 - inject_Z y * rs - rs / 2)%Q) /\  (~ 0 <= y < n -> yindex_to_lat y rs = Err AssertionError).
Proof.
  intros y rs n Hn Hr. pose proof (injZ_pos n Hn) as Hp. unfold yindex_to_lat.
  assert (Dw : (180 / rs == inject_Z n)%Q) by (rewrite Hr; field; lra).
  split; intro H.
  - rewrite py_assert_true by lia. rewrite bind_ok. rewrite py_assert_true. reflexivity.
    qprop. rewrite Dw. apply inject_Z_lt. lia.
  - destruct (0 <=? y) eqn:E; [|reflexivity]. rewrite (py_assert_true true eq_refl), bind_ok.
    rewrite py_assert_false. reflexivity. qprop. rewrite Dw. apply inject_Z_le. lia.
Qed.

Lemma xindex_to_lon_spec : forall x rs n, 0 < n -> (rs == 180 / inject_Z n)%Q ->
  (0 <= x < 2 * n -> xindex_to_lon x rs = Ok (inject_Z x * rs - 180 + rs / 2)%Q) /\  (~ 0 <= x < 2 * n -> xindex_to_lon x rs = Err AssertionError).
Proof.
  intros x rs n Hn Hr. pose proof (injZ_pos n Hn) as Hp. unfold xindex_to_lon.
  assert (Dw : (360 / rs == inject_Z (2 * n))%Q)
    by (rewrite Hr, inject_Z_mult; change (inject_Z 2) with 2%Q; field; lra).
  split; intro H.
  - rewrite py_assert_true by lia. rewrite bind_ok. rewrite py_assert_true. reflexivity.
    qprop. rewrite Dw. apply inject_Z_lt. lia.
  - destruct (0 <=? x) eqn:E; [|reflexivity]. rewrite (py_assert_true true eq_refl), bind_ok.
    rewrite py_assert_false. reflexivity. qprop. rewrite Dw. apply inject_Z_le. lia.
Qed.

Lemma lat_centre_inverse : forall y rs n, 0 < n -> (rs == 180 / inject_Z n)%Q -> 0 <= y < n ->
  exists lat, yindex_to_lat y rs = Ok lat /\ (-90 < lat)%Q /\ (lat < 90)%Q /\ lat_to_yindex lat rs = y.
Proof.
  intros y rs n Hn Hr Hy. pose proof (injZ_pos n Hn) as Hp.
  assert (Hrp : (0 < rs)%Q) by (rewrite Hr; apply Qlt_shift_div_l; lra).
  assert (Hrn : (rs * inject_Z n == 180)%Q) by (rewrite Hr; field; lra).
  eexists. split; [apply (yindex_to_lat_spec y rs n Hn Hr); exact Hy|].
  assert (Y1 : (0 <= inject_Z y)%Q) by (apply (inject_Z_le 0); lia).
  assert (Y2 : (inject_Z y <= inject_Z n - 1)%Q).
  { change 1%Q with (inject_Z 1). rewrite <- inject_Z_minus. apply inject_Z_le. lia. }
  assert (Hh : (rs / 2 == (1 # 2) * rs)%Q) by field.
  assert (B1 : (-90 < 90 - inject_Z y * rs - rs / 2)%Q) by (rewrite Hh; nra).
  assert (B2 : (90 - inject_Z y * rs - rs / 2 < 90)%Q) by (rewrite Hh; nra).
  split; [exact B1|]. split; [exact B2|].
  destruct (lat_to_yindex_cell (90 - inject_Z y * rs - rs / 2) rs n Hn Hr) as [C1 [C2 [C3 C4]]]; try lra.
  apply (lat_cell_unique (90 - inject_Z y * rs - rs / 2) rs); try assumption; try (rewrite Hh; lra).
  apply Qle_lteq in C2. destruct C2 as [C2|C2]; [exact C2|]. symmetry in C2. apply C4 in C2. lra.
Qed.

Lemma lon_centre_inverse : forall x rs n, 0 < n -> (rs == 180 / inject_Z n)%Q -> 0 <= x < 2 * n ->
  exists lon, xindex_to_lon x rs = Ok lon /\ (-180 < lon)%Q /\ (lon < 180)%Q /\ lon_to_xindex lon rs = Some x.
Proof.
  intros x rs n Hn Hr Hx. pose proof (injZ_pos n Hn) as Hp.
  assert (Hrp : (0 < rs)%Q) by (rewrite Hr; apply Qlt_shift_div_l; lra).
  assert (Hrn : (rs * inject_Z n == 180)%Q) by (rewrite Hr; field; lra).
  eexists. split; [apply (xindex_to_lon_spec x rs n Hn Hr); exact Hx|].
  assert (Y1 : (0 <= inject_Z x)%Q) by (apply (inject_Z_le 0); lia).
  assert (Y2 : (inject_Z x <= 2 * inject_Z n - 1)%Q).
  { change 1%Q with (inject_Z 1). change 2%Q with (inject_Z 2). rewrite <- inject_Z_mult, <- inject_Z_minus.
    apply inject_Z_le. lia. }
  assert (Hh : (rs / 2 == (1 # 2) * rs)%Q) by field.
  assert (B1 : (-180 < inject_Z x * rs - 180 + rs / 2)%Q) by (rewrite Hh; nra).
  assert (B2 : (inject_Z x * rs - 180 + rs / 2 < 180)%Q) by (rewrite Hh; nra).
  split; [exact B1|]. split; [exact B2|].
  destruct (lon_to_xindex_cell (inject_Z x * rs - 180 + rs / 2) rs n Hn Hr) as [x' [k [C1 [C2 [C3 C4]]]]]; try lra.
  rewrite C1. f_equal.
  apply (lon_cell_unique (inject_Z x * rs - 180 + rs / 2) rs n x' x k 0 Hn Hr); try assumption;
    change (inject_Z 0) with 0%Q; rewrite Hh; lra.
Qed.
