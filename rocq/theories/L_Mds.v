(** The older grid lookups: the cell, borders included. *)
Require Import String ZArith QArith Qround Qabs List Bool Lia Lqa.
Require Import ZifyBool.
Require Import Verif.M_Base Verif.L_Base Verif.M_Calendar Verif.M_Grid Verif.L_Grid Verif.L_Grid2 Verif.S_Grid.
Import ListNotations.
Open Scope Z_scope.

Section Mds.
Variable rs : Q. Variable m : Z.
Hypothesis Hm : 0 < m.
Hypothesis Hr : (rs == 90 / inject_Z m)%Q.
Hypothesis He : (1 # 1000 < rs)%Q.

Lemma step_rs : (step (2 * m) == rs)%Q.
Proof. unfold step. rewrite (mds_rs_plain rs m Hm Hr). reflexivity. Qed.

Lemma mds_row_unique : forall lat y y', mds_row (2 * m) y lat -> mds_row (2 * m) y' lat -> y = y'.
Proof.
  intros lat y y' [R H] [R' H']. rewrite step_rs in H, H'. pose proof (mds_rsm rs m Hm Hr) as Hrm.
  destruct (Ztrichotomy y y') as [C|[C|C]]; [|exact C|]; exfalso.
  - assert (inject_Z y + 1 <= inject_Z y')%Q by (rewrite <- inj1, <- inject_Z_plus; apply inject_Z_le; lia).
    assert (inject_Z y' <= 2 * inject_Z m - 1)%Q by (rewrite <- inj1, <- inj2, <- inject_Z_mult, <- inject_Z_minus; apply inject_Z_le; lia).
    assert ((inject_Z y + 1) * rs <= inject_Z y' * rs)%Q by nra.
    destruct H as [[A [B [D|[D E]]]]|[A [B [D|[D E]]]]], H' as [[A' [B' [D'|[D' E']]]]|[A' [B' [D'|[D' E']]]]]; try lia; try lra.
  - assert (inject_Z y' + 1 <= inject_Z y)%Q by (rewrite <- inj1, <- inject_Z_plus; apply inject_Z_le; lia).
    assert (inject_Z y <= 2 * inject_Z m - 1)%Q by (rewrite <- inj1, <- inj2, <- inject_Z_mult, <- inject_Z_minus; apply inject_Z_le; lia).
    assert ((inject_Z y' + 1) * rs <= inject_Z y * rs)%Q by nra.
    destruct H as [[A [B [D|[D E]]]]|[A [B [D|[D E]]]]], H' as [[A' [B' [D'|[D' E']]]]|[A' [B' [D'|[D' E']]]]]; try lia; try lra.
Qed.

Lemma mds_col_unique : forall lon x x', mds_col (2 * m) x lon -> mds_col (2 * m) x' lon -> x = x'.
Proof.
  intros lon x x' [R H] [R' H']. rewrite step_rs in H, H'. pose proof (mds_rsm rs m Hm Hr) as Hrm.
  destruct (Ztrichotomy x x') as [C|[C|C]]; [|exact C|]; exfalso.
  - assert (inject_Z x + 1 <= inject_Z x')%Q by (rewrite <- inj1, <- inject_Z_plus; apply inject_Z_le; lia).
    assert (inject_Z x' <= 4 * inject_Z m - 1)%Q by (change 4%Q with (inject_Z 4); rewrite <- inj1, <- inject_Z_mult, <- inject_Z_minus; apply inject_Z_le; lia).
    assert ((inject_Z x + 1) * rs <= inject_Z x' * rs)%Q by nra.
    destruct H as [[A [B [D|[D E]]]]|[A [B [D|[D E]]]]], H' as [[A' [B' [D'|[D' E']]]]|[A' [B' [D'|[D' E']]]]]; try lia; try lra.
  - assert (inject_Z x' + 1 <= inject_Z x)%Q by (rewrite <- inj1, <- inject_Z_plus; apply inject_Z_le; lia).
    assert (inject_Z x <= 4 * inject_Z m - 1)%Q by (change 4%Q with (inject_Z 4); rewrite <- inj1, <- inject_Z_mult, <- inject_Z_minus; apply inject_Z_le; lia).
    assert ((inject_Z x' + 1) * rs <= inject_Z x * rs)%Q by nra.
    destruct H as [[A [B [D|[D E]]]]|[A [B [D|[D E]]]]], H' as [[A' [B' [D'|[D' E']]]]|[A' [B' [D'|[D' E']]]]]; try lia; try lra.
Qed.

Lemma mds_lat_exact : forall lat, (-90 <= lat)%Q -> (lat <= 90)%Q -> mds_row (2 * m) (mds_lat_to_yindex lat rs) lat.
Proof.
  intros lat H1 H2. pose proof (mds_rsm rs m Hm Hr) as Hrm. pose proof (mds_90 rs m Hm Hr) as H90. pose proof (injZ_pos m Hm) as Hp.
  unfold mds_row. rewrite step_rs. unfold mds_lat_to_yindex. cbv zeta.
  set (l1 := if Qeqb lat (-90) then (lat + (1 # 1000))%Q else lat).
  set (l2 := if Qeqb l1 90 then (l1 - (1 # 1000))%Q else l1).
  assert (HL : (lat == -90 /\ l2 == -90 + (1 # 1000) \/ lat == 90 /\ l2 == 90 - (1 # 1000) \/
               -90 < lat /\ lat < 90 /\ l2 == lat)%Q).
  { unfold l2, l1. destruct (Qeqb lat (-90)) eqn:E; qprop.
    - destruct (Qeqb (lat + (1 # 1000)) 90) eqn:F; qprop; [lra|left; split; lra].
    - destruct (Qeqb lat 90) eqn:F; qprop; [right; left; split; lra|].
      right; right. apply Qle_lteq in H1, H2. destruct H1 as [H1|H1]; [|exfalso; apply E; lra].
      destruct H2 as [H2|H2]; [|exfalso; apply F; lra]. split; [lra|]. split; [lra|]. reflexivity. }
  clearbody l2. clear l1.
  destruct (Qltb 0 lat) eqn:E; qprop.
  - destruct (mds_trunc_pos rs He l2 m) as [A [B C]]; [lra|lra|lra|].
    set (t := py_int (l2 / rs)) in *. clearbody t.
    rewrite (py_int_eq_inject _ (m - 1 - t)) by (rewrite H90; injz; reflexivity).
    injz. split; [lia|]. left. split; [exact E|].
    assert (inject_Z t <= inject_Z m - 1)%Q by (rewrite <- inj1, <- inject_Z_minus; apply inject_Z_le; lia).
    destruct HL as [[L1 L2]|[[L1 L2]|[L1 [L2 L3]]]]; [lra| |split; [nra|left; nra]].
    assert (t = m - 1).
    { assert (m - 1 < t + 1); [|lia]. apply inject_Z_lt_inv. injz. nra. }
    subst t. injz. split; [nra|right; split; [lia|exact L1]].
  - destruct (mds_trunc_neg rs He l2 m) as [A [B C]]; [lra|lra|].
    set (t := py_int (l2 / rs)) in *. clearbody t.
    rewrite (py_int_eq_inject _ (m - t)) by (rewrite H90; injz; reflexivity).
    injz. split; [lia|]. right. split; [exact E|].
    destruct HL as [[L1 L2]|[[L1 L2]|[L1 [L2 L3]]]]; [ |lra|split; [nra|left; nra]].
    assert (t = - m + 1).
    { assert (t - 1 < - m + 1); [|lia]. apply inject_Z_lt_inv. injz. nra. }
    subst t. injz. split; [nra|right; split; [lia|exact L1]].
Qed.

Lemma mds_lon_exact : forall lon, (-180 <= lon)%Q -> (lon <= 180)%Q -> mds_col (2 * m) (mds_lon_to_xindex lon rs) lon.
Proof.
  intros lon H1 H2. pose proof (mds_rsm rs m Hm Hr) as Hrm. pose proof (mds_180 rs m Hm Hr) as H90. pose proof (injZ_pos m Hm) as Hp.
  unfold mds_col. rewrite step_rs. unfold mds_lon_to_xindex. cbv zeta.
  set (l1 := if Qeqb lon (-180) then (lon + (1 # 1000))%Q else lon).
  set (l2 := if Qeqb l1 180 then (l1 - (1 # 1000))%Q else l1).
  assert (HL : (lon == -180 /\ l2 == -180 + (1 # 1000) \/ lon == 180 /\ l2 == 180 - (1 # 1000) \/
               -180 < lon /\ lon < 180 /\ l2 == lon)%Q).
  { unfold l2, l1. destruct (Qeqb lon (-180)) eqn:E; qprop.
    - destruct (Qeqb (lon + (1 # 1000)) 180) eqn:F; qprop; [lra|left; split; lra].
    - destruct (Qeqb lon 180) eqn:F; qprop; [right; left; split; lra|].
      right; right. apply Qle_lteq in H1, H2. destruct H1 as [H1|H1]; [|exfalso; apply E; lra].
      destruct H2 as [H2|H2]; [|exfalso; apply F; lra]. split; [lra|]. split; [lra|]. reflexivity. }
  clearbody l2. clear l1.
  destruct (Qltb 0 l2) eqn:E; qprop.
  - destruct (mds_trunc_pos rs He l2 (2 * m)) as [A [B C]]; [injz; lra|lra|injz; lra|].
    set (t := py_int (l2 / rs)) in *. clearbody t.
    rewrite (py_int_eq_inject _ (t + 2 * m)) by (rewrite H90; injz; reflexivity).
    injz. split; [lia|]. left. split; [destruct HL as [HL|[HL|HL]]; lra|].
    assert (inject_Z t <= 2 * inject_Z m - 1)%Q by (rewrite <- inj1, <- inj2, <- inject_Z_mult, <- inject_Z_minus; apply inject_Z_le; lia).
    destruct HL as [[L1 L2]|[[L1 L2]|[L1 [L2 L3]]]]; [lra| |split; [nra|left; nra]].
    assert (t = 2 * m - 1).
    { assert (2 * m - 1 < t + 1); [|lia]. apply inject_Z_lt_inv. injz. nra. }
    subst t. injz. split; [nra|right; split; [lia|exact L1]].
  - destruct (mds_trunc_neg rs He l2 (2 * m)) as [A [B C]]; [lra|injz; lra|].
    set (t := py_int (l2 / rs)) in *. clearbody t.
    rewrite (py_int_eq_inject _ (t + 2 * m - 1)) by (rewrite H90; injz; reflexivity).
    injz. split; [lia|]. right. split; [destruct HL as [HL|[HL|HL]]; lra|].
    destruct HL as [[L1 L2]|[[L1 L2]|[L1 [L2 L3]]]]; [ |lra|split; [nra|left; nra]].
    assert (t = - (2 * m) + 1).
    { assert (t - 1 < - (2 * m) + 1); [|lia]. apply inject_Z_lt_inv. injz. nra. }
    subst t. injz. split; [nra|right; split; [lia|exact L1]].
Qed.

Lemma mds_lat_iff : forall lat y, (-90 <= lat)%Q -> (lat <= 90)%Q -> (mds_lat_to_yindex lat rs = y <-> mds_row (2 * m) y lat).
Proof.
  intros lat y H1 H2. split; [intros <-; now apply mds_lat_exact|].
  intro H. eapply mds_row_unique; [now apply mds_lat_exact|exact H].
Qed.
Lemma mds_lon_iff : forall lon x, (-180 <= lon)%Q -> (lon <= 180)%Q -> (mds_lon_to_xindex lon rs = x <-> mds_col (2 * m) x lon).
Proof.
  intros lon x H1 H2. split; [intros <-; now apply mds_lon_exact|].
  intro H. eapply mds_col_unique; [now apply mds_lon_exact|exact H].
Qed.
End Mds.
