(** The number of columns searched. *)
Require Import Reals Lra ZArith Lia.
Require Import Verif.M_BuddyR Verif.L_Trig.
Open Scope R_scope.

Lemma int_part_spec : forall x k, Int_part x = k <-> IZR k <= x < IZR k + 1.
Proof.
  intros x k. split.
  - intros <-. destruct (base_Int_part x). lra.
  - intros [A B]. unfold Int_part. rewrite <- (tech_up x (k + 1)); [lia|rewrite plus_IZR; lra|rewrite plus_IZR; lra].
Qed.

Definition top : R := 89.5 * radcon.
Lemma top_lo : 87 / 10000 < cos top.
Proof.
  unfold top, radcon. destruct (pre_cos_bound (89.5 * (3.1415928 / 180)) 3) as [A _]; try lra. cpoly_in A. lra.
Qed.
Lemma top_hi : cos top < 88 / 10000.
Proof.
  unfold top, radcon. destruct (pre_cos_bound (89.5 * (3.1415928 / 180)) 3) as [_ A]; try lra. cpoly_in A. lra.
Qed.
Lemma top_half : top < PI / 2.
Proof.
  destruct (Rlt_le_dec top (PI / 2)) as [H|H]; [exact H|]. exfalso. pose proof top_lo as T.
  assert (cos top <= 0); [|lra]. apply cos_le_0; [exact H|]. pose proof PI_RGT_0. pose proof PI2_3_2. unfold top, radcon in *. lra.
Qed.
Lemma row_cos : forall y, (0 <= y < 180)%Z -> 87 / 10000 < cos ((89.5 - IZR y) * radcon).
Proof.
  intros y H. assert (A : 0 <= IZR y <= 179) by (split; apply IZR_le; lia). pose proof top_lo. pose proof top_half. pose proof PI_RGT_0.
  set (a := (89.5 - IZR y) * radcon). assert (B : - top <= a <= top) by (unfold top, a, radcon; lra).
  apply Rlt_le_trans with (cos top); [assumption|]. destruct (Rle_lt_dec 0 a) as [P|P].
  - destruct (Rle_lt_or_eq_dec a top) as [L|L]; [lra| |rewrite L; lra]. left. apply cos_decreasing_1; lra.
  - rewrite <- (cos_neg a). destruct (Rle_lt_or_eq_dec (- a) top) as [L|L]; [lra| |rewrite L; lra]. left. apply cos_decreasing_1; lra.
Qed.
Lemma full_xspan_spec : forall s y k, (0 <= s)%Z -> (0 <= y < 180)%Z ->
  (full_xspan s y = k <-> IZR k * cos ((89.5 - IZR y) * radcon) <= IZR s < (IZR k + 1) * cos ((89.5 - IZR y) * radcon)).
Proof.
  intros s y k S Y. pose proof (row_cos y Y) as C. unfold full_xspan, Rint. set (c := cos _) in *.
  assert (S0 : 0 <= IZR s) by (apply IZR_le; lia). assert (D : IZR s / c * c = IZR s) by (field; lra).
  assert (P : 0 <= IZR s / c) by (apply Rmult_le_pos; [exact S0|left; apply Rinv_0_lt_compat; lra]).
  destruct (Rle_dec 0 (IZR s / c)) as [_|N]; [|contradiction]. rewrite int_part_spec. split; intros [A B].
  - split; nra.
  - split.
    + apply Rmult_le_reg_r with c; lra.
    + apply Rmult_lt_reg_r with c; lra.
Qed.
Lemma full_xspan_bounds : forall s y, (0 <= s)%Z -> (0 <= y < 180)%Z -> (s <= full_xspan s y)%Z /\ full_xspan s (179 - y) = full_xspan s y.
Proof.
  intros s y S Y. split.
  - pose proof (proj1 (full_xspan_spec s y _ S Y) eq_refl) as [A B]. pose proof (row_cos y Y) as C. pose proof (COS_bound ((89.5 - IZR y) * radcon)) as [_ C1].
    assert (S0 : 0 <= IZR s) by (apply IZR_le; lia).
    assert (s < full_xspan s y + 1)%Z; [|lia]. apply lt_IZR. rewrite plus_IZR. set (k := IZR (full_xspan s y)) in *. 
    assert (0 < k + 1) by nra. nra.
  - assert (Y' : (0 <= 179 - y < 180)%Z) by lia. apply (full_xspan_spec s (179 - y) _ S Y').
    pose proof (proj1 (full_xspan_spec s y _ S Y) eq_refl) as A. rewrite minus_IZR.
    replace ((89.5 - (179 - IZR y)) * radcon) with (- ((89.5 - IZR y) * radcon)) by lra. now rewrite cos_neg.
Qed.
Lemma full_xspan_poles : (180 <= full_xspan 2 0)%Z /\ (180 <= full_xspan 2 179)%Z /\ (360 <= full_xspan 4 0)%Z.
Proof.
  assert (G : forall s, (0 < s)%Z -> 100 * IZR s <= IZR (full_xspan s 0)).
  { intros s S. pose proof (proj1 (full_xspan_spec s 0 _ ltac:(lia) ltac:(lia)) eq_refl) as [A B]. pose proof top_hi as T. pose proof top_lo as T'.
    replace ((89.5 - 0) * radcon) with top in A, B by (unfold top; lra). assert (1 <= IZR s) by (apply IZR_le; lia). set (k := IZR (full_xspan s 0)) in *. nra. }
  pose proof (G 2%Z ltac:(lia)). pose proof (G 4%Z ltac:(lia)).
  split; [apply le_IZR; lra|]. split; [|apply le_IZR; lra].
  replace 179%Z with (179 - 0)%Z by lia. rewrite (proj2 (full_xspan_bounds 2 0 ltac:(lia) ltac:(lia))). apply le_IZR. lra.
Qed.
