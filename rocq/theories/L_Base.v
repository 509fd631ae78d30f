(** Generic lemmas about the Base vocabulary. *)
Require Import String ZArith QArith Qround List Bool Lia Lqa Permutation.
Require Import ZifyBool.
Require Import Verif.M_Base.
Import ListNotations.
Open Scope Z_scope.

Lemma bind_Ok : forall A B (x : res A) (f : A -> res B) b,
  bind x f = Ok b -> exists a, x = Ok a /\ f a = Ok b.
Proof. intros A B [a|e] f b H; simpl in H; [eauto | discriminate]. Qed.

Lemma bind_ok : forall A B (a : A) (f : A -> res B), bind (Ok a) f = f a.
Proof. reflexivity. Qed.

Lemma bind_err : forall A B e (f : A -> res B), bind (Err e) f = Err e.
Proof. reflexivity. Qed.

Lemma py_assert_true : forall b, b = true -> py_assert b = Ok tt.
Proof. intros b ->; reflexivity. Qed.

Lemma py_assert_false : forall b, b = false -> py_assert b = Err AssertionError.
Proof. intros b ->; reflexivity. Qed.

Lemma py_nth_nonneg : forall A (l : list A) i a,
  nth_error l (Z.to_nat i) = Some a -> 0 <= i -> py_nth l i = Ok a.
Proof.
  intros A l i a H Hi. unfold py_nth.
  assert (Hlt : (Z.to_nat i < length l)%nat) by (apply nth_error_Some; congruence).
  replace (i <? 0) with false by lia.
  replace ((i <? 0) || (Z.of_nat (length l) <=? i)) with false by lia.
  now rewrite H.
Qed.

Lemma py_nth_Ok_range : forall A (l : list A) i a,
  py_nth l i = Ok a -> - Z.of_nat (length l) <= i < Z.of_nat (length l).
Proof.
  intros A l i a. unfold py_nth.
  destruct (i <? 0) eqn:Hi.
  - destruct ((i + Z.of_nat (length l) <? 0) || (Z.of_nat (length l) <=? i + Z.of_nat (length l))) eqn:E;
      [discriminate|]. lia.
  - destruct ((i <? 0) || (Z.of_nat (length l) <=? i)) eqn:E; [discriminate|]. lia.
Qed.

Lemma py_nth_total : forall A (l : list A) i,
  0 <= i < Z.of_nat (length l) -> exists a, py_nth l i = Ok a /\ nth_error l (Z.to_nat i) = Some a.
Proof.
  intros A l i Hi.
  destruct (nth_error l (Z.to_nat i)) eqn:E.
  - exists a. split; auto. apply py_nth_nonneg; auto; lia.
  - apply nth_error_None in E. lia.
Qed.

Lemma py_nth_Ok_nonneg : forall A (l : list A) i a,
  py_nth l i = Ok a -> 0 <= i -> nth_error l (Z.to_nat i) = Some a.
Proof.
  intros A l i a H Hi. pose proof (py_nth_Ok_range _ _ _ _ H).
  destruct (py_nth_total _ l i ltac:(lia)) as [b [Hb1 Hb2]]. congruence.
Qed.

(** Reflection of rational comparisons. *)
Lemma Qleb_true : forall x y, Qleb x y = true <-> (x <= y)%Q.
Proof. intros; apply Qle_bool_iff. Qed.
Lemma Qleb_false : forall x y, Qleb x y = false <-> (y < x)%Q.
Proof.
  intros x y; split; intro H.
  - apply Qnot_le_lt; intro C. apply Qleb_true in C. congruence.
  - destruct (Qleb x y) eqn:E; auto. apply Qleb_true in E. exfalso. lra.
Qed.
Lemma Qltb_true : forall x y, Qltb x y = true <-> (x < y)%Q.
Proof.
  intros x y. unfold Qltb. rewrite negb_true_iff. apply (Qleb_false y x).
Qed.
Lemma Qltb_false : forall x y, Qltb x y = false <-> (y <= x)%Q.
Proof.
  intros x y. unfold Qltb. rewrite negb_false_iff. apply (Qleb_true y x).
Qed.
Lemma Qeqb_true : forall x y, Qeqb x y = true <-> (x == y)%Q.
Proof. intros; apply Qeq_bool_iff. Qed.
Lemma Qeqb_false : forall x y, Qeqb x y = false <-> ~ (x == y)%Q.
Proof.
  intros x y; split; intro H.
  - intro C. apply Qeqb_true in C. congruence.
  - destruct (Qeqb x y) eqn:E; auto. apply Qeqb_true in E. tauto.
Qed.

(** [qb H]: turn boolean comparison hypotheses/goals into order facts. *)
Ltac qprop :=
  repeat match goal with
  | H : Qleb _ _ = true |- _ => apply Qleb_true in H
  | H : Qleb _ _ = false |- _ => apply Qleb_false in H
  | H : Qltb _ _ = true |- _ => apply Qltb_true in H
  | H : Qltb _ _ = false |- _ => apply Qltb_false in H
  | H : Qeqb _ _ = true |- _ => apply Qeqb_true in H
  | H : Qeqb _ _ = false |- _ => apply Qeqb_false in H
  | H : Qle_bool _ _ = true |- _ => apply Qleb_true in H
  | H : Qle_bool _ _ = false |- _ => apply Qleb_false in H
  | |- Qleb _ _ = true => apply Qleb_true
  | |- Qleb _ _ = false => apply Qleb_false
  | |- Qltb _ _ = true => apply Qltb_true
  | |- Qltb _ _ = false => apply Qltb_false
  | |- Qeqb _ _ = true => apply Qeqb_true
  | |- Qeqb _ _ = false => apply Qeqb_false
  | |- Qle_bool _ _ = true => apply Qleb_true
  | |- Qle_bool _ _ = false => apply Qleb_false
  | H : _ && _ = true |- _ => apply andb_true_iff in H; destruct H
  | H : _ || _ = false |- _ => apply orb_false_iff in H; destruct H
  | H : negb _ = true |- _ => apply negb_true_iff in H
  | H : negb _ = false |- _ => apply negb_false_iff in H
  end.

Lemma Qabs'_nonneg : forall x, (0 <= Qabs' x)%Q.
Proof. intro x; unfold Qabs'; destruct (Qle_bool 0 x) eqn:E; qprop; lra. Qed.
Lemma Qabs'_pos : forall x, (0 <= x -> Qabs' x == x)%Q.
Proof. intros x; unfold Qabs'; destruct (Qle_bool 0 x) eqn:E; qprop; lra. Qed.
Lemma Qabs'_neg : forall x, (x <= 0 -> Qabs' x == - x)%Q.
Proof. intros x; unfold Qabs'; destruct (Qle_bool 0 x) eqn:E; qprop; lra. Qed.
Lemma Qabs'_cases : forall x, (0 <= x /\ Qabs' x = x)%Q \/ (x < 0 /\ Qabs' x = - x)%Q.
Proof. intros x; unfold Qabs'; destruct (Qle_bool 0 x) eqn:E; qprop; auto. Qed.

Lemma py_int_pos : forall q, (0 <= q)%Q -> py_int q = Qfloor q.
Proof. intros q H; unfold py_int; destruct (Qle_bool 0 q) eqn:E; auto; qprop; lra. Qed.
Lemma py_int_neg : forall q, (q < 0)%Q -> py_int q = - Qfloor (- q).
Proof. intros q H; unfold py_int; destruct (Qle_bool 0 q) eqn:E; auto; qprop; lra. Qed.

Lemma Qfloor_spec : forall q, (inject_Z (Qfloor q) <= q)%Q /\ (q < inject_Z (Qfloor q) + 1)%Q.
Proof.
  intro q. split; [apply Qfloor_le|].
  pose proof (Qlt_floor q) as H. rewrite inject_Z_plus in H. exact H.
Qed.

Lemma Qfloor_unique : forall q z, (inject_Z z <= q)%Q -> (q < inject_Z z + 1)%Q -> Qfloor q = z.
Proof.
  intros q z H1 H2. destruct (Qfloor_spec q) as [H3 H4].
  assert (inject_Z z < inject_Z (Qfloor q) + 1)%Q by lra.
  assert (inject_Z (Qfloor q) < inject_Z z + 1)%Q by lra.
  change 1%Q with (inject_Z 1) in H, H0.
  rewrite <- inject_Z_plus in H, H0. rewrite <- Zlt_Qlt in H, H0. lia.
Qed.

Lemma inject_Z_le : forall a b, (a <= b)%Z -> (inject_Z a <= inject_Z b)%Q.
Proof. intros a b H; rewrite <- Zle_Qle; exact H. Qed.
Lemma inject_Z_lt : forall a b, (a < b)%Z -> (inject_Z a < inject_Z b)%Q.
Proof. intros a b H; rewrite <- Zlt_Qlt; exact H. Qed.
Lemma inject_Z_le_inv : forall a b, (inject_Z a <= inject_Z b)%Q -> (a <= b)%Z.
Proof. intros a b H; rewrite <- Zle_Qle in H; exact H. Qed.
Lemma inject_Z_lt_inv : forall a b, (inject_Z a < inject_Z b)%Q -> (a < b)%Z.
Proof. intros a b H; rewrite <- Zlt_Qlt in H; exact H. Qed.
Lemma inject_Z_minus : forall a b, (inject_Z (a - b) == inject_Z a - inject_Z b)%Q.
Proof.
  intros a b. unfold Z.sub. rewrite inject_Z_plus, inject_Z_opp. reflexivity.
Qed.
