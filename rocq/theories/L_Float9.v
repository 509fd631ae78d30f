(** Sums of doubles in any order. *)
Require Import ZArith QArith Reals Lra Lia Bool List Permutation.
From Flocq Require Import Core.Core IEEE754.BinarySingleNaN.
Require Import Verif.M_Base Verif.M_Float Verif.S_Float Verif.L_Float Verif.L_Float6 Verif.M_Float5 Verif.S_Float2.
Import ListNotations.
Open Scope R_scope.

Lemma total_app : forall a b, total (a ++ b) = total a + total b.
Proof. induction a as [|x a IH]; intros b; cbn; [ring|rewrite IH; ring]. Qed.
Lemma total_perm : forall a b, Permutation a b -> total a = total b.
Proof. intros a b P. induction P; cbn; lra. Qed.
Lemma total_bound : forall M l, (forall a, In a l -> Rabs a <= M) -> Rabs (total l) <= INR (length l) * M.
Proof.
  intros M l H. induction l as [|a l IH]; cbn [total length].
  - cbn. rewrite Rabs_R0. lra.
  - rewrite S_INR. pose proof (H a (or_introl eq_refl)). assert (Rabs (total l) <= INR (length l) * M) by (apply IH; intros; apply H; now right).
    eapply Rle_trans; [apply Rabs_triang|]. lra.
Qed.
Lemma total_close : forall e a b, Forall2 (fun x y => Rabs (x - y) <= e) a b -> Rabs (total a - total b) <= INR (length a) * e.
Proof.
  intros e a b F. induction F as [|x y a b H F IH]; cbn [total length].
  - cbn. rewrite Rminus_0_r, Rabs_R0. lra.
  - rewrite S_INR. replace (x + total a - (y + total b)) with ((x - y) + (total a - total b)) by ring. eapply Rle_trans; [apply Rabs_triang|]. lra.
Qed.
Lemma are_app_inv : forall a b c, are (a ++ b) c -> exists c1 c2, c = c1 ++ c2 /\ are a c1 /\ are b c2.
Proof. intros a b c F. apply Forall2_app_inv_l in F. destruct F as [c1 [c2 [A [B ->]]]]. eauto. Qed.
Lemma are_perm : forall a b, Permutation a b -> forall c, are b c -> exists d, are a d /\ Permutation d c.
Proof.
  intros a b P. induction P as [|x a b P IH|x y a|a b c P IH P' IH']; intros q F.
  - inversion F. subst. exists []. split; [constructor|constructor].
  - inversion F as [|? y' ? q' Hx Hr]. subst. destruct (IH _ Hr) as [d [D E]]. exists (y' :: d). split; [apply Forall2_cons; assumption|now constructor].
  - inversion F as [|? x' ? q' Hx Hr]. subst. inversion Hr as [|? y' ? q'' Hy Hr']. subst. exists (y' :: x' :: q''). split; [apply Forall2_cons; [assumption|apply Forall2_cons; assumption]|constructor].
  - destruct (IH' _ F) as [d [D E]]. destruct (IH _ D) as [d' [D' E']]. exists d'. split; [exact D'|now transitivity d].
Qed.
Lemma are_length : forall a b, are a b -> length a = length b.
Proof. intros a b F. induction F; cbn; congruence. Qed.

(** The error of a sum of n terms of at most M. *)
Lemma fsum_ok : forall N M, 1 <= M -> (1 <= N)%nat -> INR N * M <= 10000000000 -> INR N <= 1000000 -> forall t c, are (terms t) c -> (forall a, In a c -> Rabs a <= M) -> (length c <= N)%nat ->
  exists s, is (fsum t) s /\ (c = [] -> s = 0) /\ Rabs (s - total c) <= INR (Nat.pred (length c)) * (3 * (INR N * M) * u).
Proof.
  intros N M HM HN HB HI. pose proof u_pos as U. assert (N1 : 1 <= INR N) by (apply (le_INR 1); lia). set (B := INR N * M) in *.
  assert (B1 : 1 <= B) by (unfold B; rewrite <- (Rmult_1_l 1); apply Rmult_le_compat; lra).
  assert (BU : 0 <= 3 * B * u) by (apply Rmult_le_pos; lra).
  assert (TB : INR N * (3 * B * u) <= B / 4).
  { apply Rle_trans with (1000000 * (3 * B * (12 / 100000000000000000))); [|lra]. apply Rmult_le_compat; try lra. apply Rmult_le_compat; lra. }
  induction t as [|x|a IHa b IHb]; intros c F Q L; cbn [fsum terms] in *.
  - inversion F. subst. exists 0. split; [exact (is_fz 0 ltac:(lia))|]. split; [reflexivity|]. cbn [total length Nat.pred INR]. rewrite Rminus_0_r, Rabs_R0. lra.
  - inversion F as [|? q ? ? Hx Hr]. subst. inversion Hr. subst. exists q. split; [exact Hx|]. split; [discriminate|]. cbn [total length Nat.pred INR]. replace (q - (q + 0)) with 0 by ring. rewrite Rabs_R0. lra.
  - apply are_app_inv in F. destruct F as [c1 [c2 [-> [F1 F2]]]]. rewrite app_length in L.
    destruct (IHa c1 F1) as [s1 [I1 [Z1 E1]]]; [intros; apply Q, in_or_app; now left|lia|].
    destruct (IHb c2 F2) as [s2 [I2 [Z2 E2]]]; [intros; apply Q, in_or_app; now right|lia|].
    assert (T : Rabs (total (c1 ++ c2)) <= B). { eapply Rle_trans; [apply (total_bound M), Q|]. rewrite app_length. apply Rmult_le_compat_r; [lra|]. now apply le_INR. }
    rewrite total_app in *. rewrite app_length.
    set (n1 := Nat.pred (length c1)) in *. set (n2 := Nat.pred (length c2)) in *.
    assert (LE : (INR n1 + INR n2) * (3 * B * u) <= B / 4). { eapply Rle_trans; [apply Rmult_le_compat_r; [exact BU|]; rewrite <- plus_INR; apply le_INR; apply Nat.le_trans with (length c1 + length c2)%nat; [unfold n1, n2; lia|exact L]|exact TB]. }
    assert (A : Rabs (s1 + s2 - (total c1 + total c2)) <= (INR n1 + INR n2) * (3 * B * u)).
    { replace (s1 + s2 - (total c1 + total c2)) with ((s1 - total c1) + (s2 - total c2)) by ring. eapply Rle_trans; [apply Rabs_triang|]. lra. }
    assert (S2 : Rabs (s1 + s2) <= 2 * B).
    { replace (s1 + s2) with ((s1 + s2 - (total c1 + total c2)) + (total c1 + total c2)) by ring. eapply Rle_trans; [apply Rabs_triang|]. lra. }
    assert (I : is (fadd (fsum a) (fsum b)) (rnd (s1 + s2))). { apply is_add; [exact I1|exact I2|]. apply small_big. lra. }
    destruct c1 as [|x1 c1]; [|destruct c2 as [|x2 c2]].
    + exists s2. assert (Ez : s1 = 0) by now apply Z1. subst s1. rewrite Rplus_0_l in *. rewrite rnd_id in I by (eapply is_dbl; exact I2). split; [exact I|]. split; [exact Z2|]. cbn [total] in *. rewrite ?Rplus_0_l in *. exact E2.
    + exists s1. assert (Ez : s2 = 0) by now apply Z2. subst s2. rewrite Rplus_0_r in *. rewrite rnd_id in I by (eapply is_dbl; exact I1). split; [exact I|]. split; [discriminate|]. cbn [total] in *. rewrite ?Rplus_0_r in *. rewrite Nat.add_0_r. exact E1.
    + exists (rnd (s1 + s2)). split; [exact I|]. split; [discriminate|]. set (d1 := x1 :: c1) in *. set (d2 := x2 :: c2) in *.
      replace (Nat.pred (length d1 + length d2)) with (Datatypes.S (n1 + n2)) by (unfold n1, n2, d1, d2; cbn; lia). rewrite S_INR, plus_INR.
      replace (rnd (s1 + s2) - (total d1 + total d2)) with ((rnd (s1 + s2) - (s1 + s2)) + (s1 + s2 - (total d1 + total d2))) by ring.
      eapply Rle_trans; [apply Rabs_triang|]. pose proof (err_le _ _ S2 ltac:(lra)) as K. assert ((1 + 1 / 1000) * (2 * B) * u <= 3 * B * u) by (apply Rmult_le_compat_r; lra). lra.
Qed.
Lemma mean_bound : forall M l, l <> [] -> (forall a, In a l -> Rabs a <= M) -> Rabs (mean l) <= M.
Proof.
  intros M l N H. unfold mean. assert (P : 0 < INR (length l)) by (apply (lt_INR 0); destruct l; [easy|cbn; lia]). unfold Rdiv. rewrite Rabs_mult, (Rabs_pos_eq (/ _)) by (apply Rlt_le, Rinv_0_lt_compat; exact P).
  apply Rmult_le_reg_r with (INR (length l)); [exact P|]. rewrite Rmult_assoc, Rinv_l by lra. rewrite Rmult_1_r, Rmult_comm. now apply total_bound.
Qed.
(** A quotient of the computed sum and the number of terms. *)
Lemma fmean_ok : forall M t c n, 1 <= M <= 10000 -> are (terms t) c -> n = length c -> c <> [] -> (Z.of_nat n <= 1000000)%Z -> (forall a, In a c -> Rabs a <= M) ->
  exists s, is (fdiv (fsum t) (fz (Z.of_nat n))) s /\ Rabs (s - mean c) <= (INR (length c) + 1) * (3 * M * u).
Proof.
  intros M t c n HM F -> NE L Q. pose proof u_pos as U. assert (P : (1 <= length c)%nat) by (destruct c; [easy|cbn; lia]).
  assert (P1 : 1 <= INR (length c)) by (apply (le_INR 1); lia). assert (P2 : INR (length c) <= 1000000) by (rewrite INR_IZR_INZ; apply IZR_le; exact L).
  destruct (fsum_ok (length c) M ltac:(lra) P) with (t := t) (c := c) as [s [I [_ E]]]; try assumption; [|lia|].
  { apply Rle_trans with (1000000 * 10000); [|lra]. apply Rmult_le_compat; lra. }
  set (n := length c) in *.
  assert (D : Rabs (s / INR n - mean c) <= INR n * (3 * M * u)).
  { unfold mean. fold n. replace (s / INR n - total c / INR n) with ((s - total c) * / INR n) by (field; lra). rewrite Rabs_mult, (Rabs_pos_eq (/ INR n)) by (apply Rlt_le, Rinv_0_lt_compat; lra).
    apply Rmult_le_reg_r with (INR n); [lra|]. rewrite Rmult_assoc, Rinv_l by lra. rewrite Rmult_1_r. eapply Rle_trans; [exact E|].
    assert (K : INR (Nat.pred n) <= INR n) by (apply le_INR; lia). assert (0 <= 3 * (INR n * M) * u) by (apply Rmult_le_pos; [apply Rmult_le_pos; [lra|apply Rmult_le_pos; lra]|lra]).
    eapply Rle_trans; [apply Rmult_le_compat_r; [assumption|exact K]|]. apply Req_le. ring. }
  pose proof (mean_bound M c NE Q) as MB.
  assert (SM : INR n * (3 * M * u) <= M).
  { apply Rle_trans with (1000000 * (3 * M * (12 / 100000000000000000))); [|lra]. apply Rmult_le_compat; try lra; [apply Rmult_le_pos; lra|]. apply Rmult_le_compat; lra. }
  assert (B2 : Rabs (s / INR n) <= 2 * M).
  { replace (s / INR n) with ((s / INR n - mean c) + mean c) by ring. eapply Rle_trans; [apply Rabs_triang|]. lra. }
  exists (rnd (s / INR n)). split.
  - apply is_div; [exact I|rewrite INR_IZR_INZ; apply is_fz; lia|lra|]. apply small_big. lra.
  - replace (rnd (s / INR n) - mean c) with ((rnd (s / INR n) - s / INR n) + (s / INR n - mean c)) by ring. eapply Rle_trans; [apply Rabs_triang|].
    pose proof (err_le _ _ B2 ltac:(lra)) as K. assert ((1 + 1 / 1000) * (2 * M) * u <= 3 * M * u) by (apply Rmult_le_compat_r; lra). lra.
Qed.
Lemma as_they_come_terms : forall l t, terms (as_they_come t l) = terms t ++ l.
Proof. induction l as [|x l IH]; intros t; cbn; [now rewrite app_nil_r|]. rewrite IH. cbn. now rewrite <- app_assoc. Qed.
Lemma fcell_ok : forall M l c, 1 <= M <= 10000 -> are l c -> c <> [] -> (Z.of_nat (length c) <= 1000000)%Z -> (forall a, In a c -> Rabs a <= M) ->
  exists s, is (fcell_mean l) s /\ Rabs (s - mean c) <= (INR (length c) + 1) * (3 * M * u).
Proof. intros M l c HM F NE L Q. unfold fcell_mean. rewrite (are_length _ _ F). apply fmean_ok; try assumption; [now rewrite as_they_come_terms|reflexivity]. Qed.

(** Whole numbers are added without an error. *)
Lemma fsum_whole : forall t c, Forall2 (fun x n => is x (IZR n) /\ (0 <= n)%Z) (terms t) c -> (fold_right Z.add 0%Z c <= 2 ^ 53)%Z -> is (fsum t) (IZR (fold_right Z.add 0%Z c)).
Proof.
  assert (A : forall a b, fold_right Z.add 0%Z (a ++ b) = (fold_right Z.add 0 a + fold_right Z.add 0 b)%Z) by (induction a; intros; cbn; [reflexivity|rewrite IHa; lia]).
  assert (PO : forall xs c, Forall2 (fun x n => is x (IZR n) /\ (0 <= n)%Z) xs c -> (0 <= fold_right Z.add 0 c)%Z) by (intros xs c F; induction F as [|x n xs c [_ H] F IH]; cbn; lia).
  induction t as [|x|a IHa b IHb]; intros c F L; cbn [fsum terms] in *.
  - inversion F. exact (is_fz 0 ltac:(lia)).
  - inversion F as [|? n ? ? [Hx _] Hr]. subst. inversion Hr. subst. cbn. now rewrite Z.add_0_r.
  - apply Forall2_app_inv_l in F. destruct F as [c1 [c2 [F1 [F2 ->]]]]. rewrite A in *. pose proof (PO _ _ F1). pose proof (PO _ _ F2).
    rewrite plus_IZR, <- (rnd_id (_ + _)) by (rewrite <- plus_IZR; apply dbl_Z; lia). apply is_add; [apply IHa; [exact F1|lia]|apply IHb; [exact F2|lia]|].
    rewrite <- plus_IZR, Rabs_pos_eq by (apply IZR_le; lia). apply Rle_trans with (IZR (2 ^ 53)); [apply IZR_le; lia|]. cbn. lra.
Qed.
