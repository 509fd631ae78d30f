(** Lemmas about the tail check: windows and tails. *)
Require Import String ZArith QArith Qround List Bool Lia Lqa Permutation Sorting.Sorted.
Require Import Verif.M_Base Verif.L_Base Verif.S_Stats Verif.L_Stats Verif.L_Stats2 Verif.M_Stats Verif.M_Report Verif.S_Report Verif.M_Drifter Verif.S_Tail.
Import ListNotations.
Open Scope string_scope.
Open Scope list_scope.
Open Scope Z_scope.

(* ---- windows ---- *)
Lemma from_to_map : forall A B (f : A -> B) i w l, from_to i w (map f l) = map f (from_to i w l).
Proof. intros. unfold from_to. now rewrite skipn_map, firstn_map. Qed.
Lemma from_to_length : forall A i w (l : list A), (i + w <= length l)%nat -> length (from_to i w l) = w.
Proof. intros. unfold from_to. rewrite firstn_length, skipn_length. lia. Qed.
Lemma from_to_rev : forall A i w (l : list A), (i + w <= length l)%nat -> from_to i w (rev l) = rev (from_to (length l - w - i) w l).
Proof.
  intros A i w l H. unfold from_to. rewrite skipn_rev, firstn_rev, firstn_length. rewrite skipn_firstn_comm. do 2 f_equal; [lia|]. f_equal. lia.
Qed.
Lemma skipn_add : forall A (l : list A) a b, skipn b (skipn a l) = skipn (a + b) l.
Proof. induction l as [|x l IH]; intros a b; [now rewrite !skipn_nil|]. destruct a; [reflexivity|]. cbn [Nat.add skipn]. apply IH. Qed.
Lemma from_to_from_to : forall A i w a m (l : list A), (i + w <= m)%nat -> from_to i w (from_to a m l) = from_to (a + i) w l.
Proof.
  intros A i w a m l H. unfold from_to. rewrite skipn_firstn_comm, skipn_add, firstn_firstn. f_equal. lia.
Qed.
Lemma py_slice_from_to : forall A (l : list A) a b, (a <= b)%nat -> (b <= length l)%nat -> py_slice l (Z.of_nat a) (Z.of_nat b) = from_to a (b - a) l.
Proof.
  intros A l a b H K. unfold py_slice, slice_clip, from_to. rewrite (proj2 (Z.ltb_ge (Z.of_nat a) 0)), (proj2 (Z.ltb_ge (Z.of_nat b) 0)) by lia.
  rewrite !Z.min_r, !Z.max_r by lia. rewrite Nat2Z.id. f_equal. lia.
Qed.

Section Tests.
Variable sq : Q -> Q.
Hypothesis Hsq : forall a b, (a == b)%Q -> (sq a == sq b)%Q.

Lemma unreliable_iff : forall lim W, unreliable sq lim (errs sq W) = false <-> reliable sq lim W.
Proof.
  intros lim W. unfold unreliable, reliable. split.
  - intros H e I. apply Qnot_lt_le. intro L. assert (existsb (fun e => Qltb (sq lim) e) (errs sq W) = true) by (apply existsb_exists; exists e; split; [exact I|now apply Qltb_true]). congruence.
  - intro H. destruct (existsb _ _) eqn:E; [|reflexivity]. apply existsb_exists in E. destruct E as [e [I L]]. qprop. specialize (H e I). lra.
Qed.
Lemma reliable_perm : forall lim W W', Permutation W W' -> reliable sq lim W -> reliable sq lim W'.
Proof. intros lim W W' P R e I. apply R. unfold errs in *. eapply Permutation_in; [|exact I]. apply Permutation_map. now symmetry. Qed.

Lemma mean_num : forall l, l <> [] -> (num (np_mean l) == meanQ l)%Q.
Proof. intros l N. destruct (np_mean_spec l) as [[E _]|[_ [v [E V]]]]; [contradiction|]. rewrite E. exact V. Qed.

Lemma abs_compat : forall a b, (a == b)%Q -> (Qabs' a == Qabs' b)%Q.
Proof. intros a b H. unfold Qabs'. destruct (Qle_bool 0 a) eqn:A, (Qle_bool 0 b) eqn:B; try rewrite H; try reflexivity; exfalso; [apply Qle_bool_iff in A|apply Qle_bool_iff in B]; rewrite H in * || rewrite <- H in *; apply Qle_bool_iff in A || apply Qle_bool_iff in B; congruence. Qed.

Lemma biased_any : forall n inter intra W s, biased_or_noisy sq n inter intra W -> sorts s (map fst W) ->
  let kept := middle (length W / 100) s in
  let rms := sq (meanQ (map (fun e => e * e)%Q (errs sq W))) in
  (n * sq (inter * inter + meanQ (errs sq W) * meanQ (errs sq W)) < Qabs' (meanQ kept) \/ sq (intra * intra + rms * rms) < sq (varQ kept))%Q.
Proof.
  intros n inter intra W s [s' [S' H]] S kept rms. cbv zeta in H. fold rms in H.
  assert (F : Forall2 Qeq (middle (length W / 100) s') kept).
  { apply Forall2_middle. apply (sorts_eq _ _ (map fst W)); auto. }
  rewrite (abs_compat _ _ (meanQ_eq _ _ F)), (Hsq _ _ (varQ_eq _ _ F)) in H. exact H.
Qed.
Lemma long_fails_iff : forall p W, W <> [] ->
  (long_fails sq p (map fst W) (errs sq W) = true <-> reliable sq (tl_lim p) W /\ biased_or_noisy sq (tl_long_n p) (tl_inter p) (tl_intra p) W).
Proof.
  intros p W N. unfold long_fails. destruct (unreliable sq (tl_lim p) (errs sq W)) eqn:U.
  - split; [discriminate|]. intros [R _]. apply unreliable_iff in R. congruence.
  - apply unreliable_iff in U. assert (N1 : map fst W <> []) by (destruct W; [contradiction|discriminate]). assert (N2 : errs sq W <> []) by (destruct W; [contradiction|discriminate]).
    assert (N3 : map (fun e => e * e)%Q (errs sq W) <> []) by (destruct (errs sq W); [contradiction|discriminate]).
    pose proof (qsort_perm (map fst W)) as QP. pose proof (qsort_sorted (map fst W)) as QS.
    assert (S : sorts (qsort (map fst W)) (map fst W)) by (split; assumption).
    destruct (trimmed_mean_value (map fst W) 100 ltac:(lia) N1) as [m [M1 M2]]. specialize (M2 _ S). destruct (trim_var_value (map fst W) 100 ltac:(lia) N1) as [x [X1 [_ X2]]]. specialize (X2 _ S).
    rewrite map_length in M2, X2. change (Z.to_nat 100) with 100%nat in *.
    change (trim_mean (map fst W) 100) with (trimmed_mean (map fst W) 100). rewrite M1, X1. cbn [num].
    rewrite orb_true_iff, !Qltb_true.
    assert (E1 : (tl_long_n p * sq (tl_inter p * tl_inter p + num (np_mean (errs sq W)) * num (np_mean (errs sq W))) == tl_long_n p * sq (tl_inter p * tl_inter p + meanQ (errs sq W) * meanQ (errs sq W)))%Q).
    { rewrite (Hsq (tl_inter p * tl_inter p + num (np_mean (errs sq W)) * num (np_mean (errs sq W))) (tl_inter p * tl_inter p + meanQ (errs sq W) * meanQ (errs sq W))); [reflexivity|]. rewrite (mean_num _ N2). reflexivity. }
    set (r := sq (num (np_mean (map (fun e => e * e)%Q (errs sq W))))). set (r' := sq (meanQ (map (fun e => e * e)%Q (errs sq W)))).
    assert (ER : (r == r')%Q) by (apply Hsq, mean_num, N3).
    assert (E2 : (sq (tl_intra p * tl_intra p + r * r) == sq (tl_intra p * tl_intra p + r' * r'))%Q) by (apply Hsq; rewrite ER; reflexivity).
    rewrite E1, E2, (abs_compat _ _ M2), (Hsq _ _ X2). split.
    + intro H. split; [exact U|]. exists (qsort (map fst W)). split; [exact S|exact H].
    + intros [_ B]. exact (biased_any _ _ _ _ _ B S).
Qed.
Lemma biased_perm : forall n inter intra W W', Permutation W W' -> biased_or_noisy sq n inter intra W -> biased_or_noisy sq n inter intra W'.
Proof.
  intros n inter intra W W' P [s [[S1 S2] H]]. exists s. split; [split; [|exact S2]; etransitivity; [exact S1|now apply Permutation_map]|]. cbv zeta in *.
  assert (PE : Permutation (errs sq W) (errs sq W')) by now apply Permutation_map.
  rewrite <- (Permutation_length P).
  assert (E1 : (sq (inter * inter + meanQ (errs sq W) * meanQ (errs sq W)) == sq (inter * inter + meanQ (errs sq W') * meanQ (errs sq W')))%Q) by (apply Hsq; rewrite (meanQ_perm _ _ PE); reflexivity).
  set (r := sq (meanQ (map (fun e => e * e)%Q (errs sq W)))) in *. set (r' := sq (meanQ (map (fun e => e * e)%Q (errs sq W')))).
  assert (ER : (r == r')%Q) by (apply Hsq, meanQ_perm, Permutation_map, PE).
  assert (E2 : (sq (intra * intra + r * r) == sq (intra * intra + r' * r'))%Q) by (apply Hsq; rewrite ER; reflexivity).
  rewrite <- E1, <- E2. exact H.
Qed.

Lemma combine_map : forall W, combine (map fst W) (errs sq W) = map (fun x => (fst x, sq (snd x))) W.
Proof. induction W as [|[a b] W IH]; [reflexivity|]. cbn. f_equal. exact IH. Qed.
Lemma count_exceeds_iff : forall n inter intra k W, (k <=? count_exceeds sq n inter intra (map fst W) (errs sq W)) = true <-> many_suspicious sq n inter intra k W.
Proof.
  intros n inter intra k W. unfold count_exceeds, many_suspicious. rewrite Z.leb_le, combine_map.
  assert (E : forall W, length (filter (fun x => exceeds sq n inter intra (fst x) (snd x)) (map (fun x => (fst x, sq (snd x))) W)) = length (filter (suspicious sq n inter intra) W)).
  { induction W0 as [|[a b] W0 IH]; [reflexivity|]. cbn [map filter fst snd]. change (exceeds sq n inter intra a (sq b)) with (suspicious sq n inter intra (a, b)).
    destruct (suspicious sq n inter intra (a, b)); cbn [length]; now rewrite IH. }
  rewrite E. reflexivity.
Qed.
Lemma filter_perm_length : forall A (f : A -> bool) l l', Permutation l l' -> length (filter f l) = length (filter f l').
Proof. intros A f l l' P. induction P; cbn [filter]; auto; repeat (destruct (f _)); cbn [length]; congruence. Qed.
Lemma many_perm : forall n inter intra k W W', Permutation W W' -> many_suspicious sq n inter intra k W -> many_suspicious sq n inter intra k W'.
Proof. intros n inter intra k W W' P. unfold many_suspicious. now rewrite (filter_perm_length _ _ _ _ P). Qed.
Lemma short_fails_iff : forall p W,
  (short_fails sq p (map fst W) (errs sq W) = true <-> reliable sq (tl_lim p) W /\ many_suspicious sq (tl_short_n p) (tl_inter p) (tl_intra p) (tl_bad p) W).
Proof.
  intros p W. unfold short_fails. destruct (unreliable sq (tl_lim p) (errs sq W)) eqn:U.
  - split; [discriminate|]. intros [R _]. apply unreliable_iff in R. congruence.
  - apply unreliable_iff in U. rewrite count_exceeds_iff. tauto.
Qed.
End Tests.

(* ---- runs of failing windows ---- *)
Lemma failing_run_spec : forall f todo ix, let p := failing_run f ix todo in
  (p <= todo)%nat /\ (forall i, (i < p)%nat -> f (ix + i)%nat = true) /\ ((p < todo)%nat -> f (ix + p)%nat = false).
Proof.
  intros f. induction todo as [|todo IH]; intros ix; cbn [failing_run].
  - split; [lia|]. split; intros; lia.
  - destruct (f ix) eqn:E.
    + destruct (IH (S ix)) as [A [B C]]. split; [lia|]. split.
      * intros [|i] H; [now rewrite Nat.add_0_r|]. replace (ix + S i)%nat with (S ix + i)%nat by lia. apply B. lia.
      * intro H. replace (ix + S _)%nat with (S ix + failing_run f (S ix) todo)%nat by lia. apply C. lia.
    + split; [lia|]. split; [intros; lia|]. intros _. now rewrite Nat.add_0_r.
Qed.
Lemma run_leading : forall f (F : nat -> Prop) m, (forall i, (i < m)%nat -> (f i = true <-> F i)) -> leading F m (failing_run f 0 m).
Proof.
  intros f F m H. destruct (failing_run_spec f m 0) as [A [B C]]. cbn [Nat.add] in *. split; [exact A|]. split.
  - intros i L. apply H; [lia|]. now apply B.
  - intros L K. apply H in K; [|exact L]. rewrite C in K by exact L. discriminate.
Qed.
Lemma run_trailing : forall f (F : nat -> Prop) m, (forall i, (i < m)%nat -> (f i = true <-> F (m - 1 - i)%nat)) -> trailing F m (failing_run f 0 m).
Proof.
  intros f F m H. destruct (failing_run_spec f m 0) as [A [B C]]. cbn [Nat.add] in *. split; [exact A|]. split.
  - intros i L. replace i with (m - 1 - (m - 1 - i))%nat by lia. apply H; [lia|]. apply B. lia.
  - intros L K. apply H in K; [|exact L]. rewrite C in K by exact L. discriminate.
Qed.
Lemma leading_fun : forall F m p p', leading F m p -> leading F m p' -> p = p'.
Proof.
  intros F m p p' [A [B C]] [A' [B' C']]. destruct (Nat.lt_trichotomy p p') as [L|[E|L]]; [|exact E|]; exfalso.
  - apply C; [lia|]. now apply B'.
  - apply C'; [lia|]. now apply B.
Qed.
Lemma trailing_fun : forall F m q q', trailing F m q -> trailing F m q' -> q = q'.
Proof.
  intros F m q q' [A [B C]] [A' [B' C']]. destruct (Nat.lt_trichotomy q q') as [L|[E|L]]; [|exact E|]; exfalso.
  - apply C; [lia|]. apply B'. lia.
  - apply C'; [lia|]. apply B. lia.
Qed.
Lemma leading_trailing : forall F m p q, leading F m p -> trailing F m q -> (p < m)%nat -> (p + q < m)%nat.
Proof.
  intros F m p q [A [B C]] [A' [B' C']] L. destruct (Nat.lt_ge_cases (p + q) m) as [K|K]; [exact K|]. exfalso. apply C; [exact L|]. apply B'. lia.
Qed.
Lemma all_fail : forall F m p q, leading F m p -> trailing F m q -> p = m -> q = m.
Proof.
  intros F m p q [A [B C]] [A' [B' C']] ->. destruct (Nat.lt_ge_cases q m) as [K|K]; [|lia]. exfalso. apply C'; [exact K|]. apply B. lia.
Qed.
Lemma cuts_fun : forall F m half a b a' b', cuts F m half a b -> cuts F m half a' b' -> a = a' /\ b = b'.
Proof.
  intros F m half a b a' b' [p [q [P [Q [L [-> ->]]]]]] [p' [q' [P' [Q' [L' [-> ->]]]]]]. rewrite (leading_fun _ _ _ _ P P'), (trailing_fun _ _ _ _ Q Q'). auto.
Qed.
Lemma tails_fun : forall n half sw L S a b a' b', tails n half sw L S a b -> tails n half sw L S a' b' -> a = a' /\ b = b'.
Proof.
  intros n half sw L S a b a' b' [a0 [b0 [X Y]]] [a0' [b0' [X' Y']]].
  assert (E : a0 = a0' /\ b0 = b0').
  { destruct X as [[N [-> ->]]|[N X]], X' as [[N' [-> ->]]|[N' X']]; try lia. exact (cuts_fun _ _ _ _ _ _ _ X X'). }
  destruct E as [<- <-]. destruct Y as [[N [-> ->]]|[N [a1 [b1 [Y [-> ->]]]]]], Y' as [[N' [-> ->]]|[N' [a1' [b1' [Y' [-> ->]]]]]]; try lia.
  destruct (cuts_fun _ _ _ _ _ _ _ Y Y') as [<- <-]. auto.
Qed.
