(** The tail check and the bias check flag what they should. *)
Require Import String ZArith QArith Qround List Bool Lia Lqa Permutation.
Require Import Verif.M_Base Verif.L_Base Verif.S_Stats Verif.L_Stats Verif.M_Stats Verif.M_Sun Verif.S_Sun Verif.M_Report Verif.S_Report Verif.L_Report Verif.M_Voyage Verif.S_Voyage Verif.L_Voyage Verif.S_Track Verif.M_Drifter Verif.S_Drifter
  Verif.S_Tail Verif.S_Tail2 Verif.L_Tail Verif.L_Tail2.
Import ListNotations.
Open Scope string_scope.
Open Scope list_scope.
Open Scope Z_scope.

Section Tails.
Variable sq : Q -> Q.
Hypothesis Hsq : forall a b, (a == b)%Q -> (sq a == sq b)%Q.
Variable p : tail_params.
Variable half : nat.
Hypothesis Hlong : tl_long p = 2 * Z.of_nat half + 1.
Hypothesis Hshort : 1 <= tl_short p.
Variable ws : list (Q * Q).
Let n := length ws.
Let w := (2 * half + 1)%nat.
Let sw := Z.to_nat (tl_short p).
Local Notation long_bad := (S_Tail2.long_bad sq p half ws).
Local Notation short_bad := (S_Tail2.short_bad sq p ws).

Lemma from_to_some : forall A i k (l : list A), (i + k <= length l)%nat -> (0 < k)%nat -> from_to i k l <> [].
Proof. intros A i k l H K E. pose proof (from_to_length A i k l H) as L. rewrite E in L. cbn in L. lia. Qed.

Lemma long_fwd : forall i, (i < n - 2 * half)%nat ->
  (long_fails sq p (window w i (map fst ws)) (window w i (errs sq ws)) = true <-> long_bad i).
Proof.
  intros i H. unfold window. change (firstn w (skipn i (map fst ws))) with (from_to i w (map fst ws)). change (firstn w (skipn i (errs sq ws))) with (from_to i w (errs sq ws)).
  unfold errs. rewrite !from_to_map. apply (long_fails_iff sq Hsq). apply from_to_some; unfold n, w in *; lia.
Qed.
Lemma long_bwd : forall i, (i < n - 2 * half)%nat ->
  (long_fails sq p (window w i (rev (map fst ws))) (window w i (rev (errs sq ws))) = true <-> long_bad (n - 2 * half - 1 - i)%nat).
Proof.
  intros i H. unfold window. change (firstn w (skipn i (rev (map fst ws)))) with (from_to i w (rev (map fst ws))). change (firstn w (skipn i (rev (errs sq ws)))) with (from_to i w (rev (errs sq ws))).
  unfold errs. rewrite <- !map_rev, !from_to_map. rewrite from_to_rev by (unfold n, w in *; lia).
  assert (N : rev (from_to (length ws - w - i) w ws) <> []).
  { intro E. apply (f_equal (@length _)) in E. rewrite rev_length, from_to_length in E by (unfold n, w in *; lia). unfold w in E. cbn in E. lia. }
  fold (errs sq (rev (from_to (length ws - w - i) w ws))). rewrite (long_fails_iff sq Hsq p _ N). unfold S_Tail2.long_bad.
  replace (length ws - w - i)%nat with (n - 2 * half - 1 - i)%nat by (unfold n, w; lia). fold w.
  pose proof (Permutation_rev (from_to (n - 2 * half - 1 - i) w ws)) as P. split; intros [A B]; split.
  - eapply reliable_perm; [|exact A]. now symmetry.
  - eapply (biased_perm sq Hsq); [|exact B]. now symmetry.
  - eapply reliable_perm; [|exact A]. exact P.
  - eapply (biased_perm sq Hsq); [|exact B]. exact P.
Qed.

Lemma long_tails_ok : exists start finish, long_tails sq p (map fst ws) (errs sq ws) = (start, finish) /\
  ((exists a b, ((n < 2 * half + 1)%nat /\ a = O /\ b = O \/ (2 * half + 1 <= n)%nat /\ cuts long_bad (n - 2 * half) half a b) /\
      start = Z.of_nat a - 1 /\ finish = Z.of_nat n - Z.of_nat b /\ (a + b < n \/ n = O)%nat) \/
   ((2 * half + 1 <= n)%nat /\ (forall a b, ~ cuts long_bad (n - 2 * half) half a b) /\ finish <= start)).
Proof.
  unfold long_tails. rewrite map_length. fold n. rewrite Hlong. replace ((2 * Z.of_nat half + 1 - 1) / 2) with (Z.of_nat half) by (rewrite Z.add_simpl_r, Z.mul_comm, Z.div_mul; lia).
  destruct (Z.of_nat n <? 2 * Z.of_nat half + 1) eqn:Q.
  - eexists _, _. split; [reflexivity|]. left. exists O, O. split; [left; lia|]. lia.
  - replace (Z.to_nat (2 * Z.of_nat half + 1)) with w by (unfold w; lia). replace (n - w + 1)%nat with (n - 2 * half)%nat by (unfold w; lia).
    pose proof (run_leading _ _ _ long_fwd) as P. pose proof (run_trailing (fun ix => long_fails sq p (window w ix (rev (map fst ws))) (window w ix (rev (errs sq ws)))) long_bad (n - 2 * half)) as R.
    assert (T : trailing long_bad (n - 2 * half) (failing_run (fun ix => long_fails sq p (window w ix (rev (map fst ws))) (window w ix (rev (errs sq ws)))) 0 (n - 2 * half))).
    { apply R. intros i H. rewrite (long_bwd i H). reflexivity. }
    clear R. set (f := failing_run (fun ix => long_fails sq p (window w ix (map fst ws)) (window w ix (errs sq ws))) 0 (n - 2 * half)) in *.
    set (b := failing_run _ 0 (n - 2 * half)) in T |- *. eexists _, _. split; [reflexivity|].
    destruct (Nat.eq_dec f (n - 2 * half)) as [E|E].
    + right. pose proof (all_fail _ _ _ _ P T E) as E'. split; [lia|]. split.
      * intros a' b' [p' [q' [P' [_ [L _]]]]]. pose proof (leading_fun _ _ _ _ P P'). lia.
      * destruct f as [|f'] eqn:Ef; [lia|]. destruct b as [|b'] eqn:Eb; [lia|]. lia.
    + left. assert (L : (f < n - 2 * half)%nat) by (destruct P; lia). pose proof (leading_trailing _ _ _ _ P T L) as S.
      exists (if f =? 0 then 0 else f + half)%nat, (if b =? 0 then 0 else b + half)%nat. split.
      * right. split; [lia|]. exists f, b. auto.
      * destruct f as [|f'], b as [|b']; cbn [Nat.eqb]; split; try lia; split; lia.
Qed.

Lemma short_fwd : forall a m i, (a + m <= n)%nat -> (i + sw <= m)%nat ->
  (short_fails sq p (window sw i (from_to a m (map fst ws))) (window sw i (from_to a m (errs sq ws))) = true <-> short_bad (a + i)).
Proof.
  intros a m i H K. unfold window. change (firstn sw (skipn i (from_to a m (map fst ws)))) with (from_to i sw (from_to a m (map fst ws))).
  change (firstn sw (skipn i (from_to a m (errs sq ws)))) with (from_to i sw (from_to a m (errs sq ws))).
  rewrite !from_to_from_to by exact K. unfold errs. rewrite !from_to_map. apply (short_fails_iff sq).
Qed.
Lemma short_bwd : forall a m i, (a + m <= n)%nat -> (i + sw <= m)%nat ->
  (short_fails sq p (window sw i (rev (from_to a m (map fst ws)))) (window sw i (rev (from_to a m (errs sq ws)))) = true <-> short_bad (a + (m - sw - i))).
Proof.
  intros a m i H K. unfold window. change (firstn sw (skipn i (rev (from_to a m (map fst ws))))) with (from_to i sw (rev (from_to a m (map fst ws)))).
  change (firstn sw (skipn i (rev (from_to a m (errs sq ws))))) with (from_to i sw (rev (from_to a m (errs sq ws)))).
  unfold errs. rewrite !from_to_map, <- !map_rev, !from_to_map. rewrite from_to_rev by (rewrite from_to_length by (fold n; lia); lia).
  rewrite from_to_length by (fold n; lia). rewrite from_to_from_to by lia.
  fold (errs sq (rev (from_to (a + (m - sw - i)) sw ws))). rewrite (short_fails_iff sq p). unfold S_Tail2.short_bad; cbv zeta.
  pose proof (Permutation_rev (from_to (a + (m - sw - i)) sw ws)) as P. split; intros [A B]; split.
  - eapply reliable_perm; [|exact A]. now symmetry.
  - eapply many_perm; [|exact B]. now symmetry.
  - eapply reliable_perm; [|exact A]. exact P.
  - eapply many_perm; [|exact B]. exact P.
Qed.

Lemma short_tails_ok : forall a b, (a + b < n)%nat -> exists start finish,
  short_tails sq p (map fst ws) (errs sq ws) (Z.of_nat a - 1) (Z.of_nat n - Z.of_nat b) = Ok (start, finish) /\
  ((exists a1 b1, ((n - a - b < sw)%nat /\ a1 = O /\ b1 = O \/ (sw <= n - a - b)%nat /\ cuts (fun i => short_bad (a + i)) (n - a - b - sw + 1) 0 a1 b1) /\
      start = Z.of_nat (a + a1) - 1 /\ finish = Z.of_nat n - Z.of_nat (b + b1) /\ (a + a1 + (b + b1) < n)%nat) \/
   ((sw <= n - a - b)%nat /\ (forall a1 b1, ~ cuts (fun i => short_bad (a + i)) (n - a - b - sw + 1) 0 a1 b1) /\ finish <= start)).
Proof.
  intros a b H. unfold short_tails. destruct (Z.of_nat n - Z.of_nat b <=? Z.of_nat a - 1) eqn:Q; [lia|].
  replace (Z.of_nat n - Z.of_nat b - 1 - (Z.of_nat a - 1 + 1) + 1) with (Z.of_nat (n - a - b)) by lia.
  rewrite (proj2 (Z.ltb_lt 0 (Z.of_nat (n - a - b)))) by lia. cbn [py_assert bind].
  destruct (Z.of_nat (n - a - b) <? tl_short p) eqn:Q1.
  - eexists _, _. split; [reflexivity|]. left. exists O, O. split; [left; unfold sw; lia|]. lia.
  - replace (Z.of_nat a - 1 + 1) with (Z.of_nat a) by lia. replace (Z.of_nat n - Z.of_nat b - 1 + 1) with (Z.of_nat (n - b)) by lia.
    rewrite !py_slice_from_to by (rewrite ?map_length; unfold errs; rewrite ?map_length; fold n; lia).
    replace (n - b - a)%nat with (n - a - b)%nat by lia. fold sw. replace (Z.to_nat (Z.of_nat (n - a - b) - tl_short p + 1)) with (n - a - b - sw + 1)%nat by (unfold sw; lia).
    assert (S1 : (1 <= sw)%nat) by (unfold sw; lia). assert (S2 : (sw <= n - a - b)%nat) by (unfold sw; lia).
    set (m := (n - a - b)%nat) in *. set (k := (m - sw + 1)%nat).
    assert (P : leading (fun i => short_bad (a + i)) k (failing_run (fun ix => short_fails sq p (window sw ix (from_to a m (map fst ws))) (window sw ix (from_to a m (errs sq ws)))) 0 k)).
    { apply run_leading. intros i I. apply short_fwd; unfold m, k in *; lia. }
    assert (T : trailing (fun i => short_bad (a + i)) k (failing_run (fun ix => short_fails sq p (window sw ix (rev (from_to a m (map fst ws)))) (window sw ix (rev (from_to a m (errs sq ws))))) 0 k)).
    { apply run_trailing. intros i I. rewrite short_bwd by (unfold m, k in *; lia). replace (k - 1 - i)%nat with (m - sw - i)%nat by (unfold k; lia). reflexivity. }
    set (f := failing_run _ 0 k) in P |- *. set (g := failing_run _ 0 k) in T |- *. eexists _, _. split; [reflexivity|]. unfold short_step.
    destruct (Nat.eqb_spec f k) as [E|E].
    + right. pose proof (all_fail _ _ _ _ P T E) as E'. split; [exact S2|]. split.
      * intros a' b' [p' [q' [P' [_ [L _]]]]]. pose proof (leading_fun _ _ _ _ P P'). lia.
      * destruct (Nat.eqb_spec g k); [|contradiction]. rewrite E, E'. unfold k, m in *. destruct (n - a - b - sw + 1)%nat eqn:Ek; lia.
    + left. assert (L : (f < k)%nat) by (destruct P; lia). pose proof (leading_trailing _ _ _ _ P T L) as S.
      destruct (Nat.eqb_spec g k) as [E'|E']; [lia|]. exists f, g. split.
      * right. split; [exact S2|]. exists f, g. split; [exact P|]. split; [exact T|]. split; [exact L|]. destruct f, g; cbn [Nat.eqb]; lia.
      * unfold k, m in *. lia.
Qed.

Lemma all_tails_ok : (0 < n)%nat -> exists start finish,
  (let (s, f) := long_tails sq p (map fst ws) (errs sq ws) in
   let! (s, f) := short_tails sq p (map fst ws) (errs sq ws) s f in
   Ok (if f <=? s then (-1, Z.of_nat n) else (s, f))) = Ok (start, finish) /\
  ((exists a b, tails n half sw long_bad short_bad a b /\ start = Z.of_nat a - 1 /\ finish = Z.of_nat n - Z.of_nat b /\ (a + b < n)%nat) \/
   ((forall a b, ~ tails n half sw long_bad short_bad a b) /\ start = -1 /\ finish = Z.of_nat n)).
Proof.
  intro N. destruct long_tails_ok as [s [f [E [[a [b [C [-> [-> AB]]]]]|[W [C FS]]]]]]; rewrite E.
  - destruct (short_tails_ok a b ltac:(lia)) as [s' [f' [E' [[a1 [b1 [C1 [-> [-> AB1]]]]]|[W1 [C1 FS1]]]]]]; rewrite E'; cbn [bind].
    + destruct (Z.of_nat n - Z.of_nat (b + b1) <=? Z.of_nat (a + a1) - 1) eqn:Q; [lia|]. eexists _, _. split; [reflexivity|]. left. exists (a + a1)%nat, (b + b1)%nat.
      split; [|split; [reflexivity|split; [reflexivity|lia]]]. exists a, b. split; [exact C|]. destruct C1 as [[S [-> ->]]|[S C1]]; [left; rewrite !Nat.add_0_r; auto|]. right. split; [exact S|]. exists a1, b1. auto.
    + rewrite (proj2 (Z.leb_le _ _) FS1). eexists _, _. split; [reflexivity|]. right. split; [|auto]. intros a' b' [a0 [b0 [X Y]]].
      assert (a0 = a /\ b0 = b) as [-> ->].
      { destruct X as [[NN [-> ->]]|[NN X]], C as [[N' [-> ->]]|[N' C]]; try lia. exact (cuts_fun _ _ _ _ _ _ _ X C). }
      destruct Y as [[NN _]|[_ [a1 [b1 [Y _]]]]]; [lia|]. exact (C1 _ _ Y).
  - unfold short_tails at 1. rewrite (proj2 (Z.leb_le _ _) FS). cbn [bind]. rewrite (proj2 (Z.leb_le _ _) FS). eexists _, _. split; [reflexivity|]. right. split; [|auto].
    intros a b [a0 [b0 [[[NN _]|[_ X]] _]]]; [lia|]. exact (C _ _ X).
Qed.
End Tails.
