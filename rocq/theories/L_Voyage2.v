(** find_saturated_runs flags exactly the long saturated runs. *)
Require Import String ZArith QArith Qround List Bool Lia Lqa.
Require Import Verif.M_Base Verif.L_Base Verif.S_Calendar Verif.M_Calendar Verif.L_Calendar Verif.L_Calendar2 Verif.M_Checks Verif.M_Report Verif.S_Report Verif.L_Report Verif.L_Report3 Verif.M_Voyage Verif.S_Voyage Verif.L_Voyage.
Import ListNotations.
Open Scope string_scope.
Open Scope list_scope.
Open Scope Z_scope.

Lemma located_fun : forall r la lo d h la' lo' d' h', located r la lo d h -> located r la' lo' d' h' -> d = d' /\ h = h'.
Proof.
  intros r la lo d h la' lo' d' h' [A1 A2 A3 A4 A5 A6 A7 A8] [B1 B2 B3 B4 B5 B6 B7 B8].
  destruct d, d'; simpl in *. split; congruence.
Qed.
Lemma elapsed_fun : forall d h d' h' t t', valid d -> valid d' -> elapsed d h d' h' t -> elapsed d h d' h' t' -> (t == t')%Q.
Proof.
  assert (E : forall d h d' h' t, valid d -> valid d' -> elapsed d h d' h' t -> (t == 24 * inject_Z (jdd d' - jdd d) + (h' - h))%Q).
  { intros d h d' h' t V V' [[n [D K]]|[n [D K]]]; rewrite K; apply days_later_jdd in D; rewrite D.
    - replace (jdd d + Z.of_nat n - jdd d) with (Z.of_nat n) by lia. reflexivity.
    - replace (jdd d' - (jdd d' + Z.of_nat n)) with (- Z.of_nat n) by lia. rewrite inject_Z_opp. ring. }
  intros d h d' h' t t' V V' A B. rewrite (E _ _ _ _ _ V V' A), (E _ _ _ _ _ V V' B). reflexivity.
Qed.
Lemma hours_between_fun : forall a b t t', hours_between a b t -> hours_between a b t' -> (t == t')%Q.
Proof.
  intros a b t t' [la [lo [d [h [la' [lo' [d' [h' [A [B E]]]]]]]]]] [ma [mo [e [k [ma' [mo' [e' [k' [A' [B' E']]]]]]]]]].
  destruct (located_fun _ _ _ _ _ _ _ _ _ A A') as [-> ->], (located_fun _ _ _ _ _ _ _ _ _ B B') as [-> ->].
  apply (elapsed_fun e k e' k'); auto; [apply A|apply B].
Qed.

Lemma saturated_spec : forall r, saturated r = true <-> exists t d, getvar r "AT" = Some t /\ getvar r "DPT" = Some d /\ (t == d)%Q.
Proof.
  intro r. unfold saturated. destruct (getvar r "DPT") as [d|], (getvar r "AT") as [t|]; split; try discriminate; try (intros [x [y [A [B C]]]]; discriminate).
  - intro H. qprop. exists t, d. split; auto. split; auto. now symmetry.
  - intros [x [y [A [B C]]]]. injection A as <-. injection B as <-. qprop. now symmetry.
Qed.

Lemma memn_seq : forall i a k, memn i (seq a k) = true <-> (a <= i < a + k)%nat.
Proof. intros. rewrite memn_In, in_seq. tauto. Qed.
Lemma seq_snoc : forall a k, seq a (S k) = seq a k ++ [(a + k)%nat].
Proof. intros. replace (S k) with (k + 1)%nat by lia. rewrite seq_app. reflexivity. Qed.
Lemma last_seq : forall a k d, last (seq a (S k)) d = (a + k)%nat.
Proof. intros. rewrite seq_snoc. apply last_last. Qed.

Section Runs.
Variables (sp : sphere) (v0 : list report) (mt : Q) (shortest : Z).
Hypothesis Hs : 0 <= shortest.
Hypothesis Hloc : Forall is_located v0.

Let n := length v0.
Definition long_run (a b : nat) : Prop :=
  shortest < Z.of_nat b - Z.of_nat a + 1 /\ exists ra rb t, nth_error v0 a = Some ra /\ nth_error v0 b = Some rb /\ hours_between ra rb t /\ (mt <= t)%Q.
Definition in_long_run (i : nat) : Prop :=
  exists a b, maximal_run (saturated_at v0) n a b /\ (a <= i <= b)%nat /\ long_run a b.

Lemma sat_at_dec : forall i, saturated_at v0 i \/ ~ saturated_at v0 i.
Proof.
  intro i. destruct (nth_error v0 i) as [r|] eqn:E.
  - destruct (saturated r) eqn:Sr.
    + left. apply saturated_spec in Sr. destruct Sr as [t [d K]]. exists r, t, d. auto.
    + right. intros [r' [t [d [A K]]]]. rewrite E in A. injection A as <-. assert (saturated r = true) by (apply saturated_spec; eauto). congruence.
  - right. intros [r [t [d [A _]]]]. congruence.
Qed.

Lemma run_unique : forall a b a' b' i, maximal_run (saturated_at v0) n a b -> maximal_run (saturated_at v0) n a' b' ->
  (a <= i <= b)%nat -> (a' <= i <= b')%nat -> a = a' /\ b = b'.
Proof.
  intros a b a' b' i [R [P [L U]]] [R' [P' [L' U']]] I I'. split.
  - destruct (Nat.lt_trichotomy a a') as [K|[K|K]]; auto; exfalso.
    + destruct L' as [->|[z [-> N]]]; [lia|]. apply N, P. lia.
    + destruct L as [->|[z [-> N]]]; [lia|]. apply N, P'. lia.
  - destruct (Nat.lt_trichotomy b b') as [K|[K|K]]; auto; exfalso.
    + destruct U as [U|N]; [lia|]. apply N, P'. lia.
    + destruct U' as [U'|N]; [lia|]. apply N, P. lia.
Qed.

Lemma flush_ok : forall g v a m, writes "DPT" "repsat" g v0 v -> (a + m < n)%nat ->
  exists v', sat_flush sp mt v (seq a (S m)) = Ok v' /\
    ((exists ra rb t, nth_error v0 a = Some ra /\ nth_error v0 (a + m) = Some rb /\ hours_between ra rb t /\ (mt <= t)%Q) /\
       writes "DPT" "repsat" (fun j => if memn j (seq a (S m)) then Some 1 else g j) v0 v' \/
     (~ exists ra rb t, nth_error v0 a = Some ra /\ nth_error v0 (a + m) = Some rb /\ hours_between ra rb t /\ (mt <= t)%Q) /\ v' = v).
Proof.
  intros g v a m W R. unfold sat_flush. pose proof (last_seq a m a) as LS.
  change (seq a (S m)) with (a :: seq (S a) m) in *. cbv iota. rewrite LS.
  destruct (writes_get _ _ _ _ _ a W) as [ra [ra' [A1 [A2 A3]]]]; [unfold n in *; lia|].
  destruct (writes_get _ _ _ _ _ (a + m)%nat W) as [rb [rb' [B1 [B2 B3]]]]; [unfold n in *; lia|].
  rewrite A2, B2. cbn [bind].
  rewrite (unch_sub sp _ _ _ _ _ _ B3 A3).
  pose proof (proj1 (Forall_forall _ _) Hloc ra (nth_error_In _ _ A1)) as [la [lo [d [h LA]]]].
  pose proof (proj1 (Forall_forall _ _) Hloc rb (nth_error_In _ _ B1)) as [la' [lo' [d' [h' LB]]]].
  destruct (rep_sub_located sp ra rb la lo d h la' lo' d' h' LA LB) as [t [c [speed [E [El _]]]]]. rewrite E. cbn [bind].
  assert (HB : hours_between ra rb t) by (exists la, lo, d, h, la', lo', d', h'; auto).
  destruct (Qleb mt t) eqn:C; qprop.
  - destruct (vset_list_writes "DPT" "repsat" v0 1 (a :: seq (S a) m) g v W) as [v' [E' W']].
    + intros i Hi. change (In i (seq a (S m))) in Hi. apply in_seq in Hi. unfold n in *. lia.
    + split; [unfold att_value; simpl; lia|right; unfold att_type; simpl; tauto].
    + exists v'. split; [exact E'|]. left. split; [exists ra, rb, t; auto|exact W'].
  - exists v. split; [reflexivity|]. right. split; [|reflexivity]. intros [ra2 [rb2 [t2 [X1 [X2 [X3 X4]]]]]].
    rewrite A1 in X1. injection X1 as <-. rewrite B1 in X2. injection X2 as <-.
    pose proof (hours_between_fun _ _ _ _ HB X3). lra.
Qed.

(** Invariant: k reports visited, current run from a to k-1. *)
Definition inv (g : nat -> option Z) (a k : nat) : Prop :=
  (a <= k)%nat /\ (k <= n)%nat /\ (forall i, (a <= i < k)%nat -> saturated_at v0 i) /\ (a = O \/ exists a', a = S a' /\ ~ saturated_at v0 a') /\
  (forall i, (i < a)%nat -> (g i = Some 1 /\ in_long_run i) \/ (g i = Some 0 /\ ~ in_long_run i)) /\
  (forall i, (a <= i < k)%nat -> g i = Some 0).

Lemma close_run : forall g a k v, writes "DPT" "repsat" g v0 v -> inv g a k -> (k = n \/ ~ saturated_at v0 k) ->
  exists v' g', (if longer (seq a (k - a)) shortest then sat_flush sp mt v (seq a (k - a)) else Ok v) = Ok v' /\ writes "DPT" "repsat" g' v0 v' /\
    (forall i, (i < k)%nat -> (g' i = Some 1 /\ in_long_run i) \/ (g' i = Some 0 /\ ~ in_long_run i)) /\
    (forall i, (k <= i)%nat -> g' i = g i).
Proof.
  intros g a k v W [I1 [I2 [I3 [I4 [I5 I6]]]]] C.
  assert (M : (a < k)%nat -> maximal_run (saturated_at v0) n a (k - 1)).
  { intro L. split; [lia|]. split; [intros; apply I3; lia|]. split; [exact I4|].
    destruct C as [->|C]; [left; lia|right]. now replace (S (k - 1)) with k by lia. }
  assert (U : forall i, (a <= i < k)%nat -> (in_long_run i <-> long_run a (k - 1))).
  { intros i Hi. split.
    - intros [a' [b' [M' [R' L']]]]. destruct (run_unique a (k - 1) a' b' i) as [-> ->]; auto; try lia. apply M; lia.
    - intro L. exists a, (k - 1)%nat. split; [apply M; lia|]. split; [lia|exact L]. }
  unfold longer. rewrite seq_length. destruct (Z.ltb_spec shortest (Z.of_nat (k - a))) as [L|L].
  - destruct (k - a)%nat as [|m] eqn:Em; [lia|]. destruct (flush_ok g v a m W) as [v' [E K]]; [lia|].
    assert (Kb : (k - 1 = a + m)%nat) by lia. destruct K as [[K W']|[K ->]].
    + exists v'. eexists. split; [exact E|]. split; [exact W'|]. split.
      * intros i Hi. cbv beta. destruct (memn i (seq a (S m))) eqn:Mi.
        -- apply memn_seq in Mi. left. split; auto. apply U; [lia|]. split; [lia|]. now rewrite Kb.
        -- apply I5. assert (~ (a <= i < a + S m)%nat) by (rewrite <- memn_seq; congruence). lia.
      * intros i Hi. cbv beta. destruct (memn i (seq a (S m))) eqn:Mi; auto. apply memn_seq in Mi. lia.
    + exists v, g. split; [exact E|]. split; [exact W|]. split; auto. intros i Hi.
      destruct (Nat.lt_ge_cases i a) as [Q1|Q1]; [now apply I5|]. right. split; [apply I6; lia|]. rewrite U by lia.
      intros [_ X]. rewrite Kb in X. contradiction.
  - exists v, g. split; [reflexivity|]. split; [exact W|]. split; auto. intros i Hi.
    destruct (Nat.lt_ge_cases i a) as [Q1|Q1]; [now apply I5|]. right. split; [apply I6; lia|]. rewrite U by lia.
    intros [X _]. lia.
Qed.

Lemma sat_loop_ok : forall m k g a v, (k + m = n)%nat -> writes "DPT" "repsat" g v0 v -> inv g a k ->
  exists v' g' a', sat_loop sp mt shortest (seq k m) v (seq a (k - a)) = Ok (v', seq a' (n - a')) /\
    writes "DPT" "repsat" g' v0 v' /\ inv g' a' n.
Proof.
  induction m as [|m IH]; intros k g a v Hk W I.
  - exists v, g, a. replace k with n in * by lia. simpl. auto.
  - simpl sat_loop. destruct (vset_writes "DPT" "repsat" g v0 v k 0 W) as [v1 [E1 W1]].
    { unfold n in Hk. lia. } { split; [unfold att_value; simpl; lia|right; unfold att_type; simpl; tauto]. }
    rewrite E1. cbn [bind]. set (g1 := fun j => if Nat.eqb j k then Some 0 else g j) in W1.
    assert (I1 : inv g1 a k).
    { destruct I as [J1 [J2 [J3 [J4 [J5 J6]]]]]. unfold inv. do 4 (split; [assumption|]). unfold g1.
      split; intros i Hi; (destruct (Nat.eqb_spec i k); [lia|]); [now apply J5|now apply J6]. }
    destruct (writes_get _ _ _ _ _ k W1) as [r0 [r1 [A1 [A2 A3]]]]; [unfold n in Hk; lia|]. rewrite A2. cbn [bind].
    rewrite (unch_saturated _ _ _ _ A3).
    destruct (saturated r0) eqn:Sat.
    + replace (seq a (k - a) ++ [k]) with (seq a (S k - a)).
      2:{ replace (S k - a)%nat with (S (k - a)) by (destruct I as [J1 _]; lia). rewrite seq_snoc. do 2 f_equal. destruct I as [J1 _]. lia. }
      apply (IH (S k) g1 a v1); [lia|exact W1|]. destruct I1 as [J1 [J2 [J3 [J4 [J5 J6]]]]].
      unfold inv. split; [lia|]. split; [lia|]. split; [|split; [assumption|split; [assumption|]]].
      * intros i Hi. destruct (Nat.eq_dec i k) as [->|]; [|apply J3; lia]. apply saturated_spec in Sat. destruct Sat as [t [d K]]. exists r0, t, d. auto.
      * intros i Hi. destruct (Nat.eq_dec i k) as [->|]; [|apply J6; lia]. unfold g1. now rewrite Nat.eqb_refl.
    + assert (NS : ~ saturated_at v0 k).
      { intros [r' [t [d [B1 B2]]]]. rewrite A1 in B1. injection B1 as <-. assert (saturated r0 = true) by (apply saturated_spec; eauto). congruence. }
      assert (NB : ~ in_long_run k). { intros [x [y [[_ [P _]] [R _]]]]. apply NS, P. exact R. }
      destruct (close_run g1 a k v1 W1 I1 (or_intror NS)) as [v2 [g2 [E2 [W2 [G2 G3]]]]].
      assert (NX : inv g2 (S k) (S k)).
      { unfold inv. split; [lia|]. split; [lia|]. split; [intros; lia|]. split; [right; exists k; auto|].
        split; [|intros; lia]. intros i Hi. destruct (Nat.eq_dec i k) as [->|]; [|apply G2; lia].
        right. rewrite G3 by lia. unfold g1. rewrite Nat.eqb_refl. auto. }
      specialize (IH (S k) g2 (S k) v2 ltac:(lia) W2 NX). replace (S k - S k)%nat with O in IH by lia. simpl (seq (S k) 0) in IH.
      destruct (longer (seq a (k - a)) shortest).
      * rewrite E2. cbn [bind]. exact IH.
      * injection E2 as ->. exact IH.
Qed.

Lemma find_saturated_runs_ok : exists v', find_saturated_runs sp mt shortest v0 = Ok v' /\ flags_exactly "DPT" "repsat" in_long_run v0 v'.
Proof.
  unfold find_saturated_runs.
  destruct (sat_loop_ok n O (fun _ => None) O v0) as [v1 [g1 [a [E [W I]]]]]; [lia|apply writes_refl| |].
  { unfold inv. split; [lia|]. split; [lia|]. split; [intros; lia|]. split; [now left|]. split; intros; lia. }
  change (seq 0 (0 - 0)) with (@nil nat) in E. fold n. rewrite E. cbn [bind].
  destruct (close_run g1 a n v1 W I (or_introl eq_refl)) as [v2 [g2 [E2 [W2 [G2 _]]]]].
  exists v2. split; [exact E2|]. eapply writes_flags; [exact W2|exact G2].
Qed.

End Runs.
