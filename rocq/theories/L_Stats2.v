(** Lemmas about the standard deviation and the buddy-check multiplier. *)
Require Import ZArith QArith Qround List Bool Lia Lqa Permutation Sorting.Sorted Reals Qreals.
Require Import ZifyBool.
Require Import Verif.M_Base Verif.L_Base Verif.M_Stats Verif.S_Stats Verif.L_Stats.
Import ListNotations.
Open Scope Z_scope.

Lemma trim_var_value : forall l trim, 3 <= trim -> l <> [] ->
  exists v, trim_var l trim = Fin v /\ (0 <= v)%Q /\
    forall s, sorts s l -> (v == varQ (middle (length l / Z.to_nat trim) s))%Q.
Proof.
  intros l trim H N. unfold trim_var. rewrite trim_values_spec by lia.
  pose proof (trim_nonempty l trim H N) as P. rewrite <- (qsort_length l) in P at 2.
  pose proof (middle_nonempty _ _ P) as M. destruct (np_var_total _ M) as [v V]. exists v. split; [exact V|].
  apply np_var_fin in V. destruct V as [_ V]. split; [rewrite V; now apply varQ_nonneg|].
  intros s Hs. rewrite V. apply varQ_eq, Forall2_middle. apply (sorts_eq _ _ l); [apply qsort_sorts|exact Hs].
Qed.

Lemma trim_std_value : forall l trim, 3 <= trim -> l <> [] ->
  exists r, trim_std l trim = Some r /\ (0 <= r)%R /\
    forall s, sorts s l -> (r * r = Q2R (varQ (middle (length l / Z.to_nat trim) s)))%R.
Proof.
  intros l trim H N. destruct (trim_var_value l trim H N) as [v [A [B C]]]. unfold trim_std. rewrite A.
  exists (sqrt (Q2R v)). split; [reflexivity|]. split; [apply sqrt_pos|]. intros s Hs.
  rewrite sqrt_sqrt.
  - apply Qeq_eqR. now apply C.
  - replace 0%R with (Q2R 0) by (unfold Q2R; simpl; ring). now apply Qle_Rle.
Qed.

Lemma trim_std_untrimmed : forall l, l <> [] ->
  exists r, trim_std l 0 = Some r /\ (0 <= r)%R /\ (r * r = Q2R (varQ l))%R.
Proof.
  intros l N. unfold trim_std, trim_var, trim_values. cbn [Z.eqb]. destruct (np_var_total l N) as [v V]. rewrite V.
  apply np_var_fin in V. destruct V as [_ V].
  exists (sqrt (Q2R v)). split; [reflexivity|]. split; [apply sqrt_pos|].
  rewrite sqrt_sqrt; [now apply Qeq_eqR|].
  replace 0%R with (Q2R 0) by (unfold Q2R; simpl; ring). apply Qle_Rle. rewrite V. now apply varQ_nonneg.
Qed.

(** Standard deviation of shifted and scaled values. *)
Lemma trim_var_affine : forall a b l trim v v', 3 <= trim -> trim_var l trim = Fin v ->
  trim_var (map (fun x => a * x + b)%Q l) trim = Fin v' -> (v' == a * a * v)%Q.
Proof.
  intros a b l trim v v' H A B.
  assert (N : l <> []).
  { intro K. subst. unfold trim_var in A. rewrite trim_values_spec in A by lia.
    change (qsort []) with (@nil Q) in A. unfold middle in A. rewrite skipn_nil, firstn_nil in A. discriminate A. }
  destruct (trim_var_value l trim H N) as [w [A1 [_ A2]]]. rewrite A1 in A. injection A as <-.
  assert (N' : map (fun x => a * x + b)%Q l <> []) by (destruct l; [congruence|discriminate]).
  destruct (trim_var_value _ trim H N') as [w' [B1 [_ B2]]]. rewrite B1 in B. injection B as <-.
  rewrite (A2 _ (qsort_sorts l)). rewrite map_length in B2.
  pose proof (trim_nonempty l trim H N) as P. set (k := (length l / Z.to_nat trim)%nat) in *.
  rewrite <- (qsort_length l) in P.
  pose proof (middle_nonempty k _ P) as M.
  destruct (Qlt_le_dec a 0) as [C|C].
  - rewrite (B2 (rev (map (fun x => a * x + b)%Q (qsort l)))).
    + rewrite middle_rev by (rewrite map_length; lia). rewrite middle_map.
      rewrite (varQ_perm _ (map (fun x => a * x + b)%Q (middle k (qsort l)))).
      * apply varQ_affine, M.
      * symmetry. apply Permutation_rev.
    + apply sorts_rev; [intros; nra|apply qsort_sorts].
  - rewrite (B2 (map (fun x => a * x + b)%Q (qsort l))).
    + rewrite middle_map. apply varQ_affine, M.
    + apply sorts_map; [intros; nra|apply qsort_sorts].
Qed.

(* ---- multiplier ---- *)

Lemma ascending_sorted : forall l p, ascending p l = true <-> StronglySorted Z.lt (p :: l).
Proof.
  induction l as [|x l IH]; intro p; cbn [ascending].
  - split; [intros _; repeat constructor|reflexivity].
  - rewrite andb_true_iff, IH, Z.ltb_lt. split.
    + intros [A B]. constructor; [exact B|]. constructor; [exact A|].
      inversion B; subst. rewrite Forall_forall in *. intros y Hy. specialize (H2 y Hy). lia.
    + intro H. inversion H; subst. inversion H3; subst. split; assumption.
Qed.

Lemma fold_min_le : forall l a, fold_left Z.min l a <= a /\ forall x, In x l -> fold_left Z.min l a <= x.
Proof.
  induction l as [|y l IH]; intro a; cbn [fold_left]; [split; [lia|intros x []]|].
  destruct (IH (Z.min a y)) as [A B]. split; [lia|]. intros x [<-|H]; [lia|auto].
Qed.
Lemma fold_min_in : forall l a, fold_left Z.min l a = a \/ In (fold_left Z.min l a) l.
Proof.
  induction l as [|y l IH]; intro a; cbn [fold_left]; [now left|].
  destruct (IH (Z.min a y)) as [A|A]; [|right; now right]. rewrite A. destruct (Z.min_spec a y) as [[_ E]|[_ E]]; rewrite E; [now left|right; now left].
Qed.
Lemma fold_qmin_le : forall l a, (fold_left Qmin' l a <= a)%Q /\ forall x, In x l -> (fold_left Qmin' l a <= x)%Q.
Proof.
  induction l as [|y l IH]; intro a; cbn [fold_left]; [split; [lra|intros x []]|].
  destruct (IH (Qmin' a y)) as [A B].
  assert (C : (Qmin' a y <= a /\ Qmin' a y <= y)%Q).
  { unfold Qmin'. destruct (Qle_bool a y) eqn:E; [apply Qle_bool_iff in E; lra|]. change (Qleb a y = false) in E. qprop. lra. }
  split; [lra|]. intros x [<-|H]; [lra|auto].
Qed.
Lemma fold_qmin_in : forall l a, fold_left Qmin' l a = a \/ In (fold_left Qmin' l a) l.
Proof.
  induction l as [|y l IH]; intro a; cbn [fold_left]; [now left|].
  destruct (IH (Qmin' a y)) as [A|A]; [|right; now right]. rewrite A. unfold Qmin'. destruct (Qle_bool a y); [now left|right; now left].
Qed.

Lemma multiplier_reduce : forall t lims mults, table_ok lims mults ->
  get_threshold_multiplier t lims mults =
    let m := pick_multiplier t lims mults (if t =? 0 then 4 else -1)%Q in
    assert! (Qltb 0 m); Ok m.
Proof.
  intros t lims mults [L [M [H S]]]. unfold get_threshold_multiplier.
  destruct lims as [|l0 lims]; [discriminate|]. injection H as ->. destruct mults as [|m0 mults]; [discriminate|].
  rewrite py_assert_true by lia. rewrite bind_ok. cbn [qmin_list]. rewrite bind_ok.
  rewrite py_assert_true.
  2:{ qprop. destruct (fold_qmin_in mults m0) as [->|E]; apply M; [now left|now right]. }
  rewrite bind_ok. cbn [zmin]. rewrite bind_ok. rewrite py_assert_true.
  2:{ destruct (fold_min_in lims 0) as [->|E]; [reflexivity|]. destruct (fold_min_le lims 0) as [K _].
      inversion S; subst. rewrite Forall_forall in H2. specialize (H2 _ E). lia. }
  rewrite bind_ok. change (py_nth (0 :: lims) 0) with (@Ok Z 0) at 1. rewrite bind_ok. rewrite py_assert_true by reflexivity. rewrite bind_ok.
  rewrite py_assert_true by (cbn [tl]; now apply ascending_sorted). rewrite bind_ok. reflexivity.
Qed.

Lemma pick_none : forall t lims mults m, (forall l, In l lims -> t <= l) -> pick_multiplier t lims mults m = m.
Proof.
  intros t lims. induction lims as [|l lims IH]; intros [|q mults] m H; cbn; try reflexivity.
  replace (l <? t) with false by (specialize (H l (or_introl eq_refl)); lia). apply IH. intros; apply H; now right.
Qed.

Lemma pick_some : forall t lims mults m, length lims = length mults -> StronglySorted Z.lt lims ->
  (exists l, In l lims /\ l < t) ->
  exists i l q, nth_error lims i = Some l /\ nth_error mults i = Some q /\ l < t /\
    (forall j l', (i < j)%nat -> nth_error lims j = Some l' -> t <= l') /\ pick_multiplier t lims mults m = q.
Proof.
  intros t lims. induction lims as [|l lims IH]; intros [|q mults] m L S [l0 [I Hl]]; try discriminate L; [destruct I|].
  inversion S; subst. rewrite Forall_forall in H2. cbn [pick_multiplier].
  assert (D : (exists l', In l' lims /\ l' < t) \/ (forall l', In l' lims -> t <= l')).
  { clear. induction lims as [|a lims [[x [A B]]|IH]]; [right; intros ? []|left; exists x; split; [now right|exact B]|].
    destruct (Z_lt_le_dec a t); [left; exists a; split; [now left|assumption]|]. right. intros x [<-|A]; auto. }
  destruct D as [D|D].
  - destruct (IH mults (if l <? t then q else m) ltac:(cbn in L; lia) H1 D) as [i [l1 [q1 [A [B [C [E F]]]]]]].
    exists (Datatypes.S i), l1, q1. repeat split; try assumption. intros [|j] l' J K; [lia|]. apply (E j); [lia|exact K].
  - rewrite pick_none by exact D.
    assert (l < t). { destruct I as [<-|I]; [exact Hl|]. specialize (D _ I). lia. }
    replace (l <? t) with true by lia.
    exists 0%nat, l, q. repeat split; try assumption. intros [|j] l' J K; [lia|]. apply D. cbn in K. now apply nth_error_In in K.
Qed.

Lemma multiplier_positive : forall t lims mults, table_ok lims mults -> 0 < t ->
  exists i l q, nth_error lims i = Some l /\ nth_error mults i = Some q /\ l < t /\
    (forall j l', (i < j)%nat -> nth_error lims j = Some l' -> t <= l') /\
    get_threshold_multiplier t lims mults = Ok q.
Proof.
  intros t lims mults W Ht. rewrite multiplier_reduce by exact W. destruct W as [L [M [H S]]].
  destruct (pick_some t lims mults (if t =? 0 then 4 else -1)%Q L S) as [i [l [q [A [B [C [E F]]]]]]].
  { exists 0. split; [|exact Ht]. destruct lims; [discriminate|]. injection H as ->. now left. }
  exists i, l, q. repeat split; try assumption. cbv zeta. rewrite F.
  rewrite py_assert_true; [reflexivity|]. qprop. apply M. now apply nth_error_In in B.
Qed.

Lemma sorted_nonneg : forall lims l, hd_error lims = Some 0 -> StronglySorted Z.lt lims -> In l lims -> 0 <= l.
Proof.
  intros [|a lims] l H S I; [destruct I|]. injection H as ->. inversion S; subst. rewrite Forall_forall in H2.
  destruct I as [<-|I]; [lia|]. specialize (H2 _ I). lia.
Qed.

Lemma multiplier_zero : forall lims mults, table_ok lims mults -> get_threshold_multiplier 0 lims mults = Ok 4%Q.
Proof.
  intros lims mults W. rewrite multiplier_reduce by exact W. destruct W as [L [M [H S]]].
  cbv zeta. rewrite pick_none; [reflexivity|]. intros l Hl. apply (sorted_nonneg lims); auto.
Qed.
Lemma multiplier_negative : forall t lims mults, table_ok lims mults -> t < 0 -> get_threshold_multiplier t lims mults = Err AssertionError.
Proof.
  intros t lims mults W Ht. rewrite multiplier_reduce by exact W. destruct W as [L [M [H S]]].
  cbv zeta. rewrite pick_none; [replace (t =? 0) with false by lia; reflexivity|].
  intros l Hl. pose proof (sorted_nonneg lims l H S Hl). lia.
Qed.

Lemma multiplier_bad_table : forall t lims mults, ~ table_ok lims mults ->
  exists e, get_threshold_multiplier t lims mults = Err e.
Proof.
  intros t lims mults N. unfold get_threshold_multiplier.
  destruct (Z.of_nat (length lims) =? Z.of_nat (length mults)) eqn:E1; [|eexists; reflexivity].
  cbn [py_assert bind]. destruct mults as [|m0 mults]; [eexists; reflexivity|]. cbn [qmin_list bind].
  destruct (Qltb 0 (fold_left Qmin' mults m0)) eqn:E2; [|eexists; reflexivity]. cbn [py_assert bind].
  destruct lims as [|l0 lims]; [discriminate E1|]. cbn [zmin bind].
  destruct (fold_left Z.min lims l0 =? 0) eqn:E3; [|eexists; reflexivity]. cbn [py_assert bind].
  change (py_nth (l0 :: lims) 0) with (@Ok Z l0) at 1. cbn [bind].
  destruct (l0 =? 0) eqn:E4; [|eexists; reflexivity]. cbn [py_assert bind tl].
  destruct (ascending l0 lims) eqn:E5; [|eexists; reflexivity].
  exfalso. apply N. split; [lia|]. split; [|split].
  - qprop. intros m Hm. destruct (fold_qmin_le mults m0) as [A B]. destruct Hm as [<-|Hm]; [lra|]. specialize (B m Hm). lra.
  - cbn. f_equal. lia.
  - now apply ascending_sorted.
Qed.

(** With non-increasing multipliers not above 4 the result is non-increasing in the count. *)
Lemma multiplier_antitone : forall t t' lims mults q q', table_ok lims mults ->
  StronglySorted (fun a b => (b <= a)%Q) mults -> (forall m, In m mults -> (m <= 4)%Q) ->
  t <= t' -> get_threshold_multiplier t lims mults = Ok q -> get_threshold_multiplier t' lims mults = Ok q' -> (q' <= q)%Q.
Proof.
  intros t t' lims mults q q' W D M4 Ht A B.
  assert (0 <= t). { destruct (Z_lt_le_dec t 0); [|assumption]. rewrite multiplier_negative in A by assumption. discriminate. }
  destruct (Z.eq_dec t' 0) as [->|N'].
  - assert (t = 0) by lia. subst. rewrite A in B. injection B as <-. lra.
  - destruct (multiplier_positive t' lims mults W ltac:(lia)) as [i' [l' [r' [A1 [A2 [A3 [A4 A5]]]]]]].
    rewrite A5 in B. injection B as <-.
    destruct (Z.eq_dec t 0) as [->|N].
    + rewrite multiplier_zero in A by exact W. injection A as <-. apply M4. now apply nth_error_In in A2.
    + destruct (multiplier_positive t lims mults W ltac:(lia)) as [i [l [r [B1 [B2 [B3 [B4 B5]]]]]]].
      rewrite B5 in A. injection A as <-.
      assert (i <= i')%nat.
      { destruct (Nat.le_gt_cases i i') as [K|K]; [exact K|]. specialize (A4 i l K B1). lia. }
      clear - D A2 B2 H0. revert i i' H0 A2 B2. induction D as [|a mults D IH F]; intros i i' H0 A2 B2.
      { destruct i; discriminate B2. }
      rewrite Forall_forall in F. destruct i as [|i], i' as [|i']; cbn in A2, B2.
      * injection A2 as <-. injection B2 as <-. lra.
      * injection B2 as <-. apply F. now apply nth_error_In in A2.
      * lia.
      * apply (IH i i'); [lia|assumption|assumption].
Qed.
