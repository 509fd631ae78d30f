(** Drifter checks: reading the record, medians, the window loop. *)
Require Import String ZArith QArith Qround List Bool Lia Lqa Sorting.Sorted Permutation.
Require Import Verif.M_Base Verif.L_Base Verif.S_Calendar Verif.L_Calendar Verif.M_Stats Verif.S_Stats Verif.L_Stats Verif.M_Report Verif.S_Report Verif.L_Report Verif.L_Report3 Verif.M_Voyage Verif.S_Voyage Verif.L_Voyage Verif.L_Voyage2 Verif.L_Voyage4 Verif.L_Voyage6 Verif.M_Track Verif.S_Track Verif.L_Track2 Verif.L_Track3 Verif.L_Track5 Verif.M_Drifter Verif.S_Drifter.
Import ListNotations.
Open Scope string_scope.
Open Scope list_scope.
Open Scope Z_scope.

(* ---- the window loop ---- *)

Definition nondecreasing (l : list Q) : Prop := forall i j, (i <= j)%nat -> (j < length l)%nat -> (nth i l 0 <= nth j l 0)%Q.

Lemma py_nth_nat : forall (l : list Q) i, (i < length l)%nat -> py_nth l (Z.of_nat i) = Ok (nth i l 0%Q).
Proof. intros l i H. apply py_nth_error. now apply nth_error_nth'. Qed.
Lemma py_nth_last : forall (l : list Q), (0 < length l)%nat -> py_nth l (-1) = Ok (nth (length l - 1) l 0%Q).
Proof.
  intros l H. unfold py_nth. replace (-1 <? 0) with true by reflexivity. 
  replace (-1 + Z.of_nat (length l)) with (Z.of_nat (length l - 1)) by lia.
  replace ((Z.of_nat (length l - 1) <? 0) || (Z.of_nat (length l) <=? Z.of_nat (length l - 1))) with false by lia.
  rewrite Nat2Z.id. rewrite (nth_error_nth' l 0%Q) by lia. reflexivity.
Qed.

Section Loop.
Context {St : Type}.
Variables (hrs : list Q) (period : Q) (step : nat -> St -> res St) (I : nat -> St -> Prop).
Hypothesis Hn : (0 < length hrs)%nat.
Hypothesis Hs : nondecreasing hrs.
Hypothesis Hp : (0 < period)%Q.
Let tte (i : nat) : Q := (nth (length hrs - 1) hrs 0 - nth i hrs 0)%Q.
Hypothesis Hstep : forall i st, (i < length hrs)%nat -> (period <= tte i)%Q -> I i st -> exists st', step i st = Ok st' /\ I (S i) st'.

Lemma window_loop_ok : forall fuel i st, (i < length hrs)%nat -> (length hrs <= fuel + i)%nat -> I i st ->
  exists st' m, window_loop hrs period step fuel i (tte i) st = Ok st' /\ I m st' /\ (i <= m)%nat /\ (m < length hrs)%nat /\ (tte m < period)%Q /\
    forall i', (i <= i')%nat -> (i' < m)%nat -> (period <= tte i')%Q.
Proof.
  induction fuel as [|fuel IH]; intros i st Hi Hf HI; [lia|].
  cbn [window_loop]. destruct (Qleb period (tte i)) eqn:E; qprop.
  - destruct (Hstep i st Hi E HI) as [st1 [E1 I1]]. rewrite E1. cbn [bind]. rewrite py_nth_last by exact Hn. cbn [bind].
    assert (L : (i + 1 < length hrs)%nat).
    { destruct (Nat.eq_dec (i + 1) (length hrs)) as [D|D]; [|lia]. exfalso. unfold tte in E. replace (length hrs - 1)%nat with i in E by lia. lra. }
    rewrite py_nth_nat by exact L. cbn [bind]. rewrite Nat.add_1_r in *.
    destruct (IH (S i) st1 L ltac:(lia) I1) as [st' [m [A [B [C [D [F G]]]]]]]. exists st', m. split; [exact A|]. split; [exact B|]. split; [lia|]. split; [exact D|]. split; [exact F|].
    intros i' H1 H2. destruct (Nat.eq_dec i i') as [->|]; [exact E|]. apply G; lia.
  - exists st, i. split; [reflexivity|]. split; [exact HI|]. split; [lia|]. split; [exact Hi|]. split; [exact E|]. intros; lia.
Qed.
Lemma run_windows_ok : forall st, I O st -> exists st' m, run_windows hrs period step st = Ok st' /\ I m st' /\ (m < length hrs)%nat /\
  (forall i, (i < length hrs)%nat -> ((period <= tte i)%Q <-> (i < m)%nat)).
Proof.
  intros st H. unfold run_windows. rewrite py_nth_last by exact Hn. cbn [bind]. change 0 with (Z.of_nat 0) at 1. rewrite py_nth_nat by exact Hn. cbn [bind].
  destruct (window_loop_ok (length hrs) O st Hn ltac:(lia) H) as [st' [m [A [B [_ [D [F G]]]]]]]. exists st', m. split; [exact A|]. split; [exact B|]. split; [exact D|].
  intros i Hi. split; intro K.
  - destruct (Nat.lt_ge_cases i m) as [C|C]; [exact C|]. exfalso. pose proof (Hs m i C Hi). unfold tte in *. lra.
  - apply G; lia.
Qed.
End Loop.

(* ---- positions selected by a mask ---- *)

Lemma where_In : forall f hrs i, In i (where_ f hrs) <-> (i < length hrs)%nat /\ f i (nth i hrs 0%Q) = true.
Proof. intros f hrs i. unfold where_. rewrite filter_In, in_seq. intuition lia. Qed.
Lemma where_sorted : forall f hrs, StronglySorted lt (where_ f hrs).
Proof. intros. apply L_Report2.filter_sorted, L_Report2.seq_sorted. Qed.
Lemma last_of_ok : forall l, StronglySorted lt l -> l <> [] -> exists x, last_of l = Ok x /\ In x l /\ forall y, In y l -> (y <= x)%nat.
Proof.
  intros l S0 N. unfold last_of. destruct (rev l) as [|x l'] eqn:E; [apply (f_equal (@rev nat)) in E; rewrite rev_involutive in E; cbn in E; contradiction|].
  exists x. split; [reflexivity|]. assert (L : l = rev l' ++ [x]) by (rewrite <- (rev_involutive l), E; reflexivity).
  split; [rewrite L; apply in_or_app; right; now left|]. intros y H. rewrite L in H. apply in_app_or in H. destruct H as [H|[->|[]]]; [|lia].
  rewrite L in S0. clear -S0 H. induction (rev l') as [|a k IH]; [destruct H|]. cbn in S0. inversion S0 as [|a' k' S1 F]; subst. destruct H as [->|H].
  - rewrite Forall_forall in F. assert (y < x)%nat; [|lia]. apply F. apply in_or_app. right. now left.
  - now apply IH.
Qed.
Lemma first_of_sorted : forall x l, StronglySorted lt (x :: l) -> forall y, In y (x :: l) -> (x <= y)%nat.
Proof. intros x l S0 y [->|H]; [lia|]. inversion S0 as [|a k S1 F]; subst. rewrite Forall_forall in F. specialize (F y H). lia. Qed.

(* ---- medians ---- *)

Lemma median_fun : forall k l m m', median k l m -> median k l m' -> (m == m')%Q.
Proof.
  assert (W : forall k l m m', median k l m -> median k l m' -> ~ (m < m')%Q).
  { intros k l m m' [L [_ [_ A]]] [_ [_ [B _]]] H.
    assert (C : (length l <= length (filter (fun x => Qltb m x) l) + length (filter (fun x => Qltb x m') l))%nat).
    { clear L A B. induction l as [|x l IH]; [cbn; lia|]. cbn [filter length]. destruct (Qltb m x) eqn:E1, (Qltb x m') eqn:E2; cbn [length]; try lia. qprop. lra. }
    lia. }
  intros k l m m' A B. destruct (Q_dec m m') as [[H|H]|H]; [exfalso; exact (W k l m m' A B H)|exfalso; exact (W k l m' m B A H)|exact H].
Qed.
Lemma np_median_ok : forall k l, length l = (2 * k + 1)%nat -> median k l (np_median l).
Proof.
  intros k l L. unfold np_median. rewrite L.
  replace (Nat.even (2 * k + 1)) with false by (rewrite Nat.even_add, Nat.even_mul; reflexivity).
  replace ((2 * k + 1) / 2)%nat with k by (rewrite Nat.add_comm, Nat.mul_comm, Nat.div_add by lia; reflexivity).
  set (s := qsort l). set (m := nth k s 0%Q).
  pose proof (qsort_perm l) as P. pose proof (qsort_sorted l) as St. fold s in P, St.
  assert (Ls : length s = (2 * k + 1)%nat) by (unfold s; rewrite qsort_length; exact L).
  split; [exact L|]. split.
  - exists m. split; [|reflexivity]. eapply Permutation_in; [exact P|]. apply nth_In. lia.
  - change (length (filter (fun x => Qltb x m) l)) with (count (fun x => Qltb x m) l).
    change (length (filter (fun x => Qltb m x) l)) with (count (fun x => Qltb m x) l).
    rewrite <- !(count_perm _ _ _ P). split.
    + assert (~ (k < count (fun x => Qltb x m) s)%nat); [|lia]. rewrite <- (order_stat s k m St) by lia. fold m. lra.
    + assert (E : s = firstn (S k) s ++ skipn (S k) s) by (symmetry; apply firstn_skipn). rewrite E. unfold count. rewrite filter_app, app_length.
      replace (filter (fun x => Qltb m x) (firstn (S k) s)) with (@nil Q).
      * cbn [length]. pose proof (skipn_length (S k) s). 
        assert (X : forall (f : Q -> bool) a, (length (filter f a) <= length a)%nat) by (intros f; induction a as [|y a IH]; cbn; [lia|destruct (f y); cbn; lia]).
        specialize (X (fun x => Qltb m x) (skipn (S k) s)). lia.
      * symmetry. 
        assert (Z0 : forall a, (forall x, In x a -> Qltb m x = false) -> filter (fun x => Qltb m x) a = []).
        { induction a as [|y a IH]; intro H; [reflexivity|]. cbn. rewrite H by now left. apply IH. intros z Hz. apply H. now right. }
        apply Z0. intros x Hx. apply (In_nth _ _ 0%Q) in Hx. destruct Hx as [j [Hj Ej]]. rewrite firstn_length in Hj.
        rewrite nth_firstn' in Ej by lia. subst x. apply Qltb_false. unfold m. apply nth_sorted; [exact St|lia].
Qed.

(* ---- reading the record ---- *)

Lemma cumsum_length : forall l acc, length (cumsum acc l) = length l.
Proof. induction l; intros; cbn; auto. Qed.
Lemma cumsum_step : forall l acc i, (i < length l)%nat -> (nth (S i) (acc :: cumsum acc l) 0 == nth i (acc :: cumsum acc l) 0 + nth i l 0)%Q.
Proof.
  induction l as [|x l IH]; intros acc i H; [cbn in H; lia|]. destruct i as [|i]; [cbn; ring|].
  cbn [cumsum]. change (nth (S (S i)) (acc :: (acc + x)%Q :: cumsum (acc + x) l) 0%Q) with (nth (S i) ((acc + x)%Q :: cumsum (acc + x) l) 0%Q).
  change (nth (S i) (acc :: (acc + x)%Q :: cumsum (acc + x) l) 0%Q) with (nth i ((acc + x)%Q :: cumsum (acc + x) l) 0%Q).
  cbn [length] in H. rewrite IH by lia. reflexivity.
Qed.

(** lats, lons, hrs are the latitudes, longitudes and hours of v. *)
Record recorded (v : list report) (lats lons hrs : list Q) : Prop := {
  rc_lat : length lats = length v; rc_lon : length lons = length v; rc_hrs : length hrs = length v;
  rc_pos : forall i r, nth_error v i = Some r -> at_pos r (nth i lats 0%Q) (nth i lons 0%Q);
  rc_time : forall i j, (i < length v)%nat -> (j < length v)%nat -> hours_from_to v i j (nth j hrs 0 - nth i hrs 0)%Q;
  rc_ord : nondecreasing hrs }.

Lemma hours_trans : forall a b c t u, hours_between a b t -> hours_between b c u -> hours_between a c (t + u)%Q.
Proof.
  intros a b c t u T U. pose proof T as T0. pose proof U as U0.
  destruct T as [la [lo [d [h [la' [lo' [d' [h' [A [B E]]]]]]]]]]. destruct U as [ma [mo [e [k [ma' [mo' [e' [k' [A' [B' E']]]]]]]]]].
  destruct (hours_exist a c) as [w W]; [exists la, lo, d, h; exact A|exists ma', mo', e', k'; exact B'|].
  assert (Q0 : (w == t + u)%Q).
  { rewrite (hours_jdd _ _ _ _ _ _ _ _ _ _ _ A B' W), (hours_jdd _ _ _ _ _ _ _ _ _ _ _ A B T0), (hours_jdd _ _ _ _ _ _ _ _ _ _ _ A' B' U0).
    destruct (located_inj _ _ _ _ _ _ _ _ _ B A') as [-> [-> [-> ->]]]. 
    rewrite !inject_Z_minus. ring. }
  destruct W as [xa [xo [xd [xh [xa' [xo' [xd' [xh' [X [Y F]]]]]]]]]]. exists xa, xo, xd, xh, xa', xo', xd', xh'. split; [exact X|]. split; [exact Y|].
  destruct F as [[n [F1 F2]]|[n [F1 F2]]]; [left|right]; exists n; (split; [exact F1|]); rewrite <- Q0; exact F2.
Qed.
Lemma hours_compat : forall a b t u, hours_between a b t -> (t == u)%Q -> hours_between a b u.
Proof.
  intros a b t u [xa [xo [xd [xh [xa' [xo' [xd' [xh' [X [Y F]]]]]]]]]] E. exists xa, xo, xd, xh, xa', xo', xd', xh'. split; [exact X|]. split; [exact Y|].
  destruct F as [[n [F1 F2]]|[n [F1 F2]]]; [left|right]; exists n; (split; [exact F1|]); rewrite <- E; exact F2.
Qed.
Lemma hours_refl : forall a, is_located a -> hours_between a a 0.
Proof.
  intros a L. destruct (hours_exist a a L L) as [t T]. apply (hours_compat a a t 0 T). destruct L as [la [lo [d [h A]]]].
  rewrite (hours_jdd _ _ _ _ _ _ _ _ _ _ _ A A T). rewrite Z.sub_diag. change (inject_Z 0) with 0%Q. ring.
Qed.
Lemma hours_opp : forall a b t, hours_between a b t -> hours_between b a (- t)%Q.
Proof.
  intros a b t T. pose proof T as T0. destruct T as [la [lo [d [h [la' [lo' [d' [h' [A [B E]]]]]]]]]].
  destruct (hours_exist b a) as [w W]; [exists la', lo', d', h'; exact B|exists la, lo, d, h; exact A|]. apply (hours_compat b a w); [exact W|].
  rewrite (hours_jdd _ _ _ _ _ _ _ _ _ _ _ B A W), (hours_jdd _ _ _ _ _ _ _ _ _ _ _ A B T0). rewrite !inject_Z_minus. ring.
Qed.

Lemma read_ok : forall v, timed v -> v <> [] -> exists lats lons hrs, read_record v = Ok (lats, lons, hrs) /\ recorded v lats lons hrs.
Proof.
  intros v [Hl [Ho Ht]] Nv. unfold read_record. rewrite Forall_forall in Hl.
  destruct (mapM_ok _ _ (fun r => need (getvar r "LON")) v) as [lons [E1 [L1 N1]]].
  { intros r Hr. destruct (located_pos r (Hl r Hr)) as [la [lo [L L']]]. exists lo. rewrite L'. reflexivity. }
  rewrite E1. cbn [bind].
  destruct (mapM_ok _ _ (fun r => need (getvar r "LAT")) v) as [lats [E2 [L2 N2]]].
  { intros r Hr. destruct (located_pos r (Hl r Hr)) as [la [lo [L L']]]. exists la. rewrite L. reflexivity. }
  rewrite E2. cbn [bind].
  assert (TL : forall i, nth_error (tl v) i = nth_error v (S i)) by (intro i; destruct v; [destruct i; reflexivity|reflexivity]).
  assert (K : forall i a b, nth_error v i = Some a -> nth_error v (S i) = Some b -> exists t, hours_between a b t /\ time_step b = Ok t /\ (0 <= t)%Q).
  { intros i a b A B. destruct (Ht i a b A B) as [t [T G]]. pose proof (Ho i a b t A B T) as P. exists t. split; [exact T|]. split; [|exact P].
    unfold time_step. rewrite G. cbn [bind need]. rewrite (proj2 (Qleb_true 0 t) P). reflexivity. }
  destruct (mapM_ok _ _ time_step (tl v)) as [steps [E3 [L3 N3]]].
  { intros r Hr. apply In_nth_error in Hr. destruct Hr as [i Hi]. rewrite TL in Hi.
    destruct (nth_error v i) as [a|] eqn:A; [|apply nth_error_None in A; assert (S i < length v)%nat by (apply nth_error_Some; congruence); lia].
    destruct (K i a r A Hi) as [t [_ [G _]]]. exists t. exact G. }
  rewrite E3. cbn [bind]. exists lats, lons. destruct v as [|r0 v']; [contradiction|]. exists (0%Q :: cumsum 0 steps). split; [reflexivity|].
  cbn [tl] in L3. set (hrs := 0%Q :: cumsum 0 steps).
  assert (LH : length hrs = length (r0 :: v')) by (unfold hrs; cbn [length]; rewrite cumsum_length, L3; reflexivity).
  assert (ST : forall i a b, nth_error (r0 :: v') i = Some a -> nth_error (r0 :: v') (S i) = Some b -> hours_between a b (nth (S i) hrs 0 - nth i hrs 0)%Q /\ (nth i hrs 0 <= nth (S i) hrs 0)%Q).
  { intros i a b A B. destruct (K i a b A B) as [t [T [G P]]]. destruct (N3 i b ltac:(rewrite TL; exact B)) as [y [Y Y']]. rewrite Y' in G. injection G as ->.
    assert (D : (nth (S i) hrs 0 == nth i hrs 0 + t)%Q).
    { unfold hrs. rewrite cumsum_step. - rewrite (nth_error_nth _ _ 0%Q Y). reflexivity. - apply nth_error_Some. congruence. }
    split; [|rewrite D; lra]. apply (hours_compat a b t); [exact T|]. rewrite D. ring. }
  assert (FW : forall k i a b, nth_error (r0 :: v') i = Some a -> nth_error (r0 :: v') (i + k) = Some b -> hours_between a b (nth (i + k) hrs 0 - nth i hrs 0)%Q /\ (nth i hrs 0 <= nth (i + k) hrs 0)%Q).
  { induction k as [|k IH]; intros i a b A B.
    - rewrite Nat.add_0_r in *. rewrite A in B. injection B as <-. split; [|apply Qle_refl]. apply (hours_compat a a 0); [apply hours_refl; apply Hl; eapply nth_error_In; eauto|ring].
    - destruct (nth_error (r0 :: v') (i + k)) as [c|] eqn:C; [|apply nth_error_None in C; assert ((i + S k) < length (r0 :: v'))%nat by (apply nth_error_Some; congruence); lia].
      destruct (IH i a c A C) as [T1 P1]. rewrite Nat.add_succ_r in *. destruct (ST (i + k)%nat c b C B) as [T2 P2].
      split; [|lra]. eapply hours_compat; [eapply hours_trans; [exact T1|exact T2]|]. ring. }
  constructor; auto.
  - intros i r Hi. destruct (N1 i r Hi) as [y [Y G]], (N2 i r Hi) as [z [W G']]. rewrite (nth_error_nth _ _ _ Y), (nth_error_nth _ _ _ W).
    split; [destruct (getvar r "LAT"); cbn in G'; congruence|destruct (getvar r "LON"); cbn in G; congruence].
  - intros i j Hi Hj. destruct (nth_error (r0 :: v') i) as [a|] eqn:A; [|apply nth_error_None in A; lia]. destruct (nth_error (r0 :: v') j) as [b|] eqn:B; [|apply nth_error_None in B; lia].
    exists a, b. split; [exact A|]. split; [exact B|]. destruct (Nat.le_ge_cases i j) as [H|H].
    + replace j with (i + (j - i))%nat in B |- * by lia. apply (FW (j - i)%nat i a b A B).
    + replace i with (j + (i - j))%nat in A |- * by lia. eapply hours_compat; [apply hours_opp; apply (FW (i - j)%nat j b a B A)|]. ring.
  - intros i j H Hj. rewrite LH in Hj. destruct (nth_error (r0 :: v') i) as [a|] eqn:A; [|apply nth_error_None in A; lia]. destruct (nth_error (r0 :: v') j) as [b|] eqn:B; [|apply nth_error_None in B; lia].
    replace j with (i + (j - i))%nat in B |- * by lia. apply (FW (j - i)%nat i a b A B).
Qed.
Lemma hft_fun : forall v i j t u, hours_from_to v i j t -> hours_from_to v i j u -> (t == u)%Q.
Proof. intros v i j t u [a [b [A [B T]]]] [a' [b' [A' [B' U]]]]. rewrite A in A'. rewrite B in B'. injection A' as <-. injection B' as <-. eapply hours_between_fun; eauto. Qed.
Lemma hft_range : forall v i j t, hours_from_to v i j t -> (i < length v)%nat /\ (j < length v)%nat.
Proof. intros v i j t [a [b [A [B _]]]]. split; apply nth_error_Some; congruence. Qed.

(* ---- a voyage built report by report ---- *)

Lemma time_diff_ext : forall r x, getvar r "time_diff" = Some x -> getext r "time_diff" = Ok (Some x).
Proof. intros r x. unfold getvar, getext. change (index_of "time_diff" VARLIST) with (@Err nat ValueError). cbv iota. destruct (assoc "time_diff" (r_ext r)) as [[y|]|]; congruence. Qed.
Lemma linked_timed : forall sp v, Forall is_located v -> in_time_order v -> linked sp v -> timed v.
Proof.
  intros sp v A B C. split; [exact A|]. split; [exact B|]. intros i a b X Y.
  destruct (C i a b X Y) as [la [lo [d [h [la' [lo' [d' [h' [t [s [L1 [L2 [E [T _]]]]]]]]]]]]]]. exists t. split; [|now apply time_diff_ext].
  exists la, lo, d, h, la', lo', d', h'. auto.
Qed.
Lemma built_timed : forall sp l, Forall is_located l -> in_time_order l -> exists v, add_reports sp [] l = Ok v /\ Forall2 same_report l v /\ timed v.
Proof.
  intros sp l A B. destruct (build_voyage_ok sp l A) as [v [E [F [L _]]]]. exists v. split; [exact E|]. split; [exact F|].
  assert (FD : Forall2 data_same l v) by (eapply Forall2_impl'; [|exact F]; apply same_data).
  apply (linked_timed sp); [|eapply data_order; eauto|exact L].
  apply Forall_forall. intros r Hr. apply In_nth_error in Hr. destruct Hr as [i Hi]. destruct (Forall2_nth_back _ _ _ _ _ FD i r Hi) as [r' [Hi' D]].
  eapply data_located'; [exact D|]. rewrite Forall_forall in A. apply A. eapply nth_error_In; eauto.
Qed.
