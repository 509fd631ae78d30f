(** iquam_track_check and spike_check. *)
Require Import String ZArith QArith Qround List Bool Lia Lqa Permutation.
Require Import Verif.M_Base Verif.L_Base Verif.S_Calendar Verif.M_Calendar Verif.L_Calendar Verif.L_Calendar2 Verif.M_Checks Verif.L_Checks Verif.M_Report Verif.S_Report Verif.L_Report Verif.L_Report3 Verif.M_Voyage Verif.S_Voyage Verif.L_Voyage Verif.L_Voyage2 Verif.L_Voyage3.
Import ListNotations.
Open Scope string_scope.
Open Scope list_scope.
Open Scope Z_scope.

Lemma Qabs'_compat : forall x y, (x == y)%Q -> (Qabs' x == Qabs' y)%Q.
Proof.
  intros x y E. unfold Qabs'. destruct (Qle_bool 0 x) eqn:A, (Qle_bool 0 y) eqn:B; try rewrite E; try reflexivity; exfalso;
    [apply Qle_bool_iff in A; assert (~ (0 <= y)%Q) by (intro C; apply Qle_bool_iff in C; congruence)|apply Qle_bool_iff in B; assert (~ (0 <= x)%Q) by (intro C; apply Qle_bool_iff in C; congruence)]; lra.
Qed.
Add Morphism Qabs' with signature (Qeq ==> Qeq) as Qabs'_mor.
Proof. exact Qabs'_compat. Qed.
Lemma Qabs'_opp : forall x, (Qabs' (- x) == Qabs' x)%Q.
Proof. intro x. destruct (Qabs'_cases x) as [[A ->]|[A ->]], (Qabs'_cases (- x)) as [[B ->]|[B ->]]; lra. Qed.
Lemma Qabs'_nonneg : forall x, (0 <= Qabs' x)%Q.
Proof. intro x. destruct (Qabs'_cases x) as [[A ->]|[A ->]]; lra. Qed.
Lemma Qabs'_zero : forall x, (x == 0)%Q -> (Qabs' x == 0)%Q.
Proof. intros x E. rewrite E. reflexivity. Qed.

Lemma elapsed_sym : forall d h d' h' t, elapsed d h d' h' t -> elapsed d' h' d h (- t).
Proof.
  intros d h d' h' t [[n [D E]]|[n [D E]]]; [right|left]; exists n; (split; [exact D|]); rewrite E; ring.
Qed.

Lemma located_inj : forall r la lo d h la' lo' d' h', located r la lo d h -> located r la' lo' d' h' -> la = la' /\ lo = lo' /\ d = d' /\ h = h'.
Proof.
  intros r la lo d h la' lo' d' h' A B. destruct (located_fun _ _ _ _ _ _ _ _ _ A B). destruct A, B. repeat split; auto; congruence.
Qed.

Lemma elapsed_self : forall d h t, elapsed d h d h t -> (t == 0)%Q.
Proof.
  intros d h t [[n [D E]]|[n [D E]]]; apply days_later_jdd in D; assert (n = O) by lia; subst n; rewrite E; change (inject_Z (Z.of_nat 0)) with 0%Q; ring.
Qed.

Section Check.
Variables (sp : sphere) (v0 : list report).
Hypothesis Hsp : distance_like (sp_dist sp).
Hypothesis Hloc : Forall is_located v0.

Lemma loc_at : forall i r, nth_error v0 i = Some r -> is_located r.
Proof. intros i r H. apply (proj1 (Forall_forall _ _) Hloc). eapply nth_error_In; eauto. Qed.

Lemma too_fast_sym : forall limit dd dt a b, too_fast (sp_dist sp) limit dd dt a b -> too_fast (sp_dist sp) limit dd dt b a.
Proof.
  intros limit dd dt a b [la [lo [d [h [la' [lo' [d' [h' [t [A [B [E K]]]]]]]]]]]].
  exists la', lo', d', h', la, lo, d, h, (- t)%Q. split; auto. split; auto. split; [now apply elapsed_sym|].
  rewrite Qabs'_opp, (proj1 Hsp la' lo' la lo). exact K.
Qed.
Lemma too_fast_irr : forall limit dd dt a, (0 <= limit)%Q -> (0 <= dd)%Q -> (0 < dt)%Q -> ~ too_fast (sp_dist sp) limit dd dt a a.
Proof.
  intros limit dd dt a Hl Hd Ht [la [lo [d [h [la' [lo' [d' [h' [t [A [B [E K]]]]]]]]]]]].
  destruct (located_inj _ _ _ _ _ _ _ _ _ A B) as [<- [<- [<- <-]]].
  rewrite (Qabs'_zero (sp_dist sp la lo la lo)) in K by apply Hsp. pose proof (Qabs'_nonneg t).
  assert (0 <= limit * (Qabs' t + dt))%Q by (apply Qmult_le_0_compat; lra). lra.
Qed.
Lemma jumps_sym : forall name delta gs gt a b, jumps (sp_dist sp) name delta gs gt a b -> jumps (sp_dist sp) name delta gs gt b a.
Proof.
  intros name delta gs gt a b [la [lo [d [h [la' [lo' [d' [h' [t [x [y [A [B [E [X [Y [K1 [K2 K3]]]]]]]]]]]]]]]]]].
  exists la', lo', d', h', la, lo, d, h, (- t)%Q, y, x. do 2 (split; [assumption|]). split; [now apply elapsed_sym|]. do 2 (split; [assumption|]).
  assert (Q1 : (Qabs' (x - y) == Qabs' (y - x))%Q) by (rewrite <- Qabs'_opp; apply Qabs'_compat; ring).
  rewrite Qabs'_opp, (proj1 Hsp la' lo' la lo), Q1. auto.
Qed.
Lemma jumps_irr : forall name delta gs gt a, (0 <= delta)%Q -> ~ jumps (sp_dist sp) name delta gs gt a a.
Proof.
  intros name delta gs gt a Hd [la [lo [d [h [la' [lo' [d' [h' [t [x [y [A [B [E [X [Y [K1 _]]]]]]]]]]]]]]]]].
  rewrite X in Y. injection Y as <-. rewrite Qabs'_zero in K1 by ring. lra.
Qed.

Lemma iquam_test_spec : forall limit dd dt a b, (0 <= limit)%Q -> (0 < dt)%Q -> is_located a -> is_located b ->
  exists x, iquam_test sp limit dd dt b a = Ok x /\ (x = true <-> too_fast (sp_dist sp) limit dd dt a b).
Proof.
  intros limit dd dt a b Hl Ht [la [lo [d [h A]]]] [la' [lo' [d' [h' B]]]]. unfold iquam_test.
  destruct (rep_sub_located sp a b la lo d h la' lo' d' h' A B) as [t [c [speed [E [El _]]]]]. rewrite E. cbn [bind].
  pose proof (Qabs'_nonneg t). destruct (Qeqb (Qabs' t + dt) 0) eqn:Z; qprop; [exfalso; lra|].
  eexists. split; [reflexivity|]. set (D := sp_dist sp la' lo' la lo).
  assert (X : (Qltb limit (Qmax' (Qabs' D - dd) 0 / (Qabs' t + dt)) = true <-> limit * (Qabs' t + dt) < Qabs' D - dd)%Q).
  { assert (P : (0 < Qabs' t + dt)%Q) by lra. assert (0 <= limit * (Qabs' t + dt))%Q by (apply Qmult_le_0_compat; lra).
    split.
    - intro K. qprop. apply (Qmult_lt_r _ _ (Qabs' t + dt) P) in K. rewrite Qmult_comm in K at 1. unfold Qdiv in K.
      rewrite <- Qmult_assoc, (Qmult_comm (/ _)), Qmult_inv_r, Qmult_1_r in K by lra.
      unfold Qmax' in K. destruct (Qle_bool (Qabs' D - dd) 0); lra.
    - intro K. qprop. apply Qlt_shift_div_l; [exact P|]. unfold Qmax'. destruct (Qle_bool (Qabs' D - dd) 0) eqn:G; [apply Qle_bool_iff in G; lra|exact K]. }
  rewrite X. unfold D. split.
  - intro K. exists la, lo, d, h, la', lo', d', h', t. split; auto. split; auto. split; auto. rewrite (proj1 Hsp la lo la' lo'). exact K.
  - intros [ma [m [e [k [ma' [m' [e' [k' [u [A' [B' [E' K]]]]]]]]]]]].
    destruct (located_inj _ _ _ _ _ _ _ _ _ A A') as [<- [<- [<- <-]]], (located_inj _ _ _ _ _ _ _ _ _ B B') as [<- [<- [<- <-]]].
    rewrite (elapsed_fun d h d' h' t u) by (auto; apply A || apply B). rewrite (proj1 Hsp la' lo' la lo). exact K.
Qed.

Lemma Qmax'_lt : forall a b c, (Qmax' a b < c <-> a < c /\ b < c)%Q.
Proof. intros a b c. unfold Qmax'. destruct (Qle_bool a b) eqn:E; [apply Qle_bool_iff in E; split; [intro; split; lra|tauto]|].
  assert (~ (a <= b)%Q) by (intro C; apply Qle_bool_iff in C; congruence). split; [intro; split; lra|tauto]. Qed.

Lemma spike_test_spec : forall name delta gs gt a b, is_located a -> is_located b ->
  exists x, spike_test sp name delta gs gt b a = Ok x /\ (x = true <-> jumps (sp_dist sp) name delta gs gt a b).
Proof.
  intros name delta gs gt a b [la [lo [d [h A]]]] [la' [lo' [d' [h' B]]]]. unfold spike_test.
  destruct (getvar b name) as [y|] eqn:Y.
  2:{ exists false. split; auto. split; [discriminate|]. intros [ma [m [e [k [ma' [m' [e' [k' [u [x [z [_ [_ [_ [_ [K _]]]]]]]]]]]]]]]]. congruence. }
  destruct (getvar a name) as [x|] eqn:X.
  2:{ exists false. split; auto. split; [discriminate|]. intros [ma [m [e [k [ma' [m' [e' [k' [u [x [z [_ [_ [_ [K _]]]]]]]]]]]]]]]. congruence. }
  destruct (rep_sub_located sp a b la lo d h la' lo' d' h' A B) as [t [c [speed [E [El _]]]]]. rewrite E. cbn [bind].
  eexists. split; [reflexivity|].
  assert (Q0 : forall p q, Qltb p q = true <-> (p < q)%Q) by (intros p q; split; intro; qprop; assumption).
  rewrite Q0, !Qmax'_lt, (Qmult_comm _ gs), (Qmult_comm _ gt). split.
  - intros [[K1 K2] K3]. exists la, lo, d, h, la', lo', d', h', t, x, y. do 5 (split; [assumption|]).
    rewrite (proj1 Hsp la lo la' lo'). auto.
  - intros [ma [m [e [k [ma' [m' [e' [k' [u [x2 [z [A' [B' [E' [X' [Y' [K1 [K2 K3]]]]]]]]]]]]]]]]]].
    destruct (located_inj _ _ _ _ _ _ _ _ _ A A') as [<- [<- [<- <-]]], (located_inj _ _ _ _ _ _ _ _ _ B B') as [<- [<- [<- <-]]].
    rewrite X in X'. rewrite Y in Y'. injection X' as <-. injection Y' as <-.
    rewrite (elapsed_fun d h d' h' t u) by (auto; apply A || apply B). rewrite (proj1 Hsp la' lo' la lo). auto.
Qed.

Lemma greedy_ext : forall V V' n rm, (forall i j, V i j <-> V' i j) -> greedy V n rm -> greedy V' n rm.
Proof.
  intros V V' n rm H G. induction G; [constructor|].
  assert (O : forall rm i l, open_violations V rm i l <-> open_violations V' rm i l).
  { intros. unfold open_violations, lists. split; intros [N K]; split; auto; intro x; rewrite K, H; tauto. }
  apply (greedy_step V' n removed i l); auto; [now apply O|]. intros j l' Hj Nj Oj. apply H4; auto. now apply O.
Qed.

Lemma iquam_removal : forall limit dd dt nb, (0 <= limit)%Q -> (0 <= dd)%Q -> (0 < dt)%Q ->
  let bad := near_pair v0 nb (too_fast (sp_dist sp) limit dd dt) in
  exists v' rm, removal (iquam_test sp limit dd dt) "POS" "iquam_track" nb v0 = Ok v' /\ greedy bad (length v0) rm /\
    (forall i j, bad i j -> In i rm \/ In j rm) /\ flags_exactly "POS" "iquam_track" (fun i => In i rm) v0 v'.
Proof.
  intros limit dd dt nb Hl Hd Ht bad.
  destruct (removal_ok (iquam_test sp limit dd dt) "POS" "iquam_track" nb v0
     (fun i j => exists a b, nth_error v0 i = Some a /\ nth_error v0 j = Some b /\ too_fast (sp_dist sp) limit dd dt a b)) as [v' [rm [E [G [F1 F2]]]]].
  - intros x Hx. split; [unfold att_value; simpl; lia|]. now left.
  - intros i j ri rj Hi Hj. destruct (iquam_test_spec limit dd dt ri rj Hl Ht (loc_at i ri Hi) (loc_at j rj Hj)) as [b [E K]].
    exists b. split; auto. rewrite K. split; [eauto 6|]. intros [a [b' [A [B C]]]]. congruence.
  - intros a a' b b' A B. unfold iquam_test. now rewrite (unch_sub sp _ _ _ _ _ _ A B).
  - intros i j [a [b [A [B C]]]]. exists b, a. split; auto. split; auto. now apply too_fast_sym.
  - intros i [a [b [A [B C]]]]. rewrite A in B. injection B as <-. revert C. now apply too_fast_irr.
  - assert (EV : forall i j, V nb v0 (fun i j => exists a b, nth_error v0 i = Some a /\ nth_error v0 j = Some b /\ too_fast (sp_dist sp) limit dd dt a b) i j <-> bad i j).
    { intros i j. unfold V, bad, near_pair. split; [tauto|]. intros [K [a [b [A [B C]]]]]. repeat split; auto; try (apply nth_error_Some; congruence). eauto. }
    exists v', rm. split; [exact E|]. split; [eapply greedy_ext; [exact EV|exact G]|]. split; [|exact F2]. intros i j H. apply F1, EV, H.
Qed.

Lemma spike_removal : forall name delta gs gt nb, In name variables -> (0 <= delta)%Q ->
  let bad := near_pair v0 nb (jumps (sp_dist sp) name delta gs gt) in
  exists v' rm, removal (spike_test sp name delta gs gt) name "spike" nb v0 = Ok v' /\ greedy bad (length v0) rm /\
    (forall i j, bad i j -> In i rm \/ In j rm) /\ flags_exactly name "spike" (fun i => In i rm) v0 v'.
Proof.
  intros name delta gs gt nb Hn Hd bad.
  destruct (removal_ok (spike_test sp name delta gs gt) name "spike" nb v0
     (fun i j => exists a b, nth_error v0 i = Some a /\ nth_error v0 j = Some b /\ jumps (sp_dist sp) name delta gs gt a b)) as [v' [rm [E [G [F1 F2]]]]].
  - intros x Hx. split; [unfold att_value; simpl; lia|]. now right.
  - intros i j ri rj Hi Hj. destruct (spike_test_spec name delta gs gt ri rj (loc_at i ri Hi) (loc_at j rj Hj)) as [b [E K]].
    exists b. split; auto. rewrite K. split; [eauto 6|]. intros [a [b' [A [B C]]]]. congruence.
  - intros a a' b b' A B. unfold spike_test. rewrite (unch_getvar _ _ _ _ name A), (unch_getvar _ _ _ _ name B). now rewrite (unch_sub sp _ _ _ _ _ _ A B).
  - intros i j [a [b [A [B C]]]]. exists b, a. split; auto. split; auto. now apply jumps_sym.
  - intros i [a [b [A [B C]]]]. rewrite A in B. injection B as <-. revert C. now apply jumps_irr.
  - assert (EV : forall i j, V nb v0 (fun i j => exists a b, nth_error v0 i = Some a /\ nth_error v0 j = Some b /\ jumps (sp_dist sp) name delta gs gt a b) i j <-> bad i j).
    { intros i j. unfold V, bad, near_pair. split; [tauto|]. intros [K [a [b [A [B C]]]]]. repeat split; auto; try (apply nth_error_Some; congruence). eauto. }
    exists v', rm. split; [exact E|]. split; [eapply greedy_ext; [exact EV|exact G]|]. split; [|exact F2]. intros i j H. apply F1, EV, H.
Qed.
End Check.

Lemma iquam_check_ok : forall sp p v r0 rest, v = r0 :: rest -> generic_report r0 = false ->
  distance_like (sp_dist sp) -> Forall is_located v ->
  let limit := match v with r :: _ => if pt_buoy r then iq_buoy p else iq_ship p | [] => 0%Q end in
  (0 <= limit)%Q -> (0 <= iq_d p)%Q -> (0 < iq_t p)%Q ->
  let bad := near_pair v (iq_n p) (too_fast (sp_dist sp) limit (iq_d p) (iq_t p)) in
  exists v' removed, iquam_track_check sp p v = Ok v' /\ greedy bad (length v) removed /\
    (forall i j, bad i j -> In i removed \/ In j removed) /\
    flags_exactly "POS" "iquam_track" (fun i => In i removed) v v'.
Proof.
  intros sp p v r0 rest -> G Hsp Hl limit H1 H2 H3 bad. cbn [iquam_track_check]. rewrite G. now apply iquam_removal.
Qed.

Lemma iquam_generic_ok : forall sp p v r0 rest, v = r0 :: rest -> generic_report r0 = true ->
  exists v', iquam_track_check sp p v = Ok v' /\ flags_exactly "POS" "iquam_track" (fun _ => False) v v'.
Proof.
  intros sp p v r0 rest -> G. cbn [iquam_track_check]. rewrite G.
  destruct (vset_list_writes "POS" "iquam_track" (r0 :: rest) 0 (seq 0 (length (r0 :: rest))) _ _ (writes_refl _ _ _)) as [v' [E W]].
  - intros i Hi. apply in_seq in Hi. lia.
  - split; [unfold att_value; simpl; lia|now left].
  - exists v'. split; [exact E|]. eapply writes_flags; [exact W|]. intros i Hi. right. cbv beta.
    rewrite (proj2 (memn_In i _)); [auto|]. apply in_seq. lia.
Qed.

Lemma spike_check_ok : forall sp p name v, In name variables -> distance_like (sp_dist sp) -> Forall is_located v ->
  let delta := match v with r :: _ => if pt_buoy r then sk_buoy p else sk_ship p | [] => 0%Q end in
  (0 <= delta)%Q ->
  let bad := near_pair v (sk_n p) (jumps (sp_dist sp) name delta (sk_space p) (sk_time p)) in
  exists v' removed, spike_check sp p name v = Ok v' /\ greedy bad (length v) removed /\
    (forall i j, bad i j -> In i removed \/ In j removed) /\
    flags_exactly name "spike" (fun i => In i removed) v v'.
Proof.
  intros sp p name v Hn Hsp Hl delta Hd bad. destruct v as [|r0 rest].
  - exists [], []. split; [reflexivity|]. split; [constructor|]. split.
    + intros i j [_ [a [b [A _]]]]. destruct i; discriminate.
    + split; [constructor|]. intros i r' H. destruct i; discriminate.
  - cbn [spike_check]. now apply spike_removal.
Qed.
