(** Greedy removal of violating reports (IQUAM track check and spike check). *)
Require Import String ZArith QArith Qround List Bool Lia Lqa Permutation.
Require Import Verif.M_Base Verif.L_Base Verif.M_Report Verif.S_Report Verif.L_Report Verif.L_Report3 Verif.M_Voyage Verif.S_Voyage Verif.L_Voyage.
Import ListNotations.
Open Scope string_scope.
Open Scope list_scope.
Open Scope Z_scope.

Lemma argmax_from_spec : forall l best bv i, (best < i)%nat ->
  let m := argmax_from best bv i l in
  (m = best /\ (forall j x, nth_error l j = Some x -> x <= bv)) \/
  (exists j x, m = (i + j)%nat /\ nth_error l j = Some x /\ bv < x /\ (forall k y, nth_error l k = Some y -> y <= x) /\
     (forall k y, (k < j)%nat -> nth_error l k = Some y -> y < x)).
Proof.
  induction l as [|x l IH]; intros best bv i Hb; simpl.
  - left. split; auto. intros j x H. destruct j; discriminate.
  - destruct (Z.ltb_spec bv x) as [L|L].
    + right. destruct (IH i x (S i) ltac:(lia)) as [[E H]|[j [y [E [H1 [H2 [H3 H4]]]]]]].
      * exists O, x. split; [lia|]. split; auto. split; auto. split.
        -- intros k y Hk. destruct k; simpl in Hk; [injection Hk as <-; lia|eapply H; eauto].
        -- intros; lia.
      * exists (S j), y. split; [lia|]. split; auto. split; [lia|]. split.
        -- intros k z Hk. destruct k; simpl in Hk; [injection Hk as <-; lia|eapply H3; eauto].
        -- intros k z Hkj Hk. destruct k; simpl in Hk; [injection Hk as <-; lia|eapply H4; [|eauto]; lia].
    + destruct (IH best bv (S i) ltac:(lia)) as [[E H]|[j [y [E [H1 [H2 [H3 H4]]]]]]].
      * left. split; auto. intros j y Hj. destruct j; simpl in Hj; [injection Hj as <-; lia|eapply H; eauto].
      * right. exists (S j), y. split; [lia|]. split; auto. split; auto. split.
        -- intros k z Hk. destruct k; simpl in Hk; [injection Hk as <-; lia|eapply H3; eauto].
        -- intros k z Hkj Hk. destruct k; simpl in Hk; [injection Hk as <-; lia|eapply H4; [|eauto]; lia].
Qed.

Lemma np_argmax_spec : forall l, l <> [] -> exists m x, np_argmax l = Ok m /\ nth_error l m = Some x /\
  (forall j y, nth_error l j = Some y -> y <= x) /\ (forall j y, (j < m)%nat -> nth_error l j = Some y -> y < x).
Proof.
  intros [|x l] H; [congruence|]. simpl. destruct (argmax_from_spec l O x 1 ltac:(lia)) as [[E K]|[j [y [E [H1 [H2 [H3 H4]]]]]]].
  - exists O, x. rewrite E. split; auto. split; auto. split; [|intros; lia].
    intros j y Hj. destruct j; simpl in Hj; [injection Hj as <-; lia|eapply K; eauto].
  - exists (S j), y. rewrite E. split; auto. split; auto. split.
    + intros k z Hk. destruct k; simpl in Hk; [injection Hk as <-; lia|eapply H3; eauto].
    + intros k z Hkj Hk. destruct k; simpl in Hk; [injection Hk as <-; lia|eapply H4; [|eauto]; lia].
Qed.

Lemma zsum_zero : forall l, (forall j x, nth_error l j = Some x -> x = 0) -> zsum l = 0.
Proof.
  induction l as [|x l IH]; intro H; simpl; auto. pose proof (H O x eq_refl). rewrite IH; [lia|]. intros j y Hj. apply (H (S j) y Hj).
Qed.
Lemma zsum_nonneg : forall l, (forall j x, nth_error l j = Some x -> 0 <= x) -> 0 <= zsum l /\ (zsum l <= 0 -> forall j x, nth_error l j = Some x -> x = 0).
Proof.
  induction l as [|x l IH]; intro H; simpl.
  - split; [lia|]. intros _ j x Hj. destruct j; discriminate.
  - pose proof (H O x eq_refl). destruct IH as [A B]; [intros j y Hj; apply (H (S j) y Hj)|]. split; [lia|].
    intros L j y Hj. destruct j; simpl in Hj; [injection Hj as <-; lia|apply (B ltac:(lia) j y Hj)].
Qed.

Lemma remove_first_In : forall i l j, NoDup l -> (In j (remove_first i l) <-> In j l /\ j <> i).
Proof.
  intros i l j. induction l as [|x l IH]; intro N; simpl; [tauto|]. inversion N; subst. destruct (Nat.eqb_spec i x) as [->|E].
  - split; [intro K; split; [now right|intros ->; contradiction]|intros [[->|K] D]; [congruence|assumption]].
  - simpl. rewrite IH by assumption. split; [intros [->|[K D]]; [split; auto|auto]|intros [[->|K] D]; auto].
Qed.
Lemma remove_first_NoDup : forall i l, NoDup l -> NoDup (remove_first i l).
Proof.
  intros i l. induction l as [|x l IH]; intro N; simpl; auto. inversion N; subst. destruct (Nat.eqb_spec i x); auto.
  constructor; auto. rewrite remove_first_In by assumption. tauto.
Qed.
Lemma remove_first_length : forall i l, In i l -> Z.of_nat (length (remove_first i l)) = Z.of_nat (length l) - 1.
Proof.
  intros i l. induction l as [|x l IH]; intro H; simpl in H; [contradiction|]. cbn [remove_first]. destruct (Nat.eqb_spec i x) as [->|E]; cbn [length]; [lia|].
  destruct H as [H|H]; [congruence|]. specialize (IH H). lia.
Qed.

Lemma lists_length : forall P l l', lists P l -> lists P l' -> length l = length l'.
Proof.
  intros P l l' [N H] [N' H']. apply Permutation_length. apply NoDup_Permutation; auto. intro x. now rewrite H, H'.
Qed.

Lemma drop_from_spec : forall most l viol count, NoDup l ->
  (forall i, In i l -> exists vi ci, nth_error viol i = Some vi /\ nth_error count i = Some ci /\ In most vi) ->
  exists viol' count', drop_from most l viol count = Ok (viol', count') /\ length viol' = length viol /\ length count' = length count /\
    (forall i vi, nth_error viol i = Some vi -> nth_error viol' i = Some (if memn i l then remove_first most vi else vi)) /\
    (forall i ci, nth_error count i = Some ci -> nth_error count' i = Some (if memn i l then ci - 1 else ci)).
Proof.
  intros most l. induction l as [|i l IH]; intros viol count N H.
  - exists viol, count. simpl. auto.
  - simpl drop_from. destruct (H i (or_introl eq_refl)) as [vi [ci [E1 [E2 E3]]]]. rewrite E1, E2.
    apply memn_In in E3. rewrite E3. inversion N; subst.
    destruct (IH (update_nth i (remove_first most vi) viol) (update_nth i (ci - 1) count) H3) as [viol' [count' [A [L1 [L2 [B C]]]]]].
    + intros j Hj. assert (i <> j) by congruence. rewrite !nth_error_update_other by assumption. apply H. now right.
    + exists viol', count'. rewrite update_length in L1, L2. split; [exact A|]. split; [exact L1|]. split; [exact L2|]. split.
      * intros j vj Hj. unfold memn at 1. simpl existsb. destruct (Nat.eqb_spec j i) as [->|D].
        -- rewrite E1 in Hj. injection Hj as <-. rewrite (B i (remove_first most vi)).
           ++ apply memn_false in H2. now rewrite H2.
           ++ apply nth_error_update_same. apply nth_error_Some. congruence.
        -- apply B. rewrite nth_error_update_other by congruence. exact Hj.
      * intros j cj Hj. unfold memn at 1. simpl existsb. destruct (Nat.eqb_spec j i) as [->|D].
        -- rewrite E2 in Hj. injection Hj as <-. rewrite (C i (ci - 1)).
           ++ apply memn_false in H2. now rewrite H2.
           ++ apply nth_error_update_same. apply nth_error_Some. congruence.
        -- apply C. rewrite nth_error_update_other by congruence. exact Hj.
Qed.

Lemma neighbours_spec : forall n i nb j, In j (neighbours (Z.of_nat n) (Z.of_nat i) nb) <-> (j < n)%nat /\ Z.abs (Z.of_nat i - Z.of_nat j) <= nb.
Proof. intros n i nb j. unfold neighbours. rewrite in_seq. lia. Qed.
Lemma neighbours_NoDup : forall n i nb, NoDup (neighbours n i nb).
Proof. intros. apply seq_NoDup. Qed.

Section Removal.
Variables (test : report -> report -> res bool) (t f : string) (nb : Z) (v0 : list report).
Let n := length v0.
(** Violation between the reports at two positions. *)
Variable W : nat -> nat -> Prop.
Hypothesis acc : forall x, x = 0 \/ x = 1 -> accepted (t, f, x).
Hypothesis test_ok : forall i j ri rj, nth_error v0 i = Some ri -> nth_error v0 j = Some rj -> exists b, test rj ri = Ok b /\ (b = true <-> W i j).
Hypothesis test_unch : forall a a' b b', unchanged_but t f a a' -> unchanged_but t f b b' -> test a' b' = test a b.
Hypothesis W_sym : forall i j, W i j -> W j i.
Hypothesis W_irr : forall i, ~ W i i.

Definition V (i j : nat) : Prop := (i < n)%nat /\ (j < n)%nat /\ Z.abs (Z.of_nat i - Z.of_nat j) <= nb /\ W i j.

Lemma V_sym : forall i j, V i j -> V j i.
Proof. intros i j [A [B [C D]]]. repeat split; auto. lia. Qed.

Lemma violations_ok : forall g v i, writes t f g v0 v -> (i < n)%nat -> forall l, (forall j, In j l -> (j < n)%nat) -> NoDup l ->
  exists r, violations test v i l = Ok r /\ NoDup r /\ forall j, In j r <-> In j l /\ W i j.
Proof.
  intros g v i Wr Hi. induction l as [|j l IH]; intros Hl N; simpl.
  - exists []. split; auto. split; [constructor|]. simpl. tauto.
  - destruct (writes_get _ _ _ _ _ i Wr Hi) as [r1 [r1' [A1 [A2 A3]]]].
    destruct (writes_get _ _ _ _ _ j Wr (Hl j (or_introl eq_refl))) as [r2 [r2' [B1 [B2 B3]]]].
    rewrite A2, B2. cbn [bind]. rewrite (test_unch _ _ _ _ B3 A3).
    destruct (test_ok i j r1 r2 A1 B1) as [b [E K]]. rewrite E. cbn [bind].
    inversion N; subst. destruct IH as [r [E' [N' H']]]; [intros; apply Hl; now right|assumption|]. rewrite E'. cbn [bind].
    destruct b.
    + exists (j :: r). split; auto. split; [constructor; auto; rewrite H'; tauto|]. intro x. simpl. rewrite H'.
      pose proof (proj1 K eq_refl). split; [intros [->|[? ?]]; auto|intros [[->|?] ?]; auto].
    + exists r. split; auto. split; auto. intro x. rewrite H'. simpl. split; [tauto|]. intros [[->|?] X]; [|tauto]. apply K in X. discriminate.
Qed.

Lemma table_ok : forall m k g v, writes t f g v0 v -> (k + m = n)%nat ->
  exists viol v' g', violation_table test t f nb (seq k m) v = Ok (viol, v') /\ writes t f g' v0 v' /\ length viol = m /\
    (forall j, (k <= j < n)%nat -> g' j = Some 0) /\ (forall j, (j < k)%nat -> g' j = g j) /\
    (forall j l, nth_error viol j = Some l -> lists (V (k + j)) l).
Proof.
  induction m as [|m IH]; intros k g v Wr Hk; simpl.
  - exists [], v, g. split; auto. split; auto. split; auto. split; [intros; lia|]. split; auto. intros j l H. destruct j; discriminate.
  - destruct (vset_writes t f g v0 v k 0 Wr) as [v1 [E1 W1]]; [unfold n in *; lia|auto|]. rewrite E1. cbn [bind].
    destruct (violations_ok _ v1 k W1 ltac:(lia) (neighbours (Z.of_nat (length v1)) (Z.of_nat k) nb)) as [r [E2 [N2 H2]]].
    { destruct W1 as [L _]. rewrite L. intros j Hj. apply neighbours_spec in Hj. unfold n. tauto. }
    { apply neighbours_NoDup. }
    rewrite E2. cbn [bind]. destruct (IH (S k) _ v1 W1 ltac:(lia)) as [viol [v' [g' [E3 [W3 [L3 [G1 [G2 H3]]]]]]]]. rewrite E3. cbn [bind].
    exists (r :: viol), v', g'. split; auto. split; auto. split; [simpl; lia|]. split; [|split].
    + intros j Hj. destruct (Nat.eq_dec j k) as [->|]; [|apply G1; lia]. rewrite G2 by lia. now rewrite Nat.eqb_refl.
    + intros j Hj. rewrite G2 by lia. destruct (Nat.eqb_spec j k); [lia|reflexivity].
    + intros j l Hj. destruct j; simpl in Hj.
      * injection Hj as <-. split; auto. intro j. rewrite H2. destruct W1 as [L _]. rewrite L, neighbours_spec. unfold V. fold n. rewrite Nat.add_0_r.
        split; [intros [[? ?] ?]; repeat split; auto; lia|intros [? [? [? ?]]]; auto].
      * rewrite <- Nat.add_succ_comm. now apply H3.
Qed.

(** Loop state after removing [rm]. *)
Record state (rm : list nat) (viol : list (list nat)) (count : list Z) : Prop := {
  st_lv : length viol = n; st_lc : length count = n; st_nd : NoDup rm; st_rng : forall i, In i rm -> (i < n)%nat;
  st_viol : forall i l, nth_error viol i = Some l -> ~ In i rm -> open_violations V rm i l;
  st_count : forall i l c, nth_error viol i = Some l -> nth_error count i = Some c -> ~ In i rm -> c = Z.of_nat (length l);
  st_zero : forall i c, nth_error count i = Some c -> In i rm -> c = 0 }.

Lemma nth_ex : forall A (l : list A) i, (i < length l)%nat -> exists x, nth_error l i = Some x.
Proof. intros A l i H. destruct (nth_error l i) eqn:E; eauto. apply nth_error_None in E. lia. Qed.

Lemma count_nonneg : forall rm viol count, state rm viol count -> forall i c, nth_error count i = Some c -> 0 <= c.
Proof.
  intros rm viol count St i c Hc. destruct (in_dec Nat.eq_dec i rm) as [I|I]; [pose proof (st_zero _ _ _ St i c Hc I); lia|].
  destruct (nth_ex _ viol i) as [l Hl]. { rewrite (st_lv _ _ _ St), <- (st_lc _ _ _ St). apply nth_error_Some. congruence. }
  pose proof (st_count _ _ _ St i l c Hl Hc I). lia.
Qed.

Lemma loop_ok : forall fuel rm viol count g v, state rm viol count -> greedy V n rm -> writes t f g v0 v ->
  (forall j, (j < n)%nat -> g j = Some (if memn j rm then 1 else 0)) -> (n <= fuel + length rm)%nat ->
  exists v' rm' g', removal_loop t f fuel viol count v = Ok v' /\ greedy V n rm' /\ writes t f g' v0 v' /\
    (forall j, (j < n)%nat -> g' j = Some (if memn j rm' then 1 else 0)) /\ (forall i j, V i j -> In i rm' \/ In j rm').
Proof.
  induction fuel as [|fuel IH]; intros rm viol count g v St Gr Wr G F; simpl removal_loop;
    (destruct (Z.ltb_spec 0 (zsum count)) as [P|P];
     [|exists v, rm, g; split; [reflexivity|]; split; [exact Gr|]; split; [exact Wr|]; split; [exact G|];
       intros i j Hij; destruct (in_dec Nat.eq_dec i rm) as [I|I]; [now left|]; destruct (in_dec Nat.eq_dec j rm) as [J|J]; [now right|]; exfalso;
       destruct (zsum_nonneg count (count_nonneg _ _ _ St)) as [_ Z0];
       destruct (nth_ex _ viol i) as [l Hl]; [rewrite (st_lv _ _ _ St); apply Hij|];
       destruct (nth_ex _ count i) as [c Hc]; [rewrite (st_lc _ _ _ St); apply Hij|];
       pose proof (Z0 P i c Hc); pose proof (st_count _ _ _ St i l c Hl Hc I);
       destruct (st_viol _ _ _ St i l Hl I) as [_ X]; destruct l; [apply (proj2 (X j)); auto|simpl in *; lia]]).
  - exfalso. assert (zsum count = 0); [|lia]. apply zsum_zero. intros i c Hc. apply (st_zero _ _ _ St i c Hc).
    assert (incl (seq 0 n) rm). { apply NoDup_length_incl; [apply (st_nd _ _ _ St)|rewrite seq_length; lia|].
      intros x Hx. apply in_seq. pose proof (st_rng _ _ _ St x Hx). lia. }
    apply H, in_seq. split; [lia|]. simpl. rewrite <- (st_lc _ _ _ St). apply nth_error_Some. congruence.
  - destruct (np_argmax_spec count) as [m [x [E1 [E2 [E3 E4]]]]]. { intros ->. simpl in P. lia. }
    rewrite E1. cbn [bind].
    assert (Hm : (m < n)%nat) by (rewrite <- (st_lc _ _ _ St); apply nth_error_Some; congruence).
    assert (Xpos : 0 < x).
    { destruct (Z_lt_dec 0 x); auto. exfalso. assert (zsum count = 0); [|lia]. apply zsum_zero. intros j y Hj.
      pose proof (E3 j y Hj). pose proof (count_nonneg _ _ _ St j y Hj). lia. }
    assert (Mrm : ~ In m rm) by (intro I; pose proof (st_zero _ _ _ St m x E2 I); lia).
    destruct (vset_writes t f g v0 v m 1 Wr Hm (acc 1 (or_intror eq_refl))) as [v1 [E5 W1]]. rewrite E5. cbn [bind].
    destruct (nth_ex _ viol m) as [vm Hvm]; [rewrite (st_lv _ _ _ St); exact Hm|]. rewrite Hvm.
    pose proof (st_viol _ _ _ St m vm Hvm Mrm) as [Nvm Ovm].
    pose proof (st_count _ _ _ St m vm x Hvm E2 Mrm) as Cm.
    destruct (drop_from_spec m vm viol count Nvm) as [viol' [count' [E6 [L1 [L2 [D1 D2]]]]]].
    { intros i Hi. apply Ovm in Hi. destruct Hi as [Vi Ni].
      destruct (nth_ex _ viol i) as [vi Hvi]; [rewrite (st_lv _ _ _ St); apply Vi|].
      destruct (nth_ex _ count i) as [ci Hci]; [rewrite (st_lc _ _ _ St); apply Vi|].
      exists vi, ci. split; auto. split; auto. apply (st_viol _ _ _ St i vi Hvi Ni). split; [now apply V_sym|exact Mrm]. }
    rewrite E6. cbn [bind].
    assert (Mvm : ~ In m vm) by (intro I; apply Ovm in I; destruct I as [[_ [_ [_ I]]] _]; now apply (W_irr m)).
    apply (IH (rm ++ [m]) viol' (update_nth m 0 count') (fun j => if Nat.eqb j m then Some 1 else g j) v1).
    + constructor.
      * rewrite L1. apply St.
      * rewrite update_length, L2. apply St.
      * apply (Permutation_NoDup (l := m :: rm)); [apply Permutation_cons_append|]. constructor; [exact Mrm|apply St].
      * intros i Hi. apply in_app_iff in Hi. destruct Hi as [Hi|[<-|[]]]; [now apply (st_rng _ _ _ St)|exact Hm].
      * intros i l Hl Ni. rewrite in_app_iff in Ni. simpl in Ni.
        destruct (nth_ex _ viol i) as [vi Hvi]. { rewrite <- L1. apply nth_error_Some. congruence. }
        pose proof (D1 i vi Hvi) as D. rewrite Hl in D. injection D as ->.
        pose proof (st_viol _ _ _ St i vi Hvi ltac:(tauto)) as [Nvi Ovi].
        destruct (memn i vm) eqn:Mi.
        -- split; [now apply remove_first_NoDup|]. intro j. rewrite remove_first_In by assumption. rewrite Ovi, in_app_iff. simpl.
           split; [intros [[? ?] ?]; split; auto; intros [?|[?|[]]]; congruence|intros [? Hn]; split; [split; auto|intros ->; tauto]].
        -- split; [exact Nvi|]. intro j. rewrite Ovi, in_app_iff. simpl. split; [|tauto]. intros [A B]. split; auto.
           intros [?|[<-|[]]]; [tauto|]. apply memn_false in Mi. apply Mi, Ovm. split; [now apply V_sym|tauto].
      * intros i l c Hl Hc Ni. rewrite in_app_iff in Ni. simpl in Ni.
        rewrite nth_error_update_other in Hc by (intro; subst; tauto).
        destruct (nth_ex _ viol i) as [vi Hvi]. { rewrite <- L1. apply nth_error_Some. congruence. }
        destruct (nth_ex _ count i) as [ci Hci]. { rewrite <- L2. apply nth_error_Some. congruence. }
        pose proof (D1 i vi Hvi) as D. rewrite Hl in D. injection D as ->.
        pose proof (D2 i ci Hci) as D'. rewrite Hc in D'. injection D' as ->.
        pose proof (st_count _ _ _ St i vi ci Hvi Hci ltac:(tauto)) as C.
        destruct (memn i vm) eqn:Mi; [|exact C]. rewrite remove_first_length; [lia|].
        apply memn_In in Mi. apply Ovm in Mi. apply (st_viol _ _ _ St i vi Hvi ltac:(tauto)). split; [now apply V_sym|exact Mrm].
      * intros i c Hc Hi. apply in_app_iff in Hi. destruct (Nat.eq_dec i m) as [->|D].
        -- rewrite nth_error_update_same in Hc by (rewrite L2, (st_lc _ _ _ St); exact Hm). now injection Hc as <-.
        -- rewrite nth_error_update_other in Hc by congruence. destruct Hi as [Hi|[Hi|[]]]; [|congruence].
           destruct (nth_ex _ count i) as [ci Hci]. { rewrite <- L2. apply nth_error_Some. congruence. }
           pose proof (D2 i ci Hci) as D'. rewrite Hc in D'. injection D' as ->.
           destruct (memn i vm) eqn:Mi; [|now apply (st_zero _ _ _ St i ci Hci)]. apply memn_In in Mi. apply Ovm in Mi. tauto.
    + apply (greedy_step V n rm m vm); auto.
      * split; auto.
      * intros ->. simpl in Cm. lia.
      * intros j l' Hj Nj Oj. destruct (nth_ex _ viol j) as [vj Hvj]; [rewrite (st_lv _ _ _ St); exact Hj|].
        destruct (nth_ex _ count j) as [cj Hcj]; [rewrite (st_lc _ _ _ St); exact Hj|].
        pose proof (st_viol _ _ _ St j vj Hvj Nj) as Ovj. pose proof (st_count _ _ _ St j vj cj Hvj Hcj Nj).
        rewrite (lists_length _ _ _ Oj Ovj). pose proof (E3 j cj Hcj).
        destruct (Nat.lt_ge_cases j m) as [Q1|Q1]; [pose proof (E4 j cj Q1 Hcj); left; lia|].
        destruct (Z.eq_dec cj x); [right; lia|left; lia].
    + exact W1.
    + intros j Hj. cbv beta. unfold memn. rewrite existsb_app. simpl. destruct (Nat.eqb_spec j m).
      * now rewrite !orb_true_r.
      * rewrite !orb_false_r. now apply G.
    + rewrite app_length. simpl. lia.
Qed.

Lemma removal_ok : exists v' rm, removal test t f nb v0 = Ok v' /\ greedy V n rm /\ (forall i j, V i j -> In i rm \/ In j rm) /\
  flags_exactly t f (fun i => In i rm) v0 v'.
Proof.
  unfold removal. destruct (table_ok n O (fun _ => None) v0 (writes_refl t f v0) eq_refl) as [viol [v1 [g1 [E [W1 [L [G1 [_ H]]]]]]]].
  fold n. rewrite E. cbn [bind]. destruct W1 as [L1 W1'] eqn:Weq. rewrite L1. fold n.
  destruct (loop_ok n [] viol (map (fun l => Z.of_nat (length l)) viol) g1 v1) as [v' [rm [g' [E2 [Gr [W2 [G2 Fin]]]]]]].
  - constructor; auto; try constructor.
    + now rewrite map_length.
    + intros i [].
    + apply (H i l H0).
    + intro j. rewrite (proj2 (H i l H0) j). simpl. tauto.
    + intros i l c Hl Hc _. rewrite nth_error_map, Hl in Hc. now injection Hc as <-.
    + intros i c _ [].
  - constructor.
  - split; auto.
  - intros j Hj. rewrite G1 by lia. reflexivity.
  - simpl. lia.
  - exists v', rm. split; [exact E2|]. split; [exact Gr|]. split; [exact Fin|].
    eapply writes_flags; [exact W2|]. intros i Hi. rewrite (G2 i Hi). destruct (memn i rm) eqn:Mi.
    + left. split; auto. now apply memn_In.
    + right. split; auto. now apply memn_false.
Qed.
End Removal.

Lemma greedy_violator : forall V n rm i, greedy V n rm -> In i rm -> exists j, V i j.
Proof.
  intros V n rm i G. induction G; intro Hi; [destruct Hi|]. apply in_app_iff in Hi. destruct Hi as [Hi|[<-|[]]]; auto.
  destruct l as [|j l]; [congruence|]. exists j. apply (proj2 H1 j). now left.
Qed.
Lemma greedy_clean : forall V n rm, greedy V n rm -> (forall i j, ~ V i j) -> rm = [].
Proof.
  intros V n rm G H. destruct rm as [|i rm]; auto. destruct (greedy_violator V n (i :: rm) i G (or_introl eq_refl)) as [j Hj]. now apply H in Hj.
Qed.
Lemma greedy_NoDup : forall V n rm, greedy V n rm -> NoDup rm /\ forall i, In i rm -> (i < n)%nat.
Proof.
  intros V n rm G. induction G as [|rm i l G [IH1 IH2]].
  - split; [constructor|]. intros i [].
  - split.
    + apply (Permutation_NoDup (l := i :: rm)); [apply Permutation_cons_append|]. constructor; auto.
    + intros j Hj. apply in_app_iff in Hj. destruct Hj as [Hj|[<-|[]]]; auto.
Qed.
